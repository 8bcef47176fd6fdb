(** C95: the messages of libmicrohttpd in the log. *)
From Coq Require Import String ZArith Bool List Lia.
From Verif Require Import Base BaseFacts LogModel.
Import ListNotations.
Open Scope Z_scope.

(** ** Specification: a format as a sequence of pieces, and the text it stands for *)
Inductive piece := Plain (c : Z) | Percent | Put (modifiers : str) (c : Z) (a : arg) (printed : str).
Definition source (p : piece) : str :=
  match p with Plain c => [c] | Percent => [37; 37] | Put ms c _ _ => 37 :: ms ++ [c] end.
Definition shown (p : piece) : str := match p with Plain c => [c] | Percent => [37] | Put _ _ _ t => t end.
Definition taken (p : piece) : list arg := match p with Put _ _ a _ => [a] | _ => [] end.
(** each conversion has an argument of its type: %s a text, the others a number *)
Definition piece_ok (p : piece) : Prop :=
  match p with
  | Plain c => c <> 37
  | Percent => True
  | Put ms c a t => Forall (fun m => In m (bs "hlzj")) ms /\
      (c = 115 /\ a = Text (Some t) \/ In c (bs "diuxc") /\ a = Number t)
  end.
(** [message fmt args s]: the format [fmt] with the arguments [args] says [s] *)
Definition message (fmt : str) (args : list arg) (s : str) : Prop :=
  exists ps, Forall piece_ok ps /\ fmt = flat_map source ps /\ args = flat_map taken ps /\ s = flat_map shown ps.

Lemma printf_modifiers : forall ms r args, Forall (fun m => In m (bs "hlzj")) ms -> printf (ms ++ r) args true = printf r args true.
Proof.
  induction 1 as [|m ms I F IH]; auto. cbn [app printf]. cbn in I. destruct I as [<-|[<-|[<-|[<-|[]]]]]; exact IH.
Qed.
Lemma printf_message : forall ps r args, Forall piece_ok ps ->
  printf (flat_map source ps ++ r) (flat_map taken ps ++ args) false =
  do t <- printf r args false; Ret (flat_map shown ps ++ t).
Proof.
  intros ps r args F. induction F as [|p ps K F IH]; cbn [flat_map app].
  - destruct (printf r args false); reflexivity.
  - destruct p as [c| |ms c a t]; cbn [source taken shown piece_ok] in *; rewrite <- ?app_assoc; cbn [app printf].
    + replace (c =? 37) with false by (symmetry; apply Z.eqb_neq; exact K). rewrite IH. now destruct (printf r args false).
    + change (37 =? 37) with true. cbv iota. rewrite IH. now destruct (printf r args false).
    + change (37 =? 37) with true. cbv iota. destruct K as [M K]. rewrite <- app_assoc, printf_modifiers by exact M. cbn [app printf].
      destruct K as [[-> ->]|[I ->]].
      * cbn. rewrite IH. destruct (printf r args false); cbn; auto. now rewrite <- app_assoc.
      * cbn in I. destruct I as [<-|[<-|[<-|[<-|[<-|[]]]]]]; cbn; rewrite IH; destruct (printf r args false); cbn; auto; now rewrite <- app_assoc.
Qed.
Lemma printf_ok : forall fmt args s, message fmt args s -> printf fmt args false = Ret s.
Proof.
  intros fmt args s (ps & F & -> & -> & ->). pose proof (printf_message ps [] [] F) as P.
  rewrite !app_nil_r in P. rewrite P. cbn. now rewrite app_nil_r.
Qed.

Lemma message_prefix : forall a fmt args s, ~ In 37 a -> message fmt args s -> message (a ++ fmt) args (a ++ s).
Proof.
  intros a fmt args s N (ps & F & -> & -> & ->). exists (map Plain a ++ ps).
  split; [apply Forall_app; split; auto; apply Forall_map, Forall_forall; intros x I E; subst; contradiction|].
  rewrite !flat_map_app.
  assert (X : flat_map source (map Plain a) = a /\ flat_map taken (map Plain a) = [] /\ flat_map shown (map Plain a) = a).
  { clear. induction a as [|x a (A & B & C)]; cbn; auto. rewrite A, B, C. auto. }
  destruct X as (A & B & C). rewrite A, B, C. auto.
Qed.

(** whatever the message, the text printed is complete: the block has the measured size *)
Lemma log_lemma : forall fmt args s, message fmt args s -> cstr s ->
  mhd_redirect_log fmt args = printf (bs "MHD - " ++ s) [] false.
Proof.
  intros fmt args s M C. unfold mhd_redirect_log.
  assert (P : printf (bs "MHD - " ++ fmt) args false = Ret (bs "MHD - " ++ s)).
  { apply printf_ok, message_prefix; auto. intros X; cbn in X; intuition discriminate. }
  cbv zeta. rewrite P. unfold bind at 1. set (t := bs "MHD - " ++ s) in *.
  assert (Ct : cstr t). { unfold t. apply Forall_app. split; auto. cbn. repeat constructor; lia. }
  unfold vsnprintf. rewrite P. unfold bind at 2. cbv zeta. replace (zlen t + 1 - 1) with (zlen t) by lia.
  assert (Z1 : zfirstn (zlen t) t = t). { unfold zfirstn, zlen. rewrite Nat2Z.id. apply firstn_all. }
  rewrite Z1. assert (L : 0 <= zlen t) by (unfold zlen; lia).
  assert (ML : zlen (malloc (zlen t + 1)) = zlen t + 1) by (unfold zlen at 1, malloc; rewrite repeat_length; lia).
  assert (BL : zlen (block_of (t ++ [0])) = zlen t + 1).
  { unfold zlen, block_of. rewrite map_length, app_length. cbn. lia. }
  rewrite memcpy_ok by lia. unfold bind at 1.
  replace (zfirstn 0 (malloc (zlen t + 1))) with (@nil (option Z)) by reflexivity. cbn [app].
  assert (Z2 : zfirstn (zlen t + 1) (block_of (t ++ [0])) = block_of (t ++ [0])).
  { rewrite <- BL. unfold zfirstn, zlen. rewrite Nat2Z.id. apply firstn_all. }
  rewrite Z2. unfold block_of at 1. rewrite map_app. cbn [map]. rewrite <- app_assoc. cbn [app].
  fold (block_of t). rewrite read_cstr_block by auto. reflexivity.
Qed.

(** C95. A message of libmicrohttpd whose text has no '%' is in the log as it is, after "MHD - ". *)
Theorem C95_text_logged : forall fmt args s, message fmt args s -> cstr s -> ~ In 37 s ->
  mhd_redirect_log fmt args = Ret (bs "MHD - " ++ s).
Proof.
  intros fmt args s M C N. rewrite (log_lemma fmt args s M C). apply printf_ok.
  replace (bs "MHD - " ++ s) with ((bs "MHD - " ++ s) ++ []) by apply app_nil_r. apply message_prefix.
  - intros I. apply in_app_or in I. destruct I as [I|I]; [|contradiction]. cbn in I. intuition discriminate.
  - exists []. repeat split; constructor.
Qed.
Print Assumptions C95_text_logged.

(** C95. The text is used a second time as a format: a message whose text has a conversion, for
    instance a name sent by a client and quoted with %s, is undefined behaviour. *)
Theorem C95_percent_refuted : forall fmt args a b c, message fmt args (a ++ 37 :: c :: b) -> cstr (a ++ 37 :: c :: b) ->
  ~ In 37 a -> In c (bs "sdiuxcn$*.0123456789") -> mhd_redirect_log fmt args = UB BadArgument.
Proof.
  intros fmt args a b c M C N I. rewrite (log_lemma fmt args _ M C).
  assert (G : forall l, ~ In 37 l -> printf (l ++ 37 :: c :: b) [] false = UB BadArgument).
  { clear M C N. induction l as [|x l IH]; intros NI.
    - cbn in I. decompose [or] I; subst; try reflexivity; contradiction.
    - cbn [app printf]. replace (x =? 37) with false by (symmetry; apply Z.eqb_neq; intros ->; apply NI; now left).
      rewrite IH; [reflexivity|]. intros X; apply NI; now right. }
  rewrite app_assoc. apply G. intros X. apply in_app_or in X. destruct X as [X|X]; [cbn in X; intuition discriminate|contradiction].
Qed.
Print Assumptions C95_percent_refuted.

(** C95. A doubled '%' in the text comes out single. *)
Theorem C95_doubled_refuted : forall fmt args a b, message fmt args (a ++ 37 :: 37 :: b) -> cstr (a ++ 37 :: 37 :: b) ->
  ~ In 37 a -> ~ In 37 b -> mhd_redirect_log fmt args = Ret (bs "MHD - " ++ a ++ 37 :: b).
Proof.
  intros fmt args a b M C Na Nb. rewrite (log_lemma fmt args _ M C). apply printf_ok.
  apply message_prefix; [intros X; cbn in X; intuition discriminate|]. apply message_prefix; auto.
  change (37 :: 37 :: b) with (flat_map source [Percent] ++ b). 
  assert (X : message b [] b). { replace b with (b ++ []) by apply app_nil_r. apply message_prefix; auto. exists []. repeat split; constructor. }
  destruct X as (ps & F & E1 & E2 & E3). exists (Percent :: ps). split; [constructor; cbn; auto|]. cbn. rewrite <- E1, <- E2, <- E3. auto.
Qed.
Print Assumptions C95_doubled_refuted.

Definition ex_message : list piece :=
  map Plain (bs "Failed to bind to port ") ++ [Put [] 117 (Number (bs "8080")) (bs "8080")] ++ map Plain (bs ": ")
    ++ [Put [] 115 (Text (Some (bs "in use"))) (bs "in use")].
Lemma ex_plain : forall a, ~ In 37 a -> Forall piece_ok (map Plain a).
Proof. intros a N. apply Forall_map, Forall_forall. intros x I E. cbn in E. subst. contradiction. Qed.
(** a NULL text for a conversion %s, wherever it is in the format: undefined behaviour (C11 7.21.6.1; the C library of GNU prints "(null)") *)
Theorem C95_null_text : forall a ms b args rest s, message a args s -> Forall (fun m => In m (bs "hlzj")) ms ->
  mhd_redirect_log (a ++ 37 :: ms ++ 115 :: b) (args ++ Text None :: rest) = UB NullDeref.
Proof.
  intros a ms b args rest s M FM. destruct (message_prefix (bs "MHD - ") a args s ltac:(intros X; cbn in X; intuition discriminate) M) as (ps & F & E1 & -> & _).
  unfold mhd_redirect_log. cbv zeta. rewrite app_assoc, E1, printf_message by exact F.
  change (printf (37 :: ms ++ 115 :: b) (Text None :: rest) false) with (printf (ms ++ 115 :: b) (Text None :: rest) true).
  rewrite printf_modifiers by exact FM. reflexivity.
Qed.

Example C95_ex :
  message (bs "Failed to bind to port %u: %s") [Number (bs "8080"); Text (Some (bs "in use"))] (bs "Failed to bind to port 8080: in use") /\
  mhd_redirect_log (bs "Failed to bind to port %u: %s") [Number (bs "8080"); Text (Some (bs "in use"))]
    = Ret (bs "MHD - Failed to bind to port 8080: in use") /\
  mhd_redirect_log (bs "Bad header %s") [Text (Some (bs "100%s"))] = UB BadArgument /\
  mhd_redirect_log (bs "Load %lu%%%%") [Number (bs "7")] = Ret (bs "MHD - Load 7%").
Proof.
  split; [|vm_compute; auto]. exists ex_message. split; [|vm_compute; auto].
  unfold ex_message. repeat (apply Forall_app; split); try (apply ex_plain; intros X; cbn in X; intuition discriminate).
  - constructor; [|constructor]. split; [constructor|]. right. split; [cbn; auto|reflexivity].
  - constructor; [|constructor]. split; [constructor|]. left. auto.
Qed.
Print Assumptions C95_null_text.
Example C95_null_ex : mhd_redirect_log (bs "no %u: %s!") [Number (bs "8"); Text None] = UB NullDeref.
Proof. reflexivity. Qed.
