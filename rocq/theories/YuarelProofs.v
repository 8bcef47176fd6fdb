(** Proofs about the URL parser. *)
From Coq Require Import String ZArith Bool List Lia.
From Verif Require Import Base BaseFacts UMapProofs CopyProofs Dec StrModel YuarelModel YuarelSpec.
Import ListNotations.
Open Scope Z_scope.

(** the text [s] is at offset [o] of the block *)
Definition holds (b : buf) (o : nat) (s : str) : Prop :=
  ~ In 0 s /\ forall i c, nth_error (s ++ [0]) i = Some c -> nth_error b (o + i) = Some (Some c).

Lemma holds_lt : forall b o s, holds b o s -> (o + length s < length b)%nat.
Proof.
  intros b o s [_ H]. apply nth_error_Some. erewrite H; [discriminate|]. rewrite nth_error_app2 by lia. rewrite Nat.sub_diag. reflexivity.
Qed.
Lemma holds_zlt : forall b o s, holds b o s -> Z.of_nat o + zlen s < zlen b.
Proof. intros b o s H. apply holds_lt in H. unfold zlen. lia. Qed.

Lemma holds_tail : forall b o x s, holds b o (x ++ s) -> holds b (o + length x) s.
Proof.
  intros b o x s [N H]. split; [intros I; apply N; apply in_app_iff; auto|]. intros i c E. rewrite <- Nat.add_assoc. apply H. rewrite <- app_assoc. rewrite nth_error_app2 by lia.
  replace (length x + i - length x)%nat with i by lia. exact E.
Qed.

Lemma nth_skipn : forall {A} n (l : list A) x, nth_error l n = Some x -> skipn n l = x :: skipn (S n) l.
Proof. induction n as [|n IH]; intros [|y l] x E; try discriminate; cbn in *; [now injection E as ->|]. now apply IH. Qed.

Lemma holds_skipn : forall b o c s, holds b o (c :: s) -> skipn o b = Some c :: skipn (S o) b.
Proof. intros b o c s [_ H]. apply nth_skipn. rewrite <- (Nat.add_0_r o). apply H. reflexivity. Qed.
Lemma holds_skipn_nil : forall b o, holds b o [] -> skipn o b = Some 0 :: skipn (S o) b.
Proof. intros b o [_ H]. apply nth_skipn. rewrite <- (Nat.add_0_r o). apply H. reflexivity. Qed.
Lemma holds_cons : forall b o c s, holds b o (c :: s) -> holds b (S o) s.
Proof. intros b o c s H. replace (S o) with (o + length [c])%nat by (cbn; lia). now apply holds_tail. Qed.

Lemma text_holds : forall s b o, holds b o s -> text_at b (Z.of_nat o) = Ret s.
Proof.
  intros s b o H. unfold text_at, zskipn. rewrite Nat2Z.id. revert o H. induction s as [|c s IH]; intros o H.
  - rewrite (holds_skipn_nil _ _ H). reflexivity.
  - rewrite (holds_skipn _ _ _ _ H). cbn [read_cstr]. destruct (Z.eqb_spec c 0); [subst; destruct H as [N _]; exfalso; apply N; now left|].
    rewrite (IH (S o) (holds_cons _ _ _ _ H)). reflexivity.
Qed.

Lemma load_holds : forall s b o, holds b o s -> load b (Z.of_nat o) = Ret (hd 0 s).
Proof.
  intros s b o H. pose proof (holds_zlt _ _ _ H) as L. pose proof (zlen_nonneg _ s). unfold load.
  replace (0 <=? Z.of_nat o) with true by (symmetry; apply Z.leb_le; lia). replace (Z.of_nat o <? zlen b) with true by (symmetry; apply Z.ltb_lt; lia). cbn [andb]. rewrite Nat2Z.id.
  destruct H as [_ H]. specialize (H 0%nat). rewrite Nat.add_0_r in H. destruct s as [|c s]; rewrite (H _ eq_refl); reflexivity.
Qed.

Definition found (o : nat) (p : str * option str) : option Z := match p with (a, Some _) => Some (Z.of_nat (o + length a)) | (_, None) => None end.
Lemma strchr_holds : forall s b o c, holds b o s -> strchr b (Z.of_nat o) c = Ret (found o (cut c s)) \/ c = 0.
Proof.
  intros s b o c H. destruct (Z.eq_dec c 0) as [|C]; [auto|left]. unfold strchr, zskipn. rewrite Nat2Z.id. revert o H. induction s as [|x s IH]; intros o H.
  - rewrite (holds_skipn_nil _ _ H). cbn [strchr_go cut found]. destruct (Z.eqb_spec 0 c); [congruence|]. reflexivity.
  - rewrite (holds_skipn _ _ _ _ H). cbn [strchr_go cut]. destruct (Z.eqb_spec x c) as [->|]; [cbn [found length]; now rewrite Nat.add_0_r|].
    destruct (Z.eqb_spec x 0); [subst; destruct H as [N _]; exfalso; apply N; now left|].
    replace (Z.of_nat o + 1) with (Z.of_nat (S o)) by lia. rewrite (IH (S o) (holds_cons _ _ _ _ H)). destruct (cut c s) as [a [r|]]; cbn [found length]; [|reflexivity].
    do 3 f_equal. lia.
Qed.

Lemma cut_found : forall c s a r, cut c s = (a, Some r) -> s = a ++ c :: r /\ ~ In c a.
Proof.
  intros c s. induction s as [|x s IH]; intros a r E; [discriminate|]. cbn [cut] in E. destruct (Z.eqb_spec x c) as [->|N].
  - injection E as <- <-. split; [reflexivity|intros []].
  - destruct (cut c s) as [a1 b1]. injection E as <- ->. destruct (IH a1 r eq_refl) as [-> I]. split; [reflexivity|]. intros [->|J]; auto.
Qed.
Lemma cut_none : forall c s a, cut c s = (a, None) -> s = a /\ ~ In c s.
Proof.
  intros c s. induction s as [|x s IH]; intros a E; [injection E as <-; split; [reflexivity|intros []]|]. cbn [cut] in E. destruct (Z.eqb_spec x c) as [->|N]; [discriminate|].
  destruct (cut c s) as [a1 b1]. injection E as <- ->. destruct (IH a1 eq_refl) as [-> I]. split; [reflexivity|]. intros [->|J]; auto.
Qed.
Lemma cut_intro : forall c a r, ~ In c a -> cut c (a ++ c :: r) = (a, Some r).
Proof. intros c a r N. induction a as [|x a IH]; cbn [app cut]; [now rewrite Z.eqb_refl|]. destruct (Z.eqb_spec x c); [subst; exfalso; apply N; now left|]. rewrite IH; [reflexivity|]. intros I. apply N. now right. Qed.
Lemma cut_intro_none : forall c a, ~ In c a -> cut c a = (a, None).
Proof. intros c a N. induction a as [|x a IH]; cbn [cut]; [reflexivity|]. destruct (Z.eqb_spec x c); [subst; exfalso; apply N; now left|]. rewrite IH; [reflexivity|]. intros I. apply N. now right. Qed.

(** a NUL put at offset [k] *)
Lemma store_set : forall b k c, (k < length b)%nat -> store b (Z.of_nat k) c = Ret (set_nth b k (Some c)).
Proof.
  intros b k c L. rewrite store_ok by (unfold zlen; lia). f_equal. unfold zfirstn, zskipn. rewrite Nat2Z.id. replace (Z.to_nat (Z.of_nat k + 1)) with (S k) by lia.
  revert k L. induction b as [|x b IH]; intros [|k] L; cbn [length] in L; [lia|lia|reflexivity|]. cbn [firstn skipn app set_nth]. f_equal. apply (IH k). lia.
Qed.

Lemma holds_other : forall b o s k, holds b o s -> (k < o \/ o + length s < k)%nat -> holds (set_nth b k (Some 0)) o s.
Proof.
  intros b o s k [N H] D. split; [exact N|]. intros i c E. rewrite set_nth_other; [now apply H|].
  assert (i < length (s ++ [0%Z]))%nat by (apply nth_error_Some; congruence). rewrite app_length in *. cbn [length] in *. lia.
Qed.

Lemma holds_split : forall b o a c r, holds b o (a ++ c :: r) ->
  store b (Z.of_nat (o + length a)) 0 = Ret (set_nth b (o + length a) (Some 0)) /\ holds (set_nth b (o + length a) (Some 0)) o a /\ holds (set_nth b (o + length a) (Some 0)) (o + length a + 1) r.
Proof.
  intros b o a c r H. pose proof (holds_lt _ _ _ H) as L. rewrite app_length in L. cbn [length] in L. split; [|split].
  - apply store_set. lia.
  - destruct H as [N H]. split; [intros I; apply N; apply in_app_iff; auto|]. intros i x E. destruct (Nat.eq_dec i (length a)) as [->|D].
    + rewrite set_nth_same by lia. rewrite nth_error_app2 in E by lia. rewrite Nat.sub_diag in E. now injection E as <-.
    + assert (i < length (a ++ [0%Z]))%nat by (apply nth_error_Some; congruence). rewrite app_length in *. cbn [length] in *. rewrite set_nth_other by lia. apply H.
      rewrite nth_error_app1 in E by lia. rewrite <- app_assoc. rewrite nth_error_app1 by lia. exact E.
  - apply holds_other; [|left; lia]. replace (o + length a + 1)%nat with (o + length (a ++ [c]))%nat by (rewrite app_length; cbn; lia). apply holds_tail. now rewrite <- app_assoc.
Qed.

Definition ptr (o : nat) (p : str * option str) : option Z := match p with (a, Some _) => Some (Z.of_nat (o + length a + 1)) | (_, None) => None end.
Definition mark (b : buf) (o : nat) (p : str * option str) : buf := match p with (a, Some _) => set_nth b (o + length a) (Some 0) | (_, None) => b end.
Lemma find_holds : forall b o s c, holds b o s -> c <> 0 ->
  find_and_terminate b (Z.of_nat o) c = Ret (ptr o (cut c s), mark b o (cut c s)) /\
  holds (mark b o (cut c s)) o (fst (cut c s)) /\
  match snd (cut c s) with Some r => holds (mark b o (cut c s)) (o + length (fst (cut c s)) + 1) r | None => True end.
Proof.
  intros b o s c H C. unfold find_and_terminate. destruct (strchr_holds s b o c H) as [->|]; [|congruence]. cbn [bind]. destruct (cut c s) as [a [r|]] eqn:E; cbn [found ptr mark fst snd].
  - apply cut_found in E as [-> N]. destruct (holds_split b o a c r H) as (S & A & B). rewrite S. cbn [bind]. split; [|split; [exact A|exact B]]. do 2 f_equal. f_equal. lia.
  - apply cut_none in E as [-> N]. split; [reflexivity|]. split; [exact H|exact I].
Qed.

(** an optional text at an optional pointer *)
Definition shows (b : buf) (p : option Z) (t : option str) : Prop :=
  match p, t with Some o, Some s => text_at b o = Ret s | None, None => True | _, _ => False end.

Lemma number_mod : forall s r r', r mod two32 = r' mod two32 -> number s r mod two32 = number s r' mod two32.
Proof.
  induction s as [|c s IH]; intros r r' E; [exact E|]. cbn [number]. apply IH. rewrite (Z.add_mod (10 * r)), (Z.mul_mod 10 r), E, <- (Z.mul_mod 10 r'), <- Z.add_mod by (unfold two32; lia). reflexivity.
Qed.
Lemma natoi_holds : forall s b o t r, holds b o (s ++ t) -> exists r', natoi_go b (Z.of_nat o) (length s) r = Ret r' /\ (r = r mod two32 -> r' = number s r mod two32).
Proof.
  induction s as [|c s IH]; intros b o t r H; [exists r; split; [reflexivity|auto]|]. cbn [length natoi_go]. rewrite (load_holds _ _ _ H). cbn [bind app hd].
  replace (Z.of_nat o + 1) with (Z.of_nat (S o)) by lia. destruct (IH b (S o) t ((r * 10 + (schar c - 48)) mod two32) (holds_cons _ _ _ _ H)) as (r' & -> & E). exists r'. split; [reflexivity|]. intros _.
  rewrite E by (rewrite Z.mod_mod; unfold two32; lia). cbn [number]. apply number_mod. rewrite Z.mod_mod by (unfold two32; lia). f_equal. unfold weight_of, schar. lia.
Qed.

Lemma to_int_int : forall n, to_int n = int_of n. Proof. reflexivity. Qed.
Lemma int_of_mod : forall n, int_of (n mod two32) = int_of n.
Proof. intros n. unfold int_of. fold two32. rewrite Z.mod_mod by (unfold two32; lia). reflexivity. Qed.

Lemma nonempty_hd : forall s, ~ In 0 s -> (hd 0 s =? 0) = negb (nonempty s).
Proof. intros [|c s] N; [reflexivity|]. cbn. apply Z.eqb_neq. intros ->. apply N. now left. Qed.

Lemma parse_port_holds : forall b o h path pt, holds b o h ->
  match path with Some p => p = Z.of_nat (o + length h + 1) /\ pt <> None | None => pt = None end -> zlen h < two32 ->
  exists r, parse_port b (Z.of_nat o) path = Ret r /\
    match cut 58 h with
    | (n, None) => r = (Some 0, b)
    | (n, Some p) => snd r = set_nth b (o + length n) (Some 0) /\ fst r = (if nonempty p then Some (port_value p pt) else None)
    end.
Proof.
  intros b o h path pt H P L. unfold parse_port. destruct (strchr_holds h b o 58 H) as [->|]; [|lia]. cbn [bind]. destruct (cut 58 h) as [n [p|]] eqn:E; cbn [found].
  - apply cut_found in E as [-> N]. destruct (holds_split b o n 58 p H) as (ST & A & B). set (b1 := set_nth b (o + length n) (Some 0)) in *.
    assert (G : (match path with None => true | Some q => Z.of_nat (o + length n) <? q end) = true).
    { destruct path; [|reflexivity]. destruct P as [-> _]. apply Z.ltb_lt. rewrite app_length. cbn [length]. lia. }
    rewrite G, ST. cbn [bind]. replace (Z.of_nat (o + length n) + 1) with (Z.of_nat (o + length n + 1)) by lia. rewrite (load_holds _ _ _ B). cbn [bind]. rewrite nonempty_hd by apply B.
    destruct (nonempty p) eqn:NP; cbn [negb]; [|eexists; split; [reflexivity|auto]].
    destruct path as [q|].
    + destruct P as [-> PT]. destruct pt as [pt|]; [|congruence]. unfold natoi. rewrite app_length. cbn [length].
      replace (Z.of_nat (o + (length n + S (length p)) + 1) - Z.of_nat (o + length n + 1) - 1) with (Z.of_nat (length p)) by lia.
      replace (two32 <=? Z.of_nat (length p)) with false by (symmetry; apply Z.leb_gt; unfold zlen in L; rewrite app_length in L; cbn [length] in L; lia). rewrite Nat2Z.id.
      assert (B2 : holds b1 (o + length n + 1) (p ++ [])) by now rewrite app_nil_r.
      destruct (natoi_holds p b1 (o + length n + 1)%nat [] 0 B2) as (r' & -> & R). cbn [bind]. eexists. split; [reflexivity|]. split; [reflexivity|]. cbn [fst]. f_equal. rewrite R by reflexivity.
      rewrite to_int_int, int_of_mod. reflexivity.
    + subst pt. unfold atoi. rewrite (text_holds _ _ _ B). cbn [bind]. eexists. split; [reflexivity|]. split; reflexivity.
  - eexists. split; [reflexivity|]. reflexivity.
Qed.

Lemma length_cut : forall c s, (length (fst (cut c s)) <= length s)%nat.
Proof. intros c s. destruct (cut c s) as [a [r|]] eqn:E; cbn [fst]; [apply cut_found in E as [-> _]; rewrite app_length; lia|apply cut_none in E as [-> _]; lia]. Qed.

Definition stops (k : option nat) (r : str * option str) : option nat := match r with (a, Some _) => Some 0%nat | _ => k end.

(** Everything the parser does to any text. *)
Definition agrees (b : buf) (y : yuarel) (p : parts) : Prop :=
  shows b (y_scheme y) (p_scheme p) /\ shows b (y_username y) (p_user p) /\ shows b (y_password y) (p_pass p) /\ shows b (y_host y) (p_host p) /\
  y_port y = p_port p /\ shows b (y_path y) (p_path p) /\ shows b (y_query y) (p_query p) /\ shows b (y_fragment y) (p_fragment p).

(** a part found by [cut] stays where it is while the parser works on the text before it *)
Definition keeps (b : buf) (lim : nat) (p : option Z) (t : option str) : Prop :=
  match p, t with Some z, Some s => exists o, z = Z.of_nat o /\ holds b o s /\ (lim < o)%nat | None, None => True | _, _ => False end.
Lemma keeps_set : forall b lim p t k, keeps b lim p t -> (k <= lim)%nat -> keeps (set_nth b k (Some 0)) lim p t.
Proof. intros b lim [z|] [s|] k H L; cbn in *; auto. destruct H as (o & -> & H & G). exists o. split; [reflexivity|]. split; [|exact G]. apply holds_other; [exact H|lia]. Qed.
Lemma keeps_mono : forall b lim lim' p t, keeps b lim p t -> (lim' <= lim)%nat -> keeps b lim' p t.
Proof. intros b lim lim' [z|] [s|] H L; cbn in *; auto. destruct H as (o & -> & H & G). exists o. split; [reflexivity|]. split; [exact H|lia]. Qed.
Lemma keeps_shows : forall b lim p t, keeps b lim p t -> shows b p t.
Proof. intros b lim [z|] [s|] H; cbn in *; auto. destruct H as (o & -> & H & _). now apply text_holds. Qed.

(** one cut, with what was found after the text before *)
Lemma find_keeps : forall b o s c p t, holds b o s -> c <> 0 -> keeps b (o + length s) p t ->
  exists b', find_and_terminate b (Z.of_nat o) c = Ret (ptr o (cut c s), b') /\ holds b' o (fst (cut c s)) /\
    keeps b' (o + length (fst (cut c s))) (ptr o (cut c s)) (snd (cut c s)) /\ keeps b' (o + length (fst (cut c s))) p t /\
    (forall o' s', holds b o' s' -> (o' + length s' < o)%nat -> holds b' o' s').
Proof.
  intros b o s c p t H C K. destruct (find_holds b o s c H C) as (E & A & B). exists (mark b o (cut c s)). split; [exact E|]. split; [exact A|]. pose proof (length_cut c s) as L.
  destruct (cut c s) as [a [r|]] eqn:Q; cbn [ptr mark fst snd] in *.
  - apply cut_found in Q as [-> _]. split; [|split].
    + exists (o + length a + 1)%nat. split; [reflexivity|]. split; [exact B|lia].
    + apply keeps_set; [|lia]. eapply keeps_mono; [exact K|lia].
    + intros o' s' H' D. apply holds_other; [exact H'|lia].
  - split; [exact I|]. split; [eapply keeps_mono; [exact K|lia]|auto].
Qed.

Lemma parse_scheme_holds : forall b s p t p2 t2, holds b 0 s -> keeps b (length s) p t -> keeps b (length s) p2 t2 ->
  match cut 58 s with
  | (sch, Some (47 :: 47 :: r)) =>
      if nonempty sch then
        exists b', parse_scheme b 0 = Ret (Some (Z.of_nat (length sch + 3)), b') /\ holds b' 0 sch /\ holds b' (length sch + 3) r /\ length s = (length sch + 3 + length r)%nat /\
          keeps b' (length s) p t /\ keeps b' (length s) p2 t2
      else exists b', parse_scheme b 0 = Ret (None, b')
  | _ => exists b', parse_scheme b 0 = Ret (None, b')
  end.
Proof.
  intros b s p t p2 t2 H K K2. unfold parse_scheme. destruct (strchr_holds s b 0 58 H) as [E|]; [|lia]. change (Z.of_nat 0) with 0 in E. rewrite E. cbn [bind]. clear E.
  destruct (cut 58 s) as [sch [r|]] eqn:E; cbn [found]; [|eexists; reflexivity]. apply cut_found in E as [-> N]. cbn [Nat.add].
  assert (EM : (Z.of_nat (length sch) =? 0) = negb (nonempty sch)) by (destruct sch; reflexivity).
  assert (T1 : holds b (length sch + 1) r) by (replace (length sch + 1)%nat with (0 + length (sch ++ [58%Z]))%nat by (rewrite app_length; reflexivity); apply holds_tail; now rewrite <- app_assoc).
  rewrite EM. replace (Z.of_nat (length sch) + 1) with (Z.of_nat (length sch + 1)) by lia. destruct (nonempty sch) eqn:NE; cbn [negb].
  - rewrite (load_holds _ _ _ T1). cbn [bind]. destruct r as [|c1 r]; cbn [hd]; [eexists; reflexivity|].
    assert (T2 : holds b (length sch + 2) r) by (replace (length sch + 2)%nat with (S (length sch + 1)) by lia; eapply holds_cons; exact T1).
    destruct (Z.eqb_spec c1 47) as [->|D1].
    + cbn [Z.eqb orb negb]. replace (Z.of_nat (length sch) + 2) with (Z.of_nat (length sch + 2)) by lia. rewrite (load_holds _ _ _ T2). cbn [bind]. destruct r as [|c2 r]; cbn [hd]; [eexists; reflexivity|].
      assert (T3 : holds b (length sch + 3) r) by (replace (length sch + 3)%nat with (S (length sch + 2)) by lia; eapply holds_cons; exact T2).
      destruct (Z.eqb_spec c2 47) as [->|D2].
      * cbn [Z.eqb orb negb]. destruct (holds_split b 0 sch 58 (47 :: 47 :: r) H) as (S1 & S2 & S3). cbn [Nat.add] in *. rewrite S1. cbn [bind]. eexists. split; [do 3 f_equal; lia|].
        split; [exact S2|]. split; [apply holds_other; [exact T3|lia]|]. split; [rewrite app_length; cbn [length]; lia|]. rewrite app_length in *. cbn [length] in *. split; (apply keeps_set; [assumption|lia]).
      * rewrite orb_true_r. destruct c2; try (eexists; reflexivity). do 6 (destruct p0; try (eexists; reflexivity)). congruence.
    + rewrite orb_true_r. destruct c1; try (eexists; reflexivity). do 6 (destruct p0; try (eexists; reflexivity)). congruence.
  - destruct r as [|c1 r]; [eexists; reflexivity|]. destruct c1; try (eexists; reflexivity). do 6 (destruct p0; try (eexists; reflexivity)).
    destruct r as [|c2 r]; [eexists; reflexivity|]. destruct c2; try (eexists; reflexivity). do 6 (destruct p0; try (eexists; reflexivity)).
Qed.

Lemma parse_credentials_holds : forall b o a, holds b o a ->
  match user_parts a with
  | Some (n, p, h) => exists b' ho, parse_credentials b (Z.of_nat o) = Ret (Some (Z.of_nat ho, match n with Some _ => Some (Z.of_nat o) | None => None end,
                                                                                match n with Some nn => Some (Z.of_nat (o + length nn + 1)) | None => None end), b') /\
      holds b' ho h /\ (o <= ho)%nat /\ (ho + length h = o + length a)%nat /\
      match n, p with Some n, Some p => holds b' o n /\ holds b' (o + length n + 1) p /\ (o + length n + 1 + length p < ho)%nat | None, None => True | _, _ => False end /\
      (forall o' s', holds b o' s' -> (o' + length s' < o \/ o + length a < o')%nat -> holds b' o' s')
  | None => exists b', parse_credentials b (Z.of_nat o) = Ret (None, b')
  end.
Proof.
  intros b o a H. unfold parse_credentials, user_parts. destruct (strchr_holds a b o 64 H) as [->|]; [|lia]. cbn [bind]. destruct (cut 64 a) as [ui [h|]] eqn:E; cbn [found].
  - apply cut_found in E as [-> N]. destruct (holds_split b o ui 64 h H) as (S1 & S2 & S3). destruct ui as [|x ui].
    + cbn [cut length]. rewrite Nat.add_0_r, Z.eqb_refl. eexists. reflexivity.
    + replace (Z.of_nat (o + length (x :: ui)) =? Z.of_nat o) with false by (symmetry; apply Z.eqb_neq; cbn [length]; lia). rewrite S1. cbn [bind]. set (b1 := set_nth b (o + length (x :: ui)) (Some 0)) in *.
      destruct (strchr_holds (x :: ui) b1 o 58 S2) as [->|]; [|lia]. cbn [bind]. destruct (cut 58 (x :: ui)) as [n [p|]] eqn:E; cbn [found]; [|eexists; reflexivity].
      apply cut_found in E as [E N2]. rewrite E in *. destruct (holds_split b1 o n 58 p S2) as (R1 & R2 & R3). rewrite R1. cbn [bind]. rewrite !app_length in *. cbn [length] in *.
      exists (set_nth b1 (o + length n) (Some 0)), (o + (length n + S (length p)) + 1)%nat. split; [rewrite !(Nat2Z.inj_add _ 1); reflexivity|]. split; [apply holds_other; [exact S3|lia]|]. split; [lia|]. split; [lia|].
      split; [split; [exact R2|split; [exact R3|lia]]|]. intros o' s' H' D. apply (f_equal (@length Z)) in E. rewrite app_length in E. cbn [length] in E. repeat (rewrite app_length in D; cbn [length] in D). apply holds_other; [apply holds_other; [exact H'|]|]; lia.
  - apply cut_none in E as [-> N]. exists b, o. split; [reflexivity|]. split; [exact H|]. split; [lia|]. split; [reflexivity|]. split; [exact I|auto].
Qed.

Lemma keeps_holds : forall b b' lim p t, (forall o s, holds b o s -> (lim < o)%nat -> holds b' o s) -> keeps b lim p t -> keeps b' lim p t.
Proof. intros b b' lim [z|] [s|] F H; cbn in *; auto. destruct H as (o & -> & H & G). exists o. split; [reflexivity|]. split; [auto|exact G]. Qed.

Lemma no0_cut : forall c s, ~ In 0 s -> ~ In 0 (fst (cut c s)).
Proof. intros c s N I. apply N. destruct (cut c s) as [a [r|]] eqn:E; cbn [fst] in I; [apply cut_found in E as [-> _]; apply in_app_iff; auto|apply cut_none in E as [-> _]; exact I]. Qed.

Theorem parse_all : forall s, ~ In 0 s -> zlen s < two32 ->
  exists code b y, yuarel_parse (cblock s) = Ret (code, b, y) /\
    match parse_text s with Some p => code = 0 /\ agrees b y p | None => code = -1 end.
Proof.
  intros s N0 LS.
  assert (H0 : holds (cblock s) 0 s). { split; [exact N0|]. intros i c E. cbn [Nat.add]. unfold cblock, block_of. now apply map_nth_error. }
  unfold yuarel_parse, parse_text. destruct (find_keeps (cblock s) 0 s 35 None None H0 ltac:(lia) I) as (b1 & E1 & H1 & K1 & _ & _).
  change (Z.of_nat 0) with 0 in E1. rewrite E1. cbn [bind]. clear E1. pose proof (length_cut 35 s) as L1. destruct (cut 35 s) as [s1 fragment]. cbn [fst snd Nat.add] in *.
  destruct (find_keeps b1 0 s1 63 _ _ H1 ltac:(lia) K1) as (b2 & E2 & H2 & K2 & K1' & _). change (Z.of_nat 0) with 0 in E2. rewrite E2. cbn [bind]. clear E2 K1. pose proof (length_cut 63 s1) as L2.
  destruct (cut 63 s1) as [s2 query]. cbn [fst snd Nat.add] in *. set (fp := ptr 0 (s1, fragment)) in *. set (qp := ptr 0 (s2, query)) in *.
  pose proof (load_holds _ _ _ H2) as LD. change (Z.of_nat 0) with 0 in LD. rewrite LD. cbn [bind].
  assert (REL : (exists path, s2 = 47 :: path) \/ (hd 0 s2 =? 47) = false).
  { destruct s2 as [|c s2]; [now right|]. cbn [hd]. destruct (Z.eqb_spec c 47) as [->|]; [left; eauto|now right]. }
  destruct REL as [(path & ->)|REL].
  - cbn [hd]. rewrite Z.eqb_refl. cbn [negb]. destruct (find_keeps b2 0 (47 :: path) 47 _ _ H2 ltac:(lia) K2) as (b3 & E3 & H3 & K3 & K2' & FR).
    destruct (find_keeps b2 0 (47 :: path) 47 _ _ H2 ltac:(lia) K1') as (b3' & E3' & _ & _ & K1'' & _). rewrite E3 in E3'. injection E3' as <-.
    change (Z.of_nat 0) with 0 in E3. rewrite E3. cbn [bind]. cbn [cut] in *. rewrite Z.eqb_refl in *. cbn [fst snd ptr] in *. eexists _, _, _. split; [reflexivity|]. cbn beta iota. split; [reflexivity|].
    unfold agrees. cbn [y_scheme y_username y_password y_host y_port y_path y_query y_fragment p_scheme p_user p_pass p_host p_port p_path p_query p_fragment].
    do 3 (split; [exact I|]). split; [exact I|]. split; [reflexivity|]. split; [exact (keeps_shows _ _ _ _ K3)|]. split; [exact (keeps_shows _ _ _ _ K2')|exact (keeps_shows _ _ _ _ K1'')].
  - rewrite REL. cbn [negb].
    assert (NR : forall {A} (x : str -> A) (y : A), match s2 with 47 :: p => x p | _ => y end = y).
    { intros A x y. destruct s2 as [|c s2]; [reflexivity|]. cbn [hd] in REL. destruct c; try reflexivity. do 6 (destruct p; try reflexivity). discriminate. }
    rewrite NR. clear NR.
    pose proof (parse_scheme_holds b2 s2 qp query fp fragment H2 K2 K1') as PS. destruct (cut 58 s2) as [sch rest] eqn:EC.
    assert (FAIL : (exists b', parse_scheme b2 0 = Ret (None, b')) ->
      exists code b y, (do (u, b) <- parse_scheme b2 0; match u with None => Ret (-1, b, yuarel0) | Some host =>
        do c <- load b host; if c =? 0 then Ret (-1, b, yuarel0) else
        do (path, b) <- find_and_terminate b host 47; do (cred, b) <- parse_credentials b host;
        match cred with None => Ret (-1, b, yuarel0) | Some (host, user, pass) =>
            do c <- load b host; if c =? 0 then Ret (-1, b, yuarel0) else do (port, b) <- parse_port b host path;
            match port with None => Ret (-1, b, yuarel0) | Some n => do c <- load b host; if c =? 0 then Ret (-1, b, yuarel0)
                else Ret (0, b, mk_yuarel (Some 0) (Some host) n path qp fp user pass) end end end) = Ret (code, b, y) /\ code = -1).
    { intros (b' & ->). cbn [bind]. eexists _, _, _. split; reflexivity. }
    destruct rest as [[|c1 rest]|]; [apply FAIL; exact PS| |apply FAIL; exact PS].
    destruct (Z.eqb_spec c1 47) as [->|D1]; [|destruct c1; try (apply FAIL; exact PS); do 6 (destruct p; try (apply FAIL; exact PS)); congruence].
    destruct rest as [|c2 r]; [apply FAIL; exact PS|].
    destruct (Z.eqb_spec c2 47) as [->|D2]; [|destruct c2; try (apply FAIL; exact PS); do 6 (destruct p; try (apply FAIL; exact PS)); congruence].
    destruct (nonempty sch); [|apply FAIL; exact PS]. clear FAIL. destruct PS as (b3 & E3 & HS & HR & LEN & KQ & KF). rewrite E3. cbn [bind]. clear E3. set (o := (length sch + 3)%nat) in *.
    rewrite (load_holds _ _ _ HR). cbn [bind]. rewrite nonempty_hd by apply HR.
    rewrite LEN in KQ, KF. destruct (find_keeps b3 o r 47 _ _ HR ltac:(lia) KQ) as (b4 & E4 & HA & KP & KQ' & FR). destruct (find_keeps b3 o r 47 _ _ HR ltac:(lia) KF) as (b4' & E4' & _ & _ & KF' & _).
    rewrite E4 in E4'. injection E4' as <-. rewrite E4. cbn [bind]. clear E4. pose proof (length_cut 47 r) as L4. destruct r as [|c r].
    { cbn [nonempty negb cut]. eexists _, _, _. split; reflexivity. }
    cbn [nonempty negb]. assert (LA : forall x y, cut 47 (c :: r) = (x, Some y) -> (length (c :: r) = length x + 1 + length y)%nat) by (intros x y E; apply cut_found in E as [E _]; rewrite E, app_length; cbn [length]; lia).
    destruct (cut 47 (c :: r)) as [a path] eqn:EP. cbn [fst snd] in *. set (pp := ptr o (a, path)) in *.
    pose proof (parse_credentials_holds b4 o a HA) as PC. destruct (user_parts a) as [[[n p] h]|].
    2: { destruct PC as (b5 & ->). cbn [bind]. eexists _, _, _. split; reflexivity. }
    destruct PC as (b5 & ho & E5 & HH & O1 & O2 & HNP & FR5). rewrite E5. cbn [bind]. clear E5. rewrite (load_holds _ _ _ HH). cbn [bind]. rewrite nonempty_hd by apply HH.
    assert (LH : zlen h < two32) by (unfold zlen in *; lia).
    assert (HS5 : holds b5 0 sch) by (apply FR5; [apply FR; [exact HS|unfold o; lia]|unfold o; lia]).
    assert (KP5 : keeps b5 (o + length a) pp path) by (eapply keeps_holds; [|exact KP]; intros; apply FR5; auto).
    assert (KQ5 : keeps b5 (o + length a) qp query) by (eapply keeps_holds; [|exact KQ']; intros; apply FR5; auto).
    assert (KF5 : keeps b5 (o + length a) fp fragment) by (eapply keeps_holds; [|exact KF']; intros; apply FR5; auto).
    destruct (parse_port_holds b5 ho h pp path HH) as (rp & EPP & RP); [|exact LH|].
    { unfold pp, ptr. destruct path; [|reflexivity]. split; [f_equal; lia|discriminate]. }
    unfold host_parts. destruct h as [|ch h].
    { cbn [nonempty negb cut]. eexists _, _, _. split; reflexivity. }
    cbn [nonempty negb]. rewrite EPP. destruct rp as [port b6]. cbn [bind]. destruct (cut 58 (ch :: h)) as [hn [hp|]] eqn:EH.
    + destruct RP as [R1 R2]. cbn [fst snd] in R1, R2. subst b6 port. apply cut_found in EH as [EH NC]. rewrite EH in HH. destruct (holds_split b5 ho hn 58 hp HH) as (_ & HN & _).
      destruct (nonempty hp) eqn:NH; [|rewrite andb_false_r; eexists _, _, _; split; reflexivity]. rewrite (load_holds _ _ _ HN). cbn [bind]. rewrite nonempty_hd by apply HN. rewrite andb_true_r.
      destruct (nonempty hn); cbn [negb]; [|eexists _, _, _; split; reflexivity]. eexists _, _, _. split; [reflexivity|]. cbn beta iota. split; [reflexivity|].
      unfold agrees. cbn [y_scheme y_username y_password y_host y_port y_path y_query y_fragment p_scheme p_user p_pass p_host p_port p_path p_query p_fragment].
      assert (LL : (length (ch :: h) = length hn + 1 + length hp)%nat) by (rewrite EH, app_length; cbn [length]; lia).
      split; [apply (text_holds sch _ 0%nat); apply holds_other; [exact HS5|unfold o in *; lia]|].
      split; [|split]; [| |split; [exact (text_holds _ _ _ HN)|split; [reflexivity|]]].
      * destruct n as [n|], p as [p|]; try exact I; try (destruct HNP; fail); try contradiction. destruct HNP as (N1 & N2 & N3). apply text_holds. apply holds_other; [exact N1|lia].
      * destruct n as [n|], p as [p|]; try exact I; try contradiction. destruct HNP as (N1 & N2 & N3). apply text_holds. apply holds_other; [exact N2|lia].
      * split; [|split]; (eapply keeps_shows; apply keeps_set; [eassumption|lia]).
    + injection RP as -> ->. rewrite (load_holds _ _ _ HH). cbn [bind]. rewrite nonempty_hd by apply HH. cbn [nonempty negb]. apply cut_none in EH as [EH _]. subst hn. cbn [nonempty].
      eexists _, _, _. split; [reflexivity|]. cbn beta iota. split; [reflexivity|].
      unfold agrees. cbn [y_scheme y_username y_password y_host y_port y_path y_query y_fragment p_scheme p_user p_pass p_host p_port p_path p_query p_fragment].
      split; [exact (text_holds sch _ 0%nat HS5)|].
      split; [|split]; [| |split; [exact (text_holds _ _ _ HH)|split; [reflexivity|]]].
      * destruct n as [n|], p as [p|]; try exact I; try contradiction. destruct HNP as (N1 & N2 & N3). now apply text_holds.
      * destruct n as [n|], p as [p|]; try exact I; try contradiction. destruct HNP as (N1 & N2 & N3). now apply text_holds.
      * split; [|split]; (eapply keeps_shows; eassumption).
Qed.
