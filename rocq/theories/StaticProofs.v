(** Proofs about the callbacks that serve files. *)
From Coq Require Import String ZArith Bool List Lia.
From Verif Require Import Base BaseFacts UMapModel UMapSpec SMap SMapCase StrModel ClientModel StaticModel StaticSpec.
Import ListNotations.
Open Scope Z_scope.

(** inversion of the monad *)
Lemma bind_inv : forall {A B} (x : outcome A) (f : A -> outcome B) b, bind x f = Ret b -> exists a, x = Ret a /\ f a = Ret b.
Proof. intros A B [a|k] f b H; [exists a; auto|discriminate]. Qed.
Ltac inv H := let a := fresh "a" in let X := fresh "X" in apply bind_inv in H as (a & X & H).

Lemma prefixb_app : forall p s, prefixb p s = true -> exists t, s = p ++ t.
Proof.
  induction p as [|c p IH]; intros s H; [exists s; reflexivity|]. destruct s as [|d s]; [discriminate|]. cbn [prefixb] in H. apply andb_true_iff in H as [H1 H2]. apply Z.eqb_eq in H1. subst d.
  destruct (IH s H2) as (t & ->). now exists t.
Qed.
Lemma app_prefixb : forall p t, prefixb p (p ++ t) = true.
Proof. induction p as [|c p IH]; intros t; [reflexivity|]. cbn [app prefixb]. rewrite Z.eqb_refl. apply IH. Qed.

(** a path that may be opened *)
Definition may_open (w : world) (root p : str) : Prop := exists q t, realpath w p = Some q /\ q = root ++ t.
Lemma allowed_may : forall w root p, allowed w root p = true -> may_open w root p.
Proof. intros w root p H. unfold allowed in H. destruct (realpath w p) as [q|] eqn:R; [|discriminate]. apply prefixb_app in H as (t & ->). now exists (root ++ t), t. Qed.

Lemma absent_inv : forall c r x, absent c r = Ret x -> s_body (snd x) = s_body r.
Proof.
  intros c r x H. unfold absent in H. destruct (f_redirect c); [|injection H as <-; reflexivity]. inv H. unfold put_header in X. inv X. injection X as <-. injection H as <-. reflexivity.
Qed.
Lemma describe_inv : forall c n r r', describe c n r = Ret r' -> s_body r' = s_body r /\ s_status r' = s_status r.
Proof.
  intros c n r r' H. unfold describe in H. inv H. inv H. inv H. injection H as <-. unfold put_header in X0. inv X0. injection X0 as <-. auto.
Qed.

Theorem static_opened : forall w c root pos url r ret r' o, f_root c = Some root -> static_file w (Some c) pos url r = Ret (ret, r', o) ->
  (o = [] \/ exists p, o = [p] /\ may_open w root p) /\ match s_body r' with Stream l n => o <> [] -> exists p, o = [p] /\ contents w p = Some l /\ n = zlen l | _ => o = [] end.
Proof.
  intros w c root pos url r ret r' o FR H. unfold static_file in H. destruct (0 <? pos).
  { injection H as <- <- <-. split; [now left|]. destruct (s_body r); try reflexivity. intros X. congruence. }
  rewrite FR in H. inv H. destruct (allowed w root (file_path root a)) eqn:A.
  - destruct (accessible w (file_path root a)).
    + destruct (contents w (file_path root a)) as [l|] eqn:C.
      * inv H. injection H as <- <- <-. cbn [s_body]. split; [right; eexists; split; [reflexivity|now apply allowed_may]|]. intros _. eauto.
      * injection H as <- <- <-. split; [now left|]. destruct (s_body r); try reflexivity. intros Y. congruence.
    + inv H. injection H as <- <- <-. split; [now left|]. destruct (s_body a0); try reflexivity. intros Y. congruence.
  - inv H. injection H as <- <- <-. split; [now left|]. destruct (s_body a0); try reflexivity. intros Y. congruence.
Qed.
Lemma uncompressed_opened : forall w c root url r ret r' o, f_root c = Some root -> uncompressed w c url r = Ret (ret, r', o) ->
  Forall (may_open w root) o /\ (s_body r' = s_body r \/ exists p l, o = [p] /\ contents w p = Some l /\ s_body r' = Stream l (zlen l)).
Proof.
  intros w c root url r ret r' o FR H. unfold uncompressed in H. rewrite FR in H. inv H. destruct (allowed w root (file_path root a)) eqn:A.
  - destruct (contents w (file_path root a)) as [l|] eqn:C.
    + inv H. injection H as <- <- <-. cbn [s_body]. split; [constructor; [now apply allowed_may|constructor]|]. right. eauto.
    + inv H. destruct a0 as [z r0]. injection H as <- <- <-. split; [constructor|]. left. exact (absent_inv _ _ _ X0).
  - inv H. destruct a0 as [z r0]. injection H as <- <- <-. split; [constructor|]. left. exact (absent_inv _ _ _ X0).
Qed.

(** ** The caches *)
Section Zip.
Variable zip : bool -> list Z -> option (list Z).
(** a content that was compressed: read from a file that may be opened, in one of these states of the file system *)
Definition was_read (ws : list world) (root : str) (gz : bool) (z : list Z) : Prop := exists w p l, In w ws /\ may_open w root p /\ contents w p = Some l /\ zip gz l = Some z.
Definition cache_ok (ws : list world) (root : str) (k : caches) : Prop := forall gz n z, In (n, z) (cache_of gz k) -> was_read ws root gz z.
Lemma lookup_in : forall n d z, lookup n d = Some z -> exists n', In (n', z) d.
Proof. intros n d z H. unfold lookup in H. destruct (find (fun p => str_eqb (fst p) n) d) as [[k v]|] eqn:F; [|discriminate]. injection H as <-. apply find_some in F as [F _]. eauto. Qed.
Lemma remember_in : forall n z d x, In x (remember n z d) -> x = (n, z) \/ In x d.
Proof.
  induction d as [|p d IH]; intros x I; cbn [remember] in I; [destruct I as [<-|[]]; auto|]. destruct (str_eqb (fst p) n); [destruct I as [<-|I]; [auto|right; now right]|].
  destruct I as [<-|I]; [right; now left|]. destruct (IH x I) as [->|J]; [auto|right; now right].
Qed.
Lemma was_more : forall w ws root gz z, was_read ws root gz z -> was_read (w :: ws) root gz z.
Proof. intros w ws root gz z (w' & p & l & I & H). exists w', p, l. split; [now right|exact H]. Qed.

(** the headers, as dictionaries *)
Definition settled (c : config) (mime own : smap) : Prop := repr (f_mime c) mime /\ repr (f_headers c) own /\ ovalue_ok (f_redirect c).
Definition type_of (mime : smap) (name : str) : option str := match sval_case mime (filename_ext name) with Some x => Some x | None => sval mime (bs "*") end.
Lemma sval_ok : forall m d k, repr m d -> ovalue_ok (sval d k).
Proof.
  intros m d k R. pose proof (repr_ovalues m d R) as V. unfold sval, sget, sfind. destruct (find (fun p => str_eqb (fst p) k) d) as [p|] eqn:F; [|exact I]. apply find_some in F as [F _]. rewrite Forall_forall in V. exact (V p F).
Qed.
Lemma sval_case_ok : forall m d k, repr m d -> ovalue_ok (sval_case d k).
Proof.
  intros m d k R. pose proof (repr_ovalues m d R) as V. unfold sval_case. destruct (find (is_case k) d) as [p|] eqn:F; [|exact I]. apply find_some in F as [F _]. rewrite Forall_forall in V. specialize (V p F). destruct (snd p); [exact V|]. split; [constructor|reflexivity].
Qed.
Lemma type_eq : forall c mime own name, settled c mime own -> content_type (f_mime c) name = Ret (type_of mime name) /\ ovalue_ok (type_of mime name).
Proof.
  intros c mime own name (M & _). unfold content_type, type_of. rewrite (repr_get_case _ _ _ M). cbn [bind]. destruct (sval_case mime (filename_ext name)) as [x|] eqn:S.
  - split; [reflexivity|]. rewrite <- S. eapply sval_case_ok. exact M.
  - split; [apply (repr_get _ _ _ M)|]. eapply sval_ok. exact M.
Qed.
Lemma put_header_eq : forall r d k v, repr (s_headers r) d -> k <> [] -> ovalue_ok v -> exists r', put_header r k v = Ret r' /\ repr (s_headers r') (sput k v d) /\ s_body r' = s_body r /\ s_status r' = s_status r.
Proof. intros r d k v R K V. destruct (repr_put _ _ k v R K V) as (m & E & R2). unfold put_header. rewrite E. cbn [bind snd]. eexists. split; [reflexivity|]. auto. Qed.
Lemma copy_headers_eq : forall r d c mime own, repr (s_headers r) d -> settled c mime own -> exists m, u_map_copy_into (s_headers r) (f_headers c) = Ret m /\ repr (snd m) (scopy_into d own).
Proof. intros r d c mime own R (_ & O & _). destruct (repr_copy_into _ _ _ _ R O) as (m & E & R2). exists (U_OK, m). auto. Qed.
Lemma describe_eq : forall c mime own r d name, settled c mime own -> repr (s_headers r) d ->
  exists r', describe c name r = Ret r' /\ repr (s_headers r') (scopy_into (sput (bs "Content-Type") (type_of mime name) d) own) /\ s_body r' = s_body r /\ s_status r' = s_status r.
Proof.
  intros c mime own r d name S R. destruct (type_eq c mime own name S) as [T1 T2]. unfold describe. rewrite T1. cbn [bind]. destruct (put_header_eq r d (bs "Content-Type") (type_of mime name) R ltac:(discriminate) T2) as (r1 & E1 & R1 & B1 & S1). rewrite E1. cbn [bind].
  destruct (copy_headers_eq r1 _ c mime own R1 S) as (m & E2 & R2). rewrite E2. cbn [bind]. eexists. split; [reflexivity|]. auto.
Qed.
Lemma absent_eq : forall c mime own r d, settled c mime own -> repr (s_headers r) d -> exists x, absent c r = Ret x /\ s_body (snd x) = s_body r.
Proof.
  intros c mime own r d (_ & _ & V) R. unfold absent. destruct (f_redirect c) as [l|]; [|eexists; split; reflexivity]. destruct (put_header_eq r d (bs "Location") (Some l) R ltac:(discriminate) V) as (r1 & E1 & _ & B & _). rewrite E1. cbn [bind]. eexists. split; [reflexivity|]. exact B.
Qed.
Lemma sget_copy : forall own d k, shas own k = false -> sget (scopy_into d own) k = sget d k.
Proof.
  unfold scopy_into. induction own as [|p own IH]; intros d k H; [reflexivity|]. unfold shas in H. cbn [existsb] in H. apply orb_false_iff in H as [H1 H2]. cbn [fold_left]. rewrite IH by exact H2. apply sget_sput_other.
  intros ->. rewrite str_eqb_refl in H1. discriminate.
Qed.

(** a compressed body, and what the headers say about it *)
Definition labelled (ws : list world) (root : str) (r : sres) : Prop :=
  exists gz z d, s_body r = Bytes z /\ was_read ws root gz z /\ repr (s_headers r) d /\ sval d (bs "Content-Encoding") = Some (encoding_name gz).
(** one request: what is opened, what is answered and what is kept *)
Lemma compressed_step : forall ws w c root mime own k pos headers hd0 url r d name, f_root c = Some root -> settled c mime own -> shas own (bs "Content-Encoding") = false -> cache_ok ws root k ->
  repr (s_headers r) d -> repr headers hd0 -> s_body r = NoBody -> file_requested false (f_prefix c) url = Ret name -> (forall gz l z, zip gz l = Some z -> z <> []) ->
  exists ret r' o k', compressed zip w c k pos headers url r = Ret (ret, r', o, k') /\
  Forall (may_open w root) o /\ cache_ok (w :: ws) root k' /\
  (s_body r' = NoBody \/ (exists p l, may_open w root p /\ contents w p = Some l /\ s_body r' = Stream l (zlen l)) \/ labelled (w :: ws) root r').
Proof.
  intros ws w c root mime own k pos headers hd0 url r d name FR S NO K R RH NB FN ZN. assert (KM : cache_ok (w :: ws) root k) by (intros gz n z I; apply was_more; eapply K; eauto).
  assert (EN : forall gz, ovalue_ok (Some (encoding_name gz))) by (intros []; (split; [apply cstrb_true; reflexivity|reflexivity])).
  assert (UN : exists ret r' o, uncompressed w c url r = Ret (ret, r', o) /\ Forall (may_open w root) o /\ (s_body r' = NoBody \/ exists p l, may_open w root p /\ contents w p = Some l /\ s_body r' = Stream l (zlen l))).
  { unfold uncompressed. rewrite FR, FN. cbn [bind]. destruct (absent_eq c mime own r d S R) as ([za ra] & EA & BA). destruct (allowed w root (file_path root name)) eqn:A.
    - destruct (contents w (file_path root name)) as [l|] eqn:C.
      + destruct (describe_eq c mime own r d name S R) as (r1 & E1 & _). rewrite E1. cbn [bind]. eexists _, _, _. split; [reflexivity|]. split; [constructor; [now apply allowed_may|constructor]|]. right. exists (file_path root name), l. split; [now apply allowed_may|auto].
      + rewrite EA. cbn [bind]. eexists _, _, _. split; [reflexivity|]. split; [constructor|]. left. cbn [snd] in BA. congruence.
    - rewrite EA. cbn [bind]. eexists _, _, _. split; [reflexivity|]. split; [constructor|]. left. cbn [snd] in BA. congruence. }
  destruct UN as (ru & r2 & ou & EU & OU & BU).
  unfold compressed. destruct (0 <? pos); [eexists _, _, _, _; split; [reflexivity|]; split; [constructor|split; [exact KM|now left]]|].
  rewrite FN. cbn [bind]. rewrite (repr_has_case _ _ _ R). unfold bind at 1. rewrite (repr_get_case _ _ _ RH). unfold bind at 1.
  destruct (if shas_case d (bs "Content-Encoding") then None else mode c (sval_case hd0 (bs "Accept-Encoding"))) as [gz|].
  2:{ rewrite EU. cbn [bind]. eexists _, _, _, _. split; [reflexivity|]. split; [exact OU|split; [exact KM|]]. destruct BU; auto. }
  destruct (if f_cache c then lookup name (cache_of gz k) else None) as [z|] eqn:L.
  - assert (WR : was_read (w :: ws) root gz z) by (destruct (f_cache c); [|discriminate]; apply lookup_in in L as (n' & I); eapply KM; exact I).
    assert (NZ : z <> []) by (destruct WR as (w' & p & l & _ & _ & _ & Z); eapply ZN; exact Z).
    assert (RS : repr (s_headers (set_bytes r z)) d) by (destruct z; exact R).
    destruct (put_header_eq (set_bytes r z) d (bs "Content-Encoding") (Some (encoding_name gz)) RS ltac:(discriminate) (EN gz)) as (r1 & E1 & R1 & B1 & _). rewrite E1. cbn [bind].
    destruct (describe_eq c mime own r1 _ name S R1) as (r3 & E3 & R3 & B3 & _). rewrite E3. cbn [bind]. eexists _, _, _, _. split; [reflexivity|]. split; [constructor|split; [exact KM|right; right]].
    exists gz, z. eexists. split; [rewrite B3, B1; destruct z; [congruence|reflexivity]|]. split; [exact WR|]. split; [exact R3|]. unfold sval. rewrite sget_copy by exact NO. rewrite sget_sput_other by discriminate. now rewrite sget_sput_same.
  - rewrite FR. destruct (absent_eq c mime own r d S R) as ([za ra] & EA & BA). destruct (allowed w root (file_path root name)) eqn:A.
    2:{ rewrite EA. cbn [bind]. eexists _, _, _, _. split; [reflexivity|]. split; [constructor|split; [exact KM|left; cbn [snd] in BA; congruence]]. }
    apply allowed_may in A. destruct (contents w (file_path root name)) as [l|] eqn:C.
    2:{ rewrite EA. cbn [bind]. eexists _, _, _, _. split; [reflexivity|]. split; [constructor|split; [exact KM|left; cbn [snd] in BA; congruence]]. }
    destruct (type_eq c mime own name S) as [T1 T2]. rewrite T1. unfold bind at 1.
    destruct (match type_of mime name with Some x => existsb (str_eqb x) (f_compressed c) | None => false end).
    2:{ rewrite EU. cbn [bind]. eexists _, _, _, _. split; [reflexivity|]. split; [constructor; assumption|split; [exact KM|]]. destruct BU; auto. }
    destruct (put_header_eq r d (bs "Content-Type") (type_of mime name) R ltac:(discriminate) T2) as (r1 & E1 & R1 & B1 & _). rewrite E1. unfold bind at 1.
    destruct (copy_headers_eq r1 _ c mime own R1 S) as (m & E3 & R3). rewrite E3. unfold bind at 1. cbv zeta.
    destruct (zlen l =? 0); [eexists _, _, _, _; split; [reflexivity|]; split; [constructor; [exact A|constructor]|split; [exact KM|left; cbn [with_headers s_body]; congruence]]|].
    destruct (zip gz l) as [z|] eqn:ZP; [|eexists _, _, _, _; split; [reflexivity|]; split; [constructor; [exact A|constructor]|split; [exact KM|left; cbn [with_headers s_body]; congruence]]].
    assert (WR : was_read (w :: ws) root gz z) by (exists w, (file_path root name), l; split; [now left|auto]). pose proof (ZN _ _ _ ZP) as NZ.
    assert (RS : repr (s_headers (set_bytes (with_headers r1 (snd m)) z)) (scopy_into (sput (bs "Content-Type") (type_of mime name) d) own)) by (destruct z; exact R3).
    destruct (put_header_eq _ _ (bs "Content-Encoding") (Some (encoding_name gz)) RS ltac:(discriminate) (EN gz)) as (r4 & E4 & R4 & B4 & _). rewrite E4. cbn [bind].
    eexists _, _, _, _. split; [reflexivity|]. split; [constructor; [exact A|constructor]|]. split.
    + destruct (f_cache c); [|exact KM]. intros gz' n z' I. destruct gz, gz'; cbn [keep_in cache_of k_gzip k_deflate] in I; try (eapply (KM true); exact I); try (eapply (KM false); exact I).
      * apply remember_in in I as [I|I]; [injection I as -> ->; exact WR|eapply (KM true); exact I].
      * apply remember_in in I as [I|I]; [injection I as -> ->; exact WR|eapply (KM false); exact I].
    + right; right. exists gz, z. eexists. split; [rewrite B4; destruct z; [congruence|reflexivity]|]. split; [exact WR|]. split; [exact R4|]. unfold sval. now rewrite sget_sput_same.
Qed.
End Zip.

(** ** The name of the file *)
Lemma skip_slash_at : forall n (s : str) rest, hd 0 s <> 47 -> s <> [] \/ rest <> [] /\ hd (Some 0) rest = Some 0 -> skip_slash (block_of (repeat 47 n ++ s) ++ rest) = Ret (block_of s ++ rest).
Proof.
  induction n as [|n IH]; intros s rest H E; cbn [repeat app].
  - destruct s as [|c s]; cbn [block_of map app skip_slash].
    + destruct E as [E|[E1 E2]]; [congruence|]. destruct rest as [|x rest]; [congruence|]. cbn [hd] in E2. subst x. reflexivity.
    + cbn [hd] in H. replace (c =? 47) with false by (symmetry; now apply Z.eqb_neq). reflexivity.
  - unfold block_of. cbn [map app skip_slash]. fold (block_of (repeat 47 n ++ s)). change (47 =? 47) with true. cbv iota. now apply IH.
Qed.
Lemma until_id : forall c s, ~ In c s -> until c s = s.
Proof. induction s as [|x s IH]; intros N; [reflexivity|]. cbn [until]. destruct (Z.eqb_spec x c) as [->|]; [exfalso; apply N; now left|]. rewrite IH by (intros I; apply N; now right). reflexivity. Qed.
Lemma name_of : forall first n m pre name, plain_name name -> ~ In 47 pre -> pre <> [] ->
  file_requested first (Some ((if first then [] else repeat 47 n) ++ pre)) (Some (repeat 47 n ++ pre ++ repeat 47 m ++ name)) = Ret name.
Proof.
  intros first n m pre name (C & NE & H & N1 & N2) P PN. unfold file_requested. unfold cblock. set (u := repeat 47 n ++ pre ++ repeat 47 m ++ name).
  assert (B : block_of (u ++ [0]) = block_of (repeat 47 n ++ (pre ++ repeat 47 m ++ name)) ++ [Some 0]) by (unfold block_of, u; now rewrite map_app).
  assert (G : forall (l r : str) rest, advance (block_of (l ++ r) ++ rest) (length l) = Ret (block_of r ++ rest)).
  { intros l r rest. unfold advance. unfold block_of. rewrite map_app, <- app_assoc. rewrite app_length, map_length. replace (_ <? _)%nat with false by (symmetry; apply Nat.ltb_ge; lia). f_equal.
    rewrite skipn_app, map_length, Nat.sub_diag. rewrite skipn_all2 by (rewrite map_length; lia). reflexivity. }
  assert (Z : exists b, (do b <- (if first then skip_slash (block_of (u ++ [0])) else Ret (block_of (u ++ [0]))); advance b (olen (Some ((if first then [] else repeat 47 n) ++ pre)))) = Ret b /\ b = block_of (repeat 47 m ++ name) ++ [Some 0]).
  { rewrite B. destruct first.
    - rewrite skip_slash_at; [|destruct pre; [congruence|]; intros X; apply P; left; exact X|left; destruct pre; [congruence|discriminate]]. cbn [bind olen app]. eexists. split; [apply G|reflexivity].
    - cbn [bind olen]. rewrite app_assoc. eexists. split; [apply G|reflexivity]. }
  destruct Z as (b & E & ->). unfold bind at 1. unfold bind in E at 1. destruct (if first then skip_slash (block_of (u ++ [0])) else Ret (block_of (u ++ [0]))) as [b0|]; [|discriminate]. rewrite E. unfold bind at 1.
  rewrite skip_slash_at by (auto; left; exact NE). unfold bind at 1. rewrite read_cstr_block by exact C. cbn [bind]. rewrite (until_id 35 name N1), (until_id 63 name N2). destruct name; [congruence|reflexivity].
Qed.
Lemma name_alone : forall first prefix n name, plain_name name -> olen prefix = O -> file_requested first prefix (Some (repeat 47 n ++ name)) = Ret name.
Proof.
  intros first prefix n name (C & NE & H & N1 & N2) P. unfold file_requested, cblock. rewrite P.
  assert (B : block_of ((repeat 47 n ++ name) ++ [0]) = block_of (repeat 47 n ++ name) ++ [Some 0]) by (unfold block_of; now rewrite map_app).
  assert (S : forall n, skip_slash (block_of (repeat 47 n ++ name) ++ [Some 0]) = Ret (block_of name ++ [Some 0])) by (intros m; apply skip_slash_at; [exact H|now left]).
  assert (T : (do b <- (if first then skip_slash (block_of ((repeat 47 n ++ name) ++ [0])) else Ret (block_of ((repeat 47 n ++ name) ++ [0]))); do b <- advance b 0; skip_slash b) = Ret (block_of name ++ [Some 0])).
  { rewrite B. destruct first; [rewrite S; exact (S O)|exact (S n)]. }
  destruct (if first then skip_slash (block_of ((repeat 47 n ++ name) ++ [0])) else Ret (block_of ((repeat 47 n ++ name) ++ [0]))) as [b|]; [|discriminate]. cbn [bind] in T |- *. change (advance b 0) with (@Ret buf b) in *. cbn [bind] in T |- *. rewrite T. cbn [bind].
  rewrite read_cstr_block by exact C. cbn [bind]. rewrite (until_id 35 name N1), (until_id 63 name N2). destruct name; [congruence|reflexivity].
Qed.

(** ** When the name is defined at all *)
Fixpoint drop_slash (s : str) : str := match s with c :: r => if c =? 47 then drop_slash r else s | [] => [] end.
Lemma skip_slash_drop : forall s rest, skip_slash (block_of s ++ Some 0 :: rest) = Ret (block_of (drop_slash s) ++ Some 0 :: rest).
Proof.
  induction s as [|c s IH]; intros rest; [reflexivity|]. change (block_of (c :: s) ++ Some 0 :: rest) with (Some c :: (block_of s ++ Some 0 :: rest)). cbn [skip_slash drop_slash]. destruct (c =? 47); [apply IH|reflexivity].
Qed.
Lemma drop_slash_cstr : forall s, cstr s -> cstr (drop_slash s).
Proof. unfold cstr. induction s as [|c s IH]; intros C; [exact C|]. cbn [drop_slash]. destruct (c =? 47); [apply IH; now inversion C|exact C]. Qed.
Lemma requested_iff : forall (first : bool) prefix u, cstr u -> (olen prefix <= length (if first then drop_slash u else u))%nat <-> exists n, file_requested first prefix (Some u) = Ret n.
Proof.
  intros first prefix u C. unfold file_requested, cblock. set (v := if first then drop_slash u else u).
  assert (V : (if first then skip_slash (block_of (u ++ [0])) else Ret (block_of (u ++ [0]))) = Ret (block_of v ++ [Some 0])).
  { replace (block_of (u ++ [0])) with (block_of u ++ [Some 0]) by (unfold block_of; now rewrite map_app). unfold v. destruct first; [apply skip_slash_drop|reflexivity]. }
  assert (CV : cstr v) by (unfold v; destruct first; [now apply drop_slash_cstr|exact C]). rewrite V. cbn [bind]. unfold advance. set (k := olen prefix).
  assert (LB : length (block_of v ++ [Some 0]) = S (length v)) by (rewrite app_length; unfold block_of; rewrite map_length; cbn [length]; lia). rewrite LB. split.
  - intros L. change (k <= length v)%nat in L. replace (S (length v) <? k)%nat with false by (symmetry; apply Nat.ltb_ge; lia). cbn [bind].
    replace (skipn k (block_of v ++ [Some 0])) with (block_of (skipn k v) ++ [Some 0]).
    2:{ unfold block_of. rewrite skipn_app, map_length, skipn_map. replace (k - length v)%nat with O by lia. reflexivity. }
    rewrite skip_slash_drop. cbn [bind].
    rewrite read_cstr_block; [cbn [bind]; eauto|]. apply drop_slash_cstr. unfold cstr in *. rewrite Forall_forall in *. intros x I. apply CV. rewrite <- (firstn_skipn k v). apply in_or_app. now right.
  - intros (n & H). destruct (le_lt_dec k (length v)) as [L|L]; [exact L|exfalso]. destruct (S (length v) <? k)%nat; [discriminate|]. cbn [bind] in H.
    rewrite skipn_all2 in H; [discriminate|]. rewrite LB. lia.
Qed.

(** ** Runs *)
Section Runs.
Variable zip : bool -> list Z -> option (list Z).
(** the requests one after another, each with the file system of its time: what each opens, and its response *)
Record ask := mk_ask { a_world : world; a_position : Z; a_headers : umap; a_url : option str; a_response : sres }.
Fixpoint serve (c : config) (k : caches) (l : list ask) : outcome (list (list str * sres) * caches) :=
  match l with
  | [] => Ret ([], k)
  | a :: t =>
      do x <- compressed zip (a_world a) c k (a_position a) (a_headers a) (a_url a) (a_response a);
      let '(_, r, o, k) := x in
      do y <- serve c k t;
      Ret ((o, r) :: fst y, snd y)
  end.
End Runs.
