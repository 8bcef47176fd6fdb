(** Proofs about the u_map model. *)
From Coq Require Import ZArith Bool List Lia.
From Verif Require Import Base BaseFacts UMapModel UMapSpec.
Import ListNotations.
Open Scope Z_scope.

Ltac bdestr :=
  match goal with
  | |- context [if ?b then _ else _] => let E := fresh "E" in destruct b eqn:E
  end.

Arguments u_map_put_binary : simpl never.
Arguments u_map_put : simpl never.
Arguments u_map_get : simpl never.
Arguments u_map_remove_at : simpl never.
Arguments memcmp_eq : simpl never.

(** ** Entry-level operations *)

Definition key_is (k : str) (e : entry) : bool := str_eqb (ek e) k.
Definition key_is_case (k : str) (e : entry) : bool := str_caseeqb (ek e) k.

Definition pad (n : Z) (b : buf) : buf := zfirstn n (b ++ repeat None (Z.to_nat n)).

Definition e_upd (v : option buf) (off len : Z) (e : entry) : entry :=
  match v with
  | None => mk_entry (ek e) [Some 0] 0
  | Some b =>
      if el e <? off + len
      then mk_entry (ek e) (pad off (eb e) ++ zfirstn len b ++ [Some 0]) (off + len)
      else mk_entry (ek e) (zfirstn off (eb e) ++ zfirstn len b ++ zskipn (off + len) (eb e)) (el e)
  end.
Definition e_new (k : str) (v : option buf) (off len : Z) : entry :=
  match v with
  | None => mk_entry k [Some 0] (off + len)
  | Some b => mk_entry k (repeat None (Z.to_nat off) ++ zfirstn len b ++ [Some 0]) (off + len)
  end.
Fixpoint e_put (k : str) (v : option buf) (off len : Z) (es : list entry) : list entry :=
  match es with
  | [] => [e_new k v off len]
  | e :: r => if str_eqb (ek e) k then e_upd v off len e :: r else e :: e_put k v off len r
  end.

Lemma find_split : forall (p : entry -> bool) es,
  (exists a e b, es = a ++ e :: b /\ p e = true /\ (forall x, In x a -> p x = false)) \/
  (forall x, In x es -> p x = false).
Proof.
  intros p. induction es as [|e es IH].
  - right. intros x [].
  - destruct (p e) eqn:E.
    + left. exists [], e, es. repeat split; auto. intros x [].
    + destruct IH as [(a & e' & b & -> & P & N)|N].
      * left. exists (e :: a), e', b. repeat split; auto. intros x [->|I]; auto.
      * right. intros x [->|I]; auto.
Qed.

Lemma find_hit : forall A (p : A -> bool) a e b,
  (forall x, In x a -> p x = false) -> p e = true -> find p (a ++ e :: b) = Some e.
Proof.
  intros A p a. induction a as [|x a IH]; intros e b N P; simpl.
  - now rewrite P.
  - rewrite (N x) by (left; auto). apply IH; auto. intros; apply N; right; auto.
Qed.

Lemma find_miss : forall A (p : A -> bool) l, (forall x, In x l -> p x = false) -> find p l = None.
Proof.
  intros A p l. induction l as [|x l IH]; intros N; simpl; auto.
  rewrite (N x) by (left; auto). apply IH. intros; apply N; right; auto.
Qed.

Definition kp (p : str -> bool) (e : entry) := p (ek e).

Lemma scan_null_hit : forall p a e b i,
  (forall x, In x a -> kp p x = false) -> kp p e = true ->
  scan_null (map (fun e => Some (ek e)) (a ++ e :: b) ++ [None]) p i = Ret (Some (i + length a)%nat).
Proof.
  intros p a. induction a as [|x a IH]; intros e b i N P; simpl; unfold kp in *.
  - rewrite P. do 2 f_equal. lia.
  - rewrite (N x) by (left; auto). rewrite IH; auto.
    + do 2 f_equal. lia.
    + intros; apply N; right; auto.
Qed.

Lemma scan_null_miss : forall p es i,
  (forall x, In x es -> kp p x = false) ->
  scan_null (map (fun e => Some (ek e)) es ++ [None]) p i = Ret None.
Proof.
  intros p es. induction es as [|x es IH]; intros i N; simpl; unfold kp in *; auto.
  rewrite (N x) by (left; auto). apply IH. intros; apply N; right; auto.
Qed.

Lemma scan_nb_hit : forall m k a e b pre,
  keys m = map (fun e => Some (ek e)) (pre ++ a ++ e :: b) ++ [None] ->
  (forall x, In x a -> key_is k x = false) -> key_is k e = true ->
  scan_nb m k (length pre) (length (a ++ e :: b)) = Ret (Some (length (pre ++ a))).
Proof.
  intros m k a. induction a as [|x a IH]; intros e b pre K N P.
  - simpl. rewrite K. rewrite map_app. simpl. rewrite <- app_assoc. simpl.
    replace (length pre) with (length (map (fun e => Some (ek e)) pre)) at 1 by apply map_length.
    rewrite aget_mid. simpl. unfold key_is in P. rewrite P. now rewrite app_nil_r.
  - simpl. rewrite K at 1. rewrite map_app. simpl. rewrite <- app_assoc. simpl.
    replace (length pre) with (length (map (fun e => Some (ek e)) pre)) at 1 by apply map_length.
    rewrite aget_mid. simpl. assert (Nx := N x (or_introl eq_refl)). unfold key_is in Nx. rewrite Nx.
    specialize (IH e b (pre ++ [x])).
    rewrite app_length in IH. simpl in IH. rewrite Nat.add_1_r in IH.
    rewrite IH.
    + now rewrite <- app_assoc.
    + rewrite K. now rewrite <- app_assoc.
    + intros; apply N; right; auto.
    + auto.
Qed.

Lemma scan_nb_miss : forall m k es pre,
  keys m = map (fun e => Some (ek e)) (pre ++ es) ++ [None] ->
  (forall x, In x es -> key_is k x = false) ->
  scan_nb m k (length pre) (length es) = Ret None.
Proof.
  intros m k es. induction es as [|x es IH]; intros pre K N; simpl; auto.
  rewrite K at 1. rewrite map_app. simpl. rewrite <- app_assoc. simpl.
  replace (length pre) with (length (map (fun e => Some (ek e)) pre)) at 1 by apply map_length.
  rewrite aget_mid. simpl. assert (Nx := N x (or_introl eq_refl)). unfold key_is in Nx. rewrite Nx.
  specialize (IH (pre ++ [x])). rewrite app_length in IH. simpl in IH. rewrite Nat.add_1_r in IH.
  apply IH.
  - rewrite K. now rewrite <- app_assoc.
  - intros; apply N; right; auto.
Qed.

Lemma null_index_spec : forall es i,
  null_index (map (fun e => Some (ek e)) es ++ [None]) i = Ret (i + length es)%nat.
Proof.
  induction es as [|e es IH]; intros i; simpl.
  - f_equal. lia.
  - rewrite IH. f_equal. lia.
Qed.

Lemma arealloc_grow1 : forall A (l : list A) d n, n = S (length l) -> arealloc l n d = l ++ [d].
Proof.
  intros. subst n. unfold arealloc. rewrite firstn_all2 by lia. replace (S (length l) - length l)%nat with 1%nat by lia.
  reflexivity.
Qed.

Lemma append_arr : forall A (l : list A) d x n,
  n = length l ->
  (do a <- aset (arealloc (l ++ [d]) (n + 2) d) n x; aset a (n + 1) d) = Ret (l ++ [x; d]).
Proof.
  intros A l d x n ->. rewrite arealloc_grow1 by (rewrite app_length; simpl; lia).
  rewrite <- app_assoc. simpl. rewrite aset_mid. simpl.
  replace (l ++ [x; d]) with ((l ++ [x]) ++ d :: []) by (rewrite <- app_assoc; reflexivity).
  replace (length l + 1)%nat with (length (l ++ [x])) by (rewrite app_length; reflexivity).
  rewrite aset_mid. reflexivity.
Qed.

Lemma bind_bind_ret : forall A B C (x : outcome A) (f : A -> outcome B) (g : B -> outcome C),
  bind (bind x f) g = bind x (fun a => bind (f a) g).
Proof. intros. destruct x; reflexivity. Qed.

Lemma store_ok : forall b off c, 0 <= off -> off + 1 <= zlen b ->
  store b off c = Ret (zfirstn off b ++ Some c :: zskipn (off + 1) b).
Proof. intros. unfold store. rewrite memcpy_ok; auto; try lia. unfold zlen; simpl; lia. Qed.

Lemma pad_len : forall n b, 0 <= n -> zlen (pad n b) = n.
Proof.
  intros. unfold pad. apply zlen_zfirstn. rewrite zlen_app. unfold zlen at 2. rewrite repeat_length.
  pose proof (zlen_nonneg _ b). lia.
Qed.

Lemma zfirstn_realloc_pad : forall b n off, 0 <= off -> off <= n -> zlen b <= n ->
  zfirstn off (realloc b n) = pad off b.
Proof.
  intros b n off H0 H1 H2. unfold pad, realloc, zfirstn, zlen in *.
  rewrite (firstn_all2 b) by lia.
  rewrite !firstn_app. f_equal.
  assert (G : forall k m1 m2, (k <= m1)%nat -> (k <= m2)%nat -> firstn k (repeat (@None Z) m1) = firstn k (repeat None m2)).
  { induction k; intros; [reflexivity|]. destruct m1, m2; try lia. simpl. f_equal. apply IHk; lia. }
  apply G; lia.
Qed.

Lemma realloc_len : forall b n, 0 <= n -> zlen (realloc b n) = n.
Proof.
  intros. unfold realloc, zlen, zfirstn. rewrite app_length, firstn_length, repeat_length. lia.
Qed.

Lemma malloc_len : forall n, 0 <= n -> zlen (malloc n) = n.
Proof. intros. unfold malloc, zlen. rewrite repeat_length. lia. Qed.

(** writing len bytes then the terminator at the end of a block of off+len+1 bytes *)
Lemma write_and_terminate : forall b off v len,
  0 <= off -> 0 <= len -> zlen b = off + len + 1 -> len <= zlen v ->
  (do b2 <- memcpy b off v len; store b2 (off + len) 0)
  = Ret (zfirstn off b ++ zfirstn len v ++ [Some 0]).
Proof.
  intros b off v len H0 H1 H2 H3.
  rewrite memcpy_ok by lia. simpl.
  assert (L1 : zlen (zfirstn off b) = off) by (apply zlen_zfirstn; lia).
  assert (L2 : zlen (zfirstn len v) = len) by (apply zlen_zfirstn; lia).
  assert (L3 : zlen (zskipn (off + len) b) = 1) by (rewrite zlen_zskipn; lia).
  rewrite store_ok.
  - rewrite app_assoc. rewrite zfirstn_app_exact by (rewrite zlen_app; lia).
    rewrite <- app_assoc. do 3 f_equal. f_equal.
    apply zlen_0. rewrite zlen_zskipn; rewrite !zlen_app; lia.
  - lia.
  - rewrite !zlen_app. lia.
Qed.

Lemma layout_hit_values : forall m a e b, layout m (a ++ e :: b) ->
  aget (values m) (length a) = Ret (Some (eb e)) /\
  aget (lengths m) (length a) = Ret (el e) /\
  aget (keys m) (length a) = Ret (Some (ek e)).
Proof.
  intros m a e b (K & V & L & N).
  assert (G : forall A (f : entry -> A) l, aget (map f (a ++ e :: b) ++ l) (length a) = Ret (f e)).
  { intros A f l. rewrite map_app. simpl. rewrite <- app_assoc. simpl.
    rewrite <- (map_length f a) at 1. apply aget_mid. }
  rewrite K, V, L. rewrite (G _ el). rewrite (G _ (fun e => Some (eb e))), (G _ (fun e => Some (ek e))). auto.
Qed.

Lemma put_binary_layout : forall m es (k : str) v off len,
  layout m es -> entries_ok es -> k <> [] -> put_binary_ok v off len ->
  exists m', u_map_put_binary m (Some k) v off len = Ret (U_OK, m') /\
             layout m' (e_put k v off len es).
Proof.
  intros m es k v off len Lay OK Kne (O0 & O1 & O2 & OV).
  assert (Lay' := Lay). destruct Lay as (K & V & L & N).
  unfold u_map_put_binary.
  rewrite (add64_small off len) by lia.
  rewrite (add64_small (off + len) 1) by lia.
  replace (off + len + 1 <=? SIZE_MAX) with true by (symmetry; apply Z.leb_le; unfold SIZE_MAX; lia).
  assert (KN : match k with [] => true | _ => false end = false) by (destruct k; congruence).
  rewrite KN. simpl orb. cbv iota.
  destruct (find_split (key_is k) es) as [(a & e & b & E & P & Nn)|Nn].
  - (* existing key *)
    subst es. rewrite N.
    pose proof (scan_nb_hit m k a e b [] K Nn P) as S0. simpl length in S0 at 1. simpl app in S0. rewrite S0.
    unfold bind at 1.
    destruct (layout_hit_values _ _ _ _ Lay') as (GV & GL & GK).
    rewrite GL. unfold bind at 1. rewrite GV. unfold bind at 1.
    assert (EOK : entry_ok e).
    { destruct OK as [F _]. rewrite Forall_forall in F. apply F. apply in_or_app; right; left; auto. }
    destruct EOK as (EK & E0 & E1 & E2 & E3).
    assert (PUT : e_put k v off len (a ++ e :: b) = a ++ e_upd v off len e :: b).
    { clear - P Nn. induction a as [|x a IH]; simpl.
      - unfold key_is in P. now rewrite P.
      - assert (Nx := Nn x (or_introl eq_refl)). unfold key_is in Nx. rewrite Nx. f_equal. apply IH.
        intros; apply Nn; right; auto. }
    rewrite PUT.
    assert (SV : forall x, aset (values m) (length a) (Some x) =
                  Ret (map (fun e => Some (eb e)) a ++ Some x :: (map (fun e => Some (eb e)) b ++ [None]))).
    { intro x. rewrite V, map_app. simpl. rewrite <- app_assoc. simpl.
      rewrite <- (map_length (fun e => Some (eb e)) a). apply aset_mid. }
    assert (SL : forall x, aset (lengths m) (length a) x = Ret (map el a ++ x :: (map el b ++ [0]))).
    { intro x. rewrite L, map_app. simpl. rewrite <- app_assoc. simpl.
      rewrite <- (map_length el a). apply aset_mid. }
    assert (FIN : forall e' , ek e' = ek e ->
       layout (mk_umap (keys m) (map (fun e => Some (eb e)) a ++ Some (eb e') :: (map (fun e => Some (eb e)) b ++ [None]))
                 (map el a ++ el e' :: (map el b ++ [0])) (length (a ++ e :: b))) (a ++ e' :: b)).
    { intros e' Ek. unfold layout; simpl. rewrite K, !map_app. simpl. rewrite Ek, <- !app_assoc. simpl.
      repeat split; auto. rewrite !app_length. reflexivity. }
    destruct v as [v|].
    + destruct (el e <? off + len) eqn:G.
      * apply Z.ltb_lt in G. cbv iota.
        pose proof (write_and_terminate (realloc (eb e) (off + len + 1)) off v len) as W.
        rewrite realloc_len in W by lia. specialize (W O0 O1 eq_refl OV).
        unfold bind in W. unfold bind at 1.
        destruct (memcpy (realloc (eb e) (off + len + 1)) off v len) as [b2|]; [|discriminate].
        rewrite W. unfold bind at 1. rewrite SV. unfold bind at 1. rewrite SL. unfold bind at 1.
        eexists. split; [reflexivity|].
        rewrite zfirstn_realloc_pad by lia.
        assert (EU : e_upd (Some v) off len e = mk_entry (ek e) (pad off (eb e) ++ zfirstn len v ++ [Some 0]) (off + len)).
        { unfold e_upd. replace (el e <? off + len) with true by (symmetry; apply Z.ltb_lt; lia). reflexivity. }
        rewrite EU. apply (FIN (mk_entry (ek e) _ _)). reflexivity.
      * apply Z.ltb_ge in G. cbv iota.
        rewrite memcpy_ok by lia. unfold bind at 1. rewrite SV. unfold bind at 1.
        eexists. split; [reflexivity|].
        assert (EU : e_upd (Some v) off len e =
           mk_entry (ek e) (zfirstn off (eb e) ++ zfirstn len v ++ zskipn (off + len) (eb e)) (el e)).
        { unfold e_upd. replace (el e <? off + len) with false by (symmetry; apply Z.ltb_ge; lia). reflexivity. }
        rewrite EU.
        replace (lengths m) with (map el a ++ el e :: (map el b ++ [0]))
          by (rewrite L, map_app, <- app_assoc; reflexivity).
        apply (FIN (mk_entry (ek e) _ _)). reflexivity.
    + rewrite SV. unfold bind at 1. rewrite SL. unfold bind at 1.
      eexists. split; [reflexivity|]. apply (FIN (mk_entry (ek e) [Some 0] 0)). reflexivity.
  - (* new key *)
    rewrite N. pose proof (scan_nb_miss m k es [] K Nn) as S0. simpl length in S0 at 1. rewrite S0.
    unfold bind at 1.
    assert (GV : aget (values m) (length es) = Ret None).
    { rewrite V. rewrite <- (map_length (fun e => Some (eb e)) es). apply aget_mid. }
    rewrite GV. unfold bind at 1.
    assert (PUT : e_put k v off len es = es ++ [e_new k v off len]).
    { clear - Nn. induction es as [|x es IH]; simpl; auto.
      assert (Nx := Nn x (or_introl eq_refl)). unfold key_is in Nx. rewrite Nx. f_equal. apply IH.
      intros; apply Nn; right; auto. }
    rewrite PUT.
    set (NEW := match v with Some v0 => _ | None => _ end).
    assert (NV : NEW = Ret (eb (e_new k v off len))).
    { unfold NEW, e_new. destruct v as [v|].
      - rewrite write_and_terminate; try lia.
        + simpl. f_equal. f_equal. unfold malloc, zfirstn.
          assert (G : forall k m1, (k <= m1)%nat -> firstn k (repeat (@None Z) m1) = repeat None k).
          { clear. induction k; intros; [reflexivity|]. destruct m1; try lia. simpl. f_equal. apply IHk; lia. }
          apply G. lia.
        + rewrite malloc_len; lia.
      - reflexivity. }
    rewrite NV. unfold bind at 1. rewrite K, null_index_spec. unfold bind at 1. simpl plus.
    rewrite V, L.
    pose proof (append_arr (option str) (map (fun e => Some (ek e)) es) None (Some k) (length es) (eq_sym (map_length _ _))) as A1.
    pose proof (append_arr (option buf) (map (fun e => Some (eb e)) es) None (Some (eb (e_new k v off len))) (length es) (eq_sym (map_length _ _))) as A2.
    pose proof (append_arr _ (map el es) 0 (off + len) (length es) (eq_sym (map_length _ _))) as A3.
    unfold bind in A1, A2, A3 |- *.
    match type of A1 with context [match ?x with Ret _ => _ | UB _ => _ end] => destruct x; [|discriminate] end.
    rewrite A1.
    match type of A2 with context [match ?x with Ret _ => _ | UB _ => _ end] => destruct x; [|discriminate] end.
    rewrite A2.
    match type of A3 with context [match ?x with Ret _ => _ | UB _ => _ end] => destruct x; [|discriminate] end.
    rewrite A3.
    eexists. split; [reflexivity|].
    unfold layout; simpl. rewrite !map_app. simpl. rewrite <- !app_assoc. simpl.
    assert (EKn : ek (e_new k v off len) = k) by (unfold e_new; destruct v; reflexivity).
    assert (ELn : el (e_new k v off len) = off + len) by (unfold e_new; destruct v; reflexivity).
    rewrite EKn, ELn. repeat split; auto. rewrite app_length. simpl. lia.
Qed.

Lemma e_put_keys : forall k v off len es x, In x (map ek (e_put k v off len es)) -> In x (map ek es) \/ x = k.
Proof.
  intros k v off len es. induction es as [|e es IH]; intros x I; simpl in *.
  - destruct I as [<-|[]]. right. unfold e_new; destruct v; reflexivity.
  - destruct (str_eqb (ek e) k) eqn:E; simpl in I.
    + assert (ek (e_upd v off len e) = ek e) by (unfold e_upd; destruct v; [bdestr|]; reflexivity).
      rewrite H in I. tauto.
    + destruct I as [<-|I]; auto. apply IH in I. tauto.
Qed.

Lemma e_upd_key : forall v off len e, ek (e_upd v off len e) = ek e.
Proof. intros. unfold e_upd; destruct v; [bdestr|]; reflexivity. Qed.

Lemma e_put_nodup : forall k v off len es, NoDup (map ek es) -> NoDup (map ek (e_put k v off len es)).
Proof.
  intros k v off len es. induction es as [|e es IH]; intros N; simpl in *.
  - constructor; [intros []|constructor].
  - inversion N; subst. destruct (str_eqb (ek e) k) eqn:E; simpl.
    + rewrite e_upd_key. constructor; auto.
    + constructor; auto. intros C. apply e_put_keys in C as [C|C]; auto.
      apply str_eqb_neq in E. congruence.
Qed.

Lemma entry_ok_intro : forall k v l, k <> [] -> l + 1 < two64 -> zlen v = l -> entry_ok (mk_entry k (v ++ [Some 0]) l).
Proof.
  intros k v l K B L. unfold entry_ok, evalue; simpl. pose proof (zlen_nonneg _ v).
  rewrite zfirstn_app_exact by lia. rewrite zlen_app. repeat split; auto; try lia.
  rewrite L. reflexivity.
Qed.

Lemma e_upd_ok : forall v off len e, put_binary_ok v off len -> entry_ok e -> entry_ok (e_upd v off len e).
Proof.
  intros v off len [k b l] (O0 & O1 & O2 & OV) (EK & E0 & E1 & E2 & E3). simpl in *. unfold e_upd.
  destruct v as [v|].
  - simpl. bdestr.
    + apply Z.ltb_lt in E. rewrite app_assoc. apply entry_ok_intro; auto; try lia.
      rewrite zlen_app, pad_len, zlen_zfirstn; lia.
    + apply Z.ltb_ge in E.
      assert (zskipn (off + len) b = zskipn (off + len) (zfirstn l b) ++ [Some 0]).
      { rewrite E2 at 1. unfold evalue; simpl. unfold zskipn. rewrite skipn_app.
        assert (LL : zlen (zfirstn l b) = l) by (apply zlen_zfirstn; lia).
        replace (Z.to_nat (off + len) - length (zfirstn l b))%nat with 0%nat by (unfold zlen in LL; lia).
        reflexivity. }
      rewrite H. rewrite !app_assoc. apply entry_ok_intro; auto.
      assert (LL : zlen (zfirstn l b) = l) by (apply zlen_zfirstn; lia).
      rewrite !zlen_app, !zlen_zfirstn, zlen_zskipn; lia.
  - simpl. apply (entry_ok_intro k [] 0); auto. unfold two64; lia.
Qed.

Lemma e_new_ok : forall k v off len, k <> [] -> put_binary_ok v off len -> entry_ok (e_new k v off len).
Proof.
  intros k v off len K (O0 & O1 & O2 & OV). unfold e_new. destruct v as [v|].
  - rewrite app_assoc. apply entry_ok_intro; auto; try lia.
    rewrite zlen_app, zlen_zfirstn by lia. unfold zlen. rewrite repeat_length. lia.
  - rewrite OV. apply (entry_ok_intro k [] 0); auto. unfold two64; lia.
Qed.

Lemma e_put_ok : forall k v off len es, k <> [] -> put_binary_ok v off len ->
  entries_ok es -> entries_ok (e_put k v off len es).
Proof.
  intros k v off len es K P [F N]. split; [|now apply e_put_nodup].
  clear N. induction es as [|e es IH]; simpl.
  - constructor; auto. now apply e_new_ok.
  - inversion F; subst. bdestr; constructor; auto. now apply e_upd_ok.
Qed.

Lemma e_find_put_same : forall k v off len es, exists e', 
  find (key_is k) (e_put k v off len es) = Some e' /\
  e' = match find (key_is k) es with Some e => e_upd v off len e | None => e_new k v off len end.
Proof.
  intros k v off len es. induction es as [|e es IH]; simpl.
  - unfold key_is at 1. assert (ek (e_new k v off len) = k) by (unfold e_new; destruct v; reflexivity).
    rewrite H, str_eqb_refl. eauto.
  - destruct (str_eqb (ek e) k) eqn:E; simpl; unfold key_is at 1.
    + rewrite e_upd_key, E. unfold key_is. rewrite E. eauto.
    + rewrite E. unfold key_is at 2. rewrite E. apply IH.
Qed.

Lemma e_find_put_other : forall k k' v off len es, k' <> k ->
  find (key_is k') (e_put k v off len es) = find (key_is k') es.
Proof.
  intros k k' v off len es D. induction es as [|e es IH]; simpl.
  - unfold key_is. assert (ek (e_new k v off len) = k) by (unfold e_new; destruct v; reflexivity).
    rewrite H. assert (E := proj2 (str_eqb_neq k k') (not_eq_sym D)). now rewrite E.
  - destruct (str_eqb (ek e) k) eqn:E; simpl.
    + apply str_eqb_eq in E. unfold key_is at 1 3. rewrite e_upd_key, E.
      assert (E' := proj2 (str_eqb_neq k k') (not_eq_sym D)). now rewrite E'.
    + unfold key_is at 1 3. bdestr; auto.
Qed.

(** ** Removal *)

Lemma shift_loop_spec : forall A (c a : list A) x,
  shift_loop (a ++ x :: c) (length a) (length c) = Ret (a ++ c ++ [last c x]).
Proof.
  intros A c. induction c as [|y c IH]; intros a x; simpl.
  - reflexivity.
  - replace (a ++ x :: y :: c) with ((a ++ [x]) ++ y :: c) by (rewrite <- app_assoc; reflexivity).
    replace (length a + 1)%nat with (length (a ++ [x])) by (rewrite app_length; reflexivity).
    rewrite aget_mid. simpl. rewrite <- app_assoc. simpl. rewrite aset_mid. simpl.
    replace (a ++ y :: y :: c) with ((a ++ [y]) ++ y :: c) by (rewrite <- app_assoc; reflexivity).
    replace (S (length a)) with (length (a ++ [y])) by (rewrite app_length; simpl; lia).
    rewrite IH. rewrite <- app_assoc. simpl. do 4 f_equal.
    destruct c as [|z c]; [reflexivity|]. f_equal.
    clear. revert z. induction c as [|w c IH]; intros z; [reflexivity|]. apply (IH w).
Qed.

Lemma remove_at_layout : forall m a e b, layout m (a ++ e :: b) ->
  exists m', u_map_remove_at m (Z.of_nat (length a)) = Ret (U_OK, m') /\ layout m' (a ++ b).
Proof.
  intros m a e b Lay. assert (Lay' := Lay). destruct Lay as (K & V & L & N).
  unfold u_map_remove_at.
  assert (NB : nb_values m = (length a + S (length b))%nat) by (rewrite N, app_length; reflexivity).
  replace (Z.of_nat (length a) <? 0) with false by (symmetry; apply Z.ltb_ge; lia).
  replace (Z.of_nat (nb_values m) <=? Z.of_nat (length a)) with false by (symmetry; apply Z.leb_gt; lia).
  rewrite Nat2Z.id.
  destruct (layout_hit_values _ _ _ _ Lay') as (GV & GL & GK).
  rewrite GK, GV. unfold bind at 1 2.
  replace (nb_values m - length a)%nat with (S (length b)) by lia.
  assert (G : forall A (f : entry -> A) d,
     shift_loop (map f (a ++ e :: b) ++ [d]) (length a) (S (length b)) = Ret ((map f (a ++ b) ++ [d]) ++ [d])).
  { intros A f d. rewrite !map_app. cbn [map]. rewrite <- !app_assoc. cbn [app].
    rewrite <- (map_length f a).
    replace (S (length b)) with (length (map f b ++ [d])) by (rewrite app_length, map_length; simpl; lia).
    rewrite shift_loop_spec. rewrite last_last. rewrite <- !app_assoc. reflexivity. }
  rewrite K, (G _ (fun e => Some (ek e)) None). unfold bind at 1.
  rewrite V, (G _ (fun e => Some (eb e)) None). unfold bind at 1.
  rewrite L, (G _ el 0). unfold bind at 1.
  eexists. split; [reflexivity|].
  assert (F : forall A (f : entry -> A) d,
     firstn (nb_values m) ((map f (a ++ b) ++ [d]) ++ [d]) = map f (a ++ b) ++ [d]).
  { intros A f d. rewrite firstn_app.
    assert (length (map f (a ++ b) ++ [d]) = nb_values m) by (rewrite app_length, map_length, app_length; simpl; lia).
    rewrite H, Nat.sub_diag, firstn_O, app_nil_r. rewrite <- H. apply firstn_all. }
  unfold layout; simpl. rewrite !F. repeat split. rewrite app_length. lia.
Qed.

Section RemoveLoop.
  Variable test : umap -> nat -> outcome bool.
  Variable tp : entry -> outcome bool.
  Hypothesis test_tp : forall m a e b, layout m (a ++ e :: b) -> test m (length a) = tp e.

  Definition tpb (e : entry) : bool := match tp e with Ret b => b | UB _ => false end.

  Lemma remove_loop_defined : forall pre post m found,
    layout m (pre ++ post) -> (forall e, In e pre -> defined (tp e)) ->
    exists m', remove_loop test m (length pre) found =
                 Ret (if found || existsb tpb pre then U_OK else U_ERROR_NOT_FOUND, m') /\
               layout m' (filter (fun e => negb (tpb e)) pre ++ post).
  Proof.
    intro pre. induction pre as [|e pre IH] using rev_ind; intros post m found Lay D.
    - simpl. rewrite orb_false_r. eauto.
    - rewrite app_length, Nat.add_1_r. simpl.
      rewrite <- app_assoc in Lay. simpl in Lay.
      rewrite (test_tp m pre e post Lay).
      assert (De : defined (tp e)) by (apply D; apply in_or_app; right; left; auto).
      assert (Dp : forall e, In e pre -> defined (tp e)) by (intros; apply D; apply in_or_app; auto).
      rewrite existsb_app, filter_app. simpl. unfold tpb at 2 4.
      destruct (tp e) as [hit|]; [|contradiction]. simpl.
      destruct hit; simpl.
      + destruct (remove_at_layout _ _ _ _ Lay) as (m1 & R & L1).
        rewrite R. simpl. destruct (IH post m1 true L1 Dp) as (m2 & R2 & L2).
        exists m2. rewrite R2. rewrite orb_true_r, orb_true_r. simpl. rewrite app_nil_r. auto.
      + destruct (IH (e :: post) m found Lay Dp) as (m2 & R2 & L2).
        exists m2. rewrite R2. rewrite orb_false_r. rewrite <- app_assoc. auto.
  Qed.

  Lemma remove_loop_outcome : forall pre post m found,
    layout m (pre ++ post) ->
    match remove_loop test m (length pre) found with
    | Ret _ => forall e, In e pre -> defined (tp e)
    | UB k => exists e, In e pre /\ tp e = UB k
    end.
  Proof.
    intro pre. induction pre as [|e pre IH] using rev_ind; intros post m found Lay.
    - simpl. intros e [].
    - rewrite app_length, Nat.add_1_r. simpl.
      rewrite <- app_assoc in Lay. simpl in Lay.
      rewrite (test_tp m pre e post Lay).
      destruct (tp e) as [hit|k] eqn:T; simpl.
      + assert (H : forall (X : outcome (Z * umap)), (exists m1 p1 f1, layout m1 (pre ++ p1) /\ X = remove_loop test m1 (length pre) f1) ->
           match X with
           | Ret _ => forall e0, In e0 (pre ++ [e]) -> defined (tp e0)
           | UB k => exists e0, In e0 (pre ++ [e]) /\ tp e0 = UB k end).
        { intros X (m1 & p1 & f1 & Lx & ->). specialize (IH p1 m1 f1 Lx).
          destruct (remove_loop test m1 (length pre) f1).
          - intros e0 I. apply in_app_or in I as [I|[<-|[]]]; auto. rewrite T. exact I.
          - destruct IH as (e0 & I & T0). exists e0. split; auto. apply in_or_app; auto. }
        apply H. destruct hit.
        * destruct (remove_at_layout _ _ _ _ Lay) as (m1 & R & L1). rewrite R. simpl. eauto.
        * eauto.
      + exists e. split; auto. apply in_or_app; right; left; auto.
  Qed.
End RemoveLoop.

Lemma test_key_tp : forall k m a e b, layout m (a ++ e :: b) ->
  test_key k m (length a) = Ret (key_is k e).
Proof.
  intros. destruct (layout_hit_values _ _ _ _ H) as (GV & GL & GK).
  unfold test_key. rewrite GK. reflexivity.
Qed.
Lemma test_key_case_tp : forall k m a e b, layout m (a ++ e :: b) ->
  test_key_case k m (length a) = Ret (key_is_case k e).
Proof.
  intros. destruct (layout_hit_values _ _ _ _ H) as (GV & GL & GK).
  unfold test_key_case. rewrite GK. reflexivity.
Qed.
Lemma test_value_tp : forall v len m a e b, layout m (a ++ e :: b) ->
  test_value v len m (length a) = memcmp_eq (eb e) v len.
Proof.
  intros. destruct (layout_hit_values _ _ _ _ H) as (GV & GL & GK).
  unfold test_value. rewrite GV. reflexivity.
Qed.
Lemma test_value_case_tp : forall v m a e b, layout m (a ++ e :: b) ->
  test_value_case v m (length a) = strcasecmp_block (eb e) v.
Proof.
  intros. destruct (layout_hit_values _ _ _ _ H) as (GV & GL & GK).
  unfold test_value_case. rewrite GV. reflexivity.
Qed.

Lemma remove_key_layout : forall m es k, layout m es ->
  exists m', u_map_remove_from_key m (Some k) =
      Ret (if existsb (key_is k) es then U_OK else U_ERROR_NOT_FOUND, m') /\
    layout m' (filter (fun e => negb (key_is k e)) es).
Proof.
  intros m es k Lay. unfold u_map_remove_from_key.
  assert (N := Lay). destruct N as (_ & _ & _ & ->).
  destruct (remove_loop_defined (test_key k) (fun e => Ret (key_is k e)) (test_key_tp k) es [] m false)
    as (m' & R & L').
  - now rewrite app_nil_r.
  - simpl; auto.
  - exists m'. rewrite app_nil_r in L'. split; assumption.
Qed.

Lemma remove_key_case_layout : forall m es k, layout m es ->
  exists m', u_map_remove_from_key_case m (Some k) =
      Ret (if existsb (key_is_case k) es then U_OK else U_ERROR_NOT_FOUND, m') /\
    layout m' (filter (fun e => negb (key_is_case k e)) es).
Proof.
  intros m es k Lay. unfold u_map_remove_from_key_case.
  assert (N := Lay). destruct N as (_ & _ & _ & ->).
  destruct (remove_loop_defined (test_key_case k) (fun e => Ret (key_is_case k e)) (test_key_case_tp k) es [] m false)
    as (m' & R & L').
  - now rewrite app_nil_r.
  - simpl; auto.
  - exists m'. rewrite app_nil_r in L'. split; assumption.
Qed.

Lemma remove_value_layout : forall m es v len, layout m es ->
  (forall e, In e es -> defined (memcmp_eq (eb e) v len)) ->
  exists m', u_map_remove_from_value_binary m (Some v) len =
      Ret (if existsb (tpb (fun e => memcmp_eq (eb e) v len)) es then U_OK else U_ERROR_NOT_FOUND, m') /\
    layout m' (filter (fun e => negb (tpb (fun e => memcmp_eq (eb e) v len) e)) es).
Proof.
  intros m es v len Lay D. unfold u_map_remove_from_value_binary.
  assert (N := Lay). destruct N as (_ & _ & _ & ->).
  destruct (remove_loop_defined (test_value v len) (fun e => memcmp_eq (eb e) v len) (test_value_tp v len) es [] m false)
    as (m' & R & L').
  - now rewrite app_nil_r.
  - auto.
  - exists m'. rewrite app_nil_r in L'. split; assumption.
Qed.

Lemma remove_value_case_layout : forall m es v, layout m es ->
  (forall e, In e es -> defined (strcasecmp_block (eb e) v)) ->
  exists m', u_map_remove_from_value_case m (Some v) =
      Ret (if existsb (tpb (fun e => strcasecmp_block (eb e) v)) es then U_OK else U_ERROR_NOT_FOUND, m') /\
    layout m' (filter (fun e => negb (tpb (fun e => strcasecmp_block (eb e) v) e)) es).
Proof.
  intros m es v Lay D. unfold u_map_remove_from_value_case.
  assert (N := Lay). destruct N as (_ & _ & _ & ->).
  destruct (remove_loop_defined (test_value_case v) (fun e => strcasecmp_block (eb e) v) (test_value_case_tp v) es [] m false)
    as (m' & R & L').
  - now rewrite app_nil_r.
  - auto.
  - exists m'. rewrite app_nil_r in L'. split; assumption.
Qed.

(** ** Lookups *)

Lemma scan_null_find : forall p es m, layout m es ->
  match find (kp p) es with
  | Some e => exists a b, es = a ++ e :: b /\ scan_null (keys m) p 0 = Ret (Some (length a)) /\
                          (forall x, In x a -> kp p x = false)
  | None => scan_null (keys m) p 0 = Ret None
  end.
Proof.
  intros p es m (K & V & L & N). rewrite K.
  destruct (find_split (kp p) es) as [(a & e & b & -> & P & Nn)|Nn].
  - rewrite find_hit by auto. exists a, b. split; auto. split; auto. now rewrite scan_null_hit.
  - rewrite find_miss by auto. now apply scan_null_miss.
Qed.

Ltac lookup p es m Lay :=
  pose proof (scan_null_find p es m Lay) as SF;
  destruct (find (kp p) es) as [e|] eqn:F;
  [destruct SF as (a & b & E & SF & Nn); subst es;
   destruct (layout_hit_values _ _ _ _ Lay) as (GV & GL & GK) |].

Lemma get_layout : forall m es k, layout m es ->
  u_map_get m (Some k) =
  Ret (match find (key_is k) es with
       | Some e => if 0 <? el e then Some (eb e) else None
       | None => None end).
Proof.
  intros m es k Lay. unfold u_map_get. change (key_is k) with (kp (fun x => str_eqb x k)).
  lookup (fun x => str_eqb x k) es m Lay; rewrite SF; simpl; auto.
  rewrite GL. simpl. bdestr; auto.
Qed.

Lemma get_length_layout : forall m es k, layout m es ->
  u_map_get_length m (Some k) = Ret (match find (key_is k) es with Some e => el e | None => -1 end).
Proof.
  intros m es k Lay. unfold u_map_get_length. change (key_is k) with (kp (fun x => str_eqb x k)).
  lookup (fun x => str_eqb x k) es m Lay; rewrite SF; simpl; auto.
Qed.

Lemma get_case_layout : forall m es k, layout m es ->
  u_map_get_case m (Some k) =
  Ret (match find (key_is_case k) es with Some e => Some (eb e) | None => None end).
Proof.
  intros m es k Lay. unfold u_map_get_case. change (key_is_case k) with (kp (fun x => str_caseeqb x k)).
  lookup (fun x => str_caseeqb x k) es m Lay; rewrite SF; simpl; auto.
Qed.

Lemma get_case_length_layout : forall m es k, layout m es ->
  u_map_get_case_length m (Some k) = Ret (match find (key_is_case k) es with Some e => el e | None => -1 end).
Proof.
  intros m es k Lay. unfold u_map_get_case_length. change (key_is_case k) with (kp (fun x => str_caseeqb x k)).
  lookup (fun x => str_caseeqb x k) es m Lay; rewrite SF; simpl; auto.
Qed.

Lemma existsb_find : forall A (p : A -> bool) l,
  existsb p l = match find p l with Some _ => true | None => false end.
Proof. induction l as [|x l IH]; simpl; auto. destruct (p x); auto. Qed.

Lemma has_key_layout : forall m es k, layout m es ->
  u_map_has_key m (Some k) = Ret (existsb (key_is k) es).
Proof.
  intros m es k Lay. rewrite existsb_find. unfold u_map_has_key. change (key_is k) with (kp (fun x => str_eqb x k)).
  lookup (fun x => str_eqb x k) es m Lay; rewrite SF; simpl; auto.
Qed.

Lemma has_key_case_layout : forall m es k, layout m es ->
  u_map_has_key_case m (Some k) = Ret (existsb (key_is_case k) es).
Proof.
  intros m es k Lay. rewrite existsb_find. unfold u_map_has_key_case. change (key_is_case k) with (kp (fun x => str_caseeqb x k)).
  lookup (fun x => str_caseeqb x k) es m Lay; rewrite SF; simpl; auto.
Qed.

Lemma count_case_layout : forall m es k, layout m es ->
  u_map_count_keys_case m (Some k) = Ret (zlen (filter (key_is_case k) es)).
Proof.
  intros m es k (K & _). unfold u_map_count_keys_case. rewrite K. clear K.
  assert (G : forall c, count_case_go (map (fun e => Some (ek e)) es ++ [None]) k c
                        = Ret (c + zlen (filter (key_is_case k) es))).
  { induction es as [|e es IH]; intros c; simpl.
    - f_equal. unfold zlen; simpl; lia.
    - rewrite IH. unfold key_is_case at 2. destruct (str_caseeqb (ek e) k); [rewrite zlen_cons|]; f_equal; lia. }
  now rewrite G.
Qed.

Lemma has_value_layout : forall m es v len, layout m es ->
  u_map_has_value_binary m (Some v) len = has_value_go (map (fun e => Some (eb e)) es ++ [None]) v len.
Proof. intros m es v len (_ & V & _). simpl. now rewrite V. Qed.

(** ** Copies *)

Lemma find_self : forall es a e b, es = a ++ e :: b -> NoDup (map ek es) -> find (key_is (ek e)) es = Some e.
Proof.
  intros es a e b -> N. apply find_hit.
  - intros x I. unfold key_is. apply str_eqb_neq. intros C.
    rewrite map_app in N. simpl in N. apply NoDup_remove_2 in N. apply N. apply in_or_app. left.
    rewrite <- C. now apply in_map.
  - unfold key_is. apply str_eqb_refl.
Qed.

Lemma e_put_fresh : forall k v off len es, (forall x, In x es -> key_is k x = false) ->
  e_put k v off len es = es ++ [e_new k v off len].
Proof.
  intros k v off len es Nn. induction es as [|x es IH]; simpl; auto.
  assert (Nx := Nn x (or_introl eq_refl)). unfold key_is in Nx. rewrite Nx. f_equal. apply IH.
  intros; apply Nn; right; auto.
Qed.

Lemma zfirstn_le_nil : forall A (l : list A) n, n <= 0 -> zfirstn n l = [].
Proof. intros. unfold zfirstn. replace (Z.to_nat n) with 0%nat by lia. reflexivity. Qed.

Lemma copy_entry : forall e, entry_ok e ->
  e_new (ek e) (if 0 <? el e then Some (eb e) else None) 0 (el e) = e.
Proof.
  intros [k b l] (EK & E0 & E1 & E2 & E3). simpl in *. unfold evalue in E2. simpl in E2.
  destruct (0 <? l) eqn:G; simpl; unfold e_new.
  - simpl. now rewrite <- E2.
  - apply Z.ltb_ge in G. assert (l = 0) by lia. subst. simpl in *. rewrite E2. reflexivity.
Qed.

Lemma copy_layout : forall m es, layout m es -> entries_ok es ->
  exists m', u_map_copy m = Ret (Some m') /\ layout m' es.
Proof.
  intros m es Lay OK. unfold u_map_copy.
  assert (Lay' := Lay). destruct Lay as (K & V & L & N).
  assert (G : forall post pre copy, es = pre ++ post -> layout copy pre ->
     exists m', copy_loop m copy (map (fun e => Some (ek e)) post ++ [None]) (length pre) = Ret (Some m') /\ layout m' es).
  { induction post as [|e post IH]; intros pre copy E Lc.
    - simpl. rewrite app_nil_r in E. subst. eauto.
    - cbn [map app copy_loop]. rewrite (get_layout m es (ek e) Lay'). unfold bind at 1.
      rewrite (find_self es pre e post E) by apply OK.
      destruct OK as [F ND].
      assert (EO : entry_ok e).
      { rewrite Forall_forall in F. apply F. rewrite E. apply in_or_app; right; left; auto. }
      rewrite E in Lay'. destruct (layout_hit_values _ _ _ _ Lay') as (GV & GL & GK).
      rewrite GL. simpl.
      assert (PRE : entries_ok pre).
      { split.
        - rewrite Forall_forall in *. intros x I. apply F. rewrite E. apply in_or_app; auto.
        - rewrite E, map_app in ND. clear - ND. induction (map ek pre); simpl in *; [constructor|].
          inversion ND; subst. constructor; auto. intro C. apply H1. apply in_or_app; auto. }
      destruct EO as (EK & E0 & E1 & E2 & E3).
      destruct (put_binary_layout copy pre (ek e) (if 0 <? el e then Some (eb e) else None) 0 (el e) Lc PRE EK)
        as (m' & P & L').
      { unfold put_binary_ok. repeat split; try lia. destruct (0 <? el e) eqn:G.
        - lia. - apply Z.ltb_ge in G. lia. }
      rewrite P. simpl.
      rewrite e_put_fresh in L'.
      2:{ intros x I. unfold key_is. apply str_eqb_neq. intros C.
          rewrite E, map_app in ND. simpl in ND. apply NoDup_remove_2 in ND. apply ND. apply in_or_app. left.
          rewrite <- C. now apply in_map. }
      rewrite copy_entry in L' by (unfold entry_ok; auto).
      specialize (IH (pre ++ [e]) m'). rewrite app_length, Nat.add_1_r in IH. apply IH; auto.
      rewrite E, <- app_assoc. reflexivity. }
  rewrite K. apply (G es [] u_map_init); auto.
  unfold layout, u_map_init; simpl; auto.
Qed.

(** C string stored in an entry, as u_map_get + strcpy sees it *)
Definition e_cstr (e : entry) : outcome (option str) :=
  deref_cstr (if 0 <? el e then Some (eb e) else None).

Lemma read_cstr_bound : forall b v n, b = v ++ [Some 0] -> zlen v = n ->
  match read_cstr b with
  | Ret s => zlen s <= n /\ Forall (fun c => c <> 0) s
  | UB k => k = Uninit
  end.
Proof.
  intros b v. revert b. induction v as [|o v IH]; intros b n -> L; simpl.
  - rewrite <- L. unfold zlen; simpl. split; [lia|constructor].
  - rewrite zlen_cons in L. destruct o as [c|]; auto.
    specialize (IH _ (n - 1) eq_refl). destruct (c =? 0) eqn:C.
    + split; [|constructor]. pose proof (zlen_nonneg _ v). unfold zlen at 1; simpl. lia.
    + destruct (read_cstr (v ++ [Some 0])); simpl.
      * destruct IH as [I1 I2]; [lia|]. rewrite zlen_cons. apply Z.eqb_neq in C. split; [lia|constructor; auto].
      * apply IH. lia.
Qed.

Lemma e_cstr_bound : forall e, entry_ok e ->
  match e_cstr e with
  | Ret (Some s) => zlen s <= el e /\ Forall (fun c => c <> 0) s /\ 0 < el e
  | Ret None => el e = 0
  | UB k => k = Uninit
  end.
Proof.
  intros e (EK & E0 & E1 & E2 & E3). unfold e_cstr. destruct (0 <? el e) eqn:G; simpl.
  - apply Z.ltb_lt in G.
    pose proof (read_cstr_bound (eb e) (evalue e) (el e) E2) as R.
    destruct (read_cstr (eb e)); simpl.
    + assert (zlen (evalue e) = el e) by (apply zlen_zfirstn; lia). specialize (R H). tauto.
    + apply R. apply zlen_zfirstn; lia.
  - apply Z.ltb_ge in G. lia.
Qed.

(** the effect of u_map_copy_into on entries *)
Definition ov_block (s : option str) : option buf :=
  match s with Some v => Some (cblock v) | None => None end.
Definition ov_len (s : option str) : Z := match s with Some v => zlen v + 1 | None => 0 end.

Lemma u_map_put_unfold : forall m k s, u_map_put m k s = u_map_put_binary m k (ov_block s) 0 (ov_len s).
Proof. intros. destruct s; reflexivity. Qed.

Fixpoint e_copy_into (src : list entry) (dst : list entry) : outcome (list entry) :=
  match src with
  | [] => Ret dst
  | e :: r => do s <- e_cstr e;
              e_copy_into r (e_put (ek e) (ov_block s) 0 (ov_len s) dst)
  end.

Lemma put_ok_of_cstr : forall e s, entry_ok e -> el e + 2 < two64 -> e_cstr e = Ret s ->
  put_binary_ok (ov_block s) 0 (ov_len s).
Proof.
  intros e s EO SZ C. pose proof (e_cstr_bound e EO) as B. rewrite C in B.
  unfold put_binary_ok. destruct s as [s|]; simpl.
  - destruct B as (B1 & _ & _). pose proof (zlen_nonneg _ s). rewrite zlen_cblock. repeat split; try lia.
  - unfold two64; repeat split; lia.
Qed.

Lemma copy_into_layout : forall src ss dst ds,
  layout src ss -> entries_ok ss -> sizes_ok src -> layout dst ds -> entries_ok ds ->
  match e_copy_into ss ds with
  | Ret es' => exists m', u_map_copy_into dst src = Ret (U_OK, m') /\ layout m' es' /\ entries_ok es'
  | UB k => u_map_copy_into dst src = UB k /\ k = Uninit
  end.
Proof.
  intros src ss dst ds Ls OKs SZ Ld OKd. unfold u_map_copy_into.
  assert (Ls' := Ls). destruct Ls as (K & V & L & N). rewrite K.
  assert (SZ' : Forall (fun e => el e + 2 < two64) ss).
  { unfold sizes_ok in SZ. rewrite L in SZ. apply Forall_app in SZ as [SZ _]. rewrite Forall_map in SZ. exact SZ. }
  clear SZ.
  assert (G : forall post pre dst ds, ss = pre ++ post -> layout dst ds -> entries_ok ds ->
    match e_copy_into post ds with
    | Ret es' => exists m', copy_into_loop dst src (map (fun e => Some (ek e)) post ++ [None]) = Ret (U_OK, m') /\ layout m' es' /\ entries_ok es'
    | UB k => copy_into_loop dst src (map (fun e => Some (ek e)) post ++ [None]) = UB k /\ k = Uninit
    end).
  { clear dst ds Ld OKd. induction post as [|e post IH]; intros pre dst ds E Ld OKd.
    - simpl. eauto.
    - assert (HX : copy_into_loop dst src (map (fun e => Some (ek e)) (e :: post) ++ [None]) =
         (do s <- e_cstr e; do p <- u_map_put dst (Some (ek e)) s;
          if fst p =? U_OK then copy_into_loop (snd p) src (map (fun e => Some (ek e)) post ++ [None]) else Ret p)).
      { cbn [map app copy_into_loop]. rewrite (get_layout src ss (ek e) Ls').
        rewrite (find_self ss pre e post E) by apply OKs. reflexivity. }
      rewrite HX. clear HX. cbn [e_copy_into].
      assert (EO : entry_ok e).
      { destruct OKs as [F _]. rewrite Forall_forall in F. apply F. rewrite E. apply in_or_app; right; left; auto. }
      assert (SE : el e + 2 < two64).
      { rewrite Forall_forall in SZ'. apply SZ'. rewrite E. apply in_or_app; right; left; auto. }
      pose proof (e_cstr_bound e EO) as B.
      destruct (e_cstr e) as [s|k] eqn:C; simpl; auto.
      pose proof (put_ok_of_cstr e s EO SE C) as PO.
      assert (EK := proj1 EO).
      destruct (put_binary_layout dst ds (ek e) (ov_block s) 0 (ov_len s) Ld OKd EK PO) as (m' & P & L').
      rewrite u_map_put_unfold, P. simpl.
      apply (IH (pre ++ [e])); auto.
      + rewrite E, <- app_assoc; reflexivity.
      + apply e_put_ok; auto. }
  apply (G ss [] dst ds); auto.
Qed.
