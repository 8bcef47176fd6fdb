(** Proofs about the memory of maps (C96). *)
From Coq Require Import ZArith Bool List Lia.
From Verif Require Import Base BaseFacts UMapModel UMapProofs OwnModel OwnSpec OwnProofs MapMemModel MapMemSpec.
Import ListNotations.
Open Scope Z_scope.
Arguments h_malloc : simpl never.
Arguments h_free : simpl never.
Arguments Z.add : simpl never.
Arguments x_malloc : simpl never.
Arguments x_realloc : simpl never.
Arguments x_free : simpl never.

(** ** allocation *)
Definition short (m : mem) : Prop := In false (m_new m).
Definition later (m m' : mem) : Prop := (short m' -> short m) /\ m_grow m' = [].
Lemma later_trans : forall a b c, later a b -> later b c -> later a c.
Proof. intros a b c [A _] [B C]. split; auto. Qed.
Definition mowns (m : mem) (ids : list nat) : Prop := owns (m_heap m) ids /\ m_grow m = [].

Lemma mowns_ext : forall m a b, mowns m a -> (forall x, cnt a x = cnt b x) -> mowns m b.
Proof. intros m a b [A B] E. split; auto. eapply owns_ext; eauto. Qed.

Lemma x_malloc_ok : forall m ids, mowns m ids -> exists p m', x_malloc m = (p, m') /\ later m m' /\
  ((exists i, p = Some i /\ mowns m' (i :: ids)) \/ (p = None /\ short m /\ mowns m' ids)).
Proof.
  intros m ids [O G]. unfold x_malloc, later, mowns, short. destruct (m_new m) as [|[] r] eqn:E; simpl.
  - do 2 eexists. split; [reflexivity|]. simpl. split; [split; [tauto|auto]|]. left. eexists. split; [reflexivity|]. split; [exact (malloc_ok _ _ O)|auto].
  - do 2 eexists. split; [reflexivity|]. simpl. split; [split; [auto|auto]|]. left. eexists. split; [reflexivity|]. split; [exact (malloc_ok _ _ O)|auto].
  - do 2 eexists. split; [reflexivity|]. simpl. split; [split; [auto|auto]|]. right. auto.
Qed.
Lemma x_free_ok : forall m i ids, mowns m (i :: ids) -> exists m', x_free m (Some i) = Ret m' /\ mowns m' ids /\ later m m' /\ (short m -> short m').
Proof.
  intros m i ids [O G]. unfold x_free. destruct (free_ok _ _ _ O) as (h & -> & O1). unfold bind.
  eexists. split; [reflexivity|]. unfold mowns, later, short. simpl. auto.
Qed.
Lemma x_free_ptr : forall A m (p : ptr A) ids, mowns m (ptr_blocks p ++ ids) ->
  exists m', x_free m (addr p) = Ret m' /\ mowns m' ids /\ later m m'.
Proof.
  intros A m [[i a]|] ids O; simpl in *.
  - destruct (x_free_ok _ _ _ O) as (m' & E & O' & L & _). eauto.
  - exists m. split; [reflexivity|]. split; auto. split; [auto|apply O].
Qed.
Lemma x_realloc_ok : forall A m (p : ptr A) ids, mowns m (ptr_blocks p ++ ids) ->
  exists i m', x_realloc m (addr p) = Ret (Some i, m') /\ mowns m' (i :: ids) /\ later m m'.
Proof.
  intros A m p ids [O G]. unfold x_realloc. rewrite G. simpl. destruct p as [[i a]|]; simpl in *.
  - destruct (free_ok _ _ _ O) as (h & -> & O1). unfold bind. do 2 eexists. split; [reflexivity|].
    unfold mowns, later, short. simpl. split; [split; [exact (malloc_ok _ _ O1)|auto]|auto].
  - do 2 eexists. split; [reflexivity|].
    unfold mowns, later, short. simpl. split; [split; [exact (malloc_ok _ _ O)|auto]|auto].
Qed.
Lemma x_deref_ok : forall A m i (a : A) ids, mowns m ids -> In i ids -> x_deref m (Some (i, a)) = Ret (i, a).
Proof. intros A m i a ids [O _] I. unfold x_deref. rewrite (use_ok _ ids) by auto. reflexivity. Qed.

Ltac mowns_by H := eapply mowns_ext; [exact H|count].

(** ** maps and their entries *)
Record hent := mk_hent { hk : nat * str; hv : ptr buf; hl : Z }.
Definition eblocks (e : hent) : list nat := fst (hk e) :: ptr_blocks (hv e).
Definition mkf (ik iv il : nat) (es : list hent) : fmap :=
  mk_fmap (Some (ik, map (fun e => Some (hk e)) es ++ [None])) (Some (iv, map hv es ++ [None])) (Some (il, map hl es ++ [0])) (length es).
Definition fb (ik iv il : nat) (es : list hent) : list nat := ik :: iv :: il :: flat_map eblocks es.
Definition vrel (v : ptr buf) (n : Z) (b : list Z) : Prop :=
  n = zlen b /\ match v with Some (_, x) => x = block_of (b ++ [0]) | None => b = [] end.
Definition erel (N : Z) (e : hent) (a : str * list Z) : Prop :=
  snd (hk e) = fst a /\ fst a <> [] /\ vrel (hv e) (hl e) (snd a) /\ zlen (snd a) <= N.
Definition keys_of (es : list hent) : list str := map (fun e => snd (hk e)) es.
Definition minv (N : Z) (f : fmap) (a : amap) : Prop :=
  exists ik iv il es, f = mkf ik iv il es /\ Forall2 (erel N) es a /\ NoDup (keys_of es).

Lemma erel_mono : forall N N' e a, N <= N' -> erel N e a -> erel N' e a.
Proof. intros N N' e a L (A & B & C & D). repeat split; auto; try apply C. lia. Qed.
Lemma keys_rel : forall N es a, Forall2 (erel N) es a -> keys_of es = map fst a.
Proof. intros N es a F. induction F as [|e x es a R F IH]; simpl; auto. f_equal; auto. apply R. Qed.

Lemma blocks_mkf : forall p ik iv il es x, cnt (map_blocks (p, mkf ik iv il es)) x = cnt (p :: fb ik iv il es) x.
Proof.
  intros p ik iv il es x. unfold map_blocks, fb, mkf, array_blocks. cbn [fst snd f_keys f_values f_lengths].
  rewrite !flat_map_app. cbn [flat_map ptr_blocks]. repeat rewrite ?cnt_cons, ?cnt_app, ?cnt_nil. unfold ptr in *.
  assert (E : cnt (flat_map eblocks es) x = (cnt (flat_map ptr_blocks (map (fun e => Some (hk e)) es)) x + cnt (flat_map ptr_blocks (map hv es)) x)%nat).
  { induction es as [|e es IH]; [reflexivity|]. cbn [flat_map map]. unfold eblocks at 1. rewrite !cnt_app, cnt_cons, IH.
    destruct (hk e) as [i s]. cbn [ptr_blocks fst]. rewrite cnt_cons, cnt_nil. lia. }
  unfold ptr in *. rewrite E. lia.
Qed.

Lemma eb_in : forall e es, In e es -> incl (eblocks e) (flat_map eblocks es).
Proof. intros e es I x X. apply in_flat_map. eauto. Qed.

Lemma hk_in : forall e es, In e es -> In (fst (hk e)) (flat_map eblocks es).
Proof. intros e es I. apply (eb_in e es I). now left. Qed.

(** ** searching *)
Lemma find_split_g : forall A (p : A -> bool) l,
  (exists a e b, l = a ++ e :: b /\ p e = true /\ (forall x, In x a -> p x = false)) \/ (forall x, In x l -> p x = false).
Proof.
  intros A p. induction l as [|e es IH].
  - right. intros x [].
  - destruct (p e) eqn:E.
    + left. exists [], e, es. repeat split; auto. intros x [].
    + destruct IH as [(a & e' & b & -> & P & N)|N].
      * left. exists (e :: a), e', b. repeat split; auto. intros x [->|I]; auto.
      * right. intros x [->|I]; auto.
Qed.
Lemma x_key_ok : forall m ids t e, mowns m ids -> In (fst (hk e)) ids -> x_key_is m t (Some (hk e)) = Ret (t (snd (hk e))).
Proof. intros m ids t e O I. unfold x_key_is. destruct (hk e) as [i s] eqn:E. simpl in I. rewrite (x_deref_ok _ m i s ids) by auto. reflexivity. Qed.
Lemma aget_map : forall A B (f : A -> B) a e b r, aget (map f (a ++ e :: b) ++ r) (length a) = Ret (f e).
Proof. intros. rewrite map_app. simpl. rewrite <- app_assoc. simpl. rewrite <- (map_length f a). apply aget_mid. Qed.

Lemma x_scan_hit : forall m ids ik iv il t a e b pre, mowns m ids -> In ik ids -> incl (flat_map eblocks (pre ++ a ++ e :: b)) ids ->
  (forall x, In x a -> t (snd (hk x)) = false) -> t (snd (hk e)) = true ->
  x_scan m (mkf ik iv il (pre ++ a ++ e :: b)) t (length pre) (length (a ++ e :: b)) = Ret (Some (length pre + length a)%nat).
Proof.
  induction a as [|x a IH]; intros e b pre O I C N P.
  - cbn [app length x_scan]. cbn [mkf f_keys]. rewrite (x_deref_ok _ m ik _ ids) by auto. unfold bind at 1. cbn [snd].
    rewrite (aget_map _ _ (fun e => Some (hk e))). unfold bind at 1.
    rewrite (x_key_ok m ids) by (first [exact O | apply C, hk_in, in_elt]). unfold bind at 1. rewrite P. f_equal. f_equal. lia.
  - cbn [app length x_scan]. cbn [mkf f_keys]. rewrite (x_deref_ok _ m ik _ ids) by auto. unfold bind at 1. cbn [snd].
    rewrite (aget_map _ _ (fun e => Some (hk e))). unfold bind at 1.
    rewrite (x_key_ok m ids) by (first [exact O | apply C, hk_in, in_elt]). unfold bind at 1.
    rewrite N by now left.
    specialize (IH e b (pre ++ [x]) O I). rewrite <- app_assoc in IH. cbn [app] in IH.
    rewrite app_length in IH. cbn [length] in IH. replace (length pre + 1)%nat with (S (length pre)) in IH by lia.
    cbn [app] in C. rewrite IH; auto.
    + f_equal. f_equal. simpl. lia.
    + intros y Y. apply N. now right.
Qed.
Lemma x_scan_miss : forall m ids ik iv il t suf pre, mowns m ids -> In ik ids -> incl (flat_map eblocks (pre ++ suf)) ids ->
  (forall x, In x suf -> t (snd (hk x)) = false) ->
  x_scan m (mkf ik iv il (pre ++ suf)) t (length pre) (length suf) = Ret None.
Proof.
  induction suf as [|x a IH]; intros pre O I C N; [reflexivity|].
  cbn [app length x_scan]. cbn [mkf f_keys]. rewrite (x_deref_ok _ m ik _ ids) by auto. unfold bind at 1. cbn [snd].
  rewrite (aget_map _ _ (fun e => Some (hk e))). unfold bind at 1.
  rewrite (x_key_ok m ids) by (first [exact O | apply C, hk_in, in_elt]). unfold bind at 1.
  rewrite N by now left.
  specialize (IH (pre ++ [x]) O I). rewrite <- app_assoc in IH. cbn [app] in IH.
  rewrite app_length in IH. cbn [length] in IH. replace (length pre + 1)%nat with (S (length pre)) in IH by lia.
  apply IH; auto. intros y Y. apply N. now right.
Qed.
Lemma x_scan_null_hit : forall m ids t a e b i, mowns m ids -> incl (flat_map eblocks (a ++ e :: b)) ids ->
  (forall x, In x a -> t (snd (hk x)) = false) -> t (snd (hk e)) = true ->
  x_scan_null m (map (fun e => Some (hk e)) (a ++ e :: b) ++ [None]) t i = Ret (Some (i + length a)%nat).
Proof.
  induction a as [|x a IH]; intros e b i O C N P; cbn [app map x_scan_null].
  - rewrite (x_key_ok m ids) by (first [exact O | apply C, hk_in; now left]). unfold bind at 1. rewrite P. f_equal. f_equal. simpl. lia.
  - rewrite (x_key_ok m ids) by (first [exact O | apply C, hk_in; now left]). unfold bind at 1. rewrite N by now left.
    rewrite IH; auto.
    + f_equal. f_equal. simpl. lia.
    + intros y Y. apply C. simpl. right. apply in_or_app. now right.
    + intros y Y. apply N. now right.
Qed.
Lemma x_scan_null_miss : forall m ids t a i, mowns m ids -> incl (flat_map eblocks a) ids ->
  (forall x, In x a -> t (snd (hk x)) = false) ->
  x_scan_null m (map (fun e => Some (hk e)) a ++ [None]) t i = Ret None.
Proof.
  induction a as [|x a IH]; intros i O C N; cbn [app map x_scan_null]; [reflexivity|].
  rewrite (x_key_ok m ids) by (first [exact O | apply C, hk_in; now left]). unfold bind at 1. rewrite N by now left.
  apply IH; auto.
  + intros y Y. apply C. simpl. right. apply in_or_app. now right.
  + intros y Y. apply N. now right.
Qed.
Lemma x_null_index_ok : forall es i, x_null_index (map (fun e => Some (hk e)) es ++ [None]) i = Ret (i + length es)%nat.
Proof.
  induction es as [|e es IH]; intros i; cbn [map app x_null_index length].
  - f_equal. lia.
  - rewrite IH. f_equal. lia.
Qed.

(** ** init and clean *)
Lemma x_init_ok : forall m ids, mowns m ids -> exists c m' f, x_init m = Ret (c, (m', f)) /\ later m m' /\
  ((c = U_OK /\ exists ik iv il, f = mkf ik iv il [] /\ mowns m' (fb ik iv il [] ++ ids)) \/
   (c = U_ERROR_MEMORY /\ short m /\ f = mk_fmap None None None 0 /\ mowns m' ids)).
Proof.
  intros m ids O. unfold x_init.
  destruct (x_malloc_ok _ _ O) as (p1 & m1 & -> & L1 & [(k & -> & O1)|(-> & S1 & O1)]).
  2:{ do 3 eexists. split; [reflexivity|]. split; [exact L1|]. right. auto. }
  destruct (x_malloc_ok _ _ O1) as (p2 & m2 & -> & L2 & [(v & -> & O2)|(-> & S2 & O2)]).
  2:{ destruct (x_free_ok _ _ _ O2) as (m3 & -> & O3 & L3 & _). unfold bind. do 3 eexists. split; [reflexivity|].
      split; [eapply later_trans; [eauto|eapply later_trans; eauto]|]. right. split; auto. split; [now apply L1|auto]. }
  destruct (x_malloc_ok _ _ O2) as (p3 & m3 & -> & L3 & [(l & -> & O3)|(-> & S3 & O3)]).
  - do 3 eexists. split; [reflexivity|]. split; [eapply later_trans; [eauto|eapply later_trans; eauto]|]. left. split; auto.
    exists k, v, l. split; [reflexivity|]. unfold fb. simpl. mowns_by O3.
  - assert (O3' : mowns m3 (k :: v :: ids)) by mowns_by O3.
    destruct (x_free_ok _ _ _ O3') as (m4 & -> & O4 & L4 & _). unfold bind at 1.
    destruct (x_free_ok _ _ _ O4) as (m5 & -> & O5 & L5 & _). unfold bind. do 3 eexists. split; [reflexivity|].
    split; [eapply later_trans; [eauto|eapply later_trans; [eauto|eapply later_trans; [eauto|eapply later_trans; eauto]]]|].
    right. split; [reflexivity|]. split; [apply L1, L2; auto|auto].
Qed.

Lemma x_clean_loop_ok : forall ik iv il suf pre m ids, mowns m (flat_map eblocks suf ++ ids) -> In ik ids -> In iv ids ->
  exists m', x_clean_loop m (mkf ik iv il (pre ++ suf)) (length pre) (length suf) = Ret m' /\ mowns m' ids /\ later m m'.
Proof.
  intros ik iv il. induction suf as [|e suf IH]; intros pre m ids O Ik Iv.
  - exists m. split; [reflexivity|]. split; auto. split; [auto|apply O].
  - cbn [length x_clean_loop]. cbn [mkf f_keys f_values].
    rewrite (x_deref_ok _ m ik _ _ O) by (apply in_or_app; auto). unfold bind at 1. cbn [snd].
    rewrite (aget_map _ _ (fun e => Some (hk e))). unfold bind at 1.
    cbn [flat_map] in O. unfold eblocks in O at 1. rewrite <- app_assoc in O. cbn [app] in O.
    destruct (hk e) as [i s] eqn:E. cbn [fst addr] in *.
    destruct (x_free_ok _ _ _ O) as (m1 & -> & O1 & L1 & _). unfold bind at 1.
    rewrite (x_deref_ok _ m1 iv _ _ O1) by (apply in_or_app; right; apply in_or_app; auto). unfold bind at 1. cbn [snd].
    rewrite (aget_map _ _ hv). unfold bind at 1.
    destruct (x_free_ptr _ _ _ _ O1) as (m2 & -> & O2 & L2). unfold bind at 1.
    specialize (IH (pre ++ [e]) m2 ids O2 Ik Iv). rewrite <- app_assoc in IH. cbn [app] in IH.
    rewrite app_length in IH. cbn [length] in IH. replace (length pre + 1)%nat with (S (length pre)) in IH by lia.
    destruct IH as (m3 & R & O3 & L3). unfold mkf in R at 1. unfold mkf. rewrite R. exists m3. split; auto. split; auto.
    eapply later_trans; [eauto|eapply later_trans; eauto].
Qed.
Lemma x_clean_ok : forall m ik iv il es ids, mowns m (fb ik iv il es ++ ids) ->
  exists m', x_clean m (mkf ik iv il es) = Ret (m', mk_fmap None None None (length es)) /\ mowns m' ids /\ later m m'.
Proof.
  intros m ik iv il es ids O. unfold x_clean.
  assert (O0 : mowns m (flat_map eblocks es ++ (ik :: iv :: il :: ids))) by (unfold fb in O; mowns_by O).
  destruct (x_clean_loop_ok ik iv il es [] m _ O0) as (m1 & R & O1 & L1); [simpl; auto..|].
  cbn [app length] in R. unfold f_nb at 1, mkf at 2. rewrite R. unfold bind at 1. cbn [mkf f_keys f_values f_lengths addr].
  destruct (x_free_ok _ _ _ O1) as (m2 & -> & O2 & L2 & _). unfold bind at 1.
  destruct (x_free_ok _ _ _ O2) as (m3 & -> & O3 & L3 & _). unfold bind at 1.
  destruct (x_free_ok _ _ _ O3) as (m4 & -> & O4 & L4 & _). unfold bind at 1.
  exists m4. split; [reflexivity|]. split; auto.
  eapply later_trans; [eauto|eapply later_trans; [eauto|eapply later_trans; eauto]].
Qed.
Lemma x_clean_full_ok : forall m p ik iv il es ids, mowns m (p :: fb ik iv il es ++ ids) ->
  exists m', x_clean_full m p (mkf ik iv il es) = Ret m' /\ mowns m' ids /\ later m m'.
Proof.
  intros m p ik iv il es ids O. unfold x_clean_full.
  destruct (x_clean_ok m ik iv il es (p :: ids)) as (m1 & -> & O1 & L1); [mowns_by O|]. unfold bind at 1. cbn [fst].
  destruct (x_free_ok _ _ _ O1) as (m2 & -> & O2 & L2 & _). exists m2. split; auto. split; auto. eapply later_trans; eauto.
Qed.
