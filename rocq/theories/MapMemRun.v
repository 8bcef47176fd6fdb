(** Proofs about the memory of maps (C96): putting texts, removing, copying, and runs. *)
From Coq Require Import ZArith Bool List Lia Permutation.
From Verif Require Import Base BaseFacts UMapModel UMapProofs OwnModel OwnSpec OwnProofs MapMemModel MapMemSpec MapMemProofs MapMemPut.
Import ListNotations.
Open Scope Z_scope.

Lemma overlay_min : forall old b off, overlay old b (Z.min off (zlen old)) = overlay old b off.
Proof. intros. unfold overlay. rewrite <- Z.min_assoc, Z.min_id. reflexivity. Qed.
Lemma overlay_nil : forall b off, 0 <= off -> overlay [] b off = b.
Proof.
  intros b off H. unfold overlay. change (zlen (@nil Z)) with 0. rewrite Z.min_r by lia. unfold zfirstn, zskipn.
  rewrite firstn_nil, skipn_nil. simpl. apply app_nil_r.
Qed.
Lemma a_change_keys : forall k g a, map fst (a_change k g a) = map fst a \/ (~ In k (map fst a) /\ map fst (a_change k g a) = map fst a ++ [k]).
Proof.
  intros k g. induction a as [|[x v] a IH]; simpl.
  - right. auto.
  - destruct (str_eqb x k) eqn:E; simpl; [now left|].
    assert (x <> k) by (intros ->; rewrite str_eqb_refl in E; discriminate).
    destruct IH as [->|[N ->]]; [now left|right]. split; auto. intros [A|A]; auto.
Qed.
Lemma a_change_nodup : forall k g a, NoDup (map fst a) -> NoDup (map fst (a_change k g a)).
Proof.
  intros k g a N. destruct (a_change_keys k g a) as [->|[M ->]]; auto. apply (Permutation.Permutation_NoDup (l := k :: map fst a)).
  - apply Permutation.Permutation_cons_append.
  - constructor; auto.
Qed.

Lemma f2_length : forall A B (R : A -> B -> Prop) l l', Forall2 R l l' -> length l = length l'.
Proof. induction 1; simpl; congruence. Qed.

(** ** putting *)
Definition put_meaning (k : str) (g : list Z -> list Z) (a : amap) : Z * amap :=
  match k with [] => (U_ERROR_PARAMS, a) | _ => (U_OK, a_change k g a) end.
Definition call_result (N : Z) (m : mem) (a : amap) (fr : list nat) (r : outcome (Z * (mem * fmap))) (mean : Z * amap) : Prop :=
  exists c m' ik iv il es' a', r = Ret (c, (m', mkf ik iv il es')) /\ later m m' /\ mowns m' (fb ik iv il es' ++ fr) /\
    Forall2 (erel N) es' a' /\ NoDup (map fst a') /\ ((c, a') = mean \/ (c = U_ERROR_MEMORY /\ short m /\ a' = a)).

Lemma erel_all : forall N N' es a, N <= N' -> Forall2 (erel N) es a -> Forall2 (erel N') es a.
Proof. intros N N' es a L F. induction F; constructor; auto. eapply erel_mono; [exact L|eassumption]. Qed.
Lemma put_binary_call : forall N N' m ik iv il es a k v off len g fr,
  mowns m (fb ik iv il es ++ fr) -> Forall2 (erel N) es a -> NoDup (map fst a) -> vgiven v off len g ->
  off_ok k off a -> new_off_ok k off a -> off + len + 1 < two64 -> N <= N' -> off + len <= N' ->
  call_result N' m a fr (x_put_binary m (mkf ik iv il es) (Some k) v off len) (put_meaning k g a).
Proof.
  intros N N' m ik iv il es a k v off len g fr O F ND VG A B LT LN LN'. destruct k as [|c k].
  - exists U_ERROR_PARAMS, m, ik, iv, il, es, a. split; [reflexivity|]. split; [split; [auto|apply O]|]. split; auto.
    split; [eapply erel_all; [exact LN|eassumption]|]. split; auto.
  - destruct (x_put_binary_ok N N' m ik iv il es a (c :: k) v off len g fr) as (r & m' & ik' & iv' & il' & es' & E & L & O' & C); auto; [discriminate|].
    destruct C as [[-> F']|[-> [S ->]]].
    + exists U_OK, m', ik', iv', il', es', (a_change (c :: k) g a). split; [exact E|]. split; [exact L|]. split; [exact O'|].
      split; [exact F'|]. split; [now apply a_change_nodup|]. left. reflexivity.
    + exists U_ERROR_MEMORY, m', ik', iv', il', es, a. split; [exact E|]. split; [exact L|]. split; [exact O'|].
      split; [eapply erel_all; [exact LN|eassumption]|]. split; auto.
Qed.
Definition put_g (v : option str) (old : list Z) : list Z := match v with Some s => overlay old (s ++ [0]) 0 | None => [] end.
Lemma put_call : forall N N' m ik iv il es a k v fr,
  mowns m (fb ik iv il es ++ fr) -> Forall2 (erel N) es a -> NoDup (map fst a) ->
  (forall s, v = Some s -> zlen s + 1 <= N') -> 0 <= N -> N <= N' -> N' + 1 < two64 ->
  call_result N' m a fr (x_put m (mkf ik iv il es) (Some k) v) (put_meaning k (put_g v) a).
Proof.
  intros N N' m ik iv il es a k v fr O F ND LV N0 LN LT. unfold x_put. destruct v as [s|].
  - specialize (LV s eq_refl). pose proof (zlen_nonneg _ s).
    assert (VG : vgiven (Some (cblock s)) 0 (zlen s + 1) (put_g (Some s))).
    { replace (zlen s + 1) with (zlen (s ++ [0])) by (rewrite zlen_app; reflexivity). unfold cblock, put_g.
      replace (block_of (s ++ [0])) with (block_of ((s ++ [0]) ++ [])) by now rewrite app_nil_r.
      apply (vg_some (s ++ [0]) [] 0); [destruct s; discriminate|lia]. }
    eapply put_binary_call; eauto; try lia.
    + intros p old q E. apply zlen_nonneg.
    + intros _. reflexivity.
  - eapply put_binary_call; eauto; try lia; try apply vg_null.
    + intros p old q E. apply zlen_nonneg.
    + intros _. reflexivity.
Qed.

(** ** reading *)
Lemma nodup_split : forall N p e ap k v aq, Forall2 (erel N) p ap -> erel N e (k, v) -> NoDup (map fst (ap ++ (k, v) :: aq)) ->
  (forall x, In x p -> str_eqb (snd (hk x)) k = false) /\ (forall x, In x ap -> str_eqb (fst x) k = false) /\ str_eqb (snd (hk e)) k = true /\
  length p = length ap.
Proof.
  intros N p e ap k v aq Fp Fe ND. rewrite map_app in ND. cbn [map fst] in ND. apply NoDup_remove in ND. destruct ND as [_ ND].
  assert (NA : forall x, In x ap -> str_eqb (fst x) k = false).
  { intros x X. destruct (str_eqb (fst x) k) eqn:E; auto. apply str_eqb_eq in E. exfalso. apply ND. apply in_or_app. left. rewrite <- E. now apply in_map. }
  split; [|split; [exact NA|split; [|eapply f2_length; eauto]]].
  - intros x X. clear ND. induction Fp as [|e' [y w] p ap R Fp IH]; [destruct X|]. destruct X as [->|X].
    + destruct R as (E & _). rewrite E. apply NA. now left.
    + apply IH; auto. intros z Z. apply NA. now right.
  - destruct Fe as (E & _). rewrite E. apply str_eqb_refl.
Qed.
Lemma x_get_ok : forall m ids ik iv il p e q k, mowns m ids -> incl (fb ik iv il (p ++ e :: q)) ids ->
  (forall x, In x p -> str_eqb (snd (hk x)) k = false) -> str_eqb (snd (hk e)) k = true ->
  x_get m (mkf ik iv il (p ++ e :: q)) k = Ret (if 0 <? hl e then hv e else None).
Proof.
  intros m ids ik iv il p e q k O C P H. unfold x_get. cbn [mkf f_keys f_lengths f_values].
  rewrite (x_deref_ok _ m ik _ ids) by (first [exact O|apply C; now left]). unfold bind at 1. cbn [snd].
  rewrite (x_scan_null_hit m ids _ p e q 0); auto.
  2:{ intros x X. apply C. unfold fb. right. right. now right. }
  unfold bind at 1. cbn [plus].
  rewrite (x_deref_ok _ m il _ ids) by (first [exact O|apply C; right; right; now left]). unfold bind at 1. cbn [snd].
  rewrite (aget_map _ _ hl). unfold bind at 1. destruct (0 <? hl e); [|reflexivity].
  rewrite (x_deref_ok _ m iv _ ids) by (first [exact O|apply C; right; now left]). unfold bind at 1. cbn [snd]. apply (aget_map _ _ hv).
Qed.
Lemma x_get_length_hit : forall m ids ik iv il p e q k, mowns m ids -> incl (fb ik iv il (p ++ e :: q)) ids ->
  (forall x, In x p -> str_eqb (snd (hk x)) k = false) -> str_eqb (snd (hk e)) k = true ->
  x_get_length m (mkf ik iv il (p ++ e :: q)) k = Ret (hl e).
Proof.
  intros m ids ik iv il p e q k O C P H. unfold x_get_length. cbn [mkf f_keys f_lengths f_values].
  rewrite (x_deref_ok _ m ik _ ids) by (first [exact O|apply C; now left]). unfold bind at 1. cbn [snd].
  rewrite (x_scan_null_hit m ids _ p e q 0); auto.
  2:{ intros x X. apply C. unfold fb. right. right. now right. }
  unfold bind at 1. cbn [plus].
  rewrite (x_deref_ok _ m il _ ids) by (first [exact O|apply C; right; right; now left]). unfold bind at 1. cbn [snd]. apply (aget_map _ _ hl).
Qed.
Lemma x_get_length_miss : forall m ids ik iv il es k, mowns m ids -> incl (fb ik iv il es) ids ->
  (forall x, In x es -> str_eqb (snd (hk x)) k = false) -> x_get_length m (mkf ik iv il es) k = Ret (-1).
Proof.
  intros m ids ik iv il es k O C P. unfold x_get_length. cbn [mkf f_keys f_lengths f_values].
  rewrite (x_deref_ok _ m ik _ ids) by (first [exact O|apply C; now left]). unfold bind at 1. cbn [snd].
  rewrite (x_scan_null_miss m ids _ es 0); auto.
  intros x X. apply C. unfold fb. right. right. now right.
Qed.
Lemma put_at_call : forall N N' m ik iv il es a k b off fr,
  mowns m (fb ik iv il es ++ fr) -> Forall2 (erel N) es a -> NoDup (map fst a) ->
  b <> [] -> 0 <= off -> off + zlen b <= N' -> N <= N' -> N' + 1 < two64 ->
  call_result N' m a fr (do n <- x_get_length m (mkf ik iv il es) k; x_put_binary m (mkf ik iv il es) (Some k) (Some (block_of b)) (Z.min off (Z.max 0 n)) (zlen b))
    (put_meaning k (fun old => overlay old b off) a).
Proof.
  intros N N' m ik iv il es a k b off fr O F ND Bn O0 LB LN LT.
  assert (IC : incl (fb ik iv il es) (fb ik iv il es ++ fr)) by (intros x X; apply in_or_app; auto).
  assert (VG : forall o, 0 <= o -> vgiven (Some (block_of b)) o (zlen b) (fun old => overlay old b o)).
  { intros o Ho. replace (block_of b) with (block_of (b ++ [])) by now rewrite app_nil_r. now apply (vg_some b [] o). }
  pose proof (zlen_nonneg _ b).
  destruct (rel_split N k es a F) as [(p & e & q & ap & old & aq & -> & -> & Fp & Fe & Fq & H' & P1 & P2)|[P1 P2]].
  - rewrite (x_get_length_hit m _ ik iv il p e q k O IC P1 H'). unfold bind at 1.
    assert (EL : hl e = zlen old) by apply Fe. pose proof (zlen_nonneg _ old). rewrite EL, Z.max_r by lia.
    replace (put_meaning k (fun old => overlay old b off) (ap ++ (k, old) :: aq)) with
      (put_meaning k (fun o => overlay o b (Z.min off (zlen old))) (ap ++ (k, old) :: aq)).
    2:{ unfold put_meaning. destruct k; auto. f_equal. rewrite !a_change_hit by auto. now rewrite overlay_min. }
    eapply put_binary_call; eauto; try lia.
    + apply VG. lia.
    + intros p' old' q' E. assert (old' = old); [|subst; lia].
      assert (I1 : In (k, old) (ap ++ (k, old) :: aq)) by apply in_elt.
      assert (I2 : In (k, old') (ap ++ (k, old) :: aq)) by (rewrite E; apply in_elt).
      clear - ND I1 I2. set (l := ap ++ (k, old) :: aq) in *. clearbody l. induction l as [|[x y] l IH]; [destruct I1|].
      cbn [map fst] in ND. inversion ND; subst. destruct I1 as [E1|I1], I2 as [E2|I2]; auto.
      * congruence.
      * exfalso. inversion E1; subst. apply H1. now apply (in_map fst) in I2.
      * exfalso. inversion E2; subst. apply H1. now apply (in_map fst) in I1.
    + intros C. specialize (C (k, old) (in_elt _ _ _)). cbn [fst] in C. rewrite str_eqb_refl in C. discriminate.
  - rewrite (x_get_length_miss m _ ik iv il es k O IC P1). unfold bind at 1. rewrite Z.max_l by lia. rewrite Z.min_r by lia.
    replace (put_meaning k (fun old => overlay old b off) a) with (put_meaning k (fun o => overlay o b 0) a).
    2:{ unfold put_meaning. destruct k; auto. f_equal. rewrite !a_change_miss by auto. now rewrite !overlay_nil by lia. }
    eapply put_binary_call; eauto; try lia.
    + apply VG. lia.
    + intros p' old' q' E. apply zlen_nonneg.
    + intros _. reflexivity.
Qed.

(** ** removing *)
Lemma shift_map : forall A B (f : A -> B) d a e b, shift_loop (map f (a ++ e :: b) ++ [d]) (length a) (S (length b)) = Ret ((map f (a ++ b) ++ [d]) ++ [d]).
Proof.
  intros. rewrite map_app. cbn [map]. rewrite <- app_assoc. cbn [app].
  rewrite <- (map_length f a). replace (S (length b)) with (length (map f b ++ [d])) by (rewrite app_length, map_length; simpl; lia).
  rewrite shift_loop_spec. rewrite last_last. rewrite map_app, <- !app_assoc. reflexivity.
Qed.
Lemma x_remove_at_ok : forall m ik iv il a e b fr, mowns m (fb ik iv il (a ++ e :: b) ++ fr) ->
  exists m' ik' iv' il', x_remove_at m (mkf ik iv il (a ++ e :: b)) (Z.of_nat (length a)) = Ret (U_OK, (m', mkf ik' iv' il' (a ++ b))) /\
    later m m' /\ mowns m' (fb ik' iv' il' (a ++ b) ++ fr).
Proof.
  intros m ik iv il a e b fr O. unfold x_remove_at. cbn [mkf f_nb f_keys f_values f_lengths].
  assert (LE : length (a ++ e :: b) = S (length a + length b)) by (rewrite app_length; simpl; lia).
  replace (Z.of_nat (length a) <? 0) with false by (symmetry; apply Z.ltb_ge; lia).
  replace (Z.of_nat (length (a ++ e :: b)) <=? Z.of_nat (length a)) with false by (symmetry; apply Z.leb_gt; lia).
  rewrite Nat2Z.id.
  rewrite (x_deref_ok _ m ik _ _ O) by (simpl; auto). unfold bind at 1. cbn [snd fst].
  rewrite (aget_map _ _ (fun e => Some (hk e))). unfold bind at 1.
  destruct (hk e) as [ie se] eqn:HE. cbn [addr].
  assert (O1 : mowns m (ie :: ptr_blocks (hv e) ++ fb ik iv il (a ++ b) ++ fr)).
  { eapply mowns_ext; [exact O|]. intros x. unfold fb. rewrite !flat_map_app. cbn [flat_map]. unfold eblocks at 2. rewrite HE. cbn [fst]. repeat rewrite ?cnt_app, ?cnt_cons. lia. }
  destruct (x_free_ok _ _ _ O1) as (m1 & -> & O2 & L1 & _). unfold bind at 1.
  rewrite (x_deref_ok _ m1 iv _ _ O2) by (apply in_or_app; right; simpl; auto). unfold bind at 1. cbn [snd fst].
  rewrite (aget_map _ _ hv). unfold bind at 1.
  destruct (x_free_ptr _ _ _ _ O2) as (m2 & -> & O3 & L2). unfold bind at 1.
  rewrite (x_deref_ok _ m2 il _ _ O3) by (simpl; auto). unfold bind at 1. cbn [snd fst].
  replace (length (a ++ e :: b) - length a)%nat with (S (length b)) by lia.
  rewrite (shift_map _ _ (fun e => Some (hk e))). unfold bind at 1. rewrite (shift_map _ _ hv). unfold bind at 1. rewrite (shift_map _ _ hl). unfold bind at 1.
  assert (FN : forall A (f : hent -> A) d, firstn (length (a ++ e :: b)) ((map f (a ++ b) ++ [d]) ++ [d]) = map f (a ++ b) ++ [d]).
  { intros A f d. rewrite firstn_app. rewrite firstn_all2 by (rewrite app_length, map_length, app_length; simpl; lia).
    replace (length (a ++ e :: b) - length (map f (a ++ b) ++ [d]))%nat with 0%nat by (repeat rewrite ?app_length, ?map_length; simpl; lia).
    simpl. now rewrite app_nil_r. }
  assert (O4 : mowns m2 (ptr_blocks (Some (ik, tt)) ++ (iv :: il :: flat_map eblocks (a ++ b) ++ fr))) by (cbn [ptr_blocks]; exact O3).
  destruct (x_realloc_ok _ _ _ _ O4) as (p1 & m3 & E1 & O5 & L3). cbn [addr] in E1. rewrite E1. unfold bind at 1. clear E1.
  assert (O6 : mowns m3 (ptr_blocks (Some (iv, tt)) ++ (p1 :: il :: flat_map eblocks (a ++ b) ++ fr))) by (cbn [ptr_blocks]; mby O5).
  destruct (x_realloc_ok _ _ _ _ O6) as (p2 & m4 & E2 & O7 & L4). cbn [addr] in E2. rewrite E2. unfold bind at 1. clear E2.
  assert (O8 : mowns m4 (ptr_blocks (Some (il, tt)) ++ (p2 :: p1 :: flat_map eblocks (a ++ b) ++ fr))) by (cbn [ptr_blocks]; mby O7).
  destruct (x_realloc_ok _ _ _ _ O8) as (p3 & m5 & E3 & O9 & L5). cbn [addr] in E3. rewrite E3. unfold bind at 1. clear E3.
  exists m5, p1, p2, p3. split; [|split].
  - rewrite !FN. unfold mkf. rewrite LE. replace (S (length a + length b) - 1)%nat with (length (a ++ b)) by (rewrite app_length; lia). reflexivity.
  - eapply later_trans; [eauto|eapply later_trans; [eauto|eapply later_trans; [eauto|eapply later_trans; eauto]]].
  - mby O9.
Qed.
Lemma x_remove_loop_ok : forall t fr pre suf m ik iv il found, mowns m (fb ik iv il (pre ++ suf) ++ fr) ->
  exists m' ik' iv' il', let es' := filter (fun e => negb (t (snd (hk e)))) pre ++ suf in
    x_remove_loop m (mkf ik iv il (pre ++ suf)) t (length pre) found =
      Ret (if found || existsb (fun e => t (snd (hk e))) pre then U_OK else U_ERROR_NOT_FOUND, (m', mkf ik' iv' il' es')) /\
    later m m' /\ mowns m' (fb ik' iv' il' es' ++ fr).
Proof.
  intros t fr pre. induction pre as [|e pre IH] using rev_ind; intros suf m ik iv il found O.
  - exists m, ik, iv, il. cbn [length x_remove_loop existsb filter app]. rewrite orb_false_r. split; [reflexivity|]. split; [split; [auto|apply O]|exact O].
  - rewrite app_length. cbn [length]. replace (length pre + 1)%nat with (S (length pre)) by lia. cbn [x_remove_loop].
    rewrite <- app_assoc in *. cbn [app] in *. cbn [mkf f_keys].
    rewrite (x_deref_ok _ m ik _ _ O) by (simpl; auto). unfold bind at 1. cbn [snd fst].
    rewrite (aget_map _ _ (fun e => Some (hk e))). unfold bind at 1.
    rewrite (x_key_ok m _ t e O).
    2:{ apply in_or_app. left. unfold fb. right. right. right. apply hk_in, in_elt. }
    unfold bind at 1. rewrite existsb_app, filter_app. cbn [existsb filter].
    destruct (t (snd (hk e))) eqn:T.
    + fold (mkf ik iv il (pre ++ e :: suf)).
      destruct (x_remove_at_ok m ik iv il pre e suf fr O) as (m1 & ik1 & iv1 & il1 & -> & L1 & O1). unfold bind at 1. cbn [fst snd].
      change (U_OK =? U_OK) with true. cbn iota.
      destruct (IH suf m1 ik1 iv1 il1 true O1) as (m2 & ik2 & iv2 & il2 & R & L2 & O2).
      exists m2, ik2, iv2, il2. cbn [negb app]. rewrite app_nil_r. rewrite !orb_true_r. cbn [orb] in R. split; [exact R|]. split; [eapply later_trans; eauto|exact O2].
    + fold (mkf ik iv il (pre ++ e :: suf)).
      destruct (IH (e :: suf) m ik iv il found O) as (m2 & ik2 & iv2 & il2 & R & L2 & O2).
      exists m2, ik2, iv2, il2. cbn [negb app]. rewrite <- app_assoc. cbn [app]. rewrite orb_false_r. split; [exact R|]. split; [exact L2|exact O2].
Qed.
Lemma rel_filter : forall N t es a, Forall2 (erel N) es a ->
  Forall2 (erel N) (filter (fun e => negb (t (snd (hk e)))) es) (filter (fun e => negb (t (fst e))) a) /\
  existsb (fun e => t (snd (hk e))) es = existsb (fun e => t (fst e)) a.
Proof.
  intros N t es a F. induction F as [|e x es a R F [IH1 IH2]]; simpl; [split; auto|].
  assert (E : snd (hk e) = fst x) by apply R. rewrite E, IH2. split; auto. destruct (t (fst x)); simpl; auto.
Qed.
Lemma nodup_filter : forall A B (g : A -> B) f l, NoDup (map g l) -> NoDup (map g (filter f l)).
Proof.
  induction l as [|x l IH]; simpl; intros N; auto. inversion N; subst. destruct (f x); simpl; auto. constructor; auto.
  intros I. apply H1. apply in_map_iff in I. destruct I as (y & E & I). apply filter_In in I. rewrite <- E. apply in_map. apply I.
Qed.
Lemma remove_key_call : forall N m ik iv il es a t fr, mowns m (fb ik iv il es ++ fr) -> Forall2 (erel N) es a -> NoDup (map fst a) ->
  call_result N m a fr (x_remove_key m (mkf ik iv il es) t) (a_remove_key t a).
Proof.
  intros N m ik iv il es a t fr O F ND. unfold x_remove_key.
  destruct (x_remove_loop_ok t fr es [] m ik iv il false) as (m' & ik' & iv' & il' & R & L & O'); [now rewrite app_nil_r|].
  rewrite !app_nil_r in *. cbn [mkf f_nb]. fold (mkf ik iv il es). rewrite R. cbn [orb].
  destruct (rel_filter N t es a F) as [F' E]. rewrite E.
  do 7 eexists. split; [reflexivity|]. split; [exact L|]. split; [exact O'|]. split; [exact F'|]. split; [now apply nodup_filter|]. left. reflexivity.
Qed.
Lemma rel_nth : forall N es a i, Forall2 (erel N) es a -> (i < length es)%nat ->
  exists p e q ap x aq, es = p ++ e :: q /\ a = ap ++ x :: aq /\ length p = i /\ length ap = i /\ Forall2 (erel N) p ap /\ erel N e x /\ Forall2 (erel N) q aq.
Proof.
  intros N es a i F. revert i. induction F as [|e x es a R F IH]; intros i L; [simpl in L; lia|]. destruct i as [|i].
  - exists [], e, es, [], x, a. repeat (split; [first [reflexivity|assumption|constructor]|]). assumption.
  - destruct (IH i) as (p & e' & q & ap & x' & aq & -> & -> & A & B & C & D & E); [simpl in L; lia|].
    exists (e :: p), e', q, (x :: ap), x', aq. repeat (split; [first [reflexivity|assumption|simpl; congruence|constructor; assumption]|]). assumption.
Qed.
Lemma drop_mid : forall A (p : list A) x q, drop (length p) (p ++ x :: q) = p ++ q.
Proof.
  intros. unfold drop. rewrite firstn_app, Nat.sub_diag, firstn_all. simpl. rewrite app_nil_r. f_equal.
  induction p; simpl; auto.
Qed.
Lemma nodup_drop : forall A B (g : A -> B) p x q, NoDup (map g (p ++ x :: q)) -> NoDup (map g (p ++ q)).
Proof. intros A B g p x q N. rewrite map_app in *. cbn [map] in N. apply NoDup_remove_1 in N. exact N. Qed.
Lemma remove_at_call : forall N m ik iv il es a i fr, mowns m (fb ik iv il es ++ fr) -> Forall2 (erel N) es a -> NoDup (map fst a) ->
  call_result N m a fr (x_remove_at m (mkf ik iv il es) i) (a_remove_at i a).
Proof.
  intros N m ik iv il es a i fr O F ND. pose proof (f2_length _ _ _ _ _ F) as LL. unfold a_remove_at.
  assert (SAME : forall c, call_result N m a fr (Ret (c, (m, mkf ik iv il es))) (c, a)).
  { intros c. exists c, m, ik, iv, il, es, a. split; [reflexivity|]. split; [split; [auto|apply O]|]. auto. }
  destruct (i <? 0) eqn:I0.
  { unfold x_remove_at. rewrite I0. apply SAME. }
  apply Z.ltb_ge in I0. destruct (zlen a <=? i) eqn:I1.
  { unfold x_remove_at. cbn [mkf f_nb]. replace (i <? 0) with false by (symmetry; apply Z.ltb_ge; lia). rewrite LL. fold (zlen a). rewrite I1.
    replace (mk_fmap _ _ _ _) with (mkf ik iv il es) by (unfold mkf; now rewrite LL). apply SAME. }
  apply Z.leb_gt in I1. unfold zlen in I1.
  destruct (rel_nth N es a (Z.to_nat i) F) as (p & e & q & ap & x & aq & -> & -> & A & B & C & D & E); [lia|].
  destruct (x_remove_at_ok m ik iv il p e q fr O) as (m' & ik' & iv' & il' & R & L & O').
  rewrite A, Z2Nat.id in R by lia. rewrite R. replace (Z.to_nat i) with (length ap) by lia. rewrite drop_mid.
  do 7 eexists. split; [reflexivity|]. split; [exact L|]. split; [exact O'|]. split; [apply Forall2_app; eassumption|].
  split; [eapply nodup_drop; eauto|]. left. reflexivity.
Qed.
