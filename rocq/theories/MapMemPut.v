(** Proofs about the memory of maps (C96): putting and removing. *)
From Coq Require Import ZArith Bool List Lia.
From Verif Require Import Base BaseFacts UMapModel UMapProofs OwnModel OwnSpec OwnProofs MapMemModel MapMemSpec MapMemProofs.
Import ListNotations.
Open Scope Z_scope.

(** the value given: NULL, or the first bytes of a block *)
Inductive vgiven : option buf -> Z -> Z -> (list Z -> list Z) -> Prop :=
| vg_null : vgiven None 0 0 (fun _ => [])
| vg_some : forall w rest off, w <> [] -> 0 <= off -> vgiven (Some (block_of (w ++ rest))) off (zlen w) (fun old => overlay old w off).

Lemma zlen_block : forall l, zlen (block_of l) = zlen l.
Proof. intros. unfold block_of. apply zlen_map. Qed.
Lemma block_app : forall a b, block_of (a ++ b) = block_of a ++ block_of b.
Proof. intros. apply map_app. Qed.
Lemma zfirstn_block : forall n l, zfirstn n (block_of l) = block_of (zfirstn n l).
Proof. intros. unfold zfirstn, block_of. apply firstn_map. Qed.
Lemma zskipn_block : forall n l, zskipn n (block_of l) = block_of (zskipn n l).
Proof. intros. unfold zskipn, block_of. apply skipn_map. Qed.
Lemma zfirstn_app_le : forall A (a b : list A) n, n <= zlen a -> zfirstn n (a ++ b) = zfirstn n a.
Proof.
  intros A a b n L. unfold zfirstn, zlen in *. rewrite firstn_app. replace (Z.to_nat n - length a)%nat with 0%nat by lia. now rewrite app_nil_r.
Qed.
Lemma zskipn_app_le : forall A (a b : list A) n, n <= zlen a -> zskipn n (a ++ b) = zskipn n a ++ b.
Proof.
  intros A a b n L. unfold zskipn, zlen in *. rewrite skipn_app. replace (Z.to_nat n - length a)%nat with 0%nat by lia. reflexivity.
Qed.
Lemma zskipn_all : forall A (a : list A) n, zlen a <= n -> zskipn n a = [].
Proof. intros. unfold zskipn, zlen in *. apply skipn_all2. lia. Qed.
Lemma zlen_pos : forall A (l : list A), l <> [] -> 0 < zlen l.
Proof. intros A [|x l] H; [congruence|]. unfold zlen. simpl. lia. Qed.

Lemma flat_mid : forall a e b x, cnt (flat_map eblocks (a ++ e :: b)) x = (one (fst (hk e)) x + cnt (ptr_blocks (hv e)) x + cnt (flat_map eblocks a) x + cnt (flat_map eblocks b) x)%nat.
Proof. intros. rewrite flat_map_app. cbn [flat_map]. unfold eblocks at 2. repeat rewrite ?cnt_app, ?cnt_cons. lia. Qed.
Ltac countm := let x := fresh "x" in intros x; unfold fb; repeat rewrite ?cnt_app, ?cnt_cons, ?cnt_nil, ?flat_mid; cbn [hk hv fst]; try lia.
Ltac mby H := eapply mowns_ext; [exact H|countm].

Lemma aset_map : forall A B (f : A -> B) a e b r y, aset (map f (a ++ e :: b) ++ r) (length a) y = Ret (map f a ++ y :: map f b ++ r).
Proof. intros. rewrite map_app. simpl. rewrite <- app_assoc. simpl. rewrite <- (map_length f a). apply aset_mid. Qed.

Lemma overlay_long : forall old w off, 0 <= off <= zlen old -> zlen old < off + zlen w -> overlay old w off = zfirstn off old ++ w.
Proof. intros old w off L G. unfold overlay. rewrite Z.min_l by lia. rewrite zskipn_all by lia. now rewrite app_nil_r. Qed.
Lemma overlay_len : forall old w off, 0 <= off -> zlen (overlay old w off) = Z.max (zlen old) (Z.min off (zlen old) + zlen w).
Proof.
  intros old w off L. unfold overlay. pose proof (zlen_nonneg _ old). pose proof (zlen_nonneg _ w). rewrite !zlen_app. rewrite zlen_zfirstn by lia.
  destruct (Z_lt_le_dec (Z.min off (zlen old) + zlen w) (zlen old)).
  - rewrite zlen_zskipn by lia. lia.
  - rewrite zskipn_all by lia. change (zlen (@nil Z)) with 0. lia.
Qed.

(** the result of a call: the map is changed, or there was no memory *)
Definition put_result (N : Z) (m : mem) (es : list hent) (a : amap) (fr : list nat) (r : outcome (Z * (mem * fmap))) (a' : amap) : Prop :=
  exists c m' ik iv il es', r = Ret (c, (m', mkf ik iv il es')) /\ later m m' /\ mowns m' (fb ik iv il es' ++ fr) /\
    ((c = U_OK /\ Forall2 (erel N) es' a') \/ (c = U_ERROR_MEMORY /\ short m /\ es' = es)).

Lemma x_update_ok : forall N N' m ik iv il p e q ap old aq k v off len g fr,
  mowns m (fb ik iv il (p ++ e :: q) ++ fr) -> Forall2 (erel N) p ap -> erel N e (k, old) -> Forall2 (erel N) q aq ->
  vgiven v off len g -> off <= zlen old -> off + len + 1 < two64 -> N <= N' -> off + len <= N' ->
  put_result N' m (p ++ e :: q) (ap ++ (k, old) :: aq) fr
    (x_update m (mkf ik iv il (p ++ e :: q)) (length p) v off len) (ap ++ (k, g old) :: aq).
Proof.
  intros N N' m ik iv il p e q ap old aq k v off len g fr O Fp Fe Fq VG LO LT LN LN'.
  assert (I1 : In il (fb ik iv il (p ++ e :: q) ++ fr)) by (simpl; auto). assert (I2 : In iv (fb ik iv il (p ++ e :: q) ++ fr)) by (simpl; auto).
  unfold x_update. cbn [mkf f_lengths f_values f_keys f_nb].
  rewrite (x_deref_ok _ m il _ _ O I1). unfold bind at 1. cbn [snd fst]. rewrite (aget_map _ _ hl). unfold bind at 1.
  rewrite (x_deref_ok _ m iv _ _ O I2). unfold bind at 1. cbn [snd fst]. rewrite (aget_map _ _ hv). unfold bind at 1.
  destruct Fe as (Ek & Kn & (EL & EV) & EN). cbn [fst snd] in *.
  assert (MONO : forall es a, Forall2 (erel N) es a -> Forall2 (erel N') es a).
  { intros es a F. induction F; constructor; auto. eapply erel_mono; [exact LN|eassumption]. }
  destruct VG as [|w rest off Wn O0].
  - rewrite (add64_small 0 0) by (unfold two64; lia). pose proof (zlen_nonneg _ old).
    replace (hl e <? 0 + 0) with false by (symmetry; apply Z.ltb_ge; lia). cbn [andb]. unfold bind at 1.
    assert (O1 : mowns m (ptr_blocks (hv e) ++ (fst (hk e) :: fb ik iv il p ++ flat_map eblocks q ++ fr))) by mby O.
    destruct (x_free_ptr _ _ _ _ O1) as (m1 & -> & O2 & L1). unfold bind at 1. unfold x_strdup_empty.
    destruct (x_malloc_ok _ _ O2) as (pe & m2 & -> & L2 & CASE).
    rewrite (aset_map _ _ hv). unfold bind at 1. rewrite (aset_map _ _ hl). unfold bind at 1.
    exists U_OK, m2, ik, iv, il, (p ++ mk_hent (hk e) (at_block pe (cblock [])) 0 :: q). split.
    { unfold mkf. rewrite !map_app. cbn [map hv hl hk]. rewrite <- !app_assoc. rewrite !app_length. reflexivity. }
    split; [eapply later_trans; eauto|]. split.
    + destruct CASE as [(i & -> & O3)|(-> & _ & O3)]; cbn [at_block]; mby O3; cbn [ptr_blocks]; rewrite ?cnt_cons, ?cnt_nil; lia.
    + left. split; auto. apply Forall2_app; auto. constructor; auto. split; [exact Ek|]. split; [exact Kn|]. cbn [snd]. split.
      * split; [reflexivity|]. cbn [hv]. destruct CASE as [(i & -> & _)|(-> & _)]; cbn [at_block]; reflexivity.
      * unfold zlen. simpl. lia.
  - pose proof (zlen_pos _ w Wn) as WP. pose proof (zlen_nonneg _ rest) as RP.
    rewrite (add64_small off (zlen w)) by lia. rewrite (add64_small (off + zlen w) 1) by lia.
    destruct (hl e <? off + zlen w) eqn:G.
    + apply Z.ltb_lt in G.
      assert (O1 : mowns m (ptr_blocks (hv e) ++ (fst (hk e) :: fb ik iv il p ++ flat_map eblocks q ++ fr))) by mby O.
      destruct (x_realloc_ok _ _ _ _ O1) as (i & m1 & -> & O2 & L1). unfold bind at 2. unfold bind at 1. cbn [fst snd at_block andb].
      rewrite (x_deref_ok _ m1 i _ _ O2) by now left. unfold bind at 1. cbn [snd fst].
      set (B := match hv e with Some (_, b) => b | None => [] end).
      assert (BL : zfirstn off (realloc B (off + zlen w + 1)) = block_of (zfirstn off old)).
      { unfold B. destruct (hv e) as [[j x]|].
        - subst x. rewrite zfirstn_realloc_pad.
          + unfold pad. rewrite block_app, <- app_assoc. rewrite zfirstn_app_le by (rewrite zlen_block; lia). apply zfirstn_block.
          + lia.
          + lia.
          + rewrite zlen_block, zlen_app. unfold zlen at 2. simpl. lia.
        - subst old. replace off with 0 by (unfold zlen in LO; simpl in LO; lia). reflexivity. }
      pose proof (write_and_terminate (realloc B (off + zlen w + 1)) off (block_of (w ++ rest)) (zlen w)) as W.
      rewrite realloc_len in W by lia. rewrite zlen_block, zlen_app in W.
      assert (W' := W O0 ltac:(lia) eq_refl ltac:(lia)). clear W. rewrite BL in W'.
      rewrite (block_app w rest) in W'. rewrite zfirstn_app_exact in W' by now rewrite zlen_block.
      rewrite block_app. unfold bind in W'. unfold bind at 1.
      destruct (memcpy (realloc B (off + zlen w + 1)) off (block_of w ++ block_of rest) (zlen w)) as [b2|]; [|discriminate].
      rewrite W'. unfold bind at 1. rewrite (aset_map _ _ hv). unfold bind at 1. rewrite (aset_map _ _ hl). unfold bind at 1.
      exists U_OK, m1, ik, iv, il, (p ++ mk_hent (hk e) (Some (i, block_of (zfirstn off old) ++ block_of w ++ [Some 0])) (off + zlen w) :: q). split.
      { unfold mkf. rewrite !map_app. cbn [map hv hl hk]. rewrite <- !app_assoc. rewrite !app_length. reflexivity. }
      split; [exact L1|]. split.
      * mby O2. cbn [ptr_blocks]. rewrite ?cnt_cons, ?cnt_nil. lia.
      * left. split; auto. apply Forall2_app; auto. constructor; auto. split; [exact Ek|]. split; [exact Kn|]. cbn [snd]. rewrite EL in G.
        rewrite overlay_long by lia. rewrite zlen_app, zlen_zfirstn by lia. split; [|lia]. split.
        -- rewrite zlen_app, zlen_zfirstn by lia. reflexivity.
        -- cbn [hv]. rewrite <- app_assoc, !block_app. reflexivity.
    + apply Z.ltb_ge in G. cbn [andb]. unfold bind at 1.
      destruct (hv e) as [[i x]|] eqn:EE; [|subst old; unfold zlen in *; simpl in *; lia]. subst x.
      rewrite (x_deref_ok _ m i _ _ O).
      2:{ apply in_or_app. left. unfold fb. right. right. right. rewrite flat_map_app. apply in_or_app. right. apply in_or_app. left. unfold eblocks. rewrite EE. right. now left. }
      unfold bind at 1. cbn [snd fst]. rewrite block_app. rewrite (block_app w rest).
      assert (Z0 : zlen [0] = 1) by reflexivity.
      rewrite memcpy_ok by (rewrite ?zlen_app, ?zlen_block; lia). unfold bind at 1.
      rewrite (zfirstn_app_exact _ (block_of w)) by now rewrite zlen_block.
      rewrite zfirstn_app_le by (rewrite zlen_block; lia). rewrite zskipn_app_le by (rewrite zlen_block; lia).
      rewrite zfirstn_block, zskipn_block. rewrite (aset_map _ _ hv). unfold bind at 1.
      exists U_OK, m, ik, iv, il, (p ++ mk_hent (hk e) (Some (i, block_of (zfirstn off old) ++ block_of w ++ block_of (zskipn (off + zlen w) old) ++ block_of [0])) (hl e) :: q). split.
      { unfold mkf. rewrite !map_app. cbn [map hv hl hk]. rewrite <- !app_assoc. rewrite !app_length. reflexivity. }
      split; [split; [auto|apply O]|]. split.
      * mby O. rewrite EE. cbn [ptr_blocks]. rewrite ?cnt_cons, ?cnt_nil. lia.
      * left. split; auto. apply Forall2_app; auto. constructor; auto. split; [exact Ek|]. split; [exact Kn|]. cbn [snd].
        rewrite overlay_len by lia. split; [|lia]. split; [cbn [hl]; rewrite overlay_len; lia|]. cbn [hv].
        unfold overlay. rewrite Z.min_l by lia. rewrite !block_app, <- !app_assoc. reflexivity.
Qed.

Lemma append_arr2 : forall A (l : list A) d x n (B : Type) (c : list A -> outcome B), n = length l ->
  (do a <- aset (arealloc (l ++ [d]) (n + 2) d) n x; do b <- aset a (n + 1) d; c b) = c (l ++ [x; d]).
Proof.
  intros A l d x n B c E. pose proof (append_arr A l d x n E) as H.
  destruct (aset (arealloc (l ++ [d]) (n + 2) d) n x) as [y|]; simpl in *; [|discriminate]. now rewrite H.
Qed.

Lemma x_append_ok : forall m ik iv il es k v total fr, mowns m (fst k :: ptr_blocks v ++ fb ik iv il es ++ fr) ->
  exists m' ik' iv' il', x_append m (mkf ik iv il es) k v total = Ret (U_OK, (m', mkf ik' iv' il' (es ++ [mk_hent k v total]))) /\
    later m m' /\ mowns m' (fb ik' iv' il' (es ++ [mk_hent k v total]) ++ fr).
Proof.
  intros m ik iv il es k v total fr O. unfold x_append. cbn [mkf f_keys f_values f_lengths f_nb].
  rewrite (x_deref_ok _ m ik _ _ O) by (right; apply in_or_app; right; now left). unfold bind at 1. cbn [snd fst].
  rewrite x_null_index_ok. unfold bind at 1. cbn [plus].
  assert (O1 : mowns m (ptr_blocks (Some (ik, tt)) ++ (fst k :: ptr_blocks v ++ iv :: il :: flat_map eblocks es ++ fr))) by (cbn [ptr_blocks]; mby O).
  destruct (x_realloc_ok _ _ _ _ O1) as (p1 & m1 & E1 & O2 & L1). cbn [addr] in E1. rewrite E1. unfold bind at 1. clear E1.
  rewrite append_arr2 by now rewrite map_length.
  assert (O3 : mowns m1 (ptr_blocks (Some (iv, map hv es ++ [None])) ++ (p1 :: fst k :: ptr_blocks v ++ il :: flat_map eblocks es ++ fr))) by (cbn [ptr_blocks]; mby O2).
  destruct (x_realloc_ok _ _ _ _ O3) as (p2 & m2 & E2 & O4 & L2). rewrite E2. unfold bind at 1. clear E2.
  rewrite append_arr2 by now rewrite map_length.
  assert (O5 : mowns m2 (ptr_blocks (Some (il, map hl es ++ [0])) ++ (p2 :: p1 :: fst k :: ptr_blocks v ++ flat_map eblocks es ++ fr))) by (cbn [ptr_blocks]; mby O4).
  destruct (x_realloc_ok _ _ _ _ O5) as (p3 & m3 & E3 & O6 & L3). rewrite E3. unfold bind at 1. clear E3.
  rewrite append_arr2 by now rewrite map_length.
  exists m3, p1, p2, p3. split; [|split].
  - unfold mkf. rewrite !map_app. cbn [map hk hv hl]. rewrite <- !app_assoc. rewrite app_length. cbn [length]. replace (length es + 1)%nat with (S (length es)) by lia. reflexivity.
  - eapply later_trans; [eauto|eapply later_trans; eauto].
  - mby O6.
Qed.

Lemma rel_split : forall N k es a, Forall2 (erel N) es a ->
  (exists p e q ap old aq, es = p ++ e :: q /\ a = ap ++ (k, old) :: aq /\ Forall2 (erel N) p ap /\ erel N e (k, old) /\ Forall2 (erel N) q aq /\
     str_eqb (snd (hk e)) k = true /\ (forall x, In x p -> str_eqb (snd (hk x)) k = false) /\ (forall x, In x ap -> str_eqb (fst x) k = false)) \/
  ((forall x, In x es -> str_eqb (snd (hk x)) k = false) /\ (forall x, In x a -> str_eqb (fst x) k = false)).
Proof.
  intros N k es a F. induction F as [|e x es a R F IH].
  - right. split; intros x [].
  - destruct x as [kx vx]. assert (R' := R). destruct R as (E & _). cbn [fst] in E. destruct (str_eqb (snd (hk e)) k) eqn:H.
    + left. apply str_eqb_eq in H. rewrite E in H. destruct H. exists [], e, es, [], vx, a. repeat split; auto; try apply R'.
      * now rewrite E, str_eqb_refl.
      * intros x [].
      * intros x [].
    + destruct IH as [(p & e' & q & ap & old & aq & -> & -> & A & B & C & D & P1 & P2)|[P1 P2]].
      * left. exists (e :: p), e', q, ((kx, vx) :: ap), old, aq. repeat split; auto; try apply B.
        -- intros x [<-|I]; auto.
        -- intros x [<-|I]; auto. cbn [fst]. now rewrite <- E.
      * right. split; intros x [<-|I]; auto. cbn [fst]. now rewrite <- E.
Qed.
Lemma a_change_hit : forall k g ap old aq, (forall x, In x ap -> str_eqb (fst x) k = false) -> a_change k g (ap ++ (k, old) :: aq) = ap ++ (k, g old) :: aq.
Proof.
  intros k g ap old aq N. induction ap as [|[x v] ap IH]; simpl.
  - now rewrite str_eqb_refl.
  - pose proof (N (x, v) (or_introl eq_refl)) as Nx. cbn [fst] in Nx. rewrite Nx. f_equal. apply IH. intros y Y. apply N. now right.
Qed.
Lemma a_change_miss : forall k g a, (forall x, In x a -> str_eqb (fst x) k = false) -> a_change k g a = a ++ [(k, g [])].
Proof.
  intros k g a N. induction a as [|[x v] ap IH]; simpl; auto.
  pose proof (N (x, v) (or_introl eq_refl)) as Nx. cbn [fst] in Nx. rewrite Nx. f_equal. apply IH. intros y Y. apply N. now right.
Qed.

(** the offset is inside the value that the key has *)
Definition off_ok (k : str) (off : Z) (a : amap) : Prop := forall p old q, a = p ++ (k, old) :: q -> off <= zlen old.
Definition new_off_ok (k : str) (off : Z) (a : amap) : Prop := (forall x, In x a -> str_eqb (fst x) k = false) -> off = 0.

Lemma x_put_binary_ok : forall N N' m ik iv il es a k v off len g fr,
  mowns m (fb ik iv il es ++ fr) -> Forall2 (erel N) es a -> k <> [] -> vgiven v off len g ->
  off_ok k off a -> new_off_ok k off a -> off + len + 1 < two64 -> N <= N' -> off + len <= N' ->
  put_result N' m es a fr (x_put_binary m (mkf ik iv il es) (Some k) v off len) (a_change k g a).
Proof.
  intros N N' m ik iv il es a k v off len g fr O F Kn VG OK1 OK2 LT LN LN'. unfold x_put_binary.
  assert (SUM : 0 <= off + len /\ 0 <= off).
  { destruct VG as [|w rest off Wn O0]; [lia|]. pose proof (zlen_nonneg _ w). lia. }
  rewrite (add64_small off len) by lia. rewrite (add64_small (off + len) 1) by lia.
  replace (off + len + 1 <=? SIZE_MAX) with true by (symmetry; apply Z.leb_le; unfold SIZE_MAX; lia).
  replace (match k with [] => true | _ => false end) with false by (destruct k; congruence). cbn [negb orb].
  assert (Iik : In ik (fb ik iv il es ++ fr)) by (simpl; auto). assert (Iiv : In iv (fb ik iv il es ++ fr)) by (simpl; auto).
  assert (IC : incl (flat_map eblocks es) (fb ik iv il es ++ fr)) by (intros x X; unfold fb; simpl; right; right; right; apply in_or_app; auto).
  destruct (rel_split N k es a F) as [(p & e & q & ap & old & aq & -> & -> & Fp & Fe & Fq & H & P1 & P2)|[P1 P2]].
  - cbn [mkf f_nb]. pose proof (x_scan_hit m _ ik iv il (fun x => str_eqb x k) p e q [] O Iik) as SH. cbn [app length plus] in SH.
    fold (mkf ik iv il (p ++ e :: q)). rewrite SH by auto. unfold bind at 1. rewrite a_change_hit by auto.
    eapply x_update_ok; eauto.
  - cbn [mkf f_nb]. pose proof (x_scan_miss m _ ik iv il (fun x => str_eqb x k) es [] O Iik) as SH. cbn [app length] in SH.
    fold (mkf ik iv il es). rewrite SH by auto. unfold bind at 1. rewrite a_change_miss by auto.
    cbn [mkf f_values]. rewrite (x_deref_ok _ m iv _ _ O) by auto. unfold bind at 1. cbn [snd].
    replace (aget (map hv es ++ [None]) (length es)) with (@Ret (ptr buf) None) by (symmetry; rewrite <- (map_length hv es); apply aget_mid). unfold bind at 1.
    assert (MONO : Forall2 (erel N') es a) by (clear - F LN; induction F; constructor; auto; eapply erel_mono; [exact LN|eassumption]).
    fold (mkf ik iv il es).
    destruct (x_malloc_ok _ _ O) as (p1 & m1 & -> & L1 & [(dk & -> & O1)|(-> & S1 & O1)]).
    2:{ exists U_ERROR_MEMORY, m1, ik, iv, il, es. split; [reflexivity|]. split; [exact L1|]. split; [exact O1|]. right. auto. }
    pose proof (OK2 P2) as OFF0.
    destruct VG as [|w rest off Wn O0].
    + unfold x_strdup_empty. destruct (x_malloc_ok _ _ O1) as (p2 & m2 & -> & L2 & CASE).
      destruct (x_append_ok m2 ik iv il es (dk, k) (at_block p2 (cblock [])) (0 + 0) fr) as (m3 & ik' & iv' & il' & XA & L3 & O3).
      { cbn [fst]. destruct CASE as [(i & -> & O2)|(-> & _ & O2)]; cbn [at_block ptr_blocks]; mby O2. }
      exists U_OK, m3, ik', iv', il', (es ++ [mk_hent (dk, k) (at_block p2 (cblock [])) (0 + 0)]).
      split; [exact XA|]. split; [eapply later_trans; [eauto|eapply later_trans; eauto]|]. split; [exact O3|].
      left. split; auto. apply Forall2_app; auto. constructor; auto. split; [reflexivity|]. split; [exact Kn|]. cbn [snd]. split.
      * split; [reflexivity|]. cbn [hv]. destruct CASE as [(i & -> & _)|(-> & _)]; reflexivity.
      * unfold zlen. simpl. lia.
    + pose proof (zlen_pos _ w Wn) as WP. pose proof (zlen_nonneg _ rest) as RP.
      destruct (x_malloc_ok _ _ O1) as (p2 & m2 & -> & L2 & [(dv & -> & O2)|(-> & S2 & O2)]).
      2:{ assert (O2' : mowns m2 (dk :: fb ik iv il es ++ fr)) by exact O2. destruct (x_free_ok _ _ _ O2') as (m3 & -> & O3 & L3 & _). unfold bind at 1.
          exists U_ERROR_MEMORY, m3, ik, iv, il, es. split; [reflexivity|]. split; [eapply later_trans; [eauto|eapply later_trans; eauto]|].
          split; [exact O3|]. right. split; auto. split; [now apply L1|auto]. }
      pose proof (write_and_terminate (malloc (off + zlen w + 1)) off (block_of (w ++ rest)) (zlen w)) as W.
      rewrite malloc_len in W by lia. rewrite zlen_block, zlen_app in W.
      assert (W' := W O0 ltac:(lia) eq_refl ltac:(lia)). clear W.
      rewrite (block_app w rest) in W'. rewrite (zfirstn_app_exact _ (block_of w)) in W' by now rewrite zlen_block.
      rewrite block_app. unfold bind in W'. unfold bind at 1.
      destruct (memcpy (malloc (off + zlen w + 1)) off (block_of w ++ block_of rest) (zlen w)) as [b2|]; [|discriminate].
      rewrite W'. unfold bind at 1. rewrite OFF0 in *. rewrite zfirstn_0. cbn [app].
      destruct (x_append_ok m2 ik iv il es (dk, k) (Some (dv, block_of w ++ [Some 0])) (0 + zlen w) fr) as (m3 & ik' & iv' & il' & XA & L3 & O3).
      { cbn [fst ptr_blocks]. mby O2. }
      exists U_OK, m3, ik', iv', il', (es ++ [mk_hent (dk, k) (Some (dv, block_of w ++ [Some 0])) (0 + zlen w)]).
      split; [exact XA|]. split; [eapply later_trans; [eauto|eapply later_trans; eauto]|]. split; [exact O3|].
      left. split; auto. apply Forall2_app; auto. constructor; auto. split; [reflexivity|]. split; [exact Kn|]. cbn [snd].
      assert (OV : overlay [] w 0 = w) by (unfold overlay, zfirstn, zskipn; simpl; rewrite skipn_nil; apply app_nil_r).
      rewrite OV. split; [|lia]. split; [cbn [hl]; lia|]. cbn [hv]. now rewrite block_app.
Qed.
