(** Proofs about the memory of requests that come in (C105): the pieces of forms. *)
From Coq Require Import String ZArith Bool List Lia.
From Verif Require Import Base BaseFacts UMapModel UMapProofs Utf8Model OwnModel OwnSpec OwnProofs MapMemModel MapMemSpec MapMemProofs MapMemPut MapMemRun MapMemSteps
  RespMemModel RespMemSpec RespMemProofs RespMemSteps ReqMemModel ReqMemSpec ReqMemProofs ReqMemCalls ReqMemCopy ReqMemSteps RecvMemModel RecvMemSpec RecvMemProofs.
Import ListNotations.
Open Scope Z_scope.

(** every value has its block *)
Definition solid (es : list hent) : Prop := Forall (fun v => v <> None) (map hv es).
Ltac bd E x H := match type of E with bind ?t _ = _ => destruct t as [x|] eqn:H; cbn [bind] in E; [|discriminate E] end.
Lemma update_solid : forall m ik iv il p e q w off len c m' ik' iv' il' es', m_grow m = [] -> solid (p ++ e :: q) ->
  x_update m (mkf ik iv il (p ++ e :: q)) (length p) (Some w) off len = Ret (c, (m', mkf ik' iv' il' es')) -> solid es' /\ c = U_OK.
Proof.
  intros m ik iv il p e q w off len c m' ik' iv' il' es' G S E. unfold x_update in E. cbn [mkf f_lengths f_values f_keys f_nb] in E.
  assert (FIN : forall x : ptr buf, x <> None -> Forall (fun v => v <> None) (map hv p ++ x :: map hv q)).
  { intros x X. unfold solid in S. rewrite map_app in S. cbn [map] in S. apply Forall_app in S as [S1 S2]. inversion S2. apply Forall_app. split; auto. }
  assert (END : forall (x : ptr buf) a j, x <> None -> aset (map hv (p ++ e :: q) ++ [None]) (length p) x = Ret a -> f_values (mkf ik' iv' il' es') = Some (j, a) -> solid es').
  { intros x a j X A B. rewrite (aset_map _ _ hv) in A. injection A as <-. cbn [mkf f_values] in B. injection B as _ B.
    change (x :: map hv q ++ [None]) with ((x :: map hv q) ++ [None]) in B. rewrite app_assoc in B. apply app_inj_tail in B as [B _]. unfold solid. rewrite B. now apply FIN. }
  bd E a1 H1. bd E z H2. bd E vs H3. assert (V : vs = (iv, map hv (p ++ e :: q) ++ [None])) by (cbn [x_deref] in H3; bd H3 u H4; now inversion H3). subst vs. cbn [snd fst] in *.
  bd E v0 H4. bd E y H5. destruct y as [v1 m1]. destruct ((z <? add64 off len) && match v1 with None => true | Some _ => false end) eqn:FAIL.
  - exfalso. apply andb_prop in FAIL as [FA FB]. rewrite FA in H5. unfold x_realloc in H5. rewrite G in H5. cbn [next_answer] in H5. bd H5 y H6. bd H6 h H7. injection H6 as <-. cbn in H5. injection H5 as <- _. discriminate FB.
  - bd E d H6. bd E b H7. destruct (z <? add64 off len).
    + bd E b1 H8. bd E a H9. bd E l H10. assert (c = U_OK) by (apply (f_equal (fun r => match r with Ret (c, _) => c | UB _ => U_OK end)) in E; symmetry; exact E). split; [|assumption]. apply (f_equal (fun r => match r with Ret (_, (_, f)) => f_values f | UB _ => None end)) in E. cbn [f_values] in E. eapply (END _ a); [|eassumption|symmetry; exact E]. discriminate.
    + bd E a H9. assert (c = U_OK) by (apply (f_equal (fun r => match r with Ret (c, _) => c | UB _ => U_OK end)) in E; symmetry; exact E). split; [|assumption]. apply (f_equal (fun r => match r with Ret (_, (_, f)) => f_values f | UB _ => None end)) in E. cbn [f_values] in E. eapply (END _ a); [|eassumption|symmetry; exact E]. discriminate.
Qed.

Lemma put_solid : forall N m ik iv il es a k w off len c m' ik' iv' il' es' fr, mowns m (fb ik iv il es ++ fr) -> Forall2 (erel N) es a -> solid es -> k <> [] ->
  x_put_binary m (mkf ik iv il es) (Some k) (Some w) off len = Ret (c, (m', mkf ik' iv' il' es')) -> solid es' /\ (c = U_ERROR_MEMORY -> forall x, In x a -> str_eqb (fst x) k = false).
Proof.
  intros N m ik iv il es a k w off len c m' ik' iv' il' es' fr O F S Kn E. unfold x_put_binary in E.
  assert (SAME : f_values (mkf ik' iv' il' es') = f_values (mkf ik iv il es) -> solid es').
  { intros H. cbn [mkf f_values] in H. injection H as _ H. apply app_inj_tail in H as [H _]. unfold solid. now rewrite H. }
  replace (match k with [] => true | _ => false end) with false in E by (destruct k; congruence). cbn [orb] in E.
  destruct (negb (add64 (add64 off len) 1 <=? SIZE_MAX)).
  { split; [|intros ->; discriminate E]. apply SAME. apply (f_equal (fun r => match r with Ret (_, (_, f)) => f_values f | UB _ => None end)) in E. symmetry. exact E. }
  assert (Iik : In ik (fb ik iv il es ++ fr)) by (simpl; auto). assert (Iiv : In iv (fb ik iv il es ++ fr)) by (simpl; auto).
  assert (IC : incl (flat_map eblocks es) (fb ik iv il es ++ fr)) by (intros x X; unfold fb; simpl; right; right; right; apply in_or_app; auto).
  destruct (rel_split N k es a F) as [(p & e & q & ap & old & aq & -> & -> & Fp & Fe & Fq & H & P1 & P2)|[P1 P2]].
  - pose proof (x_scan_hit m _ ik iv il (fun x => str_eqb x k) p e q [] O Iik) as SH. cbn [app length plus] in SH. cbn [mkf f_nb] in E. fold (mkf ik iv il (p ++ e :: q)) in E.
    rewrite SH in E by auto. cbn [bind] in E. destruct (update_solid _ _ _ _ _ _ _ _ _ _ _ _ _ _ _ _ (proj2 O) S E) as [S' ->]. split; [exact S'|discriminate].
  - split; [|intros _; exact P2].
    pose proof (x_scan_miss m _ ik iv il (fun x => str_eqb x k) es [] O Iik) as SH. cbn [app length] in SH. cbn [mkf f_nb] in E. fold (mkf ik iv il es) in E.
    rewrite SH in E by auto. cbn [bind] in E. cbn [mkf f_values] in E. rewrite (x_deref_ok _ m iv _ _ O) in E by auto. cbn [bind snd] in E.
    replace (aget (map hv es ++ [None]) (length es)) with (@Ret (ptr buf) None) in E by (symmetry; rewrite <- (map_length hv es); apply aget_mid). cbn [bind] in E. fold (mkf ik iv il es) in E.
    destruct (x_malloc_ok _ _ O) as (p1 & m1 & EM & L1 & [(dk & -> & O1)|(-> & S1 & O1)]); rewrite EM in E.
    2:{ apply SAME. apply (f_equal (fun r => match r with Ret (_, (_, f)) => f_values f | UB _ => None end)) in E. symmetry. exact E. }
    destruct (x_malloc_ok _ _ O1) as (p2 & m2 & EM2 & L2 & [(dv & -> & O2)|(-> & S2 & O2)]); rewrite EM2 in E.
    2:{ bd E m3 H3. apply SAME. apply (f_equal (fun r => match r with Ret (_, (_, f)) => f_values f | UB _ => None end)) in E. symmetry. exact E. }
    bd E b H3. bd E b1 H4.
    destruct (x_append_ok m2 ik iv il es (dk, k) (Some (dv, b1)) (add64 off len) fr) as (m3 & ik3 & iv3 & il3 & XA & L3 & O3); [cbn [fst ptr_blocks]; mby O2|].
    assert (EQ := eq_trans (eq_sym XA) E). clear E. rename EQ into E. apply (f_equal (fun r => match r with Ret (_, (_, f)) => f_values f | UB _ => None end)) in E. cbn [mkf f_values] in E. injection E as _ E. apply app_inj_tail in E as [E _].
    unfold solid. rewrite <- E, map_app. apply Forall_app. split; [exact S|]. constructor; [discriminate|constructor].
Qed.

(** nothing at all, at the end of a value *)
Lemma overlay_none : forall old off, 0 <= off -> overlay old [] off = old.
Proof.
  intros old off H. unfold overlay. change (zlen []) with 0. rewrite Z.add_0_r. cbn [app]. unfold zfirstn, zskipn. apply firstn_skipn.
Qed.
Lemma put_nothing : forall N m ik iv il es a k rest off fr, mowns m (fb ik iv il es ++ fr) -> Forall2 (erel N) es a -> NoDup (map fst a) -> solid es -> 0 <= N ->
  off_ok k off a -> new_off_ok k off a -> 0 <= off -> off + 1 < two64 ->
  call_result N m a fr (x_put_binary m (mkf ik iv il es) (Some k) (Some (block_of rest)) off 0) (put_meaning k (fun old => overlay old [] off) a).
Proof.
  intros N m ik iv il es a k rest off fr O F ND S N0 OK1 OK2 O0 LT. unfold put_meaning. destruct k as [|c k].
  { exists U_ERROR_PARAMS, m, ik, iv, il, es, a. split; [reflexivity|]. split; [split; [auto|apply O]|]. split; auto. }
  set (kk := c :: k) in *. assert (Kn : kk <> []) by discriminate. unfold x_put_binary. rewrite (add64_small off 0) by (unfold two64 in *; lia). rewrite (add64_small (off + 0) 1) by (unfold two64 in *; lia).
  replace (off + 0 + 1 <=? SIZE_MAX) with true by (symmetry; apply Z.leb_le; unfold SIZE_MAX; lia).
  unfold kk at 1. cbn [negb orb].
  assert (Iik : In ik (fb ik iv il es ++ fr)) by (simpl; auto). assert (Iiv : In iv (fb ik iv il es ++ fr)) by (simpl; auto). assert (Iil : In il (fb ik iv il es ++ fr)) by (simpl; auto).
  assert (IC : incl (flat_map eblocks es) (fb ik iv il es ++ fr)) by (intros x X; unfold fb; simpl; right; right; right; apply in_or_app; auto).
  destruct (rel_split N kk es a F) as [(p & e & q & ap & old & aq & -> & -> & Fp & Fe & Fq & H & P1 & P2)|[P1 P2]].
  - cbn [mkf f_nb]. pose proof (x_scan_hit m _ ik iv il (fun x => str_eqb x kk) p e q [] O Iik) as SH. cbn [app length plus] in SH.
    fold (mkf ik iv il (p ++ e :: q)). rewrite SH by auto. unfold bind at 1. rewrite a_change_hit by auto. rewrite overlay_none by lia.
    unfold x_update. cbn [mkf f_lengths f_values f_keys f_nb]. rewrite (add64_small off 0) by (unfold two64 in *; lia).
    rewrite (x_deref_ok _ m il _ _ O Iil). unfold bind at 1. cbn [snd fst]. rewrite (aget_map _ _ hl). unfold bind at 1.
    rewrite (x_deref_ok _ m iv _ _ O Iiv). unfold bind at 1. cbn [snd fst]. rewrite (aget_map _ _ hv). unfold bind at 1.
    assert (LO := OK1 _ _ _ eq_refl). destruct Fe as (Ek & _ & (EL & EV) & EN). cbn [fst snd] in *.
    replace (hl e <? off + 0) with false by (symmetry; apply Z.ltb_ge; lia). cbn [andb]. unfold bind at 1.
    assert (HS : hv e <> None). { unfold solid in S. rewrite map_app in S. apply Forall_app in S as [_ S]. now inversion S. }
    destruct (hv e) as [[i b]|] eqn:HV; [|congruence]. subst b.
    rewrite (x_deref_ok _ m i _ _ O). 2:{ apply IC. apply in_flat_map. exists e. split; [apply in_elt|]. unfold eblocks. rewrite HV. right. now left. }
    unfold bind at 1. cbn [snd fst].
    assert (MC : memcpy (block_of (old ++ [0])) off (block_of rest) 0 = Ret (block_of (old ++ [0]))).
    { unfold memcpy. rewrite !zlen_block, zlen_app. change (zlen [0]) with 1. pose proof (zlen_nonneg _ rest).
      replace ((0 <=? off) && (0 <=? 0) && (off + 0 <=? zlen old + 1) && (0 <=? zlen rest)) with true by (symmetry; repeat (apply andb_true_intro; split); apply Z.leb_le; lia).
      f_equal. rewrite Z.add_0_r. change (zfirstn 0 (block_of rest)) with (@nil (option Z)). cbn [app]. unfold zfirstn, zskipn. apply firstn_skipn. }
    rewrite MC. unfold bind at 1. rewrite (aset_map _ _ hv). unfold bind at 1.
    exists U_OK, m, ik, iv, il, (p ++ e :: q), (ap ++ (kk, old) :: aq).
    assert (VE : map hv p ++ Some (i, block_of (old ++ [0])) :: map hv q ++ [None] = map hv (p ++ e :: q) ++ [None]).
    { rewrite map_app. cbn [map]. rewrite HV, <- app_assoc. reflexivity. }
    split; [unfold mkf; rewrite <- VE; reflexivity|]. split; [split; [auto|apply O]|]. split; auto.
  - cbn [mkf f_nb]. pose proof (x_scan_miss m _ ik iv il (fun x => str_eqb x kk) es [] O Iik) as SH. cbn [app length] in SH.
    fold (mkf ik iv il es). rewrite SH by auto. unfold bind at 1. rewrite a_change_miss by auto. rewrite overlay_none by lia.
    cbn [mkf f_values]. rewrite (x_deref_ok _ m iv _ _ O) by auto. unfold bind at 1. cbn [snd].
    replace (aget (map hv es ++ [None]) (length es)) with (@Ret (ptr buf) None) by (symmetry; rewrite <- (map_length hv es); apply aget_mid). unfold bind at 1.
    fold (mkf ik iv il es). pose proof (OK2 P2) as OFF0. subst off.
    destruct (x_malloc_ok _ _ O) as (p1 & m1 & -> & L1 & [(dk & -> & O1)|(-> & S1 & O1)]).
    2:{ exists U_ERROR_MEMORY, m1, ik, iv, il, es, a. split; [reflexivity|]. split; [exact L1|]. split; [exact O1|]. split; [exact F|]. split; [exact ND|]. right. split; [reflexivity|]. split; [exact S1|reflexivity]. }
    destruct (x_malloc_ok _ _ O1) as (p2 & m2 & -> & L2 & [(dv & -> & O2)|(-> & S2 & O2)]).
    2:{ assert (O2' : mowns m2 (dk :: fb ik iv il es ++ fr)) by exact O2. destruct (x_free_ok _ _ _ O2') as (m3 & -> & O3 & L3 & _). unfold bind at 1.
        exists U_ERROR_MEMORY, m3, ik, iv, il, es, a. split; [reflexivity|]. split; [chain|].
        split; [exact O3|]. split; [exact F|]. split; [exact ND|]. right. split; [reflexivity|]. split; [now apply L1|reflexivity]. }
    assert (MC : memcpy (malloc (0 + 0 + 1)) 0 (block_of rest) 0 = Ret [None]).
    { unfold memcpy. rewrite zlen_block. pose proof (zlen_nonneg _ rest). replace (0 <=? zlen rest) with true by (symmetry; apply Z.leb_le; lia). reflexivity. }
    rewrite MC. unfold bind at 1. change (store [None] (0 + 0) 0) with (@Ret buf [Some 0]). unfold bind at 1.
    destruct (x_append_ok m2 ik iv il es (dk, kk) (Some (dv, [Some 0])) (0 + 0) fr) as (m3 & ik' & iv' & il' & XA & L3 & O3).
    { cbn [fst ptr_blocks]. mby O2. }
    exists U_OK, m3, ik', iv', il', (es ++ [mk_hent (dk, kk) (Some (dv, [Some 0])) (0 + 0)]), (a ++ [(kk, [])]).
    split; [exact XA|]. split; [chain|]. split; [exact O3|]. split; [|split].
    + apply Forall2_app; auto. constructor; auto. split; [reflexivity|]. split; [exact Kn|]. cbn [snd hv hl]. split; [split; reflexivity|]. change (zlen []) with 0. exact N0.
    + replace (a ++ [(kk, [])]) with (a_change kk (fun old => old) a) by (rewrite a_change_miss by exact P2; reflexivity). now apply a_change_nodup.
    + left. reflexivity.
Qed.

(** ** the bytes of a piece *)
Lemma put_bytes : forall N N' m ik iv il es a k w rest off fr, mowns m (fb ik iv il es ++ fr) -> Forall2 (erel N) es a -> NoDup (map fst a) -> solid es -> 0 <= N ->
  off_ok k off a -> new_off_ok k off a -> 0 <= off -> off + zlen w + 1 < two64 -> N <= N' -> off + zlen w <= N' ->
  exists c m' ik' iv' il' es' a', x_put_binary m (mkf ik iv il es) (Some k) (Some (block_of (w ++ rest))) off (zlen w) = Ret (c, (m', mkf ik' iv' il' es')) /\ later m m' /\
    mowns m' (fb ik' iv' il' es' ++ fr) /\ Forall2 (erel N') es' a' /\ NoDup (map fst a') /\ solid es' /\
    ((c, a') = put_meaning k (fun old => overlay old w off) a \/ (c = U_ERROR_MEMORY /\ short m /\ a_value k a = [] /\ a' = a)).
Proof.
  intros N N' m ik iv il es a k w rest off fr O F ND S N0 A B O0 LT LN LN'.
  assert (CR : call_result N' m a fr (x_put_binary m (mkf ik iv il es) (Some k) (Some (block_of (w ++ rest))) off (zlen w)) (put_meaning k (fun old => overlay old w off) a)).
  { destruct w as [|b w].
    - cbn [app]. change (zlen []) with 0 in *. eapply put_nothing; eauto; try lia. exact (erel_all N N' es a LN F).
    - eapply put_binary_call; eauto; try lia. apply vg_some; [discriminate|exact O0]. }
  destruct CR as (c & m' & ik' & iv' & il' & es' & a' & E & L & O' & F' & ND' & C). exists c, m', ik', iv', il', es', a'. split; [exact E|]. split; [exact L|]. split; [exact O'|].
  split; [exact F'|]. split; [exact ND'|]. destruct k as [|x k].
  - unfold x_put_binary in E. cbn [orb] in E.
    assert (EV : f_values (mkf ik iv il es) = f_values (mkf ik' iv' il' es')).
    { apply (f_equal (fun r => match r with Ret (_, (_, f)) => f_values f | UB _ => None end)) in E. exact E. }
    cbn [mkf f_values] in EV. injection EV as _ EV. apply app_inj_tail in EV as [EV _]. split; [unfold solid; rewrite <- EV; exact S|].
    destruct C as [C|(-> & _ & _)]; [now left|]. exfalso. apply (f_equal (fun r => match r with Ret (c, _) => c | UB _ => 0 end)) in E. discriminate E.
  - assert (KN : x :: k <> []) by discriminate. destruct (put_solid _ _ _ _ _ _ _ _ _ _ _ _ _ _ _ _ _ _ O F S KN E) as [S' M]. split; [exact S'|].
    destruct C as [C|(-> & SH & ->)]; [now left|]. right. split; [reflexivity|]. split; [exact SH|]. split; [|reflexivity]. apply a_value_miss. now apply M.
Qed.

Lemma a_value_change : forall k g a, a_value k (a_change k g a) = g (a_value k a).
Proof.
  intros k g a. induction a as [|[x v] a IH]; cbn [a_change a_value]; [now rewrite str_eqb_refl|].
  destruct (str_eqb x k) eqn:E; cbn [a_value]; rewrite E; [reflexivity|exact IH].
Qed.
Lemma a_change_twice : forall k g h a, a_change k h (a_change k g a) = a_change k (fun o => h (g o)) a.
Proof.
  intros k g h a. induction a as [|[x v] a IH]; cbn [a_change]; [now rewrite str_eqb_refl|].
  destruct (str_eqb x k) eqn:E; cbn [a_change]; rewrite E; [reflexivity|now rewrite IH].
Qed.
Lemma a_change_ext : forall k g h a, g (a_value k a) = h (a_value k a) -> a_change k g a = a_change k h a.
Proof.
  intros k g h a. induction a as [|[x v] a IH]; cbn [a_change a_value]; [now intros ->|].
  destruct (str_eqb x k) eqn:E; [now intros ->|]. intros H. now rewrite IH.
Qed.
Lemma a_value_at : forall k a p old q, NoDup (map fst a) -> a = p ++ (k, old) :: q -> a_value k a = old.
Proof.
  intros k a p old q ND ->. apply a_value_hit. intros x X. destruct (str_eqb (fst x) k) eqn:E; [|reflexivity]. apply str_eqb_eq in E.
  rewrite map_app in ND. cbn [map fst] in ND. apply NoDup_remove_2 in ND. exfalso. apply ND. apply in_or_app. left. rewrite <- E. now apply in_map.
Qed.
Lemma off_at_end : forall k a, NoDup (map fst a) -> off_ok k (zlen (a_value k a)) a /\ new_off_ok k (zlen (a_value k a)) a.
Proof.
  intros k a ND. split.
  - intros p old q E. rewrite (a_value_at k a p old q ND E). lia.
  - intros H. rewrite a_value_miss by exact H. reflexivity.
Qed.
Lemma overlay_at_end : forall old w, overlay old w (zlen old) = old ++ w.
Proof.
  intros old w. unfold overlay. rewrite Z.min_id. rewrite zfirstn_all. f_equal.
  rewrite zskipn_all; [apply app_nil_r|]. pose proof (zlen_nonneg _ w). lia.
Qed.
Lemma length_value : forall N m ids ik iv il es a k, mowns m ids -> incl (fb ik iv il es) ids -> Forall2 (erel N) es a -> a_value k a <> [] ->
  x_get_length m (mkf ik iv il es) k = Ret (zlen (a_value k a)).
Proof.
  intros N m ids ik iv il es a k O C F V.
  destruct (rel_split N k es a F) as [(p & e & q & ap & old & aq & -> & -> & Fp & Fe & Fq & H & P1 & P2)|[P1 P2]].
  - rewrite (x_get_length_hit m ids ik iv il p e q k O C P1 H). rewrite a_value_hit by exact P2. f_equal. apply Fe.
  - exfalso. apply V. now apply a_value_miss.
Qed.
Lemma has_key_here : forall N m ids ik iv il es a k, mowns m ids -> incl (fb ik iv il es) ids -> Forall2 (erel N) es a ->
  x_has_key m (mkf ik iv il es) k = Ret (existsb (fun e => str_eqb (fst e) k) a).
Proof.
  intros N m ids ik iv il es a k O C F. unfold x_has_key. cbn [mkf f_keys]. rewrite (x_deref_ok _ m ik _ ids O) by (apply C; now left).
  unfold bind at 1. unfold bind at 1. cbn [snd]. assert (CE : incl (flat_map eblocks es) ids) by (intros x X; apply C; unfold fb; right; right; now right).
  destruct (rel_split N k es a F) as [(p & e & q & ap & old & aq & -> & -> & Fp & Fe & Fq & H & P1 & P2)|[P1 P2]].
  - rewrite (x_scan_null_hit m ids (fun x => str_eqb x k) p e q 0); auto. f_equal. symmetry. apply existsb_exists. exists (k, old). split; [apply in_elt|apply str_eqb_refl].
  - rewrite (x_scan_null_miss m ids (fun x => str_eqb x k) es 0); auto. f_equal. symmetry. apply not_true_is_false. intros X. apply existsb_exists in X as (x & X1 & X2). rewrite P2 in X2 by exact X1. discriminate.
Qed.

(** ** the data of a piece *)
Definition poured (N : Z) (P : Z -> amap -> Prop) (fr : list nat) (r : outcome (Z * (mem * fmap))) : Prop :=
  exists z m' ik iv il es a', r = Ret (z, (m', mkf ik iv il es)) /\ mowns m' (fb ik iv il es ++ fr) /\ Forall2 (erel N) es a' /\ NoDup (map fst a') /\ solid es /\ P z a'.
Definition data_added (k : str) (first : bool) (w : list Z) (a : amap) : amap :=
  a_change k (fun old => match old with [] => [] | _ => old ++ (if first then [44] else []) end ++ w) a.
Lemma piece_data_ok : forall N m ik iv il es a p w rest fr, mowns m (fb ik iv il es ++ fr) -> Forall2 (erel N) es a -> NoDup (map fst a) -> solid es -> 0 <= N ->
  pc_data p = w ++ rest -> N + zlen w + 2 < two64 ->
  poured (N + zlen w + 1) (fun z a' => (z = MHD_YES /\ pc_key p <> [] /\ a' = data_added (pc_key p) (pc_off p =? 0) w a) \/ (z = MHD_NO /\ a' = a /\ (pc_key p = [] \/ short m))) fr
    (x_piece_data m (mkf ik iv il es) p (zlen w)).
Proof.
  intros N m ik iv il es a p w rest fr O F ND S N0 ED LT. pose proof (zlen_nonneg _ w) as W0. unfold x_piece_data. rewrite ED. cbv zeta. set (k := pc_key p) in *. clearbody k.
  pose proof (a_value_len N es a k F N0) as VL. pose proof (zlen_nonneg _ (a_value k a)) as V0.
  destruct (get_value N m _ ik iv il es a k O (incl_appl _ (incl_refl _)) F) as (x & -> & _ & PN). unfold bind at 1.
  assert (KN : a_value k a <> [] -> k <> []).
  { intros H ->. apply H. clear - F. induction F as [|e [x w] es a R F IH]; cbn [a_value]; [reflexivity|]. destruct R as (_ & R & _). cbn [fst] in R. destruct x; [congruence|exact IH]. }
  destruct (off_at_end k a ND) as [OE1 OE2].
  destruct x as [x|].
  - assert (V : a_value k a <> []) by (intros H; apply PN in H; discriminate). clear PN x. specialize (KN V).
    rewrite (length_value N m _ ik iv il es a k O (incl_appl _ (incl_refl _)) F V). unfold bind at 2.
    replace (0 <=? zlen (a_value k a)) with true by (symmetry; apply Z.leb_le; lia).
    destruct (pc_off p =? 0) eqn:FIRST; cbn [negb].
    + destruct (put_bytes N (N + 1) m ik iv il es a k [44] [0] (zlen (a_value k a)) fr O F ND S N0 OE1 OE2 V0) as (c & m1 & ik1 & iv1 & il1 & es1 & a1 & E1 & L1 & O1 & F1 & ND1 & S1 & C1);
        [change (zlen [44]) with 1; lia|lia|change (zlen [44]) with 1; lia|].
      change ([44] ++ [0]) with [44; 0] in E1. change (zlen [44]) with 1 in E1. rewrite E1. unfold bind at 2. cbn [fst snd].
      destruct C1 as [C1|(_ & _ & X & _)]; [|congruence]. unfold put_meaning in C1.
      assert (C1' : (c, a1) = (U_OK, a_change k (fun old => overlay old [44] (zlen (a_value k a))) a)) by (destruct k; [congruence|exact C1]). clear C1. injection C1' as -> ->.
      change (U_OK =? U_OK) with true. cbn iota.
      set (a1 := a_change k (fun old => overlay old [44] (zlen (a_value k a))) a) in *.
      assert (V1 : a_value k a1 = a_value k a ++ [44]) by (unfold a1; rewrite a_value_change; apply overlay_at_end).
      destruct (off_at_end k a1 ND1) as [OF1 OF2]. rewrite V1 in OF1, OF2. rewrite zlen_app in OF1, OF2. change (zlen [44]) with 1 in OF1, OF2.
      destruct (put_bytes (N + 1) (N + zlen w + 1) m1 ik1 iv1 il1 es1 a1 k w rest (zlen (a_value k a) + 1) fr O1 F1 ND1 S1) as (c2 & m2 & ik2 & iv2 & il2 & es2 & a2 & E2 & L2 & O2 & F2 & ND2 & S2 & C2); try lia; auto.
      rewrite E2. unfold bind at 1. cbn [fst snd].
      destruct C2 as [C2|(_ & _ & X & _)]; [|exfalso; rewrite V1 in X; destruct (a_value k a); discriminate X].
      assert (C2' : (c2, a2) = (U_OK, a_change k (fun old => overlay old w (zlen (a_value k a) + 1)) a1)) by (unfold put_meaning in C2; destruct k; [congruence|exact C2]). clear C2. injection C2' as -> ->.
      exists MHD_YES, m2, ik2, iv2, il2, es2, (a_change k (fun old => overlay old w (zlen (a_value k a) + 1)) a1). split; [reflexivity|]. split; [exact O2|]. split; [exact F2|]. split; [exact ND2|]. split; [exact S2|].
      left. split; [reflexivity|]. split; [exact KN|]. unfold a1. rewrite a_change_twice. unfold data_added. apply a_change_ext.
      rewrite overlay_at_end. replace (zlen (a_value k a) + 1) with (zlen (a_value k a ++ [44])) by (rewrite zlen_app; reflexivity). rewrite overlay_at_end.
      destruct (a_value k a); [congruence|reflexivity].
    + destruct (put_bytes N (N + zlen w + 1) m ik iv il es a k w rest (zlen (a_value k a)) fr O F ND S N0 OE1 OE2 V0) as (c & m1 & ik1 & iv1 & il1 & es1 & a1 & E1 & L1 & O1 & F1 & ND1 & S1 & C1); try lia.
      rewrite E1. unfold bind at 1. cbn [fst snd].
      destruct C1 as [C1|(_ & _ & X & _)]; [|congruence].
      assert (C1' : (c, a1) = (U_OK, a_change k (fun old => overlay old w (zlen (a_value k a))) a)) by (unfold put_meaning in C1; destruct k; [congruence|exact C1]). clear C1. injection C1' as -> ->.
      exists MHD_YES, m1, ik1, iv1, il1, es1, (a_change k (fun old => overlay old w (zlen (a_value k a))) a). split; [reflexivity|]. split; [exact O1|]. split; [exact F1|]. split; [exact ND1|]. split; [exact S1|].
      left. split; [reflexivity|]. split; [exact KN|]. unfold data_added. apply a_change_ext. rewrite overlay_at_end. destruct (a_value k a); [congruence|]. now rewrite app_nil_r.
  - assert (V : a_value k a = []) by (now apply PN). rewrite V in OE1, OE2. change (zlen []) with 0 in OE1, OE2.
    destruct (put_bytes N (N + zlen w + 1) m ik iv il es a k w rest 0 fr O F ND S N0 OE1 OE2) as (c & m1 & ik1 & iv1 & il1 & es1 & a1 & E1 & L1 & O1 & F1 & ND1 & S1 & C1); try lia.
    rewrite E1. unfold bind at 1. cbn [fst snd].
    exists (if c =? U_OK then MHD_YES else MHD_NO), m1, ik1, iv1, il1, es1, a1. split; [reflexivity|]. split; [exact O1|]. split; [exact F1|]. split; [exact ND1|]. split; [exact S1|].
    destruct C1 as [C1|(-> & SH & _ & ->)]; [|right; auto]. unfold put_meaning in C1. destruct k as [|b k].
    + injection C1 as -> ->. right. auto.
    + injection C1 as -> ->. left. split; [reflexivity|]. split; [discriminate|]. unfold data_added. apply a_change_ext. rewrite V. rewrite overlay_nil by lia. reflexivity.
Qed.

(** ** the name of the file *)
Definition name_size (p : piece) : Z := match pc_filename p with Some n => zlen n + 1 | None => 0 end.
Lemma name_size_nonneg : forall p, 0 <= name_size p.
Proof. intros p. unfold name_size. destruct (pc_filename p) as [n|]; [pose proof (zlen_nonneg _ n)|]; lia. Qed.
Lemma filename_ok : forall N m ik iv il es a p fr, mowns m (fb ik iv il es ++ fr) -> Forall2 (erel N) es a -> NoDup (map fst a) -> solid es -> 0 <= N ->
  N + name_size p + 1 < two64 ->
  exists m' ik' iv' il' es' a' tmp, x_filename m (mkf ik iv il es) p = Ret (m', mkf ik' iv' il' es', tmp) /\ later m m' /\
    mowns m' (fb ik' iv' il' es' ++ (ptr_blocks (at_block tmp tt) ++ fr)) /\ Forall2 (erel (N + name_size p)) es' a' /\ NoDup (map fst a') /\ solid es' /\
    (a' = add_name p a \/ (short m /\ pc_filename p <> None /\ a' = a)).
Proof.
  intros N m ik iv il es a p fr O F ND S N0 LT. pose proof (name_size_nonneg p) as NS. unfold x_filename, add_name. unfold name_size in *. destruct (pc_filename p) as [n|].
  2:{ exists m, ik, iv, il, es, a, None. split; [reflexivity|]. split; [split; [auto|apply O]|]. split; [exact O|]. split; [eapply erel_all; [|exact F]; lia|]. auto. }
  pose proof (zlen_nonneg _ n) as NN.
  assert (FM : Forall2 (erel (N + (zlen n + 1))) es a) by (eapply erel_all; [|exact F]; lia).
  destruct (x_malloc_ok _ _ O) as (tmp & m1 & -> & L1 & CASE).
  assert (O1 : mowns m1 (fb ik iv il es ++ (ptr_blocks (at_block tmp tt) ++ fr))).
  { destruct CASE as [(i & -> & O1)|(-> & _ & O1)]; cbn [at_block ptr_blocks]; mowns_by O1. }
  destruct CASE as [(i & -> & _)|(-> & SH & _)].
  - set (k := pc_key p ++ bs "_filename") in *.
    assert (KN : k <> []) by (unfold k; destruct (pc_key p); discriminate). clearbody k. cbv zeta.
    rewrite (has_key_here N m1 _ ik iv il es a k O1 (incl_appl _ (incl_refl _)) F). unfold bind at 1.
    destruct (existsb (fun e => str_eqb (fst e) k) a).
    + exists m1, ik, iv, il, es, a, (Some i). split; [reflexivity|]. split; [exact L1|]. split; [exact O1|]. split; [exact FM|]. auto.
    + destruct (put_call N (N + (zlen n + 1)) m1 ik iv il es a k (Some n) _ O1 F ND) as (c & m2 & ik2 & iv2 & il2 & es2 & a2 & E & L2 & O2 & F2 & ND2 & C2); [|lia|lia|lia|].
      { intros s Es. injection Es as <-. lia. }
      match goal with |- context [x_put ?a1 ?b1 ?c1 ?d1] => match type of E with _ = ?r => replace (x_put a1 b1 c1 d1) with r by (symmetry; exact E) end end.
      unfold bind. cbn [fst snd]. exists m2, ik2, iv2, il2, es2, a2, (Some i). split; [reflexivity|]. split; [chain|]. split; [exact O2|]. split; [exact F2|]. split; [exact ND2|].
      destruct (put_solid _ _ _ _ _ _ _ _ _ _ _ _ _ _ _ _ _ _ O1 F S KN E) as [S' _]. split; [exact S'|].
      destruct C2 as [C2|(_ & SH & ->)].
      * left. unfold put_meaning in C2. destruct k; [congruence|]. injection C2 as _ ->. reflexivity.
      * right. split; [now apply L1|]. split; [discriminate|reflexivity].
  - unfold bind at 1. cbn [x_put x_put_binary bind fst snd]. exists m1, ik, iv, il, es, a, None. split; [reflexivity|]. split; [exact L1|]. split; [exact O1|]. split; [exact FM|]. split; [exact ND|].
    split; [exact S|]. right. split; [exact SH|]. split; [discriminate|reflexivity].
Qed.

Lemma refused_spec : forall g p, 
  refused g p = (g_check g && negb (utf8_valid (pc_key p) && utf8_valid (pc_data p) && match pc_filename p with Some n => utf8_valid n | None => true end))
    || ((0 <? g_max_param g) && (g_max_param g <? pc_off p)).
Proof.
  intros g p. unfold refused, accepted. f_equal. destruct (pc_filename p) as [n|]; cbn [app forallb]; rewrite ?andb_true_r; destruct (g_check g), (utf8_valid (pc_key p)), (utf8_valid (pc_data p)); cbn; auto; now rewrite ?negb_involutive.
Qed.
Lemma within_split : forall max p, 0 <= pc_off p -> pc_off p + zlen (pc_data p) < two64 -> (0 <? max) && (max <? pc_off p) = false ->
  exists rest, pc_data p = within max p ++ rest /\ zlen (within max p) = (if (0 <? max) && (max <? add64 (pc_off p) (zlen (pc_data p))) then max - pc_off p else zlen (pc_data p)) /\ zlen (within max p) <= zlen (pc_data p).
Proof.
  intros max p O0 LT R. pose proof (zlen_nonneg _ (pc_data p)) as D0. rewrite add64_small by lia. unfold within. destruct (0 <? max) eqn:M; cbn [andb] in *.
  - apply Z.ltb_ge in R. exists (zskipn (max - pc_off p) (pc_data p)). split; [symmetry; unfold zfirstn, zskipn; apply firstn_skipn|].
    destruct (max <? pc_off p + zlen (pc_data p)) eqn:H.
    + apply Z.ltb_lt in H. rewrite zlen_zfirstn by lia. lia.
    + apply Z.ltb_ge in H. assert (EQ : zfirstn (max - pc_off p) (pc_data p) = pc_data p) by (unfold zfirstn; apply firstn_all2; unfold zlen in *; lia). rewrite EQ. lia.
  - exists []. rewrite app_nil_r. split; [reflexivity|]. split; [reflexivity|lia].
Qed.

(** ** one piece *)
Definition piece_case (g : rconf) (m : mem) (p : piece) (a : amap) (z : Z) (a' : amap) : Prop :=
  (z = MHD_YES /\ refused g p = true /\ a' = a) \/
  (refused g p = false /\
    ((z = MHD_YES /\ pc_key p <> [] /\ (a' = add_data g p (add_name p a) \/ (short m /\ pc_filename p <> None /\ a' = add_data g p a))) \/
     (z = MHD_NO /\ pc_key p = [] /\ a' = add_name p a) \/
     (z = MHD_NO /\ short m /\ (a' = a \/ a' = add_name p a)))).
Lemma piece_ok : forall g N m ik iv il es a p fr, mowns m (fb ik iv il es ++ fr) -> Forall2 (erel N) es a -> NoDup (map fst a) -> solid es -> 0 <= N ->
  0 <= pc_off p -> pc_off p + zlen (pc_data p) < two64 -> N + (zlen (pc_data p) + 2 + name_size p) + 1 < two64 ->
  poured (N + (zlen (pc_data p) + 2 + name_size p)) (piece_case g m p a) fr (x_piece g m (mkf ik iv il es) p).
Proof.
  intros g N m ik iv il es a p fr O F ND S N0 P0 PL LT. pose proof (name_size_nonneg p) as NS. pose proof (zlen_nonneg _ (pc_data p)) as D0. pose proof (refused_spec g p) as RS. unfold x_piece. cbv zeta.
  destruct (g_check g && negb (utf8_valid (pc_key p) && utf8_valid (pc_data p) && match pc_filename p with Some n => utf8_valid n | None => true end)) eqn:R1.
  { cbn [orb] in RS. exists MHD_YES, m, ik, iv, il, es, a. split; [reflexivity|]. split; [exact O|]. split; [eapply erel_all; [|exact F]; lia|]. split; [exact ND|]. split; [exact S|]. left. auto. }
  destruct ((0 <? g_max_param g) && (g_max_param g <? pc_off p)) eqn:R2.
  { cbn [orb] in RS. exists MHD_YES, m, ik, iv, il, es, a. split; [reflexivity|]. split; [exact O|]. split; [eapply erel_all; [|exact F]; lia|]. split; [exact ND|]. split; [exact S|]. left. auto. }
  cbn [orb] in RS. destruct (within_split (g_max_param g) p P0 PL R2) as (rest & W1 & W2 & W3). rewrite <- W2.
  pose proof (zlen_nonneg _ (within (g_max_param g) p)) as W0.
  destruct (filename_ok N m ik iv il es a p fr O F ND S N0) as (m1 & ik1 & iv1 & il1 & es1 & a1 & tmp & -> & L1 & O1 & F1 & ND1 & S1 & C1); [lia|].
  unfold bind at 1.
  destruct (piece_data_ok (N + name_size p) m1 ik1 iv1 il1 es1 a1 p (within (g_max_param g) p) rest _ O1 F1 ND1 S1) as (z & m2 & ik2 & iv2 & il2 & es2 & a2 & -> & O2 & F2 & ND2 & S2 & C2); [lia|exact W1|lia|].
  unfold bind at 1.
  assert (O2' : mowns m2 (ptr_blocks (at_block tmp tt) ++ (fb ik2 iv2 il2 es2 ++ fr))) by mowns_by O2.
  destruct (x_free_ptr _ _ _ _ O2') as (m3 & E3 & O3 & L3). assert (AD : addr (at_block tmp tt) = tmp) by (destruct tmp; reflexivity). rewrite AD in E3. rewrite E3. unfold bind at 1.
  exists z, m3, ik2, iv2, il2, es2, a2. split; [reflexivity|]. split; [exact O3|]. split; [eapply erel_all; [|exact F2]; lia|]. split; [exact ND2|]. split; [exact S2|].
  right. split; [exact RS|]. destruct C2 as [(-> & K & ->)|(-> & -> & C2)].
  - left. split; [reflexivity|]. split; [exact K|]. destruct C1 as [->|(SH & FN & ->)]; [left|right]; auto.
  - right. destruct C1 as [->|(SH & FN & ->)].
    + destruct C2 as [K|SH]; [left; auto|]. right. split; [reflexivity|]. split; [now apply L1|]. now right.
    + right. auto.
Qed.
Lemma piece_size_eq : forall x, piece_size x = zlen (pc_data (snd x)) + 2 + name_size (snd x).
Proof. reflexivity. Qed.
Lemma piece_size_nonneg : forall x, 0 <= piece_size x.
Proof. intros x. rewrite piece_size_eq. pose proof (zlen_nonneg _ (pc_data (snd x))). pose proof (name_size_nonneg (snd x)). lia. Qed.
Lemma pieces_ok : forall g l N m ik iv il es a fr, mowns m (fb ik iv il es ++ fr) -> Forall2 (erel N) es a -> NoDup (map fst a) -> solid es -> 0 <= N ->
  N + zsum (map piece_size l) + 1 < two64 ->
  Forall (fun x : answers * piece => grows (fst x) /\ 0 <= pc_off (snd x) /\ pc_off (snd x) + zlen (pc_data (snd x)) < two64) l ->
  poured (N + zsum (map piece_size l)) (fun _ a' => posts g a l a') fr (x_pieces g m (mkf ik iv il es) l).
Proof.
  intros g l. induction l as [|[s p] l IH]; intros N m ik iv il es a fr O F ND S N0 LT G; cbn [x_pieces].
  - exists MHD_YES, m, ik, iv, il, es, a. split; [reflexivity|]. split; [exact O|]. split; [eapply erel_all; [|exact F]; cbn; lia|]. split; [exact ND|]. split; [exact S|]. constructor.
  - inversion G as [|? ? (G1 & P0 & PL) G2]; subst. cbn [fst snd] in G1, P0, PL. cbn [map zsum fold_right] in LT |- *. fold (zsum (map piece_size l)) in LT |- *.
    rewrite piece_size_eq in LT |- *. cbn [snd] in LT |- *.
    pose proof (zsum_nonneg _ piece_size l piece_size_nonneg) as SN. pose proof (zlen_nonneg _ (pc_data p)) as D0. pose proof (name_size_nonneg p) as NS.
    destruct (piece_ok g N (again m s) ik iv il es a p fr (again_owns _ _ _ O G1) F ND S N0 P0 PL) as (z & m1 & ik1 & iv1 & il1 & es1 & a1 & -> & O1 & F1 & ND1 & S1 & C); [lia|].
    unfold bind at 1. cbn [fst snd]. set (T := N + (zlen (pc_data p) + 2 + name_size p + zsum (map piece_size l))) in *.
    assert (STOP : z = MHD_NO -> posts g a ((s, p) :: l) a1 -> poured T (fun _ a' => posts g a ((s, p) :: l) a') fr
       (if z =? MHD_YES then x_pieces g m1 (mkf ik1 iv1 il1 es1) l else Ret (z, (m1, mkf ik1 iv1 il1 es1)))).
    { intros -> CO. change (MHD_NO =? MHD_YES) with false. cbn iota. exists MHD_NO, m1, ik1, iv1, il1, es1, a1. split; [reflexivity|]. split; [exact O1|].
      split; [eapply erel_all; [|exact F1]; unfold T; lia|]. split; [exact ND1|]. split; [exact S1|exact CO]. }
    assert (GO : z = MHD_YES -> (forall a', posts g a1 l a' -> posts g a ((s, p) :: l) a') -> poured T (fun _ a' => posts g a ((s, p) :: l) a') fr
       (if z =? MHD_YES then x_pieces g m1 (mkf ik1 iv1 il1 es1) l else Ret (z, (m1, mkf ik1 iv1 il1 es1)))).
    { intros -> CO. change (MHD_YES =? MHD_YES) with true. cbn iota.
      destruct (IH (N + (zlen (pc_data p) + 2 + name_size p)) m1 ik1 iv1 il1 es1 a1 fr O1 F1 ND1 S1) as (z & m2 & ik2 & iv2 & il2 & es2 & a2 & -> & O2 & F2 & ND2 & S2 & C2); [lia|lia|exact G2|].
      exists z, m2, ik2, iv2, il2, es2, a2. split; [reflexivity|]. split; [exact O2|]. split; [eapply erel_all; [|exact F2]; unfold T; lia|]. split; [exact ND2|]. split; [exact S2|auto]. }
    destruct C as [(-> & R & ->)|(R & [(-> & K & [->|(SH & FN & ->)])|[(-> & K & ->)|(-> & SH & C)]])].
    + apply GO; [reflexivity|]. intros. now apply po_refused.
    + apply GO; [reflexivity|]. intros. now apply po_added.
    + apply GO; [reflexivity|]. intros. now apply po_unnamed.
    + apply STOP; [reflexivity|]. now apply po_nameless.
    + apply STOP; [reflexivity|]. now apply po_cut.
Qed.
