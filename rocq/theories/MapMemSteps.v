(** Proofs about the memory of maps (C96): copying, and whole runs. *)
From Coq Require Import ZArith Bool List Lia Permutation.
From Verif Require Import Base BaseFacts UMapModel UMapProofs OwnModel OwnSpec OwnProofs MapMemModel MapMemSpec MapMemProofs MapMemPut MapMemRun.
Import ListNotations.
Open Scope Z_scope.

Definition source_block (v : list Z) : option buf := match v with [] => None | _ => Some (block_of (v ++ [0])) end.
Lemma source_ok : forall N m ids e k v, mowns m ids -> incl (eblocks e) ids -> erel N e (k, v) ->
  x_block m (if 0 <? hl e then hv e else None) = Ret (source_block v).
Proof.
  intros N m ids e k v O C (_ & _ & (EL & EV) & _). cbn [snd] in *. unfold source_block. destruct v as [|c v].
  - rewrite EL. change (0 <? zlen (@nil Z)) with false. reflexivity.
  - assert (0 < zlen (c :: v)) by (apply zlen_pos; discriminate). replace (0 <? hl e) with true by (symmetry; apply Z.ltb_lt; lia).
    destruct (hv e) as [[i b]|] eqn:E; [|discriminate]. unfold x_block. rewrite (x_deref_ok _ m i b ids); auto.
    + subst b. reflexivity.
    + apply C. unfold eblocks. rewrite E. right. now left.
Qed.
Lemma source_given : forall v, vgiven (source_block v) 0 (zlen v) (fun old => match v with [] => [] | _ => overlay old v 0 end).
Proof.
  intros [|c v]; cbn [source_block].
  - apply vg_null.
  - apply (vg_some (c :: v) [0] 0); [discriminate|lia].
Qed.

Definition copy_result (N : Z) (m : mem) (p : nat) (a : amap) (fr : list nat) (r : outcome (mem * option (nat * fmap))) : Prop :=
  exists m' o, r = Ret (m', o) /\ later m m' /\
    ((exists ik iv il es p', o = Some (p', mkf ik iv il es) /\ Forall2 (erel N) es a /\ mowns m' (p' :: fb ik iv il es ++ fr)) \/
     (o = None /\ short m /\ mowns m' fr)).

Lemma x_copy_loop_ok : forall N sk sv sl p fr asuf suf m pre apre ik iv il es,
  mowns m (p :: fb ik iv il es ++ fr) -> incl (fb sk sv sl (pre ++ suf)) fr ->
  Forall2 (erel N) pre apre -> Forall2 (erel N) suf asuf -> NoDup (map fst (apre ++ asuf)) -> Forall2 (erel N) es apre ->
  0 <= N -> N + 1 < two64 ->
  copy_result N m p (apre ++ asuf) fr (x_copy_loop m (mkf sk sv sl (pre ++ suf)) p (mkf ik iv il es) (map (fun e => Some (hk e)) suf ++ [None]) (length pre)).
Proof.
  intros N sk sv sl p fr. induction asuf as [|[k v] asuf IH]; intros suf m pre apre ik iv il es O C Fp Fs ND F N0 LT;
    inversion Fs as [|e x suf' ? Fe Fs' E1 E2]; subst.
  - cbn [map app x_copy_loop]. exists m. eexists. split; [reflexivity|]. split; [split; [auto|apply O]|]. left.
    exists ik, iv, il, es, p. rewrite app_nil_r. auto.
  - cbn [map app x_copy_loop]. destruct (nodup_split N pre e apre k v asuf Fp Fe ND) as (P1 & P2 & P3 & PL).
    destruct (hk e) as [ie se] eqn:HE. cbn [snd] in P3. apply str_eqb_eq in P3. subst se.
    assert (C' : incl (fb sk sv sl (pre ++ e :: suf')) (p :: fb ik iv il es ++ fr)) by (intros x X; right; apply in_or_app; right; now apply C).
    assert (CE : incl (eblocks e) (p :: fb ik iv il es ++ fr)).
    { intros x X. apply C'. unfold fb. right. right. right. apply (eb_in e); [apply in_elt|exact X]. }
    rewrite (x_deref_ok _ m ie _ _ O) by (apply CE; unfold eblocks; rewrite HE; now left). unfold bind at 1. cbn [snd].
    rewrite (x_get_ok m _ sk sv sl pre e suf' k O C' P1) by (rewrite HE; apply str_eqb_refl). unfold bind at 1.
    rewrite (source_ok N m _ e k v O CE Fe). unfold bind at 1. cbn [mkf f_lengths].
    rewrite (x_deref_ok _ m sl _ _ O) by (apply C'; right; right; now left). unfold bind at 1. cbn [snd]. rewrite (aget_map _ _ hl). unfold bind at 1.
    assert (EL : hl e = zlen v) by apply Fe. assert (LV : zlen v <= N) by apply Fe. pose proof (zlen_nonneg _ v) as V0. rewrite EL.
    fold (mkf ik iv il es). fold (mkf sk sv sl (pre ++ e :: suf')).
    assert (O1 : mowns m (fb ik iv il es ++ (p :: fr))) by mby O.
    assert (Kn : k <> []) by apply Fe.
    destruct (x_put_binary_ok N N m ik iv il es apre k (source_block v) 0 (zlen v) _ (p :: fr) O1 F Kn (source_given v))
      as (c & m1 & ik1 & iv1 & il1 & es1 & E & L1 & O2 & CASE); try lia.
    { intros q old r _. apply zlen_nonneg. }
    { intros _. reflexivity. }
    rewrite a_change_miss in CASE by exact P2.
    match goal with |- context [x_put_binary ?a1 ?b1 ?c1 ?d1 ?e1 ?f1] => match type of E with _ = ?r => replace (x_put_binary a1 b1 c1 d1 e1 f1) with r by (symmetry; exact E) end end.
    unfold bind at 1. destruct CASE as [[-> F1]|[-> [S1 ->]]].
    + change (U_OK =? U_OK) with true. cbn iota.
      specialize (IH suf' m1 (pre ++ [e]) (apre ++ [(k, v)]) ik1 iv1 il1 es1). rewrite <- !app_assoc in IH. cbn [app] in IH.
      rewrite app_length in IH. cbn [length] in IH. replace (length pre + 1)%nat with (S (length pre)) in IH by lia.
      destruct IH as (m2 & o & R & L2 & CASE); auto.
      * mby O2.
      * apply Forall2_app; auto.
      * replace (match v with [] => [] | _ :: _ => overlay [] v 0 end) with v in F1; [exact F1|]. destruct v; auto. now rewrite overlay_nil by lia.
      * exists m2, o. split; [exact R|]. split; [eapply later_trans; eauto|]. destruct CASE as [A|(A & B & D)]; [now left|right].
        split; [exact A|]. split; [now apply L1|exact D].
    + change (U_ERROR_MEMORY =? U_OK) with false. cbn iota.
      destruct (x_clean_full_ok m1 p ik1 iv1 il1 es fr) as (m2 & -> & O3 & L2); [mby O2|]. unfold bind at 1.
      exists m2, None. split; [reflexivity|]. split; [eapply later_trans; eauto|]. right. auto.
Qed.
Lemma x_copy_ok : forall N m sk sv sl es a fr, mowns m fr -> incl (fb sk sv sl es) fr -> Forall2 (erel N) es a -> NoDup (map fst a) ->
  0 <= N -> N + 1 < two64 -> copy_result N m 0 a fr (x_copy m (mkf sk sv sl es)).
Proof.
  intros N m sk sv sl es a fr O C F ND N0 LT. unfold x_copy.
  destruct (x_malloc_ok _ _ O) as (p1 & m1 & -> & L1 & [(p & -> & O1)|(-> & S1 & O1)]).
  2:{ exists m1, None. split; [reflexivity|]. split; [exact L1|]. right. auto. }
  destruct (x_init_ok _ _ O1) as (c & m2 & f & -> & L2 & CASE). unfold bind at 1.
  destruct CASE as [(-> & ik & iv & il & -> & O2)|(-> & S2 & -> & O2)].
  - change (U_OK =? U_OK) with true. cbn iota. unfold mkf at 1. cbn [f_keys]. cbn iota. cbn [mkf f_keys].
    rewrite (x_deref_ok _ m2 sk _ _ O2). 2:{ apply in_or_app. right. right. apply C. now left. }
    unfold bind at 1. cbn [snd]. fold (mkf sk sv sl es).
    destruct (x_copy_loop_ok N sk sv sl p fr a es m2 [] [] ik iv il []) as (m3 & o & R & L3 & CASE); auto.
    + mby O2.
    + exists m3, o. split; [exact R|]. split; [eapply later_trans; [eauto|eapply later_trans; eauto]|].
      destruct CASE as [A|(A & B & D)]; [left; exact A|right]. split; [exact A|]. split; [apply L1, L2; exact B|exact D].
  - change (U_ERROR_MEMORY =? U_OK) with false. cbn iota.
    destruct (x_free_ok _ _ _ O2) as (m3 & -> & O3 & L3 & _). unfold bind at 1.
    exists m3, None. split; [reflexivity|]. split; [eapply later_trans; [eauto|eapply later_trans; eauto]|]. right. split; auto. split; [now apply L1|exact O3].
Qed.

(** ** copying into *)
Lemma read_text : forall b r, read_cstr (block_of (b ++ 0 :: r)) = Ret (text_of b).
Proof.
  induction b as [|c b IH]; intros r; [reflexivity|]. cbn [app block_of map read_cstr text_of]. destruct (c =? 0); [reflexivity|].
  fold (block_of (b ++ 0 :: r)). rewrite IH. reflexivity.
Qed.
Lemma text_len : forall b, zlen (text_of b) <= zlen b.
Proof. induction b as [|c b IH]; unfold zlen in *; cbn [text_of length]; [lia|]. destruct (c =? 0); cbn [length]; lia. Qed.
Lemma source_text : forall v, deref_cstr (source_block v) = Ret (a_text v).
Proof.
  intros [|c v]; [reflexivity|]. cbn [source_block a_text deref_cstr]. rewrite read_text. reflexivity.
Qed.
Definition into_result (N : Z) (m : mem) (srcs d : amap) (fr : list nat) (r : outcome (Z * (mem * fmap))) : Prop :=
  exists c m' ik iv il es' a', r = Ret (c, (m', mkf ik iv il es')) /\ later m m' /\ mowns m' (fb ik iv il es' ++ fr) /\
    Forall2 (erel N) es' a' /\ NoDup (map fst a') /\
    ((c = U_OK /\ a' = a_copy_into srcs d) \/ (c = U_ERROR_MEMORY /\ short m /\ exists n, a' = a_copy_into (firstn n srcs) d)).
Lemma x_copy_into_loop_ok : forall N sk sv sl fr asuf suf m pre apre ik iv il es d,
  mowns m (fb ik iv il es ++ fr) -> incl (fb sk sv sl (pre ++ suf)) fr ->
  Forall2 (erel N) pre apre -> Forall2 (erel N) suf asuf -> NoDup (map fst (apre ++ asuf)) -> Forall2 (erel (N + 1)) es d -> NoDup (map fst d) ->
  0 <= N -> N + 2 < two64 ->
  into_result (N + 1) m asuf d fr (x_copy_into_loop m (mkf ik iv il es) (mkf sk sv sl (pre ++ suf)) (map (fun e => Some (hk e)) suf ++ [None])).
Proof.
  intros N sk sv sl fr. induction asuf as [|[k v] asuf IH]; intros suf m pre apre ik iv il es d O C Fp Fs ND F NDd N0 LT;
    inversion Fs as [|e x suf' ? Fe Fs' E1 E2]; subst.
  - cbn [map app x_copy_into_loop]. exists U_OK, m, ik, iv, il, es, d. split; [reflexivity|]. split; [split; [auto|apply O]|].
    split; [exact O|]. split; [exact F|]. split; [exact NDd|]. left. auto.
  - cbn [map app x_copy_into_loop]. destruct (nodup_split N pre e apre k v asuf Fp Fe ND) as (P1 & P2 & P3 & PL).
    destruct (hk e) as [ie se] eqn:HE. cbn [snd] in P3. apply str_eqb_eq in P3. subst se.
    assert (C' : incl (fb sk sv sl (pre ++ e :: suf')) (fb ik iv il es ++ fr)) by (intros x X; apply in_or_app; right; now apply C).
    assert (CE : incl (eblocks e) (fb ik iv il es ++ fr)).
    { intros x X. apply C'. unfold fb. right. right. right. apply (eb_in e); [apply in_elt|exact X]. }
    rewrite (x_deref_ok _ m ie _ _ O) by (apply CE; unfold eblocks; rewrite HE; now left). unfold bind at 1. cbn [snd].
    rewrite (x_get_ok m _ sk sv sl pre e suf' k O C' P1) by (rewrite HE; apply str_eqb_refl). unfold bind at 1.
    rewrite (source_ok N m _ e k v O CE Fe). unfold bind at 1. rewrite source_text. unfold bind at 1.
    assert (LV : zlen v <= N) by apply Fe. assert (Kn : k <> []) by apply Fe.
    destruct (put_call (N + 1) (N + 1) m ik iv il es d k (a_text v) fr O F NDd) as (c & m1 & ik1 & iv1 & il1 & es1 & d1 & E & L1 & O1 & F1 & ND1 & CASE); try lia.
    { intros s S. destruct v as [|x v]; [discriminate|]. injection S as <-. pose proof (text_len (x :: v)). cbn [text_of] in H. lia. }
    match goal with |- context [x_put ?a1 ?b1 ?c1 ?d1] => match type of E with _ = ?r => replace (x_put a1 b1 c1 d1) with r by (symmetry; exact E) end end.
    unfold bind at 1. cbn [fst snd].
    assert (PM : put_meaning k (put_g (a_text v)) d = (U_OK, a_put k (a_text v) d)) by (unfold put_meaning; destruct k; [congruence|reflexivity]).
    rewrite PM in CASE. destruct CASE as [CE1|(-> & S1 & ->)].
    + injection CE1 as -> ->. change (U_OK =? U_OK) with true. cbn iota.
      specialize (IH suf' m1 (pre ++ [e]) (apre ++ [(k, v)]) ik1 iv1 il1 es1 (a_put k (a_text v) d)). rewrite <- !app_assoc in IH. cbn [app] in IH.
      destruct IH as (c & m2 & ik2 & iv2 & il2 & es2 & d2 & R & L2 & O2 & F2 & ND2 & CASE); auto.
      * apply Forall2_app; auto.
      * exists c, m2, ik2, iv2, il2, es2, d2. split; [exact R|]. split; [eapply later_trans; eauto|]. split; [exact O2|]. split; [exact F2|]. split; [exact ND2|].
        destruct CASE as [(-> & ->)|(-> & S2 & n & ->)]; [left; split; reflexivity|right]. split; [reflexivity|]. split; [now apply L1|]. exists (S n). reflexivity.
    + change (U_ERROR_MEMORY =? U_OK) with false. cbn iota.
      exists U_ERROR_MEMORY, m1, ik1, iv1, il1, es1, d. split; [reflexivity|]. split; [exact L1|]. split; [exact O1|]. split; [exact F1|]. split; [exact ND1|].
      right. split; [reflexivity|]. split; [exact S1|]. exists 0%nat. reflexivity.
Qed.
Lemma x_copy_into_ok : forall N m sk sv sl ses asrc ik iv il es d fr,
  mowns m (fb ik iv il es ++ fr) -> incl (fb sk sv sl ses) fr -> Forall2 (erel N) ses asrc -> NoDup (map fst asrc) ->
  Forall2 (erel N) es d -> NoDup (map fst d) -> 0 <= N -> N + 2 < two64 ->
  into_result (N + 1) m asrc d fr (x_copy_into m (mkf ik iv il es) (mkf sk sv sl ses)).
Proof.
  intros N m sk sv sl ses asrc ik iv il es d fr O C Fs NDs F ND N0 LT. unfold x_copy_into.
  unfold mkf at 1. cbn [f_keys]. cbn iota. cbn [mkf f_keys].
  rewrite (x_deref_ok _ m sk _ _ O) by (apply in_or_app; right; apply C; now left). unfold bind at 1. cbn [snd].
  fold (mkf sk sv sl ses). fold (mkf ik iv il es).
  apply (x_copy_into_loop_ok N sk sv sl fr asrc ses m [] [] ik iv il es d); auto. eapply erel_all; [|exact F]. lia.
Qed.

(** ** steps *)
Definition linked (N : Z) (x : nat * fmap) (a : amap) : Prop :=
  exists ik iv il es, snd x = mkf ik iv il es /\ Forall2 (erel N) es a /\ NoDup (map fst a).
Definition pinv (N : Z) (s : prog) (l : list amap) : Prop :=
  Forall2 (linked N) (p_maps s) l /\ mowns (p_mem s) (prog_blocks s).

Lemma linked_mono : forall N N' x a, N <= N' -> linked N x a -> linked N' x a.
Proof. intros N N' x a L (ik & iv & il & es & E & F & ND). exists ik, iv, il, es. split; auto. split; auto. eapply erel_all; eauto. Qed.
Lemma linked_all : forall N N' x a, N <= N' -> Forall2 (linked N) x a -> Forall2 (linked N') x a.
Proof. intros N N' x a L F. induction F; constructor; auto. eapply linked_mono; eauto. Qed.
Lemma pick : forall N ms l i p f, Forall2 (linked N) ms l -> nth_error ms i = Some (p, f) ->
  exists A B la a lb ik iv il es, ms = A ++ (p, f) :: B /\ l = la ++ a :: lb /\ length A = i /\ length la = i /\
    Forall2 (linked N) A la /\ Forall2 (linked N) B lb /\ f = mkf ik iv il es /\ Forall2 (erel N) es a /\ NoDup (map fst a).
Proof.
  intros N ms l i p f F. revert i. induction F as [|x a ms l R F IH]; intros i H; [destruct i; discriminate|]. destruct i as [|i].
  - injection H as ->. destruct R as (ik & iv & il & es & E & FR & ND). cbn [snd] in E.
    exists [], ms, [], a, l, ik, iv, il, es. repeat (split; [first [reflexivity|assumption|constructor]|]). assumption.
  - destruct (IH i H) as (A & B & la & a' & lb & ik & iv & il & es & -> & -> & LA & LB & FA & FB & E & FR & ND).
    exists (x :: A), B, (a :: la), a', lb, ik, iv, il, es.
    repeat (split; [first [reflexivity|assumption|simpl; congruence|constructor; assumption]|]). assumption.
Qed.
Lemma pick_none : forall N ms l i, Forall2 (linked N) ms l -> nth_error ms i = None -> nth_error l i = None.
Proof. intros N ms l i F H. apply nth_error_None in H. apply nth_error_None. rewrite <- (f2_length _ _ _ _ _ F). exact H. Qed.
Lemma nth_mid : forall A (a : list A) x b, nth_error (a ++ x :: b) (length a) = Some x.
Proof. induction a; simpl; auto. Qed.

Definition others (A B : list (nat * fmap)) : list nat := flat_map map_blocks A ++ flat_map map_blocks B.
Lemma blocks_split : forall A p ik iv il es B x,
  cnt (flat_map map_blocks (A ++ (p, mkf ik iv il es) :: B)) x = cnt (fb ik iv il es ++ (p :: others A B)) x.
Proof.
  intros. unfold others. rewrite flat_map_app. cbn [flat_map]. rewrite !cnt_app. rewrite blocks_mkf. repeat rewrite ?cnt_app, ?cnt_cons. lia.
Qed.
Lemma in_linked : forall N ms l p f ik iv il es, Forall2 (linked N) ms l -> In (p, f) ms -> f = mkf ik iv il es -> incl (fb ik iv il es) (flat_map map_blocks ms).
Proof.
  intros N ms l p f ik iv il es F I -> x X. apply in_flat_map. exists (p, mkf ik iv il es). split; auto.
  assert (H : (0 < cnt (map_blocks (p, mkf ik iv il es)) x)%nat).
  { rewrite blocks_mkf. unfold cnt. apply count_occ_In. now right. }
  unfold cnt in H. apply count_occ_In in H. exact H.
Qed.

(** what one step gives *)
Definition step_result (N : Z) (s : prog) (l : list amap) (o : mop) : Prop :=
  exists c s' l', mstep s o = Ret (c, s') /\ later (p_mem s) (p_mem s') /\ pinv N s' l' /\
    ((c, l') = astep l o \/ (c = U_ERROR_MEMORY /\ short (p_mem s) /\ afail l o l')).

Lemma on_map_ok : forall N N' s A p ik iv il es B la a lb call mean,
  p_maps s = A ++ (p, mkf ik iv il es) :: B -> mowns (p_mem s) (prog_blocks s) -> Forall2 (linked N) A la -> Forall2 (linked N) B lb -> N <= N' -> length A = length la ->
  (mowns (p_mem s) (fb ik iv il es ++ (p :: others A B)) -> call_result N' (p_mem s) a (p :: others A B) (call (p_mem s) (mkf ik iv il es)) mean) ->
  exists c s' a', on_map s (length A) call = Ret (c, s') /\ later (p_mem s) (p_mem s') /\ pinv N' s' (la ++ a' :: lb) /\
     ((c, a') = mean \/ (c = U_ERROR_MEMORY /\ short (p_mem s) /\ a' = a)).
Proof.
  intros N N' s A p ik iv il es B la a lb call mean EM O FA FB LN LL H. unfold on_map. unfold prog_blocks in O. rewrite EM in *.
  assert (O1 : mowns (p_mem s) (fb ik iv il es ++ (p :: others A B))) by (eapply mowns_ext; [exact O|intros x; apply blocks_split]).
  rewrite nth_mid. rewrite (use_ok _ _ _ (proj1 O1)) by (apply in_or_app; right; now left). unfold bind at 1.
  destruct (H O1) as (c & m' & ik' & iv' & il' & es' & a' & -> & L & O2 & F2 & ND2 & CASE). unfold bind at 1.
  exists c. eexists. exists a'. split; [reflexivity|]. split; [exact L|]. split; [|exact CASE].
  unfold set_map. rewrite set_nth_mid. split.
  - cbn [p_maps]. apply Forall2_app; [eapply linked_all; eauto|]. constructor; [|eapply linked_all; eauto].
    exists ik', iv', il', es'. auto.
  - unfold prog_blocks. cbn [p_mem p_maps]. eapply mowns_ext; [exact O2|intros x; symmetry; apply blocks_split].
Qed.

Lemma clean_none : forall m p, x_clean_full m p (mk_fmap None None None 0) = x_free m (Some p).
Proof. reflexivity. Qed.
Lemma mstep_ok : forall N max s l o, pinv N s l -> mop_ok max o -> max <= N -> 0 <= N -> N + 2 < two64 -> step_result (N + 1) s l o.
Proof.
  intros N max s l o [F O] OK LM N0 LT.
  assert (SAME : pinv (N + 1) s l) by (split; [eapply linked_all; [|exact F]; lia|exact O]).
  assert (STAY : later (p_mem s) (p_mem s)) by (split; [auto|apply O]).
  assert (ONMAP : forall i call mean, (forall m ik iv il es a fr, mowns m (fb ik iv il es ++ fr) -> Forall2 (erel N) es a -> NoDup (map fst a) -> call_result (N + 1) m a fr (call m (mkf ik iv il es)) (mean a)) ->
    exists c s' l', on_map s i call = Ret (c, s') /\ later (p_mem s) (p_mem s') /\ pinv (N + 1) s' l' /\ ((c, l') = acall l i mean \/ (c = U_ERROR_MEMORY /\ short (p_mem s) /\ l' = l))).
  { intros i call mean H. destruct (nth_error (p_maps s) i) as [[p f]|] eqn:E.
    - destruct (pick N _ _ i p f F E) as (A & B & la & a & lb & ik & iv & il & es & EM & -> & LA & LB & FA & FB & -> & FR & ND).
      destruct (on_map_ok N (N + 1) s A p ik iv il es B la a lb call (mean a) EM O FA FB) as (c & s' & a' & R & L & P & CASE); [lia|lia| |].
      { intros O1. now apply H. }
      exists c, s', (la ++ a' :: lb). rewrite LA in R. split; [exact R|]. split; [exact L|]. split; [exact P|].
      unfold acall. rewrite <- LB, nth_mid, set_nth_mid. destruct CASE as [<-|(-> & S1 & ->)]; [left; reflexivity|right; auto].
    - unfold on_map. rewrite E. exists U_ERROR_PARAMS, s, l. split; [reflexivity|]. split; [exact STAY|]. split; [exact SAME|].
      left. unfold acall. now rewrite (pick_none N _ _ _ F E). }
  unfold step_result. destruct o as [|i k v|i k b off|i index|i fc k|i|i|i j|i]; cbn [mstep astep afail]; cbn [mop_ok] in OK.
  - (* New *)
    destruct (x_malloc_ok _ _ O) as (p1 & m1 & -> & L1 & [(p & -> & O1)|(-> & S1 & O1)]).
    2:{ exists U_ERROR_MEMORY. eexists. exists l. split; [reflexivity|]. split; [exact L1|]. split; [|right; auto].
        split; [eapply linked_all; [|exact F]; lia|exact O1]. }
    destruct (x_init_ok _ _ O1) as (c & m2 & f & -> & L2 & CASE). unfold bind at 1. destruct CASE as [(-> & ik & iv & il & -> & O2)|(-> & S2 & -> & O2)].
    + change (U_OK =? U_OK) with true. cbn iota. exists U_OK. eexists. exists (l ++ [[]]). split; [reflexivity|]. split; [eapply later_trans; eauto|]. split; [|left; reflexivity].
      split.
      * cbn [p_maps]. apply Forall2_app; [eapply linked_all; [|exact F]; lia|]. constructor; [|constructor]. exists ik, iv, il, []. split; [reflexivity|]. split; constructor.
      * unfold prog_blocks. cbn [p_mem p_maps]. eapply mowns_ext; [exact O2|]. intros x. rewrite blocks_split. unfold others, prog_blocks.
        cbn [flat_map]. repeat rewrite ?cnt_app, ?cnt_cons, ?cnt_nil. lia.
    + change (U_ERROR_MEMORY =? U_OK) with false. cbn iota. destruct (x_free_ok _ _ _ O2) as (m3 & -> & O3 & L3 & _). unfold bind at 1.
      exists U_ERROR_MEMORY. eexists. exists l. split; [reflexivity|]. split; [eapply later_trans; [eauto|eapply later_trans; eauto]|].
      split; [split; [eapply linked_all; [|exact F]; lia|exact O3]|]. right. split; auto. split; [now apply L1|reflexivity].
  - apply (ONMAP i (fun m f => x_put m f (Some k) v) (fun m => match k with [] => (U_ERROR_PARAMS, m) | _ => (U_OK, a_put k v m) end)).
    intros m ik iv il es a fr O1 F1 ND1. apply (put_call N (N + 1)); auto; try lia. intros x ->. lia.
  - destruct OK as (Bn & _ & O0 & LB).
    apply (ONMAP i (fun m f => do n <- x_get_length m f k; x_put_binary m f (Some k) (Some (block_of b)) (Z.min off (Z.max 0 n)) (zlen b))
                 (fun m => match k with [] => (U_ERROR_PARAMS, m) | _ => (U_OK, a_change k (fun old => overlay old b off) m) end)).
    intros m ik iv il es a fr O1 F1 ND1. apply (put_at_call N (N + 1)); auto; lia.
  - apply (ONMAP i (fun m f => x_remove_at m f index) (a_remove_at index)).
    intros m ik iv il es a fr O1 F1 ND1. apply remove_at_call; auto. eapply erel_all; [|exact F1]. lia.
  - apply (ONMAP i (fun m f => x_remove_key m f (matches fc k)) (a_remove_key (matches fc k))).
    intros m ik iv il es a fr O1 F1 ND1. apply remove_key_call; auto. eapply erel_all; [|exact F1]. lia.
  - (* Empty *)
    destruct (nth_error (p_maps s) i) as [[p f]|] eqn:E.
    2:{ exists U_ERROR_PARAMS, s, l. split; [reflexivity|]. split; [exact STAY|]. split; [exact SAME|]. left. unfold acall. now rewrite (pick_none N _ _ _ F E). }
    destruct (pick N _ _ i p f F E) as (A & B & la & a & lb & ik & iv & il & es & EM & -> & LA & LB & FA & FB & -> & FR & ND).
    unfold prog_blocks in O. rewrite EM in *.
    assert (O1 : mowns (p_mem s) (fb ik iv il es ++ (p :: others A B))) by (eapply mowns_ext; [exact O|intros x; apply blocks_split]).
    rewrite (use_ok _ _ _ (proj1 O1)) by (apply in_or_app; right; now left). unfold bind at 1.
    unfold x_empty. destruct (x_clean_ok _ _ _ _ _ _ O1) as (m1 & -> & O2 & L1). unfold bind at 2. cbn [fst].
    destruct (x_init_ok _ _ O2) as (c & m2 & f & -> & L2 & CASE). unfold bind at 1. destruct CASE as [(-> & ik' & iv' & il' & -> & O3)|(-> & S2 & -> & O3)].
    + change (U_OK =? U_OK) with true. cbn iota. unfold set_map. rewrite <- LA, set_nth_mid. exists U_OK. eexists. exists (la ++ [] :: lb). split; [reflexivity|].
      split; [eapply later_trans; eauto|]. split.
      * split; [|unfold prog_blocks; cbn [p_mem p_maps]; eapply mowns_ext; [exact O3|intros x; symmetry; apply blocks_split]].
        cbn [p_maps]. apply Forall2_app; [eapply linked_all; [|exact FA]; lia|]. constructor; [|eapply linked_all; [|exact FB]; lia].
        exists ik', iv', il', []. split; [reflexivity|]. split; constructor.
      * left. unfold acall. replace (length A) with (length la) by lia. now rewrite nth_mid, set_nth_mid.
    + change (U_ERROR_MEMORY =? U_OK) with false. cbn iota. rewrite clean_none.
      destruct (x_free_ok _ _ _ O3) as (m3 & -> & O4 & L3 & _). unfold bind at 1. rewrite <- LA, drop_mid.
      exists U_ERROR_MEMORY. eexists. exists (la ++ lb). split; [reflexivity|]. split; [eapply later_trans; [eauto|eapply later_trans; eauto]|].
      split.
      * split; [cbn [p_maps]; apply Forall2_app; eapply linked_all; [|exact FA| |exact FB]; lia|]. unfold prog_blocks. cbn [p_mem p_maps]. rewrite flat_map_app. exact O4.
      * right. split; [reflexivity|]. split; [now apply L1|]. replace (length A) with (length la) by lia. now rewrite drop_mid.
  - (* Copy *)
    destruct (nth_error (p_maps s) i) as [[p f]|] eqn:E.
    2:{ exists U_ERROR_PARAMS, s, l. split; [reflexivity|]. split; [exact STAY|]. split; [exact SAME|]. left. now rewrite (pick_none N _ _ _ F E). }
    destruct (pick N _ _ i p f F E) as (A & B & la & a & lb & ik & iv & il & es & EM & El & LA & LB & FA & FB & -> & FR & ND).
    assert (IC : incl (fb ik iv il es) (prog_blocks s)) by (eapply in_linked; [exact F|eapply nth_error_In; exact E|reflexivity]).
    assert (IP : In p (prog_blocks s)) by (apply in_flat_map; exists (p, mkf ik iv il es); split; [eapply nth_error_In; exact E|now left]).
    rewrite (use_ok _ _ _ (proj1 O) IP). unfold bind at 1.
    destruct (x_copy_ok N (p_mem s) ik iv il es a _ O IC FR ND) as (m1 & o & -> & L1 & CASE); try lia. unfold bind at 1. cbn [fst snd].
    assert (NE : nth_error l i = Some a) by (rewrite El, <- LB; apply nth_mid). rewrite NE.
    destruct CASE as [(ik' & iv' & il' & es' & p' & -> & F' & O')|(-> & S1 & O')].
    + exists U_OK. eexists. exists (l ++ [a]). split; [reflexivity|]. split; [exact L1|]. split; [|left; reflexivity]. split.
      * cbn [p_maps]. apply Forall2_app; [eapply linked_all; [|exact F]; lia|]. constructor; [|constructor]. exists ik', iv', il', es'. split; [reflexivity|]. split; [|exact ND].
        eapply erel_all; [|exact F']. lia.
      * unfold prog_blocks. cbn [p_mem p_maps]. eapply mowns_ext; [exact O'|]. intros x. rewrite blocks_split. unfold others, prog_blocks.
        cbn [flat_map]. repeat rewrite ?cnt_app, ?cnt_cons, ?cnt_nil. lia.
    + exists U_ERROR_MEMORY. eexists. exists l. split; [reflexivity|]. split; [exact L1|]. split; [|right; auto]. split; [eapply linked_all; [|exact F]; lia|exact O'].
  - (* CopyInto *)
    destruct (nth_error (p_maps s) j) as [[q f]|] eqn:E.
    2:{ exists U_ERROR_PARAMS, s, l. split; [reflexivity|]. split; [exact STAY|]. split; [exact SAME|]. left. now rewrite (pick_none N _ _ _ F E). }
    destruct (pick N _ _ j q f F E) as (A' & B' & la' & a' & lb' & sk & sv & sl & ses & EM' & El' & LA' & LB' & _ & _ & Ef & FRs & NDs). subst f.
    assert (NE : nth_error l j = Some a') by (rewrite El', <- LB'; apply nth_mid). rewrite NE.
    assert (IP : In q (prog_blocks s)) by (apply in_flat_map; exists (q, mkf sk sv sl ses); split; [eapply nth_error_In; exact E|now left]).
    rewrite (use_ok _ _ _ (proj1 O) IP). unfold bind at 1.
    destruct (nth_error (p_maps s) i) as [[p g]|] eqn:Ei.
    2:{ unfold on_map. rewrite Ei. exists U_ERROR_PARAMS, s, l. split; [reflexivity|]. split; [exact STAY|]. split; [exact SAME|].
        left. unfold acall. now rewrite (pick_none N _ _ _ F Ei). }
    destruct (pick N _ _ i p g F Ei) as (A & B & la & a & lb & ik & iv & il & es & EM & El & LA & LB & FA & FB & -> & FR & ND).
    unfold prog_blocks in O. unfold on_map. rewrite Ei. rewrite EM in *.
    assert (O1 : mowns (p_mem s) (fb ik iv il es ++ (p :: others A B))) by (eapply mowns_ext; [exact O|intros x; apply blocks_split]).
    rewrite (use_ok _ _ _ (proj1 O1)) by (apply in_or_app; right; now left). unfold bind at 1.
    assert (IS : In (q, mkf sk sv sl ses) (A ++ B)).
    { clear - E OK LA. subst i. apply in_or_app. destruct (Nat.lt_ge_cases j (length A)) as [L|L].
      - left. rewrite nth_error_app1 in E by exact L. eapply nth_error_In; eauto.
      - right. rewrite nth_error_app2 in E by exact L. destruct (j - length A)%nat as [|k] eqn:K; [lia|]. eapply nth_error_In; eauto. }
    assert (IC : incl (fb sk sv sl ses) (p :: others A B)).
    { intros x X. right. unfold others. rewrite <- flat_map_app. eapply (in_linked N (A ++ B)); [apply Forall2_app; eassumption|exact IS|reflexivity|exact X]. }
    destruct (x_copy_into_ok N (p_mem s) sk sv sl ses a' ik iv il es a (p :: others A B) O1 IC FRs NDs FR ND) as (c & m1 & ik1 & iv1 & il1 & es1 & d1 & -> & L1 & O2 & F2 & ND2 & CASE); try lia.
    unfold bind at 1. unfold set_map. rewrite <- LA, set_nth_mid.
    exists c. eexists. exists (la ++ d1 :: lb). split; [reflexivity|]. split; [exact L1|]. split.
    + split; [|unfold prog_blocks; cbn [p_mem p_maps]; eapply mowns_ext; [exact O2|intros x; symmetry; apply blocks_split]].
      cbn [p_maps]. apply Forall2_app; [eapply linked_all; [|exact FA]; lia|]. constructor; [|eapply linked_all; [|exact FB]; lia].
      exists ik1, iv1, il1, es1. auto.
    + assert (NEi : nth_error l (length A) = Some a) by (rewrite El; replace (length A) with (length la) by lia; apply nth_mid).
      assert (SN : forall x, set_nth l (length A) x = la ++ x :: lb) by (intros x; rewrite El; replace (length A) with (length la) by lia; apply set_nth_mid).
      unfold acall. rewrite NEi, SN. cbn [fst snd]. destruct CASE as [(-> & ->)|(-> & S1 & n & ->)]; [left; reflexivity|right].
      split; [reflexivity|]. split; [exact S1|]. exists a', a, n. rewrite SN. auto.
  - (* Release *)
    destruct (nth_error (p_maps s) i) as [[p f]|] eqn:E.
    2:{ exists U_ERROR_PARAMS, s, l. split; [reflexivity|]. split; [exact STAY|]. split; [exact SAME|]. left. now rewrite (pick_none N _ _ _ F E). }
    destruct (pick N _ _ i p f F E) as (A & B & la & a & lb & ik & iv & il & es & EM & -> & LA & LB & FA & FB & -> & FR & ND).
    unfold prog_blocks in O. rewrite EM in *.
    assert (O1 : mowns (p_mem s) (p :: fb ik iv il es ++ others A B)).
    { eapply mowns_ext; [exact O|]. intros x. rewrite blocks_split. repeat rewrite ?cnt_app, ?cnt_cons. lia. }
    rewrite (use_ok _ _ _ (proj1 O1)) by now left. unfold bind at 1.
    destruct (x_clean_full_ok _ _ _ _ _ _ _ O1) as (m1 & -> & O2 & L1). unfold bind at 1. rewrite <- LA, drop_mid.
    exists U_OK. eexists. exists (la ++ lb). split; [reflexivity|]. split; [exact L1|]. split.
    + split; [cbn [p_maps]; apply Forall2_app; eapply linked_all; [|exact FA| |exact FB]; lia|]. unfold prog_blocks. cbn [p_mem p_maps]. rewrite flat_map_app. exact O2.
    + left. replace (length A) with (length la) by lia. now rewrite nth_mid, drop_mid.
Qed.

(** ** runs *)
Lemma mrun_ok : forall max sh ops N s l, pinv N s l -> Forall (mop_ok max) ops -> max <= N -> 0 <= N -> N + zlen ops + 1 < two64 ->
  (short (p_mem s) -> sh = true) ->
  exists cs s' l', mrun s ops = Ret (cs, s') /\ ameans sh l ops cs l' /\ pinv (N + zlen ops) s' l'.
Proof.
  intros max sh. induction ops as [|o ops IH]; intros N s l P F LM N0 LT SH; cbn [mrun].
  - exists [], s, l. split; [reflexivity|]. split; [constructor|]. change (zlen (@nil mop)) with 0. now rewrite Z.add_0_r.
  - inversion F as [|? ? Fo Fr]; subst. unfold zlen in LT. cbn [length] in LT. rewrite Nat2Z.inj_succ in LT. fold (zlen ops) in LT. pose proof (zlen_nonneg _ ops).
    destruct (mstep_ok N max s l o P Fo LM N0) as (c & s1 & l1 & -> & L1 & P1 & CASE); [lia|]. unfold bind at 1. cbn [fst snd].
    destruct (IH (N + 1) s1 l1 P1 Fr) as (cs & s2 & l2 & -> & M & P2); try lia.
    { intros S1. apply SH. now apply L1. }
    unfold bind at 1. cbn [fst snd]. exists (c :: cs), s2, l2. split; [reflexivity|]. split.
    + destruct CASE as [E|(-> & S1 & A)].
      * replace c with (fst (astep l o)) by now rewrite <- E. apply am_ok. now rewrite <- E.
      * eapply am_fail; [now apply SH|exact A|exact M].
    + replace (N + zlen (o :: ops)) with (N + 1 + zlen ops); [exact P2|]. unfold zlen. cbn [length]. lia.
Qed.
Lemma pinv_start : forall N answers, pinv N (start answers) [].
Proof. intros. split; [constructor|]. split; [|reflexivity]. split; [reflexivity|]. split; [|reflexivity]. intros x. change (0 <= 1)%nat. lia. Qed.

Lemma read_bytes_ok : forall b r, read_bytes (block_of (b ++ r)) (length b) = Ret b.
Proof. induction b as [|c b IH]; intros r; [destruct r; reflexivity|]. cbn [app block_of map read_bytes length]. fold (block_of (b ++ r)). now rewrite IH. Qed.
Lemma read_entries_ok : forall N m ids es a, mowns m ids -> incl (flat_map eblocks es) ids -> Forall2 (erel N) es a ->
  read_entries m (map (fun e => Some (hk e)) es ++ [None]) (map hv es ++ [None]) (map hl es ++ [0]) = Ret a.
Proof.
  intros N m ids es a O C F. induction F as [|e [k v] es a R F IH]; [reflexivity|]. cbn [map app read_entries].
  assert (CE : incl (eblocks e) ids) by (intros x X; apply C; cbn [flat_map]; apply in_or_app; auto).
  destruct R as (Ek & _ & (EL & EV) & _). cbn [fst snd] in *. destruct (hk e) as [i x] eqn:HE. cbn [snd] in Ek. subst x.
  rewrite (x_deref_ok _ m i k ids O) by (apply CE; unfold eblocks; rewrite HE; now left). unfold bind at 1.
  replace (if hl e =? 0 then Ret [] else do y <- x_deref m (hv e); read_bytes (snd y) (Z.to_nat (hl e))) with (Ret v).
  - unfold bind at 1. rewrite IH; [reflexivity|]. intros x X. apply C. cbn [flat_map]. apply in_or_app. auto.
  - destruct (hl e =? 0) eqn:H0.
    + apply Z.eqb_eq in H0. rewrite EL in H0. destruct v as [|? v]; [reflexivity|]. unfold zlen in H0. cbn [length] in H0. lia.
    + destruct (hv e) as [[j b]|] eqn:HV.
      * subst b. rewrite (x_deref_ok _ m j _ ids O) by (apply CE; unfold eblocks; rewrite HV; right; now left). unfold bind at 1. cbn [snd].
        rewrite EL. unfold zlen. rewrite Nat2Z.id. symmetry. apply read_bytes_ok.
      * subst v. rewrite EL in H0. discriminate.
Qed.
Lemma read_maps_ok : forall N m ids ms l, mowns m ids -> incl (flat_map map_blocks ms) ids -> Forall2 (linked N) ms l -> read_maps m ms = Ret l.
Proof.
  intros N m ids ms l O C F. induction F as [|[p f] a ms l R F IH]; [reflexivity|]. cbn [read_maps].
  assert (CE : incl (map_blocks (p, f)) ids) by (intros x X; apply C; cbn [flat_map]; apply in_or_app; auto).
  rewrite (use_ok _ _ _ (proj1 O)) by (apply CE; now left). unfold bind at 1. destruct R as (ik & iv & il & es & E & FR & ND). cbn [snd] in E. subst f.
  assert (CF : incl (fb ik iv il es) ids).
  { intros x X. apply CE. apply (in_linked N [(p, mkf ik iv il es)] [a] p (mkf ik iv il es) ik iv il es) in X.
    - cbn [flat_map] in X. now rewrite app_nil_r in X.
    - constructor; [|constructor]. exists ik, iv, il, es. auto.
    - now left.
    - reflexivity. }
  unfold read_map. cbn [mkf f_keys f_values f_lengths].
  rewrite (x_deref_ok _ m ik _ ids O) by (apply CF; now left). unfold bind at 2.
  rewrite (x_deref_ok _ m iv _ ids O) by (apply CF; right; now left). unfold bind at 2.
  rewrite (x_deref_ok _ m il _ ids O) by (apply CF; right; right; now left). unfold bind at 2. cbn [snd].
  rewrite (read_entries_ok N m ids es a O); [|intros x X; apply CF; unfold fb; right; right; now right|exact FR].
  unfold bind at 1. rewrite IH; [reflexivity|]. intros x X. apply C. cbn [flat_map]. apply in_or_app. auto.
Qed.
Lemma release_all : forall N ms l s, pinv N s l -> p_maps s = ms ->
  exists cs s', mrun s (repeat (Release 0) (length ms)) = Ret (cs, s') /\ p_maps s' = [] /\ mowns (p_mem s') [] /\ Forall (eq U_OK) cs.
Proof.
  intros N. induction ms as [|[p f] ms IH]; intros l s [F O] E; cbn [length repeat mrun].
  - exists [], s. split; [reflexivity|]. split; [exact E|]. split; [|constructor]. unfold prog_blocks in O. rewrite E in O. exact O.
  - cbn [mstep]. unfold prog_blocks in O. rewrite E in *. cbn [nth_error]. inversion F as [|? a ? l' (ik & iv & il & es & Ef & FR & ND) F']; subst. cbn [snd] in Ef. subst f.
    assert (O1 : mowns (p_mem s) (p :: fb ik iv il es ++ flat_map map_blocks ms)).
    { eapply mowns_ext; [exact O|]. intros x. cbn [flat_map]. rewrite cnt_app, blocks_mkf. repeat rewrite ?cnt_app, ?cnt_cons. lia. }
    rewrite (use_ok _ _ _ (proj1 O1)) by now left. unfold bind at 2.
    destruct (x_clean_full_ok _ _ _ _ _ _ _ O1) as (m1 & -> & O2 & L1). unfold bind at 2. unfold bind at 1. cbn [fst snd drop firstn skipn app].
    destruct (IH l' (mk_prog m1 ms)) as (cs & s' & -> & E' & O' & FC); [split; [exact F'|exact O2]|reflexivity|].
    unfold bind at 1. cbn [fst snd]. exists (U_OK :: cs), s'. split; [reflexivity|]. split; [exact E'|]. split; [exact O'|]. constructor; auto.
Qed.
