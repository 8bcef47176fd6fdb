(** Proofs about the memory of responses (C97): new responses, duplicates, whole runs. *)
From Coq Require Import ZArith Bool List Lia.
From Verif Require Import Base BaseFacts UMapModel UMapProofs OwnModel OwnSpec OwnProofs MapMemModel MapMemSpec MapMemProofs MapMemPut MapMemRun MapMemSteps
  RespMemModel RespMemSpec RespMemProofs RespMemCalls RespMemCookie.
Import ListNotations.
Open Scope Z_scope.

Lemma malloc_first : forall m, hd true (m_new m) = false -> exists m', x_malloc m = (None, m').
Proof. intros m H. unfold x_malloc. destruct (m_new m) as [|b z]; [discriminate|]. cbn in H. subst b. eexists. reflexivity. Qed.
Lemma malloc_left : forall m i m', x_malloc m = (Some i, m') -> m_new m' = tl (m_new m).
Proof. intros m i m'. unfold x_malloc. destruct (m_new m) as [|[] z]; cbn; intros E; inversion E; reflexivity. Qed.

Lemma init_ok : forall dups N m ids, mowns m ids -> (~ short m \/ hd true (m_new m) = false) ->
  exists c m' r, x_init_resp m raw_resp = Ret (c, (m', r)) /\ later m m' /\
    ((c = U_OK /\ ~ short m /\ (exists ih ik iv il iw pl, r = mkr None ih ik iv il [] None None 0 None 0 iw None None pl None) /\ rinv dups N r new_resp /\ mowns m' (inner r ++ ids)) \/
     (c = U_ERROR_MEMORY /\ short m /\ mowns m' ids)).
Proof.
  intros dups N m ids O MO. unfold x_init_resp.
  destruct (x_malloc_ok _ _ O) as (p1 & m1 & E1 & L1 & [(ih & -> & O1)|(-> & S1 & O1)]); rewrite E1.
  2:{ do 3 eexists. split; [reflexivity|]. split; [exact L1|]. right. auto. }
  assert (NS : ~ short m). { destruct MO as [MO|MO]; auto. destruct (malloc_first _ MO) as (m' & E). rewrite E in E1. discriminate. }
  destruct (x_init_ok _ _ O1) as (c & m2 & f & -> & L2 & [(-> & ik & iv & il & -> & O2)|(_ & S2 & _)]); [|elim NS; now apply L1].
  unfold bind at 1. change (negb (U_OK =? U_OK)) with false. cbn iota zeta.
  destruct (x_malloc_ok _ _ O2) as (p3 & m3 & -> & L3 & [(iw & -> & O3)|(_ & S3 & _)]); [|elim NS; now apply L1, L2].
  destruct (x_malloc_ok _ _ O3) as (p4 & m4 & -> & L4 & [(pl & -> & O4)|(_ & S4 & _)]); [|elim NS; now apply L1, L2, L3].
  do 2 eexists. exists (mkr None ih ik iv il [] None None 0 None 0 iw None None pl None). split; [reflexivity|]. split; [chain|]. left.
  split; [reflexivity|]. split; [exact NS|]. split; [do 6 eexists; reflexivity|]. split; [|rby O4].
  do 16 eexists. split; [reflexivity|]. constructor; cbn; auto; [constructor|]. exists [], []. auto.
Qed.

Lemma copy_ok : forall dups N m s a ids ih ik iv il iw pl, dups = true -> rinv dups N s a -> 0 <= N -> N + 1 < two64 -> ~ short m ->
  mowns m (inner (mkr None ih ik iv il [] None None 0 None 0 iw None None pl None) ++ ids) -> incl (inner s) ids ->
  exists c m' r, x_copy_resp m (mkr None ih ik iv il [] None None 0 None 0 iw None None pl None) s = Ret (c, (m', r)) /\ later m m' /\ mowns m' (inner r ++ ids) /\
    match ar_protocol a with
    | None => c = U_ERROR_MEMORY /\ exists a', rinv dups N r a'
    | Some _ => c = U_OK /\ rinv dups N r (duplicate a)
    end.
Proof.
  intros dups N m s a ids ih ik iv il iw pl DU I N0 NT NS O C.
  destruct I as (pr & sh & sk & sv & sl & es & rl & ck & nb & bd & ln & sw & wp & we & spl & ex & -> & F).
  assert (C' : incl (rb pr sh sk sv sl es rl ck bd sw wp we spl ex) ids).
  { intros x X. apply C. assert (H : (0 < cnt (rb pr sh sk sv sl es rl ck bd sw wp we spl ex) x)%nat) by (unfold cnt; now apply count_occ_In).
    rewrite <- inner_mkr with (nb := nb) (ln := ln) in H. unfold cnt in H. now apply count_occ_In in H. }
  clear C. rename C' into C. unfold rb in C.
  assert (Cpr : incl (ptr_blocks pr) ids) by (intros x X; apply C; apply in_or_app; auto).
  assert (Ch : incl (sh :: fb sk sv sl es) ids) by (intros x X; apply C; apply in_or_app; right; apply in_or_app; auto).
  assert (Crl : incl (ptr_blocks rl) ids) by (intros x X; apply C; do 2 (apply in_or_app; right); apply in_or_app; auto).
  assert (Cck : incl (ckb ck) ids) by (intros x X; apply C; do 3 (apply in_or_app; right); apply in_or_app; auto).
  assert (Cbd : incl (ptr_blocks bd) ids) by (intros x X; apply C; do 4 (apply in_or_app; right); apply in_or_app; auto).
  assert (Cw : incl (sw :: ptr_blocks wp ++ ptr_blocks we ++ spl :: exb ex) ids) by (intros x X; apply C; do 5 (apply in_or_app; right); auto).
  clear C.
  assert (Csw : In sw ids) by (apply Cw; now left).
  assert (Cwp : incl (ptr_blocks wp) ids) by (intros x X; apply Cw; right; apply in_or_app; auto).
  assert (Cwe : incl (ptr_blocks we) ids) by (intros x X; apply Cw; right; apply in_or_app; right; apply in_or_app; auto).
  pose proof (inner_mkr None ih ik iv il [] None None 0 None 0 iw None None pl None) as IN0. unfold rb in IN0. cbn [ptr_blocks ckb exb app] in IN0.
  set (w0 := iw :: [pl]) in *.
  assert (O0 : mowns m ((ih :: fb ik iv il []) ++ w0 ++ ids)).
  { eapply mowns_ext; [exact O|]. intros x. rewrite cnt_app, IN0. unfold w0. repeat rewrite ?cnt_app, ?cnt_cons, ?cnt_nil. lia. }
  clear O IN0. unfold x_copy_resp. members. unfold bind at 1.
  destruct (x_dup_ok m pr _ O0) as (np & m1 & -> & L1 & O1 & T1); [intros x X; do 2 (apply in_or_app; right); auto|]. unfold bind at 1. unfold bind at 1. cbn [fst snd].
  destruct T1 as [T1|(_ & S1 & _)]; [|contradiction].
  destruct (x_dup_ok m1 rl _ O1) as (nr & m2 & -> & L2 & O2 & T2); [intros x X; do 3 (apply in_or_app; right); auto|]. unfold bind at 1. cbn [fst snd].
  destruct T2 as [T2|(_ & S1 & _)]; [|elim NS; now apply L1].
  assert (LL2 : later m m2) by chain.
  pose proof (r_protocol _ _ _ _ _ _ _ _ _ _ _ _ _ F) as FP. rewrite <- FP, <- T1. rewrite FP in T1.
  destruct np as [[ip sp]|].
  2:{ cbn [is_null ptext]. do 2 eexists. exists (mkr None ih ik iv il [] nr None 0 None 0 iw None None pl None). split; [reflexivity|]. split; [exact LL2|].
      split; [|split; [reflexivity|exists (set_realm new_resp (ptext nr)); do 16 eexists; split; [reflexivity|]; constructor; cbn; auto; [constructor|]; exists [], []; auto]].
      eapply mowns_ext; [exact O2|]. intros x. rewrite !cnt_app, inner_mkr. unfold rb, w0. cbn [ckb exb ptr_blocks]. repeat rewrite ?cnt_app, ?cnt_cons, ?cnt_nil. lia. }
  cbn [is_null ptext]. unfold bind at 1.
  assert (O2' : mowns m2 (ih :: fb ik iv il [] ++ (ptr_blocks nr ++ [ip] ++ w0 ++ ids))) by (cbn [ptr_blocks] in O2; mowns_by O2).
  destruct (x_clean_full_ok _ _ _ _ _ _ _ O2') as (m3 & -> & O3 & L3). unfold bind at 1. unfold bind at 1.
  rewrite (x_deref_ok _ m3 sh _ _ O3). 2:{ do 3 (apply in_or_app; right). apply Ch. now left. } unfold bind at 1. unfold bind at 1. cbn [snd].
  destruct (x_copy_ok N m3 sk sv sl es (ar_header a) _ O3) as (m4 & o & -> & L4 & CASE).
  { intros x X. do 3 (apply in_or_app; right). apply Ch. now right. } { apply F. } { apply F. } { exact N0. } { exact NT. }
  destruct CASE as [(jk & jv & jl & es' & jh & -> & F4 & O4)|(_ & S4 & _)]; [|elim NS; now apply LL2, L3].
  cbn iota. unfold bind at 1. unfold bind at 1.
  (* the cookies *)
  assert (LL4 : later m m4) by chain.
  assert (G : exists m5 ck', (match nb with O => Ret (m4, Some None) | S _ => match x_malloc m4 with (None, m3) => Ret (m3, None) | (Some pc, m3) => do y <- x_copy_cookies m3 ck 0 nb; Ret (fst y, Some (Some (pc, snd y))) end end)
      = Ret (m5, Some ck') /\ later m4 m5 /\ cok dups ck' nb (ar_cookies a) /\ mowns m5 (ckb ck' ++ (jh :: fb jk jv jl es') ++ (ptr_blocks nr ++ [ip] ++ w0 ++ ids))).
  { pose proof (r_cookies _ _ _ _ _ _ _ _ _ _ _ _ _ F) as (cs & extra & EN & EC & W & CK). destruct ck as [[j arr]|].
    - destruct CK as (-> & CN & FE). destruct nb as [|nb]; [destruct cs; [contradiction|discriminate]|].
      destruct (x_malloc_ok _ _ O4) as (p5 & m5 & -> & L5 & [(pc & -> & O5)|(_ & S5 & _)]); [|elim NS; now apply LL4].
      cbn [ckb] in Cck. rewrite EN.
      destruct (x_copy_cookies_ok j extra cs [] m5 _ O5) as (m6 & l & R & L6 & O6 & V6 & W6).
      + right. right. do 4 (apply in_or_app; right). apply Cck. now left.
      + intros x X. right. right. do 4 (apply in_or_app; right). apply Cck. right. rewrite flat_map_app. apply in_or_app. auto.
      + intros S6. apply NS. now apply LL4, L5.
      + now apply W.
      + cbn [app length] in R. unfold bind. match goal with |- context [x_copy_cookies ?a1 ?b1 ?c1 ?d1] => replace (x_copy_cookies a1 b1 c1 d1) with (Ret (m6, l)) by (symmetry; exact R) end. cbn [fst snd].
        exists m6, (Some (pc, l)). split; [reflexivity|]. split; [chain|]. split.
        * assert (LEN : length l = length cs) by (rewrite <- (map_length vcookie l), V6, map_length; reflexivity).
          exists l, []. split; [lia|]. split; [congruence|]. split; [auto|]. rewrite app_nil_r. split; [reflexivity|]. split; [|constructor].
          intros Z. subst l. destruct cs; [contradiction|discriminate].
        * cbn [ckb]. mowns_by O6.
    - subst cs. cbn in EN. subst nb. exists m4, None. split; [reflexivity|]. split; [eapply later_refl; eauto|]. split; [|exact O4]. exists [], []. rewrite <- EC. auto. }
  destruct G as (m5 & ck' & E5 & L5 & CO & O5).
  match goal with |- context [bind (match nb with O => ?u | S _ => ?w end) _] => replace (match nb with O => u | S _ => w end) with (Ret (m5, Some ck')) by (symmetry; exact E5) end.
  unfold bind at 1. cbn iota beta. unfold bind at 1. unfold bind at 1.
  (* the body *)
  assert (LL5 : later m m5) by chain.
  pose proof (r_body _ _ _ _ _ _ _ _ _ _ _ _ _ F) as FB.
  assert (G : exists m6 bd' ln', (if is_null bd || (ln =? 0) then Ret (m5, (Some (@None (nat * list Z)), Some 0))
                else do y <- x_deref m5 bd; match x_malloc m5 with (None, m4) => Ret (m4, (Some None, Some 0)) | (Some pb, m4) => Ret (m4, (Some (Some (pb, zfirstn ln (snd y))), Some ln)) end)
               = Ret (m6, (Some bd', Some ln')) /\ later m5 m6 /\ brel bd' ln' (nonempty (ar_body a)) /\ (is_null bd || (ln =? 0) = false -> bd' <> None) /\
               mowns m6 (ptr_blocks bd' ++ (ckb ck' ++ (jh :: fb jk jv jl es') ++ (ptr_blocks nr ++ [ip] ++ w0 ++ ids)))).
  { destruct bd as [[j x]|]; cbn [is_null orb brel] in *.
    - destruct FB as [B1 B2]. destruct (ln =? 0) eqn:Z0.
      + apply Z.eqb_eq in Z0. subst ln. exists m5, None, 0. split; [reflexivity|]. split; [eapply later_refl; eauto|]. split; [rewrite B2; reflexivity|]. split; [discriminate|exact O5].
      + apply Z.eqb_neq in Z0. rewrite (x_deref_ok _ m5 j _ _ O5). 2:{ apply in_or_app; right. right. do 4 (apply in_or_app; right). apply Cbd. now left. } unfold bind. cbn [snd].
        destruct (x_malloc_ok _ _ O5) as (p6 & m6 & -> & L6 & [(pb & -> & O6)|(_ & S6 & _)]); [|elim NS; now apply LL5].
        exists m6, (Some (pb, zfirstn ln x)), ln. split; [reflexivity|]. split; [exact L6|].
        assert (LZ : zlen (zfirstn ln x) = ln) by (unfold zlen, zfirstn in *; rewrite firstn_length; lia).
        split; [|split; [discriminate|exact O6]]. cbn [brel]. rewrite LZ. split; [lia|]. rewrite B2.
        replace (zfirstn ln (zfirstn ln x)) with (zfirstn ln x) by (unfold zfirstn; rewrite firstn_firstn, Nat.min_id; reflexivity).
        destruct (zfirstn ln x) as [|b y]; [unfold zlen in LZ; cbn in LZ; lia|reflexivity].
    - exists m5, None, 0. split; [reflexivity|]. split; [eapply later_refl; eauto|]. split; [rewrite FB; reflexivity|]. split; [discriminate|exact O5]. }
  destruct G as (m6 & bd' & ln' & E6 & L6 & B6 & NB & O6).
  match goal with |- context [bind (if is_null bd || (ln =? 0) then ?u else ?w) _] => replace (if is_null bd || (ln =? 0) then u else w) with (Ret (m6, (Some bd', Some ln'))) by (symmetry; exact E6) end.
  unfold bind at 1. cbn iota beta.
  assert (EB : negb (is_null bd || (ln =? 0)) && match bd' with Some _ => false | None => true end = false).
  { destruct (is_null bd || (ln =? 0)) eqn:Q; cbn [negb andb]; [reflexivity|]. destruct bd'; [reflexivity|now elim NB]. }
  match goal with |- context [if negb ?u && ?w then _ else _] => replace (negb u && w) with false by (symmetry; destruct bd'; exact EB) end.
  unfold bind at 1. cbn iota.
  (* the websocket handle *)
  assert (LL6 : later m m6) by chain.
  rewrite (x_deref_ok _ m6 sw _ _ O6). 2:{ do 2 (apply in_or_app; right). right. do 4 (apply in_or_app; right). exact Csw. } unfold bind at 1. unfold bind at 1. cbn [fst snd w_protocol w_extensions w_list].
  rewrite (x_deref_ok _ m6 iw _ _ O6). 2:{ do 2 (apply in_or_app; right). right. do 3 (apply in_or_app; right). now left. } unfold bind at 1. cbn [fst snd w_list].
  destruct (x_dup_ok m6 wp _ O6) as (nwp & m7 & -> & L7 & O7 & T7). { intros x X. do 2 (apply in_or_app; right). right. do 4 (apply in_or_app; right). auto. } unfold bind at 1. cbn [fst snd].
  destruct T7 as [T7|(_ & S7 & _)]; [|elim NS; now apply LL6].
  destruct (x_dup_ok m7 we _ O7) as (nwe & m8 & -> & L8 & O8 & T8). { intros x X. do 3 (apply in_or_app; right). right. do 4 (apply in_or_app; right). auto. } unfold bind at 1. cbn [fst snd].
  destruct T8 as [T8|(_ & S8 & _)]; [|elim NS; now apply LL6, L7].
  do 2 eexists. exists (mkr (Some (ip, sp)) jh jk jv jl es' nr ck' nb bd' ln' iw nwp nwe pl None).
  split; [reflexivity|]. split; [chain|]. split.
  - eapply mowns_ext; [exact O8|]. intros x. rewrite !cnt_app, inner_mkr. unfold rb, w0. cbn [exb ptr_blocks]. repeat rewrite ?cnt_app, ?cnt_cons, ?cnt_nil. lia.
  - split; [reflexivity|]. do 16 eexists. split; [reflexivity|]. destruct F; constructor; auto.
    + cbn [ptext duplicate set_exts set_body ar_realm]. congruence.
    + cbn [duplicate set_exts set_body ar_socket]. congruence.
    + reflexivity.
Qed.

(** ** the program *)
Definition rlinked (dups : bool) (N : Z) (x : nat * hresp) (a : aresp) : Prop := rinv dups N (snd x) a.
Definition ginv (dups : bool) (N : Z) (s : rprog) (l : list aresp) : Prop :=
  Forall2 (rlinked dups N) (g_resps s) l /\ mowns (g_mem s) (rprog_blocks s).
Lemma rpick : forall dups N rs l i p r, Forall2 (rlinked dups N) rs l -> nth_error rs i = Some (p, r) ->
  exists A B la a lb, rs = A ++ (p, r) :: B /\ l = la ++ a :: lb /\ length A = i /\ length la = i /\
    Forall2 (rlinked dups N) A la /\ Forall2 (rlinked dups N) B lb /\ rinv dups N r a.
Proof.
  intros dups N rs l i p r F. revert i. induction F as [|x a rs l R F IH]; intros i H; [destruct i; discriminate|]. destruct i as [|i].
  - injection H as ->. exists [], rs, [], a, l. repeat (split; [first [reflexivity|assumption|constructor]|]). exact R.
  - destruct (IH i H) as (A & B & la & a' & lb & -> & -> & LA & LB & FA & FB & E).
    exists (x :: A), B, (a :: la), a', lb. repeat (split; [first [reflexivity|assumption|simpl; congruence|constructor; assumption]|]). assumption.
Qed.
Lemma rpick_none : forall dups N rs l i, Forall2 (rlinked dups N) rs l -> nth_error rs i = None -> nth_error l i = None.
Proof. intros dups N rs l i F H. apply nth_error_None in H. apply nth_error_None. rewrite <- (f2_length _ _ _ _ _ F). exact H. Qed.
Lemma rblocks_split : forall A p r B x, cnt (flat_map resp_blocks (A ++ (p, r) :: B)) x = cnt (inner r ++ (p :: flat_map resp_blocks A ++ flat_map resp_blocks B)) x.
Proof. intros. rewrite flat_map_app. cbn [flat_map]. rewrite resp_inner. repeat rewrite ?cnt_app, ?cnt_cons. lia. Qed.

Definition rstep_result (dups : bool) (N : Z) (s : rprog) (l : list aresp) (o : rop) : Prop :=
  exists c s' l', rstep s o = Ret (c, s') /\ later (g_mem s) (g_mem s') /\ ginv dups N s' l' /\
    ((c, l') = ar_step l o \/ (short (g_mem s) /\ ar_step_fail l o c l')).

Lemma rstep_ok : forall dups N s l o, ginv dups N s l -> rop_ok dups N o -> memory_ok o (m_new (g_mem s)) -> 0 <= N -> N + 1 < two64 -> rstep_result dups N s l o.
Proof.
  intros dups N s l o [F O] OK MO N0 NT.
  assert (STAY : later (g_mem s) (g_mem s)) by (eapply later_refl; eauto).
  assert (ON : forall i call, target o = i -> (ar_step l o = match nth_error l i with None => (U_ERROR_PARAMS, l) | Some a => (fst (ar_call a o), set_nth l i (snd (ar_call a o))) end) ->
    (forall c a a', nth_error l i = Some a -> ar_fail a o c a' -> ar_step_fail l o c (set_nth l i a')) ->
    (forall m r a fr, m_new m = m_new (g_mem s) -> rinv dups N r a -> mowns m (inner r ++ fr) -> rcall dups N m a fr o (call m r)) ->
    rstep s o = on_resp s i call -> rstep_result dups N s l o).
  { intros i call TI EM EF H ES. unfold rstep_result. rewrite ES. unfold on_resp. destruct (nth_error (g_resps s) i) as [[p r]|] eqn:E.
    - destruct (rpick dups N _ _ i p r F E) as (A & B & la & a & lb & ER & EL & LA & LB & FA & FB & I).
      unfold rprog_blocks in O. rewrite ER in O.
      assert (O1 : mowns (g_mem s) (inner r ++ (p :: flat_map resp_blocks A ++ flat_map resp_blocks B))) by (eapply mowns_ext; [exact O|intros x; apply rblocks_split]).
      rewrite (use_ok _ _ _ (proj1 O1)) by (apply in_or_app; right; now left). unfold bind at 1.
      destruct (H (g_mem s) r a _ eq_refl I O1) as (c & m' & r' & a' & -> & L & I' & O2 & CASE). unfold bind at 1.
      exists c. eexists. exists (la ++ a' :: lb). split; [reflexivity|]. split; [exact L|].
      assert (EN : nth_error l i = Some a) by (rewrite EL, <- LB; apply nth_mid).
      assert (ESN : forall z, set_nth l i z = la ++ z :: lb) by (intros z; rewrite EL, <- LB; apply set_nth_mid).
      split.
      + rewrite ER, <- LA, set_nth_mid. split.
        * cbn [g_resps]. apply Forall2_app; auto.
        * unfold rprog_blocks. cbn [g_mem g_resps]. eapply mowns_ext; [exact O2|intros x; symmetry; apply rblocks_split].
      + destruct CASE as [CASE|[SH CASE]].
        * left. rewrite EM, EN, ESN. rewrite <- CASE. reflexivity.
        * right. split; auto. rewrite <- ESN. eapply EF; eauto.
    - exists U_ERROR_PARAMS, s, l. split; [reflexivity|]. split; [exact STAY|]. split; [split; auto|]. left. rewrite EM. now rewrite (rpick_none dups N _ _ _ F E). }
  assert (FAILS : forall c a a', nth_error l (target o) = Some a -> ar_fail a o c a' -> ar_step_fail l o c (set_nth l (target o) a')).
  { intros c a a' EN AF. unfold ar_step_fail. destruct o; try (exists a, a'; auto); inversion AF. }
  destruct o as [|i t|i t|i k v|i k|i t|i b|i|i k v e d p|i p e|i n|i|i];
    try (refine (ON i _ eq_refl eq_refl FAILS _ eq_refl); intros m r a fr EN I O1).
  - (* RNew *)
    clear ON FAILS. unfold rstep_result. cbn [rstep ar_step ar_step_fail].
    destruct (x_malloc_ok _ _ O) as (p1 & m1 & E1 & L1 & [(p & -> & O1)|(-> & S1 & O1)]); rewrite E1.
    2:{ do 2 eexists. exists l. split; [reflexivity|]. split; [exact L1|]. split; [split; auto|]. right. auto. }
    assert (MO1 : ~ short m1 \/ hd true (m_new m1) = false).
    { cbn [memory_ok] in MO. rewrite (malloc_left _ _ _ E1). destruct MO as [MO|[MO|(z & MO)]].
      - left. intros S1. apply MO. now apply L1.
      - destruct (malloc_first _ MO) as (m' & E). rewrite E in E1. discriminate.
      - right. rewrite MO. reflexivity. }
    destruct (init_ok dups N m1 _ O1 MO1) as (c & m2 & r & -> & L2 & [(-> & NS & _ & I & O2)|(-> & S2 & O2)]); unfold bind at 1.
    + change (U_OK =? U_OK) with true. cbn iota. do 2 eexists. exists (l ++ [new_resp]). split; [reflexivity|]. split; [cbn [g_mem]; chain|]. split; [|left; reflexivity].
      split; cbn [g_mem g_resps]; [apply Forall2_app; auto|]. unfold rprog_blocks. cbn [g_resps]. rewrite flat_map_app. cbn [flat_map]. rewrite resp_inner, app_nil_r. unfold rprog_blocks in O2. mowns_by O2.
    + change (U_ERROR_MEMORY =? U_OK) with false. cbn iota. destruct (x_free_ok _ _ _ O2) as (m3 & -> & O3 & L3 & _). unfold bind at 1.
      do 2 eexists. exists l. split; [reflexivity|]. split; [cbn [g_mem]; chain|]. split; [split; auto|]. right. split; [now apply L1|auto].
  - apply protocol_call; auto.
  - apply realm_call; auto.
  - apply header_call; auto. intros z Z. cbn [rop_ok] in OK. subst v. apply OK.
  - apply unheader_call; auto.
  - apply text_call; auto.
  - apply bytes_call; auto.
  - apply empty_call; auto.
  - eapply cookie_call; eauto. rewrite EN. exact MO.
  - apply socket_call; auto. rewrite EN. exact MO.
  - apply extension_call; auto.
  - (* RDuplicate *)
    clear ON FAILS. unfold rstep_result. cbn [rstep ar_step ar_step_fail target]. destruct (nth_error (g_resps s) i) as [[p r]|] eqn:E.
    2:{ exists U_ERROR_PARAMS, s, l. split; [reflexivity|]. split; [exact STAY|]. split; [split; auto|]. left. now rewrite (rpick_none dups N _ _ _ F E). }
    destruct (rpick dups N _ _ i p r F E) as (A & B & la & a & lb & ER & EL & LA & LB & FA & FB & I).
    assert (IP : incl (resp_blocks (p, r)) (rprog_blocks s)) by (intros x X; unfold rprog_blocks; rewrite ER, flat_map_app; cbn [flat_map]; apply in_or_app; right; apply in_or_app; auto).
    rewrite (use_ok _ _ _ (proj1 O)) by (apply IP; now left). unfold bind at 1. unfold x_duplicate_resp.
    assert (EN : nth_error l i = Some a) by (rewrite EL, <- LB; apply nth_mid). rewrite EN.
    destruct (x_malloc_ok _ _ O) as (p1 & m1 & E1 & L1 & [(q & -> & O1)|(-> & S1 & O1)]); rewrite E1.
    2:{ unfold bind at 1. cbn [fst snd]. do 2 eexists. exists l. split; [reflexivity|]. split; [exact L1|]. split; [split; auto|]. right. auto. }
    assert (MO1 : ~ short m1 \/ hd true (m_new m1) = false).
    { cbn [memory_ok] in MO. rewrite (malloc_left _ _ _ E1). destruct MO as [MO|[MO|(z & MO)]].
      - left. intros S1. apply MO. now apply L1.
      - destruct (malloc_first _ MO) as (m' & E'). rewrite E' in E1. discriminate.
      - right. rewrite MO. reflexivity. }
    destruct (init_ok dups N m1 _ O1 MO1) as (c & m2 & r1 & -> & L2 & [(-> & NS & (ih & ik & iv & il & iw & pl & ->) & I1 & O2)|(-> & S2 & O2)]); unfold bind at 2.
    + change (U_OK =? U_OK) with true. cbn iota.
      destruct (copy_ok dups N m2 r a (q :: rprog_blocks s) ih ik iv il iw pl OK I N0 NT) as (c3 & m3 & r3 & -> & L3 & O3 & CASE).
      { intros S2. apply NS. now apply L2. } { exact O2. } { intros x X. right. apply IP. rewrite resp_inner. now right. }
      unfold bind at 2. destruct (ar_protocol a) as [sp|].
      * destruct CASE as [-> I3]. change (U_OK =? U_OK) with true. cbn iota. unfold bind at 1. cbn [fst snd].
        do 2 eexists. exists (l ++ [duplicate a]). split; [reflexivity|]. split; [cbn [g_mem]; chain|]. split; [|left; reflexivity].
        split; cbn [g_mem g_resps]; [apply Forall2_app; auto|]. unfold rprog_blocks. cbn [g_resps]. rewrite flat_map_app. cbn [flat_map]. rewrite resp_inner, app_nil_r. unfold rprog_blocks in O3. mowns_by O3.
      * destruct CASE as [-> (a' & I3)]. change (U_ERROR_MEMORY =? U_OK) with false. cbn iota.
        destruct (clean_full_ok dups N m3 q r3 a' (rprog_blocks s) I3) as (m4 & -> & O4 & L4); [rewrite resp_inner; mowns_by O3|]. unfold bind at 2. unfold bind at 1. cbn [fst snd].
        do 2 eexists. exists l. split; [reflexivity|]. split; [cbn [g_mem]; chain|]. split; [split; auto|]. left. reflexivity.
    + change (U_ERROR_MEMORY =? U_OK) with false. cbn iota. destruct (x_free_ok _ _ _ O2) as (m3 & -> & O3 & L3 & _). unfold bind at 2. unfold bind at 1. cbn [fst snd].
      do 2 eexists. exists l. split; [reflexivity|]. split; [cbn [g_mem]; chain|]. split; [split; auto|]. right. split; [now apply L1|auto].
  - (* RRelease *)
    clear ON FAILS. unfold rstep_result. cbn [rstep ar_step ar_step_fail target]. destruct (nth_error (g_resps s) i) as [[p r]|] eqn:E.
    2:{ exists U_ERROR_PARAMS, s, l. split; [reflexivity|]. split; [exact STAY|]. split; [split; auto|]. left. now rewrite (rpick_none dups N _ _ _ F E). }
    destruct (rpick dups N _ _ i p r F E) as (A & B & la & a & lb & ER & EL & LA & LB & FA & FB & I).
    assert (O1 : mowns (g_mem s) (resp_blocks (p, r) ++ (flat_map resp_blocks A ++ flat_map resp_blocks B))).
    { eapply mowns_ext; [exact O|]. intros x. unfold rprog_blocks. rewrite ER, flat_map_app. cbn [flat_map]. repeat rewrite ?cnt_app. lia. }
    rewrite (use_ok _ _ _ (proj1 O1)) by (apply in_or_app; left; now left). unfold bind at 1.
    destruct (clean_full_ok dups N _ p r a _ I O1) as (m1 & -> & O2 & L2). unfold bind at 1.
    do 2 eexists. exists (la ++ lb). split; [reflexivity|]. split; [exact L2|].
    split; [|left; rewrite EL, <- LB, nth_mid, drop_mid; reflexivity].
    rewrite ER, <- LA, drop_mid. split; cbn [g_mem g_resps]; [apply Forall2_app; auto|]. unfold rprog_blocks. cbn [g_resps]. rewrite flat_map_app. exact O2.
Qed.

Lemma rrun_ok : forall dups N ops s l, ginv dups N s l -> Forall (fun x => rop_ok dups N (snd x) /\ memory_ok (snd x) (fst x)) ops -> 0 <= N -> N + 1 < two64 ->
  exists cs s' l', rrun s ops = Ret (cs, s') /\ ar_means l ops cs l' /\ ginv dups N s' l'.
Proof.
  intros dups N. induction ops as [|[answers o] ops IH]; intros s l G F N0 NT; cbn [rrun].
  - exists [], s, l. split; [reflexivity|]. split; [constructor|exact G].
  - inversion F as [|? ? [OK MO] F']; subst. cbn [fst snd] in *.
    assert (G0 : ginv dups N (with_answers s answers) l).
    { destruct G as [G1 [G2 G3]]. split; [exact G1|]. split; [exact G2|reflexivity]. }
    destruct (rstep_ok dups N _ l o G0 OK MO N0 NT) as (c & s1 & l1 & -> & L & G1 & CASE). unfold bind at 1. cbn [fst snd].
    destruct (IH s1 l1 G1 F' N0 NT) as (cs & s2 & l2 & -> & M & G2). unfold bind at 1. cbn [fst snd].
    exists (c :: cs), s2, l2. split; [reflexivity|]. split; [|exact G2]. destruct CASE as [E|[SH A]].
    + pose proof (rm_ok l answers o ops cs l2) as H. rewrite <- E in H. cbn [fst snd] in H. now apply H.
    + eapply rm_fail; eauto.
Qed.

Lemma ginv_start : forall dups N, ginv dups N rstart [].
Proof. intros. split; [constructor|]. split; [|reflexivity]. split; [reflexivity|]. split; [|reflexivity]. intros x. change (0 <= 1)%nat. lia. Qed.

(** ** reading back *)
Lemma read_text_ok : forall m ids p, mowns m ids -> incl (ptr_blocks p) ids -> read_text m p = Ret (ptext p).
Proof. intros m ids [[i s]|] O C; [|reflexivity]. cbn [read_text ptext]. rewrite (x_deref_ok _ m i _ _ O) by (apply C; now left). reflexivity. Qed.
Lemma read_cookie_ok : forall m ids c, mowns m ids -> incl (cookie_blocks c) ids -> read_cookie m c = Ret (vcookie c).
Proof.
  intros m ids c O C. unfold read_cookie, vcookie. unfold cookie_blocks in C.
  rewrite (read_text_ok m ids (k_key c) O) by (intros x X; apply C; rewrite ?in_app_iff; auto). unfold bind at 1.
  rewrite (read_text_ok m ids (k_value c) O) by (intros x X; apply C; rewrite ?in_app_iff; auto). unfold bind at 1.
  rewrite (read_text_ok m ids (k_expires c) O) by (intros x X; apply C; rewrite ?in_app_iff; auto). unfold bind at 1.
  rewrite (read_text_ok m ids (k_domain c) O) by (intros x X; apply C; rewrite ?in_app_iff; auto). unfold bind at 1.
  rewrite (read_text_ok m ids (k_path c) O) by (intros x X; apply C; rewrite ?in_app_iff; auto 7). reflexivity.
Qed.
Lemma read_cookies_ok : forall m ids j extra cs pre, mowns m ids -> In j ids -> incl (flat_map cookie_blocks cs) ids ->
  read_cookies m (Some (j, pre ++ cs ++ extra)) (length pre) (length cs) = Ret (map vcookie cs).
Proof.
  intros m ids j extra. induction cs as [|c cs IH]; intros pre O IJ C; [reflexivity|]. cbn [length read_cookies map].
  rewrite (x_deref_ok _ m j _ _ O IJ). unfold bind at 1. cbn [snd]. cbn [app]. rewrite aget_app. unfold bind at 1.
  rewrite (read_cookie_ok m ids c O) by (intros x X; apply C; cbn [flat_map]; apply in_or_app; auto). unfold bind at 1.
  pose proof (IH (pre ++ [c]) O IJ) as H. rewrite <- app_assoc, app_length in H. cbn [app length] in H. rewrite Nat.add_1_r in H.
  match goal with |- context [read_cookies ?a1 ?b1 ?c1 ?d1] => replace (read_cookies a1 b1 c1 d1) with (Ret (map vcookie cs)) end.
  - reflexivity.
  - symmetry. apply H. intros x X. apply C. cbn [flat_map]. apply in_or_app. auto.
Qed.
Lemma read_exts_ok : forall m ids es, mowns m ids -> incl (flat_map ext_blocks (map Some es)) ids ->
  read_exts m (map Some es) = Ret (map (fun e : nat * hext => ptext (e_server (snd e))) es).
Proof.
  intros m ids es O. induction es as [|[i e] es IH]; intros C; [reflexivity|]. cbn [map read_exts].
  assert (CE : incl (ext_blocks (Some (i, e))) ids) by (intros x X; apply C; cbn [map flat_map]; apply in_or_app; auto).
  rewrite (x_deref_ok _ m i _ _ O) by (apply CE; now left). unfold bind at 1. cbn [snd].
  rewrite (read_text_ok m ids (e_server e) O) by (intros x X; apply CE; right; apply in_or_app; auto). unfold bind at 1.
  rewrite IH by (intros x X; apply C; cbn [map flat_map]; apply in_or_app; auto). reflexivity.
Qed.
Lemma read_map_ok : forall N m ids ik iv il es a, mowns m ids -> incl (fb ik iv il es) ids -> Forall2 (erel N) es a -> read_map m (mkf ik iv il es) = Ret a.
Proof.
  intros N m ids ik iv il es a O CF FR. unfold read_map. cbn [mkf f_keys f_values f_lengths].
  rewrite (x_deref_ok _ m ik _ ids O) by (apply CF; now left). unfold bind at 1.
  rewrite (x_deref_ok _ m iv _ ids O) by (apply CF; right; now left). unfold bind at 1.
  rewrite (x_deref_ok _ m il _ ids O) by (apply CF; right; right; now left). unfold bind at 1. cbn [snd].
  apply (read_entries_ok N m ids es a O); [|exact FR]. intros x X; apply CF; unfold fb; right; right; now right.
Qed.
Lemma incl_mkr : forall pr ih ik iv il es rl ck nb bd ln iw wp we pl ex ids,
  incl (inner (mkr pr ih ik iv il es rl ck nb bd ln iw wp we pl ex)) ids -> incl (rb pr ih ik iv il es rl ck bd iw wp we pl ex) ids.
Proof.
  intros pr ih ik iv il es rl ck nb bd ln iw wp we pl ex ids C x X. apply C.
  assert (H : (0 < cnt (rb pr ih ik iv il es rl ck bd iw wp we pl ex) x)%nat) by (unfold cnt; now apply count_occ_In).
  rewrite <- inner_mkr with (nb := nb) (ln := ln) in H. unfold cnt in H. now apply count_occ_In in H.
Qed.
Lemma read_resp_ok : forall dups N m ids p r a, mowns m ids -> incl (resp_blocks (p, r)) ids -> rinv dups N r a -> read_resp m (p, r) = Ret a.
Proof.
  intros dups N m ids p r a O C (pr & ih & ik & iv & il & es & rl & ck & nb & bd & ln & iw & wp & we & pl & ex & -> & F).
  unfold read_resp. cbn [fst snd]. rewrite (use_ok _ _ _ (proj1 O)) by (apply C; now left). unfold bind at 1.
  assert (C1 : incl (rb pr ih ik iv il es rl ck bd iw wp we pl ex) ids) by (eapply incl_mkr; intros x X; apply C; rewrite resp_inner; right; exact X).
  clear C. unfold rb in C1. members. unfold bind at 1.
  rewrite (read_text_ok m ids pr O) by (intros x X; apply C1; rewrite ?in_app_iff; auto). unfold bind at 1. unfold bind at 1.
  rewrite (read_text_ok m ids rl O) by (intros x X; apply C1; rewrite ?in_app_iff; auto). unfold bind at 1. unfold bind at 1.
  rewrite (x_deref_ok _ m ih _ _ O) by (apply C1; rewrite ?in_app_iff; right; left; now left). unfold bind at 1. cbn [snd].
  rewrite (read_map_ok N m ids ik iv il es (ar_header a) O) by (first [apply F|intros x X; apply C1; rewrite ?in_app_iff; right; left; now right]). unfold bind at 1. unfold bind at 1. unfold bind at 1.
  destruct F as [F1 F2 F3 F4 (cs & extra & EN & EC & _ & CK) FB F7 F8].
  assert (G : read_cookies m ck 0 nb = Ret (ar_cookies a)).
  { destruct ck as [[j arr]|].
    - destruct CK as (-> & _ & _). rewrite EN, <- EC. apply (read_cookies_ok m ids j extra cs [] O).
      + apply C1. rewrite ?in_app_iff. do 3 right. left. now left.
      + intros x X. apply C1. rewrite ?in_app_iff. do 3 right. left. cbn [ckb]. right. rewrite flat_map_app. apply in_or_app. auto.
    - subst cs. cbn in EN. subst nb. rewrite <- EC. reflexivity. }
  rewrite G. unfold bind at 1. unfold bind at 1. unfold bind at 1. clear G.
  assert (G : read_body m bd ln = Ret (ar_body a)).
  { destruct bd as [[j x]|]; cbn [read_body brel] in *; [|rewrite FB; reflexivity].
    rewrite (x_deref_ok _ m j _ _ O) by (apply C1; rewrite ?in_app_iff; do 4 right; left; now left). unfold bind. cbn [snd].
    destruct FB as [FB ->]. replace (zlen x <? ln) with false by (symmetry; apply Z.ltb_ge; lia). reflexivity. }
  rewrite G. unfold bind at 1. unfold bind at 1. clear G.
  rewrite (x_deref_ok _ m iw _ _ O) by (apply C1; rewrite ?in_app_iff; do 5 right; now left). unfold bind at 1. cbn [snd w_protocol w_extensions w_list].
  assert (CW : incl (iw :: ptr_blocks wp ++ ptr_blocks we ++ pl :: exb ex) ids) by (intros x X; apply C1; rewrite !in_app_iff in *; auto 10).
  rewrite (read_text_ok m ids wp O) by (intros x X; apply CW; right; apply in_or_app; auto). unfold bind at 1.
  rewrite (read_text_ok m ids we O) by (intros x X; apply CW; right; apply in_or_app; right; apply in_or_app; auto). unfold bind at 1.
  assert (CP : incl (pl :: exb ex) ids) by (intros x X; apply CW; right; apply in_or_app; right; apply in_or_app; auto).
  rewrite (x_deref_ok _ m pl _ _ O) by (apply CP; now left). unfold bind at 1. cbn [snd].
  assert (G : (match ex with None => Ret [] | Some _ => do a <- x_deref m ex; read_exts m (snd a) end) = Ret (ar_exts a)).
  { destruct ex as [[j arr]|]; cbn [exrel] in F8; [|rewrite F8; reflexivity]. destruct F8 as (xs & -> & ->).
    rewrite (x_deref_ok _ m j _ _ O) by (apply CP; right; now left). unfold bind. cbn [snd]. apply (read_exts_ok m ids xs O). intros x X. apply CP. right. right. exact X. }
  match goal with |- context [bind ?e _] => replace e with (Ret (ar_exts a)) by (symmetry; exact G) end.
  unfold bind. rewrite F7, F1, F2. destruct a. reflexivity.
Qed.
Lemma read_resps_ok : forall dups N m ids rs l, mowns m ids -> incl (flat_map resp_blocks rs) ids -> Forall2 (rlinked dups N) rs l -> read_resps m rs = Ret l.
Proof.
  intros dups N m ids rs l O C F. induction F as [|[p r] a rs l R F IH]; [reflexivity|]. cbn [read_resps].
  rewrite (read_resp_ok dups N m ids p r a O); [|intros x X; apply C; cbn [flat_map]; apply in_or_app; auto|exact R].
  unfold bind at 1. rewrite IH by (intros x X; apply C; cbn [flat_map]; apply in_or_app; auto). reflexivity.
Qed.

Lemma rrelease_all : forall dups N rs l s, ginv dups N s l -> g_resps s = rs ->
  exists cs s', rrun s (repeat ([], RRelease 0) (length rs)) = Ret (cs, s') /\ g_resps s' = [] /\ mowns (g_mem s') [] /\ Forall (eq U_OK) cs.
Proof.
  intros dups N. induction rs as [|[p r] rs IH]; intros l s [F O] E; cbn [length repeat rrun].
  - exists [], s. split; [reflexivity|]. split; [exact E|]. split; [|constructor]. unfold rprog_blocks in O. rewrite E in O. exact O.
  - cbn [rstep with_answers g_mem g_resps m_heap]. unfold rprog_blocks in O. rewrite E in *. cbn [nth_error]. inversion F as [|? a ? l' R F']; subst.
    assert (O1 : mowns (mk_mem (m_heap (g_mem s)) [] []) (resp_blocks (p, r) ++ flat_map resp_blocks rs)) by (split; [apply O|reflexivity]).
    rewrite (use_ok _ _ _ (proj1 O1)) by (now left). unfold bind at 2.
    destruct (clean_full_ok dups N _ p r a _ R O1) as (m1 & -> & O2 & L1). unfold bind at 2. unfold bind at 1. cbn [fst snd drop firstn skipn app].
    destruct (IH l' (mk_rprog m1 rs)) as (cs & s' & -> & E' & O' & FC); [split; [exact F'|exact O2]|reflexivity|].
    unfold bind at 1. cbn [fst snd]. exists (U_OK :: cs), s'. split; [reflexivity|]. split; [exact E'|]. split; [exact O'|]. constructor; auto.
Qed.
