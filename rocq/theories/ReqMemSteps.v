(** Proofs about the memory of requests (C98): requests that come in, whole runs. *)
From Coq Require Import ZArith Bool List Lia.
From Verif Require Import Base BaseFacts UMapModel UMapProofs OwnModel OwnSpec OwnProofs MapMemModel MapMemSpec MapMemProofs MapMemPut MapMemRun MapMemSteps
  RespMemModel RespMemSpec RespMemProofs RespMemSteps ReqMemModel ReqMemSpec ReqMemProofs ReqMemCalls ReqMemCopy.
Import ListNotations.
Open Scope Z_scope.

(** ** a request that comes in *)
Lemma ready_first : forall m, hd true (m_new m) = false \/ ~ In false (firstn 17 (m_new m)) -> forall i m1, x_malloc m = (Some i, m1) -> ready 16 m1.
Proof.
  intros m MO i m1 E. destruct MO as [MO|MO].
  - destruct (malloc_first _ MO) as (m' & E'). rewrite E' in E. discriminate.
  - unfold ready. rewrite (malloc_left _ _ _ E). destruct (m_new m) as [|b z]; [intros []|]. intros X. apply MO. right. exact X.
Qed.
Lemma uri_logger_ok : forall m uri path ids, mowns m ids -> (hd true (m_new m) = false \/ ~ In false (firstn 17 (m_new m))) ->
  exists m' o, x_uri_logger m uri path = Ret (m', o) /\ later m m' /\
    match o with
    | None => short m /\ mowns m' ids
    | Some (p, r) => exists u q fs, r = mkq [None; None; u; q; None; None; None; None; None; None; None] None fs None 0 None /\ ptext u = Some uri /\ ptext q = Some path /\
        length fs = 4%nat /\ Forall (fun x : nat * fmap => exists ik iv il, snd x = mkf ik iv il []) fs /\ mowns m' (ptr_blocks u ++ ptr_blocks q ++ mb fs ++ p :: ids)
    end.
Proof.
  intros m uri path ids O MO. unfold x_uri_logger.
  destruct (x_malloc_ok _ _ O) as (p0 & m1 & E1 & L1 & [(p & -> & O1)|(-> & S1 & O1)]); rewrite E1.
  2:{ do 2 eexists. split; [reflexivity|]. split; [exact L1|]. auto. }
  pose proof (ready_first m MO _ _ E1) as R1.
  destruct (init_req_ok 0 m1 _ O1 R1) as (m2 & fs & -> & L2 & _ & O2 & LF & FF). unfold bind at 1. change (negb (U_OK =? U_OK)) with false. cbn iota.
  destruct (x_strdup_ok m2 (Some uri) _ O2) as (u & m3 & -> & L3 & O3 & T3).
  destruct (x_strdup_ok m3 (Some path) _ O3) as (q & m4 & -> & L4 & O4 & T4).
  assert (LL : later m m4) by chain.
  match goal with |- context [with_texts ?a ?b] => change (with_texts a b) with (mkq [None; None; u; q; None; None; None; None; None; None; None] None fs None 0 None) end.
  destruct (is_null u || is_null q) eqn:NU.
  - assert (SH : short m).
    { destruct u; destruct q; try discriminate NU.
      - destruct T4 as [T4|(_ & S4 & _)]; [discriminate|now apply L1, L2, L3].
      - destruct T3 as [T3|(_ & S3 & _)]; [discriminate|now apply L1, L2].
      - destruct T3 as [T3|(_ & S3 & _)]; [discriminate|now apply L1, L2]. }
    destruct (clean_req_full_ok [None; None; u; q; None; None; None; None; None; None; None] None fs None 0 None p m4 ids) as (m5 & -> & O5 & L5); [reflexivity|now apply fresh_sound| |].
    { eapply mowns_ext; [exact O4|]. intros x. unfold qb, tb. cbn [flat_map ptr_blocks app]. repeat rewrite ?cnt_app, ?cnt_cons, ?cnt_nil. lia. }
    unfold bind at 1. do 2 eexists. split; [reflexivity|]. split; [chain|]. auto.
  - do 2 eexists. split; [reflexivity|]. split; [exact LL|]. exists u, q, fs. split; [reflexivity|].
    destruct u as [[iu su]|]; [|discriminate NU]. destruct q as [[iq sq]|]; [|discriminate NU].
    split; [destruct T3 as [T3|(X & _)]; [exact T3|discriminate]|]. split; [destruct T4 as [T4|(X & _)]; [exact T4|discriminate]|]. split; [exact LF|]. split; [exact FF|].
    cbn [ptr_blocks app] in *. mowns_by O4.
Qed.
Lemma incoming_ok : forall dups N m uri path cert version method address ids, mowns m ids -> (hd true (m_new m) = false \/ ~ In false (firstn 17 (m_new m))) -> 0 <= N -> cert <> Some None ->
  exists m' o, x_uri_logger m uri path = Ret (m', o) /\ later m m' /\
    match o with
    | None => short m /\ mowns m' ids
    | Some (p, r) => exists c m2 r2 a, x_first_call m' r cert version method address = Ret (c, (m2, r2)) /\ later m m2 /\ qinv dups N r2 a /\ mowns m2 (insides r2 ++ p :: ids) /\
        ((c = U_OK /\ a = incoming uri path cert version method address) \/
         (short m /\ c = incoming_result a /\ let b := incoming uri path cert version method address in
           some_missing (aq_texts b) (aq_texts a) /\ nth_error (aq_texts a) T_URL = Some (Some uri) /\ nth_error (aq_texts a) T_PATH = Some (Some path) /\
           (aq_addr a = aq_addr b \/ aq_addr a = None) /\ aq_maps a = aq_maps b /\ aq_body a = aq_body b /\ (aq_cert a = aq_cert b \/ aq_cert a = None)))
    end.
Proof.
  intros dups N m uri path cert version method address ids O MO N0 NC.
  destruct (uri_logger_ok m uri path ids O MO) as (m1 & o & E & L1 & H). exists m1, o. split; [exact E|]. split; [exact L1|].
  destruct o as [[p r]|]; [|exact H]. destruct H as (u & q & fs & -> & TU & TQ & LF & FF & O1). clear E.
  unfold x_first_call.
  assert (G : exists m2 ct, (match cert with
           | None => do c <- x_member (rq_cert (mkq [None; None; u; q; None; None; None; None; None; None; None] None fs None 0 None)); Ret (m1, c)
           | Some t => match x_malloc m1 with (None, m1) => Ret (m1, None) | (Some i, m1) => match t with Some pem => Ret (m1, Some (i, Some pem)) | None => do m2 <- x_free m1 (Some i); Ret (m2, Some (i, None)) end end end) = Ret (m2, ct) /\
      later m1 m2 /\ mowns m2 (ptr_blocks ct ++ ptr_blocks u ++ ptr_blocks q ++ mb fs ++ p :: ids) /\ (pval ct = cert \/ (short m /\ ct = None))).
  { destruct cert as [[pem|]|]; [|now elim NC|].
    - destruct (x_malloc_ok _ _ O1) as (p2 & m2 & -> & L2 & [(i & -> & O2)|(-> & S2 & O2)]).
      + do 2 eexists. split; [reflexivity|]. split; [exact L2|]. split; [exact O2|]. now left.
      + do 2 eexists. split; [reflexivity|]. split; [exact L2|]. split; [exact O2|]. right. split; [now apply L1|reflexivity].
    - do 2 eexists. split; [reflexivity|]. split; [eapply later_refl; eauto|]. split; [exact O1|]. now left. }
  destruct G as (m2 & ct & E2 & L2 & O2 & K2).
  match goal with |- context [bind ?e _] => replace e with (Ret (m2, ct)) by (symmetry; exact E2) end.
  unfold bind at 1. cbn [fst snd]. clear E2. assert (LL2 : later m m2) by chain.
  destruct (x_strdup_ok m2 (Some version) _ O2) as (v & m3 & -> & L3 & O3 & T3).
  destruct (x_strdup_ok m3 (Some method) _ O3) as (h & m4 & -> & L4 & O4 & T4). assert (LL4 : later m m4) by chain.
  destruct (x_malloc_ok _ _ O4) as (pa & m5 & -> & L5 & K5).
  assert (LL5 : later m m5) by chain.
  match goal with |- context [with_addr ?a ?b] => change (with_addr a b) with (mkq [v; h; u; q; None; None; None; None; None; None; None] (at_block pa address) fs None 0 ct) end.
  exists (match pa with Some _ => if is_null h then U_ERROR_MEMORY else U_OK | None => U_ERROR_MEMORY end), m5, (mkq [v; h; u; q; None; None; None; None; None; None; None] (at_block pa address) fs None 0 ct),
    (mk_areq [ptext v; ptext h; Some uri; Some path; None; None; None; None; None; None; None] (pval (at_block pa address)) (repeat [] 4) None (pval ct)).
  split; [reflexivity|]. split; [exact LL5|]. split; [|split].
  - six. pose proof (fresh_fit dups N fs N0 LF FF) as F0. destruct F0. constructor; auto. cbn [map]. rewrite TU, TQ. reflexivity.
  - assert (O5 : mowns m5 (ptr_blocks (at_block pa address) ++ ptr_blocks h ++ ptr_blocks v ++ ptr_blocks ct ++ ptr_blocks u ++ ptr_blocks q ++ mb fs ++ p :: ids)).
    { destruct K5 as [(i & -> & O5)|(-> & _ & O5)]; exact O5. }
    eapply mowns_ext; [exact O5|]. intros x. rewrite !cnt_app, insides_mkq. unfold qb, tb. cbn [flat_map ptr_blocks app]. repeat rewrite ?cnt_app, ?cnt_cons, ?cnt_nil. lia.
  - assert (D : (pval ct = cert /\ ptext v = Some version /\ ptext h = Some method /\ exists i, pa = Some i) \/
       (short m /\ (pval ct = cert \/ pval ct = None) /\ (ptext v = Some version \/ ptext v = None) /\ (ptext h = Some method \/ ptext h = None))).
    { assert (SH3 : ptext v = Some version \/ (short m /\ ptext v = None)) by (destruct T3 as [T3|(-> & S3 & _)]; [now left|right; split; [now apply LL2|reflexivity]]).
      assert (SH4 : ptext h = Some method \/ (short m /\ ptext h = None)) by (destruct T4 as [T4|(-> & S4 & _)]; [now left|right; split; [apply LL2; now apply L3|reflexivity]]).
      assert (SH5 : (exists i, pa = Some i) \/ short m) by (destruct K5 as [(i & -> & _)|(-> & S5 & _)]; [left; eauto|right; now apply LL4]).
      assert (K2' : pval ct = cert \/ (short m /\ pval ct = None)) by (destruct K2 as [K2|(S2 & ->)]; auto).
      clear - SH3 SH4 SH5 K2'. tauto. }
    assert (HN : is_null h = match ptext h with Some _ => false | None => true end) by (destruct h as [[]|]; reflexivity).
    assert (PN : pval (at_block pa address) = match pa with Some _ => Some address | None => None end) by (destruct pa; reflexivity).
    rewrite HN, PN. destruct D as [(-> & -> & -> & i & ->)|(SH & C1 & C2 & C3)].
    + left. split; reflexivity.
    + right. split; [exact SH|]. split; [|].
      * unfold incoming_result. cbn [aq_texts aq_addr nth_error T_VERB]. destruct (ptext h); destruct pa; reflexivity.
      * cbn [incoming aq_texts aq_addr aq_maps aq_body aq_cert]. split; [|].
        { unfold T_PROTOCOL, T_VERB, T_URL, T_PATH. cbn [repeat set_nth]. repeat (constructor; auto). }
        split; [reflexivity|]. split; [reflexivity|]. split; [destruct pa; auto|]. auto.
Qed.

(** ** a duplicate *)
Lemma duplicate_ok : forall N m s a ids, qinv true N s a -> 0 <= N -> N + 2 < two64 -> mowns m ids -> incl (insides s) ids ->
  (hd true (m_new m) = false \/ ~ In false (firstn 17 (m_new m))) ->
  exists m' o gone, x_duplicate_req m s = Ret (m', o) /\ later m m' /\
    match o with
    | None => mowns m' (gone ++ ids) /\ (length gone <= lost_cert (aq_cert a))%nat /\ (short m \/ (aq_cert a = Some None /\ length gone = 0%nat))
    | Some (p, r) => mowns m' (insides r ++ gone ++ p :: ids) /\ aq_cert a <> Some None /\ length gone = lost_cert (aq_cert a) /\
        exists txs, qinv true (N + 1) r (put_texts (duplicate_req a) txs) /\ (txs = aq_texts a \/ (short m /\ some_missing (aq_texts a) txs))
    end.
Proof.
  intros N m s a ids I N0 NT O C MO. unfold x_duplicate_req.
  destruct (x_malloc_ok _ _ O) as (p0 & m1 & E1 & L1 & [(p & -> & O1)|(-> & S1 & O1)]); rewrite E1.
  2:{ do 2 eexists. exists []. split; [reflexivity|]. split; [exact L1|]. split; [exact O1|]. split; [cbn; lia|]. now left. }
  pose proof (ready_first m MO _ _ E1) as R1.
  destruct (init_req_ok 0 m1 _ O1 R1) as (m2 & fs & -> & L2 & _ & O2 & LF & FF). unfold bind at 1. change (U_OK =? U_OK) with true. cbn iota.
  destruct (copy_req_ok N m2 s a fs (p :: ids) I N0 NT LF (fresh_sound _ FF) O2) as (c & m3 & gone & ts & ad & fs' & bd & ln & ct & -> & L3 & O3 & LT & SF & K).
  { intros x X. right. now apply C. }
  unfold bind at 1. assert (LL2 : later m m2) by chain. destruct K as [(-> & NC & LG & txs & F & T)|(NC & LG & K)].
  - change (U_OK =? U_OK) with true. cbn iota. do 2 eexists. exists gone. split; [reflexivity|]. split; [chain|]. cbn iota beta. split; [rewrite insides_mkq; exact O3|].
    split; [exact NC|]. split; [exact LG|]. exists txs. split; [six; exact F|]. destruct T as [T|(SH & T)]; [now left|]. right. split; [now apply LL2|exact T].
  - apply Z.eqb_neq in NC. rewrite NC.
    destruct (clean_req_full_ok ts ad fs' bd ln ct p m3 (gone ++ ids) LT SF) as (m4 & -> & O4 & L4); [mowns_by O3|].
    unfold bind at 1. do 2 eexists. exists gone. split; [reflexivity|]. split; [chain|]. split; [exact O4|]. split; [exact LG|]. destruct K as [K|K]; [left; now apply LL2|now right].
Qed.

(** ** the program *)
Definition qlinked (dups : bool) (N : Z) (x : nat * hreq) (a : areq) : Prop := qinv dups N (snd x) a.
Definition qpinv (dups : bool) (N : Z) (s : qprog) (l : list areq) (gone : list nat) : Prop :=
  Forall2 (qlinked dups N) (n_reqs s) l /\ mowns (n_mem s) (qprog_blocks s ++ gone).
Lemma qlinked_mono : forall dups N N' rs l, N <= N' -> Forall2 (qlinked dups N) rs l -> Forall2 (qlinked dups N') rs l.
Proof. intros dups N N' rs l L F. induction F; constructor; auto. eapply qinv_mono; eauto. Qed.
Lemma qpick : forall dups N rs l i p r, Forall2 (qlinked dups N) rs l -> nth_error rs i = Some (p, r) ->
  exists A B la a lb, rs = A ++ (p, r) :: B /\ l = la ++ a :: lb /\ length A = i /\ length la = i /\
    Forall2 (qlinked dups N) A la /\ Forall2 (qlinked dups N) B lb /\ qinv dups N r a.
Proof.
  intros dups N rs l i p r F. revert i. induction F as [|x a rs l R F IH]; intros i H; [destruct i; discriminate|]. destruct i as [|i].
  - injection H as ->. exists [], rs, [], a, l. repeat (split; [first [reflexivity|assumption|constructor]|]). exact R.
  - destruct (IH i H) as (A & B & la & a' & lb & -> & -> & LA & LB & FA & FB & E).
    exists (x :: A), B, (a :: la), a', lb. repeat (split; [first [reflexivity|assumption|simpl; congruence|constructor; assumption]|]). assumption.
Qed.
Lemma qpick_none : forall dups N rs l i, Forall2 (qlinked dups N) rs l -> nth_error rs i = None -> nth_error l i = None.
Proof. intros dups N rs l i F H. apply nth_error_None in H. apply nth_error_None. rewrite <- (f2_length _ _ _ _ _ F). exact H. Qed.
Lemma qblocks_split : forall A p r B x, cnt (flat_map req_blocks (A ++ (p, r) :: B)) x = (cnt (insides r) x + cnt (p :: flat_map req_blocks A ++ flat_map req_blocks B) x)%nat.
Proof. intros. rewrite flat_map_app. cbn [flat_map]. rewrite req_insides. repeat rewrite ?cnt_app, ?cnt_cons. lia. Qed.

Definition qstep_result (dups : bool) (N : Z) (s : qprog) (l : list areq) (gone : list nat) (o : qop) : Prop :=
  exists c s' l' more, qstep s o = Ret (c, s') /\ later (n_mem s) (n_mem s') /\ qpinv dups (N + 1) s' l' (more ++ gone) /\
    ((c, (l', length more)) = aq_step l o \/ (short (n_mem s) /\ aq_step_fail l o c l' (length more))).

Lemma qstep_ok : forall dups N s l gone o, qpinv dups N s l gone -> qop_ok dups N o -> q_memory_ok dups o (m_new (n_mem s)) -> 0 <= N -> N + 2 < two64 -> qstep_result dups N s l gone o.
Proof.
  intros dups N s l gone o [F O] OK MO N0 NT.
  assert (STAY : later (n_mem s) (n_mem s)) by (eapply later_refl; eauto).
  assert (FM : Forall2 (qlinked dups (N + 1)) (n_reqs s) l) by (eapply qlinked_mono; [|exact F]; lia).
  assert (ON : forall i call, q_target o = i -> (aq_step l o = match nth_error l i with None => (U_ERROR_PARAMS, (l, 0%nat)) | Some a => (fst (aq_call a o), (set_nth l i (fst (snd (aq_call a o))), snd (snd (aq_call a o)))) end) ->
    (forall c a a' n, nth_error l i = Some a -> aq_fail a o c a' n -> aq_step_fail l o c (set_nth l i a') n) ->
    (forall m r a fr, m_new m = m_new (n_mem s) -> qinv dups N r a -> mowns m (insides r ++ fr) -> qcall dups N m a fr o (call m r)) ->
    qstep s o = on_req s i call -> qstep_result dups N s l gone o).
  { intros i call TI EM EF H ES. unfold qstep_result. rewrite ES. unfold on_req. destruct (nth_error (n_reqs s) i) as [[p r]|] eqn:E.
    - destruct (qpick dups N _ _ i p r F E) as (A & B & la & a & lb & ER & EL & LA & LB & FA & FB & I).
      unfold qprog_blocks in O. rewrite ER in O.
      assert (O1 : mowns (n_mem s) (insides r ++ (p :: (flat_map req_blocks A ++ flat_map req_blocks B) ++ gone))).
      { eapply mowns_ext; [exact O|]. intros x. rewrite cnt_app, qblocks_split. repeat rewrite ?cnt_app, ?cnt_cons. lia. }
      rewrite (use_ok _ _ _ (proj1 O1)) by (apply in_or_app; right; now left). unfold bind at 1.
      destruct (H (n_mem s) r a _ eq_refl I O1) as (c & m' & r' & a' & more & -> & L & I' & O2 & CASE). unfold bind at 1.
      exists c. eexists. exists (la ++ a' :: lb), more. split; [reflexivity|]. split; [exact L|].
      assert (EN : nth_error l i = Some a) by (rewrite EL, <- LB; apply nth_mid).
      assert (ESN : forall z, set_nth l i z = la ++ z :: lb) by (intros z; rewrite EL, <- LB; apply set_nth_mid).
      split.
      + rewrite ER, <- LA, set_nth_mid. split.
        * cbn [n_reqs]. eapply qlinked_mono with (N := N); [lia|]. apply Forall2_app; auto.
        * unfold qprog_blocks. cbn [n_mem n_reqs]. eapply mowns_ext; [exact O2|]. intros x. rewrite (cnt_app (flat_map _ _)), qblocks_split. repeat rewrite ?cnt_app, ?cnt_cons. lia.
      + destruct CASE as [CASE|[SH CASE]].
        * left. rewrite EM, EN, ESN. rewrite <- CASE. reflexivity.
        * right. split; auto. rewrite <- ESN. eapply EF; eauto.
    - exists U_ERROR_PARAMS, s, l, []. split; [reflexivity|]. split; [exact STAY|]. split; [split; auto|]. left. rewrite EM. now rewrite (qpick_none dups N _ _ _ F E). }
  assert (FAILS : forall c a a' n, nth_error l (q_target o) = Some a -> aq_fail a o c a' n -> aq_step_fail l o c (set_nth l (q_target o) a') n).
  { intros c a a' n EN AF. unfold aq_step_fail. destruct o; try (exists a, a'; auto); inversion AF. }
  destruct o as [|uri path cert version method address|i k t|i k key v|i k key|i t|i b|i|i good pem|i|i];
    try (refine (ON i _ eq_refl eq_refl FAILS _ eq_refl); intros m r a fr EN I O1).
  - (* QNew *)
    clear ON FAILS. unfold qstep_result. cbn [qstep aq_step aq_step_fail].
    destruct (x_malloc_ok _ _ O) as (p1 & m1 & E1 & L1 & [(p & -> & O1)|(-> & S1 & O1)]); rewrite E1.
    2:{ do 2 eexists. exists l, []. split; [reflexivity|]. split; [exact L1|]. split; [split; auto|]. right. auto. }
    pose proof (ready_first _ MO _ _ E1) as R1.
    destruct (init_req_ok 0 m1 _ O1 R1) as (m2 & fs & -> & L2 & _ & O2 & LF & FF). unfold bind at 1. change (U_OK =? U_OK) with true. cbn iota.
    do 2 eexists. exists (l ++ [new_req]), []. split; [reflexivity|]. split; [cbn [n_mem]; chain|]. split; [|left; reflexivity].
    split; cbn [n_mem n_reqs].
    + apply Forall2_app; auto. constructor; [|constructor]. six. apply fresh_fit; auto; lia.
    + unfold qprog_blocks. cbn [n_reqs]. rewrite flat_map_app. cbn [flat_map]. rewrite app_nil_r.
      eapply mowns_ext; [exact O2|]. intros x. rewrite req_insides, insides_mkq. unfold qb, none11, qprog_blocks. cbn [tb repeat flat_map ptr_blocks app]. repeat rewrite ?cnt_app, ?cnt_cons, ?cnt_nil. lia.
  - (* QIncoming *)
    clear ON FAILS. unfold qstep_result. cbn [qstep aq_step]. cbn [qop_ok q_memory_ok] in OK, MO.
    destruct (incoming_ok dups (N + 1) (n_mem s) uri path cert version method address _ O MO) as (m1 & o & -> & L1 & H); [lia|exact OK|]. unfold bind at 1. cbn [fst snd].
    destruct o as [[p r]|].
    + destruct H as (c & m2 & r2 & a & -> & L2 & I & O2 & CASE). unfold bind at 1.
      exists c. eexists. exists (l ++ [a]), []. split; [reflexivity|]. split; [exact L2|]. split.
      * split; cbn [n_mem n_reqs]; [apply Forall2_app; auto|]. unfold qprog_blocks. cbn [n_reqs]. rewrite flat_map_app. cbn [flat_map]. rewrite req_insides, app_nil_r.
        eapply mowns_ext; [exact O2|]. intros x. unfold qprog_blocks. repeat rewrite ?cnt_app, ?cnt_cons, ?cnt_nil. lia.
      * destruct CASE as [(-> & ->)|(SH & CASE)]; [left; reflexivity|right]. split; [exact SH|]. cbn [aq_step_fail length]. split; [reflexivity|]. right. exists a. destruct CASE as [-> CASE]. auto.
    + destruct H as [SH O1]. do 2 eexists. exists l, []. split; [reflexivity|]. split; [exact L1|]. split; [split; auto|]. right. split; [exact SH|]. cbn [aq_step_fail length]. auto.
  - apply text_set_call; auto.
  - apply put_map_call; auto; [|lia]. intros z Z. cbn [qop_ok] in OK. subst v. apply OK.
  - apply remove_map_call; auto.
  - apply string_body_call; auto. cbn [q_memory_ok] in MO. unfold short. rewrite EN. exact MO.
  - apply binary_body_call; auto.
  - apply empty_body_call; auto.
  - apply cert_call; auto.
  - (* QDuplicate *)
    clear ON FAILS. unfold qstep_result. cbn [qstep aq_step aq_step_fail q_target]. cbn [qop_ok q_memory_ok] in OK, MO. destruct (nth_error (n_reqs s) i) as [[p r]|] eqn:E.
    2:{ exists U_ERROR_PARAMS, s, l, []. split; [reflexivity|]. split; [exact STAY|]. split; [split; auto|]. left. now rewrite (qpick_none dups N _ _ _ F E). }
    destruct (qpick dups N _ _ i p r F E) as (A & B & la & a & lb & ER & EL & LA & LB & FA & FB & I).
    assert (IP : incl (req_blocks (p, r)) (qprog_blocks s ++ gone)) by (intros x X; unfold qprog_blocks; rewrite ER, flat_map_app; cbn [flat_map]; apply in_or_app; left; apply in_or_app; right; apply in_or_app; auto).
    rewrite (use_ok _ _ _ (proj1 O)) by (apply IP; now left). unfold bind at 1.
    assert (EN : nth_error l i = Some a) by (rewrite EL, <- LB; apply nth_mid). rewrite EN. subst dups.
    destruct (duplicate_ok N (n_mem s) r a _ I N0 NT O) as (m1 & o & more & -> & L1 & H); [intros x X; apply IP; rewrite req_insides; now right|exact MO|].
    unfold bind at 1. cbn [fst snd]. destruct o as [[q r2]|].
    + destruct H as (O1 & NC & LG & txs & I2 & T). do 2 eexists. exists (l ++ [put_texts (duplicate_req a) txs]), more. split; [reflexivity|]. split; [exact L1|]. split.
      * split; cbn [n_mem n_reqs]; [apply Forall2_app; auto|]. unfold qprog_blocks. cbn [n_reqs]. rewrite flat_map_app. cbn [flat_map]. rewrite req_insides, app_nil_r.
        eapply mowns_ext; [exact O1|]. intros x. unfold qprog_blocks. repeat rewrite ?cnt_app, ?cnt_cons, ?cnt_nil. lia.
      * destruct T as [->|(SH & T)]; [left|right].
        -- rewrite LG. destruct (aq_cert a) as [[pem|]|]; [|now elim NC|]; reflexivity.
        -- split; [exact SH|]. exists a. split; [reflexivity|]. right. split; [exact NC|]. split; [reflexivity|]. split; [exact LG|]. eauto.
    + destruct H as (O1 & LG & K). do 2 eexists. exists l, more. split; [reflexivity|]. split; [exact L1|]. split.
      * split; [exact FM|]. cbn [n_mem]. eapply mowns_ext; [exact O1|]. intros x. unfold qprog_blocks. cbn [n_reqs]. repeat rewrite ?cnt_app. lia.
      * destruct K as [SH|(EC & L0)]; [right|left].
        -- split; [exact SH|]. exists a. split; [reflexivity|]. left. auto.
        -- rewrite EC, L0. reflexivity.
  - (* QRelease *)
    clear ON FAILS. unfold qstep_result. cbn [qstep aq_step aq_step_fail q_target]. destruct (nth_error (n_reqs s) i) as [[p r]|] eqn:E.
    2:{ exists U_ERROR_PARAMS, s, l, []. split; [reflexivity|]. split; [exact STAY|]. split; [split; auto|]. left. now rewrite (qpick_none dups N _ _ _ F E). }
    destruct (qpick dups N _ _ i p r F E) as (A & B & la & a & lb & ER & EL & LA & LB & FA & FB & I).
    assert (O1 : mowns (n_mem s) (req_blocks (p, r) ++ (flat_map req_blocks A ++ flat_map req_blocks B) ++ gone)).
    { eapply mowns_ext; [exact O|]. intros x. unfold qprog_blocks. rewrite ER, flat_map_app. cbn [flat_map]. repeat rewrite ?cnt_app. lia. }
    rewrite (use_ok _ _ _ (proj1 O1)) by (apply in_or_app; left; now left). unfold bind at 1.
    destruct (qinv_clean dups N _ p r a _ I O1) as (m1 & -> & O2 & L2). unfold bind at 1.
    do 2 eexists. exists (la ++ lb), []. split; [reflexivity|]. split; [exact L2|].
    split; [|left; rewrite EL, <- LB, nth_mid, drop_mid; reflexivity].
    rewrite ER, <- LA, drop_mid. split; cbn [n_mem n_reqs]; [eapply qlinked_mono with (N := N); [lia|]; apply Forall2_app; auto|]. unfold qprog_blocks. cbn [n_reqs]. rewrite flat_map_app. exact O2.
Qed.

Lemma qop_ok_mono : forall dups N N' o, N <= N' -> qop_ok dups N o -> qop_ok dups N' o.
Proof. intros dups N N' o L H. destruct o as [| | |i k key [v|]| | | | | | |]; auto. cbn in *. split; [apply H|]. destruct H. lia. Qed.
Lemma qrun_ok : forall dups ops N s l gone, qpinv dups N s l gone -> Forall (fun x => qop_ok dups N (snd x) /\ q_memory_ok dups (snd x) (fst x)) ops -> 0 <= N -> N + Z.of_nat (length ops) + 1 < two64 ->
  exists cs s' l' more, qrun s ops = Ret (cs, s') /\ aq_means l ops cs l' (length more) /\ qpinv dups (N + Z.of_nat (length ops)) s' l' (more ++ gone).
Proof.
  intros dups. induction ops as [|[answers o] ops IH]; intros N s l gone G F N0 NT; cbn [qrun].
  - exists [], s, l, []. split; [reflexivity|]. split; [constructor|]. cbn [length app]. now rewrite Z.add_0_r.
  - inversion F as [|? ? [OK MO] F']; subst. cbn [fst snd] in *. cbn [length] in NT |- *. rewrite Nat2Z.inj_succ in NT |- *.
    assert (G0 : qpinv dups N (q_answers s answers) l gone).
    { destruct G as [G1 [G2 G3]]. split; [exact G1|]. split; [exact G2|reflexivity]. }
    destruct (qstep_ok dups N _ l gone o G0 OK MO N0) as (c & s1 & l1 & m1 & -> & L & G1 & CASE); [lia|]. unfold bind at 1. cbn [fst snd].
    destruct (IH (N + 1) s1 l1 _ G1) as (cs & s2 & l2 & m2 & -> & M & G2); [|lia|lia|].
    { eapply Forall_impl; [|exact F']. intros [an op] [H1 H2]. split; [|exact H2]. eapply qop_ok_mono; [|exact H1]. lia. }
    unfold bind at 1. cbn [fst snd].
    exists (c :: cs), s2, l2, (m2 ++ m1). split; [reflexivity|]. split.
    + rewrite app_length, Nat.add_comm. destruct CASE as [E|[SH A]].
      * pose proof (qm_ok l answers o ops cs l2 (length m2)) as H. rewrite <- E in H. cbn [fst snd] in H. now apply H.
      * eapply qm_fail; eauto.
    + replace (N + Z.succ (Z.of_nat (length ops))) with (N + 1 + Z.of_nat (length ops)) by lia. rewrite <- app_assoc. exact G2.
Qed.

Lemma qpinv_start : forall dups N, qpinv dups N qstart [] [].
Proof. intros. split; [constructor|]. split; [|reflexivity]. split; [reflexivity|]. split; [|reflexivity]. intros x. change (0 <= 1)%nat. lia. Qed.

(** ** reading back *)
Lemma read_texts_ok : forall m ids ts, mowns m ids -> incl (tb ts) ids -> read_texts m (map Some ts) = Ret (map ptext ts).
Proof.
  intros m ids ts O. induction ts as [|t ts IH]; intros C; [reflexivity|]. cbn [map read_texts x_member]. unfold bind at 1.
  rewrite (read_text_ok m ids t O) by (intros x X; apply C; unfold tb; cbn [flat_map]; apply in_or_app; auto). unfold bind at 1.
  rewrite IH by (intros x X; apply C; unfold tb; cbn [flat_map]; apply in_or_app; auto). reflexivity.
Qed.
Lemma read_ptr_ok : forall A m ids (p : ptr A), mowns m ids -> incl (ptr_blocks p) ids -> read_ptr m p = Ret (pval p).
Proof. intros A m ids [[i x]|] O C; [|reflexivity]. cbn [read_ptr pval]. rewrite (x_deref_ok _ m i _ _ O) by (apply C; now left). reflexivity. Qed.
Lemma read_req_maps_ok : forall N m ids fs l, mowns m ids -> incl (mb fs) ids -> Forall2 (mrel N) fs l -> read_req_maps m (map (fun x => Some (Some x)) fs) = Ret l.
Proof.
  intros N m ids fs l O C F. induction F as [|[p f] a fs l R F IH]; [reflexivity|]. cbn [map read_req_maps x_member]. unfold bind at 1.
  destruct R as (ik & iv & il & es & E & FR & _). cbn [snd] in E. subst f.
  assert (CF : incl (p :: fb ik iv il es) ids).
  { intros x X. apply C. unfold mb. cbn [flat_map]. apply in_or_app. left. assert (H : (0 < cnt (p :: fb ik iv il es) x)%nat) by (unfold cnt; now apply count_occ_In). rewrite <- blocks_mkf in H. unfold cnt in H. now apply count_occ_In in H. }
  rewrite (x_deref_ok _ m p _ _ O) by (apply CF; now left). unfold bind at 1. cbn [snd].
  rewrite (read_map_ok N m ids ik iv il es a O) by (first [exact FR|intros x X; apply CF; now right]). unfold bind at 1.
  rewrite IH by (intros x X; apply C; unfold mb; cbn [flat_map]; apply in_or_app; auto). reflexivity.
Qed.
Lemma read_req_ok : forall dups N m ids p r a, mowns m ids -> incl (req_blocks (p, r)) ids -> qinv dups N r a -> read_req m (p, r) = Ret a.
Proof.
  intros dups N m ids p r a O C (ts & ad & fs & bd & ln & ct & -> & F).
  unfold read_req. cbn [fst snd]. rewrite (use_ok _ _ _ (proj1 O)) by (apply C; now left). unfold bind at 1.
  destruct (incl_mkq ts ad fs bd ln ct ids) as (CT & CA & CM & CB & CC); [intros x X; apply C; rewrite req_insides; now right|].
  qmembers. rewrite (read_texts_ok m ids ts O CT). unfold bind at 1. unfold bind at 1.
  rewrite (read_ptr_ok _ m ids ad O CA). unfold bind at 1. destruct F as [F1 F2 F3 F4 F5 F6 F7].
  rewrite (read_req_maps_ok N m ids fs _ O CM F5). unfold bind at 1. unfold bind at 1. unfold bind at 1.
  assert (G : read_body m bd ln = Ret (aq_body a)).
  { destruct bd as [[j x]|]; cbn [read_body qbody] in *; [|destruct F6 as [-> _]; reflexivity].
    rewrite (x_deref_ok _ m j _ _ O) by (apply CB; now left). unfold bind. cbn [snd].
    destruct F6 as [FB ->]. replace (zlen x <? ln) with false by (symmetry; apply Z.ltb_ge; lia). reflexivity. }
  rewrite G. unfold bind at 1. unfold bind at 1. rewrite (read_ptr_ok _ m ids ct O CC). unfold bind at 1. rewrite F3, F4, F7. destruct a. reflexivity.
Qed.
Lemma read_reqs_ok : forall dups N m ids rs l, mowns m ids -> incl (flat_map req_blocks rs) ids -> Forall2 (qlinked dups N) rs l -> read_reqs m rs = Ret l.
Proof.
  intros dups N m ids rs l O C F. induction F as [|[p r] a rs l R F IH]; [reflexivity|]. cbn [read_reqs].
  rewrite (read_req_ok dups N m ids p r a O); [|intros x X; apply C; cbn [flat_map]; apply in_or_app; auto|exact R].
  unfold bind at 1. rewrite IH by (intros x X; apply C; cbn [flat_map]; apply in_or_app; auto). reflexivity.
Qed.

Lemma qrelease_all : forall dups N rs l s gone, qpinv dups N s l gone -> n_reqs s = rs ->
  exists cs s', qrun s (repeat ([], QRelease 0) (length rs)) = Ret (cs, s') /\ n_reqs s' = [] /\ mowns (n_mem s') gone /\ Forall (eq U_OK) cs.
Proof.
  intros dups N. induction rs as [|[p r] rs IH]; intros l s gone [F O] E; cbn [length repeat qrun].
  - exists [], s. split; [reflexivity|]. split; [exact E|]. split; [|constructor]. unfold qprog_blocks in O. rewrite E in O. exact O.
  - cbn [qstep q_answers n_mem n_reqs m_heap]. unfold qprog_blocks in O. rewrite E in *. cbn [nth_error]. inversion F as [|? a ? l' R F']; subst.
    assert (O1 : mowns (mk_mem (m_heap (n_mem s)) [] []) (req_blocks (p, r) ++ (flat_map req_blocks rs ++ gone))).
    { split; [|reflexivity]. cbn [m_heap flat_map] in *. rewrite app_assoc. apply O. }
    rewrite (use_ok _ _ _ (proj1 O1)) by (now left). unfold bind at 2.
    destruct (qinv_clean dups N _ p r a _ R O1) as (m1 & -> & O2 & L1). unfold bind at 2. unfold bind at 1. cbn [fst snd drop firstn skipn app].
    destruct (IH l' (mk_qprog m1 rs) gone) as (cs & s' & -> & E' & O' & FC); [split; [exact F'|exact O2]|reflexivity|].
    unfold bind at 1. cbn [fst snd]. exists (U_OK :: cs), s'. split; [reflexivity|]. split; [exact E'|]. split; [exact O'|]. constructor; auto.
Qed.

(** ** no certificate, no block lost *)
Lemma in_set_nth : forall A (l : list A) i x y, In y (set_nth l i x) -> y = x \/ In y l.
Proof. intros A l. induction l as [|z l IH]; intros [|i] x y H; cbn in *; [contradiction|contradiction|destruct H; auto|destruct H as [H|H]; [auto|]]. apply IH in H. tauto. Qed.
Lemma in_drop : forall A (l : list A) i y, In y (drop i l) -> In y l.
Proof.
  intros A l i y H. unfold drop in H. apply in_app_or in H as [H|H].
  - rewrite <- (firstn_skipn i l). apply in_or_app. now left.
  - rewrite <- (firstn_skipn (Datatypes.S i) l). apply in_or_app. now right.
Qed.
Lemma no_cert_lost : forall ops l cs l' n, aq_means l ops cs l' n -> Forall (fun x => no_cert (snd x)) ops -> Forall (fun a => aq_cert a = None) l -> n = 0%nat.
Proof.
  induction ops as [|[an o] ops IH]; intros l cs l' n M F FL; inversion M; subst; [reflexivity| |]; inversion F as [|? ? NC F']; subst; cbn [snd] in NC.
  - match goal with H : aq_means _ ops _ _ _ |- _ => rename H into MM end.
    assert (G : Forall (fun a => aq_cert a = None) (fst (snd (aq_step l o))) /\ snd (snd (aq_step l o)) = 0%nat).
    { destruct o as [|uri path cert version method address|i k t|i k key v|i k key|i t|i b|i|i good pem|i|i]; cbn [aq_step q_target no_cert] in *; try contradiction.
      - split; [apply Forall_app; split; auto|reflexivity].
      - subst cert. split; [apply Forall_app; split; auto|reflexivity].
      - destruct (nth_error l i) as [a|] eqn:E; [|split; auto]. assert (AC : aq_cert a = None) by (rewrite Forall_forall in FL; eapply FL, nth_error_In; eauto).
        cbn [aq_call]. destruct (settable k); cbn [fst snd]; (split; [|reflexivity]); apply Forall_forall; intros y Y; rewrite Forall_forall in FL; apply in_set_nth in Y as [->|Y]; auto.
      - destruct (nth_error l i) as [a|] eqn:E; [|split; auto]. assert (AC : aq_cert a = None) by (rewrite Forall_forall in FL; eapply FL, nth_error_In; eauto).
        cbn [aq_call]. destruct (nth_error (aq_maps a) k); [destruct key|]; cbn [fst snd]; (split; [|reflexivity]); apply Forall_forall; intros y Y; rewrite Forall_forall in FL; apply in_set_nth in Y as [->|Y]; auto.
      - destruct (nth_error l i) as [a|] eqn:E; [|split; auto]. assert (AC : aq_cert a = None) by (rewrite Forall_forall in FL; eapply FL, nth_error_In; eauto).
        cbn [aq_call]. destruct (nth_error (aq_maps a) k); cbn [fst snd]; (split; [|reflexivity]); apply Forall_forall; intros y Y; rewrite Forall_forall in FL; apply in_set_nth in Y as [->|Y]; auto.
      - destruct (nth_error l i) as [a|] eqn:E; [|split; auto]. assert (AC : aq_cert a = None) by (rewrite Forall_forall in FL; eapply FL, nth_error_In; eauto).
        cbn [aq_call fst snd]; (split; [|reflexivity]); apply Forall_forall; intros y Y; rewrite Forall_forall in FL; apply in_set_nth in Y as [->|Y]; auto.
      - destruct (nth_error l i) as [a|] eqn:E; [|split; auto]. assert (AC : aq_cert a = None) by (rewrite Forall_forall in FL; eapply FL, nth_error_In; eauto).
        destruct b; cbn [aq_call fst snd]; (split; [|reflexivity]); apply Forall_forall; intros y Y; rewrite Forall_forall in FL; apply in_set_nth in Y as [->|Y]; auto.
      - destruct (nth_error l i) as [a|] eqn:E; [|split; auto]. assert (AC : aq_cert a = None) by (rewrite Forall_forall in FL; eapply FL, nth_error_In; eauto).
        cbn [aq_call fst snd]; (split; [|reflexivity]); apply Forall_forall; intros y Y; rewrite Forall_forall in FL; apply in_set_nth in Y as [->|Y]; auto.
      - destruct (nth_error l i) as [a|] eqn:E; [|split; auto]. assert (AC : aq_cert a = None) by (rewrite Forall_forall in FL; eapply FL, nth_error_In; eauto).
        rewrite AC. cbn [fst snd lost_cert]. split; [apply Forall_app; split; auto|reflexivity].
      - destruct (nth_error l i) as [a|] eqn:E; [|split; auto]. cbn [fst snd]. split; [|reflexivity]. apply Forall_forall. intros y Y. rewrite Forall_forall in FL. apply FL.
        eapply in_drop; eauto. }
    destruct G as [G1 G2]. rewrite G2. eapply IH; eauto.
  - match goal with H : aq_means _ ops _ _ _ |- _ => rename H into MM end. match goal with H : aq_step_fail _ _ _ _ _ |- _ => rename H into AF end.
    assert (G : Forall (fun a => aq_cert a = None) l1 /\ k = 0%nat).
    { destruct o; cbn [aq_step_fail q_target no_cert] in *; try contradiction;
        try (destruct AF as (a & a' & E & AF & ->); assert (AC : aq_cert a = None) by (rewrite Forall_forall in FL; eapply FL, nth_error_In; eauto);
             inversion AF; subst; (split; [|reflexivity]); apply Forall_forall; intros y Y; rewrite Forall_forall in FL; apply in_set_nth in Y as [->|Y]; auto; fail).
      - destruct AF as (_ & -> & ->). auto.
      - subst cert. destruct AF as (-> & [(_ & ->)|(a & _ & -> & _ & _ & _ & _ & _ & _ & AC)]); [auto|]. split; [|reflexivity]. apply Forall_app. split; auto. constructor; auto. cbn in AC. tauto.
      - destruct AF as (a & E & AF). assert (AC : aq_cert a = None) by (rewrite Forall_forall in FL; eapply FL, nth_error_In; eauto). rewrite AC in AF. cbn [lost_cert] in AF.
        destruct AF as [(_ & -> & LE)|(_ & _ & -> & ts & _ & ->)]; [split; [exact FL|lia]|]. split; [|reflexivity]. apply Forall_app. split; auto. }
    destruct G as [G1 ->]. cbn [Nat.add]. eapply IH; eauto.
Qed.
