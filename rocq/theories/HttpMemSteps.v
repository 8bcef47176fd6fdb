(** Proofs about the memory of requests that are sent (C107): the whole call. *)
From Coq Require Import String ZArith Bool List Lia.
From Verif Require Import Base BaseFacts UMapModel UMapProofs OwnModel OwnSpec OwnProofs MapMemModel MapMemSpec MapMemProofs MapMemPut MapMemRun MapMemSteps
  RespMemModel RespMemSpec RespMemProofs RespMemSteps ReqMemModel ReqMemSpec ReqMemProofs ReqMemCalls ReqMemCopy ReqMemSteps RecvMemModel RecvMemSpec RecvMemProofs RecvMemSteps
  HttpMemModel HttpMemSpec HttpMemProofs HttpMemLists.
From Verif Require SendModel ClientModel.
Import ListNotations.
Open Scope Z_scope.

(** ** the members of the request *)
Lemma text_there : forall dups N m r a ids k, qinv dups N r a -> mowns m ids -> incl (insides r) ids -> (k < 11)%nat ->
  exists p, x_at (rq_texts r) k = Ret p /\ x_string m p = Ret (txt (aq_texts a) k).
Proof.
  intros dups N m r a ids k I O C K. openq I. pose proof (q_eleven _ _ _ _ _ _ _ _ _ F) as LE. pose proof (q_texts _ _ _ _ _ _ _ _ _ F) as TX.
  destruct (nth_error ts k) as [p|] eqn:E; [|apply nth_error_None in E; lia].
  exists p. qmembers. pose proof (x_at_nth _ ts k) as XA. rewrite E in XA. split; [exact XA|]. rewrite (string_ok m p ids O).
  - f_equal. symmetry. unfold txt. apply nth_error_nth. rewrite <- TX, nth_error_map, E. reflexivity.
  - intros x X. apply C. rewrite insides_mkq. unfold qb. apply in_or_app. left. unfold tb. apply in_flat_map. exists p. split; [eapply nth_error_In; exact E|exact X].
Qed.
Lemma map_there : forall dups N m r a ids k, qinv dups N r a -> mowns m ids -> incl (insides r) ids -> (k < 4)%nat ->
  exists p ik iv il es, x_at (rq_maps r) k = Ret (Some (p, mkf ik iv il es)) /\ x_deref m (Some (p, mkf ik iv il es)) = Ret (p, mkf ik iv il es) /\ incl (fb ik iv il es) (insides r) /\
    Forall2 (erel N) es (nth k (aq_maps a) []) /\ NoDup (map fst (nth k (aq_maps a) [])).
Proof.
  intros dups N m r a ids k I O C K. openq I. pose proof (four_nth _ _ _ _ _ _ _ _ _ k F) as K4. replace (k <? 4)%nat with true in * by (symmetry; now apply Nat.ltb_lt).
  destruct K4 as (p & f & ik & iv & il & es & h & E1 & E2 & -> & FR & ND). rewrite (nth_error_nth _ _ _ E2).
  assert (CM : incl (map_blocks (p, mkf ik iv il es)) (insides (mkq ts ad fs bd ln ct))).
  { intros x X. rewrite insides_mkq. unfold qb. apply in_or_app. right. apply in_or_app. right. apply in_or_app. left. unfold mb. apply in_flat_map. exists (p, mkf ik iv il es). split; [eapply nth_error_In; exact E1|exact X]. }
  exists p, ik, iv, il, es. qmembers. split; [unfold x_at; rewrite nth_error_map, E1; reflexivity|]. split; [apply (x_deref_ok _ m p _ ids O), C, CM; now left|].
  split; [|auto]. intros x X. apply CM. apply cnt_in. apply cnt_in in X. rewrite map_blocks_fb. lia.
Qed.
Lemma case_there : forall N m ids ik iv il es a k, mowns m ids -> incl (fb ik iv il es) ids -> Forall2 (erel N) es a ->
  exists p t, x_get_case m (mkf ik iv il es) k = Ret p /\ x_text m p = Ret t /\ (t = a_field k a \/ (t = Some [] /\ a_field k a = None)).
Proof.
  intros N m ids ik iv il es h k O CF FR.
  unfold x_get_case. cbn [mkf f_keys f_values]. rewrite (x_deref_ok _ m ik _ ids O) by (apply CF; now left). unfold bind at 1. cbn [snd].
  assert (CE : incl (flat_map eblocks es) ids) by (intros x X; apply CF; unfold fb; right; right; now right).
  destruct (case_split N k es h FR) as [(q & e & q' & ap & x & old & aq & -> & -> & R & H & P1 & P2)|[P1 P2]].
  - assert (KE : snd (hk e) = x) by apply R. rewrite <- KE in H.
    pose proof (x_scan_null_hit m ids (fun y => str_caseeqb y k) q e q' 0 O CE P1 H) as SN. cbn [plus] in SN.
    rewrite SN. unfold bind at 1. rewrite (x_deref_ok _ m iv _ ids O) by (apply CF; right; now left). unfold bind at 1. cbn [snd]. rewrite (aget_map _ _ hv).
    rewrite a_field_hit by (try exact P2; now rewrite <- KE). destruct R as (_ & _ & [HL V] & _). cbn [snd] in *.
    destruct (hv e) as [[i b]|] eqn:HV.
    + subst b. do 2 eexists. split; [reflexivity|]. rewrite (block_text m ids i old O). 2:{ apply CE. apply in_flat_map. exists e. split; [apply in_elt|]. unfold eblocks. rewrite HV. right. now left. }
      split; [reflexivity|]. destruct old as [|c old]; [right; auto|left; reflexivity].
    + rewrite V. exists None, None. split; [reflexivity|]. split; [reflexivity|]. now left.
  - pose proof (x_scan_null_miss m ids (fun y => str_caseeqb y k) es 0 O CE P1) as SN. cbn [plus] in SN. rewrite SN. unfold bind at 1. rewrite a_field_miss by exact P2.
    exists None, None. split; [reflexivity|]. split; [reflexivity|]. now left.
Qed.
Lemma owns_again : forall m ids s, mowns m ids -> grows s -> mowns (again m s) ids.
Proof. exact again_owns. Qed.

(** ** the form *)
Definition typed (a : areq) : areq := put_maps a (set_nth (aq_maps a) M_HEADER (a_put (bs "Content-Type") (Some SendModel.form_type) (nth M_HEADER (aq_maps a) []))).
Lemma four_maps : forall dups N r a, qinv dups N r a -> length (aq_maps a) = 4%nat.
Proof. intros dups N r a I. openq I. destruct F as [F1 F2 F3 F4 F5 F6 F7]. rewrite <- F2. symmetry. eapply f2_length. exact F5. Qed.
Lemma form_ok : forall N c m r a fr, qinv true N r a -> mowns m (insides r ++ fr) -> 60 <= N -> N + 1 < two64 -> grows (l_form c) -> grows (l_type c) ->
  exists z m' r' a', x_form c m r = Ret (z, (m', r')) /\ mowns m' (insides r' ++ fr) /\ qinv true N r' a' /\
    match view (nth M_POST (aq_maps a) []) with
    | [] => z = U_OK /\ a' = a
    | l => (z = U_OK /\ exists t, grown (lacks (l_form c)) behind None (pieces [] l) t /\ a' = typed (put_body a t)) \/
           (z = U_ERROR_LIBCURL /\ (lacks (l_form c) \/ lacks (l_type c)))
    end.
Proof.
  intros N c m r a fr I O N0 NT GF GT. unfold x_form.
  destruct (map_there _ _ m r a _ M_POST I O (fun x X => in_or_app _ _ x (or_introl X))) as (p & ik & iv & il & es & EX & ED & CF & FR & ND); [unfold M_POST; lia|].
  rewrite EX. unfold bind at 1. rewrite ED. unfold bind at 1. cbn [snd mkf f_nb]. fold (mkf ik iv il es).
  destruct es as [|e es].
  - inversion FR as [E|]. cbn [length view map]. exists U_OK, m, r, a. auto.
  - cbn [length]. inversion FR as [|y0 x0 ys0 l0 R0 F0 E0 E1]. rewrite E1 in *. clear R0 F0.
    assert (V : view (x0 :: l0) <> []) by discriminate. rewrite E1 in V. set (h := nth M_POST (aq_maps a) []) in *.
    pose proof I as I0. openq I. qmembers. unfold bind at 1.
    set (rest := tb ts ++ ptr_blocks ad ++ mb fs ++ ptr_blocks ct ++ fr).
    assert (O0 : mowns m (ptr_blocks bd ++ rest)) by (unfold rest; qby O).
    destruct (x_free_ptr _ _ _ _ O0) as (m1 & EF & O1 & L1). rewrite EF. unfold bind at 1.
    assert (O1' : mowns (again m1 (l_form c)) (ptr_blocks (None : ptr str) ++ rest)) by (apply again_owns; assumption).
    assert (CF' : incl (fb ik iv il (e :: es)) rest).
    { assert (CM : incl (fb ik iv il (e :: es)) (mb fs)).
      { qmembers. unfold mkq in EX. cbn [rq_maps] in EX. unfold x_at in EX. rewrite nth_error_map in EX. destruct (nth_error fs M_POST) as [q|] eqn:EN; [|discriminate]. cbn in EX. injection EX as ->.
        intros w0 X. unfold mb. apply in_flat_map. exists (p, mkf ik iv il (e :: es)). split; [eapply nth_error_In; exact EN|]. apply cnt_in. apply cnt_in in X. rewrite map_blocks_fb. lia. }
      intros w0 X. unfold rest. rewrite !in_app_iff. auto. }
    destruct (all_pairs_ok N ik iv il (e :: es) h rest _ [] None FR ND CF' O1') as (z & m2 & t & EP & L2 & O2 & CASE). rewrite EP. unfold bind at 1.
    set (b := body_of_text t). cbn [fst snd].
    assert (Q1 : qinv true N (mkq ts ad fs (fst b) (snd b) ct) (put_body a (ptext t))).
    { six. destruct F as [F1 F2 F3 F4 F5 F6 F7]. constructor; auto. cbn [put_body aq_body]. unfold b, body_of_text, qbody. destruct t as [[i s]|]; cbn [fst snd ptext].
      - split; [rewrite zlen_app; change (zlen [0]) with 1; pose proof (zlen_nonneg _ s); lia|]. f_equal. symmetry. apply zfirstn_app_exact. reflexivity.
      - auto. }
    assert (O2' : mowns m2 (insides (mkq ts ad fs (fst b) (snd b) ct) ++ fr)).
    { eapply mowns_ext; [exact O2|]. intros x. rewrite cnt_app, insides_mkq. unfold qb, rest. replace (ptr_blocks (fst b)) with (ptr_blocks t) by (unfold b, body_of_text; destruct t as [[i s]|]; reflexivity). repeat rewrite cnt_app. lia. }
    destruct CASE as [(-> & G)|(-> & SH)].
    + change (U_OK =? U_OK) with true. cbn iota.
      assert (O3 : mowns (again m2 (l_type c)) (insides (mkq ts ad fs (fst b) (snd b) ct) ++ fr)) by (apply again_owns; assumption).
      destruct (put_map_call true N (again m2 (l_type c)) _ _ fr 0 M_HEADER (bs "Content-Type") (Some SendModel.form_type) Q1 O3) as (cc & m3 & r3 & a3 & gone & EC & L3 & Q3 & O4 & K); auto; try lia.
      { intros s E. injection E as <-. change (zlen SendModel.form_type + 1) with 34. lia. }
      change (with_req_body _ (fst b) (snd b)) with (mkq ts ad fs (fst b) (snd b) ct). fold (mkq ts ad fs (fst b) (snd b) ct). unfold mkq in EC at 1. unfold mkq. rewrite EC. unfold bind at 1. cbn [fst snd].
      destruct (view h) as [|v0 vl] eqn:EV; [contradiction|].
      destruct K as [K|(SH & K)].
      * cbn [aq_call] in K. change (nth_error (aq_maps (put_body a (ptext t))) M_HEADER) with (nth_error (aq_maps a) M_HEADER) in K.
        pose proof (four_maps _ _ _ _ I0) as L4. destruct (nth_error (aq_maps a) M_HEADER) as [hh|] eqn:EH; [|apply nth_error_None in EH; unfold M_HEADER in EH; lia].
        change (bs "Content-Type") with (67 :: bs "ontent-Type") in K at 1. cbn iota in K. injection K as -> -> LG. destruct gone; [|discriminate LG]. cbn [app] in O4.
        do 4 eexists. split; [reflexivity|]. split; [exact O4|]. split; [exact Q3|]. left. split; [reflexivity|]. exists (ptext t). split; [exact G|].
        unfold typed. cbn [put_body aq_maps]. now rewrite (nth_error_nth _ _ _ EH).
      * inversion K as [|? ? ? ? K0 K1 K2 K3| | |]; subst. destruct gone; [|discriminate]. cbn [app] in O4. change (U_ERROR_MEMORY =? U_OK) with false. cbn iota.
        do 4 eexists. split; [reflexivity|]. split; [exact O4|]. split; [exact Q3|]. right. split; [reflexivity|]. right. exact SH.
    + change (U_ERROR_LIBCURL =? U_OK) with false. cbn iota. destruct (view h) as [|v0 vl] eqn:EV; [contradiction|].
      do 4 eexists. split; [reflexivity|]. split; [exact O2'|]. split; [exact Q1|]. right. split; [reflexivity|]. left. exact SH.
Qed.
Lemma sent_body_ok : forall N m r a ids, qinv true N r a -> mowns m ids -> incl (insides r) ids -> x_sent_body m r = Ret (nonempty (aq_body a)).
Proof.
  intros N m r a ids I O C. openq I. unfold x_sent_body. qmembers. unfold bind at 1. unfold bind at 1. pose proof (q_body _ _ _ _ _ _ _ _ _ F) as B. unfold qbody in B.
  destruct bd as [[i x]|].
  - destruct B as (B1 & ->). destruct (ln =? 0) eqn:E.
    + apply Z.eqb_eq in E. subst ln. reflexivity.
    + apply Z.eqb_neq in E. rewrite (x_deref_ok _ m i x ids O). 2:{ apply C. rewrite insides_mkq. unfold qb. rewrite !in_app_iff. right. right. right. left. now left. }
      unfold bind at 1. cbn [snd]. replace (zlen x <? ln) with false by (symmetry; apply Z.ltb_ge; lia).
      destruct (zfirstn ln x) as [|y l] eqn:Z; [|reflexivity]. exfalso. assert (H : zlen (zfirstn ln x) = ln) by (apply zlen_zfirstn; lia). rewrite Z in H. change (zlen []) with 0 in H. lia.
  - destruct B as (-> & B). rewrite B by reflexivity. reflexivity.
Qed.
