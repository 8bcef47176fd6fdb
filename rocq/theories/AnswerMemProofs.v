(** Proofs about the memory of the answers (C104): the callbacks, the headers and cookies, the body. *)
From Coq Require Import ZArith Bool List Lia.
From Verif Require Import Base BaseFacts UMapModel UMapProofs OwnModel OwnSpec OwnProofs MapMemModel MapMemSpec MapMemProofs MapMemPut MapMemRun MapMemSteps
  RespMemModel RespMemSpec RespMemProofs RespMemCalls RespMemCookie RespMemSteps AnswerMemModel AnswerMemSpec.
Import ListNotations.
Open Scope Z_scope.

Lemma answers_owns : forall m a ids, mowns m ids -> mowns (set_answers m a) ids.
Proof. intros m a ids [O _]. split; [exact O|reflexivity]. Qed.

Definition dinv (N : Z) (d : dresp) (b : adresp) : Prop :=
  rinv false N (d_resp d) (b_resp b) /\ d_status d = b_status b /\ d_stream d = b_stream b /\ d_shared d = b_shared b.

Lemma headers_call_eq : forall N m r a call, rinv false N r a -> x_headers_call m r call = x_on_header m r call.
Proof. intros N m r a call I. openr I. reflexivity. Qed.

(** ** the callbacks *)
Definition cop_result (N : Z) (m : mem) (d : dresp) (b : adresp) (fr : list nat) (o : cop) : Prop :=
  exists c m' d' a, x_cop m d o = Ret (c, replaced o b, (m', d')) /\ later m m' /\ d_id d' = d_id d /\ dinv N d' (wrote o c b a) /\
    mowns m' (inner (d_resp d') ++ fr) /\
    (meaning (b_resp b) o = (c, a) \/ (short m /\ exists r, as_rop o = Some r /\ ar_fail (b_resp b) r c a)).

Lemma x_cop_ok : forall N m d b fr o, dinv N d b -> mowns m (inner (d_resp d) ++ fr) -> In (d_id d) fr -> cop_ok N o (m_new m) -> 0 <= N -> N + 1 < two64 ->
  cop_result N m d b fr o.
Proof.
  intros N m d b fr o (I & ES & ET & EH) O ID OK N0 NT. unfold cop_result, x_cop.
  rewrite (use_ok _ _ _ (proj1 O)) by (apply in_or_app; auto). unfold bind at 1. cbv zeta.
  assert (G : forall r res, as_rop o = Some r -> rcall false N m (b_resp b) fr r res ->
     exists c m' r' a', res = Ret (c, (m', r')) /\ later m m' /\ rinv false N r' a' /\ mowns m' (inner r' ++ fr) /\
       (meaning (b_resp b) o = (c, a') \/ (short m /\ exists r, as_rop o = Some r /\ ar_fail (b_resp b) r c a'))).
  { intros r res ER (c & m' & r' & a' & E & L & I' & O' & CASE). exists c, m', r', a'. repeat (split; [assumption|]). unfold meaning. rewrite ER.
    destruct CASE as [CASE|[S F]]; [left; congruence|right]. split; auto. exists r. auto. }
  destruct o as [s|k v|k|status s|status s|status|status data|k v e dm p|data free]; cbn [as_rop] in G; unfold cop_ok in OK; cbn [as_rop] in OK;
    try (match type of OK with _ /\ _ => destruct OK as [OK MO] end).
  - destruct (G _ _ eq_refl (realm_call false N m _ _ fr 0 s I O)) as (c & m' & r' & a' & -> & L & I' & O' & CASE). unfold bind.
    exists c, m', (with_resp d r'), a'. split; [reflexivity|]. split; [exact L|]. split; [reflexivity|]. split; [split; [exact I'|auto]|]. split; [exact O'|exact CASE].
  - rewrite (headers_call_eq N m _ _ _ I).
    destruct (G _ _ eq_refl (header_call false N m _ _ fr 0 k v I O ltac:(intros x ->; apply OK) N0 NT)) as (c & m' & r' & a' & -> & L & I' & O' & CASE). unfold bind.
    exists c, m', (with_resp d r'), a'. split; [reflexivity|]. split; [exact L|]. split; [reflexivity|]. split; [split; [exact I'|auto]|]. split; [exact O'|exact CASE].
  - rewrite (headers_call_eq N m _ _ _ I).
    destruct (G _ _ eq_refl (unheader_call false N m _ _ fr 0 k I O)) as (c & m' & r' & a' & E & L & I' & O' & CASE).
    change (fun x : str => str_eqb x k) with (matches false k). rewrite E. unfold bind.
    exists c, m', (with_resp d r'), a'. split; [reflexivity|]. split; [exact L|]. split; [reflexivity|]. split; [split; [exact I'|auto]|]. split; [exact O'|exact CASE].
  - destruct (G _ _ eq_refl (text_call false N m _ _ fr 0 s I O)) as (c & m' & r' & a' & -> & L & I' & O' & CASE). unfold bind.
    exists c, m', (if c =? U_OK then with_status (with_resp d r') status else with_resp d r'), a'. split; [reflexivity|]. split; [exact L|].
    unfold dinv. cbn [wrote b_resp b_status b_stream b_shared]. destruct (c =? U_OK); cbn [with_status with_resp d_id d_resp d_status d_stream d_shared]; auto 8.
  - destruct (G _ _ eq_refl (bytes_call false N m _ _ fr 0 s I O)) as (c & m' & r' & a' & -> & L & I' & O' & CASE). unfold bind.
    exists c, m', (if c =? U_OK then with_status (with_resp d r') status else with_resp d r'), a'. split; [reflexivity|]. split; [exact L|].
    unfold dinv. cbn [wrote b_resp b_status b_stream b_shared]. destruct (c =? U_OK); cbn [with_status with_resp d_id d_resp d_status d_stream d_shared]; auto 8.
  - destruct (G _ _ eq_refl (empty_call false N m _ _ fr 0 I O)) as (c & m' & r' & a' & -> & L & I' & O' & CASE). unfold bind.
    exists c, m', (if c =? U_OK then with_status (with_resp d r') status else with_resp d r'), a'. split; [reflexivity|]. split; [exact L|].
    unfold dinv. cbn [wrote b_resp b_status b_stream b_shared]. destruct (c =? U_OK); cbn [with_status with_resp d_id d_resp d_status d_stream d_shared]; auto 8.
  - destruct (G _ _ eq_refl (empty_call false N m _ _ fr 0 I O)) as (c & m' & r' & a' & -> & L & I' & O' & CASE). unfold bind.
    do 3 eexists. exists a'. split; [reflexivity|]. split; [exact L|]. unfold dinv. cbn [wrote b_resp b_status b_stream b_shared d_id d_resp d_status d_stream d_shared]. auto 8.
  - destruct (G _ _ eq_refl (cookie_call false N N m _ _ fr 0 k v e dm p I O OK MO)) as (c & m' & r' & a' & -> & L & I' & O' & CASE). unfold bind.
    exists c, m', (with_resp d r'), a'. split; [reflexivity|]. split; [exact L|]. split; [reflexivity|]. split; [split; [exact I'|auto]|]. split; [exact O'|exact CASE].
  - do 3 eexists. exists (b_resp b). split; [cbn [replaced]; unfold owned; rewrite <- EH; reflexivity|]. split; [eapply later_refl; eauto|].
    unfold dinv. cbn [wrote b_resp b_status b_stream b_shared d_id d_resp d_status d_stream d_shared]. split; [reflexivity|]. split; [auto|]. split; [exact O|]. left. reflexivity.
Qed.

Lemma x_callback_ok : forall N fr p m d b, dinv N d b -> mowns m (inner (d_resp d) ++ fr) -> In (d_id d) fr -> callback_ok N p -> 0 <= N -> N + 1 < two64 ->
  exists code log m' d' b', x_callback m d p = Ret (code, log, (m', d')) /\ plays b p code log b' /\ d_id d' = d_id d /\ dinv N d' b' /\ mowns m' (inner (d_resp d') ++ fr).
Proof.
  intros N fr. induction p as [code|answers o next IH]; intros m d b D O ID OK N0 NT; cbn [x_callback].
  - exists code, [], m, d, b. split; [reflexivity|]. split; [constructor|]. auto.
  - cbn [callback_ok] in OK. destruct OK as [OK1 OK2].
    destruct (x_cop_ok N (set_answers m answers) d b fr o D (answers_owns _ _ _ O) ID OK1 N0 NT) as (c & m1 & d1 & a & -> & L & E1 & D1 & O1 & CASE). unfold bind at 1.
    destruct (IH c m1 d1 _ D1 O1 ltac:(rewrite E1; exact ID) (OK2 c) N0 NT) as (code & log & m2 & d2 & b2 & -> & P & E2 & D2 & O2). unfold bind.
    exists code, (replaced o b ++ log), m2, d2, b2. split; [reflexivity|]. split; [|rewrite E2; auto].
    destruct CASE as [M|(S & r & R & F)]; [eapply pl_call; eauto|eapply pl_fail; eauto].
Qed.

(** ** the headers *)
Lemma header_loop_ok : forall N accept sk sv sl asuf suf m pre apre ids, mowns m ids -> incl (fb sk sv sl (pre ++ suf)) ids ->
  Forall2 (erel N) pre apre -> Forall2 (erel N) suf asuf -> NoDup (map fst (apre ++ asuf)) ->
  x_header_loop m (mkf sk sv sl (pre ++ suf)) accept (map (fun e => Some (hk e)) suf ++ [None]) =
    Ret (forallb (fun e => match a_text (snd e) with Some t => accept (fst e) t | None => true end) asuf).
Proof.
  intros N accept sk sv sl. induction asuf as [|[k v] asuf IH]; intros suf m pre apre ids O C Fp Fs ND; inversion Fs as [|e x suf' ? Fe Fs' E1 E2]; subst.
  - reflexivity.
  - cbn [map app x_header_loop forallb fst snd]. destruct (nodup_split N pre e apre k v asuf Fp Fe ND) as (P1 & P2 & P3 & PL).
    destruct (hk e) as [ie se] eqn:HE. cbn [snd] in P3. apply str_eqb_eq in P3. subst se.
    assert (CE : incl (eblocks e) ids).
    { intros x X. apply C. unfold fb. right. right. right. apply (eb_in e); [apply in_elt|exact X]. }
    rewrite (x_deref_ok _ m ie _ _ O) by (apply CE; unfold eblocks; rewrite HE; now left). unfold bind at 1. cbn [snd].
    rewrite (x_get_ok m _ sk sv sl pre e suf' k O C P1) by (rewrite HE; apply str_eqb_refl). unfold bind at 1.
    rewrite (source_ok N m _ e k v O CE Fe). unfold bind at 1.
    rewrite (source_text v). unfold bind at 1.
    specialize (IH suf' m (pre ++ [e]) (apre ++ [(k, v)]) ids O). rewrite <- !app_assoc in IH. cbn [app] in IH.
    specialize (IH C ltac:(apply Forall2_app; auto) Fs' ND). cbn [fst] in *.
    destruct (a_text v) as [t|]; [|cbn [andb]; exact IH]. destruct (accept k t); cbn [andb]; [exact IH|reflexivity].
Qed.
Lemma set_headers_ok : forall N m r a accept ids, rinv false N r a -> mowns m ids -> incl (inner r) ids ->
  x_set_headers m r accept = Ret (forallb (fun e => match a_text (snd e) with Some t => accept (fst e) t | None => true end) (ar_header a)).
Proof.
  intros N m r a accept ids I O C. openr I. apply incl_mkr in C. unfold rb in C. unfold x_set_headers. members. unfold bind at 1.
  rewrite (x_deref_ok _ m ih _ ids O) by (apply C; rewrite ?in_app_iff; right; left; now left). unfold bind at 1. cbn [snd mkf f_keys].
  rewrite (x_deref_ok _ m ik _ ids O) by (apply C; rewrite ?in_app_iff; right; left; right; now left). unfold bind at 1. cbn [snd].
  apply (header_loop_ok N accept ik iv il (ar_header a) es m [] [] ids O); [|constructor|apply F|apply F].
  cbn [app]. intros x X. apply C. rewrite ?in_app_iff. right. left. now right.
Qed.

(** ** the headers of the cookies *)
Definition gb (l : list (ptr unit)) : list nat := flat_map ptr_blocks l.
Lemma gb_app : forall a b, gb (a ++ b) = gb a ++ gb b.
Proof. intros. apply flat_map_app. Qed.
Lemma x_free_all_ok : forall l m ids, mowns m (gb l ++ ids) -> exists m', x_free_all m l = Ret m' /\ mowns m' ids /\ later m m'.
Proof.
  induction l as [|p l IH]; intros m ids O; cbn [x_free_all].
  - exists m. split; [reflexivity|]. split; [exact O|]. eapply later_refl; eauto.
  - unfold gb in O. cbn [flat_map] in O. rewrite <- app_assoc in O. destruct (x_free_ptr _ _ _ _ O) as (m1 & -> & O1 & L1). unfold bind at 1.
    destruct (IH m1 ids O1) as (m2 & -> & O2 & L2). exists m2. split; [reflexivity|]. split; [exact O2|]. chain.
Qed.
Definition attr_in (ids : list nat) (a : attr) : Prop := match a with AText p => incl (ptr_blocks p) ids | AFlag _ => True end.
Lemma x_attrs_ok : forall l m got ids, mowns m (gb got ++ ids) -> Forall (attr_in ids) l ->
  exists m' o, x_attrs m l got = Ret (m', o) /\ later m m' /\
    match o with
    | None => short m /\ mowns m' ids
    | Some g => mowns m' (gb g ++ ids) /\ (existsb is_null g = existsb is_null got \/ short m)
    end.
Proof.
  induction l as [|a l IH]; intros m got ids O F; cbn [x_attrs].
  - exists m, (Some got). split; [reflexivity|]. split; [eapply later_refl; eauto|]. auto.
  - inversion F as [|? ? A F']; subst.
    assert (V : exists valued, (match a with AText None | AFlag false => Ret false | AText p => do _ <- x_deref m p; Ret true | AFlag true => Ret true end) = Ret valued).
    { destruct a as [[[i t]|]|[]]; eauto. exists true. rewrite (x_deref_ok _ m i t _ O); [reflexivity|]. apply in_or_app. right. apply A. now left. }
    destruct V as (valued & ->). unfold bind at 1.
    destruct (x_malloc_ok _ _ O) as (p & m1 & -> & L1 & [(i & -> & O1)|(-> & S1 & O1)]).
    + destruct (IH m1 (got ++ [Some (i, tt)]) ids) as (m2 & o & -> & L2 & H); [rewrite gb_app; unfold gb at 2; cbn [flat_map ptr_blocks app]; mowns_by O1|exact F'|].
      exists m2, o. split; [reflexivity|]. split; [chain|]. rewrite existsb_app in H. cbn [existsb is_null] in H. rewrite orb_false_r in H.
      destruct o as [g|]; [|destruct H; split; [now apply L1|assumption]]. destruct H as [H [H1|H1]]; split; auto. right. now apply L1.
    + destruct valued.
      * destruct (x_free_all_ok got m1 ids O1) as (m2 & -> & O2 & L2). unfold bind. exists m2, None. split; [reflexivity|]. split; [chain|]. auto.
      * destruct (IH m1 (got ++ [None]) ids) as (m2 & o & -> & L2 & H); [rewrite gb_app; unfold gb at 2; cbn [flat_map ptr_blocks app]; mowns_by O1|exact F'|].
        exists m2, o. split; [reflexivity|]. split; [chain|]. destruct o as [g|]; [|destruct H; auto]. destruct H; auto.
Qed.
Lemma x_print_ok : forall m p ids, mowns m ids -> incl (ptr_blocks p) ids -> x_print m p = Ret tt.
Proof. intros m [[i s]|] ids O C; [|reflexivity]. cbn [x_print]. rewrite (x_deref_ok _ m i s ids O) by (apply C; now left). reflexivity. Qed.
Lemma cookie_header_ok : forall m c fl ids, mowns m ids -> incl (cookie_blocks c) ids ->
  exists m' p, x_cookie_header m c fl = Ret (m', p) /\ later m m' /\ mowns m' (ptr_blocks p ++ ids) /\ (p <> None \/ short m).
Proof.
  intros m c [[age secure] only] ids O C. unfold x_cookie_header. unfold cookie_blocks in C.
  destruct (x_attrs_ok [AText (k_expires c); AFlag age; AText (k_domain c); AText (k_path c); AFlag secure; AFlag only] m [] ids) as (m1 & o & -> & L1 & H).
  { exact O. } { repeat constructor; cbn [attr_in]; intros x X; apply C; rewrite ?in_app_iff; auto 7. }
  unfold bind at 1. cbn [fst snd]. destruct o as [g|].
  2:{ destruct H as [S1 O1]. exists m1, None. split; [reflexivity|]. split; [exact L1|]. auto. }
  destruct H as [O1 H]. destruct (existsb is_null g) eqn:EX.
  - unfold bind at 1. cbn [fst snd]. destruct (x_free_all_ok g m1 ids O1) as (m2 & -> & O2 & L2). unfold bind.
    exists m2, None. split; [reflexivity|]. split; [chain|]. split; [exact O2|]. right. destruct H as [H|H]; [discriminate|exact H].
  - assert (GI : incl ids (gb g ++ ids)) by (intros x X; apply in_or_app; auto).
    rewrite (x_print_ok m1 (k_key c) _ O1) by (intros x X; apply GI, C; rewrite ?in_app_iff; auto). unfold bind at 2.
    rewrite (x_print_ok m1 (k_value c) _ O1) by (intros x X; apply GI, C; rewrite ?in_app_iff; auto). unfold bind at 2.
    destruct (x_malloc_ok _ _ O1) as (p & m2 & -> & L2 & [(i & -> & O2)|(-> & S2 & O2)]); unfold bind at 1; cbn [fst snd at_block].
    + destruct (x_free_all_ok g m2 (i :: ids)) as (m3 & -> & O3 & L3); [mowns_by O2|]. unfold bind.
      exists m3, (Some (i, tt)). split; [reflexivity|]. split; [chain|]. split; [exact O3|]. left. discriminate.
    + destruct (x_free_all_ok g m2 ids O2) as (m3 & -> & O3 & L3). unfold bind.
      exists m3, None. split; [reflexivity|]. split; [chain|]. split; [exact O3|]. right. now apply L1.
Qed.
Lemma cookie_loop_ok : forall w j extra ids suf pre m, mowns m ids -> In j ids -> incl (flat_map cookie_blocks suf) ids ->
  exists b m', x_cookie_loop m (Some (j, pre ++ suf ++ extra)) w (length pre) (length suf) = Ret (b, m') /\ later m m' /\ mowns m' ids /\
    (b = forallb (w_cookie w) (seq (length pre) (length suf)) \/ (b = false /\ short m)).
Proof.
  intros w j extra ids. induction suf as [|c suf IH]; intros pre m O J C; cbn [length x_cookie_loop seq forallb].
  - exists true, m. split; [reflexivity|]. split; [eapply later_refl; eauto|]. auto.
  - rewrite (x_deref_ok _ m j _ ids O J). unfold bind at 1. cbn [snd]. cbn [app]. rewrite aget_app. unfold bind at 1.
    destruct (cookie_header_ok m c (w_flags w (length pre)) ids O) as (m1 & p & -> & L1 & O1 & H); [intros x X; apply C; cbn [flat_map]; apply in_or_app; auto|].
    unfold bind at 1. cbn [fst snd]. destruct p as [[i u]|].
    2:{ exists false, m1. split; [reflexivity|]. split; [exact L1|]. split; [exact O1|]. right. destruct H as [H|H]; [now elim H|auto]. }
    cbn [ptr_blocks app] in O1. destruct (x_free_ok _ _ _ O1) as (m2 & -> & O2 & L2 & _). unfold bind at 1.
    destruct (w_cookie w (length pre)) eqn:WC; cbn [andb].
    + destruct (IH (pre ++ [c]) m2 O2 J) as (b & m3 & R & L3 & O3 & CASE); [intros x X; apply C; cbn [flat_map]; apply in_or_app; auto|].
      rewrite <- app_assoc, app_length in R. cbn [app length] in R. rewrite Nat.add_1_r in R. rewrite app_length in CASE. cbn [length] in CASE. rewrite Nat.add_1_r in CASE.
      exists b, m3. split; [exact R|]. split; [chain|]. split; [exact O3|]. destruct CASE as [CASE|[E S]]; [now left|]. right. split; auto. now apply L1, L2.
    + exists false, m2. split; [reflexivity|]. split; [chain|]. split; [exact O2|]. now left.
Qed.
Lemma decorate_ok : forall N m r a w ids, rinv false N r a -> mowns m ids -> incl (inner r) ids ->
  exists b m' ck, x_decorate m r w = Ret (b, m') /\ later m m' /\ mowns m' ids /\ (ck = true \/ (ck = false /\ short m)) /\
    forall ch, ch_cookies ch = ck -> b = s_decorate w ch a.
Proof.
  intros N m r a w ids I O C. unfold x_decorate. rewrite (set_headers_ok N m r a (w_header w) ids I O C). unfold bind.
  unfold s_decorate. destruct (forallb (fun e => match a_text (snd e) with Some t => w_header w (fst e) t | None => true end) (ar_header a)); cbn [andb].
  2:{ exists false, m, true. split; [reflexivity|]. split; [eapply later_refl; eauto|]. auto. }
  openr I. apply incl_mkr in C. unfold rb in C. unfold x_set_cookies. members.
  pose proof (r_cookies _ _ _ _ _ _ _ _ _ _ _ _ _ F) as (cs & extra & EN & EC & _ & CK). unfold bind at 1. unfold bind at 1.
  assert (LEN : length (ar_cookies a) = length cs) by (rewrite <- EC, map_length; reflexivity). rewrite LEN. rewrite EN.
  destruct ck as [[j arr]|].
  - destruct CK as (-> & CN & FE).
    destruct (cookie_loop_ok w j extra ids cs [] m O) as (b & m1 & R & L1 & O1 & CASE).
    { apply C. rewrite ?in_app_iff. cbn [ckb]. right. right. right. left. now left. }
    { intros x X. apply C. rewrite ?in_app_iff. cbn [ckb]. right. right. right. left. right. rewrite flat_map_app. apply in_or_app. auto. }
    cbn [app length] in R. exists b, m1. destruct CASE as [CASE|[-> S]].
    + exists true. split; [exact R|]. split; [exact L1|]. split; [exact O1|]. split; [auto|]. intros ch ->. cbn [andb]. exact CASE.
    + exists false. split; [exact R|]. split; [exact L1|]. split; [exact O1|]. split; [auto|]. intros ch ->. reflexivity.
  - subst cs. exists true, m, true. split; [reflexivity|]. split; [eapply later_refl; eauto|]. split; [exact O|]. split; [auto|]. intros ch ->. reflexivity.
Qed.
