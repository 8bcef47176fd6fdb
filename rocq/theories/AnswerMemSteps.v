(** Proofs about the memory of the answers (C104): the body, the answer, the requests. *)
From Coq Require Import ZArith Bool List Lia.
From Verif Require Import Base BaseFacts UMapModel UMapProofs OwnModel OwnSpec OwnProofs MapMemModel MapMemSpec MapMemProofs MapMemPut MapMemRun MapMemSteps
  RespMemModel RespMemSpec RespMemProofs RespMemCalls RespMemCookie RespMemSteps AnswerMemModel AnswerMemSpec AnswerMemProofs.
Import ListNotations.
Open Scope Z_scope.

(** ** the body *)
Lemma zfirstn_all : forall (l : list Z), zfirstn (zlen l) l = l.
Proof. intros l. unfold zfirstn, zlen. rewrite Nat2Z.id. apply firstn_all. Qed.
Lemma zfirstn_nul : forall (l : list Z), zfirstn (zlen l) (l ++ [0]) = l.
Proof. intros l. unfold zfirstn, zlen. rewrite Nat2Z.id, firstn_app, Nat.sub_diag, firstn_all. cbn [firstn]. apply app_nil_r. Qed.
Lemma zlen_nul : forall (l : list Z), zlen (l ++ [0]) = zlen l + 1.
Proof. intros l. unfold zlen. rewrite app_length. cbn [length]. lia. Qed.

(** the response with another body *)
Lemma new_body : forall N m r a i ids kept, rinv false N r a -> mowns m (ptr_blocks (at_block i (error_text ++ [0])) ++ inner r ++ ids) ->
  kept = match i with Some _ => true | None => false end ->
  exists old, rinv false N (with_body r (at_block i (error_text ++ [0])) (zlen error_text)) (set_body a (if kept then Some error_text else None)) /\
    length old = one (ar_body a) /\ mowns m (inner (with_body r (at_block i (error_text ++ [0])) (zlen error_text)) ++ old ++ ids).
Proof.
  intros N m r a i ids kept I O ->. openr I. exists (ptr_blocks bd).
  pose proof (r_body _ _ _ _ _ _ _ _ _ _ _ _ _ F) as FB.
  change (with_body (mkr pr ih ik iv il es rl ck nb bd ln iw wp we pl ex) (at_block i (error_text ++ [0])) (zlen error_text))
    with (mkr pr ih ik iv il es rl ck nb (at_block i (error_text ++ [0])) (zlen error_text) iw wp we pl ex).
  split; [|split].
  - do 16 eexists. split; [reflexivity|]. destruct F; constructor; auto.
    destruct i as [i|]; cbn [at_block brel set_body ar_body]; [|reflexivity]. rewrite zlen_nul, zfirstn_nul. split; [|reflexivity]. pose proof (zlen_nonneg _ error_text). lia.
  - destruct bd as [[j x]|]; cbn [brel] in FB; [destruct FB as [_ ->]|rewrite FB]; reflexivity.
  - rby O.
Qed.

Definition brelp (p : ptr (list Z)) (n : Z) (b : option (list Z)) : Prop :=
  match p, b with None, None => True | Some (_, x), Some y => 0 <= n <= zlen x /\ y = zfirstn n x | _, _ => False end.
Lemma get_body_ok : forall N m d b len fr, dinv N d b -> mowns m (inner (d_resp d) ++ fr) ->
  exists cf c p n m' d' b' buffer old, x_get_body m d len = Ret (c, (p, n), (m', d')) /\ later m m' /\ (cf = Copied \/ short m) /\
    (forall ch, ch_body ch = cf -> s_get_body ch b len = (c =? U_OK, buffer, n, b', length old)) /\
    d_id d' = d_id d /\ dinv N d' b' /\ brelp p n buffer /\ mowns m' (ptr_blocks p ++ inner (d_resp d') ++ old ++ fr) /\ (c = U_OK \/ (c = U_ERROR_MEMORY /\ p = None)).
Proof.
  intros N m d b len fr (I & ES & ET & EH) O. unfold x_get_body. cbv zeta. pose proof I as I0. destruct d as [did r status stream shared].
  cbn [d_id d_resp d_status d_stream d_shared] in *. openr I. members. unfold bind at 1. unfold bind at 1.
  pose proof (r_body _ _ _ _ _ _ _ _ _ _ _ _ _ F) as FB. unfold s_get_body.
  assert (NB : nonempty (ar_body (b_resp b)) = if negb (is_null bd) && (0 <? ln) then ar_body (b_resp b) else None).
  { destruct bd as [[j x]|]; cbn [is_null negb andb brel] in *; [|now rewrite FB]. destruct FB as [B1 ->]. destruct (0 <? ln) eqn:Z0.
    - apply Z.ltb_lt in Z0. destruct (zfirstn ln x) as [|y z] eqn:E; [|reflexivity]. exfalso. apply (f_equal (@length Z)) in E. unfold zfirstn, zlen in *. rewrite firstn_length in E. cbn in E. lia.
    - apply Z.ltb_ge in Z0. assert (ln = 0) by lia. subst ln. reflexivity. }
  rewrite NB. destruct (negb (is_null bd) && (0 <? ln)) eqn:CND.
  - destruct bd as [[j x]|]; [|discriminate]. cbn [is_null negb andb brel] in *. destruct FB as [B1 B2]. apply Z.ltb_lt in CND. rewrite B2 in *.
    destruct (x_malloc_ok _ _ O) as (p & m1 & -> & L1 & [(i & -> & O1)|(-> & S1 & O1)]).
    + rewrite (x_deref_ok _ m1 j x _ O1).
      2:{ right. apply in_or_app. left. pose proof (incl_refl (inner (mkr pr ih ik iv il es rl ck nb (Some (j, x)) ln iw wp we pl ex))) as IR.
          apply incl_mkr in IR. apply IR. unfold rb. cbn [ptr_blocks]. rewrite ?in_app_iff. right. right. right. right. left. now left. }
      unfold bind. cbn [snd]. replace (zlen x <? ln) with false by (symmetry; apply Z.ltb_ge; lia).
      assert (LZ : zlen (zfirstn ln x) = ln) by (unfold zlen, zfirstn in *; rewrite firstn_length; lia).
      exists Copied, U_OK, (Some (i, zfirstn ln x)), ln, m1. eexists. exists b, (Some (zfirstn ln x)), []. split; [reflexivity|]. split; [exact L1|]. split; [auto|].
      split; [intros ch ->; rewrite LZ; reflexivity|]. split; [reflexivity|]. split; [split; [exact I0|auto]|].
      split; [cbn [brelp]; rewrite LZ; split; [lia|]; rewrite <- LZ at 2; rewrite zfirstn_all; reflexivity|]. split; [cbn [ptr_blocks d_resp]; exact O1|auto].
    + destruct (x_malloc_ok _ _ O1) as (p2 & m2 & -> & L2 & CASE).
      assert (O2 : mowns m2 (ptr_blocks (at_block p2 (error_text ++ [0])) ++ inner (mkr pr ih ik iv il es rl ck nb (Some (j, x)) ln iw wp we pl ex) ++ fr))
        by (destruct CASE as [(i & -> & O2)|(-> & _ & O2)]; exact O2).
      destruct (new_body N m2 _ _ p2 fr (match p2 with Some _ => true | None => false end) I0 O2 eq_refl) as (old & I2 & LO & O3).
      exists (match p2 with Some _ => Replaced | None => Gone end). do 2 eexists. exists len, m2. eexists. exists (error_body b (match p2 with Some _ => true | None => false end)), None, old.
      split; [reflexivity|]. split; [chain|]. split; [auto|]. split.
      { intros ch ->. rewrite LO, B2. cbn [one]. destruct p2; reflexivity. }
      split; [reflexivity|]. split; [split; [exact I2|auto]|]. split; [exact I|]. split; [exact O3|]. destruct p2; auto.
  - exists Copied, U_OK, None, 0, m. eexists. exists b, None, []. split; [reflexivity|]. split; [eapply later_refl; eauto|]. split; [auto|].
    split; [reflexivity|]. split; [reflexivity|]. split; [split; [exact I0|auto]|]. split; [exact I|]. split; [exact O|]. auto.
Qed.

(** ** the struct MHD_Response *)
Definition crel (c : content) (b : body) : Prop :=
  match c, b with
  | OfBuffer None n, Bytes x => n <= 0 /\ x = []
  | OfBuffer (Some (_, x)) n, Bytes y => 0 <= n <= zlen x /\ y = zfirstn n x
  | OfStream d, Stream d' => d = d'
  | _, _ => False
  end.
Definition orel (c : option content) (b : option body) : Prop :=
  match c, b with None, None => True | Some c, Some b => crel c b | _, _ => False end.
Definition cb (c : option content) : list nat := match c with Some (OfBuffer p _) => ptr_blocks p | _ => [] end.
Lemma create_ok : forall w p n buffer, brelp p n buffer ->
  orel (x_create w p n) (fst (s_create w buffer n)) /\ exists old, length old = snd (s_create w buffer n) /\ (forall x, cnt (ptr_blocks p) x = cnt (cb (x_create w p n) ++ old) x).
Proof.
  intros w p n buffer B. unfold x_create, s_create. destruct p as [[i x]|], buffer as [y|]; try contradiction; cbn [brelp is_null andb orb] in *.
  - rewrite orb_false_r, andb_true_r. destruct (w_creates w); cbn [negb fst snd orel crel cb].
    + split; [exact B|]. exists []. split; [reflexivity|]. intros z. now rewrite app_nil_r.
    + split; [exact Logic.I|]. exists [i]. auto.
  - destruct (w_creates w); cbn [negb orb andb]; [|split; [exact Logic.I|]; exists []; auto].
    destruct (0 <? n) eqn:Z0; [apply Z.ltb_lt in Z0; replace (n <=? 0) with false by (symmetry; apply Z.leb_gt; lia)|apply Z.ltb_ge in Z0; replace (n <=? 0) with true by (symmetry; apply Z.leb_le; lia)];
      cbn [fst snd orel crel cb one]; (split; [auto|]); exists []; auto.
Qed.

(** ** the state *)
Definition rrel (r : hresp) (x : option realm) (y : option str) : Prop :=
  match x with
  | None => y = None
  | Some (DefaultRealm t) => y = Some t
  | Some (RealmOf i t) => q_realm r = Some (Some (i, t)) /\ y = Some t
  end.
Record yinv (N : Z) (fr : list nat) (s : st) (y : ystate) : Prop := mk_yinv {
  v_resp : dinv N (t_resp s) (y_resp y);
  v_mhd : orel (t_mhd s) (y_mhd y);
  v_len : t_len s = y_len y;
  v_401 : (t_inner s =? U_CALLBACK_UNAUTHORIZED) = y_401 y;
  v_realm : rrel (d_resp (t_resp s)) (t_realm s) (y_realm y);
  v_log : t_log s = y_log y;
  v_owns : exists gone, length gone = y_lost y /\ mowns (t_mem s) (inner (d_resp (t_resp s)) ++ (d_id (t_resp s) :: cb (t_mhd s) ++ gone ++ fr))
}.
(** before the answer *)
Definition fresh (s : st) : Prop := t_mhd s = None /\ t_realm s = None.

Ltac cntl := let x := fresh "x" in intros x; cbn [cb]; repeat rewrite ?cnt_app, ?cnt_cons, ?cnt_nil; cbn [app]; try lia.

Lemma error_brelp : forall i, brelp (Some (i, error_text ++ [0])) (zlen error_text) (Some error_text).
Proof. intros i. cbn [brelp]. rewrite zlen_nul, zfirstn_nul. pose proof (zlen_nonneg _ error_text). split; [lia|reflexivity]. Qed.

Lemma error_answer_ok : forall N fr s y w, yinv N fr s y -> fresh s -> exists b s' , x_error_answer s w = (b, s') /\ (b = true \/ (b = false /\ short (t_mem s))) /\
  (forall ch, ch_text ch = b -> yinv N fr s' (s_error_answer y w ch)) /\ later (t_mem s) (t_mem s') /\ t_realm s' = None /\ t_inner s' = t_inner s /\ t_resp s' = t_resp s.
Proof.
  intros N fr s y w V [EM ER]. destruct V as [V1 V2 V3 V4 V5 V6 (gone & LG & O)]. unfold x_error_answer.
  destruct (x_malloc_ok _ _ O) as (p & m1 & -> & L1 & [(i & -> & O1)|(-> & S1 & O1)]).
  - destruct (create_ok w _ _ _ (error_brelp i)) as (R & old & LO & CN). do 2 eexists. split; [reflexivity|]. split; [auto|]. split; [|auto].
    intros ch CH. unfold s_error_answer. rewrite CH. cbv zeta. constructor; cbn [t_mem t_resp t_mhd t_len t_inner t_realm t_log y_resp y_mhd y_len y_401 y_realm y_log y_lost]; auto.
    exists (old ++ gone). split; [rewrite app_length, LO; lia|]. eapply mowns_ext; [exact O1|]. intros x. specialize (CN x). cbn [ptr_blocks] in CN.
    rewrite EM. cbn [cb app]. repeat rewrite ?cnt_app, ?cnt_cons, ?cnt_nil in *. lia.
  - do 2 eexists. split; [reflexivity|]. split; [auto|]. split; [|auto]. intros ch CH. unfold s_error_answer. rewrite CH. constructor; auto. exists gone. auto.
Qed.

Lemma with_500 : forall N fr m r y mhd len inner realm log, yinv N fr (mk_st m r mhd len inner realm log) y ->
  yinv N fr (mk_st m (with_status r 500) mhd len inner realm log) (mk_ystate (set_500 (y_resp y)) (y_mhd y) (y_len y) (y_401 y) (y_realm y) (y_log y) (y_lost y)).
Proof. intros N fr m r y mhd len inner realm log [V1 V2 V3 V4 V5 V6 V7]. constructor; auto. destruct V1 as (A & B & C & D). split; [exact A|]. cbn. auto. Qed.
Lemma st_eta : forall s, s = mk_st (t_mem s) (t_resp s) (t_mhd s) (t_len s) (t_inner s) (t_realm s) (t_log s).
Proof. intros []. reflexivity. Qed.

Definition turned (N : Z) (fr : list nat) (s : st) (res : outcome st) (spec : choice -> ystate) : Prop :=
  exists s' ch, res = Ret s' /\ (ch = fine \/ short (t_mem s)) /\ yinv N fr s' (spec ch).

Lemma error_ok : forall N fr s y w, yinv N fr s y -> fresh s -> turned N fr s (Ret (x_error s w)) (s_error y w).
Proof.
  intros N fr s y w V FR. unfold x_error, s_error. rewrite (st_eta s) in V. apply with_500 in V.
  destruct (error_answer_ok N fr _ _ w V FR) as (b & s' & E & B & H & _). rewrite E. cbn [snd].
  exists s', (mk_choice Copied b true). split; [reflexivity|]. split; [destruct B as [->|[_ S]]; [now left|now right]|]. now apply H.
Qed.

Lemma complete_ok : forall N fr s y w, yinv N fr s y -> fresh s ->
  exists s' ch, x_complete s w = Ret s' /\ (ch = fine \/ short (t_mem s)) /\ yinv N fr s' (s_complete y w ch) /\ t_realm s' = None.
Proof.
  intros N fr s y w V FR. pose proof FR as [EM ER]. destruct V as [V1 V2 V3 V4 V5 V6 (gone & LG & O)]. unfold x_complete.
  rewrite EM in O. cbn [cb app] in O.
  destruct (get_body_ok N _ _ _ (t_len s) _ V1 O) as (cf & c & p & n & m1 & d1 & b1 & buffer & old & -> & L1 & CF & SB & DI & D1 & BR & O1 & CC). unfold bind at 1.
  destruct CC as [-> |[-> ->]].
  - change (U_OK =? U_OK) with true. cbn iota zeta.
    destruct (create_ok w p n buffer BR) as (R & old2 & LO & CN).
    assert (G : exists m2, (match x_create w p n with None => Ret m1 | Some _ => do y0 <- x_decorate m1 (d_resp d1) w; Ret (snd y0) end) = Ret m2 /\
                 mowns m2 (ptr_blocks p ++ inner (d_resp d1) ++ old ++ d_id (t_resp s) :: gone ++ fr)).
    { destruct (x_create w p n); [|exists m1; auto].
      destruct (decorate_ok N m1 (d_resp d1) (b_resp b1) w _ (proj1 D1) O1) as (bb & m2 & ck & -> & _ & O2 & _); [intros x X; rewrite ?in_app_iff; auto|].
      exists m2. split; [reflexivity|exact O2]. }
    destruct G as (m2 & -> & O2). unfold bind. eexists. exists (mk_choice cf true true). split; [reflexivity|].
    split; [destruct CF as [->|S]; [now left|now right]|]. split; [|exact ER]. unfold s_complete. rewrite <- V3, (SB (mk_choice cf true true) eq_refl).
    change (U_OK =? U_OK) with true. cbn iota zeta. constructor; cbn [t_mem t_resp t_mhd t_len t_inner t_realm t_log y_resp y_mhd y_len y_401 y_realm y_log y_lost]; auto.
    { rewrite ER in *. exact V5. }
    exists (old2 ++ old ++ gone). split; [rewrite !app_length, LO; lia|]. eapply mowns_ext; [exact O2|]. intros x. specialize (CN x). rewrite DI. repeat rewrite ?cnt_app, ?cnt_cons, ?cnt_nil in *. lia.
  - change (U_ERROR_MEMORY =? U_OK) with false in *. cbn iota.
    assert (V' : yinv N fr (mk_st m1 d1 (t_mhd s) n (t_inner s) (t_realm s) (t_log s)) (mk_ystate b1 (y_mhd y) n (y_401 y) (y_realm y) (y_log y) (y_lost y + length old))).
    { constructor; cbn [t_mem t_resp t_mhd t_len t_inner t_realm t_log y_resp y_mhd y_len y_401 y_realm y_log y_lost]; auto.
      { rewrite ER in *. exact V5. }
      exists (old ++ gone). split; [rewrite app_length; lia|]. eapply mowns_ext; [exact O1|]. intros x. rewrite DI, EM. cbn [cb ptr_blocks app]. repeat rewrite ?cnt_app, ?cnt_cons, ?cnt_nil. lia. }
    apply with_500 in V'. destruct (error_answer_ok N fr _ _ w V' FR) as (bb & s' & E & B & H & _ & RN & _). rewrite E. cbn [snd].
    exists s', (mk_choice cf bb true). split; [reflexivity|]. split.
    + destruct CF as [->|S]; [|now right]. destruct B as [->|[_ S]]; [now left|right]. cbn [t_mem] in S. now apply L1.
    + split; [|exact RN]. unfold s_complete. rewrite <- V3, (SB (mk_choice cf bb true) eq_refl). cbn iota. now apply H.
Qed.

Lemma unauthorized_ok : forall N fr s y w default, yinv N fr s y -> fresh s ->
  turned N fr s (x_unauthorized s w default) (fun ch => s_unauthorized y w ch default).
Proof.
  intros N fr s y w default V FR. pose proof FR as [EM ER]. destruct V as [V1 V2 V3 V4 V5 V6 (gone & LG & O)]. unfold x_unauthorized.
  rewrite EM in O. cbn [cb app] in O. rewrite ER in V5. cbn [rrel] in V5.
  destruct (get_body_ok N _ _ _ (t_len s) _ V1 O) as (cf & c & p & n & m1 & d1 & b1 & buffer & old & -> & L1 & CF & SB & DI & D1 & BR & O1 & CC). unfold bind at 1.
  (* the state before the realm is chosen *)
  assert (G : exists s1 ch, (if c =? U_OK then
              let mhd := x_create w p n in
              do y <- (match mhd with None => Ret (false, m1) | Some _ => x_decorate m1 (d_resp d1) w end);
              if fst y : bool then Ret (mk_st (snd y) d1 mhd n U_CALLBACK_UNAUTHORIZED (t_realm s) (t_log s))
              else
                let '(i, m2) := x_malloc (snd y) in
                let d2 := with_status (with_resp d1 (with_body (d_resp d1) (at_block i (error_text ++ [0])) (zlen error_text))) 500 in
                Ret (mk_st m2 d2 mhd n (match i with Some _ => U_ERROR_PARAMS | None => U_ERROR_MEMORY end) (t_realm s) (t_log s))
            else
              let '(b, s1) := x_error_answer (mk_st m1 d1 (t_mhd s) n (t_inner s) (t_realm s) (t_log s)) w in
              Ret (mk_st (t_mem s1) (t_resp s1) (t_mhd s1) (t_len s1) (if b : bool then U_CALLBACK_UNAUTHORIZED else U_ERROR_MEMORY) (t_realm s1) (t_log s1))) = Ret s1 /\
     (ch = fine \/ short (t_mem s)) /\ t_realm s1 = None /\
     exists y1, yinv N fr s1 y1 /\ s_unauthorized y w ch default =
       mk_ystate (y_resp y1) (y_mhd y1) (y_len y1) (y_401 y1) (pick_realm (ar_realm (b_resp (y_resp y1))) default (y_realm y1)) (y_log y1) (y_lost y1)).
  { destruct CC as [-> |[-> ->]].
    - change (U_OK =? U_OK) with true in *. cbn iota zeta. destruct (create_ok w p n buffer BR) as (R & old2 & LO & CN).
      assert (G : exists bb m2 ck, (match x_create w p n with None => Ret (false, m1) | Some _ => x_decorate m1 (d_resp d1) w end) = Ret (bb, m2) /\ later m1 m2 /\
                   mowns m2 (ptr_blocks p ++ inner (d_resp d1) ++ old ++ d_id (t_resp s) :: gone ++ fr) /\ (ck = true \/ (ck = false /\ short m1)) /\
                   forall ch, ch_cookies ch = ck -> bb = (match fst (s_create w buffer n) with Some _ => true | None => false end) && s_decorate w ch (b_resp b1)).
      { destruct (x_create w p n), (fst (s_create w buffer n)); try contradiction.
        - destruct (decorate_ok N m1 (d_resp d1) (b_resp b1) w _ (proj1 D1) O1) as (bb & m2 & ck & -> & L2 & O2 & CK & E); [intros x X; rewrite ?in_app_iff; auto|].
          exists bb, m2, ck. auto.
        - exists false, m1, true. split; [reflexivity|]. split; [eapply later_refl; eauto|]. auto. }
      destruct G as (bb & m2 & ck & -> & L2 & O2 & CK & EB). unfold bind. cbn [fst snd].
      assert (FINE : forall t, (t = true \/ short (t_mem s)) -> mk_choice cf t ck = fine \/ short (t_mem s)).
      { intros t [->|T]; [|now right]. destruct CF as [->|S]; [|now right]. destruct CK as [->|[_ S]]; [now left|right; now apply L1]. }
      destruct bb.
      + eexists. exists (mk_choice cf true ck). split; [reflexivity|]. split; [apply FINE; auto|]. split; [exact ER|]. eexists. split; [|
          unfold s_unauthorized; rewrite <- V3, (SB (mk_choice cf true ck) eq_refl); cbn iota zeta; rewrite <- (EB (mk_choice cf true ck) eq_refl); cbn iota; reflexivity].
        constructor; cbn [t_mem t_resp t_mhd t_len t_inner t_realm t_log y_resp y_mhd y_len y_401 y_realm y_log y_lost]; auto.
        { rewrite ER. exact V5. }
        exists (old2 ++ old ++ gone). split; [rewrite !app_length, LO; lia|]. eapply mowns_ext; [exact O2|]. intros x. specialize (CN x). rewrite DI. repeat rewrite ?cnt_app, ?cnt_cons, ?cnt_nil in *. lia.
      + destruct (x_malloc_ok _ _ O2) as (p3 & m3 & -> & L3 & CASE).
        assert (O3 : mowns m3 (ptr_blocks (at_block p3 (error_text ++ [0])) ++ inner (d_resp d1) ++ ptr_blocks p ++ old ++ d_id (t_resp s) :: gone ++ fr)).
        { destruct CASE as [(i & -> & O3)|(-> & _ & O3)]; cbn [at_block ptr_blocks]; mowns_by O3. }
        destruct (new_body N m3 _ _ p3 _ (match p3 with Some _ => true | None => false end) (proj1 D1) O3 eq_refl) as (old3 & I3 & LO3 & O4).
        set (t := match p3 with Some _ => true | None => false end) in *.
        eexists. exists (mk_choice cf t ck). split; [reflexivity|]. split.
        { apply FINE. unfold t. destruct CASE as [(i & -> & _)|(-> & S & _)]; [now left|right; now apply L1, L2]. }
        split; [exact ER|]. eexists. split; [|
          unfold s_unauthorized; rewrite <- V3, (SB (mk_choice cf t ck) eq_refl); cbn iota zeta; rewrite <- (EB (mk_choice cf t ck) eq_refl); cbn iota; reflexivity].
        constructor; cbn [t_mem t_resp t_mhd t_len t_inner t_realm t_log y_resp y_mhd y_len y_401 y_realm y_log y_lost]; auto.
        { split; [exact I3|]. destruct D1 as (_ & A & B & C). cbn. auto. }
        { unfold t. destruct p3; reflexivity. }
        { rewrite ER. exact V5. }
        exists (old3 ++ old2 ++ old ++ gone). split; [rewrite !app_length, LO, LO3; lia|]. eapply mowns_ext; [exact O4|]. intros x. specialize (CN x).
        cbn [with_status with_resp d_resp d_id]. rewrite DI. repeat rewrite ?cnt_app, ?cnt_cons, ?cnt_nil in *. lia.
    - change (U_ERROR_MEMORY =? U_OK) with false in *. cbn iota.
      assert (V' : yinv N fr (mk_st m1 d1 (t_mhd s) n (t_inner s) (t_realm s) (t_log s)) (mk_ystate b1 (y_mhd y) n (y_401 y) (y_realm y) (y_log y) (y_lost y + length old))).
      { constructor; cbn [t_mem t_resp t_mhd t_len t_inner t_realm t_log y_resp y_mhd y_len y_401 y_realm y_log y_lost]; auto.
        { rewrite ER. exact V5. }
        exists (old ++ gone). split; [rewrite app_length; lia|]. eapply mowns_ext; [exact O1|]. intros x. rewrite DI, EM. cbn [cb ptr_blocks app]. repeat rewrite ?cnt_app, ?cnt_cons, ?cnt_nil. lia. }
      destruct (error_answer_ok N fr _ _ w V' FR) as (bb & s' & E & B & H & _ & RN & _). rewrite E.
      eexists. exists (mk_choice cf bb true). split; [reflexivity|]. split.
      { destruct CF as [->|S]; [|now right]. destruct B as [->|[_ S]]; [now left|right]. cbn [t_mem] in S. now apply L1. }
      split; [exact RN|]. eexists. split; [|unfold s_unauthorized; rewrite <- V3, (SB (mk_choice cf bb true) eq_refl); cbn iota zeta; reflexivity].
      specialize (H (mk_choice cf bb true) eq_refl). destruct H as [H1 H2 H3 H4 H5 H6 H7].
      constructor; cbn [t_mem t_resp t_mhd t_len t_inner t_realm t_log y_resp y_mhd y_len y_401 y_realm y_log y_lost ch_text]; auto. destruct bb; reflexivity. }
  destruct G as (s1 & ch & EG & FI & R1 & y1 & V' & SE).
  match type of EG with ?l = _ => match goal with |- turned _ _ _ (bind ?a _) _ => change a with l end end. rewrite EG. unfold bind at 1.
  destruct V' as [W1 W2 W3 W4 W5 W6 W7]. pose proof W1 as (I1 & S1 & T1 & H1). rewrite R1 in W5. cbn [rrel] in W5.
  remember (d_resp (t_resp s1)) as r1 eqn:ER1. pose proof I1 as I1'. openr I1'. members. unfold bind.
  exists (mk_st (t_mem s1) (t_resp s1) (t_mhd s1) (t_len s1) (t_inner s1)
     (match rl with Some (i, t) => Some (RealmOf i t) | None => match default with Some t => Some (DefaultRealm t) | None => t_realm s1 end end) (t_log s1)), ch.
  split; [reflexivity|]. split; [exact FI|]. rewrite SE.
  constructor; cbn [t_mem t_resp t_mhd t_len t_inner t_realm t_log y_resp y_mhd y_len y_401 y_realm y_log y_lost]; auto; [|rewrite <- ER1; exact W7].
  rewrite <- ER1. pose proof (r_realm _ _ _ _ _ _ _ _ _ _ _ _ _ F) as FRL. rewrite <- FRL. destruct rl as [[i t]|]; cbn [ptext pick_realm rrel mkr q_realm]; [auto|].
  destruct default as [t|]; cbn [rrel]; [reflexivity|]. rewrite R1. exact W5.
Qed.

Lemma stream_ok : forall N fr s y w data, yinv N fr s y -> fresh s -> exists s', x_stream s w data = Ret s' /\ yinv N fr s' (s_stream y w data) /\ t_realm s' = None.
Proof.
  intros N fr s y w data V [EM ER]. destruct V as [V1 V2 V3 V4 V5 V6 (gone & LG & O)]. unfold x_stream, s_stream. destruct (w_creates w).
  - destruct (decorate_ok N (t_mem s) (d_resp (t_resp s)) _ w _ (proj1 V1) O) as (bb & m2 & ck & -> & _ & O2 & _); [intros x X; rewrite ?in_app_iff; auto|].
    unfold bind. eexists. split; [reflexivity|]. split; [|exact ER]. constructor; cbn [t_mem t_resp t_mhd t_len t_inner t_realm t_log y_resp y_mhd y_len y_401 y_realm y_log y_lost snd orel crel]; auto.
    exists gone. split; [exact LG|]. rewrite EM in O2. exact O2.
  - eexists. split; [reflexivity|]. split; [|exact ER]. constructor; cbn [t_mem t_resp t_mhd t_len t_inner t_realm t_log y_resp y_mhd y_len y_401 y_realm y_log y_lost orel]; auto.
    exists gone. split; [exact LG|]. rewrite EM in O. exact O.
Qed.

(** the callback of an endpoint *)
Lemma enter_ok : forall N fr s y p w, yinv N fr s y -> fresh s -> callback_ok N p -> 0 <= N -> N + 1 < two64 ->
  exists code log m1 d1 b1, x_callback (t_mem s) (t_resp s) p = Ret (code, log, (m1, d1)) /\ plays (y_resp y) p code log b1 /\
    yinv N fr (enter s m1 d1 log w) (s_enter y b1 log) /\ fresh (enter s m1 d1 log w).
Proof.
  intros N fr s y p w V [EM ER] OK N0 NT. destruct V as [V1 V2 V3 V4 V5 V6 (gone & LG & O)].
  destruct (x_callback_ok N _ p (t_mem s) (t_resp s) _ V1 O ltac:(now left) OK N0 NT) as (code & log & m1 & d1 & b1 & -> & P & E & D & O1).
  exists code, log, m1, d1, b1. split; [reflexivity|]. split; [exact P|]. split; [|split; assumption].
  constructor; cbn [enter s_enter t_mem t_resp t_mhd t_len t_inner t_realm t_log y_resp y_mhd y_len y_401 y_realm y_log y_lost]; auto.
  - rewrite ER in *. exact V5.
  - congruence.
  - exists gone. split; [exact LG|]. rewrite E. now apply answers_owns.
Qed.

Lemma endpoints_ok : forall N fr default l s y pos, yinv N fr s y -> fresh s -> Forall (fun e => callback_ok N (fst e)) l -> l <> [] -> 0 <= N -> N + 1 < two64 ->
  exists pos' s' y', x_endpoints s default l pos = Ret (pos', s') /\ s_endpoints default y l pos pos' y' /\ yinv N fr s' y' /\ (pos' = false -> t_realm s' = None).
Proof.
  intros N fr default. induction l as [|[p w] l IH]; intros s y pos V FR F NE N0 NT; [contradiction|]. cbn [x_endpoints].
  inversion F as [|? ? F1 F2]; subst. cbn [fst] in F1.
  destruct (enter_ok N fr s y p w V FR F1 N0 NT) as (code & log & m1 & d1 & b1 & -> & P & V1 & FR1). unfold bind at 1. cbv zeta.
  set (s1 := enter s m1 d1 log w) in *. set (y1 := s_enter y b1 log) in *.
  assert (SH : short (t_mem s1) -> In false (w_memory w)) by (intros H; exact H).
  assert (ES : d_stream d1 = b_stream (y_resp y1)) by apply V1.
  assert (CH : forall ch, ch = fine \/ short (t_mem s1) -> choice_ok (w_memory w) ch) by (intros ch [->|H]; [now left|right; now apply SH]).
  set (pos1 := pos || negb (code =? U_CALLBACK_IGNORE)).
  assert (TURN : forall s2 ch y2, s_turn y1 w ch default code (is_nil l) = Some y2 -> (ch = fine \/ short (t_mem s1)) -> yinv N fr s2 y2 -> (pos1 = false -> t_realm s2 = None) ->
     exists pos' s' y', Ret (pos1, s2) = Ret (pos', s') /\ s_endpoints default y ((p, w) :: l) pos pos' y' /\ yinv N fr s' y' /\ (pos' = false -> t_realm s' = None)).
  { intros s2 ch y2 T C V2 R2. exists pos1, s2, y2. split; [reflexivity|]. split; [|auto]. eapply se_last; eauto. }
  destruct (d_stream d1) as [data|] eqn:DS.
  - destruct (stream_ok N fr s1 y1 w data V1 FR1) as (s2 & -> & V2 & R2). unfold bind. apply (TURN s2 fine (s_stream y1 w data)); auto. unfold s_turn. rewrite <- ES. reflexivity.
  - assert (T0 : forall ch, s_turn y1 w ch default code (is_nil l) =
        if (code =? U_CALLBACK_CONTINUE) || (code =? U_CALLBACK_IGNORE) then if is_nil l then Some (s_complete y1 w ch) else None
        else if code =? U_CALLBACK_COMPLETE then Some (s_complete y1 w ch) else if code =? U_CALLBACK_UNAUTHORIZED then Some (s_unauthorized y1 w ch default) else Some (s_error y1 w ch))
      by (intros ch; unfold s_turn; rewrite <- ES; reflexivity).
    revert T0. destruct ((code =? U_CALLBACK_CONTINUE) || (code =? U_CALLBACK_IGNORE)) eqn:CI.
    + intros T0. destruct l as [|e l'].
      * destruct (complete_ok N fr s1 y1 w V1 FR1) as (s2 & ch & -> & C & V2 & R2). unfold bind. apply (TURN s2 ch (s_complete y1 w ch)); auto; try apply T0.
      * destruct (IH s1 y1 pos1 V1 FR1 F2 ltac:(discriminate) N0 NT) as (pos' & s' & y' & -> & SE & V' & R'). exists pos', s', y'. split; [reflexivity|]. split; [|auto].
        eapply se_next; [exact P|exact (T0 fine)|exact SE].
    + apply orb_false_iff in CI as [CI1 CI2]. assert (PT : pos1 = true) by (unfold pos1; rewrite CI2; apply orb_true_r).
      destruct (code =? U_CALLBACK_COMPLETE); [intros T0|].
      * destruct (complete_ok N fr s1 y1 w V1 FR1) as (s2 & ch & -> & C & V2 & R2). unfold bind. apply (TURN s2 ch (s_complete y1 w ch)); auto; try apply T0.
      * destruct (code =? U_CALLBACK_UNAUTHORIZED); intros T0.
        -- destruct (unauthorized_ok N fr s1 y1 w default V1 FR1) as (s2 & ch & -> & C & V2). unfold bind. apply (TURN s2 ch (s_unauthorized y1 w ch default)); auto; try apply T0; congruence.
        -- destruct (error_ok N fr s1 y1 w V1 FR1) as (s2 & ch & E & C & V2). injection E as ->. apply (TURN s2 ch (s_error y1 w ch)); auto; try apply T0; congruence.
Qed.

Lemma destroy_ok : forall m c b ids, crel c b -> mowns m (cb (Some c) ++ ids) -> exists m', x_destroy m c = Ret (m', given_up (Some b)) /\ mowns m' ids.
Proof.
  intros m [p n|d] b ids R O; cbn [x_destroy cb] in *.
  - destruct (x_free_ptr _ _ _ _ O) as (m1 & -> & O1 & _). unfold bind. exists m1. split; [|exact O1]. destruct p as [[i x]|], b; try contradiction; reflexivity.
  - destruct b; cbn [crel] in R; try contradiction. subst. exists m. split; [reflexivity|exact O].
Qed.

Lemma default_ok : forall N fr s y default p w, yinv N fr s y -> t_realm s = None -> callback_ok N p -> 0 <= N -> N + 1 < two64 ->
  exists s' y', x_default s default (p, w) = Ret s' /\ s_last default (Some (p, w)) false y y' /\ yinv N fr s' y'.
Proof.
  intros N fr s y default p w V ER OK N0 NT. unfold x_default. cbn [fst snd].
  assert (G : exists m0, (match t_mhd s with None => Ret (t_mem s, []) | Some c => x_destroy (t_mem s) c end) = Ret (m0, given_up (y_mhd y)) /\
    yinv N fr (mk_st m0 (t_resp s) None (t_len s) (t_inner s) (t_realm s) (t_log s ++ given_up (y_mhd y))) (mk_ystate (y_resp y) None (y_len y) (y_401 y) (y_realm y) (y_log y ++ given_up (y_mhd y)) (y_lost y))).
  { destruct V as [V1 V2 V3 V4 V5 V6 (gone & LG & O)]. destruct (t_mhd s) as [c|] eqn:EM, (y_mhd y) as [b|] eqn:EY; cbn [orel] in V2; try contradiction.
    - destruct (destroy_ok (t_mem s) c b (inner (d_resp (t_resp s)) ++ d_id (t_resp s) :: gone ++ fr) V2) as (m0 & -> & O0); [mowns_by O|].
      exists m0. split; [reflexivity|]. constructor; cbn [t_mem t_resp t_mhd t_len t_inner t_realm t_log y_resp y_mhd y_len y_401 y_realm y_log y_lost orel]; auto; [congruence|]. exists gone. auto.
    - exists (t_mem s). split; [reflexivity|]. constructor; cbn [t_mem t_resp t_mhd t_len t_inner t_realm t_log y_resp y_mhd y_len y_401 y_realm y_log y_lost orel]; auto; [congruence|]. exists gone. auto. }
  destruct G as (m0 & -> & V0). unfold bind at 1. cbv zeta. cbn [fst snd].
  destruct (enter_ok N fr _ _ p w V0 (conj eq_refl ER) OK N0 NT) as (code & log & m1 & d1 & b1 & -> & P & V1 & FR1). unfold bind at 1.
  match type of V1 with yinv _ _ ?a ?b => set (s1 := a) in *; set (y1 := b) in * end.
  assert (CH : forall ch, ch = fine \/ short (t_mem s1) -> choice_ok (w_memory w) ch) by (intros ch [->|H]; [now left|right; exact H]).
  assert (FIN : forall ch, (ch = fine \/ short (t_mem s1)) -> s_last default (Some (p, w)) false y (s_default_turn y1 w ch default code)).
  { intros ch C. unfold y1. eapply sl_default; [exact P|now apply CH]. }
  unfold s_default_turn in FIN. revert FIN.
  destruct (code =? U_CALLBACK_UNAUTHORIZED).
  { intros FIN. destruct (unauthorized_ok N fr s1 y1 w default V1 FR1) as (s2 & ch & -> & C & V2). exists s2. eexists. split; [reflexivity|]. split; [exact (FIN ch C)|exact V2]. }
  destruct (code =? U_CALLBACK_ERROR).
  { intros FIN. destruct (error_ok N fr s1 y1 w V1 FR1) as (s2 & ch & E & C & V2). exists s2. eexists. split; [exact E|]. split; [exact (FIN ch C)|exact V2]. }
  destruct ((code =? U_CALLBACK_CONTINUE) || (code =? U_CALLBACK_IGNORE) || (code =? U_CALLBACK_COMPLETE)).
  { intros FIN. destruct (complete_ok N fr s1 y1 w V1 FR1) as (s2 & ch & -> & C & V2 & _). exists s2. eexists. split; [reflexivity|]. split; [exact (FIN ch C)|exact V2]. }
  intros FIN. exists s1, y1. split; [reflexivity|]. split; [apply (FIN fine); now left|exact V1].
Qed.

(** ** the end of the request *)
Definition left_blocks (d : option dresp) : list nat := match d with Some d => resp_blocks (d_id d, d_resp d) | None => [] end.
Definition left_rel (N : Z) (d : option dresp) (b : option adresp) : Prop :=
  match d, b with None, None => True | Some d, Some b => dinv N d b | _, _ => False end.
Definition sent_ok (N : Z) (fr : list nat) (res : outcome (queued * list Z * (mem * option dresp))) (f : fate) : Prop :=
  exists q log m1 left a log2 m2 gone, res = Ret (q, log, (m1, left)) /\ x_sent m1 q = Ret (a, (m2, log2)) /\ a = f_answer f /\ log ++ log2 = f_log f /\
    length gone = f_lost f /\ left_rel N left (f_left f) /\ mowns m2 (left_blocks left ++ gone ++ fr).

Lemma content_ok : forall m c b ids, crel c b -> mowns m (cb (Some c) ++ ids) -> x_content m c = Ret b.
Proof.
  intros m [[[i x]|] n|d] [y|d'] ids R O; cbn [crel x_content] in *; try contradiction.
  - destruct R as [R ->]. rewrite (x_deref_ok _ m i x _ O) by (cbn [cb ptr_blocks]; now left). unfold bind. cbn [snd]. replace (zlen x <? n) with false by (symmetry; apply Z.ltb_ge; lia). reflexivity.
  - destruct R as [R ->]. replace (0 <? n) with false by (symmetry; apply Z.ltb_ge; lia). reflexivity.
  - now subst.
Qed.

Lemma finish_ok : forall N fr s y queues, yinv N fr s y -> sent_ok N fr (x_finish s queues) (s_finish y queues).
Proof.
  intros N fr s y queues [V1 V2 V3 V4 V5 V6 (gone & LG & O)]. unfold x_finish, s_finish, sent_ok.
  destruct (t_mhd s) as [c|] eqn:EM, (y_mhd y) as [b|]; cbn [orel] in V2; try contradiction.
  2:{ do 3 eexists. exists (Some (t_resp s)). do 3 eexists. exists gone. split; [reflexivity|]. cbn [f_answer f_log f_lost f_left left_rel left_blocks]. split; [reflexivity|].
      split; [reflexivity|]. split; [rewrite app_nil_r; exact V6|]. split; [exact LG|]. split; [exact V1|]. cbn [cb app] in O. rewrite resp_inner. mowns_by O. }
  cbv zeta.
  assert (G : (if t_inner s =? U_CALLBACK_UNAUTHORIZED then do r <- x_realm (t_mem s) (t_realm s); Ret (401, r) else Ret (d_status (t_resp s), None)) =
              Ret (if y_401 y then (401, y_realm y) else (b_status (y_resp y), None))).
  { rewrite V4. destruct V1 as (I & ES & _). destruct (y_401 y); [|congruence]. destruct (t_realm s) as [[i t|t]|]; cbn [rrel x_realm] in *.
    - destruct V5 as [Q ->]. rewrite (x_deref_ok _ (t_mem s) i t _ O); [reflexivity|]. apply in_or_app. left.
      pose proof (incl_refl (inner (d_resp (t_resp s)))) as IR. remember (d_resp (t_resp s)) as r0. openr I. apply incl_mkr in IR. injection Q as Q. subst rl. apply IR. unfold rb. cbn [ptr_blocks]. rewrite ?in_app_iff. right. right. left. now left.
    - now rewrite V5.
    - now rewrite V5. }
  rewrite G. unfold bind at 1. clear G.
  assert (EH : match d_shared (t_resp s) with Some (data, true) => [data] | _ => [] end = owned (b_shared (y_resp y))) by (destruct V1 as (_ & _ & _ & ->); reflexivity).
  rewrite EH. destruct queues.
  - unfold bind at 1. cbn [fst snd].
    destruct (clean_full_ok false N (t_mem s) (d_id (t_resp s)) (d_resp (t_resp s)) _ (cb (Some c) ++ gone ++ fr) (proj1 V1)) as (m2 & -> & O2 & _).
    { rewrite resp_inner. mowns_by O. }
    unfold bind at 1. destruct (destroy_ok m2 c b (gone ++ fr) V2 O2) as (m3 & ED & O3).
    do 3 eexists. exists None. do 3 eexists. exists gone. split; [reflexivity|]. cbn [f_answer f_log f_lost f_left left_rel left_blocks x_sent].
    rewrite (content_ok m2 c b _ V2 O2). unfold bind at 1. rewrite ED. unfold bind at 1. split; [reflexivity|]. split; [reflexivity|].
    split; [rewrite V6; cbn [app]; rewrite <- app_assoc; reflexivity|]. split; [exact LG|]. split; [exact Logic.I|]. exact O3.
  - destruct (destroy_ok (t_mem s) c b (inner (d_resp (t_resp s)) ++ d_id (t_resp s) :: gone ++ fr) V2) as (m1 & -> & O1); [mowns_by O|]. unfold bind at 1. cbn [fst snd].
    destruct (clean_full_ok false N m1 (d_id (t_resp s)) (d_resp (t_resp s)) _ (gone ++ fr) (proj1 V1)) as (m2 & -> & O2 & _).
    { rewrite resp_inner. mowns_by O1. }
    unfold bind at 1. do 3 eexists. exists None. do 3 eexists. exists gone. split; [reflexivity|]. cbn [f_answer f_log f_lost f_left left_rel left_blocks x_sent]. split; [reflexivity|]. split; [reflexivity|].
    split; [rewrite V6, !app_nil_r; reflexivity|]. split; [exact LG|]. split; [exact Logic.I|]. exact O2.
Qed.

(** ** a request. The settings of the instance: a map in [fr] *)
Definition headers_in (N : Z) (fr : list nat) (headers : option (nat * fmap)) (a : amap) : Prop :=
  match headers with None => a = [] | Some (i, f) => linked N (i, f) a /\ incl (map_blocks (i, f)) fr end.
Lemma default_headers_ok : forall N fr p m headers a ih ik iv il iw pl, headers_in N fr headers a -> ~ short m -> 0 <= N -> N + 1 < two64 ->
  mowns m (inner (mkr None ih ik iv il [] None None 0 None 0 iw None None pl None) ++ p :: fr) ->
  exists m' r, x_default_headers m (mkr None ih ik iv il [] None None 0 None 0 iw None None pl None) headers = Ret (m', r) /\
    rinv false N r (set_header new_resp a) /\ mowns m' (inner r ++ p :: fr).
Proof.
  intros N fr p m headers a ih ik iv il iw pl H NS N0 NT O. unfold x_default_headers. destruct headers as [[i f]|]; cbn [headers_in] in H.
  - destruct H as [(jk & jv & jl & es & E & F & ND) C]. cbn [snd] in E. subst f.
    rewrite (x_deref_ok _ m i _ _ O) by (apply in_or_app; right; right; apply C; now left). unfold bind at 1. cbn [snd mkf f_nb].
    destruct es as [|e es].
    + cbn [length Nat.eqb]. do 2 eexists. split; [reflexivity|]. split; [|exact O]. inversion F; subst. do 16 eexists. split; [reflexivity|]. constructor; cbn; auto; try constructor. exists [], []. auto.
    + cbn [length Nat.eqb]. members. unfold bind at 1.
      destruct (x_clean_full_ok m ih ik iv il [] (iw :: pl :: p :: fr)) as (m1 & -> & O1 & L1).
      { eapply mowns_ext; [exact O|]. intros x. rewrite cnt_app, inner_mkr. unfold rb. cbn [ckb exb ptr_blocks app]. repeat rewrite ?cnt_app, ?cnt_cons, ?cnt_nil. lia. }
      unfold bind at 1.
      assert (CF : incl (fb jk jv jl (e :: es)) (iw :: pl :: p :: fr)).
      { intros x X. do 3 right. apply C. assert (HH : (0 < cnt (i :: fb jk jv jl (e :: es)) x)%nat) by (rewrite cnt_cons; assert (0 < cnt (fb jk jv jl (e :: es)) x)%nat by (unfold cnt; now apply count_occ_In); lia).
        rewrite <- blocks_mkf in HH. unfold cnt in HH. now apply count_occ_In in HH. }
      destruct (x_copy_ok N m1 jk jv jl (e :: es) a _ O1 CF F ND N0 NT) as (m2 & o & E2 & L2 & CASE).
      change (mk_fmap (Some (jk, map (fun e0 : hent => Some (hk e0)) (e :: es) ++ [None])) (Some (jv, map hv (e :: es) ++ [None])) (Some (jl, map hl (e :: es) ++ [0])) (S (length es))) with (mkf jk jv jl (e :: es)).
      rewrite E2. unfold bind at 1. cbn [fst snd].
      destruct CASE as [(kk & kv & kl & es' & kh & -> & F2 & O2)|(_ & S2 & _)]; [|elim NS; now apply L1].
      exists m2, (mkr None kh kk kv kl es' None None 0 None 0 iw None None pl None). split; [reflexivity|]. split.
      * do 16 eexists. split; [reflexivity|]. constructor; cbn; auto. exists [], []. auto.
      * rby O2.
  - subst a. do 2 eexists. split; [reflexivity|]. split; [|exact O]. do 16 eexists. split; [reflexivity|]. constructor; cbn; auto; [constructor|]. exists [], []. auto.
Qed.

Lemma nf_brelp : forall i, brelp (Some (i, not_found_text ++ [0])) (zlen not_found_text) (Some not_found_text).
Proof. intros i. cbn [brelp]. rewrite zlen_nul, zfirstn_nul. pose proof (zlen_nonneg _ not_found_text). split; [lia|reflexivity]. Qed.

Lemma request_ok1 : forall N fr m headers a realm q, headers_in N fr headers a -> mowns m fr -> request_ok N q -> 0 <= N -> N + 1 < two64 ->
  exists f, s_request a realm q f /\ sent_ok N fr (x_request m headers realm q) f.
Proof.
  intros N fr m headers a realm q H O (MO & NS & FE & FD) N0 NT. unfold x_request. destruct (rq_endpoints q) as [|e l] eqn:EQ.
  - cbv zeta. destruct (x_malloc_ok _ _ (answers_owns m (w_memory (rq_world q)) _ O)) as (p & m1 & -> & L1 & [(i & -> & O1)|(-> & S1 & O1)]).
    2:{ eexists. split; [apply sq_unknown_fail; assumption|]. do 3 eexists. exists None. do 3 eexists. exists []. split; [reflexivity|]. split; [reflexivity|]. repeat (split; [first [reflexivity|exact Logic.I]|]). exact O1. }
    destruct (create_ok (rq_world q) _ _ _ (nf_brelp i)) as (R & old & LO & CN).
    destruct (s_create (rq_world q) (Some not_found_text) (zlen not_found_text)) as [c lost] eqn:SC. cbn [fst snd] in *.
    eexists. split; [eapply sq_unknown; [exact EQ|exact SC]|].
    assert (O2 : mowns m1 (cb (x_create (rq_world q) (Some (i, not_found_text ++ [0])) (zlen not_found_text)) ++ old ++ fr)).
    { eapply mowns_ext; [exact O1|]. intros x. specialize (CN x). cbn [ptr_blocks] in CN. repeat rewrite ?cnt_app, ?cnt_cons, ?cnt_nil in *. lia. }
    destruct (x_create (rq_world q) (Some (i, not_found_text ++ [0])) (zlen not_found_text)) as [cc|], c as [b|]; cbn [orel] in R; try contradiction.
    + destruct (destroy_ok m1 cc b _ R O2) as (m2 & ED & O3).
      assert (GU : given_up (Some b) = []) by (unfold s_create in SC; destruct (w_creates (rq_world q) && true); injection SC as <- <-; reflexivity).
      destruct (rq_queues q).
      * do 3 eexists. exists None. do 3 eexists. exists old. split; [reflexivity|]. cbn [x_sent]. rewrite (content_ok m1 cc b _ R O2). unfold bind at 1. rewrite ED. unfold bind at 1.
        split; [reflexivity|]. split; [reflexivity|]. split; [rewrite GU; reflexivity|]. split; [exact LO|]. split; [exact Logic.I|]. exact O3.
      * rewrite ED. unfold bind at 1. cbn [fst snd]. do 3 eexists. exists None. do 3 eexists. exists old. split; [reflexivity|]. split; [reflexivity|]. split; [reflexivity|].
        split; [rewrite GU; reflexivity|]. split; [exact LO|]. split; [exact Logic.I|]. exact O3.
    + do 3 eexists. exists None. do 3 eexists. exists old. split; [reflexivity|]. split; [reflexivity|]. repeat (split; [first [reflexivity|exact Logic.I|exact LO]|]). exact O2.
  - destruct (x_malloc_ok _ _ (answers_owns m (rq_first q) _ O)) as (p0 & m1 & E1 & L1 & [(p & -> & O1)|(-> & S1 & O1)]); rewrite E1.
    2:{ eexists. split; [apply sq_new_fail; [rewrite EQ; discriminate|exact S1]|]. do 3 eexists. exists None. do 3 eexists. exists []. split; [reflexivity|]. split; [reflexivity|]. repeat (split; [first [reflexivity|exact Logic.I]|]). exact O1. }
    assert (MO1 : ~ short m1 \/ hd true (m_new m1) = false).
    { cbn [memory_ok] in MO. pose proof (malloc_left _ _ _ E1) as ML. cbn [set_answers m_new] in ML. rewrite ML. destruct MO as [MO|[MO|(z & MO)]].
      - left. intros S1. apply MO. now apply L1.
      - exfalso. destruct (malloc_first (set_answers m (rq_first q)) MO) as (m' & E'). rewrite E' in E1. discriminate.
      - right. rewrite MO. reflexivity. }
    destruct (init_ok false N m1 _ O1 MO1) as (c & m2 & r & -> & L2 & [(-> & NS1 & (ih & ik & iv & il & iw & pl & ->) & I & O2)|(-> & S2 & O2)]).
    2:{ unfold bind at 1. change (negb (U_ERROR_MEMORY =? U_OK)) with true. cbn iota. destruct (x_free_ok _ _ _ O2) as (m3 & -> & O3 & _). unfold bind at 1.
        eexists. split; [apply sq_new_fail; [rewrite EQ; discriminate|apply L1; exact S2]|]. do 3 eexists. exists None. do 3 eexists. exists []. split; [reflexivity|]. split; [reflexivity|]. repeat (split; [first [reflexivity|exact Logic.I]|]). exact O3. }
    unfold bind at 1. change (negb (U_OK =? U_OK)) with false. cbn iota.
    destruct (default_headers_ok N fr p (set_answers m2 (rq_second q)) headers a ih ik iv il iw pl H NS N0 NT (answers_owns _ _ _ O2)) as (m3 & r & -> & I3 & O3).
    unfold bind at 1. cbv zeta. cbn [fst snd].
    destruct (endpoints_ok N fr realm (e :: l) (mk_st m3 (mk_dresp p r 200 None None) None 0 U_OK None []) (mk_ystate (mk_adresp (set_header new_resp a) 200 None None) None 0 false None [] 0%nat) false)
      as (pos & s1 & y1 & -> & SE & V1 & R1); auto.
    { constructor; cbn [t_mem t_resp t_mhd t_len t_inner t_realm t_log y_resp y_mhd y_len y_401 y_realm y_log y_lost orel rrel d_resp d_id cb app]; auto; [split; auto|]. exists []. split; [reflexivity|exact O3]. }
    { split; reflexivity. } { discriminate. }
    unfold bind at 1. cbn [fst snd].
    assert (G : exists s2 y2, (match rq_default q with Some e0 => if pos then Ret s1 else x_default s1 realm e0 | None => Ret s1 end) = Ret s2 /\ s_last realm (rq_default q) pos y1 y2 /\ yinv N fr s2 y2).
    { destruct (rq_default q) as [[dp dw]|]; [|exists s1, y1; split; [reflexivity|]; split; [constructor|exact V1]]. destruct pos; [exists s1, y1; split; [reflexivity|]; split; [constructor|exact V1]|].
      destruct (default_ok N fr s1 y1 realm dp dw V1 (R1 eq_refl) FD N0 NT) as (s2 & y2 & -> & SL & V2). exists s2, y2. auto. }
    destruct G as (s2 & y2 & -> & SL & V2). unfold bind at 1. exists (s_finish y2 (rq_queues q)).
    split; [eapply sq_run; [rewrite EQ; discriminate|rewrite EQ; exact SE|exact SL]|]. now apply finish_ok.
Qed.

(** any number of requests *)
Definition lefts (fs : list fate) : list adresp := flat_map (fun f => match f_left f with Some b => [b] | None => [] end) fs.
Definition lost_all (fs : list fate) : nat := list_sum (map f_lost fs).
Lemma requests_ok : forall N headers a realm qs fr m, headers_in N fr headers a -> mowns m fr -> Forall (request_ok N) qs -> 0 <= N -> N + 1 < two64 ->
  exists fs m' ds gone, x_requests m headers realm qs = Ret (map (fun f => (f_answer f, f_log f)) fs, m') /\ s_requests a realm qs fs /\
    Forall2 (dinv N) ds (lefts fs) /\ length gone = lost_all fs /\ mowns m' (flat_map (fun d => resp_blocks (d_id d, d_resp d)) ds ++ gone ++ fr).
Proof.
  intros N headers a realm. induction qs as [|q qs IH]; intros fr m H O F N0 NT; cbn [x_requests].
  - exists [], m, [], []. split; [reflexivity|]. split; [constructor|]. split; [constructor|]. auto.
  - inversion F as [|? ? F1 F2]; subst. destruct (request_ok1 N fr m headers a realm q H O F1 N0 NT) as (f & SR & (ans & log & m1 & left & b & log2 & m2 & gone & -> & E2 & EA & EL & LG & LR & O2)).
    unfold bind at 1. rewrite E2. unfold bind at 1.
    destruct (IH (left_blocks left ++ gone ++ fr) m2) as (fs & m3 & ds & gone2 & -> & SR2 & FD & LG2 & O3); auto.
    { destruct headers as [[i fm]|]; [|exact H]. destruct H as [HL HI]. split; [exact HL|]. intros x X. apply in_or_app. right. apply in_or_app. right. now apply HI. }
    unfold bind. cbn [fst snd]. exists (f :: fs), m3, ((match left with Some d => [d] | None => [] end) ++ ds), (gone ++ gone2).
    split; [cbn [map]; rewrite EA, EL; reflexivity|]. split; [constructor; assumption|]. split.
    + unfold lefts. cbn [flat_map]. apply Forall2_app; [|exact FD]. destruct left as [d|], (f_left f); cbn [left_rel] in LR; try contradiction; auto.
    + split; [rewrite app_length, LG, LG2; reflexivity|]. eapply mowns_ext; [exact O3|]. intros x. rewrite flat_map_app. unfold left_blocks. destruct left as [d|]; cbn [flat_map app];
        repeat rewrite ?cnt_app, ?cnt_cons, ?cnt_nil; lia.
Qed.
