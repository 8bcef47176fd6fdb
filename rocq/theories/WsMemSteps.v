(** Proofs about the memory of websockets (C99): whole runs of a program. *)
From Coq Require Import ZArith Bool List Lia.
From Verif Require Import Base BaseFacts UMapModel UMapProofs OwnModel OwnSpec OwnProofs MapMemModel MapMemSpec MapMemProofs MapMemPut MapMemRun MapMemSteps
  RespMemModel RespMemSpec RespMemProofs RespMemSteps WsMemModel WsMemSpec WsMemProofs WsMemCalls WsMemRecv.
Import ListNotations.
Open Scope Z_scope.

(** ** a websocket of the program *)
Definition vlinked (v : wsrec) (a : aws) : Prop :=
  v_server v = a_server a /\ v_runs v = a_runs a /\ prel (v_prev v) (a_part a) /\ (v_runs v = false -> v_prev v = None) /\
  exists pm g, v_ws v = Some (Some (pm, g)) /\ ginv g a.
Definition mlinked (p : ptr hmsg) (a : amsg) : Prop := exists q, p = Some q /\ mrel q a.
Definition olinked (v : option wsrec) (a : option aws) : Prop := match v, a with Some v, Some a => vlinked v a | None, None => True | _, _ => False end.
Definition oblocks (v : option wsrec) : list nat := match v with Some v => ws_blocks v | None => [] end.
Definition wpinv (s : wprog) (st : astate) (gone : list nat) : Prop :=
  Forall2 vlinked (y_wss s) (fst st) /\ Forall2 mlinked (y_msgs s) (snd st) /\ mowns (y_mem s) (wprog_blocks s ++ gone).
Lemma ws_blocks_eq : forall b pm g sv pr rn, ws_blocks (mk_wsrec b (Some (Some (pm, g))) sv pr rn) = b :: (pm :: gb g) ++ msg_blocks pr.
Proof. reflexivity. Qed.
Lemma wpick : forall s st gone i v, wpinv s st gone -> nth_error (y_wss s) i = Some v ->
  exists a rest, nth_error (fst st) i = Some a /\ vlinked v a /\ mowns (y_mem s) (ws_blocks v ++ rest) /\
    forall m' ov oa qs qa more, olinked ov oa -> Forall2 mlinked qs qa -> mowns m' (oblocks ov ++ flat_map msg_blocks qs ++ more ++ rest) ->
      wpinv (mk_wprog m' (place (y_wss s) i ov) (y_msgs s ++ qs)) (place (fst st) i oa, snd st ++ qa) (more ++ gone).
Proof.
  intros s st gone i v (F & Q & W) N. destruct (pick2 _ _ _ _ _ _ _ F N) as (u & w & u' & a & w' & EU & EA & Lu & Lu' & Fu & V & Fw).
  exists a, (flat_map ws_blocks u ++ flat_map ws_blocks w ++ flat_map msg_blocks (y_msgs s) ++ gone). split; [rewrite EA, <- Lu'; apply nth_mid|]. split; [exact V|]. split.
  - eapply mowns_ext; [exact W|]. intros x. unfold wprog_blocks. rewrite EU, flat_map_app. cbn [flat_map]. repeat rewrite ?cnt_app. lia.
  - intros m' ov oa qs qa more OL FQ W'. split; [|split].
    + cbn [y_wss fst]. rewrite EU, EA. destruct ov as [v'|], oa as [a'|]; cbn [olinked] in OL; try contradiction; cbn [place].
      * rewrite <- Lu at 1. rewrite <- Lu'. rewrite !set_nth_mid. apply f2_app; [exact Fu|]. constructor; assumption.
      * rewrite <- Lu at 1. rewrite <- Lu'. rewrite !drop_mid. apply f2_app; assumption.
    + cbn [y_msgs snd]. apply f2_app; assumption.
    + cbn [y_mem]. eapply mowns_ext; [exact W'|]. intros x. unfold wprog_blocks. cbn [y_wss y_msgs]. rewrite EU, (flat_map_app _ (y_msgs s)).
      destruct ov as [v'|]; cbn [place oblocks].
      * rewrite <- Lu. rewrite set_nth_mid, flat_map_app. cbn [flat_map]. repeat rewrite ?cnt_app. lia.
      * rewrite <- Lu. rewrite drop_mid, flat_map_app. repeat rewrite ?cnt_app, ?cnt_nil. lia.
Qed.
Lemma wpick_none : forall s st gone i, wpinv s st gone -> nth_error (y_wss s) i = None -> nth_error (fst st) i = None.
Proof. intros s st gone i (F & _ & _) N. eapply pick2_none; eauto. Qed.

(** a call on one websocket *)
Lemma the_man_ok : forall m v a rest, vlinked v a -> mowns m (ws_blocks v ++ rest) -> exists pm g, v_ws v = Some (Some (pm, g)) /\ ginv g a /\ the_man m v = Ret (pm, g) /\
  mowns m (gb g ++ (v_block v :: pm :: msg_blocks (v_prev v) ++ rest)).
Proof.
  intros m v a rest (_ & _ & _ & _ & pm & g & VW & I) W. exists pm, g. split; [exact VW|]. split; [exact I|]. unfold ws_blocks in W. rewrite VW in W. cbn [of_member man_blocks] in W. fold (gb g) in W. split.
  - unfold the_man. rewrite (use_ok _ _ (v_block v) (proj1 W)) by now left. unfold bind at 1. rewrite VW. cbn [x_member]. unfold bind. apply (x_deref_ok _ m pm g _ W). right. now left.
  - cbn [app] in W. mowns_by W.
Qed.
Lemma end_thread_ok : forall m v pm g prev a ids, v_server v = a_server a -> ginv (connect g false) (put_runs a false) -> mowns m (msg_blocks prev ++ (v_block v :: pm :: gb g ++ ids)) ->
  exists m' ov, end_thread m v pm g prev = Ret (m', ov) /\ later m m' /\ mowns m' (oblocks ov ++ ids) /\ olinked ov (ended a).
Proof.
  intros m v pm g prev a ids SV I W. unfold end_thread. destruct (x_clear_msg_ok _ _ _ W) as (m1 & -> & W1 & L1). unfold bind at 1. cbv zeta. unfold ended. rewrite SV. destruct (a_server a) eqn:AV.
  - cbn [v_ws]. destruct (x_clear_ws_ok m1 (v_block v) pm (connect g false) _ ids I W1) as (m2 & -> & W2 & L2). unfold bind. do 2 eexists. split; [reflexivity|]. split; [chain|]. split; [exact W2|]. exact Logic.I.
  - do 2 eexists. split; [reflexivity|]. split; [exact L1|]. split.
    + cbn [oblocks]. rewrite ws_blocks_eq. cbn [msg_blocks app]. rewrite app_nil_r, gb_connect. exact W1.
    + cbn [olinked]. unfold vlinked. cbn [v_server v_runs v_prev v_ws a_server a_runs a_part put_part put_runs]. split; [congruence|]. split; [reflexivity|]. split; [exact Logic.I|]. split; [reflexivity|]. do 2 eexists. split; [reflexivity|]. exact I.
Qed.
Lemma fold_keep_server : forall k a, a_server (fold_left keep_incoming k a) = a_server a.
Proof. induction k as [|q k IH]; intros a; [reflexivity|]. cbn [fold_left]. rewrite IH. unfold keep_incoming. destruct (a_keep_in a); reflexivity. Qed.
Lemma keep_out_server : forall a q, a_server (keep_outcoming a q) = a_server a.
Proof. intros a q. unfold keep_outcoming. destruct (a_keep_out a); reflexivity. Qed.
Lemma keep_out_runs : forall a q, a_runs (keep_outcoming a q) = a_runs a.
Proof. intros a q. unfold keep_outcoming. destruct (a_keep_out a); reflexivity. Qed.
Lemma a_send_kept : forall E a op d, a_server (snd (a_send E a op d)) = a_server a /\ a_runs (snd (a_send E a op d)) = a_runs a.
Proof.
  intros E a op d. unfold a_send. destruct (a_runs a) eqn:RN; [|auto]. destruct (through E a op d); [|auto]. destruct (sendable op); [|auto]. cbn [snd]. rewrite keep_out_server, keep_out_runs. auto.
Qed.
Ltac frame_kept E a f d :=
  destruct ((fr_op f =? 8) && fr_fin f); [destruct (zlen d <=? 125); cbn [fst]; rewrite ?keep_out_server, ?keep_out_runs; auto|];
  destruct ((fr_op f =? 9) && fr_fin f); [destruct (zlen d <=? 125); [apply a_send_kept|auto]|];
  destruct ((fr_op f =? 10) && fr_fin f); [auto|];
  destruct ((fr_op f =? 0) || (fr_op f =? 1) || (fr_op f =? 2)); [|auto];
  destruct (a_part a); destruct (fr_op f =? 0); try (split; reflexivity); destruct (fr_fin f); try (split; reflexivity);
  match goal with |- context [a_complete E ?b ?o ?r ?x] => let CM := fresh in destruct (a_complete E b o r x) eqn:CM; [|split; reflexivity];
    let K2 := fresh in let K3 := fresh in destruct (complete_kept _ _ _ _ _ _ CM) as (_ & K2 & K3); cbn [fst]; rewrite K2, K3; split; reflexivity end.
Lemma a_frame_kept : forall E a f, a_server (fst (a_frame E a f)) = a_server a /\ a_runs (fst (a_frame E a f)) = a_runs a.
Proof.
  intros E a f. unfold a_frame. cbv zeta.
  destruct (fr_cut f); [frame_kept E a f (fr_data f)|auto|]. destruct (fr_data f) as [|z d]; [frame_kept E a f (@nil Z)|auto].
Qed.
Lemma close_step_ok : forall m v a l rest, vlinked v a -> v_runs v = true -> mowns m (ws_blocks v ++ rest) -> (~ In false (skipn 2 (m_new m)) \/ Forall no_data l) ->
  exists m' ov a', close_step m v l = Ret (m', ov) /\ later m m' /\ mowns m' (oblocks ov ++ rest) /\ olinked ov (ended a') /\
    (a' = a_close a l \/ (short m /\ (a' = a \/ exists n, a' = fold_left keep_incoming (firstn n (awaited (firstn 11 l))) (keep_outcoming a (8, []))))).
Proof.
  intros m v a l rest V RN W MO. destruct (the_man_ok _ _ _ _ V W) as (pm & g & VW & I & TM & W0). unfold close_step. rewrite TM. unfold bind at 1. cbn [fst snd].
  destruct V as (SV & VR & P & _ & _).
  destruct (x_close_ok m g a l (v_block v :: pm :: msg_blocks (v_prev v) ++ rest) I) as (c & m1 & g1 & a1 & -> & L1 & I1 & W1 & K); [congruence|exact W0|exact MO|]. unfold bind at 1. cbn [fst snd].
  assert (SA : a_server a1 = a_server a).
  { destruct K as [-> |(_ & [-> |(n & ->)])]; [unfold a_close|reflexivity|]; rewrite fold_keep_server, keep_out_server; reflexivity. }
  destruct (end_thread_ok m1 v pm g1 (v_prev v) a1 rest) as (m2 & ov & -> & L2 & W2 & OL); [congruence| |mowns_by W1|].
  { apply (ginv_connect _ _ false) in I1. exact I1. }
  exists m2, ov, a1. split; [reflexivity|]. split; [chain|]. auto.
Qed.
Definition wresult (E : env) (s : wprog) (st : astate) (gone : list nat) (o : wop) : Prop :=
  exists c s' st' more, wstep E s o = Ret (c, s') /\ later (y_mem s) (y_mem s') /\ wpinv s' st' (more ++ gone) /\
    ((aw_step E st o = (c, st') /\ more = []) \/ (short (y_mem s) /\ aw_step_fail E st o c st' (length more))).
Lemma on_man_ok : forall E s st gone i o call, wpinv s st gone -> w_target o = i -> (match o with WNew _ _ | WClear _ => False | _ => True end) ->
  (forall m g a ids, ginv g a -> mowns m (gb g ++ ids) -> man_call E m a ids o (call m g)) -> wstep E s o = on_man s i call ->
  (forall a c a', aw_call E a o = (c, (Some a', [])) \/ (exists n, aw_fail E a o c (Some a') n) -> a_runs a' = a_runs a) -> wresult E s st gone o.
Proof.
  intros E s st gone i o call PI T NO MC WS RU. unfold wresult. rewrite WS. unfold on_man.
  assert (AS : aw_step E st o = match nth_error (fst st) (w_target o) with None => (U_ERROR_PARAMS, st) | Some a => let x := aw_call E a o in (fst x, (place (fst st) (w_target o) (fst (snd x)), snd st ++ snd (snd x))) end) by (destruct o; try contradiction; reflexivity).
  destruct (nth_error (y_wss s) i) as [v|] eqn:N.
  - destruct (wpick _ _ _ _ _ PI N) as (a & rest & NA & V & W & BACK). destruct (the_man_ok _ _ _ _ V W) as (pm & g & VW & I & TM & W0). rewrite TM. unfold bind at 1. cbn [fst snd].
    destruct (MC _ _ _ _ I W0) as (c & m' & g' & a' & more & -> & L & I' & W' & K & SA & PA). unfold bind. cbn iota beta.
    destruct V as (SV & VR & P & VN & _).
    assert (RA : a_runs a' = a_runs a) by (apply (RU a c a'); destruct K as [(K & _)|(_ & K)]; [now left|right; eauto]).
    exists c, (mk_wprog m' (set_nth (y_wss s) i (put_man v pm g')) (y_msgs s)), (place (fst st) i (Some a'), snd st), more. split; [reflexivity|]. split; [exact L|]. split.
    + pose proof (BACK m' (Some (put_man v pm g')) (Some a') [] [] more) as B. rewrite !app_nil_r in B. apply B; [|constructor|].
      * cbn [olinked]. unfold vlinked, put_man. cbn [v_server v_runs v_prev v_ws]. rewrite SA, PA, RA. split; [exact SV|]. split; [exact VR|]. split; [exact P|]. split; [exact VN|]. eauto.
      * cbn [oblocks flat_map app]. unfold put_man. rewrite ws_blocks_eq. mowns_by W'.
    + rewrite AS, T, NA. destruct K as [(K & ->)|(SH & K)].
      * left. rewrite K. cbn [fst snd]. rewrite app_nil_r. split; reflexivity.
      * right. split; [exact SH|]. unfold aw_step_fail. destruct o; try contradiction; rewrite T; exists a, (Some a'); auto.
  - pose proof (wpick_none _ _ _ _ PI N) as NA. exists U_ERROR_PARAMS, s, st, []. split; [reflexivity|]. split; [eapply later_refl; apply PI|]. split; [exact PI|]. left. rewrite AS, T, NA. auto.
Qed.

Lemma wstep_ok : forall E s st gone o, wpinv s st gone -> wop_ok o -> w_memory_ok o (m_new (y_mem s)) -> wresult E s st gone o.
Proof.
  intros E s st gone o PI OK MO. destruct o as [server locks|i name rsv f|i k|i|i ki ko|i op data frag|i f|i l|i incoming|j|i].
  - (* a new websocket *)
    cbn [wop_ok] in OK. subst locks. pose proof PI as (F & Q & W). unfold wresult. cbn [wstep].
    destruct (x_new_ws_ok (y_mem s) _ W MO) as (m1 & r & -> & L1 & K). unfold bind. cbn [fst snd]. destruct r as [[p w]|].
    + destruct K as (pm & g & -> & I & W1). exists U_OK. do 2 eexists. exists []. split; [reflexivity|]. split; [exact L1|]. split; [|left; split; reflexivity].
      split; [|split]; cbn [y_wss y_msgs y_mem fst snd].
      * apply f2_app; [exact F|]. constructor; [|constructor]. unfold vlinked. cbn [v_server v_runs v_prev v_ws new_ws a_server a_runs a_part]. split; [reflexivity|]. split; [reflexivity|]. split; [exact Logic.I|]. split; [reflexivity|]. exists pm, g. auto.
      * exact Q.
      * eapply mowns_ext; [exact W1|]. intros x. unfold wprog_blocks. cbn [y_wss y_msgs]. rewrite flat_map_app. cbn [flat_map]. rewrite ws_blocks_eq. cbn [msg_blocks app]. repeat rewrite ?cnt_app, ?cnt_cons, ?cnt_nil. lia.
    + destruct K as (SH & W1). exists U_ERROR_MEMORY. do 2 eexists. exists []. split; [reflexivity|]. split; [exact L1|]. split; [split; [exact F|split; [exact Q|exact W1]]|]. right. split; [exact SH|]. cbn. auto.
  - (* an extension *)
    eapply (on_man_ok E s st gone i); [exact PI|reflexivity|exact Logic.I| |reflexivity|].
    + intros m g a ids I W. now apply x_add_wext_ok.
    + intros a c a' [H|(n & H)]; [injection H as _ <-; reflexivity|]. inversion H; subst; reflexivity.
  - (* an extension is enabled *)
    eapply (on_man_ok E s st gone i); [exact PI|reflexivity|exact Logic.I| |reflexivity|].
    + intros m g a ids I W. now apply x_enable_ok.
    + intros a c a' [H|(n & H)]; [|inversion H; subst; reflexivity]. cbn [aw_call] in H. destruct (nth_error (a_exts a) k) as [e|]; [destruct (ae_on e)|]; injection H as _ <-; reflexivity.
  - (* the thread starts *)
    unfold wresult. cbn [wstep aw_step w_target]. destruct (nth_error (y_wss s) i) as [v|] eqn:N.
    2:{ exists U_ERROR_PARAMS, s, st, []. split; [reflexivity|]. split; [eapply later_refl; apply PI|]. split; [exact PI|]. left. now rewrite (wpick_none _ _ _ _ PI N). }
    destruct (wpick _ _ _ _ _ PI N) as (a & rest & NA & V & W & BACK). destruct (the_man_ok _ _ _ _ V W) as (pm & g & VW & I & TM & W0). rewrite TM. unfold bind. cbn [fst snd]. rewrite NA. cbn [aw_call].
    pose proof V as (SV & VR & P & VN & _). rewrite <- VR. destruct (v_runs v) eqn:RN.
    + exists U_ERROR_PARAMS, s, (place (fst st) i (Some a), snd st), []. split; [reflexivity|]. split; [eapply later_refl; exact W|]. split.
      * pose proof (BACK (y_mem s) (Some v) (Some a) [] [] []) as B. rewrite !app_nil_r in B. cbn [place] in B.
        assert (SN : set_nth (y_wss s) i v = y_wss s). { destruct (pick2 _ _ _ _ _ _ _ (proj1 PI) N) as (u & w & u' & b & w' & EU & _ & Lu & _). rewrite EU, <- Lu. apply set_nth_mid. }
        rewrite SN in B. destruct s as [sm sw sq]. cbn [y_wss y_msgs y_mem] in *. apply B; [exact V|constructor|exact W].
      * left. cbn [fst snd]. rewrite app_nil_r. auto.
    + eexists. eexists. exists (place (fst st) i (Some (put_runs a true)), snd st), []. split; [reflexivity|]. split; [eapply later_refl; exact W|]. split.
      * pose proof (BACK (y_mem s) (Some (mk_wsrec (v_block v) (Some (Some (pm, connect g true))) (v_server v) (v_prev v) true)) (Some (put_runs a true)) [] [] []) as B. rewrite !app_nil_r in B. apply B; [|constructor|].
        { cbn [olinked]. unfold vlinked. cbn [v_server v_runs v_prev v_ws put_runs a_server a_runs a_part]. split; [exact SV|]. split; [reflexivity|]. split; [exact P|]. split; [discriminate|]. do 2 eexists. split; [reflexivity|]. now apply ginv_connect. }
        { cbn [oblocks flat_map app]. rewrite ws_blocks_eq, gb_connect. mowns_by W0. }
      * left. cbn [fst snd]. rewrite app_nil_r. auto.
  - (* what is kept *)
    eapply (on_man_ok E s st gone i); [exact PI|reflexivity|exact Logic.I| |reflexivity|].
    + intros m g a ids I W. exists U_OK, m, (with_keep g ki ko), (put_keep a ki ko), []. split; [reflexivity|]. split; [eapply later_refl; exact W|]. split; [now apply ginv_keep|]. split; [exact W|]. split; [left; split; reflexivity|]. split; reflexivity.
    + intros a c a' [H|(n & H)]; [injection H as _ <-; reflexivity|]. inversion H.
  - (* a message is sent *)
    cbn [wop_ok] in OK. destruct (op =? OP_CLOSE) eqn:OC.
    + apply Z.eqb_eq in OC. subst op. unfold wresult. cbn [wstep aw_step w_target]. change (OP_CLOSE =? OP_CLOSE) with true. cbn iota. destruct (nth_error (y_wss s) i) as [v|] eqn:N.
      2:{ exists U_ERROR_PARAMS, s, st, []. split; [reflexivity|]. split; [eapply later_refl; apply PI|]. split; [exact PI|]. left. now rewrite (wpick_none _ _ _ _ PI N). }
      destruct (wpick _ _ _ _ _ PI N) as (a & rest & NA & V & W & BACK). rewrite NA. cbn [aw_call]. change (OP_CLOSE =? 8) with true. cbn iota. pose proof V as (SV & VR & P & VN & _). rewrite <- VR. destruct (v_runs v) eqn:RN.
      * destruct (close_step_ok (y_mem s) v a [] rest V RN W) as (m1 & ov & a1 & -> & L1 & W1 & OL & K); [right; constructor|]. unfold bind. cbn [fst snd].
        do 2 eexists. exists (place (fst st) i (ended a1), snd st), []. split; [reflexivity|]. split; [exact L1|]. split.
        { pose proof (BACK m1 ov (ended a1) [] [] []) as B. rewrite !app_nil_r in B. apply B; [exact OL|constructor|exact W1]. }
        destruct K as [-> |(SH & K)]; [left; rewrite app_nil_r; auto|].
        destruct K as [-> |(n & ->)]; [right; split; [exact SH|]; exists a, (ended a); split; [exact NA|]; split; [|reflexivity]; apply short_send_close; congruence|].
        left. rewrite app_nil_r. unfold a_close. cbn [firstn awaited]. rewrite firstn_nil. auto.
      * exists U_ERROR_PARAMS, s, (place (fst st) i (Some a), snd st), []. split; [reflexivity|]. split; [eapply later_refl; exact W|]. split.
        { pose proof (BACK (y_mem s) (Some v) (Some a) [] [] []) as B. rewrite !app_nil_r in B. cbn [place] in B.
          assert (SN : set_nth (y_wss s) i v = y_wss s). { destruct (pick2 _ _ _ _ _ _ _ (proj1 PI) N) as (u & w & u' & b & w' & EU & _ & Lu & _). rewrite EU, <- Lu. apply set_nth_mid. }
          rewrite SN in B. destruct s as [sm sw sq]. cbn [y_wss y_msgs y_mem] in *. apply B; [exact V|constructor|exact W]. }
        left. cbn [fst snd]. rewrite app_nil_r. auto.
    + eapply (on_man_ok E s st gone i _ (fun m g => x_send E m g op data frag)); [exact PI|reflexivity|exact Logic.I| |cbn [wstep]; now rewrite OC|].
      * intros m g a ids I W. destruct (x_send_ok E m g a op data frag ids I OK W) as (c & m1 & g1 & a1 & R & L1 & I1 & W1 & K). exists c, m1, g1, a1, []. split; [exact R|]. split; [exact L1|]. split; [exact I1|]. split; [exact W1|].
        assert (O8 : (op =? 8) = false) by exact OC.
        destruct K as [K|[(SH & -> & C)|(SH & -> & RN & SE & u & op' & TH & OP & ->)]].
        { split; [left; cbn [aw_call]; rewrite O8, <- K; split; reflexivity|]. unfold a_send in K. destruct (a_runs a); [destruct (through E a op data); [destruct (sendable op)|]|]; injection K as _ ->; unfold keep_outcoming; try destruct (a_keep_out a); split; reflexivity. }
        { split; [right; split; [exact SH|now constructor]|]. split; reflexivity. }
        { split; [right; split; [exact SH|]; eapply short_send_part; eauto|]. unfold keep_outcoming. destruct (a_keep_out a); split; reflexivity. }
      * intros a c a' [H|(n & H)].
        { assert (O8 : (op =? 8) = false) by exact OC. cbn [aw_call] in H. rewrite O8 in H. injection H as _ <-. unfold a_send. destruct (a_runs a) eqn:RN; [destruct (through E a op data); [destruct (sendable op)|]|]; cbn [snd]; unfold keep_outcoming; try destruct (a_keep_out a); exact RN. }
        { inversion H; subst; try reflexivity; try discriminate OC; unfold keep_outcoming; destruct (a_keep_out a); reflexivity. }
  - (* a frame comes *)
    unfold wresult. cbn [wstep aw_step w_target]. destruct (nth_error (y_wss s) i) as [v|] eqn:N.
    2:{ exists U_ERROR_PARAMS, s, st, []. split; [reflexivity|]. split; [eapply later_refl; apply PI|]. split; [exact PI|]. left. now rewrite (wpick_none _ _ _ _ PI N). }
    destruct (wpick _ _ _ _ _ PI N) as (a & rest & NA & V & W & BACK). rewrite NA. cbn [aw_call]. pose proof V as (SV & VR & P & VN & _). rewrite <- VR. destruct (v_runs v) eqn:RN.
    + destruct (the_man_ok _ _ _ _ V W) as (pm & g & VW & I & TM & W0). rewrite TM. unfold bind at 1. cbn [fst snd].
      assert (W0' : mowns (y_mem s) (msg_blocks (v_prev v) ++ gb g ++ (v_block v :: pm :: rest))) by mowns_by W0.
      destruct (x_frame_ok E (y_mem s) g a (v_prev v) f _ I (eq_sym VR) P MO W0') as (m1 & g1 & prev & go & -> & L1 & W1 & T). unfold bind at 1. cbn iota beta. unfold turned in T. destruct go.
      * destruct T as (a1 & I1 & P1 & AF). rewrite AF. cbn [fst snd].
        assert (KEEP : a_server a1 = a_server a /\ a_runs a1 = true).
        { destruct (a_frame_kept E a f) as [K1 K2]. rewrite AF in K1, K2. split; [exact K1|]. cbn [fst] in K2. congruence. }
        destruct KEEP as [SA RA]. do 2 eexists. exists (place (fst st) i (Some a1), snd st), []. split; [reflexivity|]. split; [exact L1|]. split; [|left; rewrite app_nil_r; auto].
        pose proof (BACK m1 (Some (mk_wsrec (v_block v) (Some (Some (pm, g1))) (v_server v) prev true)) (Some a1) [] [] []) as B. rewrite !app_nil_r in B. apply B; [|constructor|].
        { cbn [olinked]. unfold vlinked. cbn [v_server v_runs v_prev v_ws]. rewrite SA, RA. split; [exact SV|]. split; [reflexivity|]. split; [exact P1|]. split; [discriminate|]. eauto. }
        { cbn [oblocks flat_map app]. rewrite ws_blocks_eq. mowns_by W1. }
      * destruct T as (a1 & I1 & ST).
        assert (SA : a_server a1 = a_server a).
        { destruct ST as [AF|(_ & [-> |(_ & op' & _ & ->)])]; [|reflexivity|apply keep_out_server]. pose proof (proj1 (a_frame_kept E a f)) as K1. rewrite AF in K1. exact K1. }
        destruct (end_thread_ok m1 v pm g1 prev a1 rest) as (m2 & ov & -> & L2 & W2 & OL); [congruence|exact I1|mowns_by W1|]. unfold bind. cbn [fst snd].
        do 2 eexists. exists (place (fst st) i (ended a1), snd st), []. split; [reflexivity|]. split; [chain|]. split.
        { pose proof (BACK m2 ov (ended a1) [] [] []) as B. rewrite !app_nil_r in B. apply B; [exact OL|constructor|exact W2]. }
        destruct ST as [AF|(SH & ST)]; [left; rewrite AF; cbn [fst snd]; rewrite app_nil_r; auto|right]. split; [exact SH|]. exists a, (ended a1). split; [exact NA|]. split; [|reflexivity].
        destruct ST as [-> |(F9 & op' & OP & ->)]; [constructor|econstructor; eauto]; congruence.
    + exists U_ERROR_PARAMS, s, (place (fst st) i (Some a), snd st), []. split; [reflexivity|]. split; [eapply later_refl; exact W|]. split.
      { pose proof (BACK (y_mem s) (Some v) (Some a) [] [] []) as B. rewrite !app_nil_r in B. cbn [place] in B.
        assert (SN : set_nth (y_wss s) i v = y_wss s). { destruct (pick2 _ _ _ _ _ _ _ (proj1 PI) N) as (u & w & u' & b & w' & EU & _ & Lu & _). rewrite EU, <- Lu. apply set_nth_mid. }
        rewrite SN in B. destruct s as [sm sw sq]. cbn [y_wss y_msgs y_mem] in *. apply B; [exact V|constructor|exact W]. }
      left. cbn [fst snd]. rewrite app_nil_r. auto.
  - (* the websocket is closed *)
    unfold wresult. cbn [wstep aw_step w_target]. destruct (nth_error (y_wss s) i) as [v|] eqn:N.
    2:{ exists U_ERROR_PARAMS, s, st, []. split; [reflexivity|]. split; [eapply later_refl; apply PI|]. split; [exact PI|]. left. now rewrite (wpick_none _ _ _ _ PI N). }
    destruct (wpick _ _ _ _ _ PI N) as (a & rest & NA & V & W & BACK). rewrite NA. cbn [aw_call]. pose proof V as (SV & VR & P & VN & _). rewrite <- VR. destruct (v_runs v) eqn:RN.
    + destruct (close_step_ok (y_mem s) v a l rest V RN W MO) as (m1 & ov & a1 & -> & L1 & W1 & OL & K). unfold bind. cbn [fst snd].
      do 2 eexists. exists (place (fst st) i (ended a1), snd st), []. split; [reflexivity|]. split; [exact L1|]. split.
      { pose proof (BACK m1 ov (ended a1) [] [] []) as B. rewrite !app_nil_r in B. apply B; [exact OL|constructor|exact W1]. }
      destruct K as [-> |(SH & K)]; [left; rewrite app_nil_r; auto|]. right. split; [exact SH|]. exists a, (ended a1). split; [exact NA|]. split; [|reflexivity].
      destruct K as [-> |(n & ->)]; constructor; congruence.
    + exists U_ERROR_PARAMS, s, (place (fst st) i (Some a), snd st), []. split; [reflexivity|]. split; [eapply later_refl; exact W|]. split.
      { pose proof (BACK (y_mem s) (Some v) (Some a) [] [] []) as B. rewrite !app_nil_r in B. cbn [place] in B.
        assert (SN : set_nth (y_wss s) i v = y_wss s). { destruct (pick2 _ _ _ _ _ _ _ (proj1 PI) N) as (u & w & u' & b & w' & EU & _ & Lu & _). rewrite EU, <- Lu. apply set_nth_mid. }
        rewrite SN in B. destruct s as [sm sw sq]. cbn [y_wss y_msgs y_mem] in *. apply B; [exact V|constructor|exact W]. }
      left. cbn [fst snd]. rewrite app_nil_r. auto.
  - (* a message is taken *)
    unfold wresult. cbn [wstep aw_step w_target]. destruct (nth_error (y_wss s) i) as [v|] eqn:N.
    2:{ exists U_ERROR_PARAMS, s, st, []. split; [reflexivity|]. split; [eapply later_refl; apply PI|]. split; [exact PI|]. left. now rewrite (wpick_none _ _ _ _ PI N). }
    destruct (wpick _ _ _ _ _ PI N) as (a & rest & NA & V & W & BACK). destruct (the_man_ok _ _ _ _ V W) as (pm & g & VW & I & TM & W0). rewrite TM. unfold bind at 1. cbn [fst snd]. rewrite NA. cbn [aw_call].
    pose proof V as (SV & VR & P & VN & _).
    destruct I as (li & lo & ex & es & EG & Li & Lo & A & F).
    assert (GL : exists l la, x_member (if incoming then g_in g else g_out g) = Ret l /\ la = (if incoming then a_in a else a_out a) /\ lrel l la /\
        (forall l' la' m', lrel l' la' -> ginv (if incoming then with_in g l' else with_out g l') (if incoming then put_in a la' else put_out a la') /\
           (mowns m' (mlist_blocks l' ++ (if incoming then mlist_blocks lo else mlist_blocks li) ++ wexts_blocks ex ++ rest) -> True)) /\
        l = (if incoming then li else lo)).
    { subst g. destruct incoming; do 2 eexists; (split; [reflexivity|]); (split; [reflexivity|]); (split; [assumption|]); (split; [|reflexivity]); intros l' la' m' LR; (split; [|auto]).
      - exists l', lo, ex, es. cbn. auto.
      - exists li, l', ex, es. cbn. auto. }
    destruct GL as (l & la & XM & EL & LR & GI & LE). rewrite XM. unfold bind at 1. rewrite <- EL.
    assert (W1 : mowns (y_mem s) (mlist_blocks l ++ ((if incoming then mlist_blocks lo else mlist_blocks li) ++ wexts_blocks ex ++ (v_block v :: pm :: msg_blocks (v_prev v) ++ rest)))).
    { subst g l. unfold gb in W0. cbn [g_in g_out g_exts of_member] in W0. destruct incoming; mowns_by W0. }
    pose proof (x_pop_ok _ _ _ _ LR W1) as POP.
    assert (GBI : forall l', gb (if incoming then with_in g l' else with_out g l') = if incoming then mlist_blocks l' ++ mlist_blocks lo ++ wexts_blocks ex else mlist_blocks li ++ mlist_blocks l' ++ wexts_blocks ex) by (intros l'; subst g; destruct incoming; reflexivity).
    destruct la as [|b la].
    + rewrite POP. unfold bind. cbn iota beta. do 2 eexists. exists (place (fst st) i (Some a), snd st), []. split; [reflexivity|]. split; [eapply later_refl; exact W|]. split.
      * pose proof (BACK (y_mem s) (Some (put_man v pm (if incoming then with_in g l else with_out g l))) (Some a) [] [] []) as B. cbn [place] in B. rewrite (app_nil_r (snd st)) in B. apply B; [|constructor|].
        { cbn [olinked]. unfold vlinked, put_man. cbn [v_server v_runs v_prev v_ws]. split; [exact SV|]. split; [exact VR|]. split; [exact P|]. split; [exact VN|]. do 2 eexists. split; [reflexivity|].
          destruct (GI l [] (y_mem s) LR) as [GI1 _]. destruct incoming; [|]; rewrite EL in GI1; destruct a; exact GI1. }
        { cbn [oblocks flat_map app]. unfold put_man. rewrite ws_blocks_eq, GBI. destruct incoming; mowns_by W1. }
      * left. cbn [fst snd is_null]. rewrite app_nil_r. auto.
    + destruct POP as (q & m1 & l1 & -> & MQ & LR1 & W2 & L1). unfold bind. cbn iota beta.
      do 2 eexists. exists (place (fst st) i (Some (if incoming then put_in a la else put_out a la)), snd st ++ [b]), []. split; [reflexivity|]. split; [exact L1|]. split; [|left; split; [reflexivity|reflexivity]].
      pose proof (BACK m1 (Some (put_man v pm (if incoming then with_in g l1 else with_out g l1))) (Some (if incoming then put_in a la else put_out a la)) [Some q] [b] []) as B. apply B.
      * cbn [olinked]. unfold vlinked, put_man. cbn [v_server v_runs v_prev v_ws]. destruct (GI l1 la m1 LR1) as [GI1 _]. destruct incoming; (split; [exact SV|]; split; [exact VR|]; split; [exact P|]; split; [exact VN|]; eauto).
      * constructor; [|constructor]. exists q. auto.
      * cbn [oblocks flat_map]. rewrite app_nil_r. change (msg_blocks (Some q)) with (mb q). unfold put_man. rewrite ws_blocks_eq, GBI. destruct incoming; mowns_by W2.
  - (* a message is released *)
    pose proof PI as (F & Q & W). unfold wresult. cbn [wstep aw_step]. destruct (nth_error (y_msgs s) j) as [q|] eqn:N.
    + destruct (pick2 _ _ _ _ _ _ _ Q N) as (u & w & u' & b & w' & EU & EA & Lu & Lu' & Fu & V & Fw).
      assert (W0 : mowns (y_mem s) (msg_blocks q ++ (flat_map ws_blocks (y_wss s) ++ flat_map msg_blocks u ++ flat_map msg_blocks w ++ gone))).
      { eapply mowns_ext; [exact W|]. intros x. unfold wprog_blocks. rewrite EU, flat_map_app. cbn [flat_map]. repeat rewrite ?cnt_app. lia. }
      destruct (x_clear_msg_ok _ _ _ W0) as (m1 & -> & W1 & L1). unfold bind. assert (NB : nth_error (snd st) j = Some b) by (rewrite EA, <- Lu'; apply nth_mid). rewrite NB.
      do 2 eexists. exists (fst st, drop j (snd st)), []. split; [reflexivity|]. split; [exact L1|]. split; [|left; split; reflexivity].
      split; [exact F|]. split; [cbn [y_msgs snd]; rewrite EU, EA; rewrite <- Lu at 1; rewrite <- Lu'; rewrite !drop_mid; apply f2_app; assumption|]. cbn [y_mem]. eapply mowns_ext; [exact W1|]. intros x. unfold wprog_blocks. cbn [y_wss y_msgs]. rewrite EU, <- Lu, drop_mid, flat_map_app. cbn [app]. repeat rewrite ?cnt_app. lia.
    + assert (NB : nth_error (snd st) j = None) by (eapply pick2_none; eauto). exists U_ERROR_PARAMS, s, st, []. split; [reflexivity|]. split; [eapply later_refl; exact W|]. split; [exact PI|]. left. rewrite NB. auto.
  - (* a websocket is released *)
    unfold wresult. cbn [wstep aw_step w_target]. destruct (nth_error (y_wss s) i) as [v|] eqn:N.
    2:{ exists U_ERROR_PARAMS, s, st, []. split; [reflexivity|]. split; [eapply later_refl; apply PI|]. split; [exact PI|]. left. now rewrite (wpick_none _ _ _ _ PI N). }
    destruct (wpick _ _ _ _ _ PI N) as (a & rest & NA & V & W & BACK). rewrite NA. cbn [aw_call fst snd].
    assert (G : exists m1 ov oa, (if v_runs v then close_step (y_mem s) v [] else Ret (y_mem s, Some v)) = Ret (m1, ov) /\ later (y_mem s) m1 /\ mowns m1 (oblocks ov ++ rest) /\ olinked ov oa /\ (forall v1, ov = Some v1 -> v_prev v1 = None)).
    { destruct (v_runs v) eqn:RN.
      - destruct (close_step_ok (y_mem s) v a [] rest V RN W) as (m1 & ov & a1 & R & L1 & W1 & OL & _); [right; constructor|]. exists m1, ov, (ended a1). split; [exact R|]. split; [exact L1|]. split; [exact W1|]. split; [exact OL|].
        intros v1 ->. unfold ended in OL. destruct (a_server a1); [contradiction|]. destruct OL as (_ & OL & _ & OV & _). apply OV. exact OL.
      - exists (y_mem s), (Some v), (Some a). split; [reflexivity|]. split; [eapply later_refl; exact W|]. split; [exact W|]. split; [exact V|]. intros v1 E1. injection E1 as <-. now apply V. }
    destruct G as (m1 & ov & oa & R & L1 & W1 & OL & VP). go R. cbn [fst snd].
    assert (G2 : exists m2, (match ov with None => Ret m1 | Some v1 => x_clear_ws m1 (v_block v1) (v_ws v1) end) = Ret m2 /\ later m1 m2 /\ mowns m2 rest).
    { destruct ov as [v1|].
      - destruct oa as [a1|]; [|contradiction]. cbn [oblocks] in W1. destruct (the_man_ok _ _ _ _ OL W1) as (pm & g & VW & I & _ & W2). rewrite (VP v1 eq_refl) in W2. rewrite VW. cbn [msg_blocks app] in W2.
        destruct (x_clear_ws_ok m1 (v_block v1) pm g a1 rest I) as (m2 & -> & W3 & L3); [mowns_by W2|]. eauto.
      - exists m1. split; [reflexivity|]. split; [eapply later_refl; exact W1|exact W1]. }
    destruct G2 as (m2 & R2 & L2 & W2). go R2. do 2 eexists. exists (place (fst st) i None, snd st), []. split; [reflexivity|]. split; [chain|]. split; [|left; rewrite app_nil_r; auto].
    pose proof (BACK m2 None None [] [] []) as B. rewrite !app_nil_r in B. apply B; [exact Logic.I|constructor|exact W2].
Qed.

(** ** runs *)
Lemma wrun_ok : forall E ops s st gone, wpinv s st gone -> Forall (fun x => wop_ok (snd x) /\ w_memory_ok (snd x) (fst x)) ops ->
  exists cs s' st' more, wrun E s ops = Ret (cs, s') /\ aw_means E st ops cs st' (length more) /\ wpinv s' st' (more ++ gone).
Proof.
  intros E. induction ops as [|[answers o] ops IH]; intros s st gone G F; cbn [wrun].
  - exists [], s, st, []. split; [reflexivity|]. split; [constructor|exact G].
  - inversion F as [|? ? [OK MO] F']; subst. cbn [fst snd] in *.
    assert (G0 : wpinv (w_answers s answers) st gone).
    { destruct G as [G1 [G2 [G3 G4]]]. split; [exact G1|]. split; [exact G2|]. split; [exact G3|reflexivity]. }
    destruct (wstep_ok E _ st gone o G0 OK MO) as (c & s1 & st1 & m1 & -> & L & G1 & CASE). unfold bind at 1. cbn [fst snd].
    destruct (IH s1 st1 _ G1 F') as (cs & s2 & st2 & m2 & -> & M & G2). unfold bind at 1. cbn [fst snd].
    exists (c :: cs), s2, st2, (m2 ++ m1). split; [reflexivity|]. split; [|rewrite <- app_assoc; exact G2].
    destruct CASE as [[E1 ->]|[SH A]].
    + rewrite app_nil_r. pose proof (wm_ok E st answers o ops cs st2 (length m2)) as H. rewrite E1 in H. cbn [fst snd] in H. now apply H.
    + rewrite app_length, Nat.add_comm. eapply wm_fail; eauto.
Qed.
Lemma wpinv_start : wpinv wstart ([], []) [].
Proof. split; [constructor|]. split; [constructor|]. split; [|reflexivity]. split; [reflexivity|]. split; [|reflexivity]. intros x. change (0 <= 1)%nat. lia. Qed.
(** calls that all have memory *)
Lemma rich_means : forall E ops st cs st' n, aw_means E st (map (pair []) ops) cs st' n -> forall c0,
  c0 ++ cs = snd (fold_left (fun x o => (snd (aw_step E (fst x) o), snd x ++ [fst (aw_step E (fst x) o)])) ops (st, c0)) /\
  st' = fold_left (fun s o => snd (aw_step E s o)) ops st /\ n = 0%nat.
Proof.
  intros E. induction ops as [|o ops IH]; intros st cs st' n M c0; cbn [fold_left map fst snd] in *; inversion M; subst.
  - rewrite app_nil_r. auto.
  - match goal with H : aw_means E (snd (aw_step E st o)) _ _ _ _ |- _ => destruct (IH _ _ _ _ H (c0 ++ [fst (aw_step E st o)])) as (E1 & E2 & E3) end. rewrite <- app_assoc in E1. cbn [app] in E1. auto.
  - contradiction.
Qed.

(** ** reading back *)
Lemma read_data_ok : forall m d n ids, mowns m ids -> incl (ptr_blocks d) ids -> n = zlen (dtext d) -> read_data m d n = Ret (dtext d).
Proof. intros. unfold read_data. eapply dread_n; eauto. Qed.
Lemma read_msg_ok : forall m ids q a, mowns m ids -> incl (mb q) ids -> mrel q a -> read_msg m (Some q) = Ret a.
Proof.
  intros m ids [i b] a W C [<- FT]. unfold read_msg. rewrite (x_deref_ok _ m i b _ W) by (apply C; now left). unfold bind at 1. cbn [snd fst] in *.
  rewrite (read_data_ok m (b_data b) _ ids W); [reflexivity|intros x X; apply C; now right|exact FT].
Qed.
Lemma read_msgs_ok : forall m ids qs a, mowns m ids -> incl (flat_map mb qs) ids -> Forall2 mrel qs a -> read_msgs m (map Some qs) = Ret a.
Proof.
  intros m ids qs a W C F. induction F as [|q b qs a R F IH]; [reflexivity|]. cbn [map read_msgs].
  rewrite (read_msg_ok m ids q b W) by (first [exact R|intros x X; apply C; cbn [flat_map]; apply in_or_app; now left]). unfold bind at 1.
  rewrite IH by (intros x X; apply C; cbn [flat_map]; apply in_or_app; now right). reflexivity.
Qed.
Lemma read_list_ok : forall m ids l a, mowns m ids -> incl (mlist_blocks l) ids -> lrel l a -> read_list m l = Ret a.
Proof.
  intros m ids l a W C (il & ar & qs & -> & A & F). unfold read_list. rewrite (x_deref_ok _ m il _ _ W) by (apply C; now left). unfold bind at 1. cbn [snd l_len l_arr].
  destruct qs as [|q qs]; [inversion F; reflexivity|]. cbn [length]. destruct ar as [[j x]|]; [|discriminate A]. cbn [afit] in A. subst x. cbn [mlist_blocks l_arr] in C.
  rewrite (x_deref_ok _ m j _ _ W) by (apply C; right; now left). unfold bind. cbn [snd].
  match goal with |- (if ?c then _ else _) = _ => assert (EC : c = false) by (apply Nat.ltb_ge; rewrite map_length; cbn; lia); rewrite EC end.
  rewrite firstn_all2 by (rewrite map_length; cbn; lia). eapply read_msgs_ok; [exact W| |exact F]. intros x X. apply C. rewrite mb_map. right. now right.
Qed.
Lemma read_wexts_ok : forall m ids es a, mowns m ids -> incl (flat_map xb es) ids -> Forall2 xrel es a -> read_wexts m (map Some es) = Ret a.
Proof.
  intros m ids es a W C F. induction F as [|[i e] b es a R F IH]; [reflexivity|]. cbn [map read_wexts].
  rewrite (x_deref_ok _ m i e _ W) by (apply C; cbn [flat_map]; apply in_or_app; left; now left). unfold bind at 1. cbn [snd].
  destruct R as (_ & R1 & R2 & R3 & R4 & _). cbn [snd] in *.
  rewrite (read_text_ok m ids (x_client e) W); [|intros x X; apply C; cbn [flat_map]; apply in_or_app; left; unfold xb; cbn [wext_blocks]; right; apply in_or_app; right; apply in_or_app; now left].
  unfold bind at 1. rewrite IH by (intros x X; apply C; cbn [flat_map]; apply in_or_app; now right). unfold bind. rewrite R1, R2, R3, R4. destruct b. reflexivity.
Qed.
Lemma read_part_ok : forall m ids q p, mowns m ids -> incl (msg_blocks q) ids -> prel q p -> read_part m q = Ret p.
Proof.
  intros m ids [[i b]|] [p|] W C P; cbn [prel] in P; try contradiction; [|reflexivity]. destruct P as (P1 & _ & P2 & _ & P3 & P4). cbn [snd] in *. unfold read_part.
  rewrite (x_deref_ok _ m i b _ W) by (apply C; now left). unfold bind at 1. cbn [snd fst].
  rewrite (read_data_ok m (b_data b) _ ids W); [|intros x X; apply C; now right|exact P4]. unfold bind. change (dtext (b_data b)) with (dat b). rewrite P1, P2, P3. destruct p. reflexivity.
Qed.
Lemma read_ws_ok : forall m ids v a, mowns m ids -> incl (ws_blocks v) ids -> vlinked v a -> read_ws m v = Ret a.
Proof.
  intros m ids v a W C (SV & VR & P & _ & pm & g & VW & li & lo & ex & es & -> & Li & Lo & A & F).
  assert (C1 : incl (mlist_blocks li) ids /\ incl (mlist_blocks lo) ids /\ incl (wexts_blocks ex) ids /\ incl (msg_blocks (v_prev v)) ids /\ In pm ids /\ In (v_block v) ids).
  { unfold ws_blocks in C. rewrite VW in C. cbn [of_member man_blocks g_in g_out g_exts] in C.
    repeat split; try (intros x X); apply C; cbn [app In]; repeat rewrite in_app_iff; tauto. }
  destruct C1 as (C1 & C2 & C3 & C4 & C5 & C6).
  assert (TM : the_man m v = Ret (pm, mk_hman (a_runs a) (Some li) (Some lo) (a_keep_in a) (a_keep_out a) (bits (a_exts a)) (Some ex))).
  { unfold the_man. rewrite (use_ok _ _ (v_block v) (proj1 W)) by exact C6. unfold bind at 1. rewrite VW. cbn [x_member]. unfold bind. exact (x_deref_ok _ m pm _ _ W C5). }
  unfold read_ws. rewrite TM. unfold bind at 1. cbn [snd g_in g_out g_exts x_member]. unfold bind at 1.
  rewrite (read_list_ok m ids li _ W C1 Li). unfold bind at 1. unfold bind at 1. rewrite (read_list_ok m ids lo _ W C2 Lo). unfold bind at 1. unfold bind at 1.
  rewrite (x_elements_ok m ex es ids A W).
  - unfold bind at 1. rewrite (read_wexts_ok m ids es (a_exts a) W); [|intros x X; apply C3; assert (H : (0 < cnt (wexts_blocks ex) x)%nat) by (rewrite (wexts_eq _ _ x A); apply (count_occ_In Nat.eq_dec) in X; unfold cnt in *; lia); unfold cnt in H; now apply count_occ_In in H|exact F].
    unfold bind at 1. rewrite (read_part_ok m ids _ _ W C4 P). unfold bind. cbn [g_connected g_keep_in g_keep_out]. rewrite SV. destruct a. reflexivity.
  - intros x X. apply C3. assert (H : (0 < cnt (wexts_blocks ex) x)%nat) by (rewrite (wexts_eq _ _ x A); apply (count_occ_In Nat.eq_dec) in X; unfold cnt in *; lia). unfold cnt in H. now apply count_occ_In in H.
Qed.
Lemma read_wprog_ok : forall s st gone, wpinv s st gone -> read_wprog s = Ret st.
Proof.
  intros s [l q] gone (F & Q & W). cbn [fst snd] in *. unfold read_wprog.
  assert (G : read_wss (y_mem s) (y_wss s) = Ret l).
  { assert (C : incl (flat_map ws_blocks (y_wss s)) (wprog_blocks s ++ gone)) by (unfold wprog_blocks; intros x X; rewrite !in_app_iff; auto). clear Q. revert C. induction F as [|v a vs l V F IH]; intros C; [reflexivity|]. cbn [read_wss].
    rewrite (read_ws_ok _ _ v a W); [|intros x X; apply C; cbn [flat_map]; apply in_or_app; now left|exact V]. unfold bind at 1. rewrite IH by (intros x X; apply C; cbn [flat_map]; apply in_or_app; now right). reflexivity. }
  rewrite G. unfold bind at 1.
  assert (G2 : read_msgs (y_mem s) (y_msgs s) = Ret q).
  { assert (C : incl (flat_map msg_blocks (y_msgs s)) (wprog_blocks s ++ gone)) by (unfold wprog_blocks; intros x X; rewrite !in_app_iff; auto). clear F G. revert C. induction Q as [|v a vs q V Q IH]; intros C; [reflexivity|]. cbn [read_msgs].
    destruct V as (q0 & -> & MR). rewrite (read_msg_ok _ _ q0 a W); [|intros x X; apply C; cbn [flat_map]; apply in_or_app; now left|exact MR]. unfold bind at 1. rewrite IH by (intros x X; apply C; cbn [flat_map]; apply in_or_app; now right). reflexivity. }
  rewrite G2. reflexivity.
Qed.

(** ** everything is released *)
Lemma wrelease_all : forall E s st gone, wpinv s st gone ->
  exists cs s', wrun E s (repeat ([], WRelease 0) (length (y_wss s)) ++ repeat ([], WClear 0) (length (y_msgs s))) = Ret (cs, s') /\ y_wss s' = [] /\ y_msgs s' = [] /\ mowns (y_mem s') gone /\ Forall (eq U_OK) cs.
Proof.
  intros E s st gone G. pose proof G as (F & Q & _). pose proof (f2_length _ _ _ _ _ F) as LF. pose proof (f2_length _ _ _ _ _ Q) as LQ. rewrite LF, LQ.
  set (rel := repeat (WRelease 0) (length (fst st)) ++ repeat (WClear 0) (length (snd st))).
  assert (EQ : repeat ([], WRelease 0) (length (fst st)) ++ repeat ([], WClear 0) (length (snd st)) = map (pair (@nil bool)) rel).
  { assert (MR : forall (o : wop) n, map (pair (@nil bool)) (repeat o n) = repeat ([], o) n) by (intros o n; induction n as [|n IH]; [reflexivity|cbn [repeat map]; now rewrite IH]). unfold rel. rewrite map_app, !MR. reflexivity. }
  rewrite EQ. destruct (wrun_ok E (map (pair []) rel) s st gone G) as (cs & s' & st' & more & R & M & G').
  { apply Forall_forall. intros x X. apply in_map_iff in X as (o & <- & X). cbn [fst snd]. unfold rel in X. apply in_app_or in X as [X|X]; apply repeat_spec in X; subst o; split; exact Logic.I. }
  destruct (rich_means _ _ _ _ _ _ M []) as (E1 & E2 & E3). cbn [app] in E1.
  assert (T : fold_left (fun x o => (snd (aw_step E (fst x) o), snd x ++ [fst (aw_step E (fst x) o)])) rel (st, []) = (([], []), repeat U_OK (length (fst st) + length (snd st)))).
  { unfold rel. rewrite fold_left_app. destruct st as [l q]. cbn [fst snd].
    assert (T1 : forall l c0, fold_left (fun x o => (snd (aw_step E (fst x) o), snd x ++ [fst (aw_step E (fst x) o)])) (repeat (WRelease 0) (length l)) ((l, q), c0) = (([], q), c0 ++ repeat U_OK (length l))).
    { clear. induction l as [|a l IH]; intros c0; [cbn; now rewrite app_nil_r|]. cbn [length repeat fold_left aw_step w_target nth_error fst snd aw_call place drop firstn skipn app]. rewrite app_nil_r, IH, <- app_assoc. reflexivity. }
    rewrite T1. cbn [app]. rewrite repeat_app.
    assert (T2 : forall q c0, fold_left (fun x o => (snd (aw_step E (fst x) o), snd x ++ [fst (aw_step E (fst x) o)])) (repeat (WClear 0) (length q)) ((@nil aws, q), c0) = (([], []), c0 ++ repeat U_OK (length q))).
    { clear. induction q as [|a q IH]; intros c0; [cbn; now rewrite app_nil_r|]. cbn [length repeat fold_left aw_step nth_error fst snd drop firstn skipn app]. rewrite IH, <- app_assoc. reflexivity. }
    apply T2. }
  assert (E2' : st' = ([], [])).
  { assert (K : forall ops st c0, fst (fold_left (fun x o => (snd (aw_step E (fst x) o), snd x ++ [fst (aw_step E (fst x) o)])) ops (st, c0)) = fold_left (fun s o => snd (aw_step E s o)) ops st) by (clear; induction ops as [|o ops IH]; intros st c0; [reflexivity|apply IH]).
    rewrite E2, <- (K rel st []), T. reflexivity. }
  rewrite T in E1. cbn [snd] in E1. clear E2. subst st' cs. destruct more; [|discriminate E3]. destruct G' as (F' & Q' & W'). cbn [fst snd app] in *. inversion F' as [FE|]; subst. inversion Q' as [QE|]; subst.
  do 2 eexists. split; [exact R|]. split; [now symmetry in FE|]. split; [now symmetry in QE|]. unfold wprog_blocks in W'. rewrite <- FE, <- QE in W'. split; [exact W'|]. apply Forall_forall. intros x X. apply repeat_spec in X. now symmetry.
Qed.

(** ** no extension, no block lost *)
Lemma no_extension_lost : forall E ops st cs st' n, aw_means E st ops cs st' n -> Forall (fun x => no_extension (snd x)) ops -> n = 0%nat.
Proof.
  intros E. induction ops as [|[an o] ops IH]; intros st cs st' n M F; inversion M; subst; [reflexivity| |]; inversion F as [|? ? NE F']; subst; cbn [snd] in NE; [eapply IH; eauto|].
  assert (k = 0%nat) as ->; [|cbn [Nat.add]; eapply IH; eauto].
  match goal with H : aw_step_fail _ _ _ _ _ _ |- _ => rename H into AF end. destruct o; cbn [aw_step_fail no_extension] in *; try contradiction; try tauto;
    destruct AF as (a & x & _ & AF & _); inversion AF; reflexivity.
Qed.
