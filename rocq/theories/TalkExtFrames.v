(** Proofs about frames received through extensions that keep contexts. *)
From Coq Require Import ZArith Bool List Lia.
From Verif Require Import Base BaseFacts Utf8Model Utf8Spec Utf8Proofs WsFrameModel WsRecvModel WsSpec WsFrameProofs WsRecvSpec WsRecvProofs
  ExtModel ExtSpec TalkExtModel TalkExtSpec TalkExtProofs.
Import ListNotations.
Open Scope Z_scope.

Section F.
Variable C : Type.
Variable in_perform : Z -> C -> Z -> list Z -> Z -> Z -> option (list Z) * C.
Variable alloc_ok : Z -> bool.
Variable rx : Z.
Variable server : bool.
Hypothesis in_bytes : forall f c op d fr u x c', bytes d -> in_perform f c op d fr u = (Some x, c') -> bytes x.
Notation run_x := (run_x C in_perform alloc_ok server rx).
Notation step_x := (step_x C in_perform alloc_ok server rx).
Notation ext_fun := (ext_fun C in_perform alloc_ok).
Notation ext_next := (ext_next C in_perform alloc_ok).
Notation follows_x := (follows_x C in_perform alloc_ok rx).
Notation history_x := (history_x C in_perform alloc_ok rx).

Lemma in_loop_bytes : forall op rsv l d ret d' l', bytes d -> in_loop C in_perform alloc_ok op rsv l d = (ret, d', l') -> bytes d'.
Proof.
  intros op rsv. induction l as [|e l IH]; intros d ret d' l' B E; cbn [in_loop] in E.
  - injection E as <- <- <-. exact B.
  - assert (G : forall d1, bytes d1 -> forall e1, (let '(ret, d', r') := in_loop C in_perform alloc_ok op rsv l d1 in (ret, d', e1 :: r')) = (ret, d', l') -> bytes d').
    { intros d1 B1 e1 E1. destruct (in_loop C in_perform alloc_ok op rsv l d1) as [[r x] y] eqn:L. injection E1 as <- <- <-. eapply IH; eauto. }
    destruct (if e_enabled e then e_in e else None) as [f|]; [|eapply G; eauto]. destruct (Z.land rsv (e_rsv e) =? 0); [eapply G; eauto|].
    destruct (in_perform f (e_ctx e) op d 0 (e_out_data e)) as [[x|] c] eqn:P; [|injection E as <- <- <-; exact B].
    destruct ((zlen x =? 0) || alloc_ok (zlen x)); [|injection E as <- <- <-; constructor]. eapply (G x); [|exact E]. eapply in_bytes; eauto.
Qed.
Lemma ext_fun_bytes : forall l op rsv d d', bytes d -> ext_fun l op rsv d = Some d' -> bytes d'.
Proof.
  intros l op rsv d d' B E. unfold TalkExtModel.ext_fun, in_message in E. destruct (zlen l =? 0); [injection E as <-; exact B|].
  destruct ((zlen d =? 0) || alloc_ok (zlen d)); [|discriminate].
  destruct (in_loop C in_perform alloc_ok op rsv (rev l) d) as [[r x] y] eqn:L. destruct (r =? U_OK); [|discriminate]. injection E as <-. eapply in_loop_bytes; eauto.
Qed.

(** the message that is complete with [f] *)
Lemma completed_is : forall s t f, holds (w_prev s) t -> complete (t ++ [f]) -> exists c, completed s (message_of f) = Some c /\
  m_opcode c = group_op (t ++ [f]) /\ m_rsv c = group_rsv (t ++ [f]) /\ m_data c = group_data (t ++ [f]).
Proof.
  intros s t f H CO. unfold completed. apply complete_inv in CO as [(-> & O & FF)|(ST & O & FF)].
  - destruct (w_prev s) as [p|]; cbn [holds] in H; [destruct H as [H _]; apply starting_nonempty in H; congruence|].
    cbn [message_of m_opcode m_fin]. rewrite FF. exists (message_of f). cbn [app group_op group_rsv group_data map concat]. rewrite app_nil_r.
    split; [destruct O as [-> | ->]; reflexivity|]. auto.
  - destruct (w_prev s) as [p|]; cbn [holds] in H; [|apply starting_nonempty in ST; congruence]. destruct H as (_ & H1 & H2 & H3 & H4).
    cbn [message_of m_opcode m_fin]. rewrite FF, O. change ((0 =? OP_TEXT) || (0 =? OP_BINARY) || (0 =? OP_CONTINUE)) with true. cbn [andb].
    unfold merge. rewrite H3. cbn [m_opcode message_of]. rewrite O. pose proof (starting_op _ ST) as GO. rewrite <- H1 in GO.
    replace (((m_opcode p =? OP_TEXT) || (m_opcode p =? OP_BINARY)) && (0 =? OP_CONTINUE)) with true by (symmetry; destruct GO as [-> | ->]; reflexivity).
    change (U_OK =? U_OK) with true. cbv iota beta. eexists. split; [reflexivity|]. cbn [m_opcode m_rsv m_data message_of].
    rewrite group_op_app, group_rsv_app, group_data_app by (now apply starting_nonempty). rewrite H1, H2, H4. auto.
Qed.
Lemma completed_not : forall s t f, holds (w_prev s) t -> (f_op f = 9 \/ f_op f = 10 \/ starting (t ++ [f])) -> completed s (message_of f) = None.
Proof.
  intros s t f H O. unfold completed. cbn [message_of m_opcode m_fin]. destruct O as [-> |[-> |O]]; [reflexivity|reflexivity|].
  assert (FF : f_fin f = false) by (apply starting_inv in O; intuition). rewrite FF. now rewrite andb_false_r.
Qed.

Lemma follows_to : forall s l t f t' o, holds (w_prev s) t -> follows (ext_fun l) rx t f t' o ->
  follows_x l t f t' o (match completed s (message_of f) with Some c => ext_next l c | None => l end).
Proof.
  intros s l t f t' o H FO. inversion FO as [O FF L|O FF|ST|o' CM (d & E & R & U & EO)]; subst.
  - rewrite (completed_not s _ f H) by auto. now apply fx_ping.
  - rewrite (completed_not s _ f H) by auto. now apply fx_pong.
  - rewrite (completed_not s _ f H) by auto. now apply fx_part.
  - destruct (completed_is s t f H CM) as (c & -> & C1 & C2 & C3). unfold TalkExtModel.ext_fun in E. unfold TalkExtModel.ext_next. rewrite C1, C2, C3.
    destruct (in_message C in_perform alloc_ok (group_op (t ++ [f])) (group_rsv (t ++ [f])) l (group_data (t ++ [f]))) as [[ret x] l'] eqn:IM.
    destruct (Z.eqb_spec ret U_OK) as [-> |N]; [|discriminate]. injection E as ->. cbn [snd]. eapply fx_message; eauto.
Qed.
Lemma follows_from : forall l t f t' o l', follows_x l t f t' o l' -> follows (ext_fun l) rx t f t' o.
Proof.
  intros l t f t' o l' FO. inversion FO as [O FF L|O FF|ST|d l1 CM IM R U]; subst.
  - now apply fo_ping.
  - now apply fo_pong.
  - now apply fo_part.
  - apply fo_message; auto. exists d. unfold TalkExtModel.ext_fun. rewrite IM. change (U_OK =? U_OK) with true. auto.
Qed.

Lemma refused_x : forall evs s l, w_in s = evs -> w_phase s = PLoop -> w_conn s = true -> w_ok s = true -> refused server (stream evs) ->
  exists k, forall is, Forall undisturbed is -> (k <= length is)%nat -> seen (fst (run_x (s, l) is)) = seen s.
Proof.
  assert (X : forall e evs s l, e <> RIdle -> w_in s = e :: evs -> w_phase s = PLoop -> w_conn s = true -> w_ok s = true ->
    refused server (stream (e :: evs)) -> exists k, forall is, Forall undisturbed is -> (k <= length is)%nat -> seen (fst (run_x (s, l) is)) = seen s).
  { intros e evs s l N1 EI PL CO OK RE. exists 1%nat. intros is UN L. destruct is as [|i is]; [cbn in L; lia|]. apply Forall_cons_iff in UN as [[U1 U2] UN].
    change (run_x (s, l) (i :: is)) with (run_x (step_x (s, l) i) is). cbn [TalkExtModel.step_x].
    match goal with |- context [run_x (?a, ?b) is] => set (s1 := a); set (l1 := b) end.
    assert (Y : inert s1 /\ seen s1 = seen s).
    { subst s1. unfold WsRecvModel.step. rewrite PL, CO, OK, U1, U2, EI. cbn [andb].
      destruct (data_available (e :: evs) true) as [[a ev] cn] eqn:DA. destruct e; try congruence; injection DA as <- <- <-; cbn [set_in w_in w_conn]; try (split; [right; left; reflexivity|reflexivity]);
        match goal with |- context [read_message ?x ?y ?z ?t] => destruct (read_message x y z t) as [[[r m] e'] c'] eqn:R end;
        (rewrite (refused_none _ _ _ _ _ _ _ _ RE R); split; [right; left; reflexivity|reflexivity]). }
    destruct Y as [Y1 Y2]. rewrite inert_x by exact Y1. exact Y2. }
  induction evs as [|e evs IH]; intros s l EI PL CO OK RE.
  - exists 1%nat. intros is UN L. destruct is as [|i is]; [cbn in L; lia|]. apply Forall_cons_iff in UN as [[U1 U2] UN].
    change (run_x (s, l) (i :: is)) with (run_x (step_x (s, l) i) is). cbn [TalkExtModel.step_x]. unfold WsRecvModel.step. rewrite PL, CO, OK, U1, U2, EI. cbn [andb data_available].
    rewrite inert_x by (right; left; reflexivity). reflexivity.
  - destruct e; try (eapply X; eauto; discriminate).
    destruct (IH (set_in s evs true) l) as (k & R); auto.
    exists (Datatypes.S k). intros is UN L. destruct is as [|i is]; [cbn in L; lia|].
    apply Forall_cons_iff in UN as [[U1 U2] UN]. cbn [length] in L. change (run_x (s, l) (i :: is)) with (run_x (step_x (s, l) i) is).
    replace (step_x (s, l) i) with (set_in s evs true, l); [rewrite (R is UN); [reflexivity|lia]|].
    cbn [TalkExtModel.step_x]. unfold WsRecvModel.step, TalkExtModel.incoming. rewrite PL, CO, OK, U1, U2, EI. reflexivity.
Qed.

Definition outcome_x (l0 : list (ext C)) (pre fs : list frame) (items : list sitem) : Prop :=
  (exists t os l, history_x l0 (pre ++ fs) t os l /\ items = os) \/
  (exists a f b t os l, fs = a ++ f :: b /\ history_x l0 (pre ++ a) t os l /\ (forall t' o l', ~ follows_x l t f t' o l') /\ items = os ++ closing f).

Lemma frames_run_x : forall l0 fs ws, Forall2 wire fs ws -> Forall (good_frame alloc_ok server) fs ->
  forall s l pre t os, history_x l0 pre t os l -> frame_bytes t -> holds (w_prev s) t -> w_phase s = PLoop -> w_conn s = true -> w_ok s = true ->
    forall rest, refused server rest -> calm (w_in s) -> stream (w_in s) = concat ws ++ rest -> seen s = os ->
  exists k, forall is, Forall undisturbed is -> (k <= length is)%nat -> outcome_x l0 pre fs (seen (fst (run_x (s, l) is))).
Proof.
  intros l0. induction 1 as [|f w fs ws WF WS IH]; intros GF s l pre t os HI FB HO PL CO OK rest RE CA ST SE.
  - destruct (refused_x (w_in s) s l eq_refl PL CO OK ltac:(cbn in ST; rewrite ST; exact RE)) as (k & R). exists k. intros is UN L.
    rewrite R by assumption. left. exists t, os, l. rewrite app_nil_r. auto.
  - apply Forall_cons_iff in GF as [G GF]. cbn [concat] in ST. rewrite <- app_assoc in ST.
    destruct (frame_x C in_perform alloc_ok rx server f w G WF (w_in s) s l (concat ws ++ rest) eq_refl PL CO OK CA ST) as (k1 & evs' & C' & S' & R).
    assert (FB' : frame_bytes (t ++ [f])).
    { apply Forall_app. split; [exact FB|]. constructor; [|constructor]. apply G. }
    destruct (handle_ok alloc_ok (ext_fun l) rx (ext_fun_bytes l) (set_in s evs' true) t f HO eq_refl OK FB') as (W1 & W2 & [(t' & o & FO & HO' & CO' & OK' & SE')|(NF & SP & SE')]).
    + pose proof (follows_to s l t f t' o HO FO) as FX.
      destruct (IH GF (handle (ext_fun l) rx (set_in s evs' true) (message_of f)) (match completed s (message_of f) with Some c => ext_next l c | None => l end) (pre ++ [f]) t' (os ++ o)) with (rest := rest) as (k2 & R2); auto.
      * eapply hx_next; eauto.
      * inversion FO; subst; auto. constructor.
      * rewrite W2. exact PL.
      * rewrite W1. exact C'.
      * rewrite W1. exact S'.
      * rewrite SE'. f_equal. exact SE.
      * exists (k1 + k2)%nat. intros is UN L. rewrite <- (firstn_skipn k1 is) in UN |- *. apply Forall_app in UN as [U1 U2].
        rewrite run_x_app. rewrite (R _ U1) by (apply firstn_length_le; lia).
        specialize (R2 _ U2 ltac:(rewrite skipn_length; lia)).
        destruct R2 as [(t2 & os2 & l2 & H1 & H2)|(a & f2 & b & t2 & os2 & l2 & H1 & H2 & H3 & H4)].
        -- left. exists t2, os2, l2. rewrite <- app_assoc in H1. auto.
        -- right. exists (f :: a), f2, b, t2, os2, l2. rewrite <- app_assoc in H2. split; [cbn; congruence|]. auto.
    + exists k1. intros is UN L. rewrite <- (firstn_skipn k1 is) in UN |- *. apply Forall_app in UN as [U1 U2].
      rewrite run_x_app. rewrite (R _ U1) by (apply firstn_length_le; lia).
      rewrite inert_x by (right; exact SP). right. exists [], f, fs, t, os, l. rewrite app_nil_r. split; [reflexivity|]. split; [auto|]. split; [intros t' o l' FX; eapply NF, follows_from; eauto|].
      rewrite SE'. f_equal. exact SE.
Qed.
End F.
