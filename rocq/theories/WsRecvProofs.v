(** Proofs about the websocket reading thread. *)
From Coq Require Import ZArith Bool List Lia.
From Verif Require Import Base BaseFacts Utf8Model Utf8Spec Utf8Proofs WsFrameModel WsRecvModel WsSpec WsFrameProofs WsRecvSpec.
Import ListNotations.
Open Scope Z_scope.

Section R.
Variable alloc_ok : Z -> bool.
Variable server : bool.
Variable ext_in : Z -> Z -> list Z -> option (list Z).
Variable rsv_expected : Z.
Hypothesis ext_bytes : forall op rsv d d', bytes d -> ext_in op rsv d = Some d' -> bytes d'.

Notation follows := (follows ext_in rsv_expected).
Notation history := (history ext_in rsv_expected).
Notation handle := (handle ext_in rsv_expected).
Notation step := (step alloc_ok server ext_in rsv_expected).
Notation run := (run alloc_ok server ext_in rsv_expected).

(** message_previous holds the pending fragments *)
Definition holds (p : option wmsg) (t : list frame) : Prop :=
  match p with
  | None => t = []
  | Some m => starting t /\ m_opcode m = group_op t /\ m_rsv m = group_rsv t /\ m_fin m = false /\ m_data m = group_data t
  end.

Lemma starting_nonempty : forall t, starting t -> t <> [].
Proof. intros t H. inversion H; [discriminate|]. destruct t0; discriminate. Qed.
Lemma starting_op : forall t, starting t -> group_op t = 1 \/ group_op t = 2.
Proof.
  intros t H. induction H as [f O F|t f S IH O F]; auto. destruct t as [|g t]; [destruct IH as [IH|IH]; discriminate IH|exact IH].
Qed.
Lemma group_op_app : forall t f, t <> [] -> group_op (t ++ f) = group_op t.
Proof. intros [|g t] f N; [congruence|reflexivity]. Qed.
Lemma group_rsv_app : forall t f, t <> [] -> group_rsv (t ++ f) = group_rsv t.
Proof. intros [|g t] f N; [congruence|reflexivity]. Qed.
Lemma group_data_app : forall t f, group_data (t ++ [f]) = group_data t ++ f_payload f.
Proof. intros t f. unfold group_data. rewrite map_app, concat_app. cbn. now rewrite app_nil_r. Qed.

Lemma last_inj : forall A (t t' : list A) x x', t ++ [x] = t' ++ [x'] -> t = t' /\ x = x'.
Proof. intros. now apply app_inj_tail. Qed.

Lemma single_last : forall A (f : A) t x, [f] = t ++ [x] -> t = [] /\ x = f.
Proof. intros A f [|y t] x H; [injection H; auto|]. injection H. intros H1 _. destruct t; discriminate. Qed.

(** inverting the group predicates on the last frame *)
Lemma starting_inv : forall t f, starting (t ++ [f]) ->
  (t = [] /\ (f_op f = 1 \/ f_op f = 2) /\ f_fin f = false) \/ (starting t /\ f_op f = 0 /\ f_fin f = false).
Proof.
  intros t f H. inversion H as [g O F E|t' g S O F E].
  - apply single_last in E as [-> ->]. auto.
  - apply last_inj in E as [-> ->]. auto.
Qed.
Lemma complete_inv : forall t f, complete (t ++ [f]) ->
  (t = [] /\ (f_op f = 1 \/ f_op f = 2) /\ f_fin f = true) \/ (starting t /\ f_op f = 0 /\ f_fin f = true).
Proof.
  intros t f H. inversion H as [g O F E|t' g S O F E].
  - apply single_last in E as [-> ->]. auto.
  - apply last_inj in E as [-> ->]. auto.
Qed.

(** a stopped loop *)
Definition stopped (s : wst) : Prop := w_conn s = false \/ w_ok s = false.

Definition frame_bytes (t : list frame) : Prop := Forall (fun f => bytes (f_payload f)) t.
Lemma group_bytes : forall t, frame_bytes t -> bytes (group_data t).
Proof.
  intros t H. unfold group_data. induction H as [|f t B H IH]; [constructor|]. cbn. apply Forall_app. auto.
Qed.

Lemma complete_message_ok : forall s m g, bytes (group_data g) ->
  m_opcode m = group_op g -> m_rsv m = group_rsv g -> m_data m = group_data g ->
  let s' := complete_message ext_in rsv_expected s m in
  (exists o, accepted ext_in rsv_expected g o /\ w_prev s' = w_prev s /\ w_conn s' = w_conn s /\ w_ok s' = w_ok s /\ w_in s' = w_in s /\
     w_phase s' = w_phase s /\ exists d, w_out s' = w_out s ++ [Deliver d] /\ view (Deliver d) = [o]) \/
  ((forall o, ~ accepted ext_in rsv_expected g o) /\ w_conn s' = false /\ w_out s' = w_out s /\ w_in s' = w_in s /\ w_phase s' = w_phase s).
Proof.
  intros s m g B EO ER ED. unfold complete_message. rewrite EO, ER, ED.
  destruct (ext_in (group_op g) (group_rsv g) (group_data g)) as [d|] eqn:X.
  2:{ right. split; [|auto]. intros o (d & E & _). congruence. }
  pose proof (ext_bytes _ _ _ _ B X) as BD. unfold set_data. cbn [m_rsv m_opcode]. rewrite ER, EO.
  destruct ((group_rsv g =? 0) || negb (Z.land rsv_expected (group_rsv g) =? 0)) eqn:R.
  - assert (R' : group_rsv g = 0 \/ Z.land rsv_expected (group_rsv g) <> 0).
    { apply orb_true_iff in R as [R|R]; [left; now apply Z.eqb_eq|right; apply negb_true_iff in R; now apply Z.eqb_neq]. }
    destruct (negb (group_op g =? OP_TEXT) || (zlen d =? 0) || utf8_valid d) eqn:T.
    + left. exists (SMsg (group_op g) (group_rsv g) d). split.
      * exists d. split; auto. split; auto. split; auto. intros O1. rewrite O1 in T. cbn [Z.eqb OP_TEXT] in T.
        change (1 =? OP_TEXT) with true in T. cbn [negb orb] in T. apply orb_true_iff in T as [T|T].
        -- apply Z.eqb_eq in T. apply zlen_0 in T. subst d. exists []. split; [constructor|reflexivity].
        -- now apply utf8_valid_spec.
      * cbn. repeat (split; [reflexivity|]). eexists. split; [reflexivity|]. reflexivity.
    + right. split; [|auto]. intros o (d' & E & _ & U & _). rewrite X in E. injection E as <-.
      apply orb_false_iff in T as [T T3]. apply orb_false_iff in T as [T1 T2]. apply negb_false_iff, Z.eqb_eq in T1.
      assert (utf8_valid d = true) by (apply utf8_valid_spec; auto). congruence.
  - right. split; [|auto]. intros o (d' & E & R' & _). apply orb_false_iff in R as [R1 R2].
    apply Z.eqb_neq in R1. apply negb_false_iff, Z.eqb_eq in R2. destruct R'; contradiction.
Qed.

Lemma opcode_cases : forall z, z = 0 \/ z = 1 \/ z = 2 \/ z = 8 \/ z = 9 \/ z = 10 \/
  (z <> 0 /\ z <> 1 /\ z <> 2 /\ z <> 8 /\ z <> 9 /\ z <> 10).
Proof. intros. lia. Qed.

Definition result_of (s s' : wst) (t : list frame) (f : frame) : Prop :=
  w_in s' = w_in s /\ w_phase s' = w_phase s /\
  ((exists t' o, follows t f t' o /\ holds (w_prev s') t' /\ w_conn s' = true /\ w_ok s' = true /\ seen s' = seen s ++ o) \/
   ((forall t' o, ~ follows t f t' o) /\ stopped s' /\ seen s' = seen s ++ closing f)).

Lemma seen_emit : forall s o, seen (emit s o) = seen s ++ view o.
Proof. intros. unfold seen, emit. cbn. rewrite flat_map_app. cbn. now rewrite app_nil_r. Qed.

Lemma no_close : forall f, f_op f <> 8 -> closing f = [].
Proof. intros f H. unfold closing. apply Z.eqb_neq in H. now rewrite H. Qed.
Lemma no_close_part : forall f, f_fin f = false -> closing f = [].
Proof. intros f H. unfold closing. rewrite H. now rewrite andb_false_r. Qed.

Ltac bad := let X := fresh in let t' := fresh in let o' := fresh in
  intros t' o' X; inversion X; subst;
  repeat match goal with
  | H : starting (_ ++ [_]) |- _ => apply starting_inv in H
  | H : complete (_ ++ [_]) |- _ => apply complete_inv in H
  end; intuition (try congruence; try lia; try discriminate).

Lemma handle_data : forall s t f, holds (w_prev s) t -> w_conn s = true -> w_ok s = true ->
  f_op f = 0 \/ f_op f = 1 \/ f_op f = 2 -> frame_bytes (t ++ [f]) -> result_of s (handle s (message_of f)) t f.
Proof.
  intros s t f H C K OPS FB. unfold handle, message_of. cbn [m_opcode m_fin m_data].
  assert (E : (f_op f =? OP_CLOSE) = false /\ (f_op f =? OP_PING) = false /\ (f_op f =? OP_PONG) = false /\
    ((f_op f =? OP_TEXT) || (f_op f =? OP_BINARY) || (f_op f =? OP_CONTINUE)) = true /\ f_op f <> 8).
  { destruct OPS as [->|[->| ->]]; repeat split; try reflexivity; discriminate. }
  destruct E as (-> & -> & -> & -> & N8). cbn [andb].
  destruct (w_prev s) as [p|] eqn:P; cbn [holds] in H.
  - destruct H as (ST & EO & ER & EF & ED). pose proof (starting_nonempty _ ST) as NE. pose proof (starting_op _ ST) as SO.
    unfold merge. rewrite EF, EO. cbn [m_opcode m_fin m_data].
    replace ((group_op t =? OP_TEXT) || (group_op t =? OP_BINARY)) with true by (destruct SO as [-> | ->]; reflexivity). cbn [andb].
    destruct (f_op f =? OP_CONTINUE) eqn:OC.
    + apply Z.eqb_eq in OC. change (U_OK =? U_OK) with true. destruct (f_fin f) eqn:FF.
      * set (m := mk_wmsg _ _ _ _ _ _ _).
        destruct (complete_message_ok (set_prev s None) m (t ++ [f])) as [(o & A & S1 & S2 & S3 & S4 & S5 & d & S6 & S7)|(A & S1 & S2 & S3 & S4)].
        -- now apply group_bytes.
        -- cbn. now rewrite group_op_app by auto.
        -- cbn. now rewrite group_rsv_app by auto.
        -- cbn. rewrite group_data_app, ED. reflexivity.
        -- split; [auto|]. split; [auto|]. left. exists [], [o]. split; [apply fo_message; auto; now apply co_last|].
           split; [rewrite S1; reflexivity|]. split; [rewrite S2; auto|]. split; [rewrite S3; auto|].
           unfold seen. rewrite S6, flat_map_app. cbn [flat_map]. rewrite S7. reflexivity.
        -- split; [auto|]. split; [auto|]. right. split; [|split].
           ++ intros t' o X. inversion X; subst; [lia|lia| |].
              ** match goal with Z : starting (_ ++ _) |- _ => apply starting_inv in Z end. intuition congruence.
              ** eapply A; eauto.
           ++ left. exact S1.
           ++ rewrite no_close by auto. unfold seen. rewrite S2, app_nil_r. reflexivity.
      * split; [auto|]. split; [auto|]. left. exists (t ++ [f]), []. split; [apply fo_part; apply st_more; auto|].
        split; [|cbn; rewrite app_nil_r; auto].
        cbn. split; [apply st_more; auto|]. rewrite group_op_app, group_rsv_app, group_data_app by auto. rewrite ED. auto.
    + apply Z.eqb_neq in OC. unfold OP_CONTINUE in OC.
      assert (NF : forall t' o, ~ follows t f t' o) by bad.
      change (U_ERROR_PARAMS =? U_OK) with false. destruct (f_fin f) eqn:FF.
      * split; [auto|]. split; [auto|]. right. split; [auto|]. split; [right; reflexivity|]. rewrite no_close, app_nil_r by auto. reflexivity.
      * split; [auto|]. split; [auto|]. right. split; [auto|]. split; [left; reflexivity|]. rewrite no_close, app_nil_r by auto. reflexivity.
  - subst t. destruct (f_op f =? OP_CONTINUE) eqn:OC.
    + apply Z.eqb_eq in OC. unfold OP_CONTINUE in OC.
      assert (NF : forall t' o, ~ follows [] f t' o).
      { intros t' o X. inversion X; subst; try lia.
        - match goal with Z : starting _ |- _ => apply (starting_inv [] f) in Z; destruct Z as [(_ & Z & _)|(Z & _)]; [lia|now apply starting_nonempty in Z] end.
        - match goal with Z : complete _ |- _ => apply (complete_inv [] f) in Z; destruct Z as [(_ & Z & _)|(Z & _)]; [lia|now apply starting_nonempty in Z] end. }
      destruct (f_fin f); (split; [reflexivity|]; split; [reflexivity|]; right; split; [exact NF|]; split; [left; reflexivity|];
        rewrite no_close, app_nil_r by auto; reflexivity).
    + apply Z.eqb_neq in OC. unfold OP_CONTINUE in OC. assert (O12 : f_op f = 1 \/ f_op f = 2) by tauto. destruct (f_fin f) eqn:FF.
      * destruct (complete_message_ok s (mk_wmsg (f_op f) (f_rsv f) true (match f_key f with Some _ => true | None => false end) [] (f_payload f) 0) [f])
          as [(o & A & S1 & S2 & S3 & S4 & S5 & d & S6 & S7)|(A & S1 & S2 & S3 & S4)].
        -- now apply group_bytes.
        -- reflexivity.
        -- reflexivity.
        -- cbn. now rewrite app_nil_r.
        -- split; [auto|]. split; [auto|]. left. exists [], [o]. split; [apply fo_message; auto; now apply (co_single f)|].
           split; [rewrite S1, P; reflexivity|]. split; [rewrite S2; auto|]. split; [rewrite S3; auto|].
           unfold seen. rewrite S6, flat_map_app. cbn [flat_map]. rewrite S7. reflexivity.
        -- split; [auto|]. split; [auto|]. right. split; [|split].
           ++ intros t' o X. inversion X; subst; [lia|lia| |].
              ** match goal with Z : starting _ |- _ => apply (starting_inv [] f) in Z; destruct Z as [(_ & _ & Z)|(_ & Z & _)]; [congruence|lia] end.
              ** eapply A; eauto.
           ++ left. exact S1.
           ++ rewrite no_close by auto. unfold seen. rewrite S2, app_nil_r. reflexivity.
      * split; [auto|]. split; [auto|]. left. exists [f], []. split; [apply (fo_part _ _ [] f); apply (st_first f); auto|].
        split; [|cbn; rewrite app_nil_r; auto].
        cbn. split; [now apply st_first|]. rewrite app_nil_r. auto.
Qed.

Lemma handle_ok : forall s t f, holds (w_prev s) t -> w_conn s = true -> w_ok s = true -> frame_bytes (t ++ [f]) ->
  result_of s (handle s (message_of f)) t f.
Proof.
  intros s t f H C K FB.
  destruct (opcode_cases (f_op f)) as [O|[O|[O|[O|[O|[O|O]]]]]]; try (apply handle_data; auto; fail).
  - (* close *)
    unfold handle, message_of. cbn [m_opcode m_fin m_data]. rewrite O. change (8 =? OP_CLOSE) with true. cbn [andb].
    destruct (f_fin f) eqn:FF.
    + assert (CL : closing f = if zlen (f_payload f) <=? 125 then [SSend 8 []] else []) by (unfold closing; rewrite O, FF; reflexivity).
      destruct (zlen (f_payload f) <=? 125) eqn:L; (split; [reflexivity|]; split; [reflexivity|]; right; split; [bad|]; split; [left; reflexivity|]; rewrite CL).
      * exact (seen_emit s (Send OP_CLOSE [])).
      * rewrite app_nil_r. reflexivity.
    + change (8 =? OP_PING) with false. change (8 =? OP_PONG) with false. cbn [andb].
      change ((8 =? OP_TEXT) || (8 =? OP_BINARY) || (8 =? OP_CONTINUE)) with false. cbv iota.
      split; [reflexivity|]. split; [reflexivity|]. right. split; [bad|]. split; [left; reflexivity|].
      rewrite no_close_part by auto. rewrite app_nil_r. reflexivity.
  - (* ping *)
    unfold handle, message_of. cbn [m_opcode m_fin m_data]. rewrite O. change (9 =? OP_CLOSE) with false. change (9 =? OP_PING) with true.
    change (9 =? OP_PONG) with false. change ((9 =? OP_TEXT) || (9 =? OP_BINARY) || (9 =? OP_CONTINUE)) with false. cbn [andb].
    destruct (f_fin f) eqn:FF.
    + destruct (zlen (f_payload f) <=? 125) eqn:L.
      * apply Z.leb_le in L. split; [reflexivity|]. split; [reflexivity|]. left. exists t, [SSend 10 (f_payload f)].
        split; [apply fo_ping; auto|]. split; [exact H|]. split; [exact C|]. split; [exact K|]. exact (seen_emit s (Send OP_PONG (f_payload f))).
      * apply Z.leb_gt in L. split; [reflexivity|]. split; [reflexivity|]. right. split; [bad|]. split; [left; reflexivity|].
        rewrite no_close by lia. rewrite app_nil_r. reflexivity.
    + split; [reflexivity|]. split; [reflexivity|]. right. split; [bad|]. split; [left; reflexivity|].
      rewrite no_close by lia. rewrite app_nil_r. reflexivity.
  - (* pong *)
    unfold handle, message_of. cbn [m_opcode m_fin m_data]. rewrite O. change (10 =? OP_CLOSE) with false. change (10 =? OP_PING) with false.
    change (10 =? OP_PONG) with true. change ((10 =? OP_TEXT) || (10 =? OP_BINARY) || (10 =? OP_CONTINUE)) with false. cbn [andb].
    destruct (f_fin f) eqn:FF.
    + split; [reflexivity|]. split; [reflexivity|]. left. exists t, []. split; [apply fo_pong; auto|]. rewrite app_nil_r. auto.
    + split; [reflexivity|]. split; [reflexivity|]. right. split; [bad|]. split; [left; reflexivity|].
      rewrite no_close by lia. rewrite app_nil_r. reflexivity.
  - (* reserved *)
    destruct O as (O0 & O1 & O2 & O8 & O9 & O10). unfold handle, message_of. cbn [m_opcode m_fin m_data].
    apply Z.eqb_neq in O0, O1, O2, O8, O9, O10. unfold OP_CLOSE, OP_PING, OP_PONG, OP_TEXT, OP_BINARY, OP_CONTINUE.
    rewrite O0, O1, O2, O8, O9, O10. cbn [andb orb]. apply Z.eqb_neq in O0, O1, O2, O8, O9, O10.
    split; [reflexivity|]. split; [reflexivity|]. right. split; [bad|]. split; [left; reflexivity|].
    rewrite no_close by lia. rewrite app_nil_r. reflexivity.
Qed.

(** ** the loop on a stream of frames *)
Definition good_frame (f : frame) : Prop :=
  frame_ok f /\ keyed f = server /\ zlen (f_payload f) < 4294967296 /\ alloc_ok (zlen (f_payload f)) = true.

Lemma run_app : forall s a b, run s (a ++ b) = run (run s a) b.
Proof. intros. unfold run. apply fold_left_app. Qed.

Lemma wire_nonempty : forall f w, wire f w -> w <> [].
Proof. intros f w H. unfold wire, rfc_header in H. destruct (f_key f); [destruct H as (q & _ & ->)|subst w]; discriminate. Qed.

Lemma one_frame : forall f w, good_frame f -> wire f w ->
  forall evs s rest, w_in s = evs -> w_phase s = PLoop -> w_conn s = true -> w_ok s = true -> calm evs -> stream evs = w ++ rest ->
  exists k evs', calm evs' /\ stream evs' = rest /\
    forall is, Forall undisturbed is -> length is = k -> run s is = handle (set_in s evs' true) (message_of f).
Proof.
  intros f w (G1 & G2 & G3 & G4) WF. induction evs as [|e evs IH]; intros s rest EI PL CO OK CA ST.
  - cbn in ST. symmetry in ST. apply app_eq_nil in ST as [ST _]. now apply wire_nonempty in WF.
  - destruct e.
    + apply Forall_cons_iff in CA as [_ CA]. destruct (IH (set_in s evs true) rest) as (k & evs' & C' & S' & R); auto.
      exists (S k), evs'. split; [auto|]. split; [auto|]. intros is UN L. destruct is as [|i is]; [discriminate|].
      apply Forall_cons_iff in UN as [[U1 U2] UN]. injection L as L. change (run s (i :: is)) with (run (step s i) is).
      replace (step s i) with (set_in s evs true); [rewrite (R is UN L); reflexivity|].
      unfold WsRecvModel.step. rewrite PL, CO, OK, U1, U2, EI. reflexivity.
    + apply Forall_cons_iff in CA as [[CA _] _]. congruence.
    + apply Forall_cons_iff in CA as [[_ CA] _]. congruence.
    + destruct (read_wire alloc_ok f w (REof :: evs) rest G1 WF CA G3 G4 ST) as (evs' & R & S' & C'). rewrite G2 in R.
      exists 1%nat, evs'. split; [auto|]. split; [auto|]. intros is UN L. destruct is as [|i [|j is]]; try discriminate.
      apply Forall_cons_iff in UN as [[U1 U2] UN]. cbn [fold_left WsRecvModel.run].
      unfold WsRecvModel.step. rewrite PL, CO, OK, U1, U2, EI. cbn [andb data_available].
      unfold set_in at 1. cbn [w_in w_conn]. unfold set_in at 1. cbn [w_in w_conn]. rewrite R. reflexivity.
    + destruct (read_wire alloc_ok f w (RData b :: evs) rest G1 WF CA G3 G4 ST) as (evs' & R & S' & C'). rewrite G2 in R.
      exists 1%nat, evs'. split; [auto|]. split; [auto|]. intros is UN L. destruct is as [|i [|j is]]; try discriminate.
      apply Forall_cons_iff in UN as [[U1 U2] UN]. cbn [fold_left WsRecvModel.run].
      unfold WsRecvModel.step. rewrite PL, CO, OK, U1, U2, EI. cbn [andb data_available].
      unfold set_in at 1. cbn [w_in w_conn]. unfold set_in at 1. cbn [w_in w_conn]. rewrite R. reflexivity.
Qed.

(** once stopped, only the close callback is left *)
Definition inert (s : wst) : Prop := w_phase s <> PLoop \/ stopped s.

Lemma step_inert : forall s i, inert s -> inert (step s i) /\ (w_out (step s i) = w_out s \/ w_out (step s i) = w_out s ++ [OnClose]).
Proof.
  intros s i I. unfold WsRecvModel.step. destruct (w_phase s) eqn:P.
  - destruct I as [I|I]; [congruence|]. replace (w_conn s && w_ok s) with false
      by (destruct I as [-> | ->]; [reflexivity|now rewrite andb_false_r]).
    split; [left; discriminate|left; reflexivity].
  - destruct (i_mgr i); [split; [left; discriminate|right; reflexivity]|].
    destruct (i_gone i); (split; [left; cbn; congruence|left; reflexivity]).
  - split; [exact I|auto].
Qed.

Lemma run_inert : forall is s, inert s -> inert (run s is) /\ seen (run s is) = seen s.
Proof.
  induction is as [|i is IH]; intros s I; [auto|]. change (run s (i :: is)) with (run (step s i) is).
  destruct (step_inert s i I) as [I' O]. destruct (IH _ I') as [I2 S]. split; auto. rewrite S.
  unfold seen. destruct O as [-> | ->]; auto. rewrite flat_map_app. cbn. now rewrite app_nil_r.
Qed.

(** ** what a message that was read says about the bytes *)
Lemma read_data_prefix : forall evs conn len acc p evs' c, read_data evs conn len acc = (Some p, evs', c) ->
  exists a, p = acc ++ a /\ stream evs = a ++ stream evs'.
Proof.
  induction evs as [|e evs IH]; intros conn len acc p evs' c H; cbn [read_data] in H.
  - injection H as <- <- <-. exists []. now rewrite app_nil_r.
  - destruct e; cbn [stream].
    + destruct conn; [eauto|]. injection H as <- <- <-. exists []. now rewrite app_nil_r.
    + injection H as <- <- <-. exists []. now rewrite app_nil_r.
    + discriminate.
    + destruct conn; [eauto|]. injection H as <- <- <-. exists []. now rewrite app_nil_r.
    + destruct (conn && (zlen (acc ++ zfirstn (len - zlen acc) b) <? len)) eqn:E.
      * destruct (zskipn (len - zlen acc) b) as [|x y] eqn:K.
        -- destruct (IH _ _ _ _ _ _ H) as (a & -> & S). exists (zfirstn (len - zlen acc) b ++ a).
           split; [now rewrite app_assoc|]. rewrite S, <- app_assoc.
           pose proof (zfirstn_zskipn _ b (len - zlen acc)) as Z. rewrite K, app_nil_r in Z. rewrite Z. reflexivity.
        -- exfalso. apply andb_true_iff in E as [_ E]. apply Z.ltb_lt in E. rewrite zlen_app in E.
           pose proof (zlen_nonneg _ acc). unfold zfirstn, zskipn in *. unfold zlen in *.
           assert (length (firstn (Z.to_nat (len - Z.of_nat (length acc))) b) = length b \/ length (firstn (Z.to_nat (len - Z.of_nat (length acc))) b) = Z.to_nat (len - Z.of_nat (length acc))) as X.
           { rewrite firstn_length. lia. }
           assert (length (skipn (Z.to_nat (len - Z.of_nat (length acc))) b) <> 0%nat) as Y by (rewrite K; discriminate).
           rewrite skipn_length in Y. rewrite firstn_length in *. lia.
      * injection H as <- <- <-. exists (zfirstn (len - zlen acc) b). split; [reflexivity|].
        rewrite <- (zfirstn_zskipn _ b (len - zlen acc)) at 1. rewrite <- app_assoc. f_equal.
        destruct (zskipn (len - zlen acc) b); reflexivity.
Qed.

Lemma read_message_some : forall evs conn r m evs' c, read_message alloc_ok server evs conn = (r, Some m, evs', c) ->
  exists h0 h1 tail, stream evs = h0 :: h1 :: tail /\ m_opcode m = Z.land h0 15 /\ m_rsv m = Z.land h0 112 /\
    m_fin m = negb (Z.land h0 128 =? 0) /\ m_has_mask m = server /\ negb (Z.land h1 128 =? 0) = server.
Proof.
  intros evs conn r m evs' c H. unfold read_message in H.
  destruct (read_header evs conn) as [[[[ret h] n] ev1] c1] eqn:RH.
  destruct (ret =? U_OK) eqn:E; [|discriminate].
  assert (exists h0 h1 tail, h = [h0; h1] /\ stream evs = h0 :: h1 :: tail) as (h0 & h1 & tail & -> & S).
  { unfold read_header in RH. destruct (read_data evs conn 2 []) as [[[x|] e2] c2] eqn:RD.
    - destruct (read_data_prefix _ _ _ _ _ _ _ RD) as (a & A & S). cbn in A. subst a.
      destruct x as [|h0 [|h1 [|h2 x]]]; try (injection RH as <- <- <- <- <-; discriminate).
      exists h0, h1, (stream e2). split; [|exact S].
      destruct (Z.land h1 LEN_MASK <=? 125); [injection RH as <- <- <- <- <-; reflexivity|].
      destruct (read_data e2 c2 _ []) as [[[y|] e3] c3]; [destruct (_ =? _) in RH|]; injection RH as <- <- <- <- <-; reflexivity.
    - injection RH as <- <- <- <- <-. discriminate. }
  exists h0, h1, tail. split; [exact S|]. cbn [nth] in H. cbv zeta in H.
  destruct (read_mask server h1 ev1 c1) as [[[[r2 masked] key] e2] c2] eqn:RM.
  destruct (r2 =? U_OK) eqn:E2; [|discriminate].
  destruct (read_payload alloc_ok masked key n e2 c2) as [[[r3 d] e3] c3].
  destruct (r3 =? U_OK); [|discriminate]. injection H as <- <- <- <-.
  cbn [m_opcode m_rsv m_fin m_has_mask].
  split; [reflexivity|]. split; [reflexivity|]. split; [reflexivity|].
  unfold read_mask in RM. change BIT_MASK with 128 in RM. destruct server; destruct (negb (Z.land h1 128 =? 0)) eqn:M.
  - split; [|reflexivity]. destruct (read_data ev1 c1 4 []) as [[[y|] ?] ?]; injection RM as <- <- <- <- <-; reflexivity.
  - injection RM as <- <- <- <- <-. discriminate.
  - injection RM as <- <- <- <- <-. discriminate.
  - injection RM as <- <- <- <- <-. auto.
Qed.

(** bytes that cannot be taken for a frame: none at all, or the wrong mask bit *)
Definition refused (rest : list Z) : Prop :=
  rest = [] \/ exists h0 h1 tail, rest = h0 :: h1 :: tail /\ negb (Z.land h1 128 =? 0) <> server.

Lemma refused_none : forall evs conn r m evs' c, refused (stream evs) -> read_message alloc_ok server evs conn = (r, m, evs', c) -> m = None.
Proof.
  intros evs conn r m evs' c R H. destruct m as [m|]; auto. exfalso.
  destruct (read_message_some _ _ _ _ _ _ H) as (h0 & h1 & tail & S & _ & _ & _ & _ & K).
  destruct R as [R|(a & b & t & R & N)]; rewrite S in R; [discriminate|]. injection R as -> -> ->. contradiction.
Qed.

Lemma drained : forall evs s, w_in s = evs -> w_phase s = PLoop -> w_conn s = true -> w_ok s = true -> refused (stream evs) ->
  exists k, forall is, Forall undisturbed is -> length is = k -> inert (run s is) /\ seen (run s is) = seen s.
Proof.
  assert (X : forall e evs s, e <> RIdle -> e <> RGone -> w_in s = e :: evs -> w_phase s = PLoop -> w_conn s = true -> w_ok s = true ->
    refused (stream (e :: evs)) -> exists k, forall is, Forall undisturbed is -> length is = k -> inert (run s is) /\ seen (run s is) = seen s).
  { intros e evs s N1 N2 EI PL CO OK RE.
    exists 1%nat. intros is UN L. destruct is as [|i [|j is]]; try discriminate. apply Forall_cons_iff in UN as [[U1 U2] UN].
    cbn [fold_left WsRecvModel.run]. unfold WsRecvModel.step. rewrite PL, CO, OK, U1, U2, EI. cbn [andb].
    assert (data_available (e :: evs) true = (true, e :: evs, true)) as -> by (destruct e; try congruence; reflexivity).
    cbn [set_in w_in w_conn]. destruct (read_message alloc_ok server (e :: evs) true) as [[[r m] e'] c'] eqn:R.
    rewrite (refused_none _ _ _ _ _ _ RE R). split; [right; left; reflexivity|reflexivity]. }
  induction evs as [|e evs IH]; intros s EI PL CO OK RE.
  - exists 1%nat. intros is UN L. destruct is as [|i [|j is]]; try discriminate. apply Forall_cons_iff in UN as [[U1 U2] UN].
    cbn [fold_left WsRecvModel.run]. unfold WsRecvModel.step. rewrite PL, CO, OK, U1, U2, EI. cbn [andb data_available].
    split; [right; left; reflexivity|reflexivity].
  - destruct e; try (eapply X; eauto; discriminate).
    + destruct (IH (set_in s evs true)) as (k & R); auto.
      exists (S k). intros is UN L. destruct is as [|i is]; [discriminate|].
      apply Forall_cons_iff in UN as [[U1 U2] UN]. injection L as L. change (run s (i :: is)) with (run (step s i) is).
      replace (step s i) with (set_in s evs true); [destruct (R is UN L) as [R1 R2]; split; [exact R1|exact R2]|].
      unfold WsRecvModel.step. rewrite PL, CO, OK, U1, U2, EI. reflexivity.
    + exists 1%nat. intros is UN L. destruct is as [|i [|j is]]; try discriminate. apply Forall_cons_iff in UN as [[U1 U2] UN].
      cbn [fold_left WsRecvModel.run]. unfold WsRecvModel.step. rewrite PL, CO, OK, U1, U2, EI. cbn [andb data_available].
      split; [right; left; reflexivity|reflexivity].
Qed.

Definition outcome_of (pre fs : list frame) (items : list sitem) : Prop :=
  (exists t os, history (pre ++ fs) t os /\ items = os) \/
  (exists a f b t os, fs = a ++ f :: b /\ history (pre ++ a) t os /\ (forall t' o, ~ follows t f t' o) /\ items = os ++ closing f).

Lemma frames_run : forall fs ws, Forall2 wire fs ws -> Forall good_frame fs ->
  forall s pre t os, history pre t os -> frame_bytes t -> holds (w_prev s) t -> w_phase s = PLoop -> w_conn s = true -> w_ok s = true ->
    forall rest, refused rest -> calm (w_in s) -> stream (w_in s) = concat ws ++ rest -> seen s = os ->
  exists k, forall is, Forall undisturbed is -> (k <= length is)%nat -> inert (run s is) /\ outcome_of pre fs (seen (run s is)).
Proof.
  induction 1 as [|f w fs ws WF WS IH]; intros GF s pre t os HI FB HO PL CO OK rest RE CA ST SE.
  - destruct (drained (w_in s) s eq_refl PL CO OK ltac:(cbn in ST; rewrite ST; exact RE)) as (k & R). exists k. intros is UN L.
    rewrite <- (firstn_skipn k is) in *. apply Forall_app in UN as [U1 U2]. rewrite run_app.
    destruct (R _ U1) as [R1 R2]; [apply firstn_length_le; rewrite firstn_skipn in L; auto|].
    destruct (run_inert (skipn k is) _ R1) as [R3 R4]. split; [auto|]. left. exists t, os. rewrite app_nil_r. split; [auto|]. congruence.
  - apply Forall_cons_iff in GF as [G GF]. cbn [concat] in ST. rewrite <- app_assoc in ST.
    destruct (one_frame f w G WF (w_in s) s (concat ws ++ rest) eq_refl PL CO OK CA ST) as (k1 & evs' & C' & S' & R).
    assert (FB' : frame_bytes (t ++ [f])).
    { apply Forall_app. split; [exact FB|]. constructor; [|constructor]. apply G. }
    destruct (handle_ok (set_in s evs' true) t f HO eq_refl OK FB') as (W1 & W2 & [(t' & o & FO & HO' & CO' & OK' & SE')|(NF & SP & SE')]).
    + destruct (IH GF (handle (set_in s evs' true) (message_of f)) (pre ++ [f]) t' (os ++ o)) with (rest := rest) as (k2 & R2); auto.
      * eapply h_next; eauto.
      * inversion FO; subst; auto. constructor.
      * rewrite W2. exact PL.
      * rewrite W1. exact C'.
      * rewrite W1. exact S'.
      * rewrite SE'. f_equal. exact SE.
      * exists (k1 + k2)%nat. intros is UN L. rewrite <- (firstn_skipn k1 is) in UN |- *. apply Forall_app in UN as [U1 U2].
        rewrite run_app. rewrite (R _ U1) by (apply firstn_length_le; lia).
        destruct (R2 _ U2) as [R3 R4]; [rewrite skipn_length; lia|]. split; [auto|].
        destruct R4 as [(t2 & os2 & H1 & H2)|(a & f2 & b & t2 & os2 & H1 & H2 & H3 & H4)].
        -- left. exists t2, os2. rewrite <- app_assoc in H1. auto.
        -- right. exists (f :: a), f2, b, t2, os2. rewrite <- app_assoc in H2. split; [cbn; congruence|]. auto.
    + exists k1. intros is UN L. rewrite <- (firstn_skipn k1 is) in UN |- *. apply Forall_app in UN as [U1 U2].
      rewrite run_app. rewrite (R _ U1) by (apply firstn_length_le; lia).
      destruct (run_inert (skipn k1 is) (handle (set_in s evs' true) (message_of f))) as [R1 R2]; [right; exact SP|].
      split; [auto|]. right. exists [], f, fs, t, os. rewrite app_nil_r. split; [reflexivity|]. split; [auto|]. split; [auto|].
      rewrite R2, SE'. f_equal. exact SE.
Qed.

Notation complete_message := (complete_message ext_in rsv_expected).
Notation close_wait := (close_wait alloc_ok server).
(** ** for all inputs *)
(** what [handle] leaves alone, and what it may add *)
Lemma handle_keeps : forall s m, w_in (handle s m) = w_in s /\ w_phase (handle s m) = w_phase s /\
  exists o, w_out (handle s m) = w_out s ++ o /\ (o = [] \/ (exists op d, o = [Send op d]) \/ (exists d, o = [Deliver d])).
Proof.
  intros s m.
  assert (CM : forall s p, w_in (complete_message s p) = w_in s /\ w_phase (complete_message s p) = w_phase s /\
    exists o, w_out (complete_message s p) = w_out s ++ o /\ (o = [] \/ (exists op d, o = [Send op d]) \/ (exists d, o = [Deliver d]))).
  { intros s0 p. unfold WsRecvModel.complete_message. destruct (ext_in _ _ _) as [d|].
    - destruct (_ || _); [destruct (_ || _)|].
      + cbn. split; [reflexivity|]. split; [reflexivity|]. eexists. split; [reflexivity|]. eauto.
      + cbn. split; [reflexivity|]. split; [reflexivity|]. exists []. rewrite app_nil_r. auto.
      + cbn. split; [reflexivity|]. split; [reflexivity|]. exists []. rewrite app_nil_r. auto.
    - cbn. split; [reflexivity|]. split; [reflexivity|]. exists []. rewrite app_nil_r. auto. }
  assert (NIL : forall s', w_in s' = w_in s -> w_phase s' = w_phase s -> w_out s' = w_out s -> w_in s' = w_in s /\ w_phase s' = w_phase s /\
    exists o, w_out s' = w_out s ++ o /\ (o = [] \/ (exists op d, o = [Send op d]) \/ (exists d, o = [Deliver d]))).
  { intros s' A B C. split; [auto|]. split; [auto|]. exists []. rewrite app_nil_r. auto. }
  unfold WsRecvModel.handle. destruct (_ && _).
  { destruct (_ <=? _); [|apply NIL; reflexivity]. cbn. split; [reflexivity|]. split; [reflexivity|]. eexists. split; [reflexivity|]. eauto. }
  destruct (_ && _).
  { destruct (_ <=? _); [|apply NIL; reflexivity]. cbn. split; [reflexivity|]. split; [reflexivity|]. eexists. split; [reflexivity|]. eauto. }
  destruct (_ && _); [apply NIL; reflexivity|].
  destruct (_ || _); [|apply NIL; reflexivity].
  destruct (m_fin m), (w_prev s) as [p|].
  - destruct (merge p m) as [r p']. destruct (r =? U_OK); [|apply NIL; reflexivity]. apply (CM (set_prev s None) p').
  - destruct (_ =? _); [apply NIL; reflexivity|apply CM].
  - destruct (merge p m) as [r p']. destruct (r =? U_OK); apply NIL; reflexivity.
  - destruct (_ =? _); apply NIL; reflexivity.
Qed.

(** masks *)
Definition mask_seen (o : out) : Prop := match o with Deliver m | Keep m => m_has_mask m = server | _ => True end.
Definition masks (s : wst) : Prop := (forall p, w_prev s = Some p -> m_has_mask p = server) /\ Forall mask_seen (w_out s).

Lemma masks_out : forall s o, masks s -> mask_seen o -> masks (emit s o).
Proof. intros s o [A B] O. split; [exact A|]. cbn. apply Forall_app. split; auto. Qed.

Lemma masks_complete : forall s m, masks s -> m_has_mask m = server -> masks (complete_message s m).
Proof.
  intros s m M K. unfold WsRecvModel.complete_message. destruct (ext_in _ _ _); [|exact M].
  destruct (_ || _); [|exact M]. destruct (_ || _); [|exact M]. now apply masks_out.
Qed.

Lemma masks_merge : forall a b, m_has_mask (snd (merge a b)) = m_has_mask a.
Proof. intros a b. unfold merge. destruct (m_fin a); auto. destruct (_ && _); reflexivity. Qed.

Lemma masks_handle : forall s m, masks s -> m_has_mask m = server -> masks (handle s m).
Proof.
  intros s m M K. unfold WsRecvModel.handle. destruct (_ && _).
  { destruct (_ <=? _); [|exact M]. exact (masks_out s (Send OP_CLOSE []) M I). }
  destruct (_ && _). { destruct (_ <=? _); [|exact M]. now apply masks_out. }
  destruct (_ && _); [exact M|]. destruct (_ || _); [|exact M].
  destruct M as [M1 M2]. destruct (m_fin m), (w_prev s) as [p|] eqn:P.
  - pose proof (masks_merge p m) as X. destruct (merge p m) as [r p']. cbn in X. destruct (r =? U_OK).
    + apply masks_complete; [split; [discriminate|exact M2]|]. rewrite X. auto.
    + split; [cbn; rewrite P; exact M1|exact M2].
  - destruct (_ =? _); [split; [cbn; rewrite P; exact M1|exact M2]|].
    apply masks_complete; auto. split; [rewrite P; exact M1|exact M2].
  - pose proof (masks_merge p m) as X. destruct (merge p m) as [r p']. cbn in X.
    destruct (r =? U_OK); (split; [cbn; intros q [= <-]; rewrite X; auto|exact M2]).
  - destruct (_ =? _); (split; [|exact M2]); cbn.
    + rewrite P. discriminate.
    + intros q [= <-]. exact K.
Qed.

Lemma masks_wait : forall n s, masks s -> masks (close_wait n s).
Proof.
  induction n as [|n IH]; intros s M; [exact M|]. cbn [close_wait].
  destruct (data_available (w_in s) (w_conn s)) as [[a e] c]. destruct a.
  - destruct (read_message alloc_ok server _ _) as [[[r m] e2] c2] eqn:R. destruct m as [m|].
    + assert (X : m_has_mask m = server).
      { apply read_message_some in R. destruct R as (h0 & h1 & tl & _ & _ & _ & _ & R & _). exact R. }
      match goal with |- context [if w_conn ?x then _ else _] => destruct (w_conn x) end; [apply IH|]; exact (masks_out s (Keep m) M X).
    + cbn [w_conn set_conn]. exact M.
  - match goal with |- context [if w_conn ?x then _ else _] => destruct (w_conn x) end; [apply IH|]; exact M.
Qed.

Lemma masks_conn : forall s b, masks s -> masks (set_conn s b).
Proof. intros s b M. exact M. Qed.

Lemma masks_step : forall s i, masks s -> masks (step s i).
Proof.
  intros s i M. unfold WsRecvModel.step. destruct (w_phase s).
  - destruct (_ && _); [|exact M]. destruct (i_close i).
    + assert (X : masks (close_wait 11 (emit s (Send OP_CLOSE [])))) by (apply masks_wait; now apply masks_out).
      revert X. generalize (close_wait 11 (emit s (Send OP_CLOSE []))). intros s' X. destruct (i_gone i); exact X.
    + destruct (data_available (w_in s) (w_conn s)) as [[a e] c]. destruct a; [|destruct (i_gone i); exact M].
      destruct (read_message alloc_ok server _ _) as [[[r m] e2] c2] eqn:R. destruct m as [m|]; [|destruct (i_gone i); exact M].
      assert (X : m_has_mask m = server).
      { apply read_message_some in R. destruct R as (h0 & h1 & tl & _ & _ & _ & _ & R & _). exact R. }
      assert (Y : masks (handle (set_in (set_in s e c) e2 c2) m)) by (apply masks_handle; auto).
      destruct (i_gone i); exact Y.
  - destruct (i_mgr i); [exact (masks_out s OnClose M I)|]. destruct (i_gone i); exact M.
  - exact M.
Qed.

Lemma masks_run : forall is s, masks s -> masks (run s is).
Proof. induction is as [|i is IH]; intros s M; [exact M|]. apply IH. now apply masks_step. Qed.

(** a first byte without opcode *)
Definition delivered (o : out) : bool := match o with Deliver _ => true | _ => false end.
Definition mute (s : wst) : Prop :=
  existsb delivered (w_out s) = false /\
  (inert s \/ (w_prev s = None /\ exists b0 t, stream (w_in s) = b0 :: t /\ Z.land b0 15 = 0)).

Lemma wait_mute : forall n s, existsb delivered (w_out s) = false -> existsb delivered (w_out (close_wait n s)) = false.
Proof.
  induction n as [|n IH]; intros s M; [exact M|]. cbn [close_wait].
  destruct (data_available (w_in s) (w_conn s)) as [[a e] c]. destruct a.
  - destruct (read_message alloc_ok server _ _) as [[[r m] e2] c2] eqn:R. destruct m as [m|].
    + assert (X : existsb delivered (w_out s ++ [Keep m]) = false) by (rewrite existsb_app, M; reflexivity).
      match goal with |- context [if w_conn ?x then _ else _] => destruct (w_conn x) end; [apply IH|]; exact X.
    + cbn [w_conn set_conn]. exact M.
  - match goal with |- context [if w_conn ?x then _ else _] => destruct (w_conn x) end; [apply IH|]; exact M.
Qed.

Lemma step_mute : forall s i, mute s -> mute (step s i).
Proof.
  intros s i [M [I|(P & b0 & t & ST & Z0)]].
  - destruct (step_inert s i I) as [I' [O|O]]; (split; [|left; exact I']); rewrite O; auto. rewrite existsb_app, M. reflexivity.
  - unfold WsRecvModel.step. destruct (w_phase s) eqn:PH.
    + destruct (w_conn s && w_ok s) eqn:CO; [|split; [exact M|left; left; discriminate]].
      apply andb_true_iff in CO as [CO OK]. destruct (i_close i).
      * assert (X : existsb delivered (w_out (close_wait 11 (emit s (Send OP_CLOSE [])))) = false).
        { apply wait_mute. cbn. rewrite existsb_app, M. reflexivity. }
        revert X. generalize (close_wait 11 (emit s (Send OP_CLOSE []))). intros s' X.
        split; [|left; right; left; destruct (i_gone i); reflexivity]. destruct (i_gone i); exact X.
      * assert (G : forall s', mute s' -> mute (if i_gone i then set_conn s' false else s')).
        { intros s' [A B]. destruct (i_gone i); [|split; auto]. split; [exact A|]. left. right. left. reflexivity. }
        apply G. destruct (data_available (w_in s) (w_conn s)) as [[a e] c] eqn:DA.
        assert (E : stream e = stream (w_in s)).
        { unfold data_available in DA. destruct (w_in s) as [|[]]; injection DA as <- <- <-; reflexivity. }
        destruct a.
        -- destruct (read_message alloc_ok server _ _) as [[[r m] e2] c2] eqn:R. destruct m as [m|].
           ++ apply read_message_some in R. destruct R as (h0 & h1 & tl & S1 & OPC & _). cbn [set_in w_in] in S1.
              rewrite E, ST in S1. injection S1 as <- _. rewrite Z0 in OPC. unfold WsRecvModel.handle. rewrite OPC.
              change (0 =? OP_CLOSE) with false. change (0 =? OP_PING) with false. change (0 =? OP_PONG) with false.
              cbn [andb]. change ((0 =? OP_TEXT) || (0 =? OP_BINARY) || (0 =? OP_CONTINUE)) with true. cbn [set_in w_prev]. rewrite P.
              destruct (m_fin m); (split; [exact M|left; right; left; reflexivity]).
           ++ split; [exact M|left; right; left; reflexivity].
        -- split; [exact M|]. right. split; [exact P|]. exists b0, t. split; [|exact Z0]. cbn [set_in w_in]. congruence.
    + destruct (i_mgr i); [split; [cbn; rewrite existsb_app, M; reflexivity|left; left; discriminate]|].
      destruct (i_gone i); (split; [exact M|]); left; left; cbn; congruence.
    + split; [exact M|]. left. left. congruence.
Qed.

Lemma run_mute : forall is s, mute s -> mute (run s is).
Proof. induction is as [|i is IH]; intros s M; [exact M|]. apply IH. now apply step_mute. Qed.

(** the close callback *)
Definition is_close (o : out) : bool := match o with OnClose => true | _ => false end.
Definition closes (l : list out) : nat := length (filter is_close l).
Lemma closes_app : forall a b, closes (a ++ b) = (closes a + closes b)%nat.
Proof. intros. unfold closes. now rewrite filter_app, app_length. Qed.

Lemma wait_keeps : forall n s, closes (w_out (close_wait n s)) = closes (w_out s) /\ w_phase (close_wait n s) = w_phase s.
Proof.
  induction n as [|n IH]; intros s; [auto|]. cbn [close_wait].
  destruct (data_available (w_in s) (w_conn s)) as [[a e] c]. destruct a.
  - destruct (read_message alloc_ok server _ _) as [[[r m] e2] c2] eqn:R. destruct m as [m|].
    + assert (X : closes (w_out s ++ [Keep m]) = closes (w_out s)) by (rewrite closes_app; cbn; lia).
      match goal with |- context [if w_conn ?x then _ else _] => destruct (w_conn x) end; [|cbn; auto]. rewrite !(proj1 (IH _)), (proj2 (IH _)). cbn. auto.
    + cbn [w_conn set_conn]. auto.
  - match goal with |- context [if w_conn ?x then _ else _] => destruct (w_conn x) end; [|cbn; auto]. rewrite !(proj1 (IH _)), (proj2 (IH _)). cbn. auto.
Qed.

Definition once (s : wst) : Prop := closes (w_out s) = match w_phase s with PEnd => 1%nat | _ => 0%nat end.
Lemma step_once : forall s i, once s -> once (step s i).
Proof.
  intros s i O. unfold once, WsRecvModel.step in *. destruct (w_phase s) eqn:P.
  - destruct (_ && _); [|exact O].
    assert (G : forall s', closes (w_out s') = 0%nat /\ w_phase s' = PLoop ->
      let s'' := if i_gone i then set_conn s' false else s' in closes (w_out s'') = match w_phase s'' with PEnd => 1%nat | _ => 0%nat end).
    { intros s' [A B]. destruct (i_gone i); cbn; rewrite B; exact A. }
    apply G. destruct (i_close i).
    + destruct (wait_keeps 11 (emit s (Send OP_CLOSE []))) as [X Y]. revert X Y.
      generalize (close_wait 11 (emit s (Send OP_CLOSE []))). intros s' X Y. cbn [set_conn w_out w_phase]. rewrite X, Y.
      cbn [emit w_out w_phase]. rewrite closes_app, O. auto.
    + destruct (data_available (w_in s) (w_conn s)) as [[a e] c]. destruct a; [|cbn; auto].
      destruct (read_message alloc_ok server _ _) as [[[r m] e2] c2]. destruct m as [m|]; [|cbn; auto].
      destruct (handle_keeps (set_in (set_in s e c) e2 c2) m) as (_ & -> & o & -> & H). split; [|exact P].
      rewrite closes_app. cbn [set_in w_out]. rewrite O. destruct H as [-> |[(op & d & ->)|(d & ->)]]; reflexivity.
  - destruct (i_mgr i).
    + cbn [set_phase set_conn emit w_out w_phase]. rewrite closes_app, O. reflexivity.
    + destruct (i_gone i); cbn; rewrite P; exact O.
  - rewrite P. exact O.
Qed.
Lemma run_once : forall is s, once s -> once (run s is).
Proof. induction is as [|i is IH]; intros s M; [exact M|]. apply IH. now apply step_once. Qed.

(** the loop ends when the connection does *)
Fixpoint remaining (evs : list rd) : nat :=
  match evs with
  | [] => 0
  | RData b :: r => S (length b) + remaining r
  | _ :: r => S (remaining r)
  end.

Lemma read_data_left : forall evs conn len acc p evs' c, read_data evs conn len acc = (p, evs', c) ->
  (remaining evs' <= remaining evs)%nat /\ (zlen acc < len -> evs <> [] -> (remaining evs' < remaining evs)%nat).
Proof.
  induction evs as [|e evs IH]; intros conn len acc p evs' c H; cbn [read_data] in H.
  - injection H as <- <- <-. split; [auto|congruence].
  - destruct e; cbn [remaining].
    + destruct conn; [apply IH in H as [H _]; lia|]. injection H as <- <- <-. lia.
    + injection H as <- <- <-. lia.
    + injection H as <- <- <-. lia.
    + destruct conn; [apply IH in H as [H _]; lia|]. injection H as <- <- <-. lia.
    + destruct (conn && (zlen (acc ++ zfirstn (len - zlen acc) b) <? len)) eqn:E.
      * apply IH in H as [H _]. lia.
      * injection H as <- <- <-. destruct (zskipn (len - zlen acc) b) as [|x y] eqn:K; [cbn [remaining]; lia|].
        rewrite <- K. cbn [remaining]. unfold zskipn. rewrite skipn_length. split; [lia|]. intros L _. unfold zskipn in K.
        destruct b; [rewrite skipn_nil in K; discriminate|]. cbn [length]. lia.
Qed.

Lemma read_message_left : forall evs conn r m evs' c, read_message alloc_ok server evs conn = (r, m, evs', c) ->
  evs <> [] -> (remaining evs' < remaining evs)%nat.
Proof.
  intros evs conn r m evs' c H N. unfold read_message in H.
  destruct (read_header evs conn) as [[[[ret h] n] e1] c1] eqn:RH.
  assert (L1 : (remaining e1 < remaining evs)%nat).
  { unfold read_header in RH. destruct (read_data evs conn 2 []) as [[x e2] c2] eqn:RD.
    apply read_data_left in RD as [_ RD]. specialize (RD ltac:(reflexivity) N).
    destruct x as [[|h0 [|h1 [|h2 x]]]|]; try (injection RH as <- <- <- <- <-; exact RD).
    destruct (_ <=? 125); [injection RH as <- <- <- <- <-; exact RD|].
    destruct (read_data e2 c2 _ []) as [[y e3] c3] eqn:RD2. apply read_data_left in RD2 as [RD2 _].
    destruct y as [y|]; [destruct (_ =? _) in RH|]; injection RH as <- <- <- <- <-; lia. }
  destruct (ret =? U_OK); [|injection H as <- <- <- <-; exact L1].
  destruct (read_mask server _ e1 c1) as [[[[r2 masked] key] e2] c2] eqn:RM.
  assert (L2 : (remaining e2 <= remaining e1)%nat).
  { unfold read_mask in RM. destruct server; [|injection RM as <- <- <- <- <-; lia].
    destruct (negb _); [|injection RM as <- <- <- <- <-; lia].
    destruct (read_data e1 c1 4 []) as [[y e3] c3] eqn:RD2. apply read_data_left in RD2 as [RD2 _].
    destruct y as [y|]; injection RM as <- <- <- <- <-; lia. }
  destruct (r2 =? U_OK); [|injection H as <- <- <- <-; lia].
  destruct (read_payload alloc_ok masked key n e2 c2) as [[[r3 d] e3] c3] eqn:RP.
  assert (L3 : (remaining e3 <= remaining e2)%nat).
  { unfold read_payload in RP. destruct (n =? 0) eqn:N0; [injection RP as <- <- <- <-; lia|].
    destruct (_ && _) eqn:A; [|injection RP as <- <- <- <-; lia].
    destruct (read_data e2 c2 n []) as [[y e4] c4] eqn:RD2.
    apply read_data_left in RD2 as [RD2 _]. destruct y as [y|]; [destruct (_ =? _) in RP|]; injection RP as <- <- <- <-; lia. }
  destruct (r3 =? U_OK); injection H as <- <- <- <-; lia.
Qed.

Lemma step_left : forall s i, w_phase s = PLoop ->
  w_phase (step s i) = PJoin \/ (w_phase (step s i) = PLoop /\ (stopped (step s i) \/ (remaining (w_in (step s i)) < remaining (w_in s))%nat)).
Proof.
  intros s i P. unfold WsRecvModel.step. rewrite P. destruct (w_conn s && w_ok s) eqn:CO; [|left; reflexivity].
  apply andb_true_iff in CO as [CO OK]. right.
  assert (G : forall s', w_phase s' = PLoop /\ (stopped s' \/ (remaining (w_in s') < remaining (w_in s))%nat) ->
    let s'' := if i_gone i then set_conn s' false else s' in w_phase s'' = PLoop /\ (stopped s'' \/ (remaining (w_in s'') < remaining (w_in s))%nat)).
  { intros s' [A B]. destruct (i_gone i); [|auto]. split; [exact A|]. left. left. reflexivity. }
  apply G. clear G. destruct (i_close i).
  - pose proof (proj2 (wait_keeps 11 (emit s (Send OP_CLOSE [])))) as Y. revert Y.
    generalize (close_wait 11 (emit s (Send OP_CLOSE []))). intros s' Y.
    split; [|left; left; reflexivity]. cbn [set_conn w_phase]. rewrite Y. exact P.
  - destruct (data_available (w_in s) (w_conn s)) as [[a e] c] eqn:DA. unfold data_available in DA.
    destruct (w_in s) as [|[]] eqn:EI; injection DA as <- <- <-; cbn [set_in w_in w_conn w_phase].
    1: split; [exact P|left; left; reflexivity].
    1: split; [exact P|right; cbn; lia].
    1: split; [exact P|left; left; reflexivity].
    all: match goal with |- context [read_message alloc_ok server ?e ?c] => destruct (read_message alloc_ok server e c) as [[[r m] e2] c2] eqn:R end;
      apply read_message_left in R; [|discriminate];
      (destruct m as [m|]; [|split; [exact P|left; left; reflexivity]]);
      match goal with |- context [handle ?s m] => destruct (handle_keeps s m) as (-> & -> & _) end;
      (split; [exact P|right; exact R]).
Qed.

Lemma stopped_step : forall s i, w_phase s = PLoop -> stopped s -> w_phase (step s i) = PJoin.
Proof.
  intros s i P ST. unfold WsRecvModel.step. rewrite P.
  replace (w_conn s && w_ok s) with false by (destruct ST as [-> | ->]; [reflexivity|now rewrite andb_false_r]). reflexivity.
Qed.

Lemma past_loop : forall is s, w_phase s <> PLoop -> w_phase (run s is) <> PLoop.
Proof.
  induction is as [|i is IH]; intros s P; [exact P|]. apply IH. unfold WsRecvModel.step.
  destruct (w_phase s) eqn:E; [congruence| |congruence]. destruct (i_mgr i); [discriminate|]. destruct (i_gone i); cbn; congruence.
Qed.

Lemma loop_ends : forall n s is, (remaining (w_in s) <= n)%nat -> (n + 2 <= length is)%nat -> w_phase (run s is) <> PLoop.
Proof.
  induction n as [|n IH]; intros s is L N.
  - destruct is as [|i [|j is]]; cbn in N; try lia. change (run s (i :: j :: is)) with (run (step (step s i) j) is). apply past_loop.
    destruct (w_phase s) eqn:P; [|pose proof (past_loop [i; j] s) as X; cbn in X; apply X; congruence..].
    destruct (step_left s i P) as [J|(J & [K|K])]; [|rewrite stopped_step by auto; discriminate|lia].
    pose proof (past_loop [j] (step s i)) as X. cbn in X. apply X. congruence.
  - destruct is as [|i is]; cbn in N; try lia. change (run s (i :: is)) with (run (step s i) is).
    destruct (w_phase s) eqn:P; [|apply (past_loop (i :: is) s); congruence..].
    destruct (step_left s i P) as [J|(J & [K|K])].
    + apply past_loop. congruence.
    + destruct is as [|j is]; cbn in N; try lia. change (run (step s i) (j :: is)) with (run (step (step s i) j) is).
      apply past_loop. rewrite stopped_step by auto. discriminate.
    + apply IH; lia.
Qed.
End R.

(** ** what a history says *)
Section H.
Variable ext_in : Z -> Z -> list Z -> option (list Z).
Variable rsv_expected : Z.
Notation history := (history ext_in rsv_expected).

Lemma messages_app : forall a b, messages (a ++ b) = messages a ++ messages b.
Proof. induction a as [|[x y z|x y] a IH]; intros b; cbn; auto. now rewrite IH. Qed.
Lemma pongs_app : forall a b, pongs (a ++ b) = pongs a ++ pongs b.
Proof.
  induction a as [|[x y z|x y] a IH]; intros b; cbn [app pongs]; auto.
  destruct x as [|p|p]; auto. do 4 (destruct p as [p|p|]; auto). now rewrite IH.
Qed.

Lemma starting_data : forall t, starting t -> Forall (fun f => is_data f = true) t.
Proof.
  induction 1 as [f O F|t f S IH O F].
  - constructor; auto. unfold is_data. destruct O as [-> | ->]; reflexivity.
  - apply Forall_app. split; auto. constructor; auto. unfold is_data. now rewrite O.
Qed.

Lemma history_groups : forall fs t os, history fs t os ->
  exists groups, filter is_data fs = concat groups ++ t /\ Forall complete groups /\ (t = [] \/ starting t) /\
    Forall2 (accepted ext_in rsv_expected) groups (messages os).
Proof.
  induction 1 as [|fs f t t' os o H IH FO].
  - exists []. repeat split; auto; constructor.
  - destruct IH as (gs & G1 & G2 & G3 & G4). rewrite filter_app, G1. cbn [filter]. rewrite messages_app. inversion FO; subst.
    + exists gs. replace (is_data f) with false by (unfold is_data; now rewrite H0). cbn. rewrite !app_nil_r. auto.
    + exists gs. replace (is_data f) with false by (unfold is_data; now rewrite H0). cbn. rewrite !app_nil_r. auto.
    + assert (D : is_data f = true).
      { pose proof (starting_data _ H0) as D. apply Forall_app in D as [_ D]. now apply Forall_inv in D. }
      rewrite D. exists gs. cbn. rewrite app_nil_r, <- app_assoc. auto.
    + assert (D : is_data f = true).
      { apply complete_inv in H0. unfold is_data. destruct H0 as [(_ & [-> | ->] & _)|(_ & -> & _)]; reflexivity. }
      rewrite D. exists (gs ++ [t ++ [f]]). rewrite concat_app. cbn. rewrite !app_nil_r, <- app_assoc.
      split; [auto|]. split; [apply Forall_app; split; auto|]. split; [auto|].
      apply Forall2_app; auto. destruct H1 as (d & A1 & A2 & A3 & ->). cbn. constructor; [|constructor].
      exists d. auto.
Qed.

Lemma follows_tail : forall t f t1 o1 t2 o2, follows ext_in rsv_expected t f t1 o1 -> follows ext_in rsv_expected t f t2 o2 -> t1 = t2.
Proof.
  intros t f t1 o1 t2 o2 A B.
  assert (S : starting (t ++ [f]) -> f_fin f = false /\ (f_op f = 0 \/ f_op f = 1 \/ f_op f = 2)) by (intros H; apply starting_inv in H; tauto).
  assert (C : complete (t ++ [f]) -> f_fin f = true /\ (f_op f = 0 \/ f_op f = 1 \/ f_op f = 2)) by (intros H; apply complete_inv in H; tauto).
  inversion A; inversion B; subst; auto; exfalso;
    repeat match goal with H : starting _ |- _ => apply S in H | H : complete _ |- _ => apply C in H end;
    repeat match goal with H : _ /\ _ |- _ => destruct H end; try congruence; lia.
Qed.

Lemma history_tail : forall fs t os, history fs t os -> forall t' os', history fs t' os' -> t' = t.
Proof.
  induction 1 as [|fs f t t1 os o H IH FO]; intros t' os' H'.
  - inversion H'; auto. destruct fs; discriminate.
  - inversion H' as [E|fs2 f2 t2 t3 os2 o2 H2 FO2 E]; [destruct fs; discriminate|]. apply app_inj_tail in E as [-> ->].
    rewrite (IH _ _ H2) in FO2. eapply follows_tail; eauto.
Qed.

Lemma history_pongs : forall fs t os, history fs t os ->
  pongs os = map f_payload (filter (fun f => f_op f =? 9) fs) /\
  (forall op d, In (SSend op d) os -> op = 10) /\ (forall f, In f fs -> f_op f <> 8).
Proof.
  induction 1 as [|fs f t t' os o H IH FO].
  - split; [reflexivity|]. split; [intros op d []|intros f []].
  - destruct IH as (P & S & C). rewrite pongs_app, filter_app, map_app, P. cbn [filter].
    assert (X : (pongs o = map f_payload (if f_op f =? 9 then [f] else [])) /\ (forall op d, In (SSend op d) o -> op = 10) /\ f_op f <> 8).
    { inversion FO; subst.
      - rewrite H0. split; [reflexivity|]. split; [|lia]. intros op d [E|[]]. injection E. auto.
      - rewrite H0. split; [reflexivity|]. split; [|lia]. intros op d [].
      - apply starting_inv in H0. assert (F : f_op f = 0 \/ f_op f = 1 \/ f_op f = 2) by tauto.
        replace (f_op f =? 9) with false by (symmetry; apply Z.eqb_neq; lia). split; [reflexivity|]. split; [intros op d []|lia].
      - apply complete_inv in H0. assert (F : f_op f = 0 \/ f_op f = 1 \/ f_op f = 2) by tauto.
        replace (f_op f =? 9) with false by (symmetry; apply Z.eqb_neq; lia).
        destruct H1 as (d & _ & _ & _ & ->). split; [reflexivity|]. split; [|lia]. intros op d' [E|[]]. discriminate. }
    destruct X as (X1 & X2 & X3). split; [now rewrite X1|]. split.
    + intros op d I. apply in_app_or in I as [I|I]; eauto.
    + intros g I. apply in_app_or in I as [I|[<-|[]]]; auto.
Qed.
End H.
