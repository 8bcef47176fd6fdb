(** Proofs about conversations through extensions. *)
From Coq Require Import ZArith Bool List Lia.
From Verif Require Import Base BaseFacts Utf8Model Utf8Spec Utf8Proofs WsFrameModel WsRecvModel WsSpec WsFrameProofs WsRecvSpec WsRecvProofs WsProps WsSendModel WsSendSpec WsSendProps
  ExtModel ExtSpec ExtProps TalkModel TalkSpec TalkProofs TalkExtModel TalkExtSpec.
Import ListNotations.
Open Scope Z_scope.

Section X.
Variable C : Type.
Variables out_perform in_perform : Z -> C -> Z -> list Z -> Z -> Z -> option (list Z) * C.
Variable alloc_ok : Z -> bool.
Hypothesis AL : forall n, alloc_ok n = true.
Variable rx : Z.
Notation through := (through C out_perform).
Notation encoded := (encoded C out_perform).
Notation paired := (paired C out_perform in_perform).

Definition rsv_ok (r : Z) : Prop := exists k, 0 <= k < 8 /\ r = 16 * k.
Lemma rsv_lor : forall a b, rsv_ok a -> rsv_ok b -> rsv_ok (Z.lor a b).
Proof.
  intros a b (i & I & ->) (j & J & ->). exists (Z.lor i j).
  assert (i = 0 \/ i = 1 \/ i = 2 \/ i = 3 \/ i = 4 \/ i = 5 \/ i = 6 \/ i = 7) as Ci by lia.
  assert (j = 0 \/ j = 1 \/ j = 2 \/ j = 3 \/ j = 4 \/ j = 5 \/ j = 6 \/ j = 7) as Cj by lia.
  repeat (destruct Ci as [->|Ci]); try subst i; repeat (destruct Cj as [->|Cj]); try subst j; cbn; lia.
Qed.
Definition bit_ok (e : ext C) : Prop := rsv_ok (e_rsv e) /\ (e_enabled e = true -> Z.land rx (e_rsv e) = e_rsv e).

Lemma through_loop : forall op l rsv d rsv' d' l', through op l rsv d rsv' d' l' -> out_loop C out_perform alloc_ok op 0 l rsv d = (U_OK, rsv', d', l').
Proof.
  intros op l rsv d rsv' d' l' T. induction T as [rsv d|e r rsv d rsv' d' r' N T IH|e r rsv d f x c rsv' d' r' EN EO P T IH]; [reflexivity| |]; cbn [out_loop].
  - rewrite IH. replace (if e_enabled e then e_out e else None) with (@None Z); [reflexivity|]. destruct N as [-> | ->]; [reflexivity|]. now destruct (e_enabled e).
  - rewrite EN, EO, P, AL, IH. reflexivity.
Qed.
Lemma through_message : forall op l d rsv d' l', op = 1 \/ op = 2 -> through op l 0 d rsv d' l' -> out_message C out_perform alloc_ok op 0 l d = (U_OK, rsv, d', l').
Proof.
  intros op l d rsv d' l' O T. unfold out_message. rewrite AL. cbn [negb]. rewrite andb_false_r.
  replace ((op =? OP_BINARY) || (op =? OP_TEXT)) with true by (symmetry; destruct O as [-> | ->]; reflexivity). rewrite andb_true_r. destruct l as [|e l].
  - inversion T; subst. reflexivity.
  - replace (zlen (e :: l) =? 0) with false; [cbn [negb]; now apply through_loop|]. symmetry. apply Z.eqb_neq. unfold zlen. cbn [length]. lia.
Qed.
Lemma control_message : forall op l d, op = 9 \/ op = 10 -> out_message C out_perform alloc_ok op 0 l d = (U_OK, 0, d, l).
Proof.
  intros op l d O. unfold out_message. rewrite AL. cbn [negb]. rewrite andb_false_r.
  replace ((op =? OP_BINARY) || (op =? OP_TEXT)) with false by (symmetry; destruct O as [-> | ->]; reflexivity). now rewrite andb_false_r.
Qed.
Lemma through_bits : forall op l rsv d rsv' d' l', through op l rsv d rsv' d' l' -> Forall bit_ok l -> Forall bit_ok l' /\
  (rsv_ok rsv -> rsv_ok rsv') /\ (Z.land rx rsv = rsv -> Z.land rx rsv' = rsv').
Proof.
  intros op l rsv d rsv' d' l' T. induction T as [rsv d|e r rsv d rsv' d' r' N T IH|e r rsv d f x c rsv' d' r' EN EO P T IH]; intros F; [auto| |]; apply Forall_cons_iff in F as [[B1 B2] F]; destruct (IH F) as (F' & R1 & R2).
  - split; [constructor; [split; assumption|exact F']|auto].
  - split; [constructor; [split; assumption|exact F']|]. split; [intros R; now apply R1, rsv_lor|]. intros R. apply R2. rewrite Z.land_lor_distr_r, R, (B2 EN). reflexivity.
Qed.

(** ** sending *)
Lemma send_one_x : forall server ch opcode data l rsv d l', out_message C out_perform alloc_ok opcode 0 l data = (U_OK, rsv, d, l') -> In opcode [1; 2; 9; 10] -> rsv_ok rsv -> bytes d -> zlen d < 4294967296 ->
  fortunate server ch d ->
  exists m w css, send_message C out_perform alloc_ok server ch true false l opcode data = Ret (U_OK, css, true, l') /\ concat (concat css) = block_of w /\ wire (whole m) w /\
    outgoing m /\ m_has_mask m = negb server /\ m_opcode m = opcode /\ m_data m = d /\ m_rsv m = rsv.
Proof.
  intros server ch opcode data l rsv d l' OM OP RO B L (WI & LE & LO & KE).
  assert (X : exists m, built server opcode rsv (c_key ch) d = Some m /\ outgoing m /\ m_has_mask m = negb server /\ m_opcode m = opcode /\ m_data m = d /\ m_rsv m = rsv).
  { unfold built, build_message. replace ((opcode =? OP_TEXT) || (opcode =? OP_BINARY) || (opcode =? OP_CLOSE) || (opcode =? OP_PING) || (opcode =? OP_PONG)) with true
      by (symmetry; cbn in OP; destruct OP as [<-|[<-|[<-|[<-|[]]]]]; reflexivity).
    assert (OR : 0 <= opcode < 16) by (cbn in OP; lia).
    destruct server.
    - eexists. split; [reflexivity|]. repeat split; cbn; auto; try lia; try discriminate.
    - destruct (KE eq_refl) as (k & -> & K4 & KB). eexists. split; [reflexivity|]. repeat split; cbn; auto; try lia. }
  destruct X as (m & BU & OG & HM & MO & MD & MR). destruct (whole_wire m OG) as (w & BF & WW); [rewrite MD; change (2 ^ 54) with 18014398509481984; lia|rewrite MD; auto|].
  destruct (one_frame m w BF) as (m' & MF). pose proof (wire_length _ _ WW (whole_ok m OG)) as LW. cbn [whole f_payload] in LW. rewrite MD in LW.
  destruct (C39_complete_when_willing server alloc_ok (c_evs ch) true m 0 _ _ AL MF WI) as (css & evs' & E & M).
  { cbn [concat]. rewrite app_nil_r. unfold block_of. rewrite map_length. lia. }
  exists m, w, css. split; [|split].
  - unfold send_message, send_fragmented. rewrite andb_false_r, OM. change (U_OK =? U_OK) with true. cbv iota. rewrite LO, BU, E. reflexivity.
  - replace (concat (concat css)) with (concat (map (@concat _) css)); [rewrite M; cbn; now rewrite app_nil_r|].
    clear. induction css as [|x r IH]; [reflexivity|]. cbn [map concat]. now rewrite concat_app, IH.
  - auto 10.
Qed.

(** a message [m] with what was meant and what is on the wire *)
Definition stands (server : bool) (x : Z * list Z) (p : Z * list Z) (m : wmsg) : Prop :=
  m_opcode m = fst x /\ m_rsv m = fst p /\ m_data m = snd p /\ outgoing m /\ m_has_mask m = negb server /\ zlen (m_data m) < 4294967296 /\ sendable (fst x) (snd x).
Inductive stand (server : bool) : list (Z * list Z) -> list (Z * list Z) -> list wmsg -> Prop :=
| sd_nil : stand server [] [] []
| sd_cons : forall x p m xs ps ms, stands server x p m -> stand server xs ps ms -> stand server (x :: xs) (p :: ps) (m :: ms).

Lemma send_many_x : forall server l xs ps, encoded l xs ps -> forall ms, map (fun x => (snd (fst x), snd x)) ms = xs -> Forall bit_ok l ->
  Forall2 (fun x p => sendable (snd (fst x)) (snd x) /\ bytes (snd p) /\ zlen (snd p) < 4294967296 /\ fortunate server (fst (fst x)) (snd p)) ms ps ->
  exists ws wm pieces, send_all C out_perform alloc_ok server true l ms = Ret (map (fun _ => U_OK) ms, pieces) /\ concat pieces = block_of (concat ws) /\
    Forall2 (fun m w => wire (whole m) w) wm ws /\ stand server xs ps wm.
Proof.
  intros server l xs ps EN.
  assert (G : forall l opcode d rsv d' l' xs ps, out_message C out_perform alloc_ok opcode 0 l d = (U_OK, rsv, d', l') -> In opcode [1; 2; 9; 10] -> rsv_ok rsv ->
    (forall ms, map (fun x => (snd (fst x), snd x)) ms = xs ->
       Forall2 (fun x p => sendable (snd (fst x)) (snd x) /\ bytes (snd p) /\ zlen (snd p) < 4294967296 /\ fortunate server (fst (fst x)) (snd p)) ms ps ->
       exists ws wm pieces, send_all C out_perform alloc_ok server true l' ms = Ret (map (fun _ => U_OK) ms, pieces) /\ concat pieces = block_of (concat ws) /\
         Forall2 (fun m w => wire (whole m) w) wm ws /\ stand server xs ps wm) ->
    forall ms, map (fun x => (snd (fst x), snd x)) ms = (opcode, d) :: xs ->
       Forall2 (fun x p => sendable (snd (fst x)) (snd x) /\ bytes (snd p) /\ zlen (snd p) < 4294967296 /\ fortunate server (fst (fst x)) (snd p)) ms ((rsv, d') :: ps) ->
       exists ws wm pieces, send_all C out_perform alloc_ok server true l ms = Ret (map (fun _ => U_OK) ms, pieces) /\ concat pieces = block_of (concat ws) /\
         Forall2 (fun m w => wire (whole m) w) wm ws /\ stand server ((opcode, d) :: xs) ((rsv, d') :: ps) wm).
  { clear l xs ps EN. intros l opcode d rsv d' l' xs ps OM OP RO IH ms ME F. destruct ms as [|[[ch op] d0] ms]; [discriminate|]. cbn [map fst snd] in ME. injection ME as -> -> ME.
    inversion F as [|? ? ? ? (SE & B & L & FO) F']; subst. cbn [fst snd] in *. destruct (send_one_x server ch opcode d l rsv d' l' OM OP RO B L FO) as (m & w & css & E & CC & WW & OG & HM & MO & MD & MR).
    destruct (IH ms eq_refl F') as (ws & wm & pieces & E2 & CC2 & W2 & ST). exists (w :: ws), (m :: wm), (concat css ++ pieces). cbn [send_all]. rewrite E. unfold bind at 1. cbv beta iota. rewrite E2.
    split; [reflexivity|]. split; [rewrite concat_app, CC, CC2; cbn [concat]; unfold block_of; now rewrite map_app|]. split; [constructor; auto|].
    constructor; [|exact ST]. unfold stands. cbn [fst snd]. rewrite MD. auto 10. }
  induction EN as [l|l opcode d rsv d' l' xs ps O T EN IH|l opcode d xs ps O EN IH]; intros ms ME BO F.
  - destruct ms; [|discriminate]. inversion F; subst. exists [], [], []. repeat split; constructor.
  - destruct (through_bits _ _ _ _ _ _ _ T BO) as (BO' & R1 & _). eapply G; [now apply through_message; [|exact T]|cbn; intuition|apply R1; exists 0; lia| |exact ME|exact F]. intros ms' ME' F'. now apply IH.
  - eapply G; [now apply control_message|cbn; intuition|exists 0; lia| |exact ME|exact F]. intros ms' ME' F'. now apply IH.
Qed.

(** ** receiving *)
Variable server : bool.
Notation run_x := (run_x C in_perform alloc_ok server rx).
Notation step_x := (step_x C in_perform alloc_ok server rx).
Notation ext_fun := (ext_fun C in_perform alloc_ok).
Notation ext_next := (ext_next C in_perform alloc_ok).
Notation incoming := (incoming alloc_ok server).

Lemma frame_x : forall f w, good_frame alloc_ok server f -> wire f w ->
  forall evs s l rest, w_in s = evs -> w_phase s = PLoop -> w_conn s = true -> w_ok s = true -> calm evs -> stream evs = w ++ rest ->
  exists k evs', calm evs' /\ stream evs' = rest /\
    forall is, Forall undisturbed is -> length is = k ->
      run_x (s, l) is = (handle (ext_fun l) rx (set_in s evs' true) (message_of f), match completed s (message_of f) with Some c => ext_next l c | None => l end).
Proof.
  intros f w (G1 & G2 & G3 & G4) WF.
  assert (RD : forall e evs s l rest, e <> RIdle -> e <> RGone -> w_in s = e :: evs -> w_phase s = PLoop -> w_conn s = true -> w_ok s = true -> calm (e :: evs) -> stream (e :: evs) = w ++ rest ->
    exists k evs', calm evs' /\ stream evs' = rest /\
    forall is, Forall undisturbed is -> length is = k ->
      run_x (s, l) is = (handle (ext_fun l) rx (set_in s evs' true) (message_of f), match completed s (message_of f) with Some c => ext_next l c | None => l end)).
  { intros e evs s l rest N1 N2 EI PL CO OK CA ST. destruct (read_wire alloc_ok f w (e :: evs) rest G1 WF CA G3 G4 ST) as (evs' & R & S' & C'). rewrite G2 in R.
    assert (DA : data_available (e :: evs) true = (true, e :: evs, true)) by (destruct e; try congruence; reflexivity).
    exists 1%nat, evs'. split; [auto|]. split; [auto|]. intros is UN L. destruct is as [|i [|j is]]; try discriminate.
    apply Forall_cons_iff in UN as [[U1 U2] UN]. cbn [fold_left TalkExtModel.run_x TalkExtModel.step_x].
    unfold WsRecvModel.step, TalkExtModel.incoming. rewrite PL, CO, OK, U1, U2, EI, DA. cbn [andb negb].
    unfold set_in at 1. cbn [w_in w_conn]. unfold set_in at 1. cbn [w_in w_conn]. rewrite R. reflexivity. }
  induction evs as [|e evs IH]; intros s l rest EI PL CO OK CA ST.
  - cbn in ST. symmetry in ST. apply app_eq_nil in ST as [ST _]. now apply wire_nonempty in WF.
  - destruct e; try (eapply RD; eauto; discriminate).
    + apply Forall_cons_iff in CA as [_ CA]. destruct (IH (set_in s evs true) l rest) as (k & evs' & C' & S' & R); auto.
      exists (Datatypes.S k), evs'. split; [auto|]. split; [auto|]. intros is UN L. destruct is as [|i is]; [discriminate|].
      apply Forall_cons_iff in UN as [[U1 U2] UN]. injection L as L. change (run_x (s, l) (i :: is)) with (run_x (step_x (s, l) i) is).
      replace (step_x (s, l) i) with (set_in s evs true, l); [rewrite (R is UN L); reflexivity|].
      cbn [TalkExtModel.step_x]. unfold WsRecvModel.step, TalkExtModel.incoming. rewrite PL, CO, OK, U1, U2, EI. reflexivity.
    + apply Forall_cons_iff in CA as [[CA _] _]. congruence.
Qed.
Lemma inert_x : forall is s l, inert s -> seen (fst (run_x (s, l) is)) = seen s.
Proof.
  induction is as [|i is IH]; intros s l I; [reflexivity|]. change (run_x (s, l) (i :: is)) with (run_x (step_x (s, l) i) is). cbn [TalkExtModel.step_x].
  destruct (step_inert alloc_ok server (ext_fun l) rx s i I) as [I' O]. rewrite IH by exact I'. unfold seen. destruct O as [-> | ->]; auto. rewrite flat_map_app. cbn. now rewrite app_nil_r.
Qed.
Lemma drained_x : forall evs s l, w_in s = evs -> w_phase s = PLoop -> w_conn s = true -> w_ok s = true -> stream evs = [] ->
  exists k, forall is, Forall undisturbed is -> (k <= length is)%nat -> seen (fst (run_x (s, l) is)) = seen s.
Proof.
  assert (X : forall e evs s l, e <> RIdle -> w_in s = e :: evs -> w_phase s = PLoop -> w_conn s = true -> w_ok s = true ->
    stream (e :: evs) = [] -> exists k, forall is, Forall undisturbed is -> (k <= length is)%nat -> seen (fst (run_x (s, l) is)) = seen s).
  { intros e evs s l N1 EI PL CO OK RE. exists 1%nat. intros is UN L. destruct is as [|i is]; [cbn in L; lia|]. apply Forall_cons_iff in UN as [[U1 U2] UN].
    change (run_x (s, l) (i :: is)) with (run_x (step_x (s, l) i) is). cbn [TalkExtModel.step_x].
    match goal with |- context [run_x (?a, ?b) is] => set (s1 := a); set (l1 := b) end.
    assert (Y : inert s1 /\ seen s1 = seen s).
    { subst s1. unfold WsRecvModel.step. rewrite PL, CO, OK, U1, U2, EI. cbn [andb].
      destruct (data_available (e :: evs) true) as [[a ev] cn] eqn:DA. destruct e; try congruence; injection DA as <- <- <-; cbn [set_in w_in w_conn]; try (split; [right; left; reflexivity|reflexivity]);
        match goal with |- context [read_message ?x ?y ?z ?t] => destruct (read_message x y z t) as [[[r m] e'] c'] eqn:R end;
        (rewrite (refused_none _ _ _ _ _ _ _ _ (or_introl RE) R); split; [right; left; reflexivity|reflexivity]). }
    destruct Y as [Y1 Y2]. rewrite inert_x by exact Y1. exact Y2. }
  induction evs as [|e evs IH]; intros s l EI PL CO OK RE.
  - exists 1%nat. intros is UN L. destruct is as [|i is]; [cbn in L; lia|]. apply Forall_cons_iff in UN as [[U1 U2] UN].
    change (run_x (s, l) (i :: is)) with (run_x (step_x (s, l) i) is). cbn [TalkExtModel.step_x]. unfold WsRecvModel.step. rewrite PL, CO, OK, U1, U2, EI. cbn [andb data_available].
    rewrite inert_x by (right; left; reflexivity). reflexivity.
  - destruct e; try (eapply X; eauto; discriminate).
    destruct (IH (set_in s evs true) l) as (k & R); auto.
    exists (Datatypes.S k). intros is UN L. destruct is as [|i is]; [cbn in L; lia|].
    apply Forall_cons_iff in UN as [[U1 U2] UN]. cbn [length] in L. change (run_x (s, l) (i :: is)) with (run_x (step_x (s, l) i) is).
    replace (step_x (s, l) i) with (set_in s evs true, l); [rewrite (R is UN); [reflexivity|lia]|].
    cbn [TalkExtModel.step_x]. unfold WsRecvModel.step, TalkExtModel.incoming. rewrite PL, CO, OK, U1, U2, EI. reflexivity.
Qed.

Lemma in_loop_alloc : forall op rsv l d, in_loop C in_perform alloc_ok op rsv l d = in_loop C in_perform (fun _ => true) op rsv l d.
Proof. intros op rsv. induction l as [|e l IH]; intros d; [reflexivity|]. cbn [in_loop]. rewrite !IH. destruct (if e_enabled e then e_in e else None); [|reflexivity].
  destruct (Z.land rsv (e_rsv e) =? 0); [reflexivity|]. destruct (in_perform _ _ _ _ _ _) as [[x|] c]; [|reflexivity]. rewrite AL, IH. reflexivity. Qed.
Lemma in_message_alloc : forall op rsv l d, in_message C in_perform alloc_ok op rsv l d = in_message C in_perform (fun _ => true) op rsv l d.
Proof. intros. unfold in_message. now rewrite AL, in_loop_alloc. Qed.

Lemma run_x_app : forall x a b, run_x x (a ++ b) = run_x (run_x x a) b.
Proof. intros. unfold TalkExtModel.run_x. apply fold_left_app. Qed.

Lemma receive_x : forall l xs ps, encoded l xs ps -> forall wm ws, stand (negb server) xs ps wm -> Forall2 (fun m w => wire (whole m) w) wm ws -> Forall bit_ok l ->
  forall l', Forall2 paired l l' -> bits_apart C l -> Forall (fun e => e_in_data e = e_out_data e) l' ->
  forall s, w_phase s = PLoop -> w_conn s = true -> w_ok s = true -> w_prev s = None -> calm (w_in s) -> stream (w_in s) = concat ws ->
  exists k, forall is, Forall undisturbed is -> (k <= length is)%nat ->
    map bare (seen (fst (run_x (s, l') is))) = map bare (seen s) ++ flat_map (fun x => expected (fst x) (snd x)) xs.
Proof.
  intros l xs ps EN. induction EN as [l|l opcode d rsv d' l1 xs ps O T EN IH|l opcode d xs ps O EN IH]; intros wm ws ST W BO l' P A UD s PL CO OK PR CA SR.
  - inversion ST; subst. inversion W; subst. destruct (drained_x (w_in s) s l' eq_refl PL CO OK SR) as (k & R). exists k. intros is UN L. rewrite R by assumption. cbn [flat_map]. now rewrite app_nil_r.
  - inversion ST as [|? ? m ? ? ms (MO & MR & MD & OG & HM & ML & SE) ST']; subst. inversion W as [|? w ? ws' WW W']; subst. cbn [fst snd] in *. rewrite negb_involutive in HM.
    destruct (frame_x (whole m) w) with (evs := w_in s) (s := s) (l := l') (rest := concat ws') as (k & evs' & CA' & SR' & R); auto.
    { split; [now apply whole_ok|]. split; [rewrite whole_keyed; exact HM|]. split; [exact ML|apply AL]. }
    pose proof (through_message _ _ _ _ _ _ O T) as OM. destruct (one_message C out_perform in_perform alloc_ok _ _ _ _ _ _ _ _ P A UD OM) as (l2 & IM & P2 & A2 & UD2).
    destruct (through_bits _ _ _ _ _ _ _ T BO) as (BO2 & _ & RB). specialize (RB (Z.land_0_r _)).
    set (s1 := emit (set_in s evs' true) (Deliver (set_data (message_of (whole m)) d))).
    assert (H : handle (ext_fun l') rx (set_in s evs' true) (message_of (whole m)) = s1).
    { unfold handle. cbn [message_of whole m_opcode m_fin f_op f_fin m_data w_prev set_in]. rewrite MO, PR.
      replace (opcode =? OP_CLOSE) with false by (symmetry; destruct O as [-> | ->]; reflexivity). replace (opcode =? OP_PING) with false by (symmetry; destruct O as [-> | ->]; reflexivity).
      replace (opcode =? OP_PONG) with false by (symmetry; destruct O as [-> | ->]; reflexivity). cbn [andb].
      replace ((opcode =? OP_TEXT) || (opcode =? OP_BINARY) || (opcode =? OP_CONTINUE)) with true by (symmetry; destruct O as [-> | ->]; reflexivity).
      replace (opcode =? OP_CONTINUE) with false by (symmetry; destruct O as [-> | ->]; reflexivity).
      assert (Q1 : (rsv =? 0) || negb (Z.land rx rsv =? 0) = true) by (rewrite RB; destruct (rsv =? 0); reflexivity).
      assert (Q2 : negb (opcode =? OP_TEXT) || (zlen d =? 0) || utf8_valid d = true).
      { destruct SE as (B & _ & K). destruct O as [-> | ->]; [|reflexivity]. destruct K as [[_ U]|[K|[[K|K] _]]]; try discriminate. apply utf8_valid_spec in U; [|exact B]. rewrite U. now rewrite orb_true_r. }
      unfold complete_message. cbn [m_opcode m_rsv m_data message_of whole f_op f_rsv f_payload]. unfold TalkExtModel.ext_fun. rewrite MO, MR, MD, in_message_alloc, IM. change (U_OK =? U_OK) with true. cbv iota zeta.
      unfold s1, message_of, whole, set_data. cbn [m_opcode m_rsv m_fin m_has_mask m_mask m_data m_fragment f_op f_rsv f_fin f_key f_payload]. rewrite MO, MR, Q1, Q2. reflexivity. }
    assert (CM : completed s (message_of (whole m)) = Some (message_of (whole m))).
    { unfold completed. cbn [message_of whole m_opcode m_fin f_op f_fin]. rewrite MO, PR.
      replace ((opcode =? OP_TEXT) || (opcode =? OP_BINARY) || (opcode =? OP_CONTINUE)) with true by (symmetry; destruct O as [-> | ->]; reflexivity).
      replace (opcode =? OP_CONTINUE) with false by (symmetry; destruct O as [-> | ->]; reflexivity). reflexivity. }
    assert (NX : ext_next l' (message_of (whole m)) = l2).
    { unfold TalkExtModel.ext_next. cbn [m_opcode m_rsv m_data message_of whole f_op f_rsv f_payload]. rewrite MO, MR, MD, in_message_alloc, IM. reflexivity. }
    destruct (IH ms ws' ST' W' BO2 l2 P2 A2 UD2 s1) as (k2 & R2); auto.
    exists (k + k2)%nat. intros is UN L. rewrite <- (firstn_skipn k is) in UN |- *. apply Forall_app in UN as [U1 U2]. rewrite run_x_app, (R _ U1); [|apply firstn_length_le; lia]. rewrite H, CM, NX.
    rewrite R2; [|exact U2|rewrite skipn_length; lia]. unfold s1, seen. cbn [emit w_out set_in]. rewrite flat_map_app, map_app. cbn [flat_map fst snd view map app bare set_data m_opcode m_rsv m_data message_of whole f_op f_rsv f_payload].
    rewrite <- app_assoc. f_equal. unfold expected at 2. rewrite MO. destruct O as [-> | ->]; reflexivity.
  - inversion ST as [|? ? m ? ? ms (MO & MR & MD & OG & HM & ML & SE) ST']; subst. inversion W as [|? w ? ws' WW W']; subst. cbn [fst snd] in *. rewrite negb_involutive in HM.
    destruct (frame_x (whole m) w) with (evs := w_in s) (s := s) (l := l') (rest := concat ws') as (k & evs' & CA' & SR' & R); auto.
    { split; [now apply whole_ok|]. split; [rewrite whole_keyed; exact HM|]. split; [exact ML|apply AL]. }
    assert (CM : completed s (message_of (whole m)) = None).
    { unfold completed. cbn [message_of whole m_opcode m_fin f_op f_fin]. rewrite MO.
      replace ((opcode =? OP_TEXT) || (opcode =? OP_BINARY) || (opcode =? OP_CONTINUE)) with false by (symmetry; destruct O as [-> | ->]; reflexivity). reflexivity. }
    set (s1 := if opcode =? 9 then emit (set_in s evs' true) (Send OP_PONG d) else set_in s evs' true).
    assert (H : handle (ext_fun l') rx (set_in s evs' true) (message_of (whole m)) = s1).
    { unfold handle. cbn [message_of whole m_opcode m_fin f_op f_fin m_data f_payload w_prev set_in]. rewrite MO, MD. destruct SE as (_ & _ & K).
      assert (zlen d <= 125) as LE by (destruct K as [[K _]|[K|[_ K]]]; [destruct O; lia|destruct O; lia|exact K]). apply Z.leb_le in LE. rewrite LE. unfold s1. destruct O as [-> | ->]; reflexivity. }
    assert (F1 : w_phase s1 = PLoop /\ w_conn s1 = true /\ w_ok s1 = true /\ w_prev s1 = None /\ w_in s1 = evs') by (unfold s1; destruct (opcode =? 9); cbn; auto).
    destruct F1 as (F1 & F2 & F3 & F4 & F5). destruct (IH ms ws' ST' W' BO l' P A UD s1) as (k2 & R2); auto; [rewrite F5; exact CA'|rewrite F5; exact SR'|].
    exists (k + k2)%nat. intros is UN L. rewrite <- (firstn_skipn k is) in UN |- *. apply Forall_app in UN as [U1 U2]. rewrite run_x_app, (R _ U1); [|apply firstn_length_le; lia]. rewrite H, CM.
    rewrite R2; [|exact U2|rewrite skipn_length; lia]. cbn [flat_map fst snd]. rewrite app_assoc. f_equal. unfold s1, expected, seen. destruct O as [-> | ->]; cbn [Z.eqb Pos.eqb].
    + cbn [emit w_out set_in]. rewrite flat_map_app, map_app. reflexivity.
    + cbn [set_in w_out]. now rewrite app_nil_r.
Qed.
End X.
