(** Proofs about a websocket closed by the program while it listens (C118). *)
From Coq Require Import ZArith Bool List Lia.
From Verif Require Import Base BaseFacts Utf8Model Utf8Spec Utf8Proofs WsFrameModel WsRecvModel WsSpec WsFrameProofs WsRecvSpec WsRecvProofs.
From Verif Require Import ByeModel ByeSpec.
Import ListNotations.
Open Scope Z_scope.

(** ** connected never becomes 1 again *)
Lemma read_data_conn : forall evs len acc p e c, read_data evs false len acc = (p, e, c) -> c = false.
Proof. intros [|[| | | |b] evs] len acc p e c E; cbn in E; injection E as <- <- <-; reflexivity. Qed.
Lemma read_message_conn : forall alloc_ok server evs r m e c, read_message alloc_ok server evs false = (r, m, e, c) -> c = false.
Proof.
  intros alloc_ok server evs r m e c E. unfold read_message in E.
  assert (H : forall evs ret h n e c, read_header evs false = (ret, h, n, e, c) -> c = false).
  { clear. intros evs ret h n e c E. unfold read_header in E. destruct (read_data evs false 2 []) as [[x e1] c1] eqn:E1. apply read_data_conn in E1. subst c1.
    destruct x as [[|h0 [|h1 [|h2 h3]]]|]; try (now injection E as <- <- <- <- <-). destruct (Z.land h1 LEN_MASK <=? 125); [now injection E as <- <- <- <- <-|].
    destruct (read_data e1 false _ []) as [[p e2] c2] eqn:E2. apply read_data_conn in E2. subst c2. destruct p as [p|]; [destruct (_ =? _)|]; now injection E as <- <- <- <- <-. }
  assert (K : forall h1 evs ret b k e c, read_mask server h1 evs false = (ret, b, k, e, c) -> c = false).
  { clear. intros h1 evs ret b k e c E. unfold read_mask in E. destruct server; [|now injection E as <- <- <- <- <-]. destruct (negb _); [|now injection E as <- <- <- <- <-].
    destruct (read_data evs false 4 []) as [[p e2] c2] eqn:E2. apply read_data_conn in E2. subst c2. destruct p as [p|]; now injection E as <- <- <- <- <-. }
  assert (P : forall masked key n evs ret d e c, read_payload alloc_ok masked key n evs false = (ret, d, e, c) -> c = false).
  { clear. intros masked key n evs ret d e c E. unfold read_payload in E. destruct (n =? 0); [now injection E as <- <- <- <-|]. destruct (_ && _); [|now injection E as <- <- <- <-].
    destruct (read_data evs false n []) as [[p e2] c2] eqn:E2. apply read_data_conn in E2. subst c2. destruct p as [p|]; [destruct (_ =? _)|]; now injection E as <- <- <- <-. }
  destruct (read_header evs false) as [[[[ret h] n] e1] c1] eqn:E1. apply H in E1. subst c1. destruct (ret =? U_OK); [|now injection E as <- <- <- <-].
  destruct (read_mask server (nth 1 h 0) e1 false) as [[[[ret2 b] k] e2] c2] eqn:E2. apply K in E2. subst c2. destruct (ret2 =? U_OK); [|now injection E as <- <- <- <-].
  destruct (read_payload alloc_ok b k n e2 false) as [[[ret3 d] e3] c3] eqn:E3. apply P in E3. subst c3. destruct (ret3 =? U_OK); now injection E as <- <- <- <-.
Qed.
Lemma available_conn : forall evs a e c, data_available evs false = (a, e, c) -> c = false.
Proof. intros [|[] evs] a e c E; cbn in E; injection E as <- <- <-; reflexivity. Qed.

Section Y.
Variable alloc_ok : Z -> bool.
Variable server : bool.
Variable ext_in : Z -> Z -> list Z -> option (list Z).
Variable rsv_expected : Z.
Variable keep : bool.
Notation ystep := (ystep alloc_ok server ext_in rsv_expected keep).
Notation yrun := (yrun alloc_ok server ext_in rsv_expected keep).
Notation handle := (handle ext_in rsv_expected).

Lemma handle_conn : forall w m, w_conn (handle w m) = true -> w_conn w = true.
Proof.
  intros w m. unfold WsRecvModel.handle, complete_message.
  repeat match goal with |- context [if ?b then _ else _] => destruct b | |- context [match ?x with _ => _ end] => destruct x end; cbn; try discriminate; auto.
Qed.
Lemma ends_w : forall s c n, w_conn (y_w (turn_ends s c n)) = true -> y_w (turn_ends s c n) = y_w s.
Proof. intros s c [|k]; unfold turn_ends; [discriminate|]. destruct (w_conn (y_w s)); reflexivity. Qed.
Lemma ends_l : forall s c n, y_l (turn_ends s c n) = y_l s.
Proof. intros s c [|k]; unfold turn_ends; [reflexivity|]. destruct (w_conn (y_w s)); reflexivity. Qed.
Lemma ends_log : forall s c n, y_log (turn_ends s c n) = y_log s.
Proof. intros s c [|k]; unfold turn_ends; [reflexivity|]. destruct (w_conn (y_w s)); reflexivity. Qed.
Lemma step_conn : forall s a, w_conn (y_w (ystep s a)) = true -> w_conn (y_w s) = true.
Proof.
  intros s a H. destruct (w_conn (y_w s)) eqn:C; [reflexivity|]. exfalso. revert H.
  destruct a as [| | | |c ok|c|c|c|op d]; cbn [ByeModel.ystep]; rewrite ?C.
  - destruct (y_l s); cbn; congruence.
  - destruct (y_l s); try congruence. destruct (data_available (w_in (y_w s)) false) as [[a e] c] eqn:E. apply available_conn in E. subst c. cbn. discriminate.
  - destruct (y_l s); try congruence. destruct (read_message alloc_ok server (w_in (y_w s)) false) as [[[r m] e] c] eqn:E. apply read_message_conn in E. subst c. destruct m; cbn; discriminate.
  - destruct (y_l s); try congruence. cbn. intros H. apply handle_conn in H. congruence.
  - destruct (nth_error (y_c s) c) as [[]|]; cbn; congruence.
  - destruct (nth_error (y_c s) c) as [[]|]; cbn; congruence.
  - destruct (nth_error (y_c s) c) as [[]|]; try congruence. destruct (data_available (w_in (y_w s)) false) as [[a e] c1] eqn:E. apply available_conn in E. subst c1. destruct a; [cbn; discriminate|].
    intros H. pose proof (ends_w _ _ _ H) as W. rewrite W in H. discriminate.
  - destruct (nth_error (y_c s) c) as [[]|]; try congruence. destruct (read_message alloc_ok server (w_in (y_w s)) false) as [[[r m] e] c1] eqn:E. apply read_message_conn in E. subst c1.
    destruct m as [m|]; intros H; pose proof (ends_w _ _ _ H) as W; rewrite W in H; cbn in H; [|discriminate]. destruct keep, (m_opcode m =? OP_CLOSE); discriminate.
  - congruence.
Qed.

(** ** a call that closes *)
Lemma nth_put : forall l c p d, nth_error (put_nth l c p) d = if Nat.eqb c d then (match nth_error l c with Some _ => Some p | None => None end) else nth_error l d.
Proof.
  induction l as [|x l IH]; intros c p d; [destruct c, d; cbn; try reflexivity; destruct (Nat.eqb c d); reflexivity|]. destruct c as [|c], d as [|d]; cbn [put_nth nth_error Nat.eqb]; try reflexivity. apply IH.
Qed.
Definition closed_when_done (s : yst) : Prop := forall c, nth_error (y_c s) c = Some CDone -> w_conn (y_w s) = false.
Lemma ends_done : forall s c n, closed_when_done s -> closed_when_done (turn_ends s c n).
Proof.
  intros s c n D d. unfold turn_ends. destruct n as [|k]; [reflexivity|]. destruct (w_conn (y_w s)) eqn:C; cbn; rewrite nth_put; destruct (Nat.eqb_spec c d); auto; try (destruct (nth_error (y_c s) c); discriminate).
  intros H. rewrite (D d H) in C. discriminate.
Qed.
Lemma done_put : forall s c p, closed_when_done s -> p <> CDone -> closed_when_done (put_c s c p).
Proof. intros s c p D N d. cbn. rewrite nth_put. destruct (Nat.eqb c d); [destruct (nth_error (y_c s) c); congruence|apply D]. Qed.
Lemma done_w : forall s w, closed_when_done s -> (w_conn (y_w s) = false -> w_conn w = false) -> closed_when_done (put_w s w).
Proof. intros s w D H d E. apply H. exact (D d E). Qed.
Lemma done_shut : forall s, w_conn (y_w s) = false -> closed_when_done s.
Proof. intros s H c _. exact H. Qed.
Lemma done_step : forall s a, closed_when_done s -> closed_when_done (ystep s a).
Proof.
  intros s a D. destruct (w_conn (y_w (ystep s a))) eqn:C; [|now apply done_shut]. pose proof (step_conn _ _ C) as C0. revert C.
  assert (ND : forall c, nth_error (y_c s) c <> Some CDone) by (intros c E; rewrite (D c E) in C0; discriminate).
  destruct a as [| | | |c ok|c|c|c|op d]; cbn [ByeModel.ystep]; rewrite ?C0.
  - destruct (y_l s); auto. destruct (true && _); auto.
  - destruct (y_l s); auto. destruct (data_available _ _) as [[a e] c]. intros _ d E. exfalso. exact (ND d E).
  - destruct (y_l s); auto. destruct (read_message _ _ _ _) as [[[r m] e] c]. destruct m; intros _ d E; exfalso; exact (ND d E).
  - destruct (y_l s); auto. intros _ d E. exfalso. exact (ND d E).
  - destruct (nth_error (y_c s) c) as [[]|]; auto. destruct ok; [|cbn; discriminate]. intros _. apply done_put; [|discriminate]. intros d E. exfalso. exact (ND d E).
  - destruct (nth_error (y_c s) c) as [[]|]; auto. intros _. apply done_put; [exact D|discriminate].
  - destruct (nth_error (y_c s) c) as [[]|]; auto. destruct (data_available _ _) as [[a e] c1]. destruct a; intros _; [apply done_put; [|discriminate]|apply ends_done]; intros d E; exfalso; exact (ND d E).
  - destruct (nth_error (y_c s) c) as [[]|]; auto. destruct (read_message _ _ _ _) as [[[r m] e] c1]. destruct m; intros _; apply ends_done; intros d E; exfalso; exact (ND d E).
  - auto.
Qed.
Lemma done_run : forall l s, closed_when_done s -> closed_when_done (yrun s l).
Proof. induction l as [|a l IH]; intros s D; [exact D|]. apply IH. now apply done_step. Qed.
Lemma run_conn : forall l s, w_conn (y_w (yrun s l)) = true -> w_conn (y_w s) = true.
Proof. induction l as [|a l IH]; intros s H; [exact H|]. apply (step_conn s a). apply IH. exact H. Qed.

(** how many more messages a call may read *)
Definition may_read (p : cphase) : nat := match p with CIdle => 11 | CTop n | CPolling n | CReading n => S n | CDone => 0 end.
Definition bounded (s : yst) : Prop := forall c p, nth_error (y_c s) c = Some p -> (count_closer c s + may_read p <= 11)%nat.
Lemma bounded_put : forall s c p q, bounded s -> nth_error (y_c s) c = Some p -> (may_read q <= may_read p)%nat -> bounded (put_c s c q).
Proof.
  intros s c p q B E L d x. cbn. rewrite nth_put. destruct (Nat.eqb_spec c d) as [<-|]; [|apply B]. rewrite E. intros X. injection X as <-. specialize (B c p E). unfold count_closer in *. cbn [put_c y_log]. lia.
Qed.
Lemma bounded_same : forall s s', bounded s -> y_c s' = y_c s -> y_log s' = y_log s -> bounded s'.
Proof. intros s s' B C L c p E. rewrite C in E. specialize (B c p E). unfold count_closer in *. now rewrite L. Qed.
Lemma bounded_log : forall s m, bounded s -> bounded (log s Listener m).
Proof. intros s m B c p E. specialize (B c p E). unfold count_closer in *. cbn [log y_log]. rewrite filter_app. cbn [filter fst by_closer]. now rewrite app_nil_r. Qed.
Lemma bounded_ends : forall s c n p, bounded s -> nth_error (y_c s) c = Some p -> (n <= may_read p)%nat -> bounded (turn_ends s c n).
Proof.
  intros s c n p B E L. unfold turn_ends. destruct n as [|k].
  - apply (bounded_put (put_w s _) c p); [exact (bounded_same _ _ B eq_refl eq_refl)|exact E|cbn; lia].
  - destruct (w_conn (y_w s)); apply (bounded_put s c p); auto; cbn; lia.
Qed.
Lemma bounded_read : forall s c n m, bounded s -> nth_error (y_c s) c = Some (CReading n) -> bounded (turn_ends (log s (Closer c) m) c n).
Proof.
  intros s c n m B E d p X. assert (L : y_log (turn_ends (log s (Closer c) m) c n) = y_log s ++ [(Closer c, m)]) by now rewrite ends_log. unfold count_closer. rewrite L, filter_app, app_length. cbn [filter fst by_closer].
  assert (Y : nth_error (y_c (turn_ends (log s (Closer c) m) c n)) d = if Nat.eqb c d then Some (match n with S k => if w_conn (y_w s) then CTop k else CDone | O => CDone end) else nth_error (y_c s) d).
  { unfold turn_ends. destruct n as [|k]; [|cbn [log y_w]; destruct (w_conn (y_w s))]; cbn [put_c put_w log y_c]; rewrite nth_put, E; destruct (Nat.eqb c d); reflexivity. }
  rewrite Y in X. clear Y. destruct (Nat.eqb_spec c d) as [<-|N].
  - injection X as <-. rewrite Nat.eqb_refl. specialize (B c _ E). unfold count_closer in B. cbn [may_read length] in *. destruct n as [|k]; [cbn; lia|]. destruct (w_conn (y_w s)); cbn; lia.
  - specialize (B d p X). unfold count_closer in B. replace (Nat.eqb d c) with false by (symmetry; apply Nat.eqb_neq; auto). cbn [length]. lia.
Qed.
Lemma bounded_step : forall s a, bounded s -> bounded (ystep s a).
Proof.
  intros s a B. destruct a as [| | | |c ok|c|c|c|op d]; cbn [ByeModel.ystep].
  - destruct (y_l s); auto. destruct (_ && _); auto.
  - destruct (y_l s); auto. destruct (data_available _ _) as [[a e] c]. exact B.
  - destruct (y_l s); auto. destruct (read_message _ _ _ _) as [[[r m] e] c]. destruct m; [|exact B]. now apply bounded_log.
  - destruct (y_l s); auto.
  - destruct (nth_error (y_c s) c) as [[]|] eqn:E; auto. destruct (w_conn (y_w s)); [destruct ok|]; (eapply bounded_put; [|exact E|cbn; lia]); exact B.
  - destruct (nth_error (y_c s) c) as [[]|] eqn:E; auto. eapply bounded_put; [exact B|exact E|cbn; lia].
  - destruct (nth_error (y_c s) c) as [[]|] eqn:E; auto. destruct (data_available _ _) as [[a e] c1]. destruct a; [eapply bounded_put|eapply bounded_ends]; try exact E; cbn [may_read]; try lia; exact B.
  - destruct (nth_error (y_c s) c) as [[]|] eqn:E; auto. destruct (read_message _ _ _ _) as [[[r m] e] c1]. destruct m as [m|]; [apply bounded_read|eapply bounded_ends]; try exact E; cbn [may_read]; try lia; exact B.
  - destruct (w_conn (y_w s)); exact B.
Qed.
Lemma bounded_begin : forall n evs, bounded (ybegin n evs).
Proof. intros n evs c p E. cbn in E. apply nth_error_In, repeat_spec in E. subst p. cbn. lia. Qed.
Lemma bounded_run : forall l s, bounded s -> bounded (yrun s l).
Proof. induction l as [|a l IH]; intros s B; [exact B|]. apply IH. now apply bounded_step. Qed.

Lemma put_length : forall l c p, length (put_nth l c p) = length l.
Proof. induction l as [|x l IH]; intros [|c] p; cbn [put_nth length]; auto. Qed.
Lemma ends_length : forall s c n, length (y_c (turn_ends s c n)) = length (y_c s).
Proof. intros s c [|k]; unfold turn_ends; [|destruct (w_conn (y_w s))]; cbn; apply put_length. Qed.
Lemma step_length : forall s a, length (y_c (ystep s a)) = length (y_c s).
Proof.
  intros s a. destruct a as [| | | |c ok|c|c|c|op d]; cbn [ByeModel.ystep].
  - destruct (y_l s); auto. destruct (_ && _); auto.
  - destruct (y_l s); auto. destruct (data_available _ _) as [[a e] c]. reflexivity.
  - destruct (y_l s); auto. destruct (read_message _ _ _ _) as [[[r m] e] c]. destruct m; reflexivity.
  - destruct (y_l s); auto.
  - destruct (nth_error (y_c s) c) as [[]|]; auto. destruct (w_conn (y_w s)); [destruct ok|]; cbn; apply put_length.
  - destruct (nth_error (y_c s) c) as [[]|]; auto. cbn. apply put_length.
  - destruct (nth_error (y_c s) c) as [[]|]; auto. destruct (data_available _ _) as [[a e] c1]. destruct a; [cbn; apply put_length|rewrite ends_length; reflexivity].
  - destruct (nth_error (y_c s) c) as [[]|]; auto. destruct (read_message _ _ _ _) as [[[r m] e] c1]. destruct m; rewrite ends_length; reflexivity.
  - destruct (w_conn (y_w s)); reflexivity.
Qed.

(** ** the frames *)
Hypothesis ext_bytes : forall op rsv d d', bytes d -> ext_in op rsv d = Some d' -> bytes d'.
Variable fos : list (frame * list sitem).
Variable rest : list Z.
Hypothesis good : Forall (fun x => good_frame alloc_ok server (fst x)) fos.
Hypothesis no_more : refused server rest.
Notation single := (single ext_in rsv_expected).
Definition entry (x : reader * (frame * list sitem)) : reader * wmsg := (fst x, message_of (fst (snd x))).
Definition mine (x : reader * (frame * list sitem)) : bool := is_listener (fst x).
Definition frames_inv (s : yst) (tl : list (reader * (frame * list sitem))) : Prop :=
  exists left wl, fos = map snd tl ++ left /\ y_log s = map entry tl /\ Forall2 wire (map fst left) wl /\ stream (w_in (y_w s)) = concat wl ++ rest /\ calm (w_in (y_w s)).
Definition told_inv (s : yst) (tl : list (reader * (frame * list sitem))) : Prop :=
  w_prev (y_w s) = None /\ w_ok (y_w s) = true /\ exists done pend, filter mine tl = done ++ pend /\ map (fun x => snd (entry x)) pend = in_hand s /\
    messages (seen (y_w s)) = concat (map (fun x => snd (snd x)) done).
Definition yinv (s : yst) : Prop := w_conn (y_w s) = true -> exists tl, frames_inv s tl /\ (Forall (fun x => single (fst x) (snd x)) fos -> told_inv s tl).

Lemma available_calm : forall evs a e, calm evs -> data_available evs true = (a, e, true) -> calm e /\ stream e = stream evs.
Proof.
  intros [|[| | | |b] evs] a e C E; cbn in E; injection E; intros; subst; try discriminate; try (split; [exact C|reflexivity]).
  apply Forall_cons_iff in C as [_ C]. split; [exact C|reflexivity].
Qed.
(** what a reader gets while the websocket is open *)
Lemma next_frame : forall s tl r m e, frames_inv s tl -> w_conn (y_w s) = true -> read_message alloc_ok server (w_in (y_w s)) true = (r, Some m, e, true) ->
  exists x left wl, In x fos /\ m = message_of (fst x) /\ fos = (map snd tl ++ [x]) ++ left /\ Forall2 wire (map fst left) wl /\ stream e = concat wl ++ rest /\ calm e.
Proof.
  intros s tl r m e (left & wl & F & L & W & ST & CA) C R. destruct left as [|x left].
  - inversion W; subst wl. cbn [concat app] in ST. assert (m' : Some m = None) by (eapply refused_none; [|exact R]; rewrite ST; exact no_more). discriminate.
  - cbn [map] in W. inversion W as [|? w ? wl' WX W' X1 X2]; subst wl. cbn [concat] in ST. rewrite <- app_assoc in ST. assert (IN : In x fos) by (rewrite F; apply in_or_app; right; now left).
    pose proof (proj1 (Forall_forall _ _) good x IN) as (G1 & G2 & G3 & G4).
    destruct (read_wire alloc_ok (fst x) w (w_in (y_w s)) (concat wl' ++ rest) G1 WX CA G3 G4 ST) as (e' & R' & S' & C'). rewrite G2 in R'. rewrite R' in R. injection R as <- <- <-.
    exists x, left, wl'. split; [exact IN|]. split; [reflexivity|]. split; [now rewrite F, <- app_assoc|]. auto.
Qed.
Lemma accepted_one : forall g o o', accepted ext_in rsv_expected g o -> accepted ext_in rsv_expected g o' -> o = o'.
Proof. intros g o o' (d & E & _ & _ & ->) (d' & E' & _ & _ & ->). congruence. Qed.
Lemma handle_single : forall w f os, good_frame alloc_ok server f -> single f os -> w_prev w = None -> w_conn w = true -> w_ok w = true ->
  w_prev (handle w (message_of f)) = None /\ w_ok (handle w (message_of f)) = true /\ w_in (handle w (message_of f)) = w_in w /\ messages (seen (handle w (message_of f))) = messages (seen w) ++ os.
Proof.
  intros w f os G SI P C K. assert (FB : frame_bytes ([] ++ [f])) by (constructor; [apply G|constructor]).
  assert (H0 : holds (w_prev w) []) by (rewrite P; reflexivity).
  destruct (handle_ok alloc_ok ext_in rsv_expected ext_bytes w [] f H0 C K FB) as (EI & _ & [(t' & o & FO & HO & CO & OK & SE)|(NO & _ & _)]).
  - assert (X : t' = [] /\ messages o = os).
    { inversion SI as [o1 F1 OP AC EO|F1 OP LE EO|F1 OP EO]; subst os; inversion FO as [A1 A2 A3 A4 A5|A1 A2 A4 A5|A1 A4 A5|o2 A1 A2 A4 A5]; subst t' o; cbn [app] in *;
        try match goal with H : starting [f] |- _ => apply (starting_inv []) in H end; try match goal with H : complete [f] |- _ => apply (complete_inv []) in H end; try (exfalso; intuition (congruence || lia)); try (split; reflexivity).
      split; [reflexivity|]. rewrite (accepted_one _ _ _ AC A2). destruct A2 as (d & _ & _ & _ & ->). reflexivity. }
    destruct X as [-> <-]. rewrite SE, messages_app. repeat split; auto. destruct (w_prev (handle w (message_of f))) as [q|]; [|reflexivity]. exfalso. destruct HO as [ST _]. now apply starting_nonempty in ST.
  - exfalso. inversion SI as [o1 F1 OP AC EO|F1 OP LE EO|F1 OP EO]; subst.
    + apply (NO [] [o1]). apply fo_message; [now apply co_single|exact AC].
    + apply (NO [] [SSend 10 (f_payload f)]). now apply fo_ping.
    + apply (NO [] []). now apply fo_pong.
Qed.
Lemma filter_mine : forall tl s, y_log s = map entry tl -> map (fun x => snd (entry x)) (filter mine tl) = heard s.
Proof.
  intros tl s E. unfold heard. rewrite E. clear E. induction tl as [|x tl IH]; [reflexivity|]. cbn [map filter]. unfold mine at 1. cbn [entry fst]. destruct (is_listener (fst x)); cbn [map]; [f_equal|]; exact IH.
Qed.
(** steps that leave the frames and what was told alone *)
Lemma quiet : forall s s', yinv s -> (w_conn (y_w s') = true -> w_conn (y_w s) = true /\ calm (w_in (y_w s)) -> y_log s' = y_log s /\ in_hand s' = in_hand s /\
    stream (w_in (y_w s')) = stream (w_in (y_w s)) /\ calm (w_in (y_w s')) /\ w_prev (y_w s') = w_prev (y_w s) /\ w_ok (y_w s') = w_ok (y_w s) /\ messages (seen (y_w s')) = messages (seen (y_w s))) ->
  (w_conn (y_w s') = true -> w_conn (y_w s) = true) -> yinv s'.
Proof.
  intros s s' V H M C. pose proof (M C) as C0. destruct (V C0) as (tl & FI & TI). assert (CA : calm (w_in (y_w s))) by (destruct FI as (? & ? & ? & ? & ? & ? & CA); exact CA).
  destruct (H C (conj C0 CA)) as (E1 & E2 & E3 & E4 & E5 & E6 & E7). exists tl. split.
  - destruct FI as (left & wl & F & L & W & ST & _). exists left, wl. rewrite E1, E3. auto.
  - intros SI. destruct (TI SI) as (P & K & done & pend & D1 & D2 & D3). unfold told_inv. rewrite E5, E6, E7. split; [exact P|]. split; [exact K|]. exists done, pend. rewrite E2. auto.
Qed.
Lemma yinv_step : forall s a, yinv s -> yinv (ystep s a).
Proof.
  intros s a V. destruct a as [| | | |c ok|c|c|c|op d].
  - apply (quiet s); [exact V| |apply step_conn]. intros _ [_ CA]. cbn [ByeModel.ystep]. destruct (y_l s) eqn:L; auto 10. destruct (_ && _); [|auto 10]. cbn. unfold in_hand. rewrite L. cbn. auto 10.
  - apply (quiet s); [exact V| |apply step_conn]. cbn [ByeModel.ystep]. intros C [C0 CA]. destruct (y_l s) eqn:L; auto 10. rewrite C0 in *. destruct (data_available (w_in (y_w s)) true) as [[a e] c] eqn:E.
    cbn in C. subst c. destruct (available_calm _ _ _ CA E) as [CE SE]. cbn. unfold in_hand. rewrite L. cbn. repeat split; auto. destruct a; reflexivity.
  - intros C. pose proof (step_conn _ _ C) as C0. revert C. cbn [ByeModel.ystep]. destruct (y_l s) eqn:L; try (intros _; exact (V C0)). rewrite C0.
    destruct (read_message alloc_ok server (w_in (y_w s)) true) as [[[r m] e] c] eqn:E. destruct m as [m|]; [|cbn; discriminate]. cbn. intros ->. destruct (V C0) as (tl & FI & TI).
    destruct (next_frame s tl r m e FI C0 E) as (x & left & wl & IN & -> & F & W & ST & CE). exists (tl ++ [(Listener, x)]). split.
    + exists left, wl. cbn. rewrite !map_app. cbn [map entry fst snd]. destruct FI as (? & ? & _ & LG & _). rewrite LG. split; [exact F|]. auto.
    + intros SI. destruct (TI SI) as (P & K & done & pend & D1 & D2 & D3). unfold in_hand in D2. rewrite L in D2. apply map_eq_nil in D2. subst pend. rewrite app_nil_r in D1.
      split; [exact P|]. split; [exact K|]. exists done, [(Listener, x)]. rewrite filter_app, D1. split; [reflexivity|]. split; [reflexivity|exact D3].
  - intros C. pose proof (step_conn _ _ C) as C0. revert C. cbn [ByeModel.ystep]. destruct (y_l s) as [| | |m] eqn:L; try (intros _; exact (V C0)). cbn. intros C. destruct (V C0) as (tl & FI & TI). exists tl.
    assert (EI : w_in (handle (y_w s) m) = w_in (y_w s)) by apply handle_keeps. split.
    + destruct FI as (left & wl & F & LG & W & ST & CA). exists left, wl. cbn. rewrite EI. auto.
    + intros SI. destruct (TI SI) as (P & K & done & pend & D1 & D2 & D3). unfold in_hand in D2. rewrite L in D2. destruct pend as [|x [|y pend]]; try discriminate. injection D2 as D2.
      assert (IN : In (snd x) fos). { destruct FI as (left & wl & F & _). rewrite F. apply in_or_app. left. apply in_map. assert (IX : In x (filter mine tl)) by (rewrite D1; apply in_or_app; right; now left). now apply filter_In in IX as [IX _]. }
      pose proof (proj1 (Forall_forall _ _) good _ IN) as G. pose proof (proj1 (Forall_forall _ _) SI _ IN) as S1. cbn beta in G, S1.
      cbn [entry snd fst] in D2. subst m. destruct (handle_single (y_w s) (fst (snd x)) (snd (snd x)) G S1 P C0 K) as (P' & K' & _ & M'). split; [exact P'|]. split; [exact K'|]. exists (done ++ [x]), [].
      rewrite app_nil_r, map_app, concat_app. cbn [map concat put_l put_w y_w in_hand y_l]. rewrite app_nil_r. split; [exact D1|]. split; [reflexivity|]. rewrite M', D3. reflexivity.
  - apply (quiet s); [exact V| |apply step_conn]. cbn [ByeModel.ystep]. intros C [C0 CA]. destruct (nth_error (y_c s) c) as [[]|]; auto 10. rewrite C0 in *. destruct ok; [|cbn in C; discriminate]. unfold put_c, put_w, in_hand. cbn [y_w y_l y_log]. repeat split; auto.
    rewrite seen_emit, messages_app. cbn. apply app_nil_r.
  - apply (quiet s); [exact V| |apply step_conn]. cbn [ByeModel.ystep]. intros C [C0 CA]. destruct (nth_error (y_c s) c) as [[]|]; auto 10.
  - apply (quiet s); [exact V| |apply step_conn]. cbn [ByeModel.ystep]. intros C [C0 CA]. destruct (nth_error (y_c s) c) as [[|n|n|n|]|]; auto 10. rewrite C0 in *. destruct (data_available (w_in (y_w s)) true) as [[a e] c1] eqn:E. destruct a.
    + cbn in C. subst c1. destruct (available_calm _ _ _ CA E) as [CE SE]. cbn. auto 10.
    + pose proof (ends_w _ _ _ C) as W. rewrite W in *. rewrite ends_log. unfold in_hand. rewrite ends_l. cbn in C. subst c1. destruct (available_calm _ _ _ CA E) as [CE SE]. cbn. auto 10.
  - intros C. pose proof (step_conn _ _ C) as C0. revert C. cbn [ByeModel.ystep]. destruct (nth_error (y_c s) c) as [[|n|n|n|]|]; try (intros _; exact (V C0)). rewrite C0.
    destruct (read_message alloc_ok server (w_in (y_w s)) true) as [[[r m] e] c1] eqn:E. destruct m as [m|]; intros C; pose proof (ends_w _ _ _ C) as W; rewrite W in C; cbn in C; [|discriminate].
    assert (C1 : c1 = true /\ (m_opcode m =? OP_CLOSE) = false) by (destruct keep, (m_opcode m =? OP_CLOSE); cbn in C; auto; discriminate). destruct C1 as [-> NC]. rewrite NC in *. destruct (V C0) as (tl & FI & TI).
    destruct (next_frame s tl r m e FI C0 E) as (x & left & wl & IN & -> & F & WI & ST & CE). exists (tl ++ [(Closer c, x)]). split.
    + exists left, wl. rewrite W, ends_log. rewrite !map_app. cbn [map entry fst snd log put_w y_log y_w]. destruct FI as (? & ? & _ & LG & _). rewrite LG. split; [exact F|]. split; [reflexivity|]. split; [exact WI|]. destruct keep; cbn; auto.
    + intros SI. destruct (TI SI) as (P & K & done & pend & D1 & D2 & D3). unfold told_inv. rewrite W. unfold in_hand. rewrite ends_l. split; [destruct keep; exact P|]. split; [destruct keep; exact K|]. exists done, pend. rewrite filter_app. cbn [filter mine fst is_listener].
      rewrite app_nil_r. split; [exact D1|]. split; [exact D2|]. cbn [log put_w y_w]. destruct keep; [|exact D3]. rewrite seen_emit. cbn [view]. rewrite app_nil_r. exact D3.
  - apply (quiet s); [exact V| |apply step_conn]. cbn [ByeModel.ystep]. intros C [C0 CA]. rewrite C0 in *. unfold put_w, in_hand. cbn [y_w y_l y_log]. repeat split; auto. rewrite seen_emit, messages_app. cbn. apply app_nil_r.
Qed.
Lemma yinv_begin : forall n evs ws, calm evs -> Forall2 wire (map fst fos) ws -> stream evs = concat ws ++ rest -> yinv (ybegin n evs).
Proof.
  intros n evs ws CA W ST _. exists []. split; [exists fos, ws; auto|]. intros _. split; [reflexivity|]. split; [reflexivity|]. exists [], []. auto.
Qed.
Lemma yinv_run : forall l s, yinv s -> yinv (yrun s l).
Proof. induction l as [|a l IH]; intros s V; [exact V|]. apply IH. now apply yinv_step. Qed.
End Y.
