(** Proofs about the callbacks of the websocket example. *)
From Coq Require Import String ZArith Bool List Lia.
From Verif Require Import Base BaseFacts Utf8Model Utf8Spec Utf8Proofs WsFrameModel WsRecvModel WsSpec WsFrameProofs WsRecvSpec WsRecvProofs WsProps WsSendModel WsSendSpec WsSendProps ExtModel TokenModel TalkModel TalkSpec TalkProofs.
From Verif Require Import FiveModel FiveSpec.
Import ListNotations.
Open Scope Z_scope.

(** ** the receiver: a frame without opcode ends everything *)
Section Cut.
Variable alloc_ok : Z -> bool.
Variable server : bool.
Variable ext_in : Z -> Z -> list Z -> option (list Z).
Variable rsv_expected : Z.
Hypothesis ext_bytes : forall op rsv d d', bytes d -> ext_in op rsv d = Some d' -> bytes d'.
Notation run := (WsRecvModel.run alloc_ok server ext_in rsv_expected).
Notation step := (WsRecvModel.step alloc_ok server ext_in rsv_expected).

Definition blank (s : wst) (os : list sitem) : Prop :=
  seen s = os /\ (inert s \/ (w_prev s = None /\ exists b0 t, stream (w_in s) = b0 :: t /\ Z.land b0 15 = 0)).
Lemma step_blank : forall s i os, undisturbed i -> blank s os -> blank (step s i) os.
Proof.
  intros s i os [U1 U2] [M [I|(P & b0 & t & ST & Z0)]].
  - destruct (run_inert alloc_ok server ext_in rsv_expected [i] s I) as [I' SE]. split; [|left; exact I']. rewrite <- M. exact SE.
  - unfold WsRecvModel.step. destruct (w_phase s) eqn:PH.
    + destruct (w_conn s && w_ok s) eqn:CO; [|split; [exact M|left; left; discriminate]].
      rewrite U1, U2. destruct (data_available (w_in s) (w_conn s)) as [[a e] c] eqn:DA.
      assert (E : stream e = stream (w_in s)) by (unfold data_available in DA; destruct (w_in s) as [|[]]; injection DA as <- <- <-; reflexivity).
      destruct a.
      * destruct (read_message alloc_ok server _ _) as [[[r m] e2] c2] eqn:R. destruct m as [m|].
        -- apply read_message_some in R. destruct R as (h0 & h1 & tl & S1 & OPC & _). cbn [set_in w_in] in S1.
           rewrite E, ST in S1. injection S1 as <- _. rewrite Z0 in OPC. unfold WsRecvModel.handle. rewrite OPC.
           change (0 =? OP_CLOSE) with false. change (0 =? OP_PING) with false. change (0 =? OP_PONG) with false.
           cbn [andb]. change ((0 =? OP_TEXT) || (0 =? OP_BINARY) || (0 =? OP_CONTINUE)) with true. cbn [set_in w_prev]. rewrite P.
           destruct (m_fin m); (split; [exact M|left; right; left; reflexivity]).
        -- split; [exact M|left; right; left; reflexivity].
      * split; [exact M|]. right. split; [exact P|]. exists b0, t. split; [|exact Z0]. cbn [set_in w_in]. congruence.
    + destruct (i_mgr i); [split; [|left; left; discriminate]; unfold seen in *; cbn; rewrite flat_map_app; cbn; now rewrite app_nil_r|].
      rewrite U2. split; [exact M|]. left. left. congruence.
    + split; [exact M|]. left. left. congruence.
Qed.
Lemma run_blank : forall is s os, Forall undisturbed is -> blank s os -> blank (run s is) os.
Proof. induction is as [|i is IH]; intros s os U M; [exact M|]. inversion U; subst. apply IH; auto. now apply step_blank. Qed.
End Cut.

(** whole messages, then a frame without opcode: the whole messages are noticed and nothing else, whatever comes after *)
Lemma cut_stream : forall alloc_ok server ms ws, Forall (fun m => fine m /\ outgoing m /\ m_has_mask m = server) ms -> (forall n, alloc_ok n = true) ->
  Forall2 (fun m w => wire (whole m) w) ms ws -> forall s os b0 t, w_prev s = None -> w_phase s = PLoop -> w_conn s = true -> w_ok s = true -> calm (w_in s) -> seen s = os ->
  stream (w_in s) = concat ws ++ b0 :: t -> Z.land b0 15 = 0 ->
  exists k, forall is, Forall undisturbed is -> (k <= length is)%nat -> inert (run alloc_ok server plain 0 s is) /\ seen (run alloc_ok server plain 0 s is) = os ++ noticed ms.
Proof.
  intros alloc_ok server ms ws F AL W. induction W as [|m w ms ws WF W IH]; intros s os b0 t P PL CO OK CA SE ST Z0.
  - cbn [concat app] in ST. exists (remaining (w_in s) + 2)%nat. intros is U L. destruct (run_blank alloc_ok server plain 0 is s os U) as [X _].
    + split; [exact SE|]. right. split; [exact P|]. eauto.
    + split; [left; apply (loop_ends alloc_ok server plain 0 (remaining (w_in s))); [apply le_n|exact L]|]. cbn [flat_map]. rewrite app_nil_r. exact X.
  - inversion F as [|? ? ((R & SD) & OG & HM) F']; subst. cbn [concat] in ST. rewrite <- app_assoc in ST.
    assert (G : good_frame alloc_ok (m_has_mask m) (whole m)).
    { split; [now apply whole_ok|]. split; [apply whole_keyed|]. destruct SD as (_ & L & _). auto. }
    destruct (WsRecvProofs.one_frame alloc_ok (m_has_mask m) plain 0 (whole m) w G WF (w_in s) s (concat ws ++ b0 :: t) eq_refl PL CO OK CA ST) as (k1 & evs' & C' & S' & RN).
    assert (PB : forall op rsv d d', bytes d -> plain op rsv d = Some d' -> bytes d') by (intros op rsv d d' B E; injection E as <-; exact B).
    destruct (handle_ok alloc_ok plain 0 PB (set_in s evs' true) [] (whole m)) as (W1 & W2 & [(t' & o & FO & HO & CO' & OK' & SE')|(NF & _ & _)]).
    + cbn [set_in w_prev]. rewrite P. reflexivity.
    + reflexivity.
    + exact OK.
    + constructor; [|constructor]. apply SD.
    + apply (proj2 (whole_follows m R SD)) in FO as [-> ->].
      destruct (IH F' (WsRecvModel.handle plain 0 (set_in s evs' true) (message_of (whole m))) (seen s ++ expected (m_opcode m) (m_data m)) b0 t) as (k2 & R2); auto.
      * revert HO. unfold holds. match goal with |- _ -> ?x = None => destruct x; [|reflexivity] end. intros [X _]. now apply starting_nonempty in X.
      * rewrite W2. exact PL.
      * rewrite W1. exact C'.
      * rewrite W1. exact S'.
      * exists (k1 + k2)%nat. intros is U L. rewrite <- (firstn_skipn k1 is) in U |- *. apply Forall_app in U as [U1 U2].
        rewrite run_app. rewrite (RN _ U1) by (apply firstn_length_le; lia). cbn [flat_map]. rewrite app_assoc. apply R2; [exact U2|rewrite skipn_length; lia].
    + exfalso. apply (NF [] (expected (m_opcode m) (m_data m))). now apply whole_follows.
Qed.

(** ** the sender *)
Lemma fits_block : forall l w, fits (block_of l) w -> w = l.
Proof. unfold fits, block_of. induction l as [|x l IH]; intros w F; inversion F as [|? y ? w' A B]; subst; [reflexivity|]. f_equal; [|now apply IH]. destruct A as [A|A]; [congruence|discriminate]. Qed.

Lemma first_piece : forall server e evs conn x f cs evs' c', willing e -> send_frame server (e :: evs) conn (x :: f) = (cs, evs', c') -> exists t, concat cs = x :: t.
Proof.
  intros server e evs conn x f cs evs' c' [W (n & R & N)] H. cbn [send_frame] in H. rewrite W, R in H.
  replace (if server then WReady else WReady) with WReady in H by (destruct server; reflexivity).
  destruct (send_frame server evs conn (zskipn n (x :: f))) as [[cs1 e1] c1]. injection H as <- <- <-. cbn [concat].
  unfold zfirstn. destruct (Z.to_nat n) as [|k] eqn:Q; [lia|]. cbn [firstn app]. eauto.
Qed.
Lemma built_whole : forall server opcode k data, In opcode [OP_TEXT; OP_BINARY; OP_CLOSE; OP_PING; OP_PONG] -> bytes data -> zlen data < 4294967296 -> (server = false -> exists key, k = Some key /\ length key = 4%nat /\ bytes key) ->
  exists m, built server opcode 0 k data = Some m /\ outgoing m /\ m_has_mask m = negb server /\ m_opcode m = opcode /\ m_data m = data /\ m_rsv m = 0.
Proof.
  intros server opcode k data OP B L KE. unfold built, build_message.
  replace ((opcode =? OP_TEXT) || (opcode =? OP_BINARY) || (opcode =? OP_CLOSE) || (opcode =? OP_PING) || (opcode =? OP_PONG)) with true
    by (symmetry; cbn in OP; destruct OP as [<-|[<-|[<-|[<-|[<-|[]]]]]]; reflexivity).
  unfold OP_TEXT, OP_BINARY, OP_CLOSE, OP_PING, OP_PONG in OP.
  destruct server.
  - eexists. split; [reflexivity|]. repeat split; cbn; auto; try discriminate; try (cbn in OP; lia). exists 0. lia.
  - destruct (KE eq_refl) as (key & -> & K4 & KB). eexists. split; [reflexivity|]. repeat split; cbn; auto; try (cbn in OP; lia). exists 0. lia.
Qed.
(** a fragmented message: its first byte has no opcode *)
Lemma fragmented_blank : forall C out_perform alloc_ok server ch opcode fragment data ret css conn l e evs, (forall n, alloc_ok n = true) ->
  In opcode [OP_TEXT; OP_BINARY] -> bytes data -> zlen data < 4294967296 -> 0 < fragment < zlen data -> c_locked ch = true -> c_evs ch = e :: evs -> willing e ->
  (server = false -> exists key, c_key ch = Some key /\ length key = 4%nat /\ bytes key) ->
  send_fragmented C out_perform alloc_ok server ch true false [] opcode fragment data = Ret (ret, css, conn, l) ->
  exists b0 t, concat (concat css) = Some b0 :: t /\ Z.land b0 15 = 0.
Proof.
  intros C out_perform alloc_ok server ch opcode fragment data ret css conn l e evs AL OP B L F LO EV W KE H.
  destruct (built_whole server opcode (c_key ch) data) as (m & BU & OG & HM & MO & MD & MR); auto; [cbn in OP |- *; tauto|].
  unfold send_fragmented, out_message in H. rewrite andb_false_r, AL, andb_false_r in H. cbn [zlen length Z.of_nat Z.eqb negb andb] in H. change (U_OK =? U_OK) with true in H. cbv iota in H.
  rewrite LO, BU, EV in H. unfold send_managed in H. rewrite MD in H. replace (zlen data =? 0) with false in H by (symmetry; apply Z.eqb_neq; lia).
  destruct data as [|y dl] eqn:DD; [unfold zlen in F; cbn in F; lia|]. rewrite <- DD in *. replace (length data) with (Datatypes.S (length dl)) in H by (rewrite DD; reflexivity). cbn [send_loop] in H.
  rewrite MD in H. replace (0 <? zlen data) with true in H by (symmetry; apply Z.ltb_lt; lia).
  replace (fragment =? 0) with false in H by (symmetry; apply Z.eqb_neq; lia). rewrite Z.sub_0_r in H.
  replace (fragment <? zlen data) with true in H by (symmetry; apply Z.ltb_lt; lia).
  destruct (build_frame m 0 fragment) as [f|] eqn:BF; [|discriminate]. cbn [bind] in H. rewrite AL in H.
  assert (B0 : nth 0 f None = Some 0) by (rewrite <- MR; eapply first_byte; [apply outgoing_mask; exact OG| |exact BF]; rewrite MD; lia).
  destruct f as [|o f]; [discriminate|]. cbn in B0. subst o.
  destruct (send_frame server (e :: evs) true (Some 0 :: f)) as [[cs e1] c1] eqn:SF. destruct (first_piece _ _ _ _ _ _ _ _ _ W SF) as (t & CS).
  match type of H with context [send_loop ?a ?b ?c ?d ?x ?y ?z ?u] => destruct (send_loop a b c d x y z u) as [[[[[r1 css1] e2] c2] m2]|]; [|discriminate] end.
  cbn [bind] in H. injection H as <- <- <- <-. cbn [concat]. rewrite concat_app, CS. exists 0. eexists. split; [reflexivity|]. reflexivity.
Qed.

(** ** the turns *)
Definition content (dumps : json -> option (list Z)) (i : item) : Z * list Z := match i with IMessage op _ d => (op, d) | IJson j => (OP_TEXT, match dumps j with Some t => t | None => [] end) end.
Definition unbroken (i : item) : Prop := match i with IMessage _ fragment _ => fragment = 0 | IJson _ => True end.
Definition turn_ok (dumps : json -> option (list Z)) (server : bool) (i : item) (t : bool * chance) : Prop :=
  fst t = true -> unbroken i /\ sendable (fst (content dumps i)) (snd (content dumps i)) /\ fortunate server (snd t) (snd (content dumps i)).
Definition reaching (dumps : json -> option (list Z)) (items : list item) (turns : list (bool * chance)) : list sitem :=
  flat_map (fun x => if fst (snd x) : bool then expected (fst (content dumps (fst x))) (snd (content dumps (fst x))) else []) (combine items turns).
Lemma manage_prefix : forall C out_perform alloc_ok server dumps, (forall n, alloc_ok n = true) -> forall items turns, Forall2 (turn_ok dumps server) items turns ->
  exists ms ws rs pieces, Forall (fun r => r = U_OK) rs /\ List.concat pieces = block_of (List.concat ws) /\
    Forall2 (fun m w => wire (whole m) w) ms ws /\ Forall (fun m => fine m /\ outgoing m /\ m_has_mask m = negb server) ms /\ noticed ms = reaching dumps items turns /\
    forall more mt, manage C out_perform alloc_ok server dumps true [] (items ++ more) (turns ++ mt) =
      (do y <- manage C out_perform alloc_ok server dumps true [] more mt; Ret (rs ++ fst y, pieces ++ snd y)).
Proof.
  intros C out_perform alloc_ok server dumps AL items turns F. induction F as [|i [ov ch] items turns T F (ms & ws & rs & pieces & RS & CC & WW & FF & N & E)].
  - exists [], [], [], []. repeat split; try constructor. intros more mt. cbn [app]. destruct (manage _ _ _ _ _ _ _ _ _) as [[a b]|]; reflexivity.
  - destruct ov.
    + destruct (T eq_refl) as (UB & SE & FO). cbn [fst snd] in FO.
      destruct (send_one C out_perform alloc_ok server ch _ _ AL SE FO) as (m & w & css & E1 & CC1 & W1 & OG & HM & MO & MD & MR).
      exists (m :: ms), (w :: ws), (U_OK :: rs), (List.concat css ++ pieces). split; [constructor; auto|]. split; [rewrite concat_app, CC1, CC; cbn [List.concat]; unfold block_of; now rewrite map_app|].
      split; [constructor; auto|]. split; [constructor; auto; rewrite MO, MD; auto|]. split; [cbn [flat_map reaching combine fst snd]; rewrite MO, MD; f_equal; exact N|].
      intros more mt. cbn [app manage andb]. assert (X : send_item C out_perform alloc_ok server dumps ch true [] i = Ret (U_OK, css, true, [])).
      { destruct i as [op fr d|j]; cbn [send_item content unbroken fst snd] in *; [subst fr; exact E1|exact E1]. }
      rewrite X. unfold bind at 1. cbv beta iota. rewrite E. destruct (manage _ _ _ _ _ _ _ _ _) as [[a b]|]; cbn [bind fst snd]; [|reflexivity]. rewrite app_assoc. reflexivity.
    + exists ms, ws, rs, pieces. split; [exact RS|]. split; [exact CC|]. split; [exact WW|]. split; [exact FF|]. split; [exact N|]. intros more mt. cbn [app manage andb]. apply E.
Qed.
