(** Proofs about conversations. *)
From Coq Require Import ZArith Bool List Lia.
From Verif Require Import Base BaseFacts Utf8Spec WsFrameModel WsRecvModel WsSpec WsFrameProofs WsRecvSpec WsRecvProofs WsProps WsSendModel WsSendSpec WsSendProps ExtModel TalkModel TalkSpec.
Import ListNotations.
Open Scope Z_scope.

Lemma whole_follows : forall m, m_rsv m = 0 -> sendable (m_opcode m) (m_data m) ->
  follows plain 0 [] (whole m) [] (expected (m_opcode m) (m_data m)) /\ forall t' o, follows plain 0 [] (whole m) t' o -> t' = [] /\ o = expected (m_opcode m) (m_data m).
Proof.
  intros m R (B & L & K). unfold expected. split.
  - destruct K as [[O U]|[O|[[O|O] S]]]; rewrite O; cbn [Z.eqb Pos.eqb].
    + apply fo_message; [apply co_single; [left; exact O|reflexivity]|]. exists (m_data m). unfold group_op, group_rsv, group_data. cbn. rewrite app_nil_r, O, R. repeat split; auto.
    + apply fo_message; [apply co_single; [right; exact O|reflexivity]|]. exists (m_data m). unfold group_op, group_rsv, group_data. cbn. rewrite app_nil_r, O, R. repeat split; auto. discriminate.
    + apply (fo_ping _ _ [] (whole m)); auto.
    + apply (fo_pong _ _ [] (whole m)); auto.
  - intros t' o F. inversion F as [H1 H2 H3|H1 H2|H1|o' H1 H2]; subst; cbn [whole f_op f_fin f_payload app] in *.
    + rewrite H1. auto.
    + rewrite H1. auto.
    + apply (starting_inv [] (whole m)) in H1. destruct H1 as [(_ & _ & X)|(X & _)]; [discriminate|now apply starting_nonempty in X].
    + split; [reflexivity|]. apply (complete_inv [] (whole m)) in H1. destruct H1 as [(_ & X & _)|(X & _)]; [|now apply starting_nonempty in X]. cbn in X.
      destruct H2 as (d & E & _ & _ & ->). unfold group_op, group_rsv, group_data, plain in *. cbn in *. rewrite app_nil_r in E. injection E as <-. rewrite R.
      destruct (Z.eqb_spec (m_opcode m) 9); [lia|]. destruct (Z.eqb_spec (m_opcode m) 10); [lia|]. reflexivity.
Qed.
Notation fine m := (m_rsv m = 0 /\ sendable (m_opcode m) (m_data m)).
Notation noticed ms := (flat_map (fun m => expected (m_opcode m) (m_data m)) ms).
Lemma whole_history : forall ms, Forall (fun m => fine m) ms -> forall t os, history plain 0 (map whole ms) t os -> t = [] /\ os = noticed ms.
Proof.
  intros ms. induction ms as [|m ms IH] using rev_ind; intros F t os H.
  - inversion H as [|fs f ? ? ? ? ? ? E]; subst; [auto|]. destruct fs; discriminate.
  - apply Forall_app in F as [F1 F2]. inversion F2 as [|? ? [R S] _]; subst. rewrite map_app in H. cbn [map] in H. inversion H as [E|fs f t0 t1 os0 o H0 FO E]; subst; [destruct (map whole ms); discriminate|].
    apply app_inj_tail in E as [-> ->]. apply (IH F1) in H0 as [-> ->]. apply (proj2 (whole_follows m R S)) in FO as [-> ->]. rewrite flat_map_app. cbn [flat_map]. rewrite app_nil_r. auto.
Qed.
(** whole messages on the wire are noticed one after the other *)
Lemma whole_stream : forall alloc_ok server ms ws evs, Forall (fun m => fine m /\ outgoing m /\ m_has_mask m = server) ms -> (forall n, alloc_ok n = true) ->
  Forall2 (fun m w => wire (whole m) w) ms ws -> calm evs -> stream evs = concat ws -> eventually alloc_ok server plain 0 evs (fun s => seen s = noticed ms).
Proof.
  intros alloc_ok server ms ws evs F AL W C S.
  assert (PB : forall op rsv d d', bytes d -> plain op rsv d = Some d' -> bytes d') by (intros op rsv d d' B E; injection E as <-; exact B).
  destruct (C37_reassembly alloc_ok server plain 0 PB evs (map whole ms) C) as (k & H).
  { exists ws, []. split; [|split; [rewrite app_nil_r; exact S|split; [left; reflexivity|]]].
    - clear -W. induction W; cbn [map]; constructor; auto.
    - apply Forall_forall. intros f I. apply in_map_iff in I as (m & <- & I). rewrite Forall_forall in F. destruct (F m I) as ((R & B & L & _) & OG & HM).
      split; [now apply whole_ok|]. split; [rewrite whole_keyed; exact HM|]. auto. }
  exists k. intros is U L. assert (FF : Forall (fun m => fine m) ms) by (eapply Forall_impl; [|exact F]; intros m X; apply X).
  destruct (H is U L) as [(t & os & HI & ->)|(a & f & b & t & os & E & HI & NF & _)].
  - apply (whole_history ms FF) in HI. apply HI.
  - exfalso. apply map_eq_app in E as (m1 & m2 & -> & <- & E). destruct m2 as [|m m2]; [discriminate|]. cbn [map] in E. injection E as <- _.
    apply Forall_app in FF as [F1 F2]. inversion F2 as [|? ? [R S'] _]; subst. apply (whole_history m1 F1) in HI as [-> _]. apply (NF [] (expected (m_opcode m) (m_data m))). now apply whole_follows.
Qed.

Lemma one_frame : forall m w, build_frame m 0 (zlen (m_data m)) = Ret (block_of w) -> exists m', message_frames m 0 = Ret ([block_of w], m').
Proof.
  intros m w BF. pose proof (zlen_nonneg _ (m_data m)) as NN. unfold message_frames. destruct (zlen (m_data m) =? 0) eqn:Z0.
  - apply Z.eqb_eq in Z0. rewrite Z0 in BF. rewrite BF. eexists. reflexivity.
  - apply Z.eqb_neq in Z0. destruct (m_data m) as [|x l] eqn:DM; [unfold zlen in Z0; cbn in Z0; lia|]. rewrite <- DM in *.
    replace (length (m_data m)) with (Datatypes.S (length l)) by (rewrite DM; reflexivity). cbn [frames_loop].
    replace (0 <? zlen (m_data m)) with true by (symmetry; apply Z.ltb_lt; lia). rewrite Z.sub_0_r. cbn [Z.eqb]. rewrite Z.ltb_irrefl, BF. cbn [bind]. rewrite Z.add_0_l. destruct l as [|y l].
    + cbn [length frames_loop bind fst snd]. eexists. reflexivity.
    + cbn [length frames_loop]. change (m_data (set_opcode m OP_CONTINUE)) with (m_data m). rewrite Z.ltb_irrefl. cbn [bind fst snd]. eexists. reflexivity.
Qed.
Lemma wire_length : forall f w, wire f w -> frame_ok f -> (length w <= length (f_payload f) + 14)%nat.
Proof.
  intros f w W (_ & _ & _ & K). unfold wire in W.
  assert (H : forall a b c d n, (length (rfc_header a b c d n) <= 10)%nat) by (intros; unfold rfc_header; destruct (n <=? 125); [cbn; lia|destruct (n <=? 65535); cbn; lia]).
  destruct (f_key f) as [k|].
  - destruct W as (q & (Q & _) & ->). rewrite !app_length, Q. destruct K as [K _]. rewrite K. pose proof (H (f_fin f) (f_rsv f) (f_op f) true (zlen (f_payload f))). lia.
  - subst w. rewrite app_length. pose proof (H (f_fin f) (f_rsv f) (f_op f) false (zlen (f_payload f))). lia.
Qed.

(** one call of ulfius_websocket_send_message *)
Lemma send_one : forall C out_perform alloc_ok server ch opcode data, (forall n, alloc_ok n = true) -> sendable opcode data -> fortunate server ch data ->
  exists m w css, send_message C out_perform alloc_ok server ch true false [] opcode data = Ret (U_OK, css, true, []) /\ concat (concat css) = block_of w /\ wire (whole m) w /\
    outgoing m /\ m_has_mask m = negb server /\ m_opcode m = opcode /\ m_data m = data /\ m_rsv m = 0.
Proof.
  intros C out_perform alloc_ok server ch opcode data AL (B & L & K) (WI & LE & LO & KE).
  assert (OP : In opcode [OP_TEXT; OP_BINARY; OP_CLOSE; OP_PING; OP_PONG]) by (unfold OP_TEXT, OP_BINARY, OP_CLOSE, OP_PING, OP_PONG; cbn; intuition).
  assert (X : exists m, built server opcode 0 (c_key ch) data = Some m /\ outgoing m /\ m_has_mask m = negb server /\ m_opcode m = opcode /\ m_data m = data /\ m_rsv m = 0).
  { unfold built, build_message.
    replace ((opcode =? OP_TEXT) || (opcode =? OP_BINARY) || (opcode =? OP_CLOSE) || (opcode =? OP_PING) || (opcode =? OP_PONG)) with true
      by (symmetry; cbn in OP; destruct OP as [<-|[<-|[<-|[<-|[<-|[]]]]]]; reflexivity).
    destruct server.
    - eexists. split; [reflexivity|]. repeat split; cbn; auto; try lia; try discriminate. exists 0. lia.
    - destruct (KE eq_refl) as (k & -> & K4 & KB). eexists. split; [reflexivity|]. repeat split; cbn; auto; try lia. exists 0. lia. }
  destruct X as (m & BU & OG & HM & MO & MD & MR). destruct (whole_wire m OG) as (w & BF & WW); [rewrite MD; change (2 ^ 54) with 18014398509481984; lia|rewrite MD; auto|].
  destruct (one_frame m w BF) as (m' & MF). pose proof (wire_length _ _ WW (whole_ok m OG)) as LW. cbn [whole f_payload] in LW. rewrite MD in LW.
  destruct (C39_complete_when_willing server alloc_ok (c_evs ch) true m 0 _ _ AL MF WI) as (css & evs' & E & M).
  { cbn [concat]. rewrite app_nil_r. unfold block_of. rewrite map_length. lia. }
  exists m, w, css. split; [|split].
  - unfold send_message, send_fragmented, out_message. rewrite andb_false_r, AL, andb_false_r. cbn [zlen length Z.of_nat Z.eqb negb andb]. change (U_OK =? U_OK) with true. cbv iota. rewrite LO, BU, E. reflexivity.
  - replace (concat (concat css)) with (concat (map (@concat _) css)); [rewrite M; cbn; now rewrite app_nil_r|].
    clear. induction css as [|x r IH]; [reflexivity|]. cbn [map concat]. now rewrite concat_app, IH.
  - auto 10.
Qed.

Definition willingly (server : bool) (x : chance * Z * list Z) : Prop := let '(ch, opcode, data) := x in sendable opcode data /\ fortunate server ch data.
Lemma send_many : forall C out_perform alloc_ok server l, (forall n, alloc_ok n = true) -> Forall (willingly server) l ->
  exists ms ws pieces, send_all C out_perform alloc_ok server true [] l = Ret (map (fun _ => U_OK) l, pieces) /\ concat pieces = block_of (concat ws) /\
    Forall2 (fun m w => wire (whole m) w) ms ws /\ Forall (fun m => fine m /\ outgoing m /\ m_has_mask m = negb server) ms /\
    noticed ms = flat_map (fun x => expected (snd (fst x)) (snd x)) l.
Proof.
  intros C out_perform alloc_ok server l AL F. induction F as [|[[ch opcode] data] l [SE FO] F IH].
  - exists [], [], []. repeat split; constructor.
  - destruct (send_one C out_perform alloc_ok server ch opcode data AL SE FO) as (m & w & css & E & CC & WW & OG & HM & MO & MD & MR).
    destruct IH as (ms & ws & pieces & E2 & CC2 & W2 & F2 & N2). exists (m :: ms), (w :: ws), (concat css ++ pieces). cbn [send_all]. rewrite E. unfold bind at 1. cbv beta iota. rewrite E2.
    split; [reflexivity|]. split; [rewrite concat_app, CC, CC2; cbn [concat]; unfold block_of; now rewrite map_app|]. split; [constructor; auto|].
    split; [constructor; auto; rewrite MO, MD; auto|]. cbn [flat_map fst snd]. rewrite MO, MD. f_equal. exact N2.
Qed.
