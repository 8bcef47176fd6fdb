(** C33 to C38: websocket frames on the wire, and what the receiving thread makes of them. *)
From Coq Require Import String ZArith Bool List Lia.
From Verif Require Import Base BaseFacts Utf8Model Utf8Spec WsFrameModel WsRecvModel WsSpec WsFrameProofs WsRecvSpec WsRecvProofs.
Import ListNotations.
Open Scope Z_scope.

(** ** what is sent *)

(** an outgoing message as ulfius_build_message makes it *)
Definition outgoing (m : wmsg) : Prop :=
  0 <= m_opcode m < 16 /\ (exists k, 0 <= k < 8 /\ m_rsv m = 16 * k) /\ bytes (m_data m) /\
  (m_has_mask m = true -> length (m_mask m) = 4%nat /\ bytes (m_mask m)).

Lemma outgoing_mask : forall m, outgoing m -> mask_ok m.
Proof. intros m (_ & _ & _ & M) H. destruct (M H) as [L _]. unfold zlen. lia. Qed.

(** the frame of a whole message *)
Definition whole (m : wmsg) : frame :=
  mk_frame true (m_rsv m) (m_opcode m) (if m_has_mask m then Some (m_mask m) else None) (m_data m).

Lemma whole_ok : forall m, outgoing m -> frame_ok (whole m).
Proof.
  intros m (O & R & B & M). split; [exact O|]. split; [exact R|]. split; [exact B|]. cbn. destruct (m_has_mask m); auto.
Qed.
Lemma whole_keyed : forall m, keyed (whole m) = m_has_mask m.
Proof. intros m. unfold keyed, whole. cbn. destruct (m_has_mask m); reflexivity. Qed.

Lemma whole_wire : forall m, outgoing m -> zlen (m_data m) < 2 ^ 54 -> (m_has_mask m = true -> zlen (m_data m) < 4294967296) ->
  exists w, build_frame m 0 (zlen (m_data m)) = Ret (block_of w) /\ wire (whole m) w.
Proof.
  intros m OG N M. pose proof (outgoing_mask m OG) as MO. destruct OG as (O & (k & K & R) & B & MM).
  eexists. split; [apply (build_whole m k); auto|]. unfold wire. cbn [whole f_key f_payload f_fin f_rsv f_op].
  destruct (m_has_mask m); [|reflexivity]. exists (mask_from (m_mask m) 0 (m_data m)). split; [apply masked_with_mask|reflexivity].
Qed.

(** C33. Whatever chunks the bytes arrive in and whatever follows them, the reader takes exactly the
    frame and gets back opcode, RSV bits, FIN, mask flag and payload. *)
Theorem C33_frame_round_trip : forall alloc_ok m, outgoing m -> zlen (m_data m) < 4294967296 -> alloc_ok (zlen (m_data m)) = true ->
  exists w, build_frame m 0 (zlen (m_data m)) = Ret (block_of w) /\
    forall evs rest, calm evs -> stream evs = w ++ rest ->
    exists m' evs', read_message alloc_ok (m_has_mask m) evs true = (U_OK, Some m', evs', true) /\ stream evs' = rest /\
      m_opcode m' = m_opcode m /\ m_rsv m' = m_rsv m /\ m_data m' = m_data m /\ m_fin m' = true /\ m_has_mask m' = m_has_mask m.
Proof.
  intros alloc_ok m OG N A. destruct (whole_wire m OG) as (w & BF & WI); auto.
  { change (2 ^ 54) with 18014398509481984. lia. }
  exists w. split; [exact BF|]. intros evs rest C S.
  destruct (read_wire alloc_ok (whole m) w evs rest (whole_ok m OG) WI C) as (evs' & R & S' & _); auto.
  rewrite whole_keyed in R. exists (message_of (whole m)), evs'. split; [exact R|]. split; [exact S'|].
  split; [reflexivity|]. split; [reflexivity|]. split; [reflexivity|]. split; [reflexivity|].
  cbn. destruct (m_has_mask m); reflexivity.
Qed.

Example C33_example :
  let m := mk_wmsg OP_BINARY 64 false true [17; 2; 250; 99] (repeat 7 200) 0 in
  outgoing m /\ exists w, build_frame m 0 200 = Ret (block_of w) /\ zlen w = 208 /\
  exists m', read_message (fun _ => true) true [RIdle; RData (firstn 3 w); REof; RData (skipn 3 w ++ [1])] true = (U_OK, Some m', [RData [1]], true) /\
    m_data m' = repeat 7 200.
Proof.
  cbv zeta. split.
  - split; [split; [discriminate|reflexivity]|]. split; [exists 4; split; [lia|reflexivity]|]. split; [apply Forall_forall; intros x I; cbn [m_data] in I; apply repeat_spec in I; subst; lia|].
    intros _. split; [reflexivity|]. repeat constructor; lia.
  - exists ([194; 254; 0; 200; 17; 2; 250; 99] ++ mask_from [17; 2; 250; 99] 0 (repeat 7 200)).
    split; [vm_compute; reflexivity|]. split; [reflexivity|]. eexists. split; vm_compute; reflexivity.
Qed.

(** C34. The full statement: every frame written is an RFC 6455 frame, that is, for every message and
    every part [off, off+len) of it the bytes of build_frame are the [wire] of a frame with the opcode of
    the message (0 after the first frame) and FIN only at the end. It holds for messages sent as
    one frame, below 2^54 bytes (masked: below 2^32, see the endless loop below). *)
Theorem C34_rfc_frame_partial : forall m, outgoing m -> zlen (m_data m) < 2 ^ 54 ->
  (m_has_mask m = true -> zlen (m_data m) < 4294967296) ->
  exists w, build_frame m 0 (zlen (m_data m)) = Ret (block_of w) /\ wire (whole m) w.
Proof. exact whole_wire. Qed.

(** and with the key that was drawn for it, when the message is made by ulfius_build_message *)
Theorem C34_built_message : forall opcode rsv has_mask key data, In opcode [OP_TEXT; OP_BINARY; OP_CLOSE; OP_PING; OP_PONG] -> (exists k, 0 <= k < 8 /\ rsv = 16 * k) -> bytes data ->
  length key = 4%nat -> bytes key -> zlen data < 4294967296 ->
  exists m w, build_message opcode rsv has_mask key data = Some m /\ build_frame m 0 (zlen data) = Ret (block_of w) /\
    wire (mk_frame true rsv opcode (if has_mask then Some key else None) data) w.
Proof.
  intros opcode rsv has_mask key data O R B LK BK N. unfold build_message.
  assert (E : (opcode =? OP_TEXT) || (opcode =? OP_BINARY) || (opcode =? OP_CLOSE) || (opcode =? OP_PING) || (opcode =? OP_PONG) = true).
  { cbn [In] in O. destruct O as [<-|[<-|[<-|[<-|[<-|[]]]]]]; reflexivity. }
  rewrite E. eexists. set (m := mk_wmsg _ _ _ _ _ _ _). destruct (whole_wire m) as (w & BF & WI).
  - split; [|split; [exact R|split; [exact B|]]].
    + cbn [m m_opcode]. cbn [In] in O. destruct O as [<-|[<-|[<-|[<-|[<-|[]]]]]]; split; vm_compute; congruence.
    + cbn [m m_has_mask m_mask]. intros ->. auto.
  - cbn [m m_data]. change (2 ^ 54) with 18014398509481984. lia.
  - intros _. exact N.
  - exists w. split; [reflexivity|]. split; [exact BF|]. unfold whole in WI. cbn [m m_rsv m_opcode m_has_mask m_mask m_data] in WI. destruct has_mask; exact WI.
Qed.

Example C34_example : forall w, wire (whole (mk_wmsg OP_TEXT 0 false false [] (repeat 65 300) 0)) w -> firstn 4 w = [129; 126; 1; 44].
Proof. intros w W. unfold wire in W. cbn [whole f_key m_has_mask] in W. subst w. reflexivity. Qed.

(** from 2^54 bytes on the length field is wrong: the shift is 54 instead of 56 *)
Lemma huge : forall n, Z.of_nat n = 2 ^ 54 -> let m := mk_wmsg OP_BINARY 0 false false [] (repeat 0 n) 0 in
  outgoing m /\ m_has_mask m = false /\ zlen (m_data m) = 2 ^ 54 /\
  exists w, build_frame m 0 (zlen (m_data m)) = Ret (block_of w) /\ ~ wire (whole m) w.
Proof.
  intros n N m. change (m_has_mask m) with false. change (m_data m) with (repeat 0 n).
  assert (L : zlen (repeat 0 n) = 2 ^ 54) by (unfold zlen; rewrite repeat_length; exact N).
  split.
  { split; [split; [discriminate|reflexivity]|]. split; [exists 0; split; [lia|reflexivity]|]. split; [|discriminate]. apply Forall_forall. intros x I. cbn [m_data] in I.
    apply repeat_spec in I. subst. lia. }
  split; [reflexivity|]. split; [exact L|].
  assert (M : mask_ok m) by (intros X; discriminate X).
  pose proof (build_frame_ok m 0 (zlen (m_data m)) true (zlen (m_data m)) M) as B. cbv zeta in B.
  change (m_data m) with (repeat 0 n) in B. rewrite L in B |- *. rewrite B; try lia; try reflexivity; try discriminate.
  clear B. rewrite zlen_header by exact M. unfold header_room. change (m_data m) with (repeat 0 n). rewrite L.
  cbv zeta. change (m_has_mask m) with false. cbv iota.
  change (malloc _) with (@nil (option Z)). rewrite app_nil_r. eexists. split; [reflexivity|].
  unfold wire, whole. change (m_has_mask m) with false. cbv iota. cbn [f_key f_payload f_fin f_rsv f_op].
  change (m_data m) with (repeat 0 n). rewrite L. intros H. apply (f_equal (fun l => nth 2 l 0)) in H. revert H.
  unfold frame_header. change (65536 <=? 2 ^ 54) with true. cbv iota. change (m_has_mask m) with false. cbv iota zeta.
  unfold rfc_header. change (2 ^ 54 <=? 125) with false. change (2 ^ 54 <=? 65535) with false. cbv iota.
  cbn [app nth be]. vm_compute. discriminate.
Qed.
Theorem C34_huge_refuted : exists m, outgoing m /\ m_has_mask m = false /\ zlen (m_data m) = 2 ^ 54 /\
  exists w, build_frame m 0 (zlen (m_data m)) = Ret (block_of w) /\ ~ wire (whole m) w.
Proof. eexists. apply huge. apply Z2Nat.id. discriminate. Qed.

(** from 2^32 bytes on masking does not end: the index has 32 bits *)
Theorem C34_masked_endless_refuted : forall m, outgoing m -> m_has_mask m = true -> 4294967296 <= zlen (m_data m) < 2 ^ 63 ->
  build_frame m 0 (zlen (m_data m)) = UB Endless.
Proof.
  intros m OG H N. pose proof (outgoing_mask m OG) as M. change (2 ^ 63) with 9223372036854775808 in N. unfold build_frame.
  rewrite (add64_small 0 (zlen (m_data m))) by (unfold two64; lia). rewrite Z.add_0_l.
  replace (zlen (m_data m) <=? zlen (m_data m)) with true by (symmetry; apply Z.leb_le; lia).
  rewrite Z.sub_0_r, Z.mod_small by (unfold two64; lia). fold (header_room m).
  pose proof (zlen_header m (zlen (m_data m)) (zlen (m_data m)) (zlen (m_data m)) true M) as ZH.
  set (hd := frame_header m (zlen (m_data m)) (zlen (m_data m)) (zlen (m_data m)) true) in *.
  assert (RH : zlen hd <= header_room m /\ 0 <= header_room m <= 14).
  { rewrite ZH. unfold header_room. destruct (65536 <=? zlen (m_data m)), (125 <? zlen (m_data m)) eqn:B, (m_has_mask m); lia. }
  rewrite add64_small by (unfold two64; lia). rewrite <- (zlen_block hd).
  replace (malloc (header_room m + zlen (m_data m))) with ([] ++ malloc (header_room m + zlen (m_data m))) by reflexivity.
  change 0 with (zlen (@nil (option Z))) at 1. rewrite fill by (rewrite ?zlen_block; lia). cbn [app bind].
  rewrite Z.ltb_irrefl, H. replace (4294967296 <=? zlen (m_data m)) with true by (symmetry; apply Z.leb_le; lia). reflexivity.
Qed.

(** a first fragment has no opcode: its first byte is the RSV bits alone *)
Theorem C34_fragment_opcode_refuted : forall m fragment, outgoing m -> 0 < fragment < zlen (m_data m) -> zlen (m_data m) < 2 ^ 63 ->
  (m_has_mask m = true -> fragment < 4294967296) ->
  exists f, build_frame m 0 fragment = Ret f /\ nth 0 f None = Some (m_rsv m).
Proof.
  intros m fragment OG F N M. eexists. split.
  - apply (build_frame_ok m 0 fragment false fragment); auto; try lia. now apply outgoing_mask.
  - reflexivity.
Qed.

(** and when the message needs the two-byte length but the fragment does not, the frame ends with two
    bytes that were never written *)
Theorem C34_fragment_trailing_refuted : forall m off len, outgoing m -> 0 <= off -> 0 <= len <= 125 -> off + len <= zlen (m_data m) ->
  125 < zlen (m_data m) < 65536 ->
  exists w, build_frame m off len = Ret (block_of w ++ [None; None]).
Proof.
  intros m off len OG A B C D. pose proof (outgoing_mask m OG) as M. eexists.
  rewrite (build_frame_ok m off len (zlen (m_data m) =? off + len) len M); auto; try lia.
  do 2 f_equal. rewrite zlen_header by exact M. unfold header_room.
  replace (65536 <=? zlen (m_data m)) with false by (symmetry; apply Z.leb_gt; lia).
  replace (125 <? zlen (m_data m)) with true by (symmetry; apply Z.ltb_lt; lia).
  replace (125 <? len) with false by (symmetry; apply Z.ltb_ge; lia).
  destruct (m_has_mask m); reflexivity.
Qed.

Example C34_fragment_example : let m := mk_wmsg OP_TEXT 0 false false [] (repeat 65 130) 0 in
  build_frame m 0 3 = Ret (block_of [0; 3; 65; 65; 65] ++ [None; None]).
Proof. vm_compute. reflexivity. Qed.

(** ** what is received *)
Section Props.
Variables (alloc_ok : Z -> bool) (server : bool) (ext_in : Z -> Z -> list Z -> option (list Z)) (rsv_expected : Z).
Hypothesis ext_bytes : forall op rsv d d', bytes d -> ext_in op rsv d = Some d' -> bytes d'.
Notation run := (run alloc_ok server ext_in rsv_expected).
Notation history := (history ext_in rsv_expected).
Notation follows := (follows ext_in rsv_expected).
Notation accepted := (accepted ext_in rsv_expected).

(** the bytes of some frames the reader can take in, followed by nothing or by a frame with the wrong
    mask bit *)
Definition receivable (fs : list frame) (bs : list Z) : Prop :=
  exists ws rest, Forall2 wire fs ws /\ bs = concat ws ++ rest /\ refused server rest /\
    Forall (fun f => frame_ok f /\ keyed f = server /\ zlen (f_payload f) < 4294967296 /\ alloc_ok (zlen (f_payload f)) = true) fs.

(** the state after enough rounds in which nothing else happens *)
Definition eventually (evs : list rd) (P : wst -> Prop) : Prop :=
  exists k, forall is, Forall undisturbed is -> (k <= length is)%nat -> P (run (start evs) is).

Lemma stream_lemma : forall evs fs, calm evs -> receivable fs (stream evs) ->
  eventually evs (fun s => inert s /\
    ((exists t os, history fs t os /\ seen s = os) \/
     (exists a f b t os, fs = a ++ f :: b /\ history a t os /\ (forall t' o, ~ follows t f t' o) /\ seen s = os ++ closing f))).
Proof.
  intros evs fs C (ws & rest & W & S & R & G).
  destruct (frames_run alloc_ok server ext_in rsv_expected ext_bytes fs ws W) with (s := start evs) (pre := @nil frame) (t := @nil frame) (os := @nil sitem)
    (rest := rest) as (k & H); auto; try reflexivity; try constructor.
  exists k. intros is U L. destruct (H is U L) as [I O]. split; [exact I|exact O].
Qed.

(** C37. Whatever chunks and pauses: what the program and the peer notice is what the frames mean, up to
    the first frame that cannot follow (if any). *)
Theorem C37_reassembly : forall evs fs, calm evs -> receivable fs (stream evs) ->
  eventually evs (fun s =>
    (exists t os, history fs t os /\ seen s = os) \/
    (exists a f b t os, fs = a ++ f :: b /\ history a t os /\ (forall t' o, ~ follows t f t' o) /\ seen s = os ++ closing f)).
Proof.
  intros evs fs C R. destruct (stream_lemma evs fs C R) as (k & H). exists k. intros is U L. apply (H is U L).
Qed.

(** so the delivered messages are exactly the complete groups of data frames before that, each with
    opcode and RSV of its first frame and the concatenated payload as the extensions leave it; text
    is valid UTF-8; control frames in between make no difference *)
Theorem C37_messages : forall evs fs, calm evs -> receivable fs (stream evs) ->
  eventually evs (fun s => exists a b, fs = a ++ b /\ exists groups t,
    filter is_data a = concat groups ++ t /\ Forall complete groups /\ (t = [] \/ starting t) /\
    match b with [] => True | f :: _ => forall t' o, ~ follows t f t' o end /\
    Forall2 accepted groups (messages (seen s)) /\
    (forall r d, In (SMsg 1 r d) (messages (seen s)) -> utf8_text d)).
Proof.
  intros evs fs C R. destruct (stream_lemma evs fs C R) as (k & H). exists k. intros is U L.
  destruct (H is U L) as [_ O].
  assert (X : exists a b t os, fs = a ++ b /\ history a t os /\ match b with [] => True | f :: _ => forall t' o, ~ follows t f t' o end /\ messages (seen (run (start evs) is)) = messages os).
  { destruct O as [(t & os & HI & ->)|(a & f & b & t & os & E & HI & NF & ->)].
    - exists fs, [], t, os. rewrite app_nil_r. auto.
    - exists a, (f :: b), t, os. split; [exact E|]. split; [exact HI|]. split; [exact NF|]. rewrite messages_app. unfold closing.
      destruct (_ && _); cbn; apply app_nil_r. }
  destruct X as (a & b & t & os & E & HI & NF & ->). exists a, b. split; [exact E|].
  destruct (history_groups _ _ _ _ _ HI) as (gs & G1 & G2 & G3 & G4). exists gs, t.
  split; [exact G1|]. split; [exact G2|]. split; [exact G3|]. split; [exact NF|]. split; [exact G4|].
  intros r d I. apply in_split in I as (l1 & l2 & EM). rewrite EM in G4. apply Forall2_app_inv_r in G4 as (g1 & g2 & _ & G5 & _).
  inversion G5 as [|g o g' o' AC _ E1 E2]. subst. destruct AC as (d' & _ & _ & UT & [= E3 E4 ->]). apply UT. auto.
Qed.

(** C38. Pings before the end are answered by pongs with their payload, in order, and by nothing else;
    a close frame can only be the last frame taken in; it is answered by one close frame (when its payload is not too long). *)
Theorem C38_pongs : forall evs fs, calm evs -> receivable fs (stream evs) ->
  eventually evs (fun s => exists a b os cl, fs = a ++ b /\ seen s = os ++ cl /\
    (exists t, history a t os) /\ (forall f, In f a -> f_op f <> 8) /\
    pongs os = map f_payload (filter (fun f => f_op f =? 9) a) /\ (forall op d, In (SSend op d) os -> op = 10) /\
    match b with
    | [] => cl = []
    | f :: _ => (forall t o t' , history a t os -> ~ follows t f t' o) /\ cl = closing f
    end).
Proof.
  intros evs fs C R. destruct (stream_lemma evs fs C R) as (k & H). exists k. intros is U L.
  destruct (H is U L) as [_ [(t & os & HI & ->)|(a & f & b & t & os & E & HI & NF & ->)]].
  - exists fs, [], os, []. rewrite !app_nil_r. destruct (history_pongs _ _ _ _ _ HI) as (P1 & P2 & P3).
    split; [reflexivity|]. split; [reflexivity|]. split; [eauto|]. auto.
  - exists a, (f :: b), os, (closing f). destruct (history_pongs _ _ _ _ _ HI) as (P1 & P2 & P3).
    split; [exact E|]. split; [reflexivity|]. split; [eauto|]. split; [exact P3|]. split; [exact P1|]. split; [exact P2|].
    split; [|reflexivity]. intros t2 o t' HI2. rewrite (history_tail _ _ _ _ _ HI _ _ HI2). apply NF.
Qed.

(** after the end nothing is delivered, answered or kept any more, whatever happens *)
Theorem C38_end_is_final : forall s is, (w_phase s <> PLoop \/ w_conn s = false \/ w_ok s = false) ->
  exists o, w_out (run s is) = w_out s ++ o /\ Forall (fun x => x = OnClose) o.
Proof.
  intros s is. revert s. induction is as [|i is IH]; intros s I; [exists []; rewrite app_nil_r; split; auto|].
  destruct (step_inert alloc_ok server ext_in rsv_expected s i I) as [I' O].
  destruct (IH _ I') as (o & E & F). change (run s (i :: is)) with (run (WsRecvModel.step alloc_ok server ext_in rsv_expected s i) is). rewrite E.
  destruct O as [-> | ->].
  - exists o. auto.
  - exists (OnClose :: o). rewrite <- app_assoc. split; [reflexivity|]. constructor; auto.
Qed.

(** the close callback runs exactly once, at the end; never before. Any schedule of the socket, any
    interference of the program. *)
Theorem C38_close_callback_once : forall evs is,
  length (filter is_close (w_out (run (start evs) is))) = match w_phase (run (start evs) is) with PEnd => 1%nat | _ => 0%nat end.
Proof. intros evs is. apply run_once. reflexivity. Qed.

(** once the connection ends and the manager callback returns, it has run *)
Theorem C38_close_callback_runs : forall evs, exists k, forall is i js, (k <= length is)%nat -> i_mgr i = true ->
  length (filter is_close (w_out (run (start evs) (is ++ i :: js)))) = 1%nat.
Proof.
  intros evs. exists (remaining evs + 2)%nat. intros is i js L M. rewrite C38_close_callback_once.
  rewrite run_app. change (run (run (start evs) is) (i :: js)) with (run (WsRecvModel.step alloc_ok server ext_in rsv_expected (run (start evs) is) i) js).
  pose proof (loop_ends alloc_ok server ext_in rsv_expected (remaining evs) (start evs) is (le_n _) L) as P.
  assert (E : w_phase (WsRecvModel.step alloc_ok server ext_in rsv_expected (run (start evs) is) i) = PEnd).
  { unfold WsRecvModel.step. destruct (w_phase (run (start evs) is)) eqn:W; [congruence| |exact W]. rewrite M. reflexivity. }
  assert (F : forall js s, w_phase s = PEnd -> w_phase (run s js) = PEnd).
  { induction js0 as [|j js0 IH]; intros s W; [exact W|]. apply IH. unfold WsRecvModel.step. rewrite W. exact W. }
  rewrite F by exact E. reflexivity.
Qed.

(** C36. Every message delivered or kept was read from frames with the right mask bit. Any bytes, any
    schedule, any interference. *)
Theorem C36_only_right_masks : forall evs is o, In o (w_out (run (start evs) is)) ->
  match o with Deliver m | Keep m => m_has_mask m = server | _ => True end.
Proof.
  intros evs is o I. assert (M : masks server (run (start evs) is)).
  { apply masks_run. split; [discriminate|constructor]. }
  destruct M as [_ M]. rewrite Forall_forall in M. exact (M o I).
Qed.

(** a message is only ever read when its mask bit is right *)
Theorem C36_wrong_mask_not_read : forall evs conn r m evs' c, read_message alloc_ok server evs conn = (r, Some m, evs', c) ->
  exists h0 h1 tail, stream evs = h0 :: h1 :: tail /\ (server = true <-> Z.testbit h1 7 = true) /\ m_has_mask m = server.
Proof.
  intros evs conn r m evs' c H. destruct (read_message_some alloc_ok server _ _ _ _ _ _ H) as (h0 & h1 & tl & S & _ & _ & _ & M & K).
  exists h0, h1, tl. split; [exact S|]. split; [|exact M]. rewrite <- K.
  assert (E : (Z.land h1 128 =? 0) = negb (Z.testbit h1 7)).
  { destruct (Z.testbit h1 7) eqn:B.
    - apply Z.eqb_neq. intros Z0. apply (f_equal (fun z => Z.testbit z 7)) in Z0. rewrite Z.land_spec, B in Z0. discriminate.
    - apply Z.eqb_eq. apply Z.bits_inj'. intros i I. rewrite Z.land_spec, Z.bits_0. change 128 with (2 ^ 7).
      rewrite Z.pow2_bits_eqb by lia. destruct (7 =? i) eqn:E; [|apply andb_false_r]. apply Z.eqb_eq in E. subst. rewrite B. reflexivity. }
  rewrite E, negb_involutive. tauto.
Qed.

(** and a frame with the wrong mask bit ends the connection with nothing more noticed: see [receivable]
    in C37. Here: alone. *)
Theorem C36_wrong_mask_ends : forall evs h0 h1 tail, calm evs -> stream evs = h0 :: h1 :: tail -> (Z.land h1 128 =? 0) = server ->
  eventually evs (fun s => (w_phase s <> PLoop \/ w_conn s = false \/ w_ok s = false) /\ seen s = []).
Proof.
  intros evs h0 h1 tail C S M.
  destruct (stream_lemma evs [] C) as (k & H).
  { exists [], (stream evs). split; [constructor|]. split; [reflexivity|]. split; [|constructor].
    right. exists h0, h1, tail. split; [exact S|]. rewrite M. destruct server; discriminate. }
  exists k. intros is U L. destruct (H is U L) as [I O]. split; [exact I|].
  destruct O as [(t & os & HI & ->)|(a & f & b & t & os & E & _)]; [|destruct a; discriminate].
  inversion HI; auto. destruct fs; discriminate.
Qed.

(** C35. The full statement: whatever the fragment length, the receiver delivers exactly the message. It
    holds when the message fits in one frame... *)
Theorem C35_one_message_partial : forall m fragment d, outgoing m -> m_has_mask m = server -> (m_opcode m = 1 \/ m_opcode m = 2) ->
  zlen (m_data m) < 4294967296 -> (fragment = 0 \/ zlen (m_data m) <= fragment) -> alloc_ok (zlen (m_data m)) = true ->
  accepted [whole m] (SMsg (m_opcode m) (m_rsv m) d) ->
  exists w m', message_frames m fragment = Ret ([block_of w], m') /\
    forall evs, calm evs -> stream evs = w -> eventually evs (fun s => seen s = [SMsg (m_opcode m) (m_rsv m) d]).
Proof.
  intros m fragment d OG MK OP N FR AL AC.
  destruct (whole_wire m OG) as (w & BF & WI); [change (2 ^ 54) with 18014398509481984; lia|auto|].
  pose proof (zlen_nonneg _ (m_data m)) as NN.
  assert (X : exists m', message_frames m fragment = Ret ([block_of w], m')).
  { unfold message_frames. destruct (zlen (m_data m) =? 0) eqn:Z0.
    - apply Z.eqb_eq in Z0. rewrite Z0 in BF. rewrite BF. eexists. reflexivity.
    - apply Z.eqb_neq in Z0. destruct (m_data m) as [|x l] eqn:DM; [unfold zlen in Z0; cbn in Z0; lia|]. rewrite <- DM in *.
      replace (length (m_data m)) with (S (length l)) by (rewrite DM; reflexivity). cbn [frames_loop].
      replace (0 <? zlen (m_data m)) with true by (symmetry; apply Z.ltb_lt; lia). rewrite Z.sub_0_r.
      assert (C : (if fragment =? 0 then if zlen (m_data m) <? zlen (m_data m) then zlen (m_data m) else zlen (m_data m)
                   else if fragment <? zlen (m_data m) then fragment else zlen (m_data m)) = zlen (m_data m)).
      { destruct (fragment =? 0) eqn:F0; [destruct (_ <? _); reflexivity|]. apply Z.eqb_neq in F0.
        destruct (fragment <? zlen (m_data m)) eqn:F1; [apply Z.ltb_lt in F1; lia|reflexivity]. }
      rewrite C, BF. cbn [bind]. rewrite Z.add_0_l. destruct l as [|y l].
      + cbn [length frames_loop bind fst snd]. eexists. reflexivity.
      + cbn [length frames_loop]. change (m_data (set_opcode m OP_CONTINUE)) with (m_data m). rewrite Z.ltb_irrefl.
        cbn [bind fst snd]. eexists. reflexivity. }
  destruct X as (m' & MF). exists w, m'. split; [exact MF|]. intros evs C S.
  destruct (stream_lemma evs [whole m] C) as (k & H).
  { exists [w], []. split; [constructor; [exact WI|constructor]|]. split; [cbn; rewrite !app_nil_r; exact S|]. split; [left; reflexivity|].
    constructor; [|constructor]. split; [now apply whole_ok|]. split; [rewrite whole_keyed; exact MK|]. auto. }
  exists k. intros is U L.
  assert (FO : follows [] (whole m) [] [SMsg (m_opcode m) (m_rsv m) d]).
  { apply fo_message; [|exact AC]. apply co_single; [exact OP|reflexivity]. }
  destruct (H is U L) as [_ [(t & os & HI & ->)|(a & f & b & t & os & E & HI & NF & _)]].
  - inversion HI as [|fs f t0 t' os0 o HI0 FO' E]; subst. apply (app_inj_tail fs []) in E as [-> ->].
    inversion HI0; [|destruct fs; discriminate]. subst. cbn [app].
    inversion FO'; subst; cbn [whole f_op f_fin] in *; try lia; try (apply (starting_inv []) in H0; cbn in H0; destruct H0 as [H0|H0]; [destruct H0 as (_ & _ & H0); discriminate|destruct H0 as (H0 & _); now apply starting_nonempty in H0]).
    f_equal. destruct H1 as (d1 & E1 & _ & _ & ->). destruct AC as (d2 & E2 & _ & _ & E3). cbn [app] in E1. rewrite E1 in E2. injection E2 as <-. injection E3 as <-. reflexivity.
  - destruct a as [|x a]; [|destruct a; discriminate]. injection E as <- <-.
    inversion HI; [|destruct fs; discriminate]. subst. exfalso. eapply NF. exact FO.
Qed.

(** ... and is false for every message that needs two frames: whatever the bytes never written hold, whatever
    the schedule, nothing is ever delivered *)
Theorem C35_fragmented_refuted : forall m fragment frames m' ws evs is, outgoing m -> 0 < fragment < zlen (m_data m) ->
  message_frames m fragment = Ret (frames, m') ->
  Forall2 (Forall2 (fun o b => o = Some b \/ o = None)) frames ws -> stream evs = concat ws ->
  forall x, ~ In (Deliver x) (w_out (run (start evs) is)).
Proof.
  intros m fragment frames m' ws evs is OG F MF FI ST x I.
  assert (B : exists f fr, frames = f :: fr /\ nth 0 f None = Some (m_rsv m)).
  { unfold message_frames in MF. replace (zlen (m_data m) =? 0) with false in MF by (symmetry; apply Z.eqb_neq; lia).
    destruct (m_data m) as [|y l] eqn:DM; [unfold zlen in F; cbn in F; lia|].
    replace (length (y :: l)) with (S (length l)) in MF by reflexivity. cbn [frames_loop] in MF. rewrite <- DM in F.
    rewrite DM in MF. rewrite <- DM in MF.
    replace (0 <? zlen (m_data m)) with true in MF by (symmetry; apply Z.ltb_lt; lia).
    replace (fragment =? 0) with false in MF by (symmetry; apply Z.eqb_neq; lia). rewrite Z.sub_0_r in MF.
    replace (fragment <? zlen (m_data m)) with true in MF by (symmetry; apply Z.ltb_lt; lia).
    destruct (build_frame m 0 fragment) as [f|] eqn:BF; [|discriminate]. cbn [bind] in MF.
    destruct (frames_loop _ _ _ _) as [[fr mm]|]; [|discriminate]. cbn in MF. injection MF as <- <-.
    exists f, fr. split; [reflexivity|]. eapply first_byte; [apply outgoing_mask; exact OG| |exact BF]. lia. }
  destruct B as (f & fr & -> & B0). inversion FI as [|? w ? ws' F1 F2 E1 E2]. subst.
  destruct f as [|o f]; [discriminate|]. cbn in B0. subst o. inversion F1 as [|? b ? w' F3 F4]. subst.
  destruct F3 as [F3|F3]; [|discriminate]. injection F3 as <-.
  assert (M : mute (run (start evs) is)).
  { apply run_mute. split; [reflexivity|]. right. split; [reflexivity|]. exists (m_rsv m). eexists. split; [change (w_in (start evs)) with evs; rewrite ST; reflexivity|].
    destruct OG as (_ & (k & K & ->) & _). destruct (b0_facts 0 k ltac:(lia) K) as [_ B1]. specialize (B1 false). cbv zeta in B1.
    rewrite Z.add_0_l, Z.add_0_r in B1. apply B1. }
  destruct M as [M _]. apply (in_split (Deliver x)) in I as (l1 & l2 & E). rewrite E, existsb_app in M. cbn in M.
  rewrite orb_true_r in M. discriminate.
Qed.
End Props.

(** the frames of a fragmented message are always built (no other outcome) *)
Theorem C35_frames_built : forall m fragment, outgoing m -> 0 < fragment -> zlen (m_data m) < 2 ^ 63 ->
  (m_has_mask m = true -> fragment < 4294967296) -> 0 < zlen (m_data m) ->
  exists frames m', message_frames m fragment = Ret (frames, m').
Proof.
  intros m fragment OG F N M P. unfold message_frames. replace (zlen (m_data m) =? 0) with false by (symmetry; apply Z.eqb_neq; lia).
  apply outgoing_mask in OG. generalize (length (m_data m)). intros fuel. assert (O : 0 <= 0) by lia. revert O. generalize 0 at 2 3. intros off O.
  revert m off O OG N M P. induction fuel as [|fuel IH]; intros m off O OG N M P; [cbn; eauto|]. cbn [frames_loop].
  destruct (off <? zlen (m_data m)) eqn:L; [|eauto]. apply Z.ltb_lt in L.
  replace (fragment =? 0) with false by (symmetry; apply Z.eqb_neq; lia).
  set (cur := if fragment <? zlen (m_data m) - off then fragment else zlen (m_data m) - off).
  assert (C : 0 < cur /\ off + cur <= zlen (m_data m) /\ cur <= fragment).
  { unfold cur. destruct (fragment <? zlen (m_data m) - off) eqn:E; [apply Z.ltb_lt in E|apply Z.ltb_ge in E]; lia. }
  rewrite (build_frame_ok m off cur (zlen (m_data m) =? off + cur) cur OG); auto; try lia; [|intros H; specialize (M H); lia].
  cbn [bind]. destruct (IH (set_opcode m OP_CONTINUE) (off + cur)) as (fr & m' & E); auto; try lia.
  rewrite E. cbn. eauto.
Qed.

(** ** examples *)
Definition quiet : inp := mk_inp false false false.
Definition plain (op rsv : Z) (d : list Z) : option (list Z) := Some d.

(** a text in two fragments with a ping in between, then a close; cut into odd chunks *)
Definition ex_frames : list frame :=
  [mk_frame false 0 1 None [72; 195]; mk_frame true 0 9 None [1; 2]; mk_frame true 0 0 None [169; 33]; mk_frame true 0 8 None []].
Definition ex_stream : list rd := [RIdle; RData [1]; RData [2; 72]; RIdle; RData [195; 137; 2; 1; 2; 128]; RIdle; RData [2; 169; 33; 136; 0]].
Example C37_example : calm ex_stream /\ receivable (fun _ => true) false ex_frames (stream ex_stream) /\
  seen (run (fun _ => true) false plain 0 (start ex_stream) (repeat quiet 9)) = [SSend 10 [1; 2]; SMsg 1 0 [72; 195; 169; 33]; SSend 8 []].
Proof.
  split; [repeat constructor; discriminate|]. split; [|vm_compute; reflexivity].
  exists [[1; 2; 72; 195]; [137; 2; 1; 2]; [128; 2; 169; 33]; [136; 0]], [].
  split; [repeat (constructor; try reflexivity)|]. split; [reflexivity|]. split; [left; reflexivity|].
  repeat (constructor; [split; [split; [cbn; lia|split; [exists 0; cbn; lia|split; [repeat constructor; lia|exact I]]]|
     split; [reflexivity|split; [reflexivity|reflexivity]]]|]). constructor.
Qed.

Example C36_example :
  w_out (run (fun _ => true) true plain 0 (start [RData [129; 2; 72; 105]]) (repeat quiet 5)) = [] /\
  (exists m, w_out (run (fun _ => true) true plain 0 (start [RData [129; 130; 0; 0; 0; 0; 72; 105]]) (repeat quiet 5)) = [Deliver m] /\ m_data m = [72; 105]).
Proof. split; [reflexivity|]. eexists. split; vm_compute; reflexivity. Qed.

Example C35_example :
  let m := mk_wmsg OP_TEXT 0 false false [] (bs "hello") 0 in
  exists f1 f2 m', message_frames m 3 = Ret ([f1; f2], m') /\ f1 = block_of (0 :: 3 :: bs "hel") /\ f2 = block_of (128 :: 2 :: bs "lo") /\
  w_out (run (fun _ => true) false plain 0 (start [RData ((0 :: 3 :: bs "hel") ++ 128 :: 2 :: bs "lo")]) (repeat quiet 9)) = [].
Proof. cbv zeta. do 3 eexists. split; [vm_compute; reflexivity|]. split; [reflexivity|]. split; reflexivity. Qed.

(** C38. The close callback is not reached when the last fragment cannot follow: the loop ends with the
    connection still marked connected, so a manager callback that waits for the end of the connection
    never returns, and the thread waits for it for ever. *)
Theorem C38_manager_waits_refuted : exists evs, forall n, (3 <= n)%nat ->
  let s := run (fun _ => true) false plain 0 (start evs) (repeat quiet n) in
  w_phase s = PJoin /\ w_conn s = true /\ ~ In OnClose (w_out s).
Proof.
  exists [RData [1; 1; 65; 129; 1; 66]]. intros n N. cbv zeta.
  assert (H : exists s, run (fun _ => true) false plain 0 (start [RData [1; 1; 65; 129; 1; 66]]) (repeat quiet 3) = s /\
    w_phase s = PJoin /\ w_conn s = true /\ w_out s = []).
  { eexists. split; [vm_compute; reflexivity|]. repeat split. }
  replace n with (3 + (n - 3))%nat by lia. rewrite repeat_app, run_app. destruct H as (s & -> & P & C & O).
  generalize (n - 3)%nat. clear n N. induction n as [|n IH]; [cbn [repeat]; change (run (fun _ => true) false plain 0 s []) with s; rewrite O; auto|].
  cbn [repeat]. change (run (fun _ => true) false plain 0 s (quiet :: repeat quiet n)) with
    (run (fun _ => true) false plain 0 (WsRecvModel.step (fun _ => true) false plain 0 s quiet) (repeat quiet n)).
  replace (WsRecvModel.step (fun _ => true) false plain 0 s quiet) with s; [exact IH|].
  unfold WsRecvModel.step. rewrite P. reflexivity.
Qed.

Example C38_example :
  filter is_close (w_out (run (fun _ => true) false plain 0 (start ex_stream) (repeat quiet 11 ++ [mk_inp false false true; quiet]))) = [OnClose].
Proof. vm_compute. reflexivity. Qed.

Print Assumptions C33_frame_round_trip.
Print Assumptions C34_rfc_frame_partial.
Print Assumptions C34_built_message.
Print Assumptions C34_huge_refuted.
Print Assumptions C34_masked_endless_refuted.
Print Assumptions C34_fragment_opcode_refuted.
Print Assumptions C34_fragment_trailing_refuted.
Print Assumptions C35_one_message_partial.
Print Assumptions C35_fragmented_refuted.
Print Assumptions C35_frames_built.
Print Assumptions C36_only_right_masks.
Print Assumptions C36_wrong_mask_not_read.
Print Assumptions C36_wrong_mask_ends.
Print Assumptions C37_reassembly.
Print Assumptions C37_messages.
Print Assumptions C38_pongs.
Print Assumptions C38_end_is_final.
Print Assumptions C38_close_callback_once.
Print Assumptions C38_close_callback_runs.
Print Assumptions C38_manager_waits_refuted.
