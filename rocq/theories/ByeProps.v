(** A websocket may be closed by the program while its thread listens (C118). *)
From Coq Require Import String ZArith Bool List Lia.
From Verif Require Import Base BaseFacts Utf8Model Utf8Spec Utf8Proofs WsFrameModel WsRecvModel WsSpec WsFrameProofs WsRecvSpec WsRecvProofs.
From Verif Require Import ByeModel ByeSpec ByeProofs.
Import ListNotations.
Open Scope Z_scope.

(** the frames the other end sends go, whole and in their order, each to exactly one of the threads that read, as long as the websocket is open; whatever the extensions, the number of closing calls and the interleaving *)
Theorem C118_frames : forall alloc_ok server ext_in rsv_expected keep fs ws rest n evs acts,
  (forall op rsv d d', bytes d -> ext_in op rsv d = Some d' -> bytes d') ->
  Forall (good_frame alloc_ok server) fs -> Forall2 wire fs ws -> refused server rest -> calm evs -> stream evs = concat ws ++ rest ->
  let s := yrun alloc_ok server ext_in rsv_expected keep (ybegin n evs) acts in
  w_conn (y_w s) = true -> exists taken left wl, fs = taken ++ left /\ map snd (y_log s) = map message_of taken /\ Forall2 wire left wl /\ stream (w_in (y_w s)) = concat wl ++ rest.
Proof.
  intros alloc_ok server ext_in rsv_expected keep fs ws rest n evs acts EB G W R CA ST s C.
  set (fos := map (fun f => (f, @nil sitem)) fs). assert (F1 : map fst fos = fs) by (unfold fos; rewrite map_map; apply map_id).
  assert (G' : Forall (fun x => good_frame alloc_ok server (fst x)) fos) by (apply Forall_forall; intros x X; unfold fos in X; apply in_map_iff in X as (f & <- & IN); exact (proj1 (Forall_forall _ _) G f IN)).
  pose proof (yinv_begin ext_in rsv_expected fos rest n evs ws) as B. rewrite F1 in B. specialize (B CA W ST).
  destruct (yinv_run alloc_ok server ext_in rsv_expected keep EB fos rest G' R acts _ B C) as (tl & (left & wl & A1 & A2 & A3 & A4 & _) & _).
  exists (map fst (map snd tl)), (map fst left), wl. fold s in A2, A4. rewrite <- F1, A1, map_app. split; [reflexivity|]. split; [|auto]. rewrite A2, !map_map. reflexivity.
Qed.
(** C118, partial: when the other end sends whole messages, pings and pongs, the program is told exactly the messages that the listening thread read, unchanged and in their order; the others were read by a closing call
    ([C118_taken]: at most 11 each). Missing: fragmented messages ([C118_hole_refuted]), what is read when the websocket has just been closed ([C118_torn_refuted]), the answers to pings ([C118_ping_refuted]). *)
Theorem C118_messages_partial : forall alloc_ok server ext_in rsv_expected keep (fos : list (frame * list sitem)) ws rest n evs acts,
  (forall op rsv d d', bytes d -> ext_in op rsv d = Some d' -> bytes d') ->
  Forall (fun x => good_frame alloc_ok server (fst x)) fos -> Forall (fun x => single ext_in rsv_expected (fst x) (snd x)) fos ->
  Forall2 wire (map fst fos) ws -> refused server rest -> calm evs -> stream evs = concat ws ++ rest ->
  let s := yrun alloc_ok server ext_in rsv_expected keep (ybegin n evs) acts in
  w_conn (y_w s) = true -> exists taken left told pending, fos = map snd taken ++ left /\ y_log s = map (fun x => (fst x, message_of (fst (snd x)))) taken /\
    filter (fun x => is_listener (fst x)) taken = told ++ pending /\ map (fun x => message_of (fst (snd x))) pending = in_hand s /\ messages (seen (y_w s)) = concat (map (fun x => snd (snd x)) told).
Proof.
  intros alloc_ok server ext_in rsv_expected keep fos ws rest n evs acts EB G SI W R CA ST s C.
  destruct (yinv_run alloc_ok server ext_in rsv_expected keep EB fos rest G R acts _ (yinv_begin ext_in rsv_expected fos rest n evs ws CA W ST) C) as (tl & (left & wl & A1 & A2 & _) & TI).
  destruct (TI SI) as (_ & _ & told & pending & D1 & D2 & D3). exists tl, left, told, pending. auto.
Qed.
(** a closing call reads at most 11 messages *)
Theorem C118_taken : forall alloc_ok server ext_in rsv_expected keep n evs acts c, (c < n)%nat -> (count_closer c (yrun alloc_ok server ext_in rsv_expected keep (ybegin n evs) acts) <= 11)%nat.
Proof.
  intros alloc_ok server ext_in rsv_expected keep n evs acts c L. pose proof (bounded_run alloc_ok server ext_in rsv_expected keep acts _ (bounded_begin n evs) c) as B.
  assert (N : (length (y_c (yrun alloc_ok server ext_in rsv_expected keep (ybegin n evs) acts)) = n)%nat).
  { assert (H : forall l s, length (y_c (yrun alloc_ok server ext_in rsv_expected keep s l)) = length (y_c s)) by (induction l as [|a l IH]; intros s; [reflexivity|]; etransitivity; [apply IH|apply step_length]). rewrite H. apply repeat_length. }
  destruct (nth_error (y_c (yrun alloc_ok server ext_in rsv_expected keep (ybegin n evs) acts)) c) as [p|] eqn:E; [specialize (B p eq_refl); lia|]. apply nth_error_None in E. lia.
Qed.
(** when a closing call has returned, the websocket is closed, for good *)
Theorem C118_closed : forall alloc_ok server ext_in rsv_expected keep n evs acts more c, nth_error (y_c (yrun alloc_ok server ext_in rsv_expected keep (ybegin n evs) acts)) c = Some CDone ->
  w_conn (y_w (yrun alloc_ok server ext_in rsv_expected keep (ybegin n evs) (acts ++ more))) = false.
Proof.
  intros alloc_ok server ext_in rsv_expected keep n evs acts more c E. unfold yrun in *. rewrite fold_left_app. fold (yrun alloc_ok server ext_in rsv_expected keep (ybegin n evs) acts) in *.
  assert (D : closed_when_done (yrun alloc_ok server ext_in rsv_expected keep (ybegin n evs) acts)) by (apply done_run; intros d X; cbn in X; apply nth_error_In, repeat_spec in X; discriminate).
  specialize (D c E). destruct (w_conn (y_w (fold_left (ystep alloc_ok server ext_in rsv_expected keep) more (yrun alloc_ok server ext_in rsv_expected keep (ybegin n evs) acts)))) eqn:X; [|reflexivity].
  apply (run_conn alloc_ok server ext_in rsv_expected keep) in X. congruence.
Qed.

(** ** a client without extensions; each frame as it is on the wire *)
Definition plain (op rsv : Z) (d : list Z) : option (list Z) := Some d.
Definition b_run (keep : bool) := yrun (fun _ => true) false plain 0 keep.
Definition b_frame (fin : bool) (op : Z) (d : list Z) : frame := mk_frame fin 0 op None d.
Definition b_wire (f : frame) : list Z := rfc_header (f_fin f) (f_rsv f) (f_op f) false (zlen (f_payload f)) ++ f_payload f.
Definition listens : list yact := [LPoll; LPolled; LRead; LHandle].
Definition closer_reads : list yact := [CPoll 0; CPolled 0; CRead 0].

Example C118_messages_hyps : let fos := [(b_frame true 1 (bs "one"), [SMsg 1 0 (bs "one")]); (b_frame true 9 (bs "p"), []); (b_frame true 2 (bs "two"), [SMsg 2 0 (bs "two")]); (b_frame true 2 (bs "three"), [SMsg 2 0 (bs "three")])] in
  let evs := [RIdle; RData (concat (map b_wire (map fst fos)))] in
  let s := b_run false (ybegin 1 evs) (listens ++ listens ++ listens ++ [CStart 0 true] ++ closer_reads ++ listens) in
  Forall (fun x => good_frame (fun _ => true) false (fst x)) fos /\ Forall (fun x => single plain 0 (fst x) (snd x)) fos /\ Forall2 wire (map fst fos) (map b_wire (map fst fos)) /\ calm evs /\
  w_conn (y_w s) = true /\ messages (seen (y_w s)) = [SMsg 1 0 (bs "one"); SMsg 2 0 (bs "three")].
Proof.
  intros fos evs s. repeat split.
  - repeat (apply Forall_cons || apply Forall_nil); (split; [split; [cbn; lia|split; [exists 0; cbn; lia|split; [repeat constructor; cbn; lia|exact Logic.I]]]|split; [reflexivity|split; [vm_compute; reflexivity|reflexivity]]]).
  - assert (T : forall op d, op = 1 \/ op = 2 -> (op = 1 -> utf8_text d) -> single plain 0 (b_frame true op d) [SMsg op 0 d]).
    { intros op d O U. apply sg_message; [reflexivity|exact O|]. exists (d ++ []). rewrite app_nil_r. split; [cbn; unfold plain, group_data; cbn; now rewrite app_nil_r|]. split; [now left|]. split; [exact U|reflexivity]. }
    apply Forall_cons; [apply T; [now left|]|apply Forall_cons; [apply sg_ping; [reflexivity|reflexivity|vm_compute; discriminate]|apply Forall_cons; [apply T; [now right|discriminate]|apply Forall_cons; [apply T; [now right|discriminate]|apply Forall_nil]]]].
    intros _. apply utf8_valid_spec; [repeat constructor; cbn; lia|reflexivity].
  - repeat constructor.
  - repeat constructor; discriminate.
Qed.

(** ** what fails *)
(** The thread that closes reads frames, whatever they are (u_websocket.c:1513), and drops them. When the other end sends a message in fragments meanwhile, the closing thread can take a fragment in the middle: the program is told a
    message that was never sent ("heo" for "hello"), while the websocket is open. *)
Theorem C118_hole_refuted : exists fs acts, complete fs /\ group_data fs = bs "hello" /\
  let s := b_run false (ybegin 1 [RData (concat (map b_wire fs))]) acts in w_conn (y_w s) = true /\ messages (seen (y_w s)) = [SMsg 1 0 (bs "heo")].
Proof.
  exists [b_frame false 1 (bs "he"); b_frame false 0 (bs "ll"); b_frame true 0 (bs "o")], (listens ++ [CStart 0 true] ++ closer_reads ++ listens).
  split; [|split; [reflexivity|split; vm_compute; reflexivity]]. apply (co_last [b_frame false 1 (bs "he"); b_frame false 0 (bs "ll")]); [|reflexivity|reflexivity]. apply (st_more [b_frame false 1 (bs "he")]); [|reflexivity|reflexivity].
  apply st_first; [now left|reflexivity].
Qed.
(** A ping that the closing thread reads is dropped (u_websocket.c:1513-1533): it is never answered, although the websocket is open. *)
Theorem C118_ping_refuted : exists acts, let s := b_run false (ybegin 1 [RData (b_wire (b_frame true 9 (bs "x"))); RIdle]) acts in
  w_conn (y_w s) = true /\ stream (w_in (y_w s)) = [] /\ pongs (seen (y_w s)) = [].
Proof. exists ([CStart 0 true] ++ closer_reads ++ listens). vm_compute. auto. Qed.
(** The listening thread goes on reading while another thread closes. When it reads the answer to the close message it takes it for a request to close and sends a close message in turn (u_websocket.c:684-692): the other end gets
    two, the second when it has ended the connection. *)
Theorem C118_twice_refuted : exists acts, let s := b_run false (ybegin 1 [RData (b_wire (b_frame true 8 []))]) acts in seen (y_w s) = [SSend 8 []; SSend 8 []].
Proof. exists ([CStart 0 true] ++ listens). vm_compute. reflexivity. Qed.
(** connected stays 1 while the closing thread waits for the answer (u_websocket.c:1509-1539): other threads go on sending messages after the close message, which RFC 6455 (5.5.1) forbids; they are told U_OK. *)
Theorem C118_after_refuted : exists acts, let s := b_run false (ybegin 1 [RIdle]) acts in seen (y_w s) = [SSend 8 []; SSend 1 (bs "late")].
Proof. exists [CStart 0 true; PSend 1 (bs "late")]. vm_compute. reflexivity. Qed.
(** Both threads call poll with the same struct pollfd of the manager (u_websocket.c:104, 108) without a lock: the answer of one is overwritten by the other while it is read. *)
Theorem C118_poll_refuted : exists acts, let s := b_run false (ybegin 1 [RIdle]) acts in y_l s = LPolling /\ y_c s = [CPolling 10].
Proof. exists [CStart 0 true; LPoll; CPoll 0]. vm_compute. auto. Qed.
(** A closing call waits for 11 answers of poll (WEBSOCKET_MAX_CLOSE_TRY), but not when it reads: when both threads have seen the same data and the listening thread reads it, the closing thread waits in
    ulfius_read_incoming_message as long as nothing comes (u_websocket.c:140-157), for ever if the other end keeps the connection and says nothing. *)
Theorem C118_wait_refuted : forall n, exists acts, let s := b_run false (ybegin 1 (RData (b_wire (b_frame true 1 (bs "x"))) :: repeat RIdle n)) acts in
  w_in (y_w s) = repeat RIdle n /\ y_c s = [CReading 10] /\ w_conn (y_w s) = true /\ w_in (y_w (ystep (fun _ => true) false plain 0 false s (CRead 0))) = [].
Proof.
  intros n. exists ([CStart 0 true; CPoll 0; CPolled 0] ++ listens). cbv zeta.
  assert (E : b_run false (ybegin 1 (RData (b_wire (b_frame true 1 (bs "x"))) :: repeat RIdle n)) ([CStart 0 true; CPoll 0; CPolled 0] ++ listens) =
    mk_yst (mk_wst None true true (repeat RIdle n) [Send 8 []; Deliver (message_of (b_frame true 1 (bs "x")))] PLoop) LTop [CReading 10] [(Listener, message_of (b_frame true 1 (bs "x")))]).
  { vm_compute. reflexivity. }
  rewrite E. cbn [y_w y_c w_in w_conn]. split; [reflexivity|]. split; [reflexivity|]. split; [reflexivity|].
  assert (RD : forall acc, read_data (repeat RIdle n) true 2 acc = (Some acc, [], false)) by (clear; induction n as [|n IH]; intros acc; [reflexivity|]; cbn [repeat read_data]; apply IH).
  cbn [ystep y_c nth_error y_w w_in w_conn]. unfold read_message, read_header. rewrite RD. reflexivity.
Qed.
(** When connected becomes 0 while a thread is in the middle of a frame (another closing call has ended), it stops reading there (u_websocket.c:157). A listening thread that has already seen data then reads what follows in the
    frame as if it were a frame: the program is told a message that is a piece of the data of another. *)
Theorem C118_torn_refuted : exists f w1 w2 acts, b_wire f = w1 ++ w2 /\ f_fin f = true /\ f_payload f = [0; 0; 130; 1; 65] /\
  let s := b_run false (ybegin 1 [RData w1; RGone; RData w2]) acts in messages (seen (y_w s)) = [SMsg 2 0 (bs "A")].
Proof. exists (b_frame true 2 [0; 0; 130; 1; 65]), [130; 5; 0; 0], [130; 1; 65], [CStart 0 true; CPoll 0; CPolled 0; LPoll; LPolled; CRead 0; LRead; LHandle]. vm_compute. auto. Qed.
(** With keep_messages, what the closing thread reads is put into the list of incoming messages as it was read (u_websocket.c:1523): a fragment stands there as a message of its own. *)
Theorem C118_kept_refuted : exists fs acts m, complete fs /\ group_data fs = bs "hi" /\ let s := b_run true (ybegin 1 [RData (concat (map b_wire fs))]) acts in In (Keep m) (w_out (y_w s)) /\ m_data m = bs "h".
Proof.
  exists [b_frame false 1 (bs "h"); b_frame true 0 (bs "i")], ([CStart 0 true] ++ closer_reads), (message_of (b_frame false 1 (bs "h"))). split; [|split; [reflexivity|split; [vm_compute; auto|reflexivity]]].
  apply (co_last [b_frame false 1 (bs "h")]); [|reflexivity|reflexivity]. apply st_first; [now left|reflexivity].
Qed.

Print Assumptions C118_frames.
Print Assumptions C118_messages_partial.
Print Assumptions C118_taken.
Print Assumptions C118_closed.
Print Assumptions C118_hole_refuted.
Print Assumptions C118_ping_refuted.
Print Assumptions C118_twice_refuted.
Print Assumptions C118_after_refuted.
Print Assumptions C118_poll_refuted.
Print Assumptions C118_wait_refuted.
Print Assumptions C118_torn_refuted.
Print Assumptions C118_kept_refuted.
