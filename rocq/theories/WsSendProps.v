(** C39, C40, C58: sending on a websocket, the lists of kept messages. *)
From Coq Require Import String ZArith Bool List Lia.
From Verif Require Import Base BaseFacts WsFrameModel WsSpec WsFrameProofs WsProps WsSendModel WsSendSpec WsSendProofs.
Import ListNotations.
Open Scope Z_scope.

(** C39. The full statement: U_OK implies that concat of the pieces is the frame, for every frame. It is false (below). What
    holds for every schedule: for each frame a beginning of it is sent, in order, and U_OK means that
    every frame was tried. *)
Theorem C39_beginnings_partial : forall server alloc_ok evs conn m fragment frames m2,
  message_frames m fragment = Ret (frames, m2) ->
  exists ret css evs' conn' m', send_managed server alloc_ok true evs conn (Some m) fragment = Ret (ret, css, evs', conn', Some m') /\
  exists done undone, frames = done ++ undone /\ Forall2 beginning css done /\
    (0 < zlen (m_data m) -> (undone = [] <-> ret = U_OK)) /\ (undone = [] -> m' = m2).
Proof.
  intros server alloc_ok evs conn m fragment frames m2 MF. unfold send_managed, message_frames in *.
  destruct (zlen (m_data m) =? 0) eqn:Z0.
  - apply Z.eqb_eq in Z0. destruct (build_frame m 0 0) as [f|]; [|discriminate]. cbn [bind] in MF |- *. injection MF as <- <-.
    destruct (alloc_ok (zlen f)).
    + destruct (send_frame server evs conn f) as [[cs e1] c1] eqn:SF. do 5 eexists. split; [reflexivity|].
      exists [f], []. split; [reflexivity|]. split; [constructor; [eapply send_frame_beginning; eauto|constructor]|]. split; [lia|auto].
    + do 5 eexists. split; [reflexivity|]. exists [], [f]. split; [reflexivity|]. split; [constructor|]. split; [lia|discriminate].
  - destruct (send_loop_ok server alloc_ok _ evs conn _ _ _ _ _ MF) as (ret & css & e1 & c1 & m' & E & done & undone & D1 & D2 & D3 & D4).
    rewrite E. cbn [bind]. do 5 eexists. split; [reflexivity|]. exists done, undone. split; [exact D1|]. split; [exact D2|].
    split; [|intros U; now apply D3]. intros _. split; [intros U; now apply D3|].
    intros ->. destruct undone; auto. discriminate D4. discriminate.
Qed.

(** when the socket keeps accepting bytes, everything is sent *)
Theorem C39_complete_when_willing : forall server alloc_ok evs conn m fragment frames m2, (forall n, alloc_ok n = true) ->
  message_frames m fragment = Ret (frames, m2) -> Forall willing evs -> (length (concat frames) <= length evs)%nat ->
  exists css evs', send_managed server alloc_ok true evs conn (Some m) fragment = Ret (U_OK, css, evs', conn, Some m2) /\ map (@concat _) css = frames.
Proof.
  intros server alloc_ok evs conn m fragment frames m2 AL MF W L. unfold send_managed, message_frames in *.
  destruct (zlen (m_data m) =? 0) eqn:Z0.
  - destruct (build_frame m 0 0) as [f|]; [|discriminate]. cbn [bind] in MF |- *. injection MF as <- <-. rewrite AL.
    cbn [concat] in L. rewrite app_nil_r in L.
    destruct (send_frame_all server evs conn f W L) as (cs & used & e1 & SF & C & _). rewrite SF. do 2 eexists. split; [reflexivity|].
    cbn [map]. f_equal. exact C.
  - destruct (send_loop_all server alloc_ok AL _ evs conn _ _ _ _ _ MF W L) as (css & e1 & E & M).
    rewrite E. cbn [bind]. do 2 eexists. split; [reflexivity|exact M].
Qed.

(** a server connection that is not writable within the time limit: nothing is sent, U_OK is returned. Every
    message that is sent as one frame. *)
Theorem C39_silent_truncation_refuted : forall alloc_ok ret conn rest m frame m2, (forall n, alloc_ok n = true) -> frame <> [] ->
  message_frames m 0 = Ret ([frame], m2) ->
  exists m', send_managed true alloc_ok true (mk_wev WIdle ret :: rest) conn (Some m) 0 = Ret (U_OK, [[]], rest, conn, Some m').
Proof.
  intros alloc_ok ret conn rest m frame m2 AL NE MF. unfold send_managed, message_frames in *.
  assert (SF : send_frame true (mk_wev WIdle ret :: rest) conn frame = ([], rest, conn)) by (destruct frame; [congruence|reflexivity]).
  destruct (zlen (m_data m) =? 0) eqn:Z0.
  - destruct (build_frame m 0 0) as [f|]; [|discriminate]. cbn [bind] in MF |- *. injection MF as -> <-. rewrite AL, SF. eauto.
  - destruct (length (m_data m)) as [|n] eqn:LN; [discriminate|]. cbn [frames_loop send_loop] in *.
    destruct (0 <? zlen (m_data m)); [|discriminate]. cbv zeta in *. set (cur := if 0 =? 0 then _ else _) in *.
    destruct (build_frame m 0 cur) as [f|]; [|discriminate]. cbn [bind] in MF |- *.
    destruct (frames_loop n (set_opcode m OP_CONTINUE) 0 (0 + cur)) as [[fr m3]|] eqn:FL; [|discriminate].
    cbn [bind fst snd] in MF. injection MF as -> -> <-. rewrite AL, SF.
    destruct (send_loop_ok true alloc_ok _ rest conn _ _ _ _ _ FL) as (r & css & e1 & c1 & m' & E & done & undone & D1 & D2 & D3 & D4).
    destruct done; [|discriminate]. cbn in D1. subst undone. destruct (D3 eq_refl) as [-> ->]. inversion D2. subst css.
    assert (X : e1 = rest /\ c1 = conn).
    { clear -E AL. destruct n; cbn [send_loop] in E; [injection E; auto|].
      destruct (0 + cur <? zlen (m_data (set_opcode m OP_CONTINUE))); [|injection E; auto]. cbv zeta in E.
      destruct (build_frame _ _ _) as [g|]; [|discriminate]. cbn [bind] in E. rewrite AL in E.
      destruct (send_frame _ _ _ _) as [[? ?] ?]. destruct (send_loop _ _ _ _ _ _ _ _) as [[[[[? ?] ?] ?] ?]|]; discriminate. }
    destruct X as [-> ->]. rewrite E. cbn [bind]. eauto.
Qed.

(** the failing lock and the failing allocation for an empty message are not reported either *)
Theorem C39_unreported_failures_refuted : forall server alloc_ok evs conn msg fragment m, zlen (m_data m) = 0 -> alloc_ok 2 = false -> m_has_mask m = false ->
  send_managed server alloc_ok false evs conn msg fragment = Ret (U_OK, [], evs, conn, None) /\
  send_managed server alloc_ok true evs conn (Some m) fragment = Ret (U_OK, [], evs, conn, Some m).
Proof.
  intros server alloc_ok evs conn msg fragment m Z0 A M. split; [reflexivity|]. unfold send_managed. rewrite Z0. cbn [Z.eqb].
  pose proof (build_frame_ok m 0 0 true 0 ltac:(intros X; congruence) ltac:(lia) ltac:(lia) ltac:(lia) ltac:(rewrite Z0; reflexivity) ltac:(rewrite Z0; reflexivity) eq_refl ltac:(congruence)) as B.
  cbv zeta in B. rewrite B. cbn [bind]. clear B.
  assert (L : zlen (block_of (frame_header m (zlen (m_data m)) 0 0 true ++ (if m_has_mask m then mask_from (m_mask m) 0 (zfirstn 0 (zskipn 0 (m_data m))) else zfirstn 0 (zskipn 0 (m_data m)))) ++
      malloc (header_room m - zlen (frame_header m (zlen (m_data m)) 0 0 true))) = 2).
  { rewrite zlen_app, zlen_block, zlen_app, zfirstn_0. rewrite zlen_header by (intros X; congruence). unfold header_room. rewrite Z0, M. reflexivity. }
  rewrite Z0 in L |- *. rewrite L, A. reflexivity.
Qed.

(** a frame cut short is followed by the next one: the peer takes the beginning of the second frame for the
    end of the first *)
Example C39_corrupted_stream_refuted :
  let m := mk_wmsg OP_BINARY 0 false false [] [1; 2; 3; 4; 5; 6] 0 in
  exists m', send_managed true (fun _ => true) true [mk_wev WReady (Some 3); mk_wev WIdle None; mk_wev WReady (Some 5)] true (Some m) 3 =
    Ret (U_OK, [[block_of [0; 3; 1]]; [block_of [128; 3; 4; 5; 6]]], [], true, Some m').
Proof. cbv zeta. eexists. vm_compute. reflexivity. Qed.

Example C39_example :
  let m := mk_wmsg OP_BINARY 0 false false [] [1; 2; 3] 0 in
  exists m', send_managed true (fun _ => true) true (repeat (mk_wev WReady (Some 2)) 5) true (Some m) 0 =
    Ret (U_OK, [[block_of [130; 3]; block_of [1; 2]; block_of [3]]], repeat (mk_wev WReady (Some 2)) 2, true, Some m').
Proof. cbv zeta. eexists. vm_compute. reflexivity. Qed.

(** frames of one connection are never interleaved: any number of threads, any pieces, any schedule. The bytes on the
    connection are, message after message in the order in which the lock was taken, beginnings of
    the frames of the message. *)
Theorem C39_never_interleaved : forall w, ssteps nobody w -> contiguous (log w).
Proof.
  intros w H. destruct (sound_blocks w (sound_steps _ _ H sound_nobody)) as (ND & parts & -> & F2).
  eapply blocks_contiguous; eauto.
Qed.

Theorem C39_messages_in_order : forall w, ssteps nobody w -> NoDup (map fst (started w)) /\
  exists parts, log w = concat parts /\
    Forall2 (fun o p => exists css done undone, snd o = done ++ undone /\ Forall2 beginning css done /\ p = map (fun c => (fst o, c)) (concat css)) (started w) parts.
Proof.
  intros w H. destruct (sound_blocks w (sound_steps _ _ H sound_nobody)) as (ND & parts & L & F2). split; [exact ND|].
  exists parts. split; [exact L|]. clear L ND H. induction F2 as [|o p os ps (cs & rest & P & PI) F2 IH]; constructor; auto.
  destruct (pieces_beginning _ _ _ PI) as (done & part & tail & E & (css & F & C) & T). destruct tail as [|f more].
  - destruct T as [_ ->]. rewrite app_nil_r in C. exists css, done, []. split; [exact E|]. split; [exact F|]. rewrite P, C. reflexivity.
  - destruct T as (g & _ & T). exists (css ++ [part]), (done ++ [f]), more. split; [rewrite <- app_assoc; exact E|].
    split; [apply Forall2_app; [exact F|]; constructor; [exists g; exact T|constructor]|].
    rewrite concat_app. cbn [concat]. rewrite app_nil_r, P, C. reflexivity.
Qed.

(** two threads, the second waiting for the first *)
Example C39_threads_example : exists w, ssteps nobody w /\
  log w = [((0, 0)%nat, block_of [129]); ((0, 0)%nat, block_of [1; 65]); ((7, 0)%nat, block_of [137; 0])].
Proof.
  eexists. split.
  - eapply ss_more. eapply ss_more. eapply ss_more. eapply ss_more. eapply ss_more. eapply ss_more. eapply ss_more. apply ss_refl.
    + apply (ss_lock nobody 0 0 [block_of [129; 1; 65]]); reflexivity.
    + eapply (ss_piece _ 0 0 _ _ 1). reflexivity.
    + eapply (ss_piece _ 0 0 _ _ 2). reflexivity.
    + eapply (ss_next _ 0 0). reflexivity.
    + eapply (ss_unlock _ 0 0). reflexivity.
    + apply (ss_lock _ 7 0 [block_of [137; 0]]); reflexivity.
    + eapply (ss_piece _ 7 0 _ _ 2). reflexivity.
  - reflexivity.
Qed.

(** C40. The full statement: whatever the interleaving of pushes and pops, the list is a queue. It holds when the calls do not
    overlap and allocations succeed... *)
Theorem C40_fifo_partial : forall ops, exists l, lrun init_mlist ops = Ret (fst (queue [] ops), l) /\ ml_len l = length (snd (queue [] ops)).
Proof.
  intros ops. destruct (lrun_ok ops init_mlist []) as (l & E & H); [split; [reflexivity|exact I]|]. exists l. split; [exact E|apply H].
Qed.

Example C40_example : exists l, lrun init_mlist [LPush 11; LPush 22; LPop; LPush 33; LPop; LPop; LPop; LPush 44] =
  Ret ([Some 11; Some 22; Some 33; None], l) /\ ml_len l = 1%nat.
Proof. eexists. split; reflexivity. Qed.

(** ... and is false when the library's thread stores a message while the program takes one: there is no lock. One
    message in the list, both calls finish, and the next pop returns a pointer that was never
    written. *)
Theorem C40_race_refuted : exists sch s, race_run 22 (mk_race (mk_mlist 1 (Some [Some 11])) 0 0 None) sch = Ret s /\
  r_pop s = 4%nat /\ r_push s = 3%nat /\ r_got s = Some 11 /\ pop true (r_list s) = UB Uninit.
Proof. exists [true; true; true; false; false; false; true]. eexists. split; [reflexivity|]. repeat split. Qed.

(** a failed allocation loses the stored messages and leaves a list that must not be used *)
Theorem C40_out_of_memory_refuted : forall l m, (0 < ml_len l)%nat ->
  push false l m = Ret (U_ERROR_MEMORY, mk_mlist (ml_len l) None) /\ pop true (mk_mlist (ml_len l) None) = UB NullDeref.
Proof. intros l m H. split; [reflexivity|]. unfold pop, pop1. cbn [ml_len ml_list]. destruct (ml_len l); [lia|reflexivity]. Qed.

(** clearing a list does not reset its length: a message stored afterwards is behind slots never written *)
Theorem C40_clear_refuted : exists l l1 l2 l3, push true init_mlist 11 = Ret (U_OK, l) /\ clear_list l = Ret l1 /\
  push true l1 22 = Ret (U_OK, l2) /\ l3 = l2 /\ pop true l3 = UB Uninit.
Proof. do 4 eexists. split; [reflexivity|]. split; [reflexivity|]. split; [reflexivity|]. split; reflexivity. Qed.

(** C58. The message kept in the list of outgoing messages is the message sent. It holds for messages without data... *)
Theorem C58_kept_partial : forall server alloc_ok evs conn m fragment, outgoing m -> zlen (m_data m) = 0 ->
  exists ret css evs' conn', send_managed server alloc_ok true evs conn (Some m) fragment = Ret (ret, css, evs', conn', Some m).
Proof.
  intros server alloc_ok evs conn m fragment OG Z0. pose proof (outgoing_mask m OG) as M. unfold send_managed. rewrite Z0. cbn [Z.eqb].
  rewrite (build_frame_ok m 0 0 true 0 M); try lia; try (rewrite Z0; reflexivity); auto.
  cbn [bind]. destruct (alloc_ok _).
  - destruct (send_frame _ _ _ _) as [[? ?] ?]. eauto.
  - eauto.
Qed.

Lemma loop_opcode : forall server alloc_ok fuel evs conn m fragment off ret css evs' conn' m',
  send_loop server alloc_ok fuel evs conn m fragment off = Ret (ret, css, evs', conn', m') ->
  css <> [] -> m_opcode m' = OP_CONTINUE.
Proof.
  intros server alloc_ok. induction fuel as [|fuel IH]; intros evs conn m fragment off ret css evs' conn' m' H N; cbn [send_loop] in H.
  - injection H as <- <- <- <- <-. congruence.
  - destruct (off <? zlen (m_data m)); [|injection H as <- <- <- <- <-; congruence]. cbv zeta in H.
    set (cur := if fragment =? 0 then _ else _) in *. destruct (build_frame m off cur) as [f|]; [|discriminate]. cbn [bind] in H.
    destruct (alloc_ok (zlen f)); [|injection H as <- <- <- <- <-; congruence].
    destruct (send_frame server evs conn f) as [[cs e1] c1].
    destruct (send_loop server alloc_ok fuel e1 c1 (set_opcode m OP_CONTINUE) fragment (off + cur)) as [[[[[r2 css2] e2] c2] m2]|] eqn:E; [|discriminate].
    cbn [bind] in H. injection H as <- <- <- <- <-. destruct css2 as [|x css2]; [|eapply IH; eauto; discriminate].
    clear IH N. destruct fuel as [|fuel]; cbn [send_loop] in E; [injection E as <- <- <- <- ; reflexivity|].
    destruct (off + cur <? zlen (m_data (set_opcode m OP_CONTINUE))); [|injection E as <- <- <- <- ; reflexivity]. cbv zeta in E.
    destruct (build_frame _ _ _) as [g|]; [|discriminate]. cbn [bind] in E.
    destruct (alloc_ok (zlen g)); [|injection E as <- <- <- <- ; reflexivity].
    destruct (send_frame server e1 c1 g) as [[? ?] ?]. destruct (send_loop _ _ _ _ _ _ _ _) as [[[[[? ?] ?] ?] ?]|]; discriminate.
Qed.

(** ... and is false for every message with data: it is kept with the opcode of a continuation frame *)
Theorem C58_opcode_lost_refuted : forall server alloc_ok evs conn m fragment frames m2, (forall n, alloc_ok n = true) ->
  message_frames m fragment = Ret (frames, m2) -> 0 < zlen (m_data m) ->
  exists ret css evs' conn' m', send_managed server alloc_ok true evs conn (Some m) fragment = Ret (ret, css, evs', conn', Some m') /\
    m_opcode m' = OP_CONTINUE.
Proof.
  intros server alloc_ok evs conn m fragment frames m2 AL MF P. unfold send_managed, message_frames in *.
  replace (zlen (m_data m) =? 0) with false in * by (symmetry; apply Z.eqb_neq; lia).
  destruct (send_loop_ok server alloc_ok _ evs conn _ _ _ _ _ MF) as (ret & css & e1 & c1 & m' & E & done & undone & D1 & D2 & D3 & D4).
  rewrite E. cbn [bind]. do 5 eexists. split; [reflexivity|]. eapply loop_opcode; [exact E|]. intros ->.
  destruct (length (m_data m)) as [|n] eqn:LN; [unfold zlen in P; lia|]. cbn [send_loop] in E.
  replace (0 <? zlen (m_data m)) with true in E by (symmetry; apply Z.ltb_lt; lia). cbv zeta in E.
  destruct (build_frame _ _ _) as [g|]; [|discriminate]. cbn [bind] in E. rewrite AL in E.
  destruct (send_frame _ _ _ _) as [[? ?] ?]. destruct (send_loop _ _ _ _ _ _ _ _) as [[[[[? ?] ?] ?] ?]|]; discriminate.
Qed.

Print Assumptions C39_beginnings_partial.
Print Assumptions C39_complete_when_willing.
Print Assumptions C39_silent_truncation_refuted.
Print Assumptions C39_unreported_failures_refuted.
Print Assumptions C39_corrupted_stream_refuted.
Print Assumptions C39_never_interleaved.
Print Assumptions C39_messages_in_order.
Print Assumptions C40_fifo_partial.
Print Assumptions C40_race_refuted.
Print Assumptions C40_out_of_memory_refuted.
Print Assumptions C40_clear_refuted.
Print Assumptions C58_kept_partial.
Print Assumptions C58_opcode_lost_refuted.
