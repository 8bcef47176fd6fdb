(** Model of the thread that reads a websocket (src/u_websocket.c:660-817). *)
From Coq Require Import ZArith Bool List.
From Verif Require Import Base Utf8Model WsFrameModel.
Import ListNotations.
Open Scope Z_scope.

(** what the program sees of the thread: a message given to the incoming message callback, a control
    message handed to the sending functions, a message put in the list of incoming messages
    without having been given to the callback, the close callback *)
Inductive out := Deliver (m : wmsg) | Send (opcode : Z) (data : list Z) | Keep (m : wmsg) | OnClose.

Inductive phase := PLoop | PJoin | PEnd.

(** message_previous, connected, ret == U_OK, the socket, and what happened so far *)
Record wst := mk_wst { w_prev : option wmsg; w_conn : bool; w_ok : bool; w_in : list rd; w_out : list out; w_phase : phase }.

Definition emit (s : wst) (o : out) : wst := mk_wst (w_prev s) (w_conn s) (w_ok s) (w_in s) (w_out s ++ [o]) (w_phase s).
Definition set_conn (s : wst) (b : bool) : wst := mk_wst (w_prev s) b (w_ok s) (w_in s) (w_out s) (w_phase s).
Definition set_prev (s : wst) (p : option wmsg) : wst := mk_wst p (w_conn s) (w_ok s) (w_in s) (w_out s) (w_phase s).
Definition set_in (s : wst) (i : list rd) (c : bool) : wst := mk_wst (w_prev s) c (w_ok s) i (w_out s) (w_phase s).
Definition set_ok (s : wst) (b : bool) : wst := mk_wst (w_prev s) (w_conn s) b (w_in s) (w_out s) (w_phase s).
Definition set_phase (s : wst) (p : phase) : wst := mk_wst (w_prev s) (w_conn s) (w_ok s) (w_in s) (w_out s) p.

Section Recv.
Variable alloc_ok : Z -> bool.
(** websocket_manager->type == U_WEBSOCKET_SERVER *)
Variable server : bool.
(** ulfius_websocket_extension_message_in_perform_apply (u_websocket.c:589-652): opcode, rsv, data; None
    is a failure *)
Variable ext_in : Z -> Z -> list Z -> option (list Z).
(** websocket_manager->rsv_expected *)
Variable rsv_expected : Z.

Definition set_data (m : wmsg) (d : list Z) : wmsg :=
  mk_wmsg (m_opcode m) (m_rsv m) (m_fin m) (m_has_mask m) (m_mask m) d (m_fragment m).

(** u_websocket.c:727-759 a complete message *)
Definition complete_message (s : wst) (m : wmsg) : wst :=
  match ext_in (m_opcode m) (m_rsv m) (m_data m) with
  | Some d =>
      let m := set_data m d in
      if (m_rsv m =? 0) || negb (Z.land rsv_expected (m_rsv m) =? 0) then
        if negb (m_opcode m =? OP_TEXT) || (zlen d =? 0) || utf8_valid d then emit s (Deliver m)
        else set_conn s false
      else set_conn s false
  | None => set_conn s false
  end.

(** u_websocket.c:684-784 what is done with a message that was read *)
Definition handle (s : wst) (m : wmsg) : wst :=
  let op := m_opcode m in
  if (op =? OP_CLOSE) && m_fin m then
    set_conn (if zlen (m_data m) <=? 125 then emit s (Send OP_CLOSE []) else s) false
  else if (op =? OP_PING) && m_fin m then
    if zlen (m_data m) <=? 125 then emit s (Send OP_PONG (m_data m)) else set_conn s false
  else if (op =? OP_PONG) && m_fin m then s
  else if (op =? OP_TEXT) || (op =? OP_BINARY) || (op =? OP_CONTINUE) then
    match m_fin m, w_prev s with
    | true, None => if op =? OP_CONTINUE then set_conn s false else complete_message s m
    | true, Some p =>
        let '(r, p') := merge p m in
        if r =? U_OK then complete_message (set_prev s None) p' else set_ok s false
    | false, None => if op =? OP_CONTINUE then set_conn s false else set_prev s (Some m)
    | false, Some p =>
        let '(r, p') := merge p m in
        if r =? U_OK then set_prev s (Some p') else set_conn (set_prev s (Some p')) false
    end
  else set_conn s false.

(** u_websocket.c:1510-1534 after a close message was sent: at most 11 rounds waiting for the answer;
    what is read meanwhile goes into the list of incoming messages *)
Fixpoint close_wait (n : nat) (s : wst) : wst :=
  match n with
  | O => s
  | S n =>
      let '(a, evs, conn) := data_available (w_in s) (w_conn s) in
      let s := set_in s evs conn in
      let s := if a then
                 let '(r, m, evs, conn) := read_message alloc_ok server (w_in s) (w_conn s) in
                 let s := set_in s evs conn in
                 match m with
                 | Some m => set_conn (emit s (Keep m)) (if m_opcode m =? OP_CLOSE then false else w_conn s)
                 | None => set_conn s false
                 end
               else s in
      if w_conn s then close_wait n s else s
  end.

(** what the rest of the program does during a round: close_flag is set; the connection is lost while
    sending, or another thread sets connected to 0, at the end of the round; the manager callback has
    returned (or there is none) *)
Record inp := mk_inp { i_close : bool; i_gone : bool; i_mgr : bool }.

(** u_websocket.c:674-804 one round of the loop; afterwards waiting for the manager thread, then the
    close callback. connected is 0 for good when ulfius_close_websocket has run. *)
Definition step (s : wst) (i : inp) : wst :=
  match w_phase s with
  | PLoop =>
      if w_conn s && w_ok s then
        let s1 :=
          if i_close i then set_conn (close_wait 11 (emit s (Send OP_CLOSE []))) false
          else
            let '(a, evs, conn) := data_available (w_in s) (w_conn s) in
            let s := set_in s evs conn in
            if a then
              let '(r, m, evs, conn) := read_message alloc_ok server (w_in s) (w_conn s) in
              let s := set_in s evs conn in
              match m with Some m => handle s m | None => set_conn s false end
            else s in
        if i_gone i then set_conn s1 false else s1
      else set_phase s PJoin
  | PJoin => if i_mgr i then set_phase (set_conn (emit s OnClose) false) PEnd else if i_gone i then set_conn s false else s
  | PEnd => s
  end.

Definition start (evs : list rd) : wst := mk_wst None true true evs [] PLoop.
Definition run (s : wst) (is : list inp) : wst := fold_left step is s.
End Recv.
