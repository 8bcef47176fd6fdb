(** Model of a websocket that is closed by the program while its thread listens (src/u_websocket.c:1507-1542 with 674-804). Threads of the program call ulfius_websocket_send_message with U_WEBSOCKET_OPCODE_CLOSE, as in
    a manager callback; each of them reads messages itself until the answer of the other end comes. A message is read whole under read_lock (444-559), so that reading is one step; asking whether there is data is
    not. The socket is [w_in] of WsRecvModel: an event RGone stands for connected set to 0 by the poll of the reader or by another thread meanwhile. *)
From Coq Require Import ZArith Bool List.
From Verif Require Import Base WsFrameModel WsRecvModel.
Import ListNotations.
Open Scope Z_scope.

(** where the listening thread is: at the beginning of a turn of its loop, in poll, about to read, with a message it has read *)
Inductive lphase := LTop | LPolling | LReading | LHandling (m : wmsg).
(** where a call that closes is: not begun; before a turn, with n more turns allowed after it; in poll; about to read; returned *)
Inductive cphase := CIdle | CTop (n : nat) | CPolling (n : nat) | CReading (n : nat) | CDone.
Inductive reader := Listener | Closer (c : nat).
(** [y_log]: who read which message *)
Record yst := mk_yst { y_w : wst; y_l : lphase; y_c : list cphase; y_log : list (reader * wmsg) }.
Definition put_w (s : yst) (w : wst) : yst := mk_yst w (y_l s) (y_c s) (y_log s).
Definition put_l (s : yst) (l : lphase) : yst := mk_yst (y_w s) l (y_c s) (y_log s).
Fixpoint put_nth (l : list cphase) (c : nat) (p : cphase) : list cphase :=
  match l, c with [], _ => [] | _ :: r, O => p :: r | x :: r, S c => x :: put_nth r c p end.
Definition put_c (s : yst) (c : nat) (p : cphase) : yst := mk_yst (y_w s) (y_l s) (put_nth (y_c s) c p) (y_log s).
Definition log (s : yst) (r : reader) (m : wmsg) : yst := mk_yst (y_w s) (y_l s) (y_c s) (y_log s ++ [(r, m)]).

(** a step of a thread. [CStart c ok]: the call of thread c begins and sends the close message, [ok]: ulfius_send_websocket_message_managed returned U_OK. [PSend]: a thread of the program sends another message. *)
Inductive yact := LPoll | LPolled | LRead | LHandle | CStart (c : nat) (ok : bool) | CPoll (c : nat) | CPolled (c : nat) | CRead (c : nat) | PSend (opcode : Z) (data : list Z).

Section Bye.
Variable alloc_ok : Z -> bool.
Variable server : bool.
Variable ext_in : Z -> Z -> list Z -> option (list Z).
Variable rsv_expected : Z.
(** keep_messages & U_WEBSOCKET_KEEP_INCOMING *)
Variable keep : bool.

(** u_websocket.c:1535, 1539: the end of a turn; WEBSOCKET_MAX_CLOSE_TRY is 10 *)
Definition turn_ends (s : yst) (c n : nat) : yst :=
  match n with
  | S k => if w_conn (y_w s) then put_c s c (CTop k) else put_c s c CDone
  | O => put_c (put_w s (set_conn (y_w s) false)) c CDone
  end.

Definition ystep (s : yst) (a : yact) : yst :=
  let w := y_w s in
  match a with
  (** 674, 681 *)
  | LPoll => match y_l s with LTop => if w_conn w && w_ok w then put_l s LPolling else s | _ => s end
  | LPolled =>
      match y_l s with
      | LPolling => let '(a, evs, conn) := data_available (w_in w) (w_conn w) in put_l (put_w s (set_in w evs conn)) (if a then LReading else LTop)
      | _ => s
      end
  (** 683, 786-789 *)
  | LRead =>
      match y_l s with
      | LReading =>
          let '(r, m, evs, conn) := read_message alloc_ok server (w_in w) (w_conn w) in
          match m with
          | Some m => log (put_l (put_w s (set_in w evs conn)) (LHandling m)) Listener m
          | None => put_l (put_w s (set_in w evs false)) LTop
          end
      | _ => s
      end
  (** 684-784 *)
  | LHandle => match y_l s with LHandling m => put_l (put_w s (handle ext_in rsv_expected w m)) LTop | _ => s end
  (** 1507-1510, 1536-1539 *)
  | CStart c ok =>
      match nth_error (y_c s) c with
      | Some CIdle =>
          if w_conn w then (if ok then put_c (put_w s (emit w (Send OP_CLOSE []))) c (CTop 10) else put_c (put_w s (set_conn w false)) c CDone)
          else put_c s c CDone
      | _ => s
      end
  (** 1511 *)
  | CPoll c => match nth_error (y_c s) c with Some (CTop n) => put_c s c (CPolling n) | _ => s end
  | CPolled c =>
      match nth_error (y_c s) c with
      | Some (CPolling n) =>
          let '(a, evs, conn) := data_available (w_in w) (w_conn w) in
          let s := put_w s (set_in w evs conn) in
          if a then put_c s c (CReading n) else turn_ends s c n
      | _ => s
      end
  (** 1512-1533 *)
  | CRead c =>
      match nth_error (y_c s) c with
      | Some (CReading n) =>
          let '(r, m, evs, conn) := read_message alloc_ok server (w_in w) (w_conn w) in
          match m with
          | Some m =>
              let w := set_in w evs (if m_opcode m =? OP_CLOSE then false else conn) in
              turn_ends (log (put_w s (if keep then emit w (Keep m) else w)) (Closer c) m) c n
          | None => turn_ends (put_w s (set_in w evs false)) c n
          end
      | _ => s
      end
  (** 1506, 1540-1580 without the extensions (CrowdModel) *)
  | PSend op d => if w_conn w then put_w s (emit w (Send op d)) else s
  end.
Definition yrun (s : yst) (l : list yact) : yst := fold_left ystep l s.
(** [n] threads that may close the websocket *)
Definition ybegin (n : nat) (evs : list rd) : yst := mk_yst (start evs) LTop (repeat CIdle n) [].
End Bye.
