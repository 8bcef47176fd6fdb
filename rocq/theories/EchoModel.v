(** The echo of the websocket example: /repo/example_programs/websocket_example/websocket_server.c:257-267 websocket_echo_message_callback, set by callback_websocket_echo (298-312), without extensions. *)
From Coq Require Import ZArith Bool List.
From Verif Require Import Base WsFrameModel WsRecvModel WsSendModel ExtModel TalkModel PropModel.
Import ListNotations.
Open Scope Z_scope.

(** what the server sends for what its receiving thread notices: the callback is called for each message delivered, in that thread, and sends it back with its opcode (264); a ping is answered by
    the library. ulfius_websocket_send_message is called for both. *)
Definition answered (o : out) : list (Z * list Z) :=
  match o with Deliver m => [(m_opcode m, m_data m)] | Send op d => [(op, d)] | Keep _ => [] | OnClose => [] end.
Definition replies (s : wst) : list (Z * list Z) := flat_map answered (w_out s).
(** the calls with what happens during each of them *)
Definition with_chances (chs : list chance) (l : list (Z * list Z)) : list (chance * Z * list Z) := map (fun x => (fst x, fst (snd x), snd (snd x))) (combine chs l).

(** 263: the arguments of y_log_message(.., "Incoming message, rsv: 0x%02x, opcode: 0x%02x, mask: %d, len: %zu, text payload '%.*s'", ..): rsv, opcode and has_mask are promoted to int,
    data_len is a size_t both times *)
Definition log_arguments (m : wmsg) : list varg :=
  [VInt (m_rsv m); VInt (m_opcode m); VInt (if m_has_mask m then 1 else 0); VLong (zlen (m_data m)); VLong (zlen (m_data m)); VPtr (PMem (block_of (m_data m)))].
(** 251: the line of websocket_incoming_message_callback for texts casts the precision to int *)
Definition log_arguments_cast (m : wmsg) : list varg := [VInt (zlen (m_data m)); VPtr (PMem (block_of (m_data m)))].
(** vsnprintf reads %02x as unsigned int, %d as int, %zu as size_t, the precision of %.*s as int and its text as a pointer (C 7.21.6.1) *)
Definition read_payload (l : list varg) : outcome (Z * ptr) := do n <- va_int l; do p <- va_ptr (snd n); Ret (fst n, fst p).
Definition read_log (l : list varg) : outcome (Z * ptr) :=
  do a <- va_uint l; do b <- va_uint (snd a); do c <- va_int (snd b); do d <- va_size (snd c); read_payload (snd d).
