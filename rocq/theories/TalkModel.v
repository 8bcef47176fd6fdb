(** Model of the functions a program sends websocket messages with: /repo/src/u_websocket.c:1493-1588 ulfius_websocket_send_fragmented_message, 1594-1599
    ulfius_websocket_send_message, 1605-1631 the JSON messages. The extensions are in ExtModel, the sending of the frames in WsSendModel; what follows a close message is in
    WsRecvModel (close_wait). *)
From Coq Require Import ZArith Bool List.
From Verif Require Import Base WsFrameModel WsSendModel ExtModel TokenModel.
Import ListNotations.
Open Scope Z_scope.

Section Talk.
Variable C : Type.
Variable out_perform : Z -> C -> Z -> list Z -> Z -> Z -> option (list Z) * C.
Variable alloc_ok : Z -> bool.
(** websocket_manager->type == U_WEBSOCKET_SERVER; a client masks what it sends *)
Variable server : bool.

(** what happens during one call: the schedule of the socket, whether the lock is taken, and the four bytes of gnutls_rnd (None: it fails) *)
Record chance := mk_chance { c_evs : list wev; c_locked : bool; c_key : option (list Z) }.
(** 346-348: the message, NULL when it cannot be built *)
Definition built (opcode rsv : Z) (key : option (list Z)) (data : list Z) : option wmsg :=
  if server then build_message opcode rsv false [] data
  else match key with Some k => build_message opcode rsv true k data | None => None end.
(** 1493-1588 with an opcode other than CLOSE: the result, the pieces of each frame that went out, connected, the extensions afterwards *)
Definition send_fragmented (ch : chance) (conn ping_sent : bool) (l : list (ext C)) (opcode fragment : Z) (data : list Z) : outcome (Z * list (list buf) * bool * list (ext C)) :=
  if conn then
    if (opcode =? OP_PING) && ping_sent then Ret (U_OK, [], conn, l)
    else
      let '(ret, rsv, d, l) := out_message C out_perform alloc_ok opcode fragment l data in
      if ret =? U_OK then
        do r <- send_managed server alloc_ok (c_locked ch) (c_evs ch) conn (built opcode rsv (c_key ch) d) fragment;
        let '(ret, css, _, conn, _) := r in Ret (ret, css, conn, l)
      else Ret (ret, [], conn, l)
  else Ret (U_ERROR_PARAMS, [], conn, l).
(** 1594-1599 *)
Definition send_message (ch : chance) (conn ping_sent : bool) (l : list (ext C)) (opcode : Z) (data : list Z) := send_fragmented ch conn ping_sent l opcode 0 data.
(** 1605-1619, the manager not NULL. json_dumps may give NULL: o_strlen(NULL) is 0 and the message has no data. [dumps]: json_dumps(j, JSON_COMPACT) *)
Definition send_json (dumps : json -> option (list Z)) (ch : chance) (conn ping_sent : bool) (l : list (ext C)) (j : option json) : outcome (Z * list (list buf) * bool * list (ext C)) :=
  match j with
  | None => Ret (U_ERROR_PARAMS, [], conn, l)
  | Some j => send_message ch conn ping_sent l OP_TEXT (match dumps j with Some t => t | None => [] end)
  end.
(** a program that sends messages one after the other; ping_sent is never set in the library (it is cleared at 709 and 1764 only) *)
Fixpoint send_all (conn : bool) (l : list (ext C)) (ms : list (chance * Z * list Z)) : outcome (list Z * list buf) :=
  match ms with
  | [] => Ret ([], [])
  | (ch, opcode, data) :: r =>
      do x <- send_message ch conn false l opcode data;
      let '(ret, css, conn, l) := x in
      do y <- send_all conn l r;
      Ret (ret :: fst y, concat css ++ snd y)
  end.
Fixpoint send_all_json (dumps : json -> option (list Z)) (conn : bool) (l : list (ext C)) (ms : list (chance * json)) : outcome (list Z * list buf) :=
  match ms with
  | [] => Ret ([], [])
  | (ch, j) :: r =>
      do x <- send_json dumps ch conn false l (Some j);
      let '(ret, css, conn, l) := x in
      do y <- send_all_json dumps conn l r;
      Ret (ret :: fst y, concat css ++ snd y)
  end.
End Talk.

(** 1625-1631: message, NULL or not; [loadb]: json_loadb(data, data_len, JSON_DECODE_ANY) *)
Definition parse_json (loadb : list Z -> option json) (m : option wmsg) : option json :=
  match m with
  | Some m => if ((m_opcode m =? OP_TEXT) || (m_opcode m =? OP_BINARY)) && negb (zlen (m_data m) =? 0) then loadb (m_data m) else None
  | None => None
  end.
