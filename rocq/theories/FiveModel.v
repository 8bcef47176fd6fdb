(** Model of the manager callbacks of the websocket example: example_programs/websocket_example/websocket_server.c:167-219 and websocket_client.c:30-82 websocket_manager_callback.
    The calls that send are those of TalkModel. Simplifications: json_pack succeeds; what becomes of the log messages is not modelled. *)
From Coq Require Import String ZArith Bool List.
From Verif Require Import Base WsFrameModel WsSendModel ExtModel TokenModel TalkModel.
Import ListNotations.
Open Scope Z_scope.

(** include/ulfius.h:1514 U_WEBSOCKET_USER_AGENT *)
Definition AGENT : str := bs "Ulfius Websocket Client Framework".
(** websocket_server.c:187: o_strncmp of the header User-Agent; a missing header is NULL, and different. The client always sends the fragmented message (websocket_client.c:51-56) *)
Definition to_ulfius (agent : option str) : bool := match agent with Some a => str_eqb (firstn (length AGENT) a) AGENT | None => false end.

(** what is sent: with ulfius_websocket_send_message (fragment 0) or ulfius_websocket_send_fragmented_message; with ulfius_websocket_send_json_message *)
Inductive item := IMessage (opcode fragment : Z) (data : list Z) | IJson (j : json).
(** websocket_server.c:179-216, websocket_client.c:43-79; [who] is server or client *)
Definition callback (who : str) (fragmented : bool) : list item :=
  [IMessage OP_TEXT 0 (bs "Message without fragmentation from " ++ who)] ++
  (if fragmented then [IMessage OP_TEXT 5 (bs "Message with fragmentation from " ++ who)] else []) ++
  [IMessage OP_PING 0 [];
   IMessage OP_BINARY 0 (bs "Message without fragmentation from " ++ who);
   IJson (JObj [(bs "send", JStr (bs "JSON message without fragmentation"))])].

Section Five.
Variable C : Type.
Variable out_perform : Z -> C -> Z -> list Z -> Z -> Z -> option (list Z) * C.
Variable alloc_ok : Z -> bool.
(** websocket_manager->type == U_WEBSOCKET_SERVER *)
Variable server : bool.
(** json_dumps(j, JSON_COMPACT) *)
Variable dumps : json -> option (list Z).

Definition send_item (ch : chance) (conn : bool) (l : list (ext C)) (i : item) : outcome (Z * list (list buf) * bool * list (ext C)) :=
  match i with
  | IMessage opcode fragment data => send_fragmented C out_perform alloc_ok server ch conn false l opcode fragment data
  | IJson j => send_json C out_perform alloc_ok server dumps ch conn false l (Some j)
  end.
(** each item is sent when ulfius_websocket_wait_close(…, 2000) returns U_WEBSOCKET_STATUS_OPEN (u_websocket.c:2318-2340): when the time is over, which the first component of a turn says, and connected
    is set. A wait that ends early counts as closed, for this item only. The results of the calls and what went out. *)
Fixpoint manage (conn : bool) (l : list (ext C)) (items : list item) (turns : list (bool * chance)) : outcome (list Z * list buf) :=
  match items, turns with
  | i :: r, (over, ch) :: ts =>
      if over && conn then
        do x <- send_item ch conn l i;
        let '(ret, css, conn, l) := x in
        do y <- manage conn l r ts;
        Ret (ret :: fst y, concat css ++ snd y)
      else manage conn l r ts
  | _, _ => Ret ([], [])
  end.
End Five.
