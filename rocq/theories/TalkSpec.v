(** What a conversation over a websocket should be. *)
From Coq Require Import ZArith Bool List.
From Verif Require Import Base Utf8Spec WsSpec WsRecvSpec WsSendModel WsSendSpec TalkModel.
Import ListNotations.
Open Scope Z_scope.

(** what the receiving side notices of a message: text and binary messages are delivered, pings are answered, pongs are dropped *)
Definition expected (opcode : Z) (data : list Z) : list sitem :=
  if opcode =? 9 then [SSend 10 data] else if opcode =? 10 then [] else [SMsg opcode 0 data].
(** messages that may be sent: text is UTF-8, control messages are short *)
Definition sendable (opcode : Z) (data : list Z) : Prop :=
  bytes data /\ zlen data < 4294967296 /\ (opcode = 1 /\ utf8_text data \/ opcode = 2 \/ (opcode = 9 \/ opcode = 10) /\ zlen data <= 125).
(** a fortunate call: the socket takes at least a byte each time it is asked, the lock is taken, a client gets a random key *)
Definition fortunate (server : bool) (ch : chance) (data : list Z) : Prop :=
  Forall willing (c_evs ch) /\ (length data + 14 <= length (c_evs ch))%nat /\ c_locked ch = true /\
  (server = false -> exists k, c_key ch = Some k /\ length k = 4%nat /\ bytes k).
(** a JSON value that can be sent: it can be printed, its text can be read again *)
Definition printable (dumps : TokenModel.json -> option (list Z)) (loadb : list Z -> option TokenModel.json) (j : TokenModel.json) (t : list Z) : Prop :=
  dumps j = Some t /\ t <> [] /\ loadb t = Some j /\ bytes t /\ utf8_text t /\ zlen t < 4294967296.
