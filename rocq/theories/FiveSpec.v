(** What should arrive of the messages of the websocket example. *)
From Coq Require Import String ZArith Bool List.
From Verif Require Import Base WsFrameModel WsSpec WsRecvModel WsRecvSpec WsProps.
Import ListNotations.
Open Scope Z_scope.

(** what the other side notices when no message is fragmented: the text, the ping which it answers, the binary message, the JSON text; each one whose turn came *)
Definition shown (who : str) (text : list Z) (turns : list bool) : list sitem :=
  List.concat (map (fun x => if fst x : bool then [snd x] else [])
    (combine turns [SMsg 1 0 (bs "Message without fragmentation from " ++ who); SSend 10 []; SMsg 2 0 (bs "Message without fragmentation from " ++ who); SMsg 1 0 text])).
(** the connection is over for the receiver: its loop has ended or ends, and nothing more is read *)
Definition over (s : wst) : Prop := w_phase s <> PLoop \/ w_conn s = false \/ w_ok s = false.
(** the bytes of a buffer, whatever the ones never written hold *)
Definition fits (b : buf) (w : list Z) : Prop := Forall2 (fun o x => o = Some x \/ o = None) b w.
