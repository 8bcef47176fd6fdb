(** What the program may expect of a websocket that it closes while it listens (C118). *)
From Coq Require Import ZArith Bool List.
From Verif Require Import Base Utf8Spec WsFrameModel WsRecvModel WsSpec WsFrameProofs WsRecvSpec.
From Verif Require Import ByeModel.
Import ListNotations.
Open Scope Z_scope.

Section S.
Variable ext_in : Z -> Z -> list Z -> option (list Z).
Variable rsv_expected : Z.
(** a frame that is a whole message, or a ping or pong *)
Inductive single (f : frame) : list sitem -> Prop :=
| sg_message : forall o, f_fin f = true -> f_op f = 1 \/ f_op f = 2 -> accepted ext_in rsv_expected [f] o -> single f [o]
| sg_ping : f_fin f = true -> f_op f = 9 -> zlen (f_payload f) <= 125 -> single f []
| sg_pong : f_fin f = true -> f_op f = 10 -> single f [].
End S.

(** the readers of the frames that were taken, in the order of the frames *)
Definition is_listener (r : reader) : bool := match r with Listener => true | _ => false end.
Definition by_closer (c : nat) (r : reader) : bool := match r with Closer d => Nat.eqb c d | Listener => false end.
Definition count_closer (c : nat) (s : yst) : nat := length (filter (fun x => by_closer c (fst x)) (y_log s)).
(** what the listening thread has read *)
Definition heard (s : yst) : list wmsg := map snd (filter (fun x => is_listener (fst x)) (y_log s)).
(** the message it has read and not handled yet *)
Definition in_hand (s : yst) : list wmsg := match y_l s with LHandling m => [m] | _ => [] end.
