(** A conversation through extensions. *)
From Coq Require Import ZArith Bool List.
From Verif Require Import Base Utf8Spec WsFrameModel WsRecvModel WsSpec WsRecvSpec ExtModel.
Import ListNotations.
Open Scope Z_scope.

(** what goes over the wire for messages sent one after the other: RSV bits and payload of each. The context of an extension goes from one message to the next. *)
Section Encoded.
Variable C : Type.
Variable out_perform : Z -> C -> Z -> list Z -> Z -> Z -> option (list Z) * C.
(** a data message through the extensions in the order of the list: an extension that is switched off or has no function leaves it alone, another one changes the data and
    sets its bit *)
Inductive through (opcode : Z) : list (ext C) -> Z -> list Z -> Z -> list Z -> list (ext C) -> Prop :=
| th_nil : forall rsv d, through opcode [] rsv d rsv d []
| th_skip : forall e r rsv d rsv' d' r', e_enabled e = false \/ e_out e = None -> through opcode r rsv d rsv' d' r' -> through opcode (e :: r) rsv d rsv' d' (e :: r')
| th_apply : forall e r rsv d f x c rsv' d' r', e_enabled e = true -> e_out e = Some f -> out_perform f (e_ctx e) opcode d 0 (e_out_data e) = (Some x, c) ->
    through opcode r (Z.lor rsv (e_rsv e)) x rsv' d' r' -> through opcode (e :: r) rsv d rsv' d' (set_ctx e c :: r').
Inductive encoded : list (ext C) -> list (Z * list Z) -> list (Z * list Z) -> Prop :=
| en_nil : forall l, encoded l [] []
| en_data : forall l opcode d rsv d' l' ms ps, opcode = 1 \/ opcode = 2 -> through opcode l 0 d rsv d' l' -> encoded l' ms ps -> encoded l ((opcode, d) :: ms) ((rsv, d') :: ps)
| en_control : forall l opcode d ms ps, opcode = 9 \/ opcode = 10 -> encoded l ms ps -> encoded l ((opcode, d) :: ms) ((0, d) :: ps).
End Encoded.

(** what is noticed, the RSV bits left aside *)
Definition bare (o : sitem) : sitem := match o with SMsg op _ d => SMsg op 0 d | _ => o end.

(** What a receiver with extensions should do with the frames it gets: WsRecvSpec, with the extensions as the messages before left them. The extensions are asked once for each
    complete message, with all its bytes; never for a control frame or for a part of a message. *)
Section FramesX.
Variable C : Type.
Variable in_perform : Z -> C -> Z -> list Z -> Z -> Z -> option (list Z) * C.
Variable alloc_ok : Z -> bool.
Variable rsv_expected : Z.
Inductive follows_x (l : list (ext C)) (t : list frame) (f : frame) : list frame -> list sitem -> list (ext C) -> Prop :=
| fx_ping : f_op f = 9 -> f_fin f = true -> zlen (f_payload f) <= 125 -> follows_x l t f t [SSend 10 (f_payload f)] l
| fx_pong : f_op f = 10 -> f_fin f = true -> follows_x l t f t [] l
| fx_part : starting (t ++ [f]) -> follows_x l t f (t ++ [f]) [] l
| fx_message : forall d l', complete (t ++ [f]) ->
    in_message C in_perform alloc_ok (group_op (t ++ [f])) (group_rsv (t ++ [f])) l (group_data (t ++ [f])) = (U_OK, d, l') ->
    group_rsv (t ++ [f]) = 0 \/ Z.land rsv_expected (group_rsv (t ++ [f])) <> 0 ->
    (group_op (t ++ [f]) = 1 -> utf8_text d) ->
    follows_x l t f [] [SMsg (group_op (t ++ [f])) (group_rsv (t ++ [f])) d] l'.
Inductive history_x (l0 : list (ext C)) : list frame -> list frame -> list sitem -> list (ext C) -> Prop :=
| hx_nil : history_x l0 [] [] [] l0
| hx_next : forall fs f t t' os o l l', history_x l0 fs t os l -> follows_x l t f t' o l' -> history_x l0 (fs ++ [f]) t' (os ++ o) l'.
End FramesX.
