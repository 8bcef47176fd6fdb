(** Model of the thread that reads a websocket whose extensions keep a context: WsRecvModel (src/u_websocket.c:660-817) with the pipeline of ExtModel (589-652). *)
From Coq Require Import ZArith Bool List.
From Verif Require Import Base WsFrameModel WsRecvModel ExtModel.
Import ListNotations.
Open Scope Z_scope.

Section TalkExt.
Variable C : Type.
Variable in_perform : Z -> C -> Z -> list Z -> Z -> Z -> option (list Z) * C.
Variable alloc_ok : Z -> bool.
Variable server : bool.
Variable rsv_expected : Z.

(** 727: ulfius_websocket_extension_message_in_perform_apply with the extensions as they are now *)
Definition ext_fun (l : list (ext C)) (opcode rsv : Z) (d : list Z) : option (list Z) :=
  let '(ret, d', _) := in_message C in_perform alloc_ok opcode rsv l d in if ret =? U_OK then Some d' else None.
(** the extensions after that call *)
Definition ext_next (l : list (ext C)) (m : wmsg) : list (ext C) := snd (in_message C in_perform alloc_ok (m_opcode m) (m_rsv m) l (m_data m)).
(** 674-683: the message read in this round, if there is one *)
Definition incoming (s : wst) (i : inp) : option wmsg :=
  match w_phase s with
  | PLoop =>
      if w_conn s && w_ok s && negb (i_close i) then
        let '(a, evs, conn) := data_available (w_in s) (w_conn s) in
        if a then let '(_, m, _, _) := read_message alloc_ok server evs conn in m else None
      else None
  | _ => None
  end.
(** 684-727: the message the extensions are given when [m] was read: a control message is not for them, nor is a fragment before the last one *)
Definition completed (s : wst) (m : wmsg) : option wmsg :=
  let op := m_opcode m in
  if ((op =? OP_TEXT) || (op =? OP_BINARY) || (op =? OP_CONTINUE)) && m_fin m then
    match w_prev s with
    | None => if op =? OP_CONTINUE then None else Some m
    | Some p => let '(r, p') := merge p m in if r =? U_OK then Some p' else None
    end
  else None.
(** a round: the state of the thread and the extensions *)
Definition step_x (x : wst * list (ext C)) (i : inp) : wst * list (ext C) :=
  let '(s, l) := x in
  (step alloc_ok server (ext_fun l) rsv_expected s i,
   match incoming s i with
   | Some m => match completed s m with Some c => ext_next l c | None => l end
   | None => l
   end).
Definition run_x (x : wst * list (ext C)) (is : list inp) : wst * list (ext C) := fold_left step_x is x.
End TalkExt.
