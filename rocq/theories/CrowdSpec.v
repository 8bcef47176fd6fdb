(** What several threads that send on one websocket should achieve (C115). *)
From Coq Require Import ZArith Bool List.
From Verif Require Import Base WsSpec WsFrameModel WsSendModel ExtModel TalkModel TalkSpec TalkExtSpec.
From Verif Require Import CrowdModel.
Import ListNotations.
Open Scope Z_scope.

(** [l] has the elements of all the lists, and the elements of each list in their order *)
Inductive merged {A} : list (list A) -> list A -> Prop :=
| mg_nil : forall ls, Forall (eq []) ls -> merged ls []
| mg_next : forall ls t x r l, nth_error ls t = Some (x :: r) -> merged (set_nth ls t r) l -> merged ls (x :: l).

(** each thread has sent the first part of its program, successfully, and has the rest before it *)
Definition sent_parts (progs parts : list (list (chance * Z * list Z))) (ths : list thread) : Prop :=
  length parts = length progs /\ length ths = length progs /\
  forall t p, nth_error progs t = Some p -> exists d th, nth_error parts t = Some d /\ nth_error ths t = Some th /\ p = d ++ t_todo th /\ t_rets th = map (fun _ => U_OK) d.

Section Crowd.
Variable C : Type.
Variable out_perform : Z -> C -> Z -> list Z -> Z -> Z -> option (list Z) * C.
Variable alloc_ok : Z -> bool.
Variable server : bool.

(** the same extensions with other contexts *)
Definition like (l l' : list (ext C)) : Prop := Forall2 (fun e e' => exists c, e' = set_ctx e c) l l'.
(** a message that may be sent, which the extensions accept whatever their contexts are, and for which the socket is willing *)
Definition accepted (exts : list (ext C)) (x : chance * Z * list Z) : Prop :=
  sendable (snd (fst x)) (snd x) /\
  forall l ret rsv d l', like exts l -> out_message C out_perform alloc_ok (snd (fst x)) 0 l (snd x) = (ret, rsv, d, l') ->
    ret = U_OK /\ bytes d /\ zlen d < 4294967296 /\ fortunate server (fst (fst x)) d.

(** a data message *)
Definition is_data (x : chance * Z * list Z) : bool := (snd (fst x) =? 1) || (snd (fst x) =? 2).
(** a thread in the middle of sending a data message *)
Definition amid (th : thread) : bool := match t_todo th, t_place th with x :: _, Inside | x :: _, Made _ _ => is_data x | _, _ => false end.
(** one data message after the other, as when the program has a lock of its own around the calls *)
Definition alone (s : crowd C) (a : action) : Prop :=
  match a with
  | Enter t => match nth_error (k_threads s) t with
               | Some (mk_thread (x :: _) Outside _) => is_data x = true -> forall th, In th (k_threads s) -> amid th = false
               | _ => True
               end
  | _ => True
  end.
Fixpoint alone_all (s : crowd C) (l : list action) : Prop :=
  match l with [] => True | a :: r => alone s a /\ match act C out_perform alloc_ok server s a with Ret s1 => alone_all s1 r | UB _ => True end end.

(** the data that an extension makes of a message does not depend on its context *)
Definition memoryless (e : ext C) : Prop :=
  forall f, e_out e = Some f -> forall c c' opcode d fragment, fst (out_perform f c opcode d fragment (e_out_data e)) = fst (out_perform f c' opcode d fragment (e_out_data e)).
End Crowd.
