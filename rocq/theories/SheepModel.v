(** The counter of the sheep counter example: /repo/example_programs/sheep_counter/sheep_counter.c:70-124, three callbacks that share one json_int_t (189, 227-229). Every connection has
    its own thread (/repo/src/ulfius.c:1078, MHD_USE_THREAD_PER_CONNECTION), so the callbacks of several requests run at the same time; each reads and writes the counter without a lock.
    Threads interleave between the reads and the writes of the counter, memory is sequentially consistent (C gives no meaning to such accesses at all). json_int_t is long long. *)
From Coq Require Import String ZArith Bool List.
From Verif Require Import Base TokenModel.
Import ListNotations.
Open Scope Z_scope.

(** POST, with the body as ulfius_get_json_body_request gives it; DELETE; PUT *)
Inductive op := Start (body : option json) | Reset | Add.
(** 75-79: json_integer_value of something that is not an integer is 0 *)
Definition start_value (body : option json) : Z := match body with Some j => jint (jget (Some j) (bs "nbsheep")) | None => 0 end.

(** where the thread of a request is *)
Inductive pc :=
| Waiting             (* before the callback *)
| Loaded (x : Z)      (* 116: the counter is read, not yet written *)
| Stored              (* 76, 78, 96, 116: the counter is written, json_integer not yet called *)
| Done (a : Z).       (* the answer is made: the number in the body *)
Record farm := mk_farm { sheep : Z; at_ : nat -> pc }.
Definition put (f : nat -> pc) (i : nat) (p : pc) : nat -> pc := fun j => if Nat.eqb j i then p else f j.

(** the request of each thread *)
Section Requests.
Variable req : nat -> op.

(** one step of thread [i]; 116 overflows at the largest json_int_t *)
Definition step (i : nat) (s : farm) : option (outcome farm) :=
  match at_ s i with
  | Waiting =>
      match req i with
      | Start b => Some (Ret (mk_farm (start_value b) (put (at_ s) i Stored)))
      | Reset => Some (Ret (mk_farm 0 (put (at_ s) i Stored)))
      | Add => Some (Ret (mk_farm (sheep s) (put (at_ s) i (Loaded (sheep s)))))
      end
  | Loaded x => Some (if x =? 2 ^ 63 - 1 then UB Overflow else Ret (mk_farm (x + 1) (put (at_ s) i Stored)))
  | Stored => Some (Ret (mk_farm (sheep s) (put (at_ s) i (Done (match req i with Reset => 0 | _ => sheep s end)))))
  | Done _ => None
  end.
(** an execution, given by the threads that move; a thread that has answered does nothing *)
Fixpoint interleave (l : list nat) (s : farm) : outcome farm :=
  match l with
  | [] => Ret s
  | i :: r => match step i s with None => interleave r s | Some x => do s' <- x; interleave r s' end
  end.
End Requests.
(** 189 *)
Definition farm0 : farm := mk_farm 0 (fun _ => Waiting).
