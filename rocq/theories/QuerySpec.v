(** The parts of a path and the parameters of a query (C88, C89). *)
From Coq Require Import String ZArith Bool List.
From Verif Require Import Base.
Import ListNotations.
Open Scope Z_scope.

(** texts with [d] between them *)
Fixpoint join (d : Z) (l : list str) : str :=
  match l with
  | [] => []
  | [x] => x
  | x :: r => x ++ d :: join d r
  end.
(** [l] are the pieces of [s] between the characters [d] *)
Definition pieces_of (d : Z) (s : str) (l : list str) : Prop := l <> [] /\ join d l = s /\ Forall (fun x => ~ In d x) l.
Definition filled (x : str) : bool := match x with [] => false | _ => true end.
(** name=value, or a name alone *)
Definition binds (x key : str) (val : option str) : Prop :=
  ~ In 61 key /\ x = match val with None => key | Some v => key ++ 61 :: v end.
(** at most [m] texts: the last one is the whole rest *)
Definition at_most (d : Z) (m : nat) (l : list str) : list str :=
  firstn (m - 1) l ++ match skipn (m - 1) l with [] => [] | r => [join d r] end.
