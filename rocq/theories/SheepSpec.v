(** What a counter is: each request happens at once, and its answer is the value it left. *)
From Coq Require Import String ZArith Bool List.
From Verif Require Import Base TokenModel.
From Verif Require Import SheepModel.
Import ListNotations.
Open Scope Z_scope.

Definition after (o : op) (v : Z) : Z := match o with Add => v + 1 | Reset => 0 | Start (Some (JObj l)) => match find (fun p => str_eqb (fst p) (bs "nbsheep")) l with Some (_, JInt z) => z | _ => 0 end | Start _ => 0 end.
(** the answers of requests served in this order, and the value left *)
Fixpoint counted (os : list op) (v : Z) : list Z * Z :=
  match os with [] => ([], v) | o :: r => let '(a, w) := counted r (after o v) in (after o v :: a, w) end.
(** no value of the way is the largest one *)
Fixpoint fits (os : list op) (v : Z) : Prop := match os with [] => True | o :: r => (o = Add -> v < 2 ^ 63 - 1) /\ fits r (after o v) end.
(** the threads of [l] serve their requests one after the other *)
Definition in_turn (l : list nat) : list nat := flat_map (fun i => [i; i; i]) l.
Definition answer (s : farm) (i : nat) : option Z := match at_ s i with Done a => Some a | _ => None end.
(** all of the first n threads have answered *)
Definition all_done (n : nat) (s : farm) : Prop := forall i, (i < n)%nat -> exists a, at_ s i = Done a.
(** the executions of the first n threads *)
Inductive runs (req : nat -> op) (n : nat) (s0 : farm) : farm -> Prop :=
| r_start : runs req n s0 s0
| r_step : forall s i s', runs req n s0 s -> (i < n)%nat -> step req i s = Some (Ret s') -> runs req n s0 s'.
(** the executions in which nobody moves between the read and the write of another *)
Definition busy (s : farm) (i : nat) : Prop := exists x, at_ s i = Loaded x.
Inductive runs_locked (req : nat -> op) (n : nat) (s0 : farm) : farm -> Prop :=
| l_start : runs_locked req n s0 s0
| l_step : forall s i s', runs_locked req n s0 s -> (i < n)%nat -> (forall j, busy s j -> j = i) -> step req i s = Some (Ret s') -> runs_locked req n s0 s'.
Fixpoint orders {A} (l : list A) : list (list A) :=
  match l with
  | [] => [[]]
  | x :: r => flat_map (fun p => map (fun k => firstn k p ++ x :: skipn k p) (seq 0 (S (length p)))) (orders r)
  end.
(** some order of the requests explains the answers and the value left *)
Definition explained (req : nat -> op) (ids : list nat) (v : Z) (s : farm) : Prop :=
  exists l, In l (orders ids) /\ counted (map req l) v = (map (fun i => match answer s i with Some a => a | None => -1 end) l, sheep s).
