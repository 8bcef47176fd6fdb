(** What print_map should print. *)
From Coq Require Import String ZArith Bool List.
From Verif Require Import Base SMap.
Import ListNotations.
Open Scope Z_scope.

Definition line_of (k v : str) : str := bs "key is " ++ k ++ bs ", value is " ++ v.
(** [prints d t]: t is a line for each pair of d, in order, with a newline between two *)
Inductive prints : smap -> str -> Prop :=
| p_one : forall k v, prints [(k, Some v)] (line_of k v)
| p_more : forall k v d t, prints d t -> prints ((k, Some v) :: d) (line_of k v ++ [10] ++ t).
(** the bytes needed, terminator included *)
Definition print_size (d : smap) : Z := fold_right (fun p n => zlen (fst p) + match snd p with Some v => zlen v | None => 0 end + 19 + n) 0 d.
Definition keys_ok (d : smap) : Prop := Forall (fun p => cstr (fst p)) d.
