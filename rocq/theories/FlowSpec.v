(** What the streams should give. *)
From Coq Require Import String ZArith Bool List.
From Verif Require Import Base Dec.
Import ListNotations.
Open Scope Z_scope.

(** the text written line by line, each line ending with the number of bytes before it, the last line being the first one that ends after byte 100 *)
Inductive numbered (c : str) : Z -> list Z -> Prop :=
| n_end : forall n, 100 < n -> numbered c n []
| n_line : forall n digits t, 0 <= n <= 100 -> Forall digit digits -> digits <> [] -> dec_value digits = n -> zlen digits <= 3 ->
    numbered c (n + zlen (c ++ [32] ++ digits ++ [10])) t -> numbered c n ((c ++ [32] ++ digits ++ [10]) ++ t).
(** the file only grows *)
Definition extends (l l' : list Z) : Prop := exists t, l' = l ++ t.
