(** Text functions of the libraries ulfius uses (orcania and the C library). Their source is not in
    /repo: these definitions are part of the trusted base. C locale. *)
From Coq Require Import String ZArith Bool List.
From Verif Require Import Base.
Import ListNotations.
Open Scope Z_scope.

(** isspace *)
Definition isspace (c : Z) : bool := (c =? 32) || ((9 <=? c) && (c <=? 13)).

Fixpoint lstrip (s : str) : str := match s with c :: r => if isspace c then lstrip r else s | [] => [] end.
Definition rstrip (s : str) : str := rev (lstrip (rev s)).

(** orcania trimwhitespace(s): the string returned. The function also shortens the text in
    place: [trim_left] is what the argument contains afterwards. Only the end is cut, and
    nothing at all if there are only spaces (the terminator is written over itself). *)
Definition trim (s : str) : str := rstrip (lstrip s).
Definition trim_left (s : str) : str := if forallb isspace s then s else rstrip s.

(** orcania split_string(s, sep, &array) for a separator of one byte: array without its final NULL. There is always
    at least one element. *)
Fixpoint split_string (sep : Z) (s : str) : list str :=
  match s with
  | [] => [[]]
  | c :: r => if c =? sep then [] :: split_string sep r
              else match split_string sep r with h :: t => (c :: h) :: t | [] => [[c]] end
  end.

(** orcania string_array_has_trimmed_value(array, needle) *)
Definition has_trimmed (arr : list str) (needle : str) : bool := existsb (fun v => str_eqb (trim v) (trim needle)) arr.

(** orcania o_strcasestr(h, n) != NULL, NULL haystack included *)
Definition casestr (h : option str) (n : str) : bool :=
  match h with Some x => containsb (lowers x) (lowers n) | None => false end.

(** strtol(s, NULL, 10): spaces, sign, digits; saturates at the limits of a 64-bit long *)
Definition isdigit (c : Z) : bool := (48 <=? c) && (c <=? 57).
Fixpoint digits_value (s : str) (acc : Z) : Z :=
  match s with c :: r => if isdigit c then digits_value r (10 * acc + (c - 48)) else acc | [] => acc end.
Definition strtol (s : str) : Z :=
  match lstrip s with
  | [] => 0
  | c :: r =>
      if c =? 45 then Z.max (- digits_value r 0) (- 9223372036854775808)
      else Z.min (digits_value (if c =? 43 then r else c :: r) 0) 9223372036854775807
  end.

(** o_strncmp(a, b, n) == 0 where n is the length of [p] and one of both strings is [p] *)
Definition starts (p s : str) : bool := prefixb p s.
