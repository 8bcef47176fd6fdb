(** What goes over the wire between an HTTP server of the library and an HTTP client of the library, for C92 and C93: the head of an answer as RFC 9112 writes it, and how a client
    cuts it into lines. *)
From Coq Require Import String ZArith Bool List.
From Verif Require Import Base StrModel ClientSpec.
Import ListNotations.
Open Scope Z_scope.

(** field-name ":" SP field-value CR LF *)
Definition field_line (f : str * str) : str := fst f ++ 58 :: 32 :: snd f ++ [13; 10].
(** status line, fields, empty line *)
Definition head_text (status : str) (fs : list (str * str)) : str := status ++ [13; 10] ++ flat_map field_line fs ++ [13; 10].
(** libcurl gives the head to the header function line by line: each line ends with LF *)
Fixpoint lines_of (s : str) : list str :=
  match s with
  | [] => []
  | c :: r => if c =? 10 then [c] :: lines_of r else match lines_of r with l :: ls => (c :: l) :: ls | [] => [[c]] end
  end.
(** a name and a value that a field can have: no line break, no space around them *)
Definition field_ok (f : str * str) : Prop :=
  fst f <> [] /\ bare (fst f) /\ ~ In 58 (fst f) /\ ~ In 10 (fst f) /\ cstr (fst f) /\ bare (snd f) /\ ~ In 10 (snd f) /\ cstr (snd f).
(** a status line *)
Definition status_ok (s : str) : Prop := s <> [] /\ bare s /\ ~ In 58 s /\ ~ In 10 s.
(** [c] has the elements of [a] in their order and the elements of [b] in theirs *)
Inductive mixed {A : Type} : list A -> list A -> list A -> Prop :=
| mx_nil : mixed [] [] []
| mx_left : forall x a b c, mixed a b c -> mixed (x :: a) b (x :: c)
| mx_right : forall x a b c, mixed a b c -> mixed a (x :: b) (x :: c).
