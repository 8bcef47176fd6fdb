(** Specification of percent-encoding, independent of the model. *)
From Coq Require Import String ZArith Bool List.
From Verif Require Import Base.
Import ListNotations.
Open Scope Z_scope.

(** value of an ASCII hexadecimal digit of either case *)
Inductive hexval : Z -> Z -> Prop :=
| hv_digit : forall d, 0 <= d <= 9 -> hexval (48 + d) d
| hv_upper : forall d, 10 <= d <= 15 -> hexval (65 + (d - 10)) d
| hv_lower : forall d, 10 <= d <= 15 -> hexval (97 + (d - 10)) d.

(** bytes that may stand for themselves: letters, digits and $-_.!*'(), *)
Definition unreserved (b : Z) : Prop :=
  48 <= b <= 57 \/ 65 <= b <= 90 \/ 97 <= b <= 122 \/ In b (bs "$-_.!*'(),").
Definition upper_hex (b : Z) : Prop := 48 <= b <= 57 \/ 65 <= b <= 70.

(** encoded text: unreserved bytes, '+', %XX with upper-case digits; [hi] are extra bytes a
    locale calls alphanumeric *)
Inductive safe_text (hi : Z -> Prop) : list Z -> Prop :=
| st_nil : safe_text hi []
| st_char : forall b r, unreserved b -> safe_text hi r -> safe_text hi (b :: r)
| st_hi : forall b r, hi b -> 128 <= b -> safe_text hi r -> safe_text hi (b :: r)
| st_plus : forall r, safe_text hi r -> safe_text hi (43 :: r)
| st_esc : forall h l r, upper_hex h -> upper_hex l -> safe_text hi r -> safe_text hi (37 :: h :: l :: r).

(** meaning of encoded text: '+' is a space, %XX with hex digits is the byte, other bytes stand
    for themselves. A '%' with fewer than two characters after it is dropped; a '%' followed by
    two characters that are not both hex digits yields some byte (unspecified). *)
Inductive decodes : list Z -> list Z -> Prop :=
| d_nil : decodes [] []
| d_plus : forall s o, decodes s o -> decodes (43 :: s) (32 :: o)
| d_esc : forall c1 c2 h l s o, hexval c1 h -> hexval c2 l -> decodes s o ->
    decodes (37 :: c1 :: c2 :: s) (16 * h + l :: o)
| d_bad : forall c1 c2 b s o, ~ (exists h l, hexval c1 h /\ hexval c2 l) -> 0 <= b < 256 ->
    decodes s o -> decodes (37 :: c1 :: c2 :: s) (b :: o)
| d_short : forall s o, zlen s < 2 -> decodes s o -> decodes (37 :: s) o
| d_char : forall c s o, c <> 37 -> c <> 43 -> decodes s o -> decodes (c :: s) (c :: o).
