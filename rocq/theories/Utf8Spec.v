(** UTF-8, Unicode 3.9 / RFC 3629: encoding of scalar values. *)
From Coq Require Import ZArith Bool List.
Import ListNotations.
Open Scope Z_scope.

(** Unicode scalar values *)
Definition scalar (c : Z) : Prop := 0 <= c < 55296 \/ 57344 <= c < 1114112.

Definition utf8_enc (c : Z) : list Z :=
  if c <? 128 then [c]
  else if c <? 2048 then [192 + c / 64; 128 + c mod 64]
  else if c <? 65536 then [224 + c / 4096; 128 + (c / 64) mod 64; 128 + c mod 64]
  else [240 + c / 262144; 128 + (c / 4096) mod 64; 128 + (c / 64) mod 64; 128 + c mod 64].

Definition utf8_text (l : list Z) : Prop := exists cps, Forall scalar cps /\ flat_map utf8_enc cps = l.

(** [l] starts with a well-formed character *)
Definition starts_char (l : list Z) : Prop := exists c r, scalar c /\ l = utf8_enc c ++ r.
