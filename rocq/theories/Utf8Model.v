(** Model of utf8_check, /repo/src/ulfius.c:1790-1841. *)
From Coq Require Import ZArith Bool List.
From Verif Require Import Base.
Import ListNotations.
Open Scope Z_scope.

(** The loop. [s] is the readable memory from the current pointer on; reading past it is
    [UB OutOfBounds]. [i] and [len] are as in the code (i+3 does not wrap: len is the size of
    an object). Result: [None] = NULL, [Some i] = pointer to offset i. *)
Fixpoint utf8_loop (s : list Z) (i len : Z) : outcome (option Z) :=
  if i <? len then
    match s with
    | [] => UB OutOfBounds
    | b0 :: s1 =>
        if b0 <? 128 then utf8_loop s1 (i + 1) len
        else if Z.land b0 224 =? 192 then
          if (len <=? i + 1) then Ret (Some i)
          else match s1 with
               | [] => UB OutOfBounds
               | b1 :: s2 =>
                   if negb (Z.land b1 192 =? 128) || (Z.land b0 254 =? 192) then Ret (Some i)
                   else utf8_loop s2 (i + 2) len
               end
        else if Z.land b0 240 =? 224 then
          if (len <=? i + 2) then Ret (Some i)
          else match s1 with
               | b1 :: b2 :: s3 =>
                   if negb (Z.land b1 192 =? 128) || negb (Z.land b2 192 =? 128)
                      || ((b0 =? 224) && (Z.land b1 224 =? 128))
                      || ((b0 =? 237) && (Z.land b1 224 =? 160))
                      || ((b0 =? 239) && (b1 =? 191) && (Z.land b2 254 =? 190) && negb (b2 =? 191) && negb (b2 =? 190))
                   then Ret (Some i)
                   else utf8_loop s3 (i + 3) len
               | _ => UB OutOfBounds
               end
        else if Z.land b0 248 =? 240 then
          if (len <=? i + 3) then Ret (Some i)
          else match s1 with
               | b1 :: b2 :: b3 :: s4 =>
                   if negb (Z.land b1 192 =? 128) || negb (Z.land b2 192 =? 128) || negb (Z.land b3 192 =? 128)
                      || ((b0 =? 240) && (Z.land b1 240 =? 128))
                      || ((b0 =? 244) && (143 <? b1)) || (244 <? b0)
                   then Ret (Some i)
                   else utf8_loop s4 (i + 4) len
               | _ => UB OutOfBounds
               end
        else Ret (Some i)
    end
  else Ret None.

Definition utf8_check (s : list Z) (len : Z) : outcome (option Z) := utf8_loop s 0 len.

(** the caller idiom utf8_check(s, o_strlen(s)) == NULL on a C string *)
Definition utf8_valid (s : str) : bool :=
  match utf8_check s (zlen s) with Ret None => true | _ => false end.
