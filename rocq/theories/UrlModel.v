(** Model of ulfius_url_encode / ulfius_url_decode, /repo/src/ulfius.c:1843-1925.
    Input blocks are lists of bytes that include the terminating NUL; reading past the end
    of the list is [UB OutOfBounds]. Every store into the output block is checked against
    the room left in the allocation. char is signed (x86, gcc). *)
From Coq Require Import ZArith Bool List.
From Verif Require Import Base.
Import ListNotations.
Open Scope Z_scope.

Section Locale.
(** isalnum and tolower on bytes 128..255 depend on the locale: parameters. *)
Variable alnum_hi : Z -> bool.
Variable tolower_hi : Z -> Z.

(** value of a byte seen as a signed char, and back *)
Definition schar (b : Z) : Z := if b <? 128 then b else b - 256.
Definition uchar (c : Z) : Z := c mod 256.

Definition is_digit (b : Z) : bool := (48 <=? b) && (b <=? 57).
Definition is_alnum (b : Z) : bool :=
  is_digit b || ((65 <=? b) && (b <=? 90)) || ((97 <=? b) && (b <=? 122)) || ((128 <=? b) && alnum_hi b).
Definition to_lower (b : Z) : Z := if b <? 128 then lower b else tolower_hi b.

(** ulfius.c:1846-1848 from_hex: (char)(isdigit(ch) ? ch - '0' : tolower(ch) - 'a' + 10); result as a signed char *)
Definition from_hex (b : Z) : Z :=
  if is_digit b then b - 48 else schar (uchar (to_lower b - 97 + 10)).

(** ulfius.c:1853-1856 to_hex: hex[code & 15] *)
Definition hex_digits : list Z := [48;49;50;51;52;53;54;55;56;57;65;66;67;68;69;70].
Definition to_hex (code : Z) : Z := nth (Z.to_nat (Z.land code 15)) hex_digits 0.

(** ulfius.c:1871-1874: characters copied unchanged *)
Definition keep (b : Z) : bool :=
  is_alnum b || (b =? 36) || (b =? 45) || (b =? 95) || (b =? 46) || (b =? 33) || (b =? 42)
  || (b =? 39) || (b =? 40) || (b =? 41) || (b =? 44).

(** one store into the output *)
Definition emit (room : Z) (c : Z) (k : Z -> outcome (list Z)) : outcome (list Z) :=
  if room <? 1 then UB OutOfBounds else do r <- k (room - 1); Ret (c :: r).

(** ulfius.c:1870-1881 the loop; [room] = bytes left in the output block. The result is the
    list of bytes stored, including the final NUL. *)
Fixpoint encode_loop (p : list Z) (room : Z) : outcome (list Z) :=
  match p with
  | [] => UB OutOfBounds
  | c :: p' =>
      if c =? 0 then emit room 0 (fun _ => Ret [])
      else if keep c then emit room c (fun room => encode_loop p' room)
      else if c =? 32 then emit room 43 (fun room => encode_loop p' room)
      else emit room 37 (fun room =>
           emit room (to_hex (Z.shiftr (schar c) 4)) (fun room =>
           emit room (to_hex (Z.land (schar c) 15)) (fun room => encode_loop p' room)))
  end.
(** ulfius.c:1864-1890 ulfius_url_encode: o_malloc(o_strlen(str) * 3 + 1) *)
Definition url_encode (s : str) : outcome (list Z) := encode_loop (s ++ [0]) (zlen s * 3 + 1).

(** ulfius.c:1907 (char)(from_hex(pstr[1]) << 4 | from_hex(pstr[2])). [strict]: a left shift of
    a negative value is undefined (C11 6.5.7p4); otherwise gcc's documented two's complement
    result. *)
Definition decode_pair (strict : bool) (c1 c2 : Z) : outcome Z :=
  if strict && (from_hex c1 <? 0) then UB ShiftNegative
  else Ret (uchar (Z.lor (Z.shiftl (from_hex c1) 4) (from_hex c2))).

(** ulfius.c:1904-1917 the loop *)
Fixpoint decode_loop (strict : bool) (p : list Z) (room : Z) : outcome (list Z) :=
  match p with
  | [] => UB OutOfBounds
  | c :: p' =>
      if c =? 0 then emit room 0 (fun _ => Ret [])
      else if c =? 37 then
        match p' with
        | [] => UB OutOfBounds
        | c1 :: p1 =>
            if c1 =? 0 then decode_loop strict p' room
            else match p1 with
                 | [] => UB OutOfBounds
                 | c2 :: p2 =>
                     if c2 =? 0 then decode_loop strict p' room
                     else do d <- decode_pair strict c1 c2;
                          emit room d (fun room => decode_loop strict p2 room)
                 end
        end
      else if c =? 43 then emit room 32 (fun room => decode_loop strict p' room)
      else emit room c (fun room => decode_loop strict p' room)
  end.
(** ulfius.c:1898-1925 ulfius_url_decode: o_malloc(o_strlen(str) + 1). Result: the bytes stored. *)
Definition url_decode (strict : bool) (s : str) : outcome (list Z) :=
  decode_loop strict (s ++ [0]) (zlen s + 1).
End Locale.
