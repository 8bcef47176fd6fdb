(** Model of mhd_redirect_log, /repo/src/ulfius.c 282-304: the messages of libmicrohttpd are sent to
    the log of yder. *)
From Coq Require Import String ZArith Bool List.
From Verif Require Import Base.
Import ListNotations.
Open Scope Z_scope.

(** an argument of printf: a text ([None] is NULL) or a number, given by what it prints *)
Inductive arg := Text (s : option str) | Number (printed : str).

(** the conversions used: %% %s, and %d %i %u %x %c with any of the length modifiers h l z j.
    [true]: a text is expected *)
Definition conversion (c : Z) : option bool :=
  if c =? 115 then Some true
  else if (c =? 100) || (c =? 105) || (c =? 117) || (c =? 120) || (c =? 99) then Some false
  else None.
Definition modifier (c : Z) : bool := (c =? 104) || (c =? 108) || (c =? 122) || (c =? 106).

(** C11 7.21.6.1 vsnprintf: the text printed. [after] tells that a '%' was read. Flags, widths and
    precisions are not modelled: like unknown conversions, arguments of another type and missing
    arguments they give [BadArgument]. *)
Fixpoint printf (fmt : str) (args : list arg) (after : bool) : outcome str :=
  match fmt with
  | [] => if after then UB BadArgument else Ret []
  | c :: r =>
      if after then
        if c =? 37 then do t <- printf r args false; Ret (37 :: t)
        else if modifier c then printf r args true
        else match conversion c, args with
             | Some true, Text (Some s) :: rest => do t <- printf r rest false; Ret (s ++ t)
             | Some true, Text None :: _ => UB NullDeref
             | Some false, Number n :: rest => do t <- printf r rest false; Ret (n ++ t)
             | _, _ => UB BadArgument
             end
      else if c =? 37 then printf r args true
      else do t <- printf r args false; Ret (c :: t)
  end.

(** vsnprintf(out, size, fmt, args) into a block: at most size-1 bytes and a NUL *)
Definition vsnprintf (out : buf) (size : Z) (fmt : str) (args : list arg) : outcome buf :=
  do t <- printf fmt args false;
  let kept := zfirstn (size - 1) t in
  memcpy out 0 (block_of (kept ++ [0])) (zlen kept + 1).

(** ulfius.c:282-304: the prefix is put before the format (291), the length is measured (292), the
    text is printed in a block of this length and one (294-296), and this text is given to
    y_log_message (297), which takes a format and its arguments: there are none. The result is the
    message put in the log. *)
Definition mhd_redirect_log (fmt : str) (args : list arg) : outcome str :=
  let new_fmt := bs "MHD - " ++ fmt in
  do measured <- printf new_fmt args false;
  do out <- vsnprintf (malloc (zlen measured + 1)) (zlen measured + 1) new_fmt args;
  do text <- read_cstr out;
  printf text [] false.
