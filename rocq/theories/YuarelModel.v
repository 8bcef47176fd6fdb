(** Model of the URL parser (src/yuarel.c:27-222) on the block that holds the text. A pointer into the block is its offset. *)
From Coq Require Import String ZArith Bool List.
From Verif Require Import Base StrModel.
Import ListNotations.
Open Scope Z_scope.

(** b[off] *)
Definition load (b : buf) (off : Z) : outcome Z :=
  if (0 <=? off) && (off <? zlen b) then match nth_error b (Z.to_nat off) with Some (Some c) => Ret c | Some None => UB Uninit | None => UB OutOfBounds end
  else UB OutOfBounds.
(** strchr(b + off, c), c != 0 *)
Fixpoint strchr_go (b : buf) (c i : Z) : outcome (option Z) :=
  match b with
  | [] => UB OutOfBounds
  | None :: _ => UB Uninit
  | Some x :: r => if x =? c then Ret (Some i) else if x =? 0 then Ret None else strchr_go r c (i + 1)
  end.
Definition strchr (b : buf) (off c : Z) : outcome (option Z) := strchr_go (zskipn off b) c off.
(** the text at an offset *)
Definition text_at (b : buf) (off : Z) : outcome str := read_cstr (zskipn off b).

(** unsigned int, and the conversion to int *)
Definition two32 : Z := 4294967296.
Definition to_int (n : Z) : Z := let m := n mod two32 in if m <? 2147483648 then m else m - two32.
(** a byte as a (signed) char *)
Definition schar (c : Z) : Z := if c <? 128 then c else c - 256.

(** yuarel.c:33-43 natoi: the index is an unsigned int, it never reaches a length of 2^32 or more *)
Fixpoint natoi_go (b : buf) (off : Z) (n : nat) (r : Z) : outcome Z :=
  match n with
  | O => Ret r
  | S n' => do c <- load b off; natoi_go b (off + 1) n' ((r * 10 + (schar c - 48)) mod two32)
  end.
Definition natoi (b : buf) (off len : Z) : outcome Z :=
  if two32 <=? len then UB Endless else natoi_go b off (Z.to_nat len) 0.
(** atoi: the long value truncated (as the GNU library does; a value out of range is undefined in ISO C) *)
Definition atoi (b : buf) (off : Z) : outcome Z := do s <- text_at b off; Ret (to_int (strtol s)).

(** yuarel.h:33-42 struct yuarel *)
Record yuarel := mk_yuarel { y_scheme : option Z; y_host : option Z; y_port : Z; y_path : option Z; y_query : option Z; y_fragment : option Z; y_username : option Z; y_password : option Z }.
(** 145 memset *)
Definition yuarel0 : yuarel := mk_yuarel None None 0 None None None None None.

(** yuarel.c:66-84 parse_scheme *)
Definition parse_scheme (b : buf) (s : Z) : outcome (option Z * buf) :=
  do f <- strchr b s 58;
  match f with
  | None => Ret (None, b)
  | Some i =>
      if i =? s then Ret (None, b) else
      do c1 <- load b (i + 1);
      if (c1 =? 0) || negb (c1 =? 47) then Ret (None, b) else
      do c2 <- load b (i + 2);
      if (c2 =? 0) || negb (c2 =? 47) then Ret (None, b) else
      do b1 <- store b i 0;
      Ret (Some (i + 3), b1)
  end.

(** yuarel.c:96-106 find_and_terminate *)
Definition find_and_terminate (b : buf) (s c : Z) : outcome (option Z * buf) :=
  do f <- strchr b s c;
  match f with
  | None => Ret (None, b)
  | Some i => do b1 <- store b i 0; Ret (Some (i + 1), b1)
  end.

(** yuarel.c:172-191 credentials: None is the return -1; [host]: url->host *)
Definition parse_credentials (b : buf) (host : Z) : outcome (option (Z * option Z * option Z) * buf) :=
  do f <- strchr b host 64;
  match f with
  | None => Ret (Some (host, None, None), b)
  | Some i =>
      if i =? host then Ret (None, b) else
      do b1 <- store b i 0;
      do g <- strchr b1 host 58;
      match g with
      | None => Ret (None, b1)
      | Some j => do b2 <- store b1 j 0; Ret (Some (i + 1, Some host, Some (j + 1)), b2)
      end
  end.

(** yuarel.c:198-211 port; None is the return -1 *)
Definition parse_port (b : buf) (host : Z) (path : option Z) : outcome (option Z * buf) :=
  do f <- strchr b host 58;
  match f with
  | Some i =>
      if match path with None => true | Some p => i <? p end then
        do b1 <- store b i 0;
        do c <- load b1 (i + 1);
        if c =? 0 then Ret (None, b1)
        else
          do n <- match path with
                  | Some p => do r <- natoi b1 (i + 1) (p - (i + 1) - 1); Ret (to_int r)
                  | None => atoi b1 (i + 1)
                  end;
          Ret (Some n, b1)
      else Ret (Some 0, b)
  | None => Ret (Some 0, b)
  end.

(** yuarel.c:138-222 yuarel_parse on the block [b] at address u = 0: return code, block, structure (what it holds when the
    function fails is not given) *)
Definition yuarel_parse (b : buf) : outcome (Z * buf * yuarel) :=
  do (fragment, b) <- find_and_terminate b 0 35;
  do (query, b) <- find_and_terminate b 0 63;
  do c <- load b 0;
  if negb (c =? 47) then
    do (u, b) <- parse_scheme b 0;
    match u with
    | None => Ret (-1, b, yuarel0)
    | Some host =>
        do c <- load b host;
        if c =? 0 then Ret (-1, b, yuarel0) else
        do (path, b) <- find_and_terminate b host 47;
        do (cred, b) <- parse_credentials b host;
        match cred with
        | None => Ret (-1, b, yuarel0)
        | Some (host, user, pass) =>
            do c <- load b host;
            if c =? 0 then Ret (-1, b, yuarel0) else
            do (port, b) <- parse_port b host path;
            match port with
            | None => Ret (-1, b, yuarel0)
            | Some n =>
                do c <- load b host;
                if c =? 0 then Ret (-1, b, yuarel0)
                else Ret (0, b, mk_yuarel (Some 0) (Some host) n path query fragment user pass)
            end
        end
    end
  else
    do (path, b) <- find_and_terminate b 0 47;
    Ret (0, b, mk_yuarel None None 0 path query fragment None None).
