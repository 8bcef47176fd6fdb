(** Model of what the client examples print of a response: /repo/example_programs/request_example/client.c:59-81, auth_example/auth_client.c:48-56 and
    stream_example/stream_client.c:25-38. The body comes from the functions libcurl calls (ClientModel). *)
From Coq Require Import String ZArith Bool List.
From Verif Require Import Base Dec UMapModel ClientModel PrintModel.
Import ListNotations.
Open Scope Z_scope.

(** strncpy(dst, src, n), C 7.24.2.4: the n bytes that are written: those of the text at src, then NUL bytes *)
Fixpoint strncpy_bytes (src : buf) (n : nat) : outcome (list Z) :=
  match n with
  | O => Ret []
  | S k =>
      match src with
      | [] => UB OutOfBounds
      | None :: _ => UB Uninit
      | Some c :: r => if c =? 0 then Ret (repeat 0 n) else do t <- strncpy_bytes r k; Ret (c :: t)
      end
  end.
(** o_strncpy does nothing with NULL or without a length *)
Definition o_strncpy (dst : buf) (src : option buf) (n : Z) : outcome buf :=
  match src with
  | None => Ret dst
  | Some s => if n =? 0 then Ret dst else do t <- strncpy_bytes s (Z.to_nat n); memcpy dst 0 (block_of t) n
  end.
(** auth_client.c:50-52, client.c:62-64, 74-76: char response_body[response->binary_body_length + 1] and what %s reads of it. [stack]: the bytes that the stack has left; an
    array beyond them is undefined ([Overflow]), and so is an array without elements (C 6.7.6.2). *)
Definition body_text (stack : Z) (body : option buf) (len : Z) : outcome str :=
  let n := add64 len 1 in
  if n =? 0 then UB Overflow
  else if stack <? n then UB Overflow
  else
    do a <- o_strncpy (malloc n) body len;
    do a <- store a len 0;
    read_cstr a.

Definition nl := [10].
(** %s of NULL is undefined *)
Definition text_arg (s : option str) : outcome str := match s with Some x => Ret x | None => UB NullDeref end.
Definition block_arg (s : option buf) : outcome str := match s with Some b => read_cstr b | None => UB NullDeref end.

(** auth_client.c:48-56: what goes to the output; [r]: binary_body, binary_body_length *)
Definition auth_print (stack status : Z) (r : option buf * Z) : outcome str :=
  do b <- body_text stack (fst r) (snd r);
  Ret (bs "status is" ++ nl ++ sdec status ++ nl ++ nl ++ bs "string body is " ++ nl ++ b ++ nl ++ nl).
(** client.c:59-69. [mem]: the allocations of print_map. The three arguments are read by printf in the order of the format. *)
Definition client_print (mem : nat -> bool) (stack : Z) (h : headers) (r : option buf * Z) : outcome str :=
  do hs <- print_map mem (Some (h_map h));
  do b <- body_text stack (fst r) (snd r);
  do p <- text_arg (h_protocol h);
  do t <- block_arg hs;
  Ret (bs "protocol is" ++ nl ++ p ++ nl ++ nl ++ bs "  headers are " ++ nl ++ t ++ nl ++ nl ++ bs "  body is " ++ nl ++ b ++ nl ++ nl).
(** client.c:71-81; u_map_count is an int, %u *)
Definition client_print_limit (mem : nat -> bool) (stack : Z) (h : headers) (r : option buf * Z) : outcome str :=
  do hs <- print_map mem (Some (h_map h));
  do b <- body_text stack (fst r) (snd r);
  do p <- text_arg (h_protocol h);
  do t <- block_arg hs;
  Ret (bs "protocol is" ++ nl ++ p ++ nl ++ nl ++ bs "  headers (" ++ udec (u_map_count (h_map h)) ++ bs ") are " ++ nl ++ t ++ nl ++ nl ++
       bs "  body (" ++ udec (snd r) ++ bs ") is " ++ nl ++ bs "'" ++ b ++ bs "'" ++ nl ++ nl).

(** stream_client.c:25-30 my_write_body: the value for libcurl and the output *)
Definition my_write_body (contents : buf) (size nmemb : Z) : outcome (Z * str) :=
  do s <- read_cstr contents;
  Ret (mul64 size nmemb, bs "got " ++ s).
(** stream_client.c:32-38 my_write_meta_body *)
Definition my_write_meta_body (size nmemb : Z) : Z * str := (mul64 size nmemb, bs "got " ++ udec size ++ bs " " ++ udec nmemb ++ nl).
(** libcurl calls them for each piece and goes on as long as the value is the number of bytes; otherwise the transfer ends with an error: the pieces taken, the output,
    and whether all were taken *)
Fixpoint stream_text (f : buf -> Z -> Z -> outcome (Z * str)) (calls : list (buf * Z * Z)) : outcome (str * bool) :=
  match calls with
  | [] => Ret ([], true)
  | (c, size, nmemb) :: r =>
      do x <- f c size nmemb;
      if fst x =? size * nmemb then do y <- stream_text f r; Ret (snd x ++ fst y, snd y) else Ret (snd x, false)
  end.
