(** Model of /repo/example_callbacks/http_compression/http_compression_callback.c: the callback that compresses the body of a response. Allocation succeeds. *)
From Coq Require Import String ZArith Bool List.
From Verif Require Import Base UMapModel SMap StrModel ClientModel CopyModel.
Import ListNotations.
Open Scope Z_scope.

(** http_compression_callback.h:38-41; NULL = everything is allowed *)
Record zconfig := mk_zconfig { z_gzip : bool; z_deflate : bool }.
Definition coding (gz : bool) : str := if gz then bs "gzip" else bs "deflate".
(** 76-81: the coding, with [true] = gzip *)
Definition wanted (c : option zconfig) (accept : str) : option bool :=
  let l := split_string 44 accept in
  if match c with Some c => z_gzip c | None => true end && has_trimmed l (bs "gzip") then Some true
  else if match c with Some c => z_deflate c | None => true end && has_trimmed l (bs "deflate") then Some false else None.

(** the bytes of a block, as zlib reads them *)
Fixpoint bytes_of (b : buf) : outcome (list Z) :=
  match b with
  | [] => Ret []
  | None :: _ => UB Uninit
  | Some c :: r => do l <- bytes_of r; Ret (c :: l)
  end.
Definition read_bytes (b : buf) (n : Z) : outcome (list Z) := if n <=? zlen b then bytes_of (zfirstn n b) else UB OutOfBounds.

Section Zlib.
Variable S : Type.
(** deflateInit2 or deflateInit on the input given; None: not Z_OK *)
Variable zinit : bool -> list Z -> option S.
(** deflate(&defstream, Z_FINISH) with room for n bytes: what it returns, what it writes, and the state it is in then *)
Variable zfinish : S -> Z -> Z * list Z * S.
Definition BLOCK := 256.
(** 112-119: Z_OK, Z_STREAM_END, Z_BUF_ERROR *)
Definition fair (code : Z) : bool := (code =? 0) || (code =? 1) || (code =? -5).
(** 107-129: the loop, with data_zip, data_zip_len and total_out; None: an error. [fuel] bounds the rounds. *)
Fixpoint squeeze (fuel : nat) (s : S) (data : buf) (len total : Z) : outcome (option (buf * Z)) :=
  match fuel with
  | O => UB Endless
  | Datatypes.S fuel =>
      let data := realloc data (add64 len BLOCK) in
      let '(code, out, s) := zfinish s BLOCK in
      do data <- memcpy data len (block_of out) (zlen out);
      let avail := BLOCK - zlen out in
      let len := add64 len (BLOCK - avail) in
      let total := add64 total (zlen out) in
      if fair code then if avail =? 0 then squeeze fuel s data len total else Ret (Some (data, total))
      else Ret None
  end.

Definition U_CALLBACK_IGNORE := 1. Definition U_CALLBACK_ERROR := 4.
Record zresponse := mk_zresponse { z_msg : msg; z_headers : umap }.
(** u_response.c:535-554 on a block; the status is an unsigned int *)
Definition set_block (m : msg) (status : Z) (data : buf) (length : Z) : outcome msg :=
  if length =? 0 then Ret m else do b <- memcpy (malloc length) 0 data length; Ret (mk_msg (Some b) length status).
(** 66-147 callback_http_compression. split_string of a text gives at least one piece. avail_in is an unsigned int. *)
Definition compress (fuel : nat) (c : option zconfig) (headers : umap) (r : zresponse) : outcome (Z * zresponse) :=
  if m_length (z_msg r) =? 0 then Ret (U_CALLBACK_IGNORE, r)
  else
    do n <- u_map_count_keys_case headers (Some (bs "Accept-Encoding"));
    if n =? 1 then
      do a <- ClientModel.get_case_str headers (Some (bs "Accept-Encoding"));
      match a with
      | None => Ret (U_CALLBACK_IGNORE, r)
      | Some a =>
          match wanted c a with
          | None => Ret (U_CALLBACK_IGNORE, r)
          | Some gz =>
              do input <- match m_body (z_msg r) with Some b => read_bytes b (m_length (z_msg r) mod 4294967296) | None => UB NullDeref end;
              match zinit gz input with
              | None => Ret (U_CALLBACK_ERROR, r)
              | Some s =>
                  do x <- squeeze fuel s [] 0 0;
                  match x with
                  | None => Ret (U_CALLBACK_ERROR, r)
                  | Some (data, total) =>
                      do m <- set_block (z_msg r) (m_status (z_msg r) mod 4294967296) data total;
                      do h <- u_map_put (z_headers r) (Some (bs "Content-Encoding")) (Some (coding gz));
                      Ret (U_CALLBACK_IGNORE, mk_zresponse m (snd h))
                  end
              end
          end
      end
    else Ret (U_CALLBACK_IGNORE, r).
End Zlib.
