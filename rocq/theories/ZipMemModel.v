(** The memory of the example callback that compresses the body of a response,
    example_callbacks/http_compression/http_compression_callback.c:66-140: the body, the header Content-Encoding, the list of encodings, the zlib
    stream and the compressed data are blocks of the heap, and an allocation may fail. CompressModel describes the values.
    Simplifications: a zlib stream, a header and an array of split_string are one block each; deflateInit and deflateInit2 fail only for
    lack of memory; the bodies have less than 2^32 bytes (C80_large_refuted treats the others); what deflate writes is given for each call. *)
From Coq Require Import String ZArith Bool List.
From Verif Require Import Base StrModel CompressModel OwnModel MapMemModel MapMemSpec RespMemModel DefMemModel SiteMemModel.
Import ListNotations.
Open Scope Z_scope.

(** response->binary_body, with binary_body_length its length, and the header Content-Encoding (true: gzip) *)
Record zresp := mk_zresp { r_mem : mem; r_body : ptr (list Z); r_label : ptr bool }.
(** u_response.c:535-554 ulfius_set_binary_body_response with response->status, which it keeps: the body is released before its place is taken *)
Definition x_replace (m : mem) (old : ptr (list Z)) (z : list Z) : outcome (mem * ptr (list Z)) :=
  match z with
  | [] => Ret (m, old)
  | _ => do m1 <- x_free m (addr old); let '(i, m2) := x_malloc m1 in Ret (m2, at_block i z)
  end.
(** u_map_put(response->map_header, "Content-Encoding", ...): an older value is kept when there is no memory *)
Definition x_relabel (m : mem) (old : ptr bool) (gz : bool) : outcome (mem * ptr bool) :=
  match x_malloc m with
  | (None, m1) => Ret (m1, old)
  | (Some i, m1) => do m2 <- x_free m1 (addr old); Ret (m2, Some (i, gz))
  end.
(** 83-133 the body is compressed *)
Definition x_zip (r : zresp) (gz : bool) (calls : list zcall) : outcome (Z * zresp) :=
  match x_malloc (r_mem r) with
  | (None, m1) => Ret (U_CALLBACK_ERROR, mk_zresp m1 (r_body r) (r_label r))
  | (Some st, m1) =>
      do x <- x_chunks U_ERROR_MEMORY m1 None 0 calls;
      let '(z, (m2, (p, len))) := x in
      do y <- (if z =? U_OK then
                 do b <- x_deref m2 p; do l <- read_bytes (snd b) (Z.to_nat len);
                 do u <- x_replace m2 (r_body r) l; do v <- x_relabel (fst u) (r_label r) gz;
                 Ret (U_CALLBACK_IGNORE, mk_zresp (fst v) (snd u) (snd v))
               else Ret (U_CALLBACK_ERROR, mk_zresp m2 (r_body r) (r_label r)));
      do m3 <- x_free (r_mem (snd y)) (Some st); do m4 <- x_free m3 (addr p);
      Ret (fst y, mk_zresp m4 (r_body (snd y)) (r_label (snd y)))
  end.
(** 66-140 callback_http_compression; [accept]: the value of the header Accept-Encoding, if there is one of them *)
Definition x_press (r : zresp) (c : option zconfig) (accept : option str) (calls : list zcall) : outcome (Z * zresp) :=
  match r_body r, accept with
  | Some _, Some a =>
      match x_malloc (r_mem r) with
      | (None, m1) => Ret (U_CALLBACK_IGNORE, mk_zresp m1 (r_body r) (r_label r))
      | (Some l, m1) =>
          do y <- match wanted c a with
                  | None => Ret (U_CALLBACK_IGNORE, mk_zresp m1 (r_body r) (r_label r))
                  | Some gz => do b <- x_deref m1 (r_body r); x_zip (mk_zresp m1 (Some b) (r_label r)) gz calls
                  end;
          do m2 <- x_free (r_mem (snd y)) (Some l); Ret (fst y, mk_zresp m2 (r_body (snd y)) (r_label (snd y)))
      end
  | _, _ => Ret (U_CALLBACK_IGNORE, r)
  end.

(** ** The callback may be there several times, each time with the answers of the allocations and of zlib *)
Record zturn := mk_zturn { z_conf : option zconfig; z_accept : option str; z_new : list bool; z_grow : list bool; z_out : list zcall }.
Definition x_turn (r : zresp) (t : zturn) : outcome (Z * zresp) :=
  do y <- x_press (mk_zresp (armed (r_mem r) (z_new t) (z_grow t)) (r_body r) (r_label r)) (z_conf t) (z_accept t) (z_out t);
  Ret (fst y, mk_zresp (armed (r_mem (snd y)) [] []) (r_body (snd y)) (r_label (snd y))).
Fixpoint x_turns (r : zresp) (l : list zturn) : outcome (list Z * zresp) :=
  match l with
  | [] => Ret ([], r)
  | t :: q => do y <- x_turn r t; do z <- x_turns (snd y) q; Ret (fst y :: fst z, snd z)
  end.
(** ulfius_clean_response: body and header *)
Definition x_done (r : zresp) : outcome mem := do m1 <- x_free (r_mem r) (addr (r_body r)); x_free m1 (addr (r_label r)).
(** a response with the body [b] and perhaps a header, before the first callback *)
Definition zstart (b : list Z) (label : option bool) : zresp :=
  let m := mk_mem (mk_heap 0 []) [] [] in
  let '(i, m1) := x_malloc m in
  match label with None => mk_zresp m1 (at_block i b) None | Some gz => let '(j, m2) := x_malloc m1 in mk_zresp m2 (at_block i b) (at_block j gz) end.
