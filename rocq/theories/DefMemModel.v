(** The memory of the permessage-deflate extension, /repo/src/u_websocket.c:1961-2275 and 2652-2761: the context, the two zlib streams, the arrays of
    the parameters, the text of the answer and the data that come out are blocks of the heap, and an allocation may
    fail. DeflateModel describes the values.
    Simplifications: a zlib stream is one block (zlib asks for several and releases them itself when one is missing);
    an array of split_string is one block with its texts; the extension is alone, so that its bit is free. *)
From Coq Require Import String ZArith Bool List.
From Verif Require Import Base UMapModel Dec StrModel DeflateModel OwnModel MapMemModel MapMemSpec RespMemModel HttpMemModel.
Import ListNotations.
Open Scope Z_scope.

(** struct _websocket_deflate_context, include/ulfius.h:1564-1573: the parameters, and the member state of the two z_stream, which is not written
    before deflateInit2 and inflateInit2 write it *)
Record hctx := mk_hctx { w_par : dctx; w_def : member (option nat); w_inf : member (option nat) }.

(** deflateEnd, inflateEnd: zlib reads the member state *)
Definition x_end (m : mem) (s : member (option nat)) : outcome mem := do p <- x_member s; x_free m p.
(** deflate, inflate: the stream is used *)
Definition x_stream (m : mem) (s : member (option nat)) : outcome unit :=
  do p <- x_member s; match p with None => UB NullDeref | Some i => h_use (m_heap m) i end.

(** 2160-2207 and 2673-2716 one parameter, with the array param_value. It is only released when it has two texts for
    server_max_window_bits (2166-2182, 2679-2694), and in any case for client_max_window_bits *)
Definition x_param (server : bool) (m : mem) (s : dstate) (p : str) : outcome (mem * dstate) :=
  let t := trim p in
  let s1 := one_param server s p in
  if str_eqb (bs "server_no_context_takeover") t || str_eqb (bs "client_no_context_takeover") t then Ret (m, s1)
  else if starts (bs "server_max_window_bits") t then
    match x_malloc m with
    | (None, m1) => Ret (m1, dfail s)
    | (Some i, m1) =>
        match split_string 61 t with
        | [_; _] => do m2 <- x_free m1 (Some i); Ret (m2, s1)
        | _ => Ret (m1, s1)
        end
    end
  else if starts (bs "client_max_window_bits") t then
    match x_malloc m with
    | (None, m1) => Ret (m1, dfail s)
    | (Some i, m1) => do m2 <- x_free m1 (Some i); Ret (m2, s1)
    end
  else Ret (m, s1).
Fixpoint x_params (server : bool) (m : mem) (s : dstate) (l : list str) : outcome (mem * dstate) :=
  match l with
  | [] => Ret (m, s)
  | p :: r => do x <- x_param server m s p; x_params server (fst x) (snd x) r
  end.
(** 2155-2215, 2668-2724 *)
Definition x_parse (server : bool) (m : mem) (e : str) : outcome (mem * dstate) :=
  let s0 := mk_dstate U_OK dctx0 false false in
  if zlen EXT_DEFLATE <? zlen e then
    match x_malloc m with
    | (None, m1) => Ret (m1, dfail s0)
    | (Some i, m1) =>
        do x <- x_params server m1 s0 (split_string 59 (skipn (length EXT_DEFLATE) e));
        do m2 <- x_free (fst x) (Some i); Ret (m2, snd x)
    end
  else Ret (m, s0).

(** 2216-2237, 2725-2748: the streams of the context in block [c]. deflateInit2 and inflateInit2 give up when there is no memory for
    the state, and have not written the member then; deflateEnd and inflateEnd are called all the same. The other reasons
    to give up are left out: the number of window bits is between 9 and 15. *)
Definition x_streams (m : mem) (c : nat) (par : dctx) : outcome (mem * ptr hctx) :=
  match x_malloc m with
  | (None, m1) => do m2 <- x_end m1 None; do m3 <- x_free m2 (Some c); Ret (m3, None)
  | (Some d, m1) =>
      match x_malloc m1 with
      | (None, m2) =>
          do m3 <- x_end m2 None; do m4 <- x_end m3 (Some (Some d)); do m5 <- x_free m4 (Some c); Ret (m5, None)
      | (Some i, m2) => Ret (m2, Some (c, mk_hctx par (Some (Some d)) (Some (Some i))))
      end
  end.
(** 2238-2251 the answer: the results of o_strdup and mstrcatf are not looked at *)
Definition x_added (yes : bool) (m : mem) (p : ptr str) (t : str) : outcome (mem * ptr str) :=
  if yes then x_catf m p t else Ret (m, p).
Definition x_answer (m : mem) (s : dstate) : outcome (mem * ptr str) :=
  let c := d_ctx s in
  let '(p, m1) := x_strdup m (Some EXT_DEFLATE) in
  do a <- x_added (c_snct c) m1 p (bs "; server_no_context_takeover");
  do b <- x_added (c_cnct c) (fst a) (snd a) (bs "; client_no_context_takeover");
  do d <- x_added (d_schg s) (fst b) (snd b) (bs "; server_max_window_bits=" ++ udec (c_sbits c));
  x_added (d_cchg s) (fst d) (snd d) (bs "; client_max_window_bits=" ++ udec (c_cbits c)).

(** 2147-2262, 2660-2755: the context. What is parsed, and the context with its streams when everything is right. *)
Definition x_context (server : bool) (m : mem) (e : str) : outcome (mem * (dstate * ptr hctx)) :=
  match x_malloc m with
  | (None, m1) => Ret (m1, (dfail (mk_dstate U_OK dctx0 false false), None))
  | (Some c, m1) =>
      do x <- x_parse server m1 e;
      if d_ret (snd x) =? U_OK then do y <- x_streams (fst x) c (d_ctx (snd x)); Ret (fst y, (snd x, snd y))
      else do m2 <- x_free (fst x) (Some c); Ret (m2, (snd x, None))
  end.
(** 2129-2268 websocket_extension_server_match_deflate: return code, *extension_server ([name] before), *context ([ctx] before) *)
Definition x_server_match (m : mem) (e : str) (l : list str) (name : ptr str) (ctx : ptr hctx) : outcome (Z * (mem * (ptr str * ptr hctx))) :=
  if starts EXT_DEFLATE e && first_param e l then
    do x <- x_context true m e;
    match snd (snd x) with
    | None => Ret (U_ERROR, (fst x, (name, None)))
    | Some c => do a <- x_answer (fst x) (fst (snd x)); Ret (U_OK, (fst a, (snd a, Some c)))
    end
  else Ret (U_ERROR, (m, (name, ctx))).
(** 2652-2761 websocket_extension_client_match_deflate *)
Definition x_client_match (m : mem) (e : str) (ctx : ptr hctx) : outcome (Z * (mem * ptr hctx)) :=
  if starts EXT_DEFLATE e then
    do x <- x_context false m e;
    Ret (match snd (snd x) with None => U_ERROR | Some _ => U_OK end, (fst x, snd (snd x)))
  else Ret (U_ERROR, (m, ctx)).
(** 2270-2275 websocket_extension_deflate_free_context *)
Definition x_free_context (m : mem) (ctx : ptr hctx) : outcome mem :=
  do x <- x_deref m ctx;
  do m1 <- x_end m (w_inf (snd x)); do m2 <- x_end m1 (w_def (snd x)); x_free m2 (Some (fst x)).

(** ** Messages *)
(** what a call of deflate or inflate answers: the code and the bytes it writes, at most 256; after the end of a list of
    calls it answers Z_BUF_ERROR and writes nothing *)
Definition zcall := (Z * list Z)%type.
(** Z_OK, Z_STREAM_END, Z_BUF_ERROR *)
Definition z_fair (code : Z) : bool := (code =? 0) || (code =? 1) || (code =? -5).
(** 1984-2006, 2075-2096 the loop: [p] is *data_out, [len] *data_len_out; [err] is the code when there is no memory *)
Fixpoint x_chunks (err : Z) (m : mem) (p : ptr buf) (len : Z) (calls : list zcall) : outcome (Z * (mem * (ptr buf * Z))) :=
  do x <- x_realloc m (addr p);
  match x with
  | (None, m1) => Ret (err, (m1, (None, len)))
  | (Some i, m1) =>
      let b := realloc (match p with Some (_, b) => b | None => [] end) (len + W_BUFF_LEN) in
      match calls with
      | [] => Ret (U_OK, (m1, (Some (i, b), len)))
      | (code, out) :: r =>
          do b1 <- memcpy b len (block_of out) (zlen out);
          if z_fair code then
            if zlen out =? W_BUFF_LEN then x_chunks err m1 (Some (i, b1)) (len + zlen out) r
            else Ret (U_OK, (m1, (Some (i, b1), len + zlen out)))
          else Ret (U_ERROR, (m1, (Some (i, b1), len + zlen out)))
      end
  end.
(** 1961-2049 websocket_extension_message_out_deflate on [n] bytes: return code, *data_out, *data_len_out. deflate_mask is never
    Z_BLOCK, so 2009-2028 is left out. Without bytes *data_out keeps its value, NULL. *)
Definition x_deflate (m : mem) (ctx : ptr hctx) (n : Z) (calls : list zcall) : outcome (Z * (mem * (ptr buf * Z))) :=
  if n =? 0 then Ret (U_OK, (m, (None, 0)))
  else match ctx with
  | None => Ret (U_ERROR, (m, (None, 0)))
  | Some _ =>
      do c <- x_deref m ctx; do _ <- x_stream m (w_def (snd c));
      do x <- x_chunks U_ERROR_MEMORY m None 0 calls;
      let '(z, (m1, (p, len))) := x in
      if z =? U_OK then do y <- x_deref m1 p; do s <- strip (snd y) len; Ret (U_OK, (m1, (Some (fst y, fst s), snd s)))
      else do m2 <- x_free m1 (addr p); Ret (z, (m2, (None, 0)))
  end.
(** 2051-2127 websocket_extension_message_in_inflate: the copy of the data with 00 00 ff ff behind it is a block *)
Definition x_inflate (m : mem) (ctx : ptr hctx) (n : Z) (calls : list zcall) : outcome (Z * (mem * (ptr buf * Z))) :=
  if n =? 0 then
    match x_malloc m with (None, m1) => Ret (U_ERROR, (m1, (None, 0))) | (Some i, m1) => Ret (U_OK, (m1, (Some (i, []), 0))) end
  else match ctx with
  | None => Ret (U_ERROR, (m, (None, 0)))
  | Some _ =>
      match x_malloc m with
      | (None, m1) => Ret (U_ERROR, (m1, (None, 0)))
      | (Some d, m1) =>
          do c <- x_deref m1 ctx; do _ <- x_stream m1 (w_inf (snd c));
          do x <- x_chunks U_ERROR m1 None 0 calls;
          let '(z, (m2, (p, len))) := x in
          do m3 <- x_free m2 (Some d);
          if z =? U_OK then Ret (U_OK, (m3, (p, len)))
          else do m4 <- x_free m3 (addr p); Ret (z, (m4, (None, 0)))
      end
  end.

(** ** The extension in a websocket *)
(** ws_ext->extension_client or w_extension->extension_server, context, enabled *)
Record wdeflate := mk_wdeflate { d_mem : mem; d_name : ptr str; d_context : ptr hctx; d_on : bool }.
(** what happens, with the answers of the allocations meanwhile.
    [Offer]: an element of an offer, with the whole list, comes to the server (ulfius.c:691-704); [Reply]: an element of the answer comes to the
    client (u_websocket.c:998-1007); [Sent], [Received]: a message of [n] bytes goes through the extension, and what it
    gives is copied and released (1553-1567, 609-635) *)
Inductive devent :=
| Offer (answers : list bool) (e : str) (l : list str)
| Reply (answers : list bool) (e : str)
| Sent (grow : list bool) (n : Z) (calls : list zcall)
| Received (answers grow : list bool) (n : Z) (calls : list zcall).
Inductive dresult := Matched (z : Z) (name : option str) (par : option dctx) | Message (z : Z) (bytes : list Z) | Nothing.
Definition armed (m : mem) (answers grow : list bool) : mem := mk_mem (m_heap m) answers grow.

(** what the pipeline reads of a message and releases *)
Definition x_taken (x : Z * (mem * (ptr buf * Z))) : outcome (dresult * mem) :=
  let '(z, (m, (p, len))) := x in
  if z =? U_OK then
    do b <- (if len =? 0 then Ret [] else do y <- x_deref m p; read_bytes (snd y) (Z.to_nat len));
    do m1 <- x_free m (addr p); Ret (Message z b, m1)
  else Ret (Message z [], m).
Definition x_event (s : wdeflate) (v : devent) : outcome (dresult * wdeflate) :=
  match v with
  | Offer answers e l =>
      if d_on s then Ret (Nothing, s)
      else
        do x <- x_server_match (armed (d_mem s) answers []) e l (d_name s) (d_context s);
        let '(z, (m, (name, ctx))) := x in
        do t <- x_string m name;
        Ret (Matched z t (match ctx with Some (_, c) => Some (w_par c) | None => None end), mk_wdeflate (armed m [] []) name ctx (z =? U_OK))
  | Reply answers e =>
      if d_on s then Ret (Nothing, s)
      else
        do x <- x_client_match (armed (d_mem s) answers []) e (d_context s);
        let '(z, (m, ctx)) := x in
        let par := match ctx with Some (_, c) => Some (w_par c) | None => None end in
        if z =? U_OK then
          let '(name, m1) := x_strdup m (Some e) in
          do t <- x_string m1 name; Ret (Matched z t par, mk_wdeflate (armed m1 [] []) name ctx true)
        else Ret (Matched z None par, mk_wdeflate (armed m [] []) (d_name s) ctx false)
  | Sent grow n calls =>
      if d_on s then
        do x <- x_deflate (armed (d_mem s) [] grow) (d_context s) n calls; do y <- x_taken x;
        Ret (fst y, mk_wdeflate (armed (snd y) [] []) (d_name s) (d_context s) true)
      else Ret (Nothing, s)
  | Received answers grow n calls =>
      if d_on s then
        do x <- x_inflate (armed (d_mem s) answers grow) (d_context s) n calls; do y <- x_taken x;
        Ret (fst y, mk_wdeflate (armed (snd y) [] []) (d_name s) (d_context s) true)
      else Ret (Nothing, s)
  end.
Fixpoint x_events (s : wdeflate) (l : list devent) : outcome (list dresult * wdeflate) :=
  match l with
  | [] => Ret ([], s)
  | v :: r => do x <- x_event s v; do y <- x_events (snd x) r; Ret (fst x :: fst y, snd y)
  end.
(** 1828-1836 and 69-75: the websocket is released *)
Definition x_release (s : wdeflate) : outcome mem :=
  do m1 <- (if d_on s then x_free_context (d_mem s) (d_context s) else Ret (d_mem s));
  x_free m1 (addr (d_name s)).
Definition dstart : wdeflate := mk_wdeflate (mk_mem (mk_heap 0 []) [] []) None None false.
