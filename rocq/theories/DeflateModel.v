(** Model of the permessage-deflate extension: src/u_websocket.c:1961-2268 and 2652-2761. *)
From Coq Require Import String ZArith Bool List.
From Verif Require Import Base Dec StrModel.
Import ListNotations.
Open Scope Z_scope.

(** u_websocket.c:58 _U_W_EXT_DEFLATE *)
Definition EXT_DEFLATE : str := bs "permessage-deflate".

(** the parameters of struct _websocket_deflate_context (u_private.h); deflate_mask and inflate_mask are Z_FULL_FLUSH (true) or
    Z_SYNC_FLUSH *)
Record dctx := mk_dctx { c_snct : bool; c_cnct : bool; c_sbits : Z; c_cbits : Z; c_dfull : bool; c_ifull : bool }.
(** u_websocket.c:2149-2154, 2662-2667 *)
Definition dctx0 : dctx := mk_dctx false false 15 15 false false.

(** the loop variables: ret, *context, server_bits_changed, client_bits_changed *)
Record dstate := mk_dstate { d_ret : Z; d_ctx : dctx; d_schg : bool; d_cchg : bool }.
Definition dfail (s : dstate) : dstate := mk_dstate U_ERROR (d_ctx s) (d_schg s) (d_cchg s).

(** u_websocket.c:2170-2173: 8 becomes 9 *)
Definition widen (n : Z) : Z := if n =? 8 then 9 else n.

(** u_websocket.c:2160-2207 one parameter on the server, 2673-2716 on the client: the branches are the same, but the masks are
    exchanged. The array [param_value] ends with NULL, which reads as an empty value; the text after a second '=' is ignored for
    client_max_window_bits. *)
Definition one_param (server : bool) (s : dstate) (p : str) : dstate :=
  let t := trim p in
  let c := d_ctx s in
  if str_eqb (bs "server_no_context_takeover") t then
    mk_dstate (d_ret s) (mk_dctx true (c_cnct c) (c_sbits c) (c_cbits c) (if server then true else c_dfull c) (if server then c_ifull c else true)) (d_schg s) (d_cchg s)
  else if str_eqb (bs "client_no_context_takeover") t then
    mk_dstate (d_ret s) (mk_dctx (c_snct c) true (c_sbits c) (c_cbits c) (if server then c_dfull c else true) (if server then true else c_ifull c)) (d_schg s) (d_cchg s)
  else if starts (bs "server_max_window_bits") t then
    match split_string 61 t with
    | [_; v] =>
        let n := strtol v in
        if (8 <=? n) && (n <=? 15) then
          mk_dstate (d_ret s) (mk_dctx (c_snct c) (c_cnct c) (widen n) (c_cbits c) (c_dfull c) (c_ifull c)) true (d_cchg s)
        else dfail s
    | _ => dfail s
    end
  else if starts (bs "client_max_window_bits") t then
    let v := match split_string 61 t with _ :: v :: _ => trim v | _ => [] end in
    let n := match v with [] => 15 | _ => strtol v end in
    if (8 <=? n) && (n <=? 15) then
      mk_dstate (d_ret s) (mk_dctx (c_snct c) (c_cnct c) (c_sbits c) (widen n) (c_dfull c) (c_ifull c)) (d_schg s) true
    else dfail s
  else match t with [] => s | _ => dfail s end.

(** u_websocket.c:2155-2215, 2668-2724 *)
Definition parse_params (server : bool) (e : str) : dstate :=
  let s0 := mk_dstate U_OK dctx0 false false in
  if zlen EXT_DEFLATE <? zlen e then fold_left (one_param server) (split_string 59 (skipn (length EXT_DEFLATE) e)) s0 else s0.

(** deflateInit2 with that many window bits, inflateInit2 with that many window bits: both Z_OK *)
Section Zlib.
Variable zinit : Z -> Z -> bool.

(** u_websocket.c:2238-2251 the answer *)
Definition answer (s : dstate) : str :=
  let c := d_ctx s in
  EXT_DEFLATE ++
  (if c_snct c then bs "; server_no_context_takeover" else []) ++
  (if c_cnct c then bs "; client_no_context_takeover" else []) ++
  (if d_schg s then bs "; server_max_window_bits=" ++ udec (c_sbits c) else []) ++
  (if d_cchg s then bs "; client_max_window_bits=" ++ udec (c_cbits c) else []).

(** u_websocket.c:2137-2144 first_param *)
Fixpoint first_param (e : str) (l : list str) : bool :=
  match l with
  | [] => false
  | x :: r => if starts EXT_DEFLATE x then str_eqb e x else first_param e r
  end.

(** u_websocket.c:2129-2268 websocket_extension_server_match_deflate: return code, *extension_server ([old] before), *context *)
Definition server_match_deflate (e : str) (l : list str) (old : option str) : Z * option str * option dctx :=
  if starts EXT_DEFLATE e then
    if first_param e l then
      let s := parse_params true e in
      if d_ret s =? U_OK then
        if zinit (c_sbits (d_ctx s)) (c_cbits (d_ctx s)) then (U_OK, Some (answer s), Some (d_ctx s)) else (U_ERROR, old, None)
      else (U_ERROR, old, None)
    else (U_ERROR, old, None)
  else (U_ERROR, old, None).

(** u_websocket.c:2652-2761 websocket_extension_client_match_deflate *)
Definition client_match_deflate (e : str) : Z * option dctx :=
  if starts EXT_DEFLATE e then
    let s := parse_params false e in
    if d_ret s =? U_OK then
      if zinit (c_cbits (d_ctx s)) (c_sbits (d_ctx s)) then (U_OK, Some (d_ctx s)) else (U_ERROR, None)
    else (U_ERROR, None)
  else (U_ERROR, None).
End Zlib.

(** ** compressing and decompressing a message *)
Section Stream.
(** the state of a zlib stream. [zdeflate s mask d]: the complete output of deflate for the input [d] flushed with the mask, by
    repeated calls until one leaves room in the output buffer; None if a call returns something else than Z_OK,
    Z_STREAM_END, Z_BUF_ERROR (whatever was produced before is dropped). [zinflate] likewise. *)
Variable S : Type.
Variables zdeflate zinflate : S -> bool -> list Z -> option (list Z) * S.
Definition W_BUFF_LEN := 256.

(** u_websocket.c:1985-2006, 2077-2093 the loop: one call per turn produces at most 256 bytes of the output [pend] and the loop goes on while the
    buffer was filled. realloc'ed block, number of bytes in it. [fuel]: one turn per byte and one more are enough. *)
Fixpoint chunks (fuel : nat) (pend : list Z) (b : buf) (len : Z) : outcome (buf * Z) :=
  match fuel with
  | O => UB Endless
  | Datatypes.S k =>
      let b := realloc b (len + W_BUFF_LEN) in
      let out := zfirstn W_BUFF_LEN pend in
      do b <- memcpy b len (map Some out) (zlen out);
      if zlen out =? W_BUFF_LEN then chunks k (zskipn W_BUFF_LEN pend) b (len + zlen out) else Ret (b, len + zlen out)
  end.

(** reading data_out[i]: i is unsigned, so that i - 1 for i = 0 is far out of the block *)
Definition rd (b : buf) (i : Z) : outcome Z :=
  if (0 <=? i) && (i <? zlen b) then match nth (Z.to_nat i) b None with Some c => Ret c | None => UB Uninit end else UB OutOfBounds.

(** u_websocket.c:2038-2043 *)
Definition strip (b : buf) (len : Z) : outcome (buf * Z) :=
  do a <- rd b (len - 1);
  if a =? 255 then
    do a <- rd b (len - 2);
    if a =? 255 then
      do a <- rd b (len - 3);
      if a =? 0 then
        do a <- rd b (len - 4);
        if a =? 0 then Ret (b, len - 4) else do b <- store b len 0; Ret (b, len + 1)
      else do b <- store b len 0; Ret (b, len + 1)
    else do b <- store b len 0; Ret (b, len + 1)
  else do b <- store b len 0; Ret (b, len + 1).

(** u_websocket.c:1961-2049 websocket_extension_message_out_deflate: *data_out and *data_len_out, or None for an error. avail_in is
    an uInt: the input is cut modulo 2^32. deflate_mask is never Z_BLOCK, so 2009-2028 is left out. Without data
    *data_out keeps its value, NULL. *)
Definition out_deflate (s : S) (full : bool) (d : list Z) : outcome (option (buf * Z) * S) :=
  if zlen d =? 0 then Ret (Some ([], 0), s)
  else
    match zdeflate s full (zfirstn (zlen d mod 4294967296) d) with
    | (None, s') => Ret (None, s')
    | (Some pend, s') =>
        do r <- chunks (Datatypes.S (length pend)) pend [] 0;
        do r <- strip (fst r) (snd r);
        Ret (Some r, s')
    end.

(** u_websocket.c:2051-2127 websocket_extension_message_in_inflate. 2^63 - 4 bytes or more are not modelled: no such message fits in
    memory. malloc(0) is a block without bytes. *)
Definition in_inflate (s : S) (full : bool) (d : list Z) : outcome (option (buf * Z) * S) :=
  if zlen d =? 0 then Ret (Some ([], 0), s)
  else
    match zinflate s full (zfirstn ((zlen d + 4) mod 4294967296) (d ++ [0; 0; 255; 255])) with
    | (None, s') => Ret (None, s')
    | (Some pend, s') => do r <- chunks (Datatypes.S (length pend)) pend [] 0; Ret (Some r, s')
    end.
End Stream.
