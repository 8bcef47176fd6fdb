(** Model of websocket frames: building them (src/u_websocket.c:164-399) and reading them
    (src/u_websocket.c:96-159, 401-566). Bytes are [Z], a frame being built is a memory block. *)
From Coq Require Import ZArith Bool List.
From Verif Require Import Base.
Import ListNotations.
Open Scope Z_scope.

(** include/ulfius.h:1497-1517 *)
Definition OP_CONTINUE := 0.
Definition OP_TEXT := 1.
Definition OP_BINARY := 2.
Definition OP_CLOSE := 8.
Definition OP_PING := 9.
Definition OP_PONG := 10.
Definition BIT_FIN := 128.
Definition BIT_MASK := 128.
Definition LEN_MASK := 127.

(** include/ulfius.h:1656-1666 struct _websocket_message. data and data_len are kept together as one
    list (the block always has data_len bytes); fin and has_mask are tested for zero only, so
    booleans; the date is left out. *)
Record wmsg := mk_wmsg {
  m_opcode : Z; m_rsv : Z; m_fin : bool; m_has_mask : bool; m_mask : list Z; m_data : list Z; m_fragment : Z
}.

(** ** sending *)

(** the expression data[i] ^ mask[i%4], u_websocket.c:253-255 and 542-544, from index [i] on *)
Fixpoint mask_from (mask : list Z) (i : Z) (l : list Z) : list Z :=
  match l with
  | [] => []
  | b :: r => Z.lxor b (nth (Z.to_nat (i mod 4)) mask 0) :: mask_from mask (i + 1) r
  end.

(** (uint8_t)(n >> s) *)
Definition byte_at (n s : Z) : Z := Z.land (Z.shiftr n s) 255.

(** u_websocket.c:223-250 the bytes stored in front of the payload, in order of their addresses:
    [mlen] is message->data_len, [len] the data_len argument, [fdl] is frame_data_len *)
Definition frame_header (m : wmsg) (mlen len fdl : Z) (fin : bool) : list Z :=
  let b0 := if fin then Z.lor (Z.lor (m_opcode m) (m_rsv m)) BIT_FIN else m_rsv m in
  let mk b := if m_has_mask m then Z.lor b BIT_MASK else b in
  let ext := if 65536 <=? mlen then
               [mk 127; byte_at fdl 54; byte_at fdl 48; byte_at fdl 40; byte_at fdl 32; byte_at fdl 24; byte_at fdl 16; byte_at fdl 8; byte_at fdl 0]
             else if 125 <? len then [mk 126; byte_at fdl 8; byte_at fdl 0]
             else [mk (byte_at fdl 0)] in
  b0 :: ext ++ (if m_has_mask m then m_mask m else []).

(** u_websocket.c:196-268 ulfius_build_frame with non-NULL arguments, allocation succeeding. The
    stores into the frame are grouped in two writes: header and mask, then payload. The index of
    the masking loop is 32 bits wide: from 2^32 bytes on the loop does not end. *)
Definition build_frame (m : wmsg) (off len : Z) : outcome buf :=
  let mlen := zlen (m_data m) in
  let room := 2 + (if 65536 <=? mlen then 8 else if 125 <? mlen then 2 else 0) + (if m_has_mask m then 4 else 0) in
  let fin := mlen <=? add64 off len in
  let fdl := if fin then (mlen - off) mod two64 else len in
  let frame := malloc (add64 room fdl) in
  let hd := frame_header m mlen len fdl fin in
  do f1 <- memcpy frame 0 (block_of hd) (zlen hd);
  if zlen (m_data m) <? off + fdl then UB OutOfBounds
  else if m_has_mask m && (4294967296 <=? fdl) then UB Endless
  else
    let payload := zfirstn fdl (zskipn off (m_data m)) in
    memcpy f1 (zlen hd) (block_of (if m_has_mask m then mask_from (m_mask m) 0 payload else payload)) fdl.

(** u_websocket.c:275-330 ulfius_build_message; [mask] is what gnutls_rnd returns. fragment_len and
    fin are never initialised there and never read afterwards; they are 0 here. *)
Definition build_message (opcode rsv : Z) (has_mask : bool) (mask data : list Z) : option wmsg :=
  if (opcode =? OP_TEXT) || (opcode =? OP_BINARY) || (opcode =? OP_CLOSE) || (opcode =? OP_PING) || (opcode =? OP_PONG)
  then Some (mk_wmsg opcode rsv false has_mask (if has_mask then mask else [0; 0; 0; 0]) data 0)
  else None.

Definition set_opcode (m : wmsg) (o : Z) : wmsg :=
  mk_wmsg o (m_rsv m) (m_fin m) (m_has_mask m) (m_mask m) (m_data m) (m_fragment m).

(** u_websocket.c:356-373 the frames of a message that has data. Each round advances by at least one
    byte, so [fuel] = data_len rounds are enough. *)
Fixpoint frames_loop (fuel : nat) (m : wmsg) (fragment off : Z) : outcome (list buf * wmsg) :=
  match fuel with
  | O => Ret ([], m)
  | S fuel =>
      let dlen := zlen (m_data m) in
      if off <? dlen then
        let left := dlen - off in
        let cur := if fragment =? 0 then (if dlen <? left then dlen else left)
                   else (if fragment <? left then fragment else left) in
        do f <- build_frame m off cur;
        do r <- frames_loop fuel (set_opcode m OP_CONTINUE) fragment (off + cur);
        Ret (f :: fst r, snd r)
      else Ret ([], m)
  end.

(** u_websocket.c:355-379 the frames sent for a message, and the message afterwards (as it is stored
    in the list of outgoing messages) *)
Definition message_frames (m : wmsg) (fragment : Z) : outcome (list buf * wmsg) :=
  if zlen (m_data m) =? 0 then do f <- build_frame m 0 0; Ret ([f], m)
  else frames_loop (length (m_data m)) m fragment 0.

(** ** receiving *)

(** What one round of "poll, then read" gives: nothing yet; the connection is gone (poll error or hang
    up: connected becomes 0 and nothing is read); read fails; read returns 0; the bytes that can be
    read. A finished schedule is a connection that is gone. *)
Inductive rd := RIdle | RGone | RFail | REof | RData (b : list Z).

(** u_websocket.c:136-159 read_data_from_socket, len > 0, with [acc] already read; None is -1. The
    number of bytes wanted is below 2^63. *)
Fixpoint read_data (evs : list rd) (conn : bool) (len : Z) (acc : list Z) : option (list Z) * list rd * bool :=
  match evs with
  | [] => (Some acc, [], false)
  | RIdle :: r | REof :: r => if conn then read_data r conn len acc else (Some acc, r, conn)
  | RGone :: r => (Some acc, r, false)
  | RFail :: r => (None, r, conn)
  | RData b :: r =>
      let acc' := acc ++ zfirstn (len - zlen acc) b in
      let rest := zskipn (len - zlen acc) b in
      if conn && (zlen acc' <? len) then read_data r conn len acc'
      else (Some acc', match rest with [] => r | _ => RData rest :: r end, conn)
  end.

(** is_websocket_data_available, u_websocket.c:96-114: result, what is left, connected *)
Definition data_available (evs : list rd) (conn : bool) : bool * list rd * bool :=
  match evs with
  | [] => (false, [], false)
  | RIdle :: r => (false, r, conn)
  | RGone :: r => (false, r, false)
  | _ => (true, evs, conn)
  end.

(** big-endian lengths as the code assembles them, u_websocket.c:469, 479-486 *)
Definition len16 (p : list Z) : Z := Z.lor (nth 1 p 0) (Z.shiftl (nth 0 p 0) 8).
Definition len64 (p : list Z) : Z :=
  Z.lor (nth 7 p 0) (Z.lor (Z.shiftl (nth 6 p 0) 8) (Z.lor (Z.shiftl (nth 5 p 0) 16) (Z.lor (Z.shiftl (nth 4 p 0) 24)
    (Z.lor (Z.shiftl (nth 3 p 0) 32) (Z.lor (Z.shiftl (nth 2 p 0) 40) (Z.lor (Z.shiftl (nth 1 p 0) 48) (Z.shiftl (nth 0 p 0) 54))))))).

Section Read.
(** does malloc of that many bytes succeed *)
Variable alloc_ok : Z -> bool.

(** u_websocket.c:460-499 header and length: result, header, msg_len *)
Definition read_header (evs : list rd) (conn : bool) : Z * list Z * Z * list rd * bool :=
  let '(h, evs, conn) := read_data evs conn 2 [] in
  match h with
  | Some [h0; h1] =>
      let l7 := Z.land h1 LEN_MASK in
      if l7 <=? 125 then (U_OK, [h0; h1], l7, evs, conn)
      else
        let want := if l7 =? 126 then 2 else 8 in
        let '(p, evs, conn) := read_data evs conn want [] in
        match p with
        | Some p => if zlen p =? want then (U_OK, [h0; h1], (if l7 =? 126 then len16 p else len64 p), evs, conn)
                    else (U_ERROR, [h0; h1], 0, evs, conn)
        | None => (U_ERROR_DISCONNECTED, [h0; h1], 0, evs, conn)
        end
  | Some [] => (U_ERROR, [0; 0], 0, evs, conn)
  | _ => (U_ERROR_DISCONNECTED, [0; 0], 0, evs, conn)
  end.

(** u_websocket.c:506-528 mask *)
Definition read_mask (server : bool) (h1 : Z) (evs : list rd) (conn : bool) : Z * bool * list Z * list rd * bool :=
  let flag := negb (Z.land h1 BIT_MASK =? 0) in
  if server then
    if flag then
      let '(k, evs, conn) := read_data evs conn 4 [] in
      match k with
      | Some k => ((if zlen k =? 4 then U_OK else U_ERROR), true, k, evs, conn)
      | None => (U_ERROR_DISCONNECTED, true, [], evs, conn)
      end
    else (U_ERROR, false, [], evs, conn)
  else ((if flag then U_ERROR else U_OK), false, [], evs, conn).

(** u_websocket.c:529-555 payload; the comparison of the length read is made on 32 bits *)
Definition read_payload (masked : bool) (key : list Z) (msg_len : Z) (evs : list rd) (conn : bool) : Z * list Z * list rd * bool :=
  if msg_len =? 0 then (U_OK, [], evs, conn)
  else if alloc_ok msg_len && (msg_len <? 9223372036854775808) then
    let '(p, evs, conn) := read_data evs conn msg_len [] in
    match p with
    | None => (U_ERROR_DISCONNECTED, [], evs, conn)
    | Some p => if zlen p mod 4294967296 =? msg_len
                then (U_OK, (if masked then mask_from key 0 p else p), evs, conn)
                else (U_ERROR, [], evs, conn)
    end
  else (U_ERROR, [], evs, conn).

(** u_websocket.c:437-566 ulfius_read_incoming_message; the lock is taken and the message structure
    allocated. On error the message is freed and set to NULL. The mask of the message structure
    is not set by this function; it is left empty here. *)
Definition read_message (server : bool) (evs : list rd) (conn : bool) : Z * option wmsg * list rd * bool :=
  let '(ret, h, msg_len, evs, conn) := read_header evs conn in
  if ret =? U_OK then
    let h0 := nth 0 h 0 in let h1 := nth 1 h 0 in
    let fin := negb (Z.land h0 BIT_FIN =? 0) in
    let '(ret, masked, key, evs, conn) := read_mask server h1 evs conn in
    if ret =? U_OK then
      let '(ret, data, evs, conn) := read_payload masked key msg_len evs conn in
      if ret =? U_OK then
        (U_OK, Some (mk_wmsg (Z.land h0 15) (Z.land h0 112) fin masked [] data (if fin then 0 else msg_len)), evs, conn)
      else (ret, None, evs, conn)
    else (ret, None, evs, conn)
  else (ret, None, evs, conn).
End Read.

(** u_websocket.c:401-430 ulfius_merge_fragmented_message, the reallocation succeeding: result and the
    first message *)
Definition merge (orig next : wmsg) : Z * wmsg :=
  if m_fin orig then (U_ERROR_PARAMS, orig)
  else if ((m_opcode orig =? OP_TEXT) || (m_opcode orig =? OP_BINARY)) && (m_opcode next =? OP_CONTINUE) then
    (U_OK, mk_wmsg (m_opcode orig) (m_rsv orig) (m_fin next) (m_has_mask orig) (m_mask orig) (m_data orig ++ m_data next)
             (if m_fragment orig =? 0 then zlen (m_data orig) else m_fragment orig))
  else (U_ERROR_PARAMS, orig).
