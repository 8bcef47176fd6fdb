(** Model of the extension pipelines (src/u_websocket.c:589-652, 1547-1573) and of the random websocket key
    (src/u_websocket.c:2354-2400). *)
From Coq Require Import String ZArith Bool List.
From Verif Require Import Base WsFrameModel.
Import ListNotations.
Open Scope Z_scope.

Section Pipeline.
(** what the context pointer of an extension refers to *)
Variable C : Type.
(** websocket_extension_message_out_perform, websocket_extension_message_in_perform: function, context, opcode,
    data_in, fragment_len, user data |-> data_out (None: not U_OK), context afterwards. A function only changes its own context. *)
Variables out_perform in_perform : Z -> C -> Z -> list Z -> Z -> Z -> option (list Z) * C.
(** does an allocation of that size succeed *)
Variable alloc_ok : Z -> bool.

(** struct _websocket_extension (include/ulfius.h:421-460), once negotiated *)
Record ext := mk_ext { e_rsv : Z; e_enabled : bool; e_out : option Z; e_out_data : Z; e_in : option Z; e_in_data : Z; e_ctx : C }.
Definition set_ctx (e : ext) (c : C) : ext := mk_ext (e_rsv e) (e_enabled e) (e_out e) (e_out_data e) (e_in e) (e_in_data e) c.

(** u_websocket.c:1548-1570 the loop of ulfius_websocket_send_fragmented_message: return code, rsv, data_in, extensions.
    data_out_len > SIZE_MAX is impossible with 64 bits. *)
Fixpoint out_loop (opcode fragment : Z) (l : list ext) (rsv : Z) (data : list Z) : Z * Z * list Z * list ext :=
  match l with
  | [] => (U_OK, rsv, data, [])
  | e :: r =>
      match (if e_enabled e then e_out e else None) with
      | Some f =>
          match out_perform f (e_ctx e) opcode data fragment (e_out_data e) with
          | (None, c) => (U_ERROR, rsv, data, set_ctx e c :: r)
          | (Some d, c) =>
              if alloc_ok (zlen d) then
                let '(ret, rsv', d', r') := out_loop opcode fragment r (Z.lor rsv (e_rsv e)) d in (ret, rsv', d', set_ctx e c :: r')
              else (U_ERROR_MEMORY, Z.lor rsv (e_rsv e), [], set_ctx e c :: r)
          end
      | None => let '(ret, rsv', d', r') := out_loop opcode fragment r rsv data in (ret, rsv', d', e :: r')
      end
  end.
(** u_websocket.c:1540-1575 a message that is neither CLOSE nor an ignored PING: what
    ulfius_send_websocket_message_managed is called with if the code is U_OK *)
Definition out_message (opcode fragment : Z) (l : list ext) (data : list Z) : Z * Z * list Z * list ext :=
  if negb (zlen data =? 0) && negb (alloc_ok (zlen data)) then (U_ERROR_MEMORY, 0, data, l)
  else if negb (zlen l =? 0) && ((opcode =? OP_BINARY) || (opcode =? OP_TEXT)) then out_loop opcode fragment l 0 data
  else (U_OK, 0, data, l).

(** u_websocket.c:604-641 the loop over the extensions, [l] in the order of the loop: return code, data_in, extensions. The user data
    passed is the one of the outgoing function (line 616). fragment_len is 0. *)
Fixpoint in_loop (opcode rsv : Z) (l : list ext) (data : list Z) : Z * list Z * list ext :=
  match l with
  | [] => (U_OK, data, [])
  | e :: r =>
      match (if e_enabled e then e_in e else None) with
      | Some f =>
          if Z.land rsv (e_rsv e) =? 0 then let '(ret, d', r') := in_loop opcode rsv r data in (ret, d', e :: r')
          else
            match in_perform f (e_ctx e) opcode data 0 (e_out_data e) with
            | (None, c) => (U_ERROR, data, set_ctx e c :: r)
            | (Some d, c) =>
                if (zlen d =? 0) || alloc_ok (zlen d) then
                  let '(ret, d', r') := in_loop opcode rsv r d in (ret, d', set_ctx e c :: r')
                else (U_ERROR_MEMORY, [], set_ctx e c :: r)
            end
      | None => let '(ret, d', r') := in_loop opcode rsv r data in (ret, d', e :: r')
      end
  end.
(** u_websocket.c:589-652 ulfius_websocket_extension_message_in_perform_apply: the last extension is the first of the
    loop *)
Definition in_message (opcode rsv : Z) (l : list ext) (data : list Z) : Z * list Z * list ext :=
  if zlen l =? 0 then (U_OK, data, l)
  else if (zlen data =? 0) || alloc_ok (zlen data) then
    let '(ret, d, l') := in_loop opcode rsv (rev l) data in (ret, d, rev l')
  else (U_ERROR_MEMORY, data, l).
End Pipeline.
Arguments mk_ext {C}.
Arguments e_rsv {C}.
Arguments e_enabled {C}.
Arguments e_out {C}.
Arguments e_out_data {C}.
Arguments e_in {C}.
Arguments e_in_data {C}.
Arguments e_ctx {C}.
Arguments set_ctx {C}.

(** ** the random key *)

(** u_websocket.c:2354-2377 random_at_most with max = 61; all values are unsigned char. [rnd]: the bytes gnutls_rnd
    gives, one per call, None if it fails. Result: None if *res is 0; the bytes not used. Without fuel: the stream [rnd] is
    as long as needed, at its end the generator fails. *)
Definition rnd_max := 61.
Definition num_bins := Z.modulo (rnd_max + 1) 256.
Definition bin_size := 255 / num_bins.
Definition defect := Z.modulo 255 num_bins.
Fixpoint random_at_most (rnd : list (option Z)) : option Z * list (option Z) :=
  match rnd with
  | [] => (None, [])
  | None :: r => (None, r)
  | Some x :: r => if 255 - defect <=? x then random_at_most r else (Some (x / bin_size), r)
  end.

Definition charset : list Z := bs "abcdefghijklmnopqrstuvwxyzABCDEFGHIJKLMNOPQRSTUVWXYZ0123456789".

(** u_websocket.c:2382-2400 rand_string: the loop from index [n] on, [left] turns left; charset has a final NUL, of which reading is
    no error: index 62 would be read *)
Fixpoint rand_loop (left : nat) (n : Z) (rnd : list (option Z)) (dst : buf) : outcome (option Z * buf) :=
  match left with
  | O => do d <- store dst n 0; Ret (Some n, d)
  | S k =>
      match random_at_most rnd with
      | (None, _) => Ret (None, dst)
      | (Some key, rnd') =>
          do c <- aget (charset ++ [0]) (Z.to_nat key);
          do d <- store dst n c;
          rand_loop k (n + 1) rnd' d
      end
  end.
Definition rand_string (size : Z) (rnd : list (option Z)) (dst : buf) : outcome (option Z * buf) :=
  if 0 <? size then rand_loop (Z.to_nat size) 0 rnd dst else Ret (None, dst).
