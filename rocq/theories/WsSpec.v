(** RFC 6455: frames on the wire (section 5.2) and messages made of them (section 5.4). *)
From Coq Require Import ZArith Bool List.
From Verif Require Import Base Utf8Spec WsFrameModel.
Import ListNotations.
Open Scope Z_scope.

(** network byte order on [k] bytes *)
Fixpoint be (k : nat) (n : Z) : list Z :=
  match k with
  | O => []
  | S k => (n / 256 ^ Z.of_nat k) mod 256 :: be k n
  end.

(** section 5.2: FIN, RSV1-3, opcode; MASK, payload length in the shortest form *)
Definition rfc_header (fin : bool) (rsv op : Z) (masked : bool) (n : Z) : list Z :=
  let m := if masked then 128 else 0 in
  ((if fin then 128 else 0) + rsv + op) ::
  (if n <=? 125 then [m + n] else if n <=? 65535 then (m + 126) :: be 2 n else (m + 127) :: be 8 n).

(** section 5.3: octet i is octet i XOR octet (i mod 4) of the key *)
Definition masked_with (key p q : list Z) : Prop :=
  length q = length p /\ forall i, (i < length p)%nat -> nth i q 0 = Z.lxor (nth i p 0) (nth (i mod 4) key 0).

(** a frame: its parts, and its bytes *)
Record frame := mk_frame { f_fin : bool; f_rsv : Z; f_op : Z; f_key : option (list Z); f_payload : list Z }.
Definition frame_ok (f : frame) : Prop :=
  0 <= f_op f < 16 /\ (exists k, 0 <= k < 8 /\ f_rsv f = 16 * k) /\ bytes (f_payload f) /\
  match f_key f with Some k => length k = 4%nat /\ bytes k | None => True end.
Definition wire (f : frame) (w : list Z) : Prop :=
  let n := zlen (f_payload f) in
  match f_key f with
  | Some k => exists q, masked_with k (f_payload f) q /\ w = rfc_header (f_fin f) (f_rsv f) (f_op f) true n ++ k ++ q
  | None => w = rfc_header (f_fin f) (f_rsv f) (f_op f) false n ++ f_payload f
  end.

(** a socket that delivers bytes, in any chunks and with any pauses *)
Definition calm (evs : list rd) : Prop := Forall (fun e => e <> RGone /\ e <> RFail) evs.
Fixpoint stream (evs : list rd) : list Z :=
  match evs with
  | [] => []
  | RData b :: r => b ++ stream r
  | _ :: r => stream r
  end.
