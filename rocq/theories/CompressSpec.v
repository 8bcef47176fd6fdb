(** What a client reads in a response whose body may be compressed (C80). *)
From Coq Require Import String ZArith Bool List.
From Verif Require Import Base SMap NegoSpec TokenSpec CompressModel.
Import ListNotations.
Open Scope Z_scope.

(** RFC 9110, 8.4: the content, given what undoes a coding *)
Definition content (unzip : bool -> list Z -> option (list Z)) (d : smap) (body x : list Z) : Prop :=
  lacks d (bs "Content-Encoding") /\ x = body \/ exists gz, single d (bs "Content-Encoding") (coding gz) /\ unzip gz body = Some x.
(** 12.5.3: the client names the coding *)
Definition accepts (d : smap) (gz : bool) : Prop := exists a, single d (bs "Accept-Encoding") a /\ value_of 44 a (coding gz).
Definition enabled (c : option zconfig) (gz : bool) : Prop := match c with Some c => (if gz then z_gzip c else z_deflate c) = true | None => True end.
(** the coding to use: gzip if possible *)
Definition chosen (c : option zconfig) (d : smap) (gz : bool) : Prop :=
  enabled c gz /\ accepts d gz /\ (gz = false -> ~ (enabled c true /\ accepts d true)).
(** the body is these bytes *)
Definition holds_body (m : CopyModel.msg) (l : list Z) : Prop := CopyModel.m_length m = zlen l /\ exists t, CopyModel.m_body m = Some (block_of l ++ t).
(** the contract of zlib: a stream is cut as the room allows, whatever the answer is called; nothing is written beyond the room *)
Section Contract.
Variable S : Type.
Variable zinit : bool -> list Z -> option S.
Variable zfinish : S -> Z -> Z * list Z * S.
Definition zlib_ok (zip : bool -> list Z -> list Z) (left : S -> list Z) : Prop :=
  (forall gz x s, zinit gz x = Some s -> left s = zip gz x) /\
  (forall s n code out s', 0 < n -> zfinish s n = (code, out, s') -> zlen out <= n /\ (fair code = true -> out = zfirstn n (left s) /\ left s' = zskipn n (left s))).
End Contract.
