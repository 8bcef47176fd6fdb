(** What the extension pipelines and the random key should do. *)
From Coq Require Import ZArith Bool List.
From Verif Require Import Base WsFrameModel ExtModel.
Import ListNotations.
Open Scope Z_scope.

Section Pipeline.
Variable C : Type.
Variables out_perform in_perform : Z -> C -> Z -> list Z -> Z -> Z -> option (list Z) * C.

(** the function [g], with its user data [ug], undoes [f], with its user data [uf], as long as the contexts are related by [I] *)
Definition inverse (f uf g ug : Z) (I : C -> C -> Prop) : Prop :=
  forall s r opcode d fragment x s', I s r -> out_perform f s opcode d fragment uf = (Some x, s') ->
    exists r', in_perform g r opcode x 0 ug = (Some d, r') /\ I s' r'.

(** the same extension on the two sides: [e] of the sender, [e'] of the receiver *)
Definition paired (e e' : ext C) : Prop :=
  e_rsv e = e_rsv e' /\ e_enabled e = e_enabled e' /\ e_rsv e <> 0 /\
  (e_enabled e = true -> forall f, e_out e = Some f ->
     exists g I, e_in e' = Some g /\ inverse f (e_out_data e) g (e_in_data e') I /\ I (e_ctx e) (e_ctx e')).

Definition bits_apart (l : list (ext C)) : Prop :=
  ForallOrdPairs (fun a b => e_enabled a = true -> e_enabled b = true -> Z.land (e_rsv a) (e_rsv b) = 0) l.

(** a conversation: messages (opcode, fragment_len, data) sent one after the other; what the receiver makes of each of them *)
Variable alloc_ok : Z -> bool.
Inductive conversation : list (ext C) -> list (ext C) -> list (Z * Z * list Z) -> list (Z * list Z) -> Prop :=
| v_nil : forall l l', conversation l l' [] []
| v_msg : forall l l' opcode fragment data rsv wire l1 ret got l1' ms res,
    out_message C out_perform alloc_ok opcode fragment l data = (U_OK, rsv, wire, l1) ->
    in_message C in_perform (fun _ => true) opcode rsv l' wire = (ret, got, l1') ->
    conversation l1 l1' ms res ->
    conversation l l' ((opcode, fragment, data) :: ms) ((ret, got) :: res).
End Pipeline.

(** ** the random key *)
(** the bytes below 248 before the generator fails *)
Fixpoint usable (rnd : list (option Z)) : list Z :=
  match rnd with
  | Some x :: r => if x <? 248 then x :: usable r else usable r
  | _ => []
  end.
Definition letter (x : Z) : Z := nth (Z.to_nat (x / 4)) charset 0.
