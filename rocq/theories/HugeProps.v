(** C33: a frame of 4 GiB or more is built and sent, read to its last byte, and then refused. *)
From Coq Require Import ZArith Bool List Lia.
From Verif Require Import Base BaseFacts WsFrameModel WsSpec WsFrameProofs WsProps.
Import ListNotations.
Open Scope Z_scope.

Lemma read_payload_huge : forall alloc_ok (masked : bool) key evs p rest, calm evs -> 4294967296 <= zlen p < 2 ^ 54 -> alloc_ok (zlen p) = true -> stream evs = p ++ rest ->
  exists evs', read_payload alloc_ok masked key (zlen p) evs true = (U_ERROR, [], evs', true) /\ stream evs' = rest /\ calm evs'.
Proof.
  intros alloc_ok masked key evs p rest C N A S. change (2 ^ 54) with 18014398509481984 in N. unfold read_payload.
  replace (zlen p =? 0) with false by (symmetry; apply Z.eqb_neq; lia). rewrite A. replace (zlen p <? 9223372036854775808) with true by (symmetry; apply Z.ltb_lt; lia). cbn [andb].
  destruct (read_calm0 evs p rest C) as (evs' & R & S' & C'); auto; [intros ->; cbn in N; lia|]. rewrite R.
  pose proof (Z.mod_pos_bound (zlen p) 4294967296 ltac:(lia)). replace (zlen p mod 4294967296 =? zlen p) with false by (symmetry; apply Z.eqb_neq; lia). exists evs'. auto.
Qed.

(** ulfius_read_incoming_message compares (unsigned int)len with the length (u_websocket.c:534): a frame of 2^32 bytes or more that ulfius itself builds, and that arrives whole,
    is read to its last byte and answered with U_ERROR; there is no message. *)
Theorem C33_huge_refuted : forall alloc_ok m, outgoing m -> m_has_mask m = false -> 4294967296 <= zlen (m_data m) < 2 ^ 54 -> alloc_ok (zlen (m_data m)) = true ->
  exists w, build_frame m 0 (zlen (m_data m)) = Ret (block_of w) /\
    forall evs rest, calm evs -> stream evs = w ++ rest -> exists evs', read_message alloc_ok false evs true = (U_ERROR, None, evs', true) /\ stream evs' = rest.
Proof.
  intros alloc_ok m OG HM N A. destruct (whole_wire m OG) as (w & BF & WI); [lia|congruence|]. exists w. split; [exact BF|]. intros evs rest C S.
  unfold wire, whole in WI. cbn [f_key f_payload f_fin f_rsv f_op] in WI. rewrite HM in WI. subst w. rewrite <- app_assoc in S.
  destruct OG as (O & (k & K & R) & _ & _).
  destruct (read_header_rfc evs (m_data m ++ rest) true (m_rsv m) (m_opcode m) false (zlen (m_data m)) C) as (e1 & l7 & R1 & L7 & S1 & C1); auto; try lia.
  unfold read_message. rewrite R1. rewrite Z.eqb_refl. cbn [nth]. destruct (b1_facts l7 L7) as [_ BB]. destruct (BB false) as [BB1 BB2]. clear BB.
  unfold read_mask. rewrite BB2. cbv iota. rewrite Z.eqb_refl. cbv iota.
  destruct (read_payload_huge alloc_ok false [] e1 _ rest C1 N A S1) as (e3 & R3 & S3 & C3). rewrite R3. exists e3. split; [reflexivity|exact S3].
Qed.
Print Assumptions C33_huge_refuted.

(** such a message, and a socket that has its frame in one piece *)
Example C33_huge_hyps : exists m, outgoing m /\ m_has_mask m = false /\ zlen (m_data m) = 4294967296 /\
  forall w, build_frame m 0 (zlen (m_data m)) = Ret (block_of w) -> exists evs, calm evs /\ stream evs = w ++ [].
Proof.
  assert (D : exists data, bytes data /\ zlen data = 4294967296).
  { exists (repeat 0 (Z.to_nat 4294967296)). split; [apply Forall_forall; intros x I; apply repeat_spec in I; subst; lia|]. unfold zlen. rewrite repeat_length. apply Z2Nat.id. discriminate. }
  destruct D as (data & B & L). exists (mk_wmsg OP_BINARY 0 true false [] data 0). split; [|split; [reflexivity|]].
  - split; [split; [discriminate|reflexivity]|]. split; [exists 0; split; [lia|reflexivity]|]. split; [exact B|]. discriminate.
  - split; [exact L|]. intros w _. exists [RData w]. split; [|cbn [stream]; reflexivity]. constructor; [split; discriminate|constructor].
Qed.
