(** Proofs about building and reading websocket frames. *)
From Coq Require Import ZArith Bool List Lia.
From Verif Require Import Base BaseFacts WsFrameModel WsSpec.
Import ListNotations.
Open Scope Z_scope.

(** ** bits *)
Lemma byte_at_mod : forall n s, 0 <= s -> byte_at n s = (n / 2 ^ s) mod 256.
Proof. intros n s S. unfold byte_at. rewrite Z.shiftr_div_pow2 by auto. change 255 with (Z.ones 8). rewrite Z.land_ones by lia. reflexivity. Qed.

Lemma window : forall n s i, 0 <= s -> 0 <= i ->
  Z.testbit (Z.shiftl (byte_at n s) s) i = Z.testbit n i && (s <=? i) && (i <? s + 8).
Proof.
  intros n s i S I. unfold byte_at. rewrite Z.shiftl_spec by auto. destruct (s <=? i) eqn:E.
  - apply Z.leb_le in E. rewrite Z.land_spec, Z.shiftr_spec by lia. replace (i - s + s) with i by lia.
    change 255 with (Z.ones 8). destruct (i <? s + 8) eqn:F.
    + apply Z.ltb_lt in F. rewrite Z.ones_spec_low by lia. now rewrite !andb_true_r.
    + apply Z.ltb_ge in F. rewrite Z.ones_spec_high by lia. now rewrite !andb_false_r.
  - apply Z.leb_gt in E. rewrite Z.testbit_neg_r by lia. now rewrite !andb_false_r.
Qed.

Lemma high_bit : forall n k i, 0 <= n < 2 ^ k -> 0 <= k <= i -> Z.testbit n i = false.
Proof.
  intros n k i N K. destruct (Z.eq_dec n 0) as [->|Z0]; [apply Z.bits_0|].
  apply Z.bits_above_log2; [lia|]. assert (Z.log2 n < k); [|lia]. apply Z.log2_lt_pow2; lia.
Qed.

Lemma len16_bytes : forall n, 0 <= n < 65536 -> len16 [byte_at n 8; byte_at n 0] = n.
Proof.
  intros n N. apply Z.bits_inj'. intros i I. unfold len16. cbn [nth]. rewrite <- (Z.shiftl_0_r (byte_at n 0)).
  rewrite Z.lor_spec, !window by lia. destruct (Z.testbit n i) eqn:T; cbn [andb]; auto.
  destruct (Z_lt_le_dec i 16) as [L|L]; [|rewrite (high_bit n 16 i) in T by lia; discriminate].
  destruct (0 <=? i) eqn:E1, (i <? 0 + 8) eqn:E2, (8 <=? i) eqn:E3, (i <? 8 + 8) eqn:E4; auto; lia.
Qed.

Lemma len64_bytes : forall n, 0 <= n < 2 ^ 62 ->
  len64 [byte_at n 54; byte_at n 48; byte_at n 40; byte_at n 32; byte_at n 24; byte_at n 16; byte_at n 8; byte_at n 0] = n.
Proof.
  intros n N. apply Z.bits_inj'. intros i I. unfold len64. cbn [nth]. rewrite <- (Z.shiftl_0_r (byte_at n 0)).
  rewrite !Z.lor_spec, !window by lia. destruct (Z.testbit n i) eqn:T; cbn [andb]; auto.
  destruct (Z_lt_le_dec i 62) as [L|L]; [|rewrite (high_bit n 62 i) in T by lia; discriminate].
  assert (S : i < 8 \/ 8 <= i < 16 \/ 16 <= i < 24 \/ 24 <= i < 32 \/ 32 <= i < 40 \/ 40 <= i < 48 \/ 48 <= i < 56 \/ 54 <= i < 62) by lia.
  rewrite !orb_true_iff, !andb_true_iff, !Z.leb_le, !Z.ltb_lt. lia.
Qed.

Lemma be2 : forall n, be 2 n = [byte_at n 8; byte_at n 0].
Proof. intros n. cbn [be]. rewrite !byte_at_mod by lia. reflexivity. Qed.

Lemma be8 : forall n, 0 <= n < 2 ^ 54 ->
  be 8 n = [byte_at n 54; byte_at n 48; byte_at n 40; byte_at n 32; byte_at n 24; byte_at n 16; byte_at n 8; byte_at n 0].
Proof.
  intros n N. cbn [be]. rewrite !byte_at_mod by lia. f_equal.
  change (256 ^ Z.of_nat 7) with (2 ^ 56). rewrite !Z.div_small; auto; lia.
Qed.

Lemma byte0 : forall n, 0 <= n < 256 -> byte_at n 0 = n.
Proof. intros n N. rewrite byte_at_mod by lia. change (2 ^ 0) with 1. rewrite Z.div_1_r. apply Z.mod_small. lia. Qed.

Definition zrange (n : nat) : list Z := map Z.of_nat (seq 0 n).
Lemma in_zrange : forall n x, In x (zrange n) <-> 0 <= x < Z.of_nat n.
Proof.
  intros n x. unfold zrange. rewrite in_map_iff. split.
  - intros (k & <- & I). apply in_seq in I. lia.
  - intros H. exists (Z.to_nat x). split; [lia|]. apply in_seq. lia.
Qed.
Lemma zall : forall n (p : Z -> bool), forallb p (zrange n) = true -> forall x, 0 <= x < Z.of_nat n -> p x = true.
Proof. intros n p H x X. rewrite forallb_forall in H. apply H. now apply in_zrange. Qed.

Lemma b0_facts : forall op k, 0 <= op < 16 -> 0 <= k < 8 ->
  Z.lor (Z.lor op (16 * k)) BIT_FIN = 128 + 16 * k + op /\
  (forall fin : bool, let b := (if fin then 128 else 0) + 16 * k + op in
     Z.land b 15 = op /\ Z.land b 112 = 16 * k /\ negb (Z.land b BIT_FIN =? 0) = fin).
Proof.
  intros op k HO HK.
  pose (p := fun x => let op := x mod 16 in let k := x / 16 in
    (Z.lor (Z.lor op (16 * k)) BIT_FIN =? 128 + 16 * k + op) &&
    forallb (fun fin : bool => let b := (if fin then 128 else 0) + 16 * k + op in
     (Z.land b 15 =? op) && (Z.land b 112 =? 16 * k) && Bool.eqb (negb (Z.land b BIT_FIN =? 0)) fin) [true; false]).
  assert (A : p (op + k * 16) = true) by (apply (zall 128 p); [vm_compute; reflexivity|lia]).
  unfold p in A. rewrite Z.mod_add, Z.mod_small, Z.div_add, Z.div_small in A by lia. rewrite Z.add_0_l in A.
  apply andb_true_iff in A as [A B]. split; [now apply Z.eqb_eq|].
  intros fin. rewrite forallb_forall in B. assert (I : In fin [true; false]) by (destruct fin; cbn; auto).
  apply B in I. apply andb_true_iff in I as [I I3]. apply andb_true_iff in I as [I1 I2].
  apply Z.eqb_eq in I1, I2. apply eqb_prop in I3. auto.
Qed.

Lemma b1_facts : forall n, 0 <= n < 128 -> Z.lor n BIT_MASK = 128 + n /\
  forall masked : bool, let b := (if masked then 128 else 0) + n in Z.land b LEN_MASK = n /\ negb (Z.land b BIT_MASK =? 0) = masked.
Proof.
  intros n N.
  pose (p := fun n => (Z.lor n BIT_MASK =? 128 + n) && forallb (fun masked : bool => let b := (if masked then 128 else 0) + n in
    (Z.land b LEN_MASK =? n) && Bool.eqb (negb (Z.land b BIT_MASK =? 0)) masked) [true; false]).
  assert (A : p n = true) by (apply (zall 128 p); [vm_compute; reflexivity|lia]).
  apply andb_true_iff in A as [A B]. split; [now apply Z.eqb_eq|]. intros masked. rewrite forallb_forall in B.
  assert (I : In masked [true; false]) by (destruct masked; cbn; auto). apply B in I. apply andb_true_iff in I as [I1 I2].
  apply Z.eqb_eq in I1. apply eqb_prop in I2. auto.
Qed.

(** ** masking *)
Lemma zlen_mask : forall k l i, zlen (mask_from k i l) = zlen l.
Proof. intros k. induction l as [|b l IH]; intros i; [reflexivity|]. cbn [mask_from]. rewrite !zlen_cons, IH. reflexivity. Qed.

Lemma mask_twice : forall k l i, mask_from k i (mask_from k i l) = l.
Proof.
  intros k. induction l as [|b l IH]; intros i; cbn [mask_from]; auto.
  rewrite IH, Z.lxor_assoc, Z.lxor_nilpotent, Z.lxor_0_r. reflexivity.
Qed.

Lemma mask_nth : forall k l i j, (j < length l)%nat -> 0 <= i ->
  nth j (mask_from k i l) 0 = Z.lxor (nth j l 0) (nth (Z.to_nat ((i + Z.of_nat j) mod 4)) k 0).
Proof.
  intros k. induction l as [|b l IH]; intros i j J I; cbn in J; [lia|]. destruct j as [|j]; cbn [mask_from nth].
  - now rewrite Z.add_0_r.
  - rewrite IH by lia. do 2 f_equal. f_equal. f_equal. lia.
Qed.

Lemma masked_with_mask : forall k p, masked_with k p (mask_from k 0 p).
Proof.
  intros k p. split.
  - pose proof (zlen_mask k p 0). unfold zlen in H. lia.
  - intros i I. rewrite mask_nth by lia. do 2 f_equal. rewrite Z.add_0_l. change 4 with (Z.of_nat 4).
    rewrite <- Nat2Z.inj_mod, Nat2Z.id. reflexivity.
Qed.

Lemma masked_with_unique : forall k p q q', masked_with k p q -> masked_with k p q' -> q = q'.
Proof.
  intros k p q q' [L H] [L' H']. apply nth_ext with (d := 0) (d' := 0); [congruence|].
  intros i I. rewrite H, H' by lia. reflexivity.
Qed.

(** ** building *)
Lemma malloc_app : forall a b, 0 <= a -> 0 <= b -> malloc (a + b) = malloc a ++ malloc b.
Proof. intros a b A B. unfold malloc. rewrite Z2Nat.inj_add by auto. now rewrite repeat_app. Qed.
Lemma zlen_malloc : forall a, 0 <= a -> zlen (malloc a) = a.
Proof. intros a A. unfold zlen, malloc. rewrite repeat_length. lia. Qed.

Lemma fill : forall (h : buf) (p : buf) b, 0 <= b -> zlen p <= b ->
  memcpy (h ++ malloc b) (zlen h) p (zlen p) = Ret (h ++ p ++ malloc (b - zlen p)).
Proof.
  intros h p b B P. pose proof (zlen_nonneg _ h). pose proof (zlen_nonneg _ p).
  replace b with (zlen p + (b - zlen p)) at 1 by lia. rewrite malloc_app by lia.
  unfold memcpy. rewrite !zlen_app, !zlen_malloc by lia.
  rewrite (proj2 (Z.leb_le 0 (zlen h))), (proj2 (Z.leb_le 0 (zlen p))), Z.leb_refl by lia.
  rewrite (proj2 (Z.leb_le (zlen h + zlen p) (zlen h + (zlen p + (b - zlen p))))) by lia. cbn [andb].
  rewrite zfirstn_app_exact by auto. rewrite zfirstn_all. do 2 f_equal. f_equal.
  rewrite app_assoc. apply zskipn_app_exact. rewrite zlen_app, zlen_malloc by lia. lia.
Qed.

Lemma zlen_block : forall l, zlen (block_of l) = zlen l.
Proof. intros. apply zlen_map. Qed.
Lemma block_app : forall a b, block_of (a ++ b) = block_of a ++ block_of b.
Proof. intros. apply map_app. Qed.

Definition header_room (m : wmsg) : Z :=
  let mlen := zlen (m_data m) in
  2 + (if 65536 <=? mlen then 8 else if 125 <? mlen then 2 else 0) + (if m_has_mask m then 4 else 0).

Definition mask_ok (m : wmsg) : Prop := m_has_mask m = true -> zlen (m_mask m) = 4.

Lemma zlen_header : forall m mlen len fdl fin, mask_ok m -> zlen (frame_header m mlen len fdl fin) =
  2 + (if 65536 <=? mlen then 8 else if 125 <? len then 2 else 0) + (if m_has_mask m then 4 else 0).
Proof.
  intros m mlen len fdl fin M. unfold frame_header. rewrite zlen_cons, zlen_app.
  assert (zlen (if m_has_mask m then m_mask m else []) = if m_has_mask m then 4 else 0) as -> by (unfold mask_ok in M; destruct (m_has_mask m); auto).
  destruct (65536 <=? mlen), (125 <? len); unfold zlen; cbn [length]; lia.
Qed.

(** the frame for [len] bytes from [off]: header, payload, and the bytes never written *)
Lemma build_frame_ok : forall m off len (fin : bool) fdl, mask_ok m -> 0 <= off -> 0 <= len -> off + len <= zlen (m_data m) ->
  zlen (m_data m) < 2 ^ 63 -> fin = (zlen (m_data m) =? off + len) -> fdl = len ->
  (m_has_mask m = true -> len < 4294967296) ->
  let payload := zfirstn len (zskipn off (m_data m)) in
  let hd := frame_header m (zlen (m_data m)) len len fin in
  build_frame m off len =
    Ret (block_of (hd ++ (if m_has_mask m then mask_from (m_mask m) 0 payload else payload)) ++ malloc (header_room m - zlen hd)).
Proof.
  intros m off len fin fdl M O1 O2 O3 O4 -> -> O5 payload hd. unfold build_frame.
  change (2 ^ 63) with 9223372036854775808 in O4.
  rewrite (add64_small off len) by (unfold two64; lia).
  assert (E : (if zlen (m_data m) <=? off + len then (zlen (m_data m) - off) mod two64 else len) = len).
  { destruct (zlen (m_data m) <=? off + len) eqn:F; auto. apply Z.leb_le in F. rewrite Z.mod_small by (unfold two64; lia). lia. }
  rewrite E. assert (F : (zlen (m_data m) <=? off + len) = (zlen (m_data m) =? off + len)).
  { destruct (zlen (m_data m) =? off + len) eqn:F; [apply Z.eqb_eq in F; apply Z.leb_le; lia|apply Z.eqb_neq in F; apply Z.leb_gt; lia]. }
  rewrite F. fold hd. fold (header_room m).
  pose proof (zlen_header m (zlen (m_data m)) len len (zlen (m_data m) =? off + len) M) as ZH. fold hd in ZH.
  assert (RH : zlen hd <= header_room m /\ 0 <= header_room m <= 14).
  { rewrite ZH. unfold header_room. destruct (65536 <=? zlen (m_data m)), (125 <? len) eqn:A, (125 <? zlen (m_data m)) eqn:B, (m_has_mask m); lia. }
  pose proof (zlen_nonneg _ hd) as NH.
  rewrite add64_small by (unfold two64; lia).
  rewrite <- (zlen_block hd). replace (malloc (header_room m + len)) with ([] ++ malloc (header_room m + len)) by reflexivity.
  change 0 with (zlen (@nil (option Z))) at 1. rewrite fill by (rewrite ?zlen_block; lia). cbn [app bind]. rewrite zlen_block.
  replace (zlen (m_data m) <? off + len) with false by (symmetry; apply Z.ltb_ge; lia).
  replace (m_has_mask m && (4294967296 <=? len)) with false
    by (symmetry; destruct (m_has_mask m); auto; cbn [andb]; apply Z.leb_gt; auto).
  fold payload. assert (ZP : zlen payload = len).
  { unfold payload. rewrite zlen_zfirstn; auto. rewrite zlen_zskipn by lia. lia. }
  assert (ZQ : zlen (if m_has_mask m then mask_from (m_mask m) 0 payload else payload) = len) by (destruct (m_has_mask m); rewrite ?zlen_mask; auto).
  set (q := if m_has_mask m then mask_from (m_mask m) 0 payload else payload) in *.
  rewrite <- (zlen_block hd). rewrite <- ZQ at 2. rewrite <- (zlen_block q). rewrite fill by (rewrite ?zlen_block; lia).
  rewrite !zlen_block, block_app, <- app_assoc. do 4 f_equal. lia.
Qed.

Lemma header_rfc : forall m k (fin : bool), 0 <= m_opcode m < 16 -> 0 <= k < 8 -> m_rsv m = 16 * k -> zlen (m_data m) < 2 ^ 54 ->
  frame_header m (zlen (m_data m)) (zlen (m_data m)) (zlen (m_data m)) true =
  rfc_header true (m_rsv m) (m_opcode m) (m_has_mask m) (zlen (m_data m)) ++ (if m_has_mask m then m_mask m else []).
Proof.
  intros m k fin HO HK HR N. unfold frame_header, rfc_header. destruct (b0_facts _ _ HO HK) as [B0 _]. rewrite HR, B0.
  pose proof (zlen_nonneg _ (m_data m)) as P. set (n := zlen (m_data m)) in *. cbn [app]. f_equal. f_equal.
  assert (MK : forall x, 0 <= x < 128 -> (if m_has_mask m then Z.lor x BIT_MASK else x) = (if m_has_mask m then 128 else 0) + x).
  { intros x X. destruct (m_has_mask m); [apply b1_facts; auto|reflexivity]. }
  destruct (65536 <=? n) eqn:A.
  - apply Z.leb_le in A. replace (n <=? 125) with false by (symmetry; apply Z.leb_gt; lia).
    replace (n <=? 65535) with false by (symmetry; apply Z.leb_gt; lia). rewrite be8, MK by lia. reflexivity.
  - apply Z.leb_gt in A. destruct (125 <? n) eqn:B.
    + apply Z.ltb_lt in B. replace (n <=? 125) with false by (symmetry; apply Z.leb_gt; lia).
      replace (n <=? 65535) with true by (symmetry; apply Z.leb_le; lia). rewrite be2, MK by lia. reflexivity.
    + apply Z.ltb_ge in B. replace (n <=? 125) with true by (symmetry; apply Z.leb_le; lia).
      rewrite byte0, MK by lia. reflexivity.
Qed.

Lemma build_whole : forall m k, 0 <= m_opcode m < 16 -> 0 <= k < 8 -> m_rsv m = 16 * k -> mask_ok m ->
  zlen (m_data m) < 2 ^ 54 -> (m_has_mask m = true -> zlen (m_data m) < 4294967296) ->
  build_frame m 0 (zlen (m_data m)) = Ret (block_of (rfc_header true (m_rsv m) (m_opcode m) (m_has_mask m) (zlen (m_data m)) ++
     (if m_has_mask m then m_mask m ++ mask_from (m_mask m) 0 (m_data m) else m_data m))).
Proof.
  intros m k HO HK HR M N NM. pose proof (zlen_nonneg _ (m_data m)) as P.
  rewrite (build_frame_ok m 0 (zlen (m_data m)) true (zlen (m_data m))); auto; try lia.
  - rewrite (header_rfc m k true) by auto. rewrite zlen_app. unfold zskipn. cbn [Z.to_nat skipn]. rewrite zfirstn_all.
    assert (R : header_room m - (zlen (rfc_header true (m_rsv m) (m_opcode m) (m_has_mask m) (zlen (m_data m))) +
                   zlen (if m_has_mask m then m_mask m else [])) = 0).
    { rewrite <- zlen_app, <- (header_rfc m k true), zlen_header by auto. unfold header_room. lia. }
    rewrite R. unfold malloc. cbn [Z.to_nat repeat]. rewrite app_nil_r. do 2 f_equal.
    rewrite <- app_assoc. f_equal. destruct (m_has_mask m); reflexivity.
Qed.

(** ** reading *)
Lemma zskipn_app_le : forall A n (a b : list A), zlen a <= n -> zskipn n (a ++ b) = zskipn (n - zlen a) b.
Proof.
  intros A n a b H. unfold zskipn, zlen in *. rewrite skipn_app, skipn_all2 by lia. cbn [app]. f_equal. lia.
Qed.

Lemma read_calm : forall evs acc a b len, calm evs -> zlen acc < len -> stream evs = a ++ b -> zlen acc + zlen a = len ->
  exists evs', read_data evs true len acc = (Some (acc ++ a), evs', true) /\ stream evs' = b /\ calm evs'.
Proof.
  induction evs as [|e evs IH]; intros acc a b len C L S E.
  - cbn in S. symmetry in S. apply app_eq_nil in S as [-> _]. unfold zlen in E at 2. cbn in E. lia.
  - apply Forall_cons_iff in C as [[C1 C2] C]. destruct e; try congruence.
    + cbn [read_data]. eapply IH; eauto.
    + cbn [read_data]. eapply IH; eauto.
    + cbn [stream] in S. cbn [read_data]. replace (len - zlen acc) with (zlen a) by lia.
      pose proof (zlen_nonneg _ a). pose proof (zlen_nonneg _ b0).
      destruct (Z_lt_le_dec (zlen b0) (zlen a)) as [LT|GE].
      * assert (A : exists a', a = b0 ++ a').
        { exists (zskipn (zlen b0) a). rewrite <- (zfirstn_zskipn _ a (zlen b0)) at 1. f_equal.
          apply (f_equal (zfirstn (zlen b0))) in S. rewrite (zfirstn_app_exact _ b0 _ (zlen b0) eq_refl) in S.
          unfold zfirstn, zlen in S |- *. rewrite firstn_app in S. unfold zlen in *.
          replace (Z.to_nat (Z.of_nat (length b0)) - length a)%nat with 0%nat in S by lia. cbn in S. now rewrite app_nil_r in S. }
        destruct A as (a' & ->). rewrite zlen_app in *. rewrite <- app_assoc in S. apply app_inv_head in S.
        assert (ZB : zfirstn (zlen b0 + zlen a') b0 = b0) by (unfold zfirstn; apply firstn_all2; unfold zlen; lia).
        rewrite ?ZB, ?zlen_app, ?ZB. replace (zlen acc + zlen b0 <? len) with true by (symmetry; apply Z.ltb_lt; lia). cbn [andb].
        destruct (IH (acc ++ b0) a' b len C) as (evs' & R & S' & C'); auto; try (rewrite zlen_app; lia).
        exists evs'. rewrite R, <- app_assoc. auto.
      * assert (A : exists c, b0 = a ++ c).
        { exists (zskipn (zlen a) b0). rewrite <- (zfirstn_zskipn _ b0 (zlen a)) at 1. f_equal.
          apply (f_equal (zfirstn (zlen a))) in S. rewrite (zfirstn_app_exact _ a b (zlen a) eq_refl) in S. etransitivity; [|exact S].
          unfold zfirstn. rewrite firstn_app. unfold zlen in *. replace (Z.to_nat (Z.of_nat (length a)) - length b0)%nat with 0%nat by lia.
          cbn [firstn]. now rewrite app_nil_r. }
        destruct A as (c & ->). rewrite <- app_assoc in S. apply app_inv_head in S.
        rewrite (zfirstn_app_exact _ a c (zlen a) eq_refl), (zskipn_app_exact _ a c (zlen a) eq_refl). rewrite zlen_app.
        replace (zlen acc + zlen a <? len) with false by (symmetry; apply Z.ltb_ge; lia). cbn [andb].
        eexists. split; [reflexivity|]. destruct c as [|x c]; [cbn in S; auto|]. split; [exact S|].
        constructor; auto. split; discriminate.
Qed.

Lemma read_calm0 : forall evs a b, calm evs -> a <> [] -> stream evs = a ++ b ->
  exists evs', read_data evs true (zlen a) [] = (Some a, evs', true) /\ stream evs' = b /\ calm evs'.
Proof.
  intros evs a b C N S. destruct (read_calm evs [] a b (zlen a) C) as (evs' & R & X); auto.
  - unfold zlen. destruct a; [congruence|cbn; lia].
  - eauto.
Qed.

Lemma be_len : forall k n, zlen (be k n) = Z.of_nat k.
Proof. induction k as [|k IH]; intros n; [reflexivity|]. cbn [be]. rewrite zlen_cons, IH. lia. Qed.

Lemma read_header_rfc : forall evs rest (fin : bool) rsv op (masked : bool) n, calm evs -> 0 <= op -> 0 <= rsv -> 0 <= n < 2 ^ 54 ->
  stream evs = rfc_header fin rsv op masked n ++ rest ->
  exists evs' l7, read_header evs true = (U_OK, [(if fin then 128 else 0) + rsv + op; (if masked then 128 else 0) + l7], n, evs', true) /\
    0 <= l7 < 128 /\ stream evs' = rest /\ calm evs'.
Proof.
  intros evs rest fin rsv op masked n C HO HR N S. unfold rfc_header in S. unfold read_header.
  destruct (n <=? 125) eqn:A.
  - apply Z.leb_le in A. destruct (read_calm0 evs [(if fin then 128 else 0) + rsv + op; (if masked then 128 else 0) + n] rest C) as (evs' & R & S' & C');
      [discriminate|exact S|]. unfold zlen in R. cbn [length] in R. change (Z.of_nat 2) with 2 in R. rewrite R.
    destruct (b1_facts n ltac:(lia)) as [_ B]. destruct (B masked) as [B1 B2]. rewrite B1.
    replace (n <=? 125) with true by (symmetry; apply Z.leb_le; lia). exists evs', n. split; [reflexivity|]. split; [lia|auto].
  - apply Z.leb_gt in A. destruct (n <=? 65535) eqn:D.
    + apply Z.leb_le in D. destruct (read_calm0 evs [(if fin then 128 else 0) + rsv + op; (if masked then 128 else 0) + 126] (be 2 n ++ rest) C) as (evs' & R & S' & C');
        [discriminate|exact S|]. unfold zlen in R. cbn [length] in R. change (Z.of_nat 2) with 2 in R. rewrite R.
      destruct (b1_facts 126 ltac:(lia)) as [_ B]. destruct (B masked) as [B1 B2]. rewrite B1. change (126 <=? 125) with false. change (126 =? 126) with true.
      cbv iota. destruct (read_calm0 evs' (be 2 n) rest C') as (evs2 & R2 & S2 & C2); [discriminate|auto|].
      rewrite be_len in R2. change (Z.of_nat 2) with 2 in R2. rewrite R2, be_len. change (Z.of_nat 2 =? 2) with true.
      cbv iota. rewrite be2, len16_bytes by lia. exists evs2, 126. split; [reflexivity|]. split; [lia|auto].
    + apply Z.leb_gt in D. destruct (read_calm0 evs [(if fin then 128 else 0) + rsv + op; (if masked then 128 else 0) + 127] (be 8 n ++ rest) C) as (evs' & R & S' & C');
        [discriminate|exact S|]. unfold zlen in R. cbn [length] in R. change (Z.of_nat 2) with 2 in R. rewrite R.
      destruct (b1_facts 127 ltac:(lia)) as [_ B]. destruct (B masked) as [B1 B2]. rewrite B1. change (127 <=? 125) with false. change (127 =? 126) with false.
      cbv iota. destruct (read_calm0 evs' (be 8 n) rest C') as (evs2 & R2 & S2 & C2); [discriminate|auto|].
      rewrite be_len in R2. change (Z.of_nat 8) with 8 in R2. rewrite R2, be_len. change (Z.of_nat 8 =? 8) with true.
      cbv iota. rewrite be8, len64_bytes by lia. exists evs2, 127. split; [reflexivity|]. split; [lia|auto].
Qed.

Lemma read_payload_ok : forall alloc_ok (masked : bool) key evs p rest, calm evs -> zlen p < 4294967296 -> alloc_ok (zlen p) = true ->
  stream evs = p ++ rest ->
  exists evs', read_payload alloc_ok masked key (zlen p) evs true = (U_OK, (if masked then mask_from key 0 p else p), evs', true) /\
    stream evs' = rest /\ calm evs'.
Proof.
  intros alloc_ok masked key evs p rest C N A S. unfold read_payload. pose proof (zlen_nonneg _ p).
  destruct (zlen p =? 0) eqn:Z0.
  - apply Z.eqb_eq in Z0. apply zlen_0 in Z0. subst p. exists evs. split; [destruct masked; reflexivity|auto].
  - apply Z.eqb_neq in Z0. rewrite A. replace (zlen p <? 9223372036854775808) with true by (symmetry; apply Z.ltb_lt; lia). cbn [andb].
    destruct (read_calm0 evs p rest C) as (evs' & R & S' & C'); auto; [intros ->; cbn in Z0; lia|].
    rewrite R. rewrite Z.mod_small, Z.eqb_refl by lia. exists evs'. auto.
Qed.

(** the message read from a frame *)
Definition message_of (f : frame) : wmsg :=
  mk_wmsg (f_op f) (f_rsv f) (f_fin f) (match f_key f with Some _ => true | None => false end) [] (f_payload f)
    (if f_fin f then 0 else zlen (f_payload f)).

Definition keyed (f : frame) : bool := match f_key f with Some _ => true | None => false end.

Lemma read_wire : forall alloc_ok f w evs rest, frame_ok f -> wire f w -> calm evs -> zlen (f_payload f) < 4294967296 ->
  alloc_ok (zlen (f_payload f)) = true -> stream evs = w ++ rest ->
  exists evs', read_message alloc_ok (keyed f) evs true = (U_OK, Some (message_of f), evs', true) /\ stream evs' = rest /\ calm evs'.
Proof.
  intros alloc_ok f w evs rest (HO & (k & HK & HR) & _ & KO) WF C N A S. pose proof (zlen_nonneg _ (f_payload f)) as P.
  assert (P54 : 0 <= zlen (f_payload f) < 2 ^ 54) by (change (2 ^ 54) with 18014398509481984; lia).
  destruct (b0_facts _ _ HO HK) as [_ B0]. destruct (B0 (f_fin f)) as (B1 & B2 & B3). clear B0. rewrite <- HR in B1, B2, B3.
  unfold wire in WF. unfold read_message, message_of, keyed. destruct (f_key f) as [key|].
  - destruct WF as (q & MW & ->). destruct KO as [KL KB]. rewrite <- app_assoc in S.
    destruct (read_header_rfc evs ((key ++ q) ++ rest) (f_fin f) (f_rsv f) (f_op f) true (zlen (f_payload f)) C) as (e1 & l7 & R1 & L7 & S1 & C1); auto; try lia.
    rewrite R1. rewrite Z.eqb_refl. cbn [nth]. destruct (b1_facts l7 L7) as [_ BB]. destruct (BB true) as [BB1 BB2]. clear BB.
    unfold read_mask. rewrite BB2. cbv iota. rewrite <- app_assoc in S1.
    destruct (read_calm0 e1 key (q ++ rest) C1) as (e2 & R2 & S2 & C2); auto; [intros ->; cbn in KL; lia|].
    assert (ZK : zlen key = 4) by (unfold zlen; lia). rewrite ZK in R2. rewrite R2, ZK. change (4 =? 4) with true. cbv beta iota zeta. change (U_OK =? U_OK) with true. cbv beta iota zeta.
    rewrite (masked_with_unique _ _ _ _ MW (masked_with_mask key (f_payload f))) in *.
    rewrite <- (zlen_mask key (f_payload f) 0) in *.
    destruct (read_payload_ok alloc_ok true key e2 _ rest C2 N A S2) as (e3 & R3 & S3 & C3).
    rewrite R3. rewrite Z.eqb_refl. cbv iota. rewrite B1, B2, B3, mask_twice. exists e3. split; [|auto].
    destruct (f_fin f); reflexivity.
  - subst w. rewrite <- app_assoc in S.
    destruct (read_header_rfc evs (f_payload f ++ rest) (f_fin f) (f_rsv f) (f_op f) false (zlen (f_payload f)) C) as (e1 & l7 & R1 & L7 & S1 & C1); auto; try lia.
    rewrite R1. rewrite Z.eqb_refl. cbn [nth]. destruct (b1_facts l7 L7) as [_ BB]. destruct (BB false) as [BB1 BB2]. clear BB.
    unfold read_mask. rewrite BB2. cbv iota. rewrite Z.eqb_refl. cbv iota.
    destruct (read_payload_ok alloc_ok false [] e1 _ rest C1 N A S1) as (e3 & R3 & S3 & C3).
    rewrite R3. rewrite Z.eqb_refl. cbv iota. rewrite B1, B2, B3. exists e3. split; [|auto]. destruct (f_fin f); reflexivity.
Qed.

Lemma memcpy_keeps0 : forall (dst : buf) off src len f b, 0 < off -> nth 0 dst None = Some b -> memcpy dst off src len = Ret f -> nth 0 f None = Some b.
Proof.
  intros dst off src len f b O N H. unfold memcpy in H. destruct (_ && _) in H; [|discriminate]. injection H as <-.
  destruct dst as [|x dst]; [discriminate|]. unfold zfirstn. destruct (Z.to_nat off) eqn:E; [lia|]. exact N.
Qed.

Lemma memcpy_head0 : forall (dst : buf) x src len f, 0 < len -> memcpy dst 0 (x :: src) len = Ret f -> nth 0 f None = x.
Proof.
  intros dst x src len f L H. unfold memcpy in H. destruct (_ && _) in H; [|discriminate]. injection H as <-.
  unfold zfirstn at 1. cbn [firstn app]. unfold zfirstn. destruct (Z.to_nat len) eqn:E; [lia|]. reflexivity.
Qed.

Lemma first_byte : forall m len f, mask_ok m -> 0 < len < zlen (m_data m) -> build_frame m 0 len = Ret f -> nth 0 f None = Some (m_rsv m).
Proof.
  intros m len f M L H. unfold build_frame in H.
  destruct (zlen (m_data m) <=? add64 0 len) eqn:FI.
  { apply Z.leb_le in FI. unfold add64 in FI. rewrite Z.add_0_l in FI. pose proof (Z.mod_le len two64 ltac:(lia) ltac:(reflexivity)). lia. }
  cbv zeta in H. set (hd := frame_header m (zlen (m_data m)) len len false) in *.
  assert (HD : exists t, hd = m_rsv m :: t) by (eexists; reflexivity). destruct HD as (t & HD).
  match type of H with bind ?e _ = _ => destruct e as [f1|] eqn:M1; [|discriminate] end. cbn [bind] in H.
  destruct (_ <? _) in H; [discriminate|]. destruct (_ && _) in H; [discriminate|].
  pose proof (zlen_nonneg _ t).
  assert (ZL : 0 < zlen hd) by (rewrite HD, zlen_cons; lia).
  eapply memcpy_keeps0; [exact ZL| |exact H]. rewrite HD in M1. eapply memcpy_head0; [|exact M1]. rewrite zlen_cons. lia.
Qed.
