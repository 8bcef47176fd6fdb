(** Proofs about the URL codec. *)
From Coq Require Import ZArith Bool List Lia.
From Verif Require Import Base BaseFacts UrlModel UrlSpec.
Import ListNotations.
Open Scope Z_scope.

Definition all_bytes : list Z := map Z.of_nat (seq 0 256).
Lemma byte_in : forall b, 0 <= b < 256 -> In b all_bytes.
Proof.
  intros b H. unfold all_bytes. apply in_map_iff. exists (Z.to_nat b). split; [lia|]. apply in_seq. lia.
Qed.
Lemma byte_forall : forall P : Z -> bool, forallb P all_bytes = true -> forall b, 0 <= b < 256 -> P b = true.
Proof. intros P H b B. rewrite forallb_forall in H. apply H. now apply byte_in. Qed.

Ltac bdestr := match goal with |- context [if ?b then _ else _] => let E := fresh "E" in destruct b eqn:E end.
Ltac zb := repeat match goal with
  | H : (_ =? _) = true |- _ => apply Z.eqb_eq in H
  | H : (_ =? _) = false |- _ => apply Z.eqb_neq in H
  | H : (_ <? _) = true |- _ => apply Z.ltb_lt in H
  | H : (_ <? _) = false |- _ => apply Z.ltb_ge in H
  | H : (_ <=? _) = true |- _ => apply Z.leb_le in H
  | H : (_ <=? _) = false |- _ => apply Z.leb_gt in H
  | H : (_ && _) = true |- _ => apply andb_true_iff in H as [? ?]
  | H : (_ || _) = true |- _ => apply orb_true_iff in H as [?|?]
  | H : (_ && _) = false |- _ => apply andb_false_iff in H as [?|?]
  | H : (_ || _) = false |- _ => apply orb_false_iff in H as [? ?]
  end.

(** escapes of a byte *)
Lemma hex_facts : forall b, 0 <= b < 256 ->
  let h := to_hex (Z.shiftr (schar b) 4) in let l := to_hex (Z.land (schar b) 15) in
  ((48 <= h <= 57 \/ 65 <= h <= 70) /\ (48 <= l <= 57 \/ 65 <= l <= 70)) /\
  (forall tl, from_hex tl h = b / 16 /\ from_hex tl l = b mod 16).
Proof.
  intros b B h l.
  set (P := fun b => let h := to_hex (Z.shiftr (schar b) 4) in let l := to_hex (Z.land (schar b) 15) in
    (((48 <=? h) && (h <=? 57)) || ((65 <=? h) && (h <=? 70))) &&
    (((48 <=? l) && (l <=? 57)) || ((65 <=? l) && (l <=? 70))) &&
    (from_hex (fun _ => 0) h =? b / 16) && (from_hex (fun _ => 0) l =? b mod 16)).
  assert (Q : P b = true) by (apply byte_forall; [vm_compute; reflexivity|auto]).
  unfold P in Q. fold h l in Q. cbv zeta in Q.
  apply andb_true_iff in Q as [Q Q4]. apply andb_true_iff in Q as [Q Q3]. apply andb_true_iff in Q as [Q1 Q2].
  assert (H1 : 48 <= h <= 57 \/ 65 <= h <= 70) by (zb; lia).
  assert (H2 : 48 <= l <= 57 \/ 65 <= l <= 70) by (zb; lia).
  split; auto. intro tl. clear Q1 Q2. zb.
  assert (G : forall x, x < 128 -> from_hex tl x = from_hex (fun _ => 0) x).
  { intros x X. unfold from_hex, to_lower. replace (x <? 128) with true by (symmetry; now apply Z.ltb_lt). reflexivity. }
  rewrite !G by lia. auto.
Qed.

Lemma pair_value : forall h l, 0 <= h < 16 -> 0 <= l < 16 -> uchar (Z.lor (Z.shiftl h 4) l) = 16 * h + l.
Proof.
  intros h l H L.
  set (P := fun x => uchar (Z.lor (Z.shiftl (x / 16) 4) (x mod 16)) =? x).
  assert (Q : P (16 * h + l) = true) by (apply byte_forall; [vm_compute; reflexivity|lia]).
  unfold P in Q. apply Z.eqb_eq in Q.
  replace ((16 * h + l) / 16) with h in Q by (symmetry; rewrite Z.mul_comm, Z.div_add_l by lia; rewrite (Z.div_small l) by lia; lia).
  replace ((16 * h + l) mod 16) with l in Q; auto.
  symmetry. rewrite Z.add_comm, Z.mul_comm, Z.mod_add by lia. apply Z.mod_small; lia.
Qed.

Section L.
Variable ah : Z -> bool.
Variable tl : Z -> Z.

Lemma keep_not_special : forall b, keep ah b = true -> b <> 37 /\ b <> 43.
Proof. intros b H. unfold keep, is_alnum, is_digit in H. zb; lia. Qed.

(** the encoder never runs out of room and its output is one block per byte *)
Definition enc1 (c : Z) : list Z :=
  if keep ah c then [c] else if c =? 32 then [43]
  else [37; to_hex (Z.shiftr (schar c) 4); to_hex (Z.land (schar c) 15)].

Lemma encode_flat : forall s room, cstr s -> zlen s * 3 + 1 <= room ->
  encode_loop ah (s ++ [0]) room = Ret (flat_map enc1 s ++ [0]).
Proof.
  induction s as [|c s IH]; intros room C R.
  - simpl. unfold emit. replace (room <? 1) with false; auto. symmetry. apply Z.ltb_ge. unfold zlen in R; simpl in R; lia.
  - inversion C; subst. rewrite zlen_cons in R. pose proof (zlen_nonneg _ s).
    cbn [app encode_loop flat_map]. replace (c =? 0) with false by (symmetry; apply Z.eqb_neq; lia).
    unfold enc1 at 1.
    assert (EM : forall r x k, 1 <= r -> emit r x k = do q <- k (r - 1); Ret (x :: q)).
    { intros r x k L. unfold emit. now replace (r <? 1) with false by (symmetry; apply Z.ltb_ge; lia). }
    bdestr; [|bdestr].
    + rewrite EM by lia. rewrite IH by (auto; lia). reflexivity.
    + rewrite EM by lia. rewrite IH by (auto; lia). reflexivity.
    + rewrite !EM by lia. rewrite IH by (auto; lia). reflexivity.
Qed.

Lemma url_encode_flat : forall s, cstr s -> url_encode ah s = Ret (flat_map enc1 s ++ [0]).
Proof. intros. unfold url_encode. apply encode_flat; auto. lia. Qed.

Lemma enc1_length : forall c, (1 <= length (enc1 c) <= 3)%nat.
Proof. intro c. unfold enc1. bdestr; [|bdestr]; simpl; lia. Qed.

Lemma flat_enc_length : forall s, zlen s <= zlen (flat_map enc1 s) <= 3 * zlen s.
Proof.
  induction s as [|c s IH]; cbn [flat_map].
  - unfold zlen; simpl; lia.
  - rewrite zlen_app, zlen_cons. pose proof (enc1_length c).
    assert (1 <= zlen (enc1 c) <= 3) by (unfold zlen; lia). lia.
Qed.

Lemma emit_ok : forall r x k, 1 <= r -> emit r x k = do q <- k (r - 1); Ret (x :: q).
Proof. intros r x k L. unfold emit. now replace (r <? 1) with false by (symmetry; apply Z.ltb_ge; lia). Qed.

Lemma decode_enc1 : forall strict c rest room, 0 < c < 256 -> 1 <= room ->
  decode_loop tl strict (enc1 c ++ rest) room = do q <- decode_loop tl strict rest (room - 1); Ret (c :: q).
Proof.
  intros strict c rest room C R. unfold enc1. bdestr; [|bdestr].
  - destruct (keep_not_special c E) as [K1 K2]. cbn [app decode_loop].
    replace (c =? 0) with false by (symmetry; apply Z.eqb_neq; lia).
    replace (c =? 37) with false by (symmetry; apply Z.eqb_neq; lia).
    replace (c =? 43) with false by (symmetry; apply Z.eqb_neq; lia).
    now rewrite emit_ok.
  - apply Z.eqb_eq in E0. subst. cbn [app decode_loop]. simpl. now rewrite emit_ok.
  - destruct (hex_facts c ltac:(lia)) as [[H1 H2] H3].
    set (h := to_hex (Z.shiftr (schar c) 4)) in *. set (l := to_hex (Z.land (schar c) 15)) in *.
    cbn [app decode_loop].
    replace (37 =? 0) with false by reflexivity. replace (37 =? 37) with true by reflexivity.
    replace (h =? 0) with false by (symmetry; apply Z.eqb_neq; lia).
    replace (l =? 0) with false by (symmetry; apply Z.eqb_neq; lia).
    destruct (H3 tl) as [F1 F2]. unfold decode_pair. rewrite F1, F2.
    assert (0 <= c / 16 < 16) by (split; [apply Z.div_pos; lia|apply Z.div_lt_upper_bound; lia]).
    assert (0 <= c mod 16 < 16) by (apply Z.mod_pos_bound; lia).
    replace (c / 16 <? 0) with false by (symmetry; apply Z.ltb_ge; lia). rewrite andb_false_r.
    cbn [bind]. rewrite emit_ok by lia. rewrite pair_value by auto.
    replace (16 * (c / 16) + c mod 16) with c by (apply Z.div_mod; lia). reflexivity.
Qed.

Lemma decode_encode_loop : forall strict s room, cstr s -> zlen s + 1 <= room ->
  decode_loop tl strict (flat_map enc1 s ++ [0]) room = Ret (s ++ [0]).
Proof.
  intros strict. induction s as [|c s IH]; intros room C R.
  - simpl. rewrite emit_ok by (unfold zlen in R; simpl in R; lia). reflexivity.
  - inversion C; subst. rewrite zlen_cons in R. pose proof (zlen_nonneg _ s).
    cbn [flat_map]. rewrite <- app_assoc, decode_enc1 by (auto; lia).
    rewrite IH by (auto; lia). reflexivity.
Qed.

Lemma C11_lemma : forall strict s, cstr s ->
  exists e, url_encode ah s = Ret (e ++ [0]) /\ cstr e /\ url_decode tl strict e = Ret (s ++ [0]).
Proof.
  intros strict s C. exists (flat_map enc1 s). split; [now apply url_encode_flat|]. split.
  - induction C as [|c s P C IH]; simpl; [constructor|]. apply Forall_app. split; auto.
    unfold enc1. bdestr; [|bdestr].
    + constructor; auto.
    + repeat constructor; lia.
    + destruct (hex_facts c ltac:(lia)) as [[H1 H2] _]. cbv zeta in H1, H2.
      constructor; [lia|]. constructor; [lia|]. constructor; [lia|constructor].
  - unfold url_decode. apply decode_encode_loop; auto. pose proof (flat_enc_length s). lia.
Qed.

Lemma enc1_safe : forall c r, 0 < c < 256 -> safe_text (fun b => ah b = true) r ->
  safe_text (fun b => ah b = true) (enc1 c ++ r).
Proof.
  intros c r C S. unfold enc1. bdestr; [|bdestr]; simpl.
  - unfold keep, is_alnum, is_digit in E.
    assert (D : unreserved c \/ (128 <= c /\ ah c = true)).
    { unfold unreserved. simpl. zb; try lia; try tauto; auto. }
    destruct D as [D|[D1 D2]]; [now apply st_char|now apply st_hi].
  - now apply st_plus.
  - destruct (hex_facts c ltac:(lia)) as [[H1 H2] _]. now apply st_esc.
Qed.

Lemma C12_alphabet_lemma : forall s, cstr s ->
  exists e, url_encode ah s = Ret (e ++ [0]) /\ safe_text (fun b => ah b = true) e /\ zlen e <= 3 * zlen s.
Proof.
  intros s C. exists (flat_map enc1 s). split; [now apply url_encode_flat|].
  split; [|apply flat_enc_length].
  induction C as [|c s P C IH]; simpl; [constructor|]. now apply enc1_safe.
Qed.

Lemma C12_injective_lemma : forall s t e, cstr s -> cstr t ->
  url_encode ah s = Ret e -> url_encode ah t = Ret e -> s = t.
Proof.
  intros s t e S T E1 E2.
  destruct (C11_lemma true s S) as (es & A1 & _ & A2). destruct (C11_lemma true t T) as (et & B1 & _ & B2).
  rewrite E1 in A1. rewrite E2 in B1. inversion A1 as [A3]. inversion B1 as [B3]. rewrite A3 in B3.
  apply app_inj_tail in B3 as [<- _]. rewrite A2 in B2. inversion B2 as [B4]. now apply app_inj_tail in B4.
Qed.

(** decoding *)
Lemma from_hex_hexval : forall c h, hexval c h -> from_hex tl c = h /\ 0 <= h < 16.
Proof.
  intros c h H. assert (B : 0 <= c < 128) by (inversion H; lia).
  set (P := fun c => implb ((c <? 128)) (let v := from_hex (fun _ => 0) c in
     implb ((48 <=? c) && (c <=? 57)) (v =? c - 48) &&
     implb ((65 <=? c) && (c <=? 70)) (v =? c - 55) && implb ((97 <=? c) && (c <=? 102)) (v =? c - 87))).
  assert (Q : P c = true) by (apply byte_forall; [vm_compute; reflexivity|lia]).
  unfold P in Q. replace (c <? 128) with true in Q by (symmetry; apply Z.ltb_lt; lia). cbn [implb] in Q. cbv zeta in Q.
  assert (G : from_hex tl c = from_hex (fun _ => 0) c).
  { unfold from_hex, to_lower. replace (c <? 128) with true by (symmetry; apply Z.ltb_lt; lia). reflexivity. }
  rewrite G. apply andb_true_iff in Q as [Q Q3]. apply andb_true_iff in Q as [Q1 Q2].
  inversion H; subst.
  - replace (48 <=? 48 + h) with true in Q1 by (symmetry; apply Z.leb_le; lia).
    replace (48 + h <=? 57) with true in Q1 by (symmetry; apply Z.leb_le; lia). cbn [implb andb] in Q1. apply Z.eqb_eq in Q1. rewrite Q1. split; lia.
  - replace (65 <=? 65 + (h - 10)) with true in Q2 by (symmetry; apply Z.leb_le; lia).
    replace (65 + (h - 10) <=? 70) with true in Q2 by (symmetry; apply Z.leb_le; lia). cbn [implb andb] in Q2. apply Z.eqb_eq in Q2. rewrite Q2. split; lia.
  - replace (97 <=? 97 + (h - 10)) with true in Q3 by (symmetry; apply Z.leb_le; lia).
    replace (97 + (h - 10) <=? 102) with true in Q3 by (symmetry; apply Z.leb_le; lia). cbn [implb andb] in Q3. apply Z.eqb_eq in Q3. rewrite Q3. split; lia.
Qed.

Definition hexb (c : Z) : bool := ((48 <=? c) && (c <=? 57)) || ((65 <=? c) && (c <=? 70)) || ((97 <=? c) && (c <=? 102)).
Lemma hexb_spec : forall c, hexb c = true <-> exists v, hexval c v.
Proof.
  intros c. unfold hexb. split.
  - intros H. zb.
    + exists (c - 48). replace c with (48 + (c - 48)) at 1 by lia. constructor. lia.
    + exists (c - 55). replace c with (65 + (c - 55 - 10)) at 1 by lia. apply hv_upper. lia.
    + exists (c - 87). replace c with (97 + (c - 87 - 10)) at 1 by lia. apply hv_lower. lia.
  - intros [v H]. inversion H; subst; rewrite !orb_true_iff, !andb_true_iff, !Z.leb_le; lia.
Qed.

Lemma uchar_range : forall x, 0 <= uchar x < 256.
Proof. intros. unfold uchar. apply Z.mod_pos_bound. lia. Qed.

Lemma decode_spec_len : forall strict n s room, (length s <= n)%nat -> cstr s -> zlen s + 1 <= room ->
  (strict = true -> forall a c1 c2 b, s = a ++ 37 :: c1 :: c2 :: b -> hexb c1 = true) ->
  exists o, decode_loop tl strict (s ++ [0]) room = Ret (o ++ [0]) /\ zlen o <= zlen s /\ decodes s o.
Proof.
  intros strict. induction n as [|n IH]; intros s room L C R ST.
  - destruct s; [|simpl in L; lia]. exists []. simpl. rewrite emit_ok by (unfold zlen in R; simpl in R; lia).
    repeat split; [unfold zlen; simpl; lia|constructor].
  - destruct s as [|c s].
    + exists []. simpl. rewrite emit_ok by (unfold zlen in R; simpl in R; lia).
      repeat split; [unfold zlen; simpl; lia|constructor].
    + inversion C as [|? ? C0 C']; subst. simpl in L. rewrite zlen_cons in R. pose proof (zlen_nonneg _ s).
      assert (ST' : strict = true -> forall a c1 c2 b, s = a ++ 37 :: c1 :: c2 :: b -> hexb c1 = true).
      { intros T a c1 c2 b E. apply (ST T (c :: a) c1 c2 b). now rewrite E. }
      cbn [app decode_loop]. replace (c =? 0) with false by (symmetry; apply Z.eqb_neq; lia).
      destruct (c =? 37) eqn:E37.
      * apply Z.eqb_eq in E37; subst c.
        destruct s as [|c1 s].
        -- (* "%" at the end *) simpl. destruct (IH [] room ltac:(simpl; lia) ltac:(constructor) ltac:(unfold zlen in *; simpl in *; lia)) as (o & D & Lo & Do).
           { intros _ a c1 c2 b E. destruct a; discriminate. }
           simpl in D. rewrite D. exists o. split; auto. split; [rewrite zlen_cons; unfold zlen in *; simpl in *; lia|].
           apply d_short; auto. unfold zlen; simpl; lia.
        -- inversion C' as [|? ? C1 C'']; subst. cbn [app].
           replace (c1 =? 0) with false by (symmetry; apply Z.eqb_neq; lia).
           destruct s as [|c2 s].
           ++ (* "%x" at the end *)
              cbn [app]. replace (0 =? 0) with true by reflexivity.
              destruct (IH [c1] room ltac:(simpl in *; lia) C' ltac:(unfold zlen in *; simpl in *; lia)) as (o & D & Lo & Do).
              { intros _ a x1 x2 b E. destruct a as [|? [|]]; discriminate. }
              cbn [app] in D. rewrite D. exists o. split; auto. split; [rewrite zlen_cons; unfold zlen in *; simpl in *; lia|].
              apply d_short; auto. unfold zlen; simpl; lia.
           ++ inversion C'' as [|? ? C2 C3]; subst. cbn [app].
              replace (c2 =? 0) with false by (symmetry; apply Z.eqb_neq; lia).
              rewrite !zlen_cons in R. pose proof (zlen_nonneg _ s).
              destruct (IH s (room - 1) ltac:(simpl in *; lia) C3 ltac:(lia)) as (o & D & Lo & Do).
              { intros T a x1 x2 b E. apply (ST T (37 :: c1 :: c2 :: a) x1 x2 b). now rewrite E. }
              unfold decode_pair.
              assert (NS : strict && (from_hex tl c1 <? 0) = false).
              { destruct strict; auto. simpl. specialize (ST eq_refl [] c1 c2 s eq_refl).
                apply hexb_spec in ST as [v Hv]. apply from_hex_hexval in Hv as [-> Hv]. apply Z.ltb_ge; lia. }
              rewrite NS. cbn [bind]. rewrite emit_ok by lia. rewrite D.
              eexists (_ :: o). split; [reflexivity|]. split; [rewrite !zlen_cons; lia|].
              destruct (hexb c1 && hexb c2) eqn:HB.
              ** apply andb_true_iff in HB as [HB1 HB2]. apply hexb_spec in HB1 as [h Hh]. apply hexb_spec in HB2 as [l Hl].
                 destruct (from_hex_hexval c1 h Hh) as [-> Rh]. destruct (from_hex_hexval c2 l Hl) as [-> Rl].
                 rewrite pair_value by auto. now apply d_esc.
              ** apply d_bad; auto using uchar_range. intros (h & l & Hh & Hl).
                 assert (hexb c1 = true) by (apply hexb_spec; eauto). assert (hexb c2 = true) by (apply hexb_spec; eauto).
                 rewrite H1, H2 in HB. discriminate.
      * apply Z.eqb_neq in E37.
        destruct (IH s (room - 1) ltac:(lia) C' ltac:(lia) ST') as (o & D & Lo & Do).
        destruct (c =? 43) eqn:E43.
        -- apply Z.eqb_eq in E43; subst c. rewrite emit_ok by lia. rewrite D. exists (32 :: o).
           split; auto. split; [rewrite !zlen_cons; lia|]. now apply d_plus.
        -- apply Z.eqb_neq in E43. rewrite emit_ok by lia. rewrite D. exists (c :: o).
           split; auto. split; [rewrite !zlen_cons; lia|]. now apply d_char.
Qed.
End L.
