(** Proofs for C18, C26, C27. *)
From Coq Require Import String ZArith Bool List Lia.
From Verif Require Import Base BaseFacts UMapModel UMapSpec UMapProofs UMapReach Utf8Model Utf8Spec Utf8Proofs SMap
  RouterSpec RouterProofs InputModel InputSpec.
Import ListNotations.
Open Scope Z_scope.

(** ** C18 *)
Definition keptb (check : bool) (k : str) (v : option str) : bool :=
  negb check || (utf8_valid k && match v with Some s => utf8_valid s | None => true end).

Lemma cstr_bytes : forall s, cstr s -> bytes s.
Proof. intros s C. eapply Forall_impl; [|exact C]. intros; simpl in *; lia. Qed.

Lemma keptb_spec : forall check k v, cstr k -> match v with Some s => cstr s | None => True end ->
  keptb check k v = true <-> pair_kept check k v.
Proof.
  intros check k v CK CV. unfold keptb, pair_kept. rewrite orb_true_iff, andb_true_iff, negb_true_iff.
  rewrite (utf8_valid_spec k) by now apply cstr_bytes.
  destruct v as [s|]; [rewrite (utf8_valid_spec s) by now apply cstr_bytes|]; tauto.
Qed.

Definition oval (v : option str) : str := match v with Some s => s | None => [] end.
Lemma oval_cstr : forall v, match v with Some s => cstr s | None => True end -> cstr (oval v).
Proof. intros [s|] H; simpl; auto. constructor. Qed.

Lemma fill_map_repr : forall check m d k v, repr m d -> no_null d -> cstr k -> k <> [] ->
  match v with Some s => cstr s | None => True end -> sweight d + zlen (oval v) + 3 < two64 ->
  exists m', fill_map check m (Some k) v = Ret (true, m') /\
    repr m' (if keptb check k v then bind1 d k (oval v) else d).
Proof.
  intros check m d k v R N CK NE CV S. unfold fill_map. fold (keptb check k v). fold (oval v).
  destruct (keptb check k v); [|eauto].
  pose proof (repr_get m d k R) as G. unfold get_str in G. destruct (u_map_get m (Some k)) as [p|]; [|discriminate].
  unfold bind in G. unfold bind at 1. rewrite G. unfold bind at 1.
  pose proof (oval_cstr v CV) as CO.
  destruct (put_joined m d k (oval v) _ R N NE CO S eq_refl) as (m1 & P & R1).
  assert (X : (match sval d k with
     | Some old => u_map_put m (Some k) (Some (old ++ [44] ++ oval v))
     | None => u_map_put m (Some k) (Some (oval v))
     end) = Ret (U_OK, m1)).
  { rewrite <- P. pose proof (no_null_val d k N) as Q. rewrite Q. destruct (sval d k); reflexivity. }
  rewrite X. exists m1. split; auto.
Qed.

Fixpoint fill_dict (check : bool) (d : smap) (pairs : list (option str * option str)) : smap :=
  match pairs with
  | [] => d
  | (Some k, v) :: r => fill_dict check (if keptb check k v then bind1 d k (oval v) else d) r
  | (None, _) :: _ => d
  end.

Lemma pairs_weight_cons : forall k v r, pairs_weight ((k, v) :: r) = zlen (oval v) + 1 + pairs_weight r.
Proof. intros k [s|] r; reflexivity. Qed.
Lemma pairs_weight_nonneg : forall r, 0 <= pairs_weight r.
Proof.
  induction r as [|[k v] r IH]; [unfold pairs_weight; simpl; lia|].
  rewrite pairs_weight_cons. pose proof (zlen_nonneg _ (oval v)). lia.
Qed.

Lemma fill_all_repr : forall check pairs m d, repr m d -> no_null d -> Forall pair_ok pairs ->
  sweight d + pairs_weight pairs + 3 < two64 ->
  exists m', fill_all check m pairs = Ret m' /\ repr m' (fill_dict check d pairs) /\ no_null (fill_dict check d pairs).
Proof.
  intros check. induction pairs as [|[ko v] r IH]; intros m d R N F S.
  - simpl. eauto.
  - inversion F as [|? ? P F']; subst. destruct P as ((k & E & CK & NE) & CV). simpl in E, CV. subst ko.
    cbn [fill_all fill_dict]. rewrite pairs_weight_cons in S.
    pose proof (pairs_weight_nonneg r). pose proof (zlen_nonneg _ (oval v)).
    destruct (fill_map_repr check m d k v R N CK NE CV ltac:(lia)) as (m1 & E1 & R1).
    rewrite E1. unfold bind at 1. cbn [fst snd]. apply IH; auto.
    + destruct (keptb check k v); auto using bind1_no_null.
    + destruct (keptb check k v); [rewrite bind1_weight by auto|]; lia.
Qed.

Lemma fill_dict_get : forall check pairs k l, vals check pairs k l -> forall d, no_null d -> Forall pair_ok pairs ->
  sget (fill_dict check d pairs) k = joined (old_values (sget d k) ++ l).
Proof.
  induction 1 as [k|k v r l K V IH|k v r l K V IH|k k' v r l D V IH]; intros d N F.
  - simpl. rewrite app_nil_r. pose proof (no_null_sget d k N). destruct (sget d k) as [[s|]|]; [reflexivity|congruence|reflexivity].
  - inversion F as [|? ? P F']; subst. destruct P as ((k0 & E & CK & NE) & CV). simpl in E, CV. injection E as <-.
    cbn [fill_dict]. replace (keptb check k v) with true by (symmetry; now apply keptb_spec).
    rewrite IH by auto using bind1_no_null. fold (oval v). now apply bind1_get.
  - inversion F as [|? ? P F']; subst. destruct P as ((k0 & E & CK & NE) & CV). simpl in E, CV. injection E as <-.
    cbn [fill_dict]. replace (keptb check k v) with false; [now apply IH|].
    symmetry. apply not_true_iff_false. intro C. apply K. now apply keptb_spec.
  - inversion F as [|? ? P F']; subst.
    cbn [fill_dict]. rewrite IH; auto.
    + destruct (keptb check k' v); auto. unfold bind1. now rewrite sget_sput_other by congruence.
    + destruct (keptb check k' v); auto using bind1_no_null.
Qed.

Lemma C18_lemma : forall check pairs m d, repr m d -> no_null d -> Forall pair_ok pairs ->
  sweight d + pairs_weight pairs + 3 < two64 ->
  exists m' d', fill_all check m pairs = Ret m' /\ repr m' d' /\ no_null d' /\
    forall k l, vals check pairs k l -> sget d' k = joined (old_values (sget d k) ++ l).
Proof.
  intros check pairs m d R N F S. destruct (fill_all_repr check pairs m d R N F S) as (m' & E & R' & N').
  exists m', (fill_dict check d pairs). repeat split; auto. intros k l V. now apply fill_dict_get.
Qed.

Lemma vals_total : forall check pairs k, Forall pair_ok pairs -> exists l, vals check pairs k l.
Proof.
  intros check pairs k F. induction F as [|[ko v] r P F (l & IH)]; [exists []; constructor|].
  destruct P as ((k0 & E & CK & NE) & CV). simpl in E, CV. subst ko.
  destruct (str_eq_dec k0 k) as [->|D]; [|exists l; now constructor].
  destruct (keptb check k v) eqn:B.
  - apply keptb_spec in B; auto. eexists. apply v_take; eauto.
  - exists l. apply v_drop; auto. intro C. apply keptb_spec in C; auto. congruence.
Qed.

(** ** C26 *)
Lemma realloc_exact : forall d n, zlen d <= n -> realloc (block_of d) n = block_of d ++ repeat None (Z.to_nat n - length d).
Proof.
  intros d n L. unfold realloc. unfold block_of at 2. rewrite map_length. f_equal.
  unfold zfirstn. apply firstn_all2. unfold block_of. rewrite map_length. unfold zlen in L. lia.
Qed.

Lemma zfirstn_block : forall n l, zfirstn n (block_of l) = block_of (zfirstn n l).
Proof. intros. unfold zfirstn, block_of. apply firstn_map. Qed.

Lemma zfirstn_app_le : forall A n (a b : list A), zlen a <= n -> zfirstn n (a ++ b) = a ++ zfirstn (n - zlen a) b.
Proof.
  intros A n a b H. unfold zfirstn, zlen in *. rewrite firstn_app. rewrite firstn_all2 by lia.
  f_equal. f_equal. lia.
Qed.

Lemma zlen_zfirstn_le : forall A n (l : list A), 0 <= n -> zlen (zfirstn n l) <= n.
Proof. intros. unfold zlen, zfirstn. rewrite firstn_length. lia. Qed.

Lemma zfirstn_big : forall A n (l : list A), zlen l <= n -> zfirstn n l = l.
Proof. intros. unfold zlen, zfirstn in *. apply firstn_all2. lia. Qed.

Lemma grown_write : forall d c n, 0 <= n <= zlen c ->
  memcpy (realloc (block_of d) (zlen d + n)) (zlen d) (block_of c) n = Ret (block_of (d ++ zfirstn n c)).
Proof.
  intros d c n N. pose proof (zlen_nonneg _ d). rewrite realloc_exact by lia.
  assert (LEN : zlen (block_of d ++ repeat None (Z.to_nat (zlen d + n) - length d)) = zlen d + n).
  { unfold zlen in *. rewrite app_length, repeat_length. unfold block_of. rewrite map_length. lia. }
  rewrite memcpy_ok; try lia.
  - f_equal. rewrite zfirstn_app_exact by (unfold block_of; now rewrite zlen_map). rewrite zfirstn_block.
    replace (zskipn (zlen d + n) (block_of d ++ repeat None (Z.to_nat (zlen d + n) - length d))) with (@nil (option Z)).
    + rewrite app_nil_r. unfold block_of. now rewrite map_app.
    + symmetry. unfold zskipn. apply skipn_all2. unfold zlen in LEN at 1. lia.
  - unfold block_of. rewrite zlen_map. lia.
Qed.

Lemma body_call_ok : forall max d data, 0 <= max < two64 -> data <> [] ->
  (0 < max -> zlen d <= max) -> zlen d + zlen data < two64 ->
  body_call max (mk_body (block_of d) (zlen d)) data =
  Ret (0, mk_body (block_of (limited max (d ++ data))) (zlen (limited max (d ++ data)))).
Proof.
  intros max d data M NE LE S. unfold body_call. cbn [binary_body_length binary_body].
  pose proof (zlen_nonneg _ d). pose proof (zlen_nonneg _ data).
  rewrite (add64_small (zlen d) (zlen data)) by lia. unfold limited.
  assert (N0 : (0 <? max) && (max <? zlen d + zlen data) = false ->
     (if max =? 0 then d ++ data else zfirstn max (d ++ data)) = d ++ data).
  { intros Q. destruct (max =? 0) eqn:Z0; auto. apply Z.eqb_neq in Z0. apply andb_false_iff in Q as [Q|Q]; apply Z.ltb_ge in Q; [lia|].
    apply zfirstn_big. rewrite zlen_app. lia. }
  destruct ((0 <? max) && (max <? zlen d + zlen data)) eqn:O.
  - apply andb_true_iff in O as [P O]. apply Z.ltb_lt in P. apply Z.ltb_lt in O. specialize (LE P).
    replace (max =? 0) with false by (symmetry; apply Z.eqb_neq; lia).
    replace (zlen d <=? max) with true by (symmetry; apply Z.leb_le; lia).
    rewrite Z.mod_small by lia.
    replace (realloc (block_of d) max) with (realloc (block_of d) (zlen d + (max - zlen d))) by (f_equal; lia).
    rewrite grown_write by lia. unfold bind. rewrite zfirstn_app_le by lia. rewrite add64_small by lia.
    rewrite zlen_app, zlen_zfirstn by lia. reflexivity.
  - rewrite N0 by auto. replace (zlen d <=? zlen d + zlen data) with true by (symmetry; apply Z.leb_le; lia).
    rewrite grown_write by lia. unfold bind. rewrite zfirstn_all, zlen_app, add64_small by lia. reflexivity.
Qed.

Lemma limited_app : forall max a b, 0 <= max -> limited max (limited max a ++ b) = limited max (a ++ b).
Proof.
  intros max a b M. unfold limited. destruct (max =? 0) eqn:E; auto. apply Z.eqb_neq in E.
  unfold zfirstn. rewrite !firstn_app, firstn_firstn, Nat.min_id. f_equal. 
  destruct (Nat.le_gt_cases (length a) (Z.to_nat max)).
  - now rewrite (firstn_all2 a) by lia.
  - rewrite firstn_length, Nat.min_l by lia. rewrite Nat.sub_diag. replace (Z.to_nat max - length a)%nat with 0%nat by lia. reflexivity.
Qed.
Lemma limited_len : forall max a, 0 <= max -> zlen (limited max a) <= zlen a /\ (0 < max -> zlen (limited max a) <= max).
Proof.
  intros max a M. unfold limited. destruct (max =? 0) eqn:E.
  - apply Z.eqb_eq in E. split; lia.
  - split; [|intros; apply zlen_zfirstn_le; lia]. unfold zlen, zfirstn. rewrite firstn_length. lia.
Qed.

Lemma body_calls_ok : forall chunks max d, 0 <= max < two64 -> Forall (fun c => c <> []) chunks ->
  (0 < max -> zlen d <= max) -> zlen d + zlen (concat chunks) < two64 ->
  body_calls max (mk_body (block_of d) (zlen d)) chunks =
  Ret (mk_body (block_of (limited max (d ++ concat chunks))) (zlen (limited max (d ++ concat chunks)))).
Proof.
  induction chunks as [|c r IH]; intros max d M F LE S.
  - simpl. rewrite app_nil_r. unfold limited. destruct (max =? 0) eqn:E; auto. apply Z.eqb_neq in E.
    rewrite zfirstn_big by (apply LE; lia). reflexivity.
  - inversion F; subst. simpl in S. rewrite zlen_app in S. pose proof (zlen_nonneg _ (concat r)).
    cbn [body_calls]. rewrite body_call_ok by (auto; lia). unfold bind at 1. cbn [snd].
    pose proof (limited_len max (d ++ c) ltac:(lia)) as [L1 L2]. rewrite zlen_app in L1.
    rewrite IH; auto; [|lia]. simpl. rewrite limited_app by lia. now rewrite <- app_assoc.
Qed.

Lemma body_calls_app : forall max a b x, body_calls max x (a ++ b) = (do y <- body_calls max x a; body_calls max y b).
Proof.
  intros max. induction a as [|c a IH]; intros b x; simpl; auto.
  destruct (body_call max x c); simpl; auto.
Qed.

(** ** C27 *)
Definition has_bytes (es : list entry) (k : str) (v : list Z) : Prop :=
  match find (key_is k) es with
  | Some e => eb e = block_of v ++ [Some 0] /\ el e = zlen v
  | None => v = []
  end.

Lemma put_at_end : forall m es (k : str) (d c : list Z) n, layout m es -> entries_ok es -> k <> [] ->
  has_bytes es k d -> 0 <= n <= zlen c -> zlen d + n + 1 < two64 ->
  exists m' es', u_map_put_binary m (Some k) (Some (block_of c)) (zlen d) n = Ret (U_OK, m') /\
    layout m' es' /\ entries_ok es' /\ has_bytes es' k (d ++ zfirstn n c) /\
    (forall x, x <> k -> find (key_is x) es' = find (key_is x) es).
Proof.
  intros m es k d c n L OK K H N S. pose proof (zlen_nonneg _ d).
  assert (PO : put_binary_ok (Some (block_of c)) (zlen d) n).
  { unfold put_binary_ok. unfold block_of. rewrite zlen_map. repeat split; lia. }
  destruct (put_binary_layout m es k _ _ _ L OK K PO) as (m' & E & L').
  exists m', (e_put k (Some (block_of c)) (zlen d) n es). split; auto. split; auto.
  split; [now apply e_put_ok|]. split.
  - unfold has_bytes in *. destruct (e_find_put_same k (Some (block_of c)) (zlen d) n es) as (e' & F & ->). rewrite F.
    destruct (find (key_is k) es) as [e|].
    + destruct H as [B LE]. unfold e_upd. rewrite B, LE. rewrite zlen_app, zlen_zfirstn by lia. bdestr.
      * simpl. split; auto. unfold pad. rewrite <- (app_assoc (block_of d)).
        rewrite zfirstn_app_exact by (unfold block_of; now rewrite zlen_map). rewrite zfirstn_block. unfold block_of.
        now rewrite map_app, <- app_assoc.
      * apply Z.ltb_ge in E0. assert (n = 0) by lia. subst n. simpl. rewrite zfirstn_0, app_nil_r. split; [|lia].
        rewrite Z.add_0_r. now rewrite zfirstn_zskipn.
    + subst d. simpl. change (zlen (@nil Z)) with 0. unfold e_new. simpl. rewrite zfirstn_block. split; [reflexivity|].
      rewrite zlen_zfirstn by lia. reflexivity.
  - intros x D. now apply e_find_put_other.
Qed.

Lemma filename_step : forall m es (key : str) f, layout m es -> entries_ok es -> cstr f -> zlen f + 2 < two64 ->
  exists m' es', put_filename m key (Some f) = Ret m' /\
    layout m' es' /\ entries_ok es' /\ (forall x, x <> key ++ bs "_filename" -> find (key_is x) es' = find (key_is x) es).
Proof.
  intros m es key f L OK CF S. unfold put_filename. rewrite (has_key_layout m es _ L). unfold bind at 1.
  destruct (existsb _ es); [exists m, es; auto|].
  assert (OV : ovalue_ok (Some f)) by (split; auto).
  assert (K : key ++ bs "_filename" <> []) by (intro C; apply app_eq_nil in C as [_ C]; discriminate).
  destruct (put_binary_layout m es _ _ _ _ L OK K (put_as_binary_ok (Some f) OV)) as (m2 & R2 & L2).
  exists m2. eexists. split; [|split; [exact L2|split]].
  - rewrite <- u_map_put_unfold in R2. change (@Some (list Z)) with (@Some str) in *. rewrite R2. reflexivity.
  - apply e_put_ok; auto. now apply put_as_binary_ok.
  - intros x D. now apply e_find_put_other.
Qed.

Definition piece_ok (check : bool) (key : str) (filename : option str) (p : list Z) : Prop :=
  check = true -> utf8_valid key = true /\ utf8_valid p = true /\
    match filename with Some f => utf8_valid f = true | None => True end.

(** one piece at offset [off] when [cur] is already stored for this value; [old] is what was
    there before the value started *)
Lemma iterate_step : forall check max m es (key : str) filename p off cur, layout m es -> entries_ok es -> key <> [] ->
  piece_ok check key filename p -> 0 <= max < two64 -> 0 <= off -> off + zlen p < two64 ->
  match filename with Some f => cstr f /\ zlen f + 2 < two64 | None => True end ->
  has_bytes es key cur -> zlen cur + zlen p + 2 < two64 -> (off <> 0 -> cur <> [] ) ->
  exists m' es', iterate_post check max m key filename (Some p) off (zlen p) = Ret (true, m') /\
    layout m' es' /\ entries_ok es' /\
    has_bytes es' key (if (0 <? max) && (max <? off) then cur
                       else (if off =? 0 then match cur with [] => [] | _ => cur ++ [44] end else cur) ++
                            (if max =? 0 then p else zfirstn (max - off) p)) /\
    (forall x : str, x <> key -> (filename <> None -> x <> key ++ bs "_filename") -> find (key_is x) es' = find (key_is x) es).
Proof.
  intros check max m es key filename p off cur L OK K PK M O0 O1 FN HB S CN. unfold iterate_post.
  replace (check && negb (utf8_valid key && utf8_valid (zfirstn (zlen p) p) && match filename with Some f => utf8_valid f | None => true end)) with false.
  2:{ destruct check; auto. destruct (PK eq_refl) as (A & B & C). rewrite zfirstn_all, A, B. destruct filename; simpl; auto. now rewrite C. }
  destruct ((0 <? max) && (max <? off)) eqn:SK.
  { exists m, es. split; auto. }
  set (data_size := if (0 <? max) && (max <? add64 off (zlen p)) then max - off else zlen p).
  pose proof (zlen_nonneg _ p). pose proof (zlen_nonneg _ cur).
  assert (DS : 0 <= data_size <= zlen p /\ zfirstn data_size p = if max =? 0 then p else zfirstn (max - off) p).
  { unfold data_size. rewrite add64_small by lia.
    destruct (0 <? max) eqn:P; cbn [andb] in *.
    - apply Z.ltb_lt in P. apply Z.ltb_ge in SK. replace (max =? 0) with false by (symmetry; apply Z.eqb_neq; lia).
      destruct (max <? off + zlen p) eqn:Q; [apply Z.ltb_lt in Q|apply Z.ltb_ge in Q].
      + split; [lia|reflexivity].
      + split; [lia|]. rewrite zfirstn_all, zfirstn_big by lia. reflexivity.
    - apply Z.ltb_ge in P. replace (max =? 0) with true by (symmetry; apply Z.eqb_eq; lia). split; [lia|]. apply zfirstn_all. }
  destruct DS as [DS1 DS2]. rewrite <- DS2. clear DS2. clearbody data_size.
  assert (X : exists m1 es1, put_filename m key filename = Ret m1 /\ layout m1 es1 /\ entries_ok es1 /\
       (forall x, (filename <> None -> x <> key ++ bs "_filename") -> find (key_is x) es1 = find (key_is x) es)).
  { destruct filename as [f|]; [|exists m, es; auto]. destruct FN as [FN1 FN2].
    destruct (filename_step m es key f L OK FN1 FN2) as (m1 & es1 & E1 & L1 & OK1 & F1). exists m1, es1. repeat (split; auto).
    intros x D. apply F1. apply D. discriminate. }
  destruct X as (m1 & es1 & E1 & L1 & OK1 & F1). rewrite E1. unfold bind at 1. cbv zeta.
  assert (KF : key <> key ++ bs "_filename").
  { intro C. apply (f_equal (@length Z)) in C. rewrite app_length in C. simpl in C. lia. }
  assert (HB1 : has_bytes es1 key cur) by (unfold has_bytes in *; now rewrite F1).
  rewrite (get_layout m1 es1 key L1). unfold bind at 1.
  assert (CUR : exists b, (match find (key_is key) es1 with Some e => if 0 <? el e then Some (eb e) else None | None => None end)
     = (match cur with [] => None | _ => Some b end) /\ (cur <> [] -> u_map_get_length m1 (Some key) = Ret (zlen cur))).
  { pose proof (get_length_layout m1 es1 key L1) as GL. unfold has_bytes in HB1. destruct (find (key_is key) es1) as [e|].
    - destruct HB1 as [_ EL]. rewrite EL in *. exists (eb e). destruct cur as [|c cur]; [split; [reflexivity|congruence]|].
      split; [|intros _; exact GL].
      pose proof (zlen_nonneg _ cur). replace (0 <? zlen (c :: cur)) with true by (symmetry; apply Z.ltb_lt; rewrite zlen_cons; lia). reflexivity.
    - subst cur. exists []. split; [reflexivity|congruence]. }
  destruct CUR as (b & -> & GL).
  destruct cur as [|c cur'] eqn:CE.
  - assert (off = 0) by (destruct (Z.eq_dec off 0); auto; exfalso; now apply CN).
    subst off. change (0 =? 0) with true. cbv iota. simpl app.
    destruct (put_at_end m1 es1 key [] p data_size L1 OK1 K HB1 DS1 ltac:(change (zlen (@nil Z)) with 0; lia)) as (m2 & es2 & E2 & L2 & OK2 & H2 & F2).
    change (zlen (@nil Z)) with 0 in E2. rewrite E2. unfold bind at 1. cbn [fst snd]. exists m2, es2. split; auto. split; auto. split; auto.
    split; auto. intros x D1 D2. rewrite F2 by auto. now apply F1.
  - rewrite <- CE in *. replace (match cur with [] => None | _ :: _ => Some b end) with (Some b) by (rewrite CE; reflexivity).
    rewrite GL by (rewrite CE; discriminate). unfold bind at 1.
    replace (0 <=? zlen cur) with true by (symmetry; apply Z.leb_le; lia).
    destruct (off =? 0) eqn:Z0; cbn [negb].
    + destruct (put_at_end m1 es1 key cur [44; 0] 1 L1 OK1 K HB1 ltac:(rewrite !zlen_cons; change (zlen (@nil Z)) with 0; lia) ltac:(lia))
        as (m2 & es2 & E2 & L2 & OK2 & H2 & F2).
      rewrite E2. unfold bind at 1. cbn [fst snd]. change (U_OK =? U_OK) with true. cbv iota.
      change (zfirstn 1 [44; 0]) with [44] in H2.
      destruct (put_at_end m2 es2 key (cur ++ [44]) p data_size L2 OK2 K H2 DS1) as (m3 & es3 & E3 & L3 & OK3 & H3 & F3).
      { rewrite zlen_app. change (zlen [44]) with 1. lia. }
      rewrite zlen_app in E3. change (zlen [44]) with 1 in E3. rewrite E3. unfold bind at 1. cbn [fst snd].
      exists m3, es3. split; auto. split; auto. split; auto. split.
      * exact H3.
      * intros x D1 D2. rewrite F3, F2 by auto. now apply F1.
    + destruct (put_at_end m1 es1 key cur p data_size L1 OK1 K HB1 DS1 ltac:(lia)) as (m2 & es2 & E2 & L2 & OK2 & H2 & F2).
      rewrite E2. unfold bind at 1. cbn [fst snd]. exists m2, es2. split; auto. split; auto. split; auto.
      split; auto. intros x D1 D2. rewrite F2 by auto. now apply F1.
Qed.

(** the rest of the pieces, when some of the value is already stored *)
Lemma pieces_rest : forall pieces check max m es (key : str) filename off base v0, layout m es -> entries_ok es -> key <> [] ->
  Forall (piece_ok check key filename) pieces -> 0 <= max < two64 ->
  match filename with Some f => cstr f /\ zlen f + 2 < two64 | None => True end ->
  off = zlen v0 -> 0 < off -> off + zlen (concat pieces) < two64 ->
  base ++ limited max v0 <> [] -> has_bytes es key (base ++ limited max v0) ->
  zlen base + zlen v0 + zlen (concat pieces) + 2 < two64 ->
  exists m' es', post_pieces check max m key filename off pieces = Ret (true, m') /\
    layout m' es' /\ entries_ok es' /\ has_bytes es' key (base ++ limited max (v0 ++ concat pieces)) /\
    (forall x, x <> key -> (filename <> None -> x <> key ++ bs "_filename") -> find (key_is x) es' = find (key_is x) es).
Proof.
  induction pieces as [|p r IH]; intros check max m es key filename off base v0 L OK K PK M FN OE O0 O1 NE HB S.
  - simpl. rewrite app_nil_r. exists m, es. auto.
  - inversion PK; subst. cbn [post_pieces concat] in *. rewrite zlen_app in O1, S.
    pose proof (zlen_nonneg _ p). pose proof (zlen_nonneg _ (concat r)). pose proof (limited_len max v0 ltac:(lia)) as [LL1 LL2].
    destruct (iterate_step check max m es key filename p (zlen v0) (base ++ limited max v0) L OK K H1 M ltac:(lia) ltac:(lia) FN HB)
      as (m1 & es1 & E1 & L1 & OK1 & HB1 & F1); auto.
    { rewrite zlen_app. lia. }
    rewrite E1. unfold bind at 1. cbn [fst snd].
    assert (V : (if (0 <? max) && (max <? zlen v0) then base ++ limited max v0
        else (if zlen v0 =? 0 then match base ++ limited max v0 with [] => [] | _ => (base ++ limited max v0) ++ [44] end else base ++ limited max v0) ++
             (if max =? 0 then p else zfirstn (max - zlen v0) p)) = base ++ limited max (v0 ++ p)).
    { replace (zlen v0 =? 0) with false by (symmetry; apply Z.eqb_neq; lia).
      unfold limited. destruct (max =? 0) eqn:Z0.
      - apply Z.eqb_eq in Z0. subst max. simpl. now rewrite <- app_assoc.
      - apply Z.eqb_neq in Z0. replace (0 <? max) with true by (symmetry; apply Z.ltb_lt; lia). cbn [andb].
        destruct (max <? zlen v0) eqn:Q.
        + apply Z.ltb_lt in Q. f_equal. unfold zfirstn, zlen in *. rewrite firstn_app.
          replace (Z.to_nat max - length v0)%nat with 0%nat by lia. simpl. now rewrite app_nil_r.
        + apply Z.ltb_ge in Q. rewrite (zfirstn_big _ max v0) by lia. rewrite zfirstn_app_le by lia. now rewrite app_assoc. }
    rewrite V in HB1.
    destruct (IH check max m1 es1 key filename (zlen v0 + zlen p) base (v0 ++ p) L1 OK1 K H2 M FN) as (m2 & es2 & E2 & L2 & OK2 & HB2 & F2); auto.
    + now rewrite zlen_app.
    + lia.
    + lia.
    + intro C. apply NE. apply app_eq_nil in C as [C1 C2]. rewrite C1. simpl. unfold limited in *.
      destruct (max =? 0) eqn:Z0; [now apply app_eq_nil in C2|]. apply Z.eqb_neq in Z0.
      exfalso. apply (f_equal zlen) in C2. change (zlen (@nil Z)) with 0 in C2.
      unfold zfirstn, zlen in *. rewrite firstn_length, app_length in C2. lia.
    + rewrite zlen_app. lia.
    + exists m2, es2. rewrite <- app_assoc in HB2. repeat (split; auto).
      intros x D1 D2. rewrite F2 by auto. now apply F1.
Qed.

Lemma limited_nonempty : forall max v, 0 <= max -> v <> [] -> limited max v <> [].
Proof.
  intros max v M N C. unfold limited in C. destruct (max =? 0) eqn:Z0; auto. apply Z.eqb_neq in Z0.
  destruct v as [|c v]; auto. unfold zfirstn in C. destruct (Z.to_nat max) eqn:Q; [lia|discriminate].
Qed.

Lemma C27_entries : forall check max m es (key : str) filename v pieces old, layout m es -> entries_ok es -> key <> [] ->
  Forall (piece_ok check key filename) pieces -> 0 <= max < two64 ->
  match filename with Some f => cstr f /\ zlen f + 2 < two64 | None => True end ->
  split_of v pieces -> has_bytes es key old -> zlen old + zlen v + 3 < two64 ->
  exists m' es', post_pieces check max m key filename 0 pieces = Ret (true, m') /\
    layout m' es' /\ entries_ok es' /\ has_bytes es' key (appended old (limited max v)) /\
    (forall x, x <> key -> (filename <> None -> x <> key ++ bs "_filename") -> find (key_is x) es' = find (key_is x) es).
Proof.
  intros check max m es key filename v pieces old L OK K PK M FN (CC & NP & SP) HB S.
  destruct pieces as [|p r]; [congruence|]. clear NP. inversion PK; subst. cbn [concat] in S. rewrite zlen_app in S.
  pose proof (zlen_nonneg _ p). pose proof (zlen_nonneg _ (concat r)). pose proof (zlen_nonneg _ old).
  destruct (iterate_step check max m es key filename p 0 old L OK K H1 M ltac:(lia) ltac:(lia) FN HB ltac:(lia) ltac:(congruence))
    as (m1 & es1 & E1 & L1 & OK1 & HB1 & F1).
  cbn [post_pieces]. rewrite E1. unfold bind at 1. cbn [fst snd].
  replace ((0 <? max) && (max <? 0)) with false in HB1
    by (symmetry; apply andb_false_iff; right; apply Z.ltb_ge; lia).
  rewrite Z.eqb_refl, Z.sub_0_r in HB1. fold (limited max p) in HB1.
  set (base := match old with [] => [] | _ => old ++ [44] end) in *.
  assert (AP : forall w, appended old w = base ++ w).
  { intros w. unfold appended, base. destruct old; auto. now rewrite <- app_assoc. }
  rewrite AP. assert (BL : zlen base <= zlen old + 1).
  { unfold base. destruct old; [change (zlen (@nil Z)) with 0; lia|rewrite zlen_app; change (zlen [44]) with 1; lia]. }
  destruct SP as [NEP|EQ].
  - inversion NEP; subst. rewrite Z.add_0_l. assert (0 < zlen p).
    { destruct p as [|c p]; [congruence|]. rewrite zlen_cons. pose proof (zlen_nonneg _ p). lia. }
    destruct (pieces_rest r check max m1 es1 key filename (zlen p) base p L1 OK1 K H2 M FN eq_refl) as (m2 & es2 & E2 & L2 & OK2 & HB2 & F2); auto; try lia.
    + intro C. apply app_eq_nil in C as [_ C]. revert C. apply limited_nonempty; auto. lia.
    + exists m2, es2. repeat (split; auto). intros x D1 D2. rewrite F2 by auto. now apply F1.
  - inversion EQ; subst. simpl. exists m1, es1. repeat (split; auto).
Qed.

(** whole forms *)
Definition q_ok (check : bool) (q : str * option str * list (list Z)) : Prop :=
  check = true -> utf8_text (fst (fst q)) /\ bytes (fst (fst q)) /\ Forall utf8_text (snd q) /\ Forall bytes (snd q).

Lemma q_ok_pieces : forall check k ps, q_ok check (k, None, ps) -> Forall (piece_ok check k None) ps.
Proof.
  intros check k ps Q. apply Forall_forall. intros p I C. destruct (Q C) as (A & B & D & E). simpl in *.
  rewrite Forall_forall in D, E. split; [now apply utf8_valid_spec|]. split; auto. apply utf8_valid_spec; auto.
Qed.

Lemma appended_len : forall a b, zlen (appended a b) <= zlen a + zlen b + 1.
Proof.
  intros [|x a] b; unfold appended; [change (zlen (@nil Z)) with 0; lia|]. rewrite !zlen_app. change (zlen [44]) with 1. lia.
Qed.

Lemma form_weight_nonneg : forall form, 0 <= form_weight form.
Proof. induction form as [|[k v] r IH]; unfold form_weight in *; simpl; [lia|]. pose proof (zlen_nonneg _ v). simpl in *. lia. Qed.

Lemma post_form_ok : forall check max form params m es (olds : str -> list Z), 0 <= max < two64 -> form_split form params ->
  Forall (q_ok check) params -> layout m es -> entries_ok es -> (forall k, has_bytes es k (olds k)) ->
  (forall k, zlen (olds k) + form_weight form + 3 < two64) ->
  exists m' es', post_form check max m params = Ret (true, m') /\ layout m' es' /\ entries_ok es' /\
    forall k, has_bytes es' k (form_value max (olds k) form k).
Proof.
  intros check max form params m es olds M FS. revert m es olds.
  induction FS as [|[k v] q form params (pieces & -> & K & SP) FS IH]; intros m es olds Q L OK HB S.
  - simpl. exists m, es. auto.
  - inversion Q; subst. simpl in K, SP. cbn [post_form].
    assert (WC : form_weight ((k, v) :: form) = zlen v + 1 + form_weight form) by reflexivity.
    pose proof (form_weight_nonneg form). pose proof (zlen_nonneg _ v).
    destruct (C27_entries check max m es k None v pieces (olds k) L OK K (q_ok_pieces _ _ _ H1) M I SP (HB k)) as (m1 & es1 & E1 & L1 & OK1 & HB1 & F1).
    { specialize (S k). lia. }
    cbn [fst]. rewrite E1. unfold bind at 1. cbn [fst snd].
    destruct (IH m1 es1 (fun x => if str_eqb k x then appended (olds x) (limited max v) else olds x) H2 L1 OK1) as (m2 & es2 & E2 & L2 & OK2 & HB2).
    + intros x. destruct (str_eqb k x) eqn:E.
      * apply str_eqb_eq in E. subst x. exact HB1.
      * apply str_eqb_neq in E. unfold has_bytes. rewrite F1; [apply HB|congruence|congruence].
    + intros x. specialize (S x). rewrite WC in S. destruct (str_eqb k x); [|lia].
      pose proof (appended_len (olds x) (limited max v)). pose proof (limited_len max v ltac:(lia)) as [LL _]. lia.
    + exists m2, es2. repeat (split; auto).
Qed.
