(** Invariants of all reachable maps, and the lemmas behind C01-C10. *)
From Coq Require Import ZArith Bool List Lia.
From Verif Require Import Base BaseFacts UMapModel UMapSpec UMapProofs.
Import ListNotations.
Open Scope Z_scope.

Arguments u_map_get_length : simpl never.
Arguments u_map_get_case_length : simpl never.
Arguments u_map_get_case : simpl never.
Arguments u_map_has_key : simpl never.
Arguments u_map_has_key_case : simpl never.

Definition good (gaps : bool) (m : umap) : Prop :=
  exists es, layout m es /\ entries_ok es /\ (gaps = false -> entries_written es).

Lemma put_binary_badkey : forall m k v off len, k = None \/ k = Some [] ->
  u_map_put_binary m k v off len = Ret (U_ERROR_PARAMS, m).
Proof. intros m k v off len [->| ->]; reflexivity. Qed.

Lemma written_zfirstn : forall n b, written b -> written (zfirstn n b).
Proof.
  unfold written, zfirstn. intros n b H. rewrite Forall_forall in *. intros x I.
  apply H. rewrite <- (firstn_skipn (Z.to_nat n) b). apply in_or_app; auto.
Qed.
Lemma written_zskipn : forall n b, written b -> written (zskipn n b).
Proof.
  unfold written, zskipn. intros n b H. rewrite Forall_forall in *. intros x I.
  apply H. rewrite <- (firstn_skipn (Z.to_nat n) b). apply in_or_app; auto.
Qed.
Lemma written_pad : forall n b, 0 <= n <= zlen b -> written b -> written (pad n b).
Proof.
  intros. unfold pad, zfirstn, zlen in *. rewrite firstn_app.
  replace (Z.to_nat n - length b)%nat with 0%nat by lia. simpl. rewrite app_nil_r.
  apply (written_zfirstn n b); auto.
Qed.
Lemma written_app : forall a b, written a -> written b -> written (a ++ b).
Proof. intros. apply Forall_app; auto. Qed.
Lemma written_block : forall l, written (block_of l).
Proof. intros. unfold written, block_of. rewrite Forall_map. apply Forall_forall. discriminate. Qed.
Lemma written_nul : written [Some 0].
Proof. constructor; [discriminate|constructor]. Qed.

Lemma e_put_written : forall k v off len es,
  entries_ok es -> put_binary_ok v off len ->
  match v with Some b => written (zfirstn len b) | None => True end ->
  off <= Z.max 0 (match find (key_is k) es with Some e => el e | None => -1 end) ->
  entries_written es -> entries_written (e_put k v off len es).
Proof.
  intros k v off len es [F _] (O0 & O1 & O2 & OV) WV OB W.
  induction es as [|e es IH]; simpl in *.
  - constructor; [|constructor]. unfold e_new. destruct v as [v|]; simpl.
    + replace (Z.to_nat off) with 0%nat by lia. simpl. apply written_app; auto using written_nul.
    + apply written_nul.
  - inversion F; subst. inversion W; subst. unfold key_is in OB at 1. destruct (str_eqb (ek e) k) eqn:E.
    + constructor; auto. destruct H1 as (EK & E0 & E1 & E2 & E3). unfold e_upd. destruct v as [v|].
      * bdestr; simpl.
        -- apply written_app; [apply written_pad; auto; lia|]. apply written_app; auto using written_nul.
        -- repeat apply written_app; auto using written_zfirstn, written_zskipn.
      * apply written_nul.
    + constructor; auto. apply IH; auto.
Qed.

Lemma filter_ok : forall p es, entries_ok es -> entries_ok (filter p es).
Proof.
  intros p es [F N]. split.
  - rewrite Forall_forall in *. intros x I. apply filter_In in I. apply F; tauto.
  - now apply NoDup_map_filter.
Qed.
Lemma filter_written : forall p es, entries_written es -> entries_written (filter p es).
Proof.
  intros p es F. unfold entries_written in *. rewrite Forall_forall in *. intros x I.
  apply filter_In in I. apply F; tauto.
Qed.

Lemma split_at : forall A (l : list A) i, (i < length l)%nat ->
  exists a x b, l = a ++ x :: b /\ length a = i.
Proof.
  intros A l i H. destruct (nth_error l i) as [x|] eqn:E.
  - apply nth_error_split in E as (a & b & E & L). eauto.
  - apply nth_error_None in E. lia.
Qed.

Lemma good_filter : forall g m' es p,
  entries_ok es -> (g = false -> entries_written es) -> layout m' (filter p es) -> good g m'.
Proof.
  intros. exists (filter p es). split; auto. split; [now apply filter_ok|].
  intro. apply filter_written; auto.
Qed.

Lemma good_put_binary : forall g m k v off len c m', good g m -> put_binary_ok v off len ->
  (g = false -> no_gap m k v off len) ->
  u_map_put_binary m k v off len = Ret (c, m') -> good g m'.
Proof.
  intros g m k v off len c m' (es & L & OK & W) P G R.
  destruct k as [[|k0 k']|].
  - rewrite put_binary_badkey in R by auto. inversion R; subst. exists es; auto.
  - destruct (put_binary_layout m es (k0 :: k') v off len L OK ltac:(discriminate) P) as (m2 & R2 & L2).
    rewrite R2 in R. inversion R; subst. eexists. split; [exact L2|]. split.
    + apply e_put_ok; auto. discriminate.
    + intros Gf. specialize (W Gf). destruct (G Gf) as ((l & GL & OB) & WV).
      rewrite (get_length_layout _ _ _ L) in GL. inversion GL; subst.
      apply e_put_written; auto.
  - rewrite put_binary_badkey in R by auto. inversion R; subst. exists es; auto.
Qed.

Lemma put_as_binary_ok : forall v, ovalue_ok v -> put_binary_ok (ov_block v) 0 (ov_len v).
Proof.
  intros [s|] H; simpl in *; unfold put_binary_ok.
  - destruct H as [_ H]. pose proof (zlen_nonneg _ s). rewrite zlen_cblock. repeat split; lia.
  - unfold two64; repeat split; lia.
Qed.

Lemma put_no_gap : forall m es k v, layout m es -> no_gap m k (ov_block v) 0 (ov_len v).
Proof.
  intros m es k v L. unfold no_gap. split.
  - destruct k as [k|].
    + eexists. split; [apply (get_length_layout _ _ _ L)|lia].
    + exists (-1). split; [reflexivity|lia].
  - destruct v; simpl; auto. apply written_zfirstn. apply written_block.
Qed.

Lemma e_copy_into_good : forall ss ds r,
  Forall entry_ok ss -> Forall (fun e => el e + 2 < two64) ss ->
  e_copy_into ss ds = Ret r -> entries_ok ds -> entries_written ds -> entries_written r.
Proof.
  induction ss as [|e ss IH]; intros ds r F S R O W; simpl in R.
  - inversion R; subst; auto.
  - inversion F; subst. inversion S; subst. destruct (e_cstr e) as [s|] eqn:C; [|discriminate]. simpl in R.
    pose proof (put_ok_of_cstr e s H1 H3 C) as PO.
    apply (IH _ _ H2 H4 R).
    + apply e_put_ok; auto. apply H1.
    + apply e_put_written; auto; try lia. destruct s; simpl; auto.
      apply written_zfirstn, written_block.
Qed.

Lemma reachable_good : forall g m, reachable g m -> good g m.
Proof.
  intros g m R. induction R.
  - exists []. split; [repeat split|]. split; [split; constructor|constructor].
  - rewrite u_map_put_unfold in H0. eapply good_put_binary; eauto using put_as_binary_ok.
    intros _. destruct IHR as (es & L & _). eapply put_no_gap; eauto.
  - eapply good_put_binary; eauto.
  - destruct IHR as (es & L & O & W). unfold u_map_remove_at in H. 
    destruct (i <? 0) eqn:I0; [inversion H; subst; exists es; auto|].
    destruct (Z.of_nat (nb_values m) <=? i) eqn:I1; [inversion H; subst; exists es; auto|].
    apply Z.ltb_ge in I0. apply Z.leb_gt in I1.
    assert (N := L). destruct N as (_ & _ & _ & N). rewrite N in I1.
    destruct (split_at _ es (Z.to_nat i)) as (a & x & b & E & La); [lia|].
    subst es. destruct (remove_at_layout m a x b L) as (m2 & R2 & L2).
    rewrite La, Z2Nat.id in R2 by lia.
    unfold u_map_remove_at in R2. replace (i <? 0) with false in R2 by (symmetry; apply Z.ltb_ge; lia).
    replace (Z.of_nat (nb_values m) <=? i) with false in R2 by (symmetry; apply Z.leb_gt; lia).
    rewrite R2 in H. inversion H; subst.
    exists (a ++ b). split; auto. destruct O as [F ND]. split.
    + split.
      * rewrite Forall_forall in *. intros y I. apply F. apply in_or_app. apply in_app_or in I. simpl. tauto.
      * rewrite map_app in *. simpl in ND. eapply NoDup_remove_1; eauto.
    + intro G. specialize (W G). unfold entries_written in *. rewrite Forall_forall in *. intros y I. apply W.
      apply in_or_app. apply in_app_or in I. simpl. tauto.
  - destruct IHR as (es & L & O & W). destruct k as [k|]; [|inversion H; subst; exists es; auto].
    destruct (remove_key_layout m es k L) as (m2 & R2 & L2). rewrite R2 in H. inversion H; subst.
    eapply good_filter; eauto.
  - destruct IHR as (es & L & O & W). destruct k as [k|]; [|inversion H; subst; exists es; auto].
    destruct (remove_key_case_layout m es k L) as (m2 & R2 & L2). rewrite R2 in H. inversion H; subst.
    eapply good_filter; eauto.
  - destruct IHR as (es & L & O & W). destruct v as [v|]; [|inversion H; subst; exists es; auto].
    assert (D : forall e, In e es -> defined (memcmp_eq (eb e) v len)).
    { pose proof (remove_loop_outcome (test_value v len) _ (test_value_tp v len) es [] m false) as X.
      rewrite app_nil_r in X. specialize (X L).
      unfold u_map_remove_from_value_binary in H. assert (N := L). destruct N as (_ & _ & _ & N).
      rewrite N in H. rewrite H in X. exact X. }
    destruct (remove_value_layout m es v len L D) as (m2 & R2 & L2). rewrite R2 in H. inversion H; subst.
    eapply good_filter; eauto.
  - destruct IHR as (es & L & O & W). destruct v as [v|]; [|inversion H; subst; exists es; auto].
    assert (D : forall e, In e es -> defined (strcasecmp_block (eb e) v)).
    { pose proof (remove_loop_outcome (test_value_case v) _ (test_value_case_tp v) es [] m false) as X.
      rewrite app_nil_r in X. specialize (X L).
      unfold u_map_remove_from_value_case in H. assert (N := L). destruct N as (_ & _ & _ & N).
      rewrite N in H. rewrite H in X. exact X. }
    destruct (remove_value_case_layout m es v L D) as (m2 & R2 & L2). rewrite R2 in H. inversion H; subst.
    eapply good_filter; eauto.
  - exists []. split; [repeat split|]. split; [split; constructor|constructor].
  - destruct IHR as (es & L & O & W). destruct (copy_layout m es L O) as (m2 & R2 & L2).
    rewrite R2 in H. inversion H; subst. exists es; auto.
  - destruct IHR1 as (ds & Ld & Od & Wd). destruct IHR2 as (ss & Ls & Os & Ws).
    pose proof (copy_into_layout s ss d ds Ls Os H Ld Od) as X.
    destruct (e_copy_into ss ds) as [r|] eqn:E.
    + destruct X as (m2 & R3 & L3 & O3). rewrite R3 in H0. inversion H0; subst.
      exists r. split; auto. split; auto. intros G.
      apply (e_copy_into_good ss ds r); auto; try apply Os.
      unfold sizes_ok in H. destruct Ls as (_ & _ & Ll & _). rewrite Ll in H. apply Forall_app in H as [H _].
      rewrite Forall_map in H. exact H.
    + destruct X as [X _]. congruence.
Qed.

(** ** C01 *)

Definition dict_rel (es : list entry) (d : dict) : Prop :=
  forall k, match find (key_is k) es with
            | None => d k = None
            | Some e => exists ov, d k = Some ov /\
                match ov with
                | None => el e = 0
                | Some s => 0 < el e /\ read_cstr (eb e) = Ret s
                end
            end.

Lemma read_cstr_nz : forall s rest, Forall (fun c => c <> 0) s -> read_cstr (block_of s ++ Some 0 :: rest) = Ret s.
Proof.
  induction s as [|c s IH]; intros rest H; simpl; [reflexivity|].
  inversion H; subst. replace (c =? 0) with false by (symmetry; now apply Z.eqb_neq).
  fold (block_of s). rewrite IH by assumption. reflexivity.
Qed.

Lemma cstr_nz : forall s, cstr s -> Forall (fun c => c <> 0) s.
Proof. intros s H. eapply Forall_impl; [|exact H]. simpl; intros; lia. Qed.

Lemma read_cblock_app : forall s rest, Forall (fun c => c <> 0) s ->
  read_cstr (zfirstn (zlen s + 1) (cblock s) ++ rest) = Ret s.
Proof.
  intros. rewrite <- zlen_cblock, zfirstn_all, cblock_split, <- app_assoc. now apply read_cstr_nz.
Qed.

(** the entry a string put leaves behind reads back as the string *)
Lemma put_entry_reads : forall k s e, Forall (fun c => c <> 0) s ->
  (e = e_new k (Some (cblock s)) 0 (zlen s + 1) \/
   exists e0, entry_ok e0 /\ e = e_upd (Some (cblock s)) 0 (zlen s + 1) e0) ->
  0 < el e /\ read_cstr (eb e) = Ret s.
Proof.
  intros k s e NZ [->|(e0 & _ & ->)]; pose proof (zlen_nonneg _ s).
  - unfold e_new; simpl. split; [lia|]. now apply read_cblock_app.
  - unfold e_upd. bdestr; simpl.
    + split; [lia|]. unfold pad. simpl. now apply read_cblock_app.
    + apply Z.ltb_ge in E. split; [lia|]. unfold zfirstn at 1; simpl. now apply read_cblock_app.
Qed.

Lemma dict_rel_put : forall es d k v,
  entries_ok es -> (match v with Some s => Forall (fun c => c <> 0) s | None => True end) ->
  dict_rel es d ->
  dict_rel (e_put k (ov_block v) 0 (ov_len v) es) (d_set d k v).
Proof.
  intros es d k v OK NZ R x. unfold d_set.
  destruct (str_eqb x k) eqn:E.
  - apply str_eqb_eq in E; subst x.
    destruct (e_find_put_same k (ov_block v) 0 (ov_len v) es) as (e' & -> & He).
    exists v. split; auto. destruct v as [s|]; simpl in *.
    + apply (put_entry_reads k); auto. destruct (find (key_is k) es) as [e|] eqn:F; auto.
      right. exists e. split; auto. apply find_some in F. destruct OK as [F0 _].
      rewrite Forall_forall in F0. apply F0; tauto.
    + destruct (find (key_is k) es); subst e'; reflexivity.
  - apply str_eqb_neq in E. rewrite e_find_put_other by auto. apply R.
Qed.

Lemma dict_rel_remove : forall es d k, dict_rel es d ->
  dict_rel (filter (fun e => negb (key_is k e)) es) (d_remove d k).
Proof.
  intros es d k R x. unfold d_remove. specialize (R x).
  destruct (str_eqb x k) eqn:E.
  - apply str_eqb_eq in E; subst x.
    replace (find (key_is k) (filter (fun e => negb (key_is k e)) es)) with (@None entry); auto.
    symmetry. apply find_miss. intros e I. apply filter_In in I as [_ I]. now apply negb_true_iff.
  - assert (F : find (key_is x) (filter (fun e => negb (key_is k e)) es) = find (key_is x) es).
    { clear R. induction es as [|e es IH]; simpl; auto. unfold key_is at 2.
      destruct (str_eqb (ek e) k) eqn:G; simpl.
      - rewrite IH. unfold key_is at 2. apply str_eqb_eq in G. rewrite G.
        rewrite str_eqb_sym in E. now rewrite E.
      - now rewrite IH. }
    now rewrite F.
Qed.

Lemma C01_run : forall ops m es d,
  Forall dop_ok ops -> layout m es -> entries_ok es -> dict_rel es d ->
  exists m' es', m_run ops m = Ret m' /\ layout m' es' /\ entries_ok es' /\
                 dict_rel es' (fold_left d_step ops d).
Proof.
  induction ops as [|o ops IH]; intros m es d F L OK R; simpl.
  - exists m, es. auto.
  - inversion F as [|? ? P F']; subst. destruct o as [k v|k|]; simpl in *.
    + rewrite u_map_put_unfold. destruct k as [|k0 k'].
      * rewrite put_binary_badkey by auto. simpl. eapply IH; eauto.
      * destruct (put_binary_layout m es (k0 :: k') (ov_block v) 0 (ov_len v) L OK ltac:(discriminate) (put_as_binary_ok v P))
          as (m2 & R2 & L2).
        rewrite R2. simpl. eapply IH; eauto.
        -- apply e_put_ok; auto using put_as_binary_ok. discriminate.
        -- apply dict_rel_put; auto. destruct v; auto. apply cstr_nz. apply P.
    + destruct (remove_key_layout m es k L) as (m2 & R2 & L2). unfold u_map_remove_from_key in R2.
      rewrite R2. simpl. eapply IH; eauto using filter_ok. now apply dict_rel_remove.
    + eapply (IH u_map_init []); auto.
      * repeat split.
      * split; constructor.
      * intros k; reflexivity.
Qed.

Lemma C01_lemma : forall ops, Forall dop_ok ops ->
  exists m, m_run ops u_map_init = Ret m /\
    forall k,
      u_map_has_key m (Some k) = Ret (match d_run ops k with Some _ => true | None => false end) /\
      (do p <- u_map_get m (Some k); deref_cstr p)
        = Ret (match d_run ops k with Some ov => ov | None => None end).
Proof.
  intros ops F.
  destruct (C01_run ops u_map_init [] d_empty F) as (m & es & R & L & OK & D).
  - repeat split. - split; constructor. - intros k; reflexivity.
  - exists m. split; auto. intro k. fold (d_run ops) in D. specialize (D k).
    rewrite (has_key_layout m es k L), (get_layout m es k L), existsb_find.
    destruct (find (key_is k) es) as [e|].
    + destruct D as (ov & -> & H). split; auto. destruct ov as [s|]; simpl.
      * destruct H as [H0 H1]. replace (0 <? el e) with true by (symmetry; now apply Z.ltb_lt).
        simpl. rewrite H1. reflexivity.
      * rewrite H. reflexivity.
    + rewrite D. auto.
Qed.

(** C01 for one call on any reachable map *)
Lemma C01_step_lemma : forall g m (k : str) v, reachable g m -> k <> [] -> ovalue_ok v ->
  exists m', u_map_put m (Some k) v = Ret (U_OK, m') /\
    u_map_has_key m' (Some k) = Ret true /\
    (do p <- u_map_get m' (Some k); deref_cstr p) = Ret v /\
    (forall k', k' <> k -> u_map_get m' (Some k') = u_map_get m (Some k') /\
                           u_map_has_key m' (Some k') = u_map_has_key m (Some k') /\
                           u_map_get_length m' (Some k') = u_map_get_length m (Some k')).
Proof.
  intros g m k v R K V. destruct (reachable_good g m R) as (es & L & OK & _).
  destruct (put_binary_layout m es k (ov_block v) 0 (ov_len v) L OK K (put_as_binary_ok v V)) as (m2 & R2 & L2).
  exists m2. rewrite u_map_put_unfold. split; auto.
  destruct (e_find_put_same k (ov_block v) 0 (ov_len v) es) as (e' & Fe & He).
  split; [|split].
  - rewrite (has_key_layout _ _ _ L2), existsb_find, Fe. reflexivity.
  - rewrite (get_layout _ _ _ L2), Fe. simpl.
    destruct v as [s|]; simpl in *.
    + assert (X : 0 < el e' /\ read_cstr (eb e') = Ret s).
      { apply (put_entry_reads k); [now apply cstr_nz|]. destruct (find (key_is k) es) as [e|] eqn:F; auto.
        right. exists e. split; auto. apply find_some in F. destruct OK as [F0 _].
        rewrite Forall_forall in F0. apply F0; tauto. }
      destruct X as [X0 X1]. replace (0 <? el e') with true by (symmetry; now apply Z.ltb_lt). simpl.
      rewrite X1. reflexivity.
    + replace (el e') with 0; [reflexivity|]. destruct (find (key_is k) es); subst e'; reflexivity.
  - intros k' D. rewrite (get_layout _ _ _ L2), (get_layout _ _ _ L), (has_key_layout _ _ _ L2), (has_key_layout _ _ _ L),
      (get_length_layout _ _ _ L2), (get_length_layout _ _ _ L), !existsb_find, e_find_put_other by auto. auto.
Qed.

(** ** C02 *)

Lemma memcmp_go_inb : forall a b, in_bounds (memcmp_go a b).
Proof.
  induction a as [|x a IH]; intros b; simpl; auto. destruct x; destruct b as [|[]]; simpl; auto.
  destruct (z =? z0); simpl; auto.
Qed.
Lemma memcmp_inb : forall b v n, n <= zlen b -> n <= zlen v -> in_bounds (memcmp_eq b v n).
Proof.
  intros. unfold memcmp_eq.
  replace (n <=? zlen b) with true by (symmetry; now apply Z.leb_le).
  replace (n <=? zlen v) with true by (symmetry; now apply Z.leb_le). simpl. apply memcmp_go_inb.
Qed.
Lemma memcmp_go_defined : forall a b, written a -> written b -> defined (memcmp_go a b).
Proof.
  induction a as [|x a IH]; intros b W1 W2; simpl; auto.
  inversion W1; subst. destruct x; [|congruence]. destruct b as [|[] b]; simpl; auto; inversion W2; subst; [|congruence].
  destruct (z =? z0); simpl; auto.
Qed.
Lemma memcmp_defined : forall b v n, n <= zlen b -> n <= zlen v -> written b -> written v -> defined (memcmp_eq b v n).
Proof.
  intros. unfold memcmp_eq.
  replace (n <=? zlen b) with true by (symmetry; now apply Z.leb_le).
  replace (n <=? zlen v) with true by (symmetry; now apply Z.leb_le). simpl.
  apply memcmp_go_defined; now apply written_zfirstn.
Qed.

Lemma strcasecmp_inb : forall v s, in_bounds (strcasecmp_block (v ++ [Some 0]) s).
Proof.
  induction v as [|o v IH]; intros s; simpl.
  - destruct s; exact I.
  - destruct o; [|exact I]. destruct s; [exact I|]. bdestr; [exact I|]. bdestr; [apply IH|exact I].
Qed.
Lemma strcasecmp_defined : forall v s, written v -> defined (strcasecmp_block (v ++ [Some 0]) s).
Proof.
  induction v as [|o v IH]; intros s W; simpl.
  - destruct s; exact I.
  - inversion W; subst. destruct o; [|congruence]. destruct s; [exact I|]. bdestr; [exact I|]. bdestr; [now apply IH|exact I].
Qed.

Lemma in_bounds_kind : forall A (o : outcome A), in_bounds o <-> (forall k, o = UB k -> k = Uninit).
Proof.
  intros A [a|k]; simpl; split; intros H; auto; try discriminate.
  - intros k0 E; inversion E; subst. destruct k0; try contradiction; auto.
  - rewrite (H k eq_refl). exact I.
Qed.

(** all calls with admissible arguments stay inside their blocks *)
Definition probe_fits (m : umap) (v : option buf) (len : Z) : Prop :=
  match v with
  | None => True
  | Some b => len <= zlen b /\
              forall bo, In (Some bo) (values m) -> len <= zlen bo
  end.

Lemma C02_lemma : forall m, reachable true m ->
  (forall k v off len, put_binary_ok v off len -> defined (u_map_put_binary m k v off len)) /\
  (forall k v, ovalue_ok v -> defined (u_map_put m k v)) /\
  (forall i, defined (u_map_remove_at m i)) /\
  (forall k, defined (u_map_remove_from_key m k) /\ defined (u_map_remove_from_key_case m k) /\
             defined (u_map_has_key m k) /\ defined (u_map_has_key_case m k) /\
             defined (u_map_get m k) /\ defined (u_map_get_case m k) /\
             defined (u_map_get_length m k) /\ defined (u_map_get_case_length m k) /\
             defined (u_map_count_keys_case m k)) /\
  (forall v len, probe_fits m v len -> in_bounds (u_map_has_value_binary m v len) /\
                                       in_bounds (u_map_remove_from_value_binary m v len)) /\
  (forall v, in_bounds (u_map_has_value_case m v) /\ in_bounds (u_map_remove_from_value_case m v)) /\
  defined (u_map_copy m) /\
  (forall s, reachable true s -> sizes_ok s -> in_bounds (u_map_copy_into m s)).
Proof.
  intros m R. destruct (reachable_good _ _ R) as (es & L & OK & _).
  assert (PB : forall k v off len, put_binary_ok v off len -> defined (u_map_put_binary m k v off len)).
  { intros k v off len P. destruct k as [[|k0 k']|]; [exact I| |exact I].
    destruct (put_binary_layout m es (k0 :: k') v off len L OK ltac:(discriminate) P) as (m2 & R2 & _).
    rewrite R2. exact I. }
  assert (IN : forall bo, In (Some bo) (values m) -> exists e, In e es /\ eb e = bo).
  { destruct L as (_ & V & _). rewrite V. intros bo I. apply in_app_or in I as [I|[I|[]]]; [|discriminate].
    apply in_map_iff in I as (e & E & I). exists e. split; congruence. }
  assert (IN2 : forall e, In e es -> In (Some (eb e)) (values m)).
  { destruct L as (_ & V & _). rewrite V. intros e I. apply in_or_app. left. apply in_map_iff. eauto. }
  split; [exact PB|]. split.
  { intros k v V. rewrite u_map_put_unfold. apply PB. now apply put_as_binary_ok. }
  split.
  { intros i. unfold u_map_remove_at. bdestr; [exact I|]. bdestr; [exact I|].
    apply Z.ltb_ge in E. apply Z.leb_gt in E0.
    assert (N := L). destruct N as (_ & _ & _ & N). rewrite N in E0.
    destruct (split_at _ es (Z.to_nat i)) as (a & x & b & Es & La); [lia|].
    subst es. destruct (remove_at_layout m a x b L) as (m2 & R2 & L2).
    rewrite La, Z2Nat.id in R2 by lia.
    unfold u_map_remove_at in R2. replace (i <? 0) with false in R2 by (symmetry; apply Z.ltb_ge; lia).
    replace (Z.of_nat (nb_values m) <=? i) with false in R2 by (symmetry; apply Z.leb_gt; lia).
    rewrite R2. exact I. }
  split.
  { intros k. destruct k as [k|]; [|repeat split].
    destruct (remove_key_layout m es k L) as (m2 & R2 & _).
    destruct (remove_key_case_layout m es k L) as (m3 & R3 & _).
    rewrite R2, R3, (has_key_layout _ _ _ L), (has_key_case_layout _ _ _ L), (get_layout _ _ _ L), (get_case_layout _ _ _ L),
     (get_length_layout _ _ _ L), (get_case_length_layout _ _ _ L), (count_case_layout _ _ _ L). repeat split. }
  split.
  { intros v len P. destruct v as [v|]; [|split; exact I]. destruct P as [P1 P2]. split.
    - rewrite (has_value_layout _ _ _ _ L).
      assert (Q : forall e, In e es -> len <= zlen (eb e)) by (intros; apply P2; auto).
      clear - P1 Q. induction es as [|e es IH]; simpl; [exact I|].
      assert (Me := memcmp_inb (eb e) v len (Q e (or_introl eq_refl)) P1).
      destruct (memcmp_eq (eb e) v len) as [[]|[]]; simpl in *; auto; try (apply IH; intros; apply Q; right; auto).
    - pose proof (remove_loop_outcome (test_value v len) _ (test_value_tp v len) es [] m false) as X.
      rewrite app_nil_r in X. specialize (X L). unfold u_map_remove_from_value_binary.
      assert (N := L). destruct N as (_ & _ & _ & N). rewrite N.
      destruct (remove_loop (test_value v len) m (length es) false); [exact I|].
      destruct X as (e & Ie & T). assert (Me := memcmp_inb (eb e) v len (P2 _ (IN2 e Ie)) P1).
      rewrite T in Me. exact Me. }
  split.
  { intros v. destruct v as [v|]; [|split; exact I].
    assert (Q : forall e, In e es -> in_bounds (strcasecmp_block (eb e) v)).
    { intros e Ie. destruct OK as [F _]. rewrite Forall_forall in F. destruct (F e Ie) as (_ & _ & _ & E2 & _).
      rewrite E2. apply strcasecmp_inb. }
    split.
    - simpl. destruct L as (_ & V & _). rewrite V. clear - Q.
      induction es as [|e es IH]; simpl; [exact I|].
      assert (Me := Q e (or_introl eq_refl)).
      destruct (strcasecmp_block (eb e) v) as [[]|[]]; simpl in *; auto; try (apply IH; intros; apply Q; right; auto).
    - pose proof (remove_loop_outcome (test_value_case v) _ (test_value_case_tp v) es [] m false) as X.
      rewrite app_nil_r in X. specialize (X L). unfold u_map_remove_from_value_case.
      assert (N := L). destruct N as (_ & _ & _ & N). rewrite N.
      destruct (remove_loop (test_value_case v) m (length es) false); [exact I|].
      destruct X as (e & Ie & T). assert (Me := Q e Ie). rewrite T in Me. exact Me. }
  split.
  { destruct (copy_layout m es L OK) as (m2 & R2 & _). rewrite R2. exact I. }
  intros s Rs SZ. destruct (reachable_good _ _ Rs) as (ss & Ls & OKs & _).
  pose proof (copy_into_layout s ss m es Ls OKs SZ L OK) as X.
  destruct (e_copy_into ss es) as [r|].
  - destruct X as (m2 & R3 & _). rewrite R3. exact I.
  - destruct X as [X ->]. rewrite X. exact I.
Qed.

(** without gaps no call depends on uninitialised bytes either *)
Lemma e_cstr_defined : forall e, entry_ok e -> written (eb e) -> defined (e_cstr e).
Proof.
  intros e (EK & E0 & E1 & E2 & E3) W. unfold e_cstr. bdestr; simpl; [|exact I].
  assert (G : forall v, written v -> defined (read_cstr (v ++ [Some 0]))).
  { clear. induction v as [|o v IH]; intros W; simpl; [exact I|]. inversion W; subst. destruct o; [|congruence].
    bdestr; [exact I|]. specialize (IH H2). destruct (read_cstr (v ++ [Some 0])); simpl; auto. }
  assert (D : defined (read_cstr (eb e))) by (rewrite E2; apply G; apply written_zfirstn; auto).
  destruct (read_cstr (eb e)); simpl; auto.
Qed.

Lemma C02_init_lemma : forall m, reachable false m ->
  (forall v len, written v -> probe_fits m (Some v) len ->
     defined (u_map_has_value_binary m (Some v) len) /\ defined (u_map_remove_from_value_binary m (Some v) len)) /\
  (forall v, defined (u_map_has_value_case m v) /\ defined (u_map_remove_from_value_case m v)) /\
  (forall d, reachable false d -> sizes_ok m -> defined (u_map_copy_into d m)) /\
  (forall k, defined (do p <- u_map_get m (Some k); deref_cstr p)).
Proof.
  intros m R. destruct (reachable_good _ _ R) as (es & L & OK & W). specialize (W eq_refl).
  assert (IN2 : forall e, In e es -> In (Some (eb e)) (values m)).
  { destruct L as (_ & V & _). rewrite V. intros e I. apply in_or_app. left. apply in_map_iff. eauto. }
  assert (We : forall e, In e es -> written (eb e)) by (unfold entries_written in W; rewrite Forall_forall in W; auto).
  assert (Oe : forall e, In e es -> entry_ok e) by (destruct OK as [F _]; rewrite Forall_forall in F; auto).
  split; [|split; [|split]].
  - intros v len Wv [P1 P2].
    assert (Q : forall e, In e es -> defined (memcmp_eq (eb e) v len)) by (intros; apply memcmp_defined; auto).
    split.
    + rewrite (has_value_layout _ _ _ _ L). clear - Q. induction es as [|e es IH]; simpl; [exact I|].
      assert (Me := Q e (or_introl eq_refl)).
      destruct (memcmp_eq (eb e) v len) as [[]|[]]; simpl in *; auto; try (apply IH; intros; apply Q; right; auto).
    + destruct (remove_value_layout m es v len L Q) as (m2 & R2 & _). rewrite R2. exact I.
  - intros v. destruct v as [v|]; [|split; exact I].
    assert (Q : forall e, In e es -> defined (strcasecmp_block (eb e) v)).
    { intros e Ie. destruct (Oe e Ie) as (_ & _ & _ & E2 & _). rewrite E2. apply strcasecmp_defined.
      apply written_zfirstn. auto. }
    split.
    + simpl. destruct L as (_ & V & _). rewrite V. clear - Q.
      induction es as [|e es IH]; simpl; [exact I|].
      assert (Me := Q e (or_introl eq_refl)).
      destruct (strcasecmp_block (eb e) v) as [[]|[]]; simpl in *; auto; try (apply IH; intros; apply Q; right; auto).
    + destruct (remove_value_case_layout m es v L Q) as (m2 & R2 & _). rewrite R2. exact I.
  - intros d Rd SZ. destruct (reachable_good _ _ Rd) as (ds & Ld & OKd & _).
    pose proof (copy_into_layout m es d ds L OK SZ Ld OKd) as X.
    assert (D : forall ss ds, (forall e, In e ss -> entry_ok e /\ written (eb e)) -> defined (e_copy_into ss ds)).
    { clear. induction ss as [|e ss IH]; intros ds H; simpl; [exact I|].
      destruct (H e (or_introl eq_refl)) as [H1 H2]. pose proof (e_cstr_defined e H1 H2) as D.
      destruct (e_cstr e); simpl; auto. apply IH. intros; apply H; right; auto. }
    specialize (D es ds). destruct (e_copy_into es ds).
    + destruct X as (m2 & R3 & _). rewrite R3. exact I.
    + exfalso. apply D. auto.
  - intros k. rewrite (get_layout _ _ _ L). simpl. destruct (find (key_is k) es) as [e|] eqn:F; [|exact I].
    apply find_some in F as [F _]. exact (e_cstr_defined e (Oe e F) (We e F)).
Qed.

(** ** C03 *)

(** put the chunks one after the other at the running offset *)
Fixpoint put_chunks (m : umap) (k : str) (off : Z) (chunks : list buf) : outcome umap :=
  match chunks with
  | [] => Ret m
  | c :: r => do p <- u_map_put_binary m (Some k) (Some c) off (zlen c);
              put_chunks (snd p) k (off + zlen c) r
  end.

Lemma e_put_found : forall k v off len a e b, (forall x, In x a -> key_is k x = false) -> key_is k e = true ->
  e_put k v off len (a ++ e :: b) = a ++ e_upd v off len e :: b.
Proof.
  intros k v off len a. induction a as [|x a IH]; intros e b N P; simpl.
  - unfold key_is in P. now rewrite P.
  - assert (Nx := N x (or_introl eq_refl)). unfold key_is in Nx. rewrite Nx. f_equal. apply IH; auto.
    intros; apply N; right; auto.
Qed.

Lemma zlen_concat_nonneg : forall (l : list buf), 0 <= zlen (concat l).
Proof. intros; apply zlen_nonneg. Qed.

Lemma put_chunks_grow : forall (chunks : list buf) m a (k : str) (d : buf),
  layout m (a ++ [mk_entry k (d ++ [Some 0]) (zlen d)]) ->
  entries_ok (a ++ [mk_entry k (d ++ [Some 0]) (zlen d)]) ->
  zlen d + zlen (concat chunks) + 1 < two64 ->
  exists m', put_chunks m k (zlen d) chunks = Ret m' /\
    layout m' (a ++ [mk_entry k ((d ++ concat chunks) ++ [Some 0]) (zlen d + zlen (concat chunks))]).
Proof.
  induction chunks as [|c chunks IH]; intros m a k d L OK B; simpl.
  - exists m. rewrite app_nil_r. unfold zlen at 2; simpl. rewrite Z.add_0_r. auto.
  - simpl in B. rewrite zlen_app in B. pose proof (zlen_nonneg _ c). pose proof (zlen_nonneg _ d).
    pose proof (zlen_nonneg _ (concat chunks)).
    assert (PO : put_binary_ok (Some c) (zlen d) (zlen c)) by (unfold put_binary_ok; repeat split; lia).
    assert (K : k <> []).
    { destruct OK as [F _]. apply Forall_app in F as [_ F]. inversion F; subst. apply H4. }
    assert (NA : forall x, In x a -> key_is k x = false).
    { intros x I. unfold key_is. apply str_eqb_neq. intros C. destruct OK as [_ ND].
      rewrite map_app in ND. simpl in ND. apply NoDup_remove_2 in ND. apply ND. rewrite app_nil_r, <- C.
      now apply in_map. }
    destruct (put_binary_layout m _ k (Some c) (zlen d) (zlen c) L OK K PO) as (m2 & R2 & L2).
    rewrite R2. simpl.
    assert (OK2 := e_put_ok k (Some c) (zlen d) (zlen c) _ K PO OK).
    rewrite e_put_found in L2, OK2 by (auto; unfold key_is; simpl; apply str_eqb_refl).
    assert (EU : e_upd (Some c) (zlen d) (zlen c) (mk_entry k (d ++ [Some 0]) (zlen d)) =
                 mk_entry k ((d ++ c) ++ [Some 0]) (zlen (d ++ c))).
    { unfold e_upd; simpl. rewrite zlen_app. bdestr.
      - f_equal. unfold pad. rewrite <- app_assoc. rewrite zfirstn_app_exact by auto.
        rewrite zfirstn_all, app_assoc. reflexivity.
      - apply Z.ltb_ge in E. assert (zlen c = 0) by lia. apply zlen_0 in H2. subst c.
        change (zlen (@nil (option Z))) with 0. rewrite !Z.add_0_r, app_nil_r.
        change (zfirstn 0 (@nil (option Z))) with (@nil (option Z)). cbn [app]. now rewrite zfirstn_zskipn. }
    rewrite EU in L2, OK2.
    destruct (IH m2 a k (d ++ c) L2 OK2) as (m3 & R3 & L3).
    { rewrite zlen_app. lia. }
    rewrite zlen_app in R3. rewrite R3. exists m3. split; auto.
    rewrite !zlen_app in L3. rewrite zlen_app. rewrite !app_assoc in *. rewrite Z.add_assoc. exact L3.
Qed.

Lemma C03_lemma : forall g m (k : str) (chunks : list buf), reachable g m -> k <> [] -> chunks <> [] ->
  u_map_has_key m (Some k) = Ret false ->
  zlen (concat chunks) + 1 < two64 ->
  exists m', put_chunks m k 0 chunks = Ret m' /\
    u_map_get_length m' (Some k) = Ret (zlen (concat chunks)) /\
    (concat chunks <> [] ->
       u_map_get m' (Some k) = Ret (Some (concat chunks ++ [Some 0]))).
Proof.
  intros g m k chunks R K NE HK B. destruct (reachable_good g m R) as (es & L & OK & _).
  destruct chunks as [|c chunks]; [congruence|]. simpl in B |- *. rewrite zlen_app in B.
  pose proof (zlen_nonneg _ c). pose proof (zlen_nonneg _ (concat chunks)).
  assert (PO : put_binary_ok (Some c) 0 (zlen c)) by (unfold put_binary_ok; repeat split; lia).
  destruct (put_binary_layout m es k (Some c) 0 (zlen c) L OK K PO) as (m2 & R2 & L2).
  rewrite R2. simpl.
  assert (NA : forall x, In x es -> key_is k x = false).
  { rewrite (has_key_layout _ _ _ L) in HK. inversion HK as [E].
    intros x I. destruct (key_is k x) eqn:Q; auto.
    assert (existsb (key_is k) es = true) by (apply existsb_exists; eauto). congruence. }
  assert (OK2 := e_put_ok k (Some c) 0 (zlen c) _ K PO OK).
  rewrite e_put_fresh in L2, OK2 by auto.
  assert (EN : e_new k (Some c) 0 (zlen c) = mk_entry k (c ++ [Some 0]) (zlen c)).
  { unfold e_new; simpl. now rewrite zfirstn_all. }
  rewrite EN in L2, OK2.
  destruct (put_chunks_grow chunks m2 es k c L2 OK2) as (m3 & R3 & L3); [lia|].
  rewrite R3. exists m3. split; auto.
  assert (FD : find (key_is k) (es ++ [mk_entry k ((c ++ concat chunks) ++ [Some 0]) (zlen c + zlen (concat chunks))])
               = Some (mk_entry k ((c ++ concat chunks) ++ [Some 0]) (zlen c + zlen (concat chunks)))).
  { apply find_hit; auto. unfold key_is; simpl; apply str_eqb_refl. }
  rewrite (get_length_layout _ _ _ L3), (get_layout _ _ _ L3), FD. simpl. rewrite zlen_app. split; auto.
  intros NE2. replace (0 <? zlen c + zlen (concat chunks)) with true; auto.
  symmetry. apply Z.ltb_lt. rewrite <- zlen_app.
  destruct (c ++ concat chunks); [congruence|]. rewrite zlen_cons. pose proof (zlen_nonneg _ l). lia.
Qed.

(** ** C04 *)

Lemma C04_partial_lemma : forall g m (k : str) (v : buf) len, reachable g m -> k <> [] ->
  0 <= len -> len + 1 < two64 -> len <= zlen v ->
  (forall l, u_map_get_length m (Some k) = Ret l -> l <= len) ->
  exists m', u_map_put_binary m (Some k) (Some v) 0 len = Ret (U_OK, m') /\
    u_map_get_length m' (Some k) = Ret len /\
    (0 < len -> u_map_get m' (Some k) = Ret (Some (zfirstn len v ++ [Some 0]))).
Proof.
  intros g m k v len R K L0 L1 L2 GE. destruct (reachable_good g m R) as (es & L & OK & _).
  assert (PO : put_binary_ok (Some v) 0 len) by (unfold put_binary_ok; repeat split; lia).
  destruct (put_binary_layout m es k (Some v) 0 len L OK K PO) as (m2 & R2 & Ly2).
  exists m2. split; auto. rewrite (get_length_layout _ _ _ L) in GE. specialize (GE _ eq_refl).
  destruct (e_find_put_same k (Some v) 0 len es) as (e' & Fe & He).
  rewrite (get_length_layout _ _ _ Ly2), (get_layout _ _ _ Ly2), Fe.
  assert (X : el e' = len /\ eb e' = zfirstn len v ++ [Some 0]).
  { destruct (find (key_is k) es) as [e|] eqn:F; subst e'.
    - assert (EO : entry_ok e).
      { apply find_some in F. destruct OK as [F0 _]. rewrite Forall_forall in F0. apply F0; tauto. }
      destruct EO as (EK & E0 & E1 & E2 & E3). unfold e_upd. bdestr; simpl; auto.
      apply Z.ltb_ge in E. assert (el e = len) by lia. split; auto.
      unfold zfirstn at 1; simpl. f_equal. rewrite E2. subst len. apply zskipn_app_exact. 
      unfold evalue. rewrite zlen_zfirstn; lia.
    - unfold e_new; simpl. auto. }
  destruct X as [-> ->]. split; auto. intros P. now replace (0 <? len) with true by (symmetry; now apply Z.ltb_lt).
Qed.

(** ** C10 *)

Lemma memcmp_prefix : forall v b n, n = zlen v -> Forall (fun c => c <> 0) v -> written b -> n <= zlen b ->
  memcmp_eq (b) (cblock v) n = Ret (prefixb v (map (fun o => match o with Some c => c | None => 0 end) b)).
Proof.
  intros v b n -> NZ W LE. unfold memcmp_eq.
  replace (zlen v <=? zlen b) with true by (symmetry; now apply Z.leb_le).
  replace (zlen v <=? zlen (cblock v)) with true by (symmetry; apply Z.leb_le; rewrite zlen_cblock; lia).
  simpl. rewrite cblock_split. rewrite zfirstn_app_exact by (unfold block_of; now rewrite zlen_map).
  clear NZ. revert b W LE. induction v as [|c v IH]; intros b W LE.
  - reflexivity.
  - rewrite zlen_cons in *. destruct b as [|o b]; [change (zlen (@nil (option Z))) with 0 in LE; pose proof (zlen_nonneg _ v); lia|].
    inversion W; subst. destruct o as [x|]; [|congruence].
    unfold zfirstn. replace (Z.to_nat (1 + zlen v)) with (S (Z.to_nat (zlen v))) by (unfold zlen; lia).
    simpl. rewrite (Z.eqb_sym c x). destruct (x =? c); simpl; auto. fold (zfirstn (zlen v) b). apply IH; auto.
    rewrite zlen_cons in LE. lia.
Qed.

(** the bytes of a written block *)
Definition raw (b : buf) : list Z := map (fun o => match o with Some c => c | None => 0 end) b.

Lemma prefixb_app_nul : forall v s, Forall (fun c => c <> 0) v -> prefixb v (s ++ [0]) = prefixb v s.
Proof.
  induction v as [|c v IH]; intros s NZ; simpl; auto.
  inversion NZ; subst. destruct s as [|x s]; simpl.
  - destruct (c =? 0) eqn:E; auto. apply Z.eqb_eq in E. congruence.
  - now rewrite IH.
Qed.

Lemma C10_characterisation_lemma : forall m es v, reachable false m -> layout m es -> cstr v ->
  (forall e, In e es -> zlen v <= el e + 1) ->
  u_map_has_value m (Some v) = Ret (existsb (fun e => prefixb v (raw (evalue e))) es) /\
  exists c m', u_map_remove_from_value m (Some v) = Ret (c, m') /\
     layout m' (filter (fun e => negb (prefixb v (raw (evalue e)))) es) /\
     c = (if existsb (fun e => prefixb v (raw (evalue e))) es then U_OK else U_ERROR_NOT_FOUND).
Proof.
  intros m es v R L V SZ. destruct (reachable_good _ _ R) as (es' & L' & OK & W). specialize (W eq_refl).
  assert (es' = es).
  { destruct L as (K & V1 & L1 & _). destruct L' as (K' & V1' & L1' & _).
    rewrite K in K'. rewrite V1 in V1'. rewrite L1 in L1'.
    apply app_inv_tail in K', V1', L1'. clear - K' V1' L1'. revert es' K' V1' L1'.
    induction es as [|[k b l] es IH]; destruct es' as [|[k' b' l'] es']; simpl; intros; auto; try discriminate.
    inversion K'; inversion V1'; inversion L1'; subst. f_equal. symmetry. symmetry. now apply IH. }
  subst es'.
  assert (NZ := cstr_nz v V).
  assert (Q : forall e, In e es -> memcmp_eq (eb e) (cblock v) (zlen v) = Ret (prefixb v (raw (evalue e)))).
  { intros e I. destruct OK as [F _]. rewrite Forall_forall in F. destruct (F e I) as (EK & E0 & E1 & E2 & E3).
    unfold entries_written in W. rewrite Forall_forall in W.
    rewrite (memcmp_prefix v (eb e) (zlen v)); auto.
    - fold (raw (eb e)). rewrite E2 at 1. unfold raw at 1. rewrite map_app. simpl.
      fold (raw (evalue e)). now rewrite prefixb_app_nul.
    - specialize (SZ e I). lia. }
  split.
  - unfold u_map_has_value. rewrite (has_value_layout _ _ _ _ L). clear - Q. induction es as [|e es IH]; simpl; auto.
    rewrite (Q e (or_introl eq_refl)). simpl. destruct (prefixb v (raw (evalue e))); simpl; auto.
    apply IH. intros; apply Q; right; auto.
  - destruct (remove_value_layout m es (cblock v) (zlen v) L) as (m2 & R2 & L2).
    { intros e I. rewrite (Q e I). exact Logic.I. }
    assert (TB : forall e, In e es -> tpb (fun e => memcmp_eq (eb e) (cblock v) (zlen v)) e = prefixb v (raw (evalue e))).
    { intros e I. unfold tpb. now rewrite Q. }
    unfold u_map_remove_from_value. rewrite R2. eexists _, m2. split; [reflexivity|].
    split.
    + erewrite filter_ext_in; [exact L2|]. intros e I. simpl. now rewrite TB.
    + clear - TB. replace (existsb (tpb (fun e => memcmp_eq (eb e) (cblock v) (zlen v))) es)
        with (existsb (fun e => prefixb v (raw (evalue e))) es); auto.
      induction es as [|e es IH]; simpl; auto. rewrite (TB e (or_introl eq_refl)), IH; auto.
      intros; apply TB; right; auto.
Qed.

(** ** C05, C06, C07, C08, C09 *)

Lemma layout_unique : forall m es es', layout m es -> layout m es' -> es' = es.
Proof.
  intros m es es' (K & V1 & L1 & _) (K' & V1' & L1' & _).
  rewrite K in K'. rewrite V1 in V1'. rewrite L1 in L1'.
  apply app_inv_tail in K', V1', L1'. revert es' K' V1' L1'. clear.
  induction es as [|[k b l] es IH]; destruct es' as [|[k' b' l'] es']; simpl; intros; auto; try discriminate.
  inversion K'; inversion V1'; inversion L1'; subst. f_equal. now apply IH.
Qed.

Lemma remove_at_firstn_skipn : forall m es i, layout m es -> 0 <= i < zlen es ->
  exists m', u_map_remove_at m i = Ret (U_OK, m') /\ layout m' (zfirstn i es ++ zskipn (i + 1) es).
Proof.
  intros m es i L B. unfold zlen in B.
  destruct (split_at _ es (Z.to_nat i)) as (a & x & b & Es & La); [lia|].
  subst es. destruct (remove_at_layout m a x b L) as (m2 & R2 & L2).
  rewrite La, Z2Nat.id in R2 by lia. exists m2. split; auto.
  rewrite (zfirstn_app_exact _ a) by (unfold zlen; lia).
  replace (a ++ x :: b) with ((a ++ [x]) ++ b) by (rewrite <- app_assoc; reflexivity).
  rewrite zskipn_app_exact; auto. rewrite zlen_app. unfold zlen; simpl. lia.
Qed.

Lemma remove_at_out : forall m es i, layout m es ->
  (i < 0 -> u_map_remove_at m i = Ret (U_ERROR_PARAMS, m)) /\
  (zlen es <= i -> u_map_remove_at m i = Ret (U_ERROR_NOT_FOUND, m)).
Proof.
  intros m es i (_ & _ & _ & N). unfold u_map_remove_at, zlen. split; intros H.
  - now replace (i <? 0) with true by (symmetry; now apply Z.ltb_lt).
  - replace (i <? 0) with false by (symmetry; apply Z.ltb_ge; lia).
    now replace (Z.of_nat (nb_values m) <=? i) with true by (symmetry; apply Z.leb_le; lia).
Qed.

Lemma C07_lemma : forall g m es k, reachable g m -> layout m es ->
  u_map_has_key_case m (Some k) = Ret (existsb (fun e => str_caseeqb (ek e) k) es) /\
  u_map_count_keys_case m (Some k) = Ret (zlen (filter (fun e => str_caseeqb (ek e) k) es)) /\
  u_map_get_case m (Some k) = Ret (match find (fun e => str_caseeqb (ek e) k) es with Some e => Some (eb e) | None => None end) /\
  u_map_get_case_length m (Some k) = Ret (match find (fun e => str_caseeqb (ek e) k) es with Some e => el e | None => -1 end) /\
  (u_map_has_key_case m (Some k) = Ret true <-> exists n, u_map_count_keys_case m (Some k) = Ret n /\ 0 < n) /\
  (u_map_has_key_case m (Some k) = Ret true <-> exists b, u_map_get_case m (Some k) = Ret (Some b)) /\
  (u_map_has_key m (Some k) = Ret true -> u_map_has_key_case m (Some k) = Ret true).
Proof.
  intros g m es k R L. rewrite (has_key_case_layout _ _ _ L), (count_case_layout _ _ _ L), (get_case_layout _ _ _ L),
    (get_case_length_layout _ _ _ L), (has_key_layout _ _ _ L). fold (key_is_case k).
  repeat split; auto.
  - intros H. inversion H as [E]. apply existsb_exists in E as (e & I & P). eexists. split; [reflexivity|].
    assert (In e (filter (key_is_case k) es)) by (apply filter_In; auto).
    destruct (filter (key_is_case k) es); [contradiction|]. rewrite zlen_cons. pose proof (zlen_nonneg _ l). lia.
  - intros (n & E & P). inversion E; subst. f_equal. destruct (filter (key_is_case k) es) as [|e l] eqn:F.
    + unfold zlen in P; simpl in P; lia.
    + apply existsb_exists. exists e. assert (I : In e (filter (key_is_case k) es)) by (rewrite F; left; auto).
      now apply filter_In in I.
  - rewrite existsb_find. destruct (find (key_is_case k) es); intros E; [eauto|discriminate].
  - rewrite existsb_find. destruct (find (key_is_case k) es); intros [b E]; [auto|discriminate].
  - intros H. assert (E : existsb (key_is k) es = true) by congruence. clear H. f_equal. apply existsb_exists in E as (e & I & P). apply existsb_exists.
    exists e. split; auto. unfold key_is, key_is_case in *. apply str_eqb_eq in P. subst. apply str_caseeqb_refl.
Qed.

Definition in_keys (ks : list str) (k : str) : bool := existsb (str_eqb k) ks.

Lemma in_keys_In : forall ks k, in_keys ks k = true <-> In k ks.
Proof.
  intros. unfold in_keys. rewrite existsb_exists. split.
  - intros (x & I & E). apply str_eqb_eq in E. congruence.
  - intros I. exists k. split; auto. apply str_eqb_refl.
Qed.

Lemma e_put_enum : forall k v off len es,
  map ek (e_put k v off len es) = map ek es ++ (if in_keys (map ek es) k then [] else [k]).
Proof.
  intros k v off len es. induction es as [|e es IH]; simpl.
  - unfold e_new. destruct v; reflexivity.
  - rewrite (str_eqb_sym k). destruct (str_eqb (ek e) k) eqn:E; simpl.
    + now rewrite e_upd_key, app_nil_r.
    + now rewrite IH.
Qed.

Lemma e_cstr_after_put : forall k s ds, entries_ok ds ->
  (match s with Some v => Forall (fun c => c <> 0) v | None => True end) ->
  exists e', find (key_is k) (e_put k (ov_block s) 0 (ov_len s) ds) = Some e' /\ e_cstr e' = Ret s.
Proof.
  intros k s ds OK NZ. destruct (e_find_put_same k (ov_block s) 0 (ov_len s) ds) as (e' & Fe & He).
  exists e'. split; auto. unfold e_cstr. destruct s as [v|]; simpl in *.
  - assert (X : 0 < el e' /\ read_cstr (eb e') = Ret v).
    { apply (put_entry_reads k); auto. destruct (find (key_is k) ds) as [e|] eqn:F; auto.
      right. exists e. split; auto. apply find_some in F. destruct OK as [F0 _].
      rewrite Forall_forall in F0. apply F0; tauto. }
    destruct X as [X0 X1]. replace (0 <? el e') with true by (symmetry; now apply Z.ltb_lt). simpl. now rewrite X1.
  - destruct (find (key_is k) ds); subst e'; reflexivity.
Qed.

Lemma e_copy_into_spec : forall ss ds r,
  Forall entry_ok ss -> Forall (fun e => el e + 2 < two64) ss -> NoDup (map ek ss) -> entries_ok ds ->
  e_copy_into ss ds = Ret r ->
  (forall e, In e ss -> exists e', find (key_is (ek e)) r = Some e' /\ e_cstr e' = e_cstr e) /\
  (forall k, ~ In k (map ek ss) -> find (key_is k) r = find (key_is k) ds) /\
  map ek r = map ek ds ++ filter (fun k => negb (in_keys (map ek ds) k)) (map ek ss).
Proof.
  induction ss as [|e ss IH]; intros ds r F S N O R; simpl in *.
  - inversion R; subst. repeat split; auto. + intros e []. + now rewrite app_nil_r.
  - inversion F; subst. inversion S; subst. inversion N; subst.
    destruct (e_cstr e) as [s|] eqn:C; [|discriminate]. simpl in R.
    pose proof (put_ok_of_cstr e s H1 H3 C) as PO.
    assert (NZ : match s with Some v => Forall (fun c => c <> 0) v | None => True end).
    { pose proof (e_cstr_bound e H1) as B. rewrite C in B. destruct s; tauto. }
    destruct (IH _ r H2 H4 H6 (e_put_ok (ek e) (ov_block s) 0 (ov_len s) ds (proj1 H1) PO O) R) as (I1 & I2 & I3).
    repeat split.
    + intros e0 [<-|I]; [|auto].
      rewrite I2 by auto. rewrite C. now apply e_cstr_after_put.
    + intros k NI. rewrite I2 by tauto. apply e_find_put_other. intros ->. tauto.
    + rewrite I3, e_put_enum. unfold in_keys. fold (in_keys (map ek ds) (ek e)).
      rewrite <- app_assoc. f_equal. destruct (in_keys (map ek ds) (ek e)) eqn:K; simpl.
      * rewrite app_nil_r. reflexivity.
      * f_equal. apply filter_ext_in. intros k Ik. rewrite existsb_app. simpl.
        replace (str_eqb k (ek e)) with false; [now rewrite !orb_false_r|].
        symmetry. apply str_eqb_neq. intros ->. contradiction.
Qed.

Lemma C09_lemma : forall dst src ds ss, reachable false dst -> reachable false src -> sizes_ok src ->
  layout dst ds -> layout src ss ->
  exists m' es', u_map_copy_into dst src = Ret (U_OK, m') /\ layout m' es' /\
    (forall k, In k (map ek ss) ->
       (do p <- u_map_get m' (Some k); deref_cstr p) = (do p <- u_map_get src (Some k); deref_cstr p) /\
       u_map_has_key m' (Some k) = Ret true) /\
    (forall k, ~ In k (map ek ss) ->
       u_map_get m' (Some k) = u_map_get dst (Some k) /\
       u_map_get_length m' (Some k) = u_map_get_length dst (Some k) /\
       u_map_has_key m' (Some k) = u_map_has_key dst (Some k)) /\
    map ek es' = map ek ds ++ filter (fun k => negb (in_keys (map ek ds) k)) (map ek ss).
Proof.
  intros dst src ds ss Rd Rs SZ Ld Ls.
  destruct (reachable_good _ _ Rd) as (ds' & Ld' & OKd & Wd).
  destruct (reachable_good _ _ Rs) as (ss' & Ls' & OKs & Ws).
  rewrite (layout_unique _ _ _ Ld Ld') in *. rewrite (layout_unique _ _ _ Ls Ls') in *. clear Ld' Ls' ds' ss'.
  specialize (Ws eq_refl).
  pose proof (copy_into_layout src ss dst ds Ls OKs SZ Ld OKd) as X.
  assert (SZ' : Forall (fun e => el e + 2 < two64) ss).
  { unfold sizes_ok in SZ. destruct Ls as (_ & _ & Ll & _). rewrite Ll in SZ. apply Forall_app in SZ as [SZ _].
    rewrite Forall_map in SZ. exact SZ. }
  assert (D : forall ss ds, (forall e, In e ss -> entry_ok e /\ written (eb e)) -> defined (e_copy_into ss ds)).
  { clear. induction ss as [|e ss IH]; intros ds H; simpl; [exact I|].
    destruct (H e (or_introl eq_refl)) as [H1 H2]. pose proof (e_cstr_defined e H1 H2) as D.
    destruct (e_cstr e); simpl; auto. apply IH. intros; apply H; right; auto. }
  assert (DD : defined (e_copy_into ss ds)).
  { apply D. intros e I. destruct OKs as [F _]. unfold entries_written in Ws. rewrite Forall_forall in *. auto. }
  destruct (e_copy_into ss ds) as [r|] eqn:E; [|contradiction]. clear D DD.
  destruct X as (m' & R & L' & O'). exists m', r. split; auto. split; auto.
  destruct (e_copy_into_spec ss ds r (proj1 OKs) SZ' (proj2 OKs) OKd E) as (I1 & I2 & I3).
  split; [|split; auto].
  - intros k I. apply in_map_iff in I as (e & <- & I).
    destruct (I1 e I) as (e' & Fe & Ce).
    rewrite (get_layout _ _ _ L'), (get_layout _ _ _ Ls), (has_key_layout _ _ _ L'), existsb_find, Fe.
    apply in_split in I as (a & b & Es). rewrite (find_self ss a e b Es) by apply OKs.
    split; auto.
  - intros k NI. specialize (I2 k NI).
    rewrite (get_layout _ _ _ L'), (get_layout _ _ _ Ld), (get_length_layout _ _ _ L'), (get_length_layout _ _ _ Ld),
      (has_key_layout _ _ _ L'), (has_key_layout _ _ _ Ld), !existsb_find, I2. auto.
Qed.
