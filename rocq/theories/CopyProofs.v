(** Proofs about CopyModel. *)
From Coq Require Import ZArith Bool List Lia Permutation.
From Verif Require Import Base BaseFacts UMapModel UMapSpec UMapProofs SMap InputProofs CopyModel CopySpec.
Import ListNotations.
Open Scope Z_scope.

(** ** C32 *)
Lemma memcpy_fresh : forall d n, 0 <= n <= zlen d -> memcpy (malloc n) 0 (block_of d) n = Ret (block_of (zfirstn n d)).
Proof.
  intros d n H. unfold malloc. rewrite memcpy_ok; unfold block_of; rewrite ?zlen_map; try lia.
  - f_equal. rewrite zfirstn_0. cbn [app]. unfold zfirstn, zskipn. rewrite firstn_map.
    rewrite skipn_all2; [now rewrite app_nil_r|]. rewrite repeat_length. lia.
  - unfold zlen. rewrite repeat_length. lia.
Qed.

Lemma body_step_ok : forall m o acc, body_op_ok o -> failed_string o = false -> msg_is m (fst acc) (snd acc) ->
  exists m', body_step m o = Ret (expected_code o, m') /\ msg_is m' (fst (body_effect acc o)) (snd (body_effect acc o)).
Proof.
  intros m o acc OK NF I. unfold expected_code, body_effect. destruct o as [a st s|a st d n|st|a st d].
  - destruct s as [s|]; cbn [admissible negb].
    + destruct a; [|discriminate]. cbn. eexists; split; [reflexivity|]. repeat split. exists [Some 0]. apply cblock_split.
    + exists m. auto.
  - destruct d as [d|]; cbn [admissible negb body_step set_binary_body].
    + destruct (n =? 0) eqn:N; cbn [negb].
      * exists m. auto.
      * apply Z.eqb_neq in N. cbn [allocated]. destruct a.
        -- cbn in OK. rewrite memcpy_fresh by auto. cbn. eexists; split; [reflexivity|]. repeat split; cbn.
           ++ rewrite zlen_zfirstn; auto.
           ++ exists []. now rewrite app_nil_r.
        -- eexists; split; [reflexivity|]. destruct I as (I1 & _). repeat split; auto.
    + exists m. auto.
  - cbn. eexists; split; [reflexivity|]. repeat split.
  - destruct d as [s|]; cbn [admissible negb body_step set_json_body].
    + cbn [allocated]. destruct a.
      * eexists; split; [reflexivity|]. repeat split. exists [Some 0]. apply cblock_split.
      * eexists; split; [reflexivity|]. destruct I as (I1 & _). repeat split; auto.
    + exists m. auto.
Qed.

Lemma body_run_ok : forall ops m acc, Forall body_op_ok ops -> forallb (fun o => negb (failed_string o)) ops = true ->
  msg_is m (fst acc) (snd acc) ->
  exists m', body_run m ops = Ret (map expected_code ops, m') /\
    msg_is m' (fst (fold_left body_effect ops acc)) (snd (fold_left body_effect ops acc)).
Proof.
  induction ops as [|o ops IH]; intros m acc OK NF I.
  - exists m. auto.
  - inversion OK; subst. cbn [forallb] in NF. apply andb_true_iff in NF as [N1 N2]. apply negb_true_iff in N1.
    destruct (body_step_ok m o acc) as (m1 & E1 & I1); auto.
    destruct (IH m1 (body_effect acc o)) as (m2 & E2 & I2); auto.
    exists m2. cbn [body_run]. rewrite E1. cbn [bind fst snd]. rewrite E2. cbn. auto.
Qed.

(** ** C31 *)
Lemma sput_new : forall d (k : str) v, ~ In k (map fst d) -> sput k v d = d ++ [(k, v)].
Proof.
  induction d as [|p d IH]; intros k v N; auto. cbn [sput map In] in *.
  destruct (str_eqb (fst p) k) eqn:E.
  - apply str_eqb_eq in E. tauto.
  - cbn [app]. f_equal. apply IH. tauto.
Qed.
Lemma scopy_id : forall d acc, NoDup (map fst (acc ++ d)) -> scopy_into acc d = acc ++ d.
Proof.
  induction d as [|p d IH]; intros acc N.
  - unfold scopy_into. cbn. now rewrite app_nil_r.
  - unfold scopy_into. cbn [fold_left]. rewrite sput_new.
    + change (scopy_into (acc ++ [(fst p, snd p)]) d = acc ++ p :: d). destruct p as [k v]. cbn [fst snd].
      rewrite IH; rewrite <- app_assoc; auto.
    + rewrite map_app in N. cbn [map] in N. apply NoDup_remove_2 in N. intro I. apply N. apply in_or_app. auto.
Qed.
Lemma copy_map_ok : forall m d, repr m d -> exists m', copy_map m = Ret (U_OK, m') /\ repr m' d.
Proof.
  intros m d R. destruct (repr_copy_into u_map_init m [] d repr_init R) as (m' & E & R').
  exists m'. split; auto. rewrite scopy_id in R'; auto. cbn. apply (repr_nodup m d R).
Qed.

Lemma memcpy_fresh_buf : forall (b : buf) n, 0 <= n <= zlen b -> memcpy (malloc n) 0 b n = Ret (zfirstn n b).
Proof.
  intros d n H. unfold malloc. rewrite memcpy_ok; try lia.
  - f_equal. rewrite zfirstn_0. cbn [app]. unfold zfirstn, zskipn.
    rewrite skipn_all2; [now rewrite app_nil_r|]. rewrite repeat_length. lia.
  - unfold zlen. rewrite repeat_length. lia.
Qed.
Lemma zfirstn_zfirstn : forall A (l : list A) n, zfirstn n (zfirstn n l) = zfirstn n l.
Proof. intros. unfold zfirstn. rewrite firstn_firstn. f_equal. lia. Qed.
Lemma o_strdup_map : forall l, map o_strdup l = l.
Proof. induction l; cbn; [auto|]. unfold o_strdup at 1. congruence. Qed.

Lemma copy_request_ok : forall dest src, request_ok src ->
  exists r, copy_request dest src = Ret (U_OK, r) /\
    q_strs r = q_strs src /\ q_ints r = q_ints src /\
    q_address r = (match q_address src with Some a => Some a | None => q_address dest end) /\
    same_text (q_url r) (q_url src) /\ same_text (q_header r) (q_header src) /\ same_text (q_cookie r) (q_cookie src) /\
    same_text (q_post r) (q_post src) /\
    (if q_body_length src =? 0 then q_body r = q_body dest /\ q_body_length r = q_body_length dest
     else q_body_length r = q_body_length src /\ body_bytes (q_body r) (q_body_length r) = body_bytes (q_body src) (q_body_length src)).
Proof.
  intros dest src ((du & Ru) & (dh & Rh) & (dc & Rc) & (dp & Rp) & B).
  destruct (copy_map_ok _ _ Ru) as (mu & Eu & Ru'). destruct (copy_map_ok _ _ Rh) as (mh & Eh & Rh').
  destruct (copy_map_ok _ _ Rc) as (mc & Ec & Rc'). destruct (copy_map_ok _ _ Rp) as (mp & Ep & Rp').
  unfold copy_request. rewrite Eu, Eh, Ec, Ep. cbn [bind fst snd]. rewrite Z.eqb_refl. cbn [andb].
  rewrite o_strdup_map.
  assert (S : forall a b d, repr a d -> repr b d -> same_text a b) by (intros a b d; exists d; auto).
  destruct (q_body_length src =? 0) eqn:N; cbn [negb].
  - cbn [bind fst snd]. eexists. split; [reflexivity|]. cbn. repeat split; eauto.
  - destruct (q_body src) as [sb|] eqn:SB.
    + rewrite memcpy_fresh_buf by auto. cbn [bind fst snd].
      eexists. split; [reflexivity|]. cbn. repeat split; eauto. unfold body_bytes. rewrite N. now rewrite zfirstn_zfirstn.
    + rewrite B in N. discriminate.
Qed.

(** ** C30 *)
Definition ext (h h' : heap) (ps : list nat) : Prop :=
  exists l : list (list Z), h' = h ++ map Some l /\ ps = seq (length h) (length l).

Lemma ext_nil : forall h, ext h h [].
Proof. intros h. exists []. split; cbn; auto. now rewrite app_nil_r. Qed.
Lemma ext_one : forall h c, ext h (h ++ [Some c]) [length h].
Proof. intros. exists [c]. auto. Qed.
Lemma ext_app : forall a b c p q, ext a b p -> ext b c q -> ext a c (p ++ q).
Proof.
  intros a b c p q (l & E1 & E2) (m & E3 & E4). exists (l ++ m). subst. rewrite map_app, app_assoc. split; auto.
  rewrite !app_length, map_length, seq_app. reflexivity.
Qed.
Lemma ext_len : forall h h' ps, ext h h' ps -> length h' = (length h + length ps)%nat.
Proof. intros h h' ps (l & -> & ->). now rewrite app_length, map_length, seq_length. Qed.
Lemma ext_nodup : forall h h' ps, ext h h' ps -> NoDup ps.
Proof. intros h h' ps (l & _ & ->). apply seq_NoDup. Qed.
Lemma ext_in : forall h h' ps a, ext h h' ps -> (In a ps <-> (length h <= a < length h')%nat).
Proof. intros h h' ps a (l & -> & ->). rewrite in_seq, app_length, map_length. tauto. Qed.
Lemma ext_live : forall h h' ps, ext h h' ps -> Forall (live h') ps.
Proof.
  intros h h' ps (l & -> & ->). apply Forall_forall. intros a I. apply in_seq in I. unfold live.
  rewrite nth_error_app2 by lia. rewrite nth_error_map.
  destruct (nth_error l (a - length h)) eqn:E; [eexists; reflexivity|]. apply nth_error_None in E. lia.
Qed.
Lemma ext_keep : forall h h' ps a x, ext h h' ps -> nth_error h a = Some x -> nth_error h' a = Some x.
Proof.
  intros h h' ps a x (l & -> & _) E. rewrite nth_error_app1; auto. apply nth_error_Some. congruence.
Qed.
Lemma live_keep : forall h h' ps l, ext h h' ps -> Forall (live h) l -> Forall (live h') l.
Proof.
  intros h h' ps l E. apply Forall_impl. intros a (c & L). exists c. eapply ext_keep; eauto.
Qed.
Lemma value_keep : forall h h' ps p, ext h h' ps -> Forall (live h) (addr p) -> ptr_value h' p = ptr_value h p.
Proof.
  intros h h' ps [a|] E L; auto. cbn in *. inversion L as [|? ? (c & H) _]; subst.
  rewrite H, (ext_keep _ _ _ _ _ E H). reflexivity.
Qed.
Lemma live_lt : forall h a, live h a -> (a < length h)%nat.
Proof. intros h a (c & H). apply nth_error_Some. congruence. Qed.

Lemma hstrdup_ok : forall h p, Forall (live h) (addr p) ->
  exists h' q, hstrdup h p = Ret (h', q) /\ ext h h' (addr q) /\ ptr_value h' q = ptr_value h p /\ (q = None <-> p = None).
Proof.
  intros h [a|] L.
  - cbn in L. inversion L as [|? ? (c & H) _]; subst. unfold hstrdup, hread. rewrite H. cbn.
    do 2 eexists. split; [reflexivity|]. split; [apply ext_one|]. split; [|split; discriminate].
    cbn. rewrite H, nth_error_app2, Nat.sub_diag; auto.
  - exists h, None. cbn. split; [auto|]. split; [apply ext_nil|]. split; [auto|tauto].
Qed.

Lemma cookie_value_keep : forall h h' ps c, ext h h' ps -> Forall (live h) (cookie_addrs c) -> view_cookie h' c = view_cookie h c.
Proof.
  intros h h' ps c E L. unfold cookie_addrs in L. rewrite !Forall_app in L. destruct L as (L1 & L2 & L3 & L4 & L5).
  unfold view_cookie. now rewrite !(value_keep h h' ps) by auto.
Qed.

Definition full_cookie (c : hcookie) : Prop :=
  hc_value c <> None /\ hc_expires c <> None /\ hc_domain c <> None /\ hc_path c <> None.

Lemma copy_cookie_ok : forall h c, Forall (live h) (cookie_addrs c) -> full_cookie c ->
  exists h' d, copy_cookie h c = Ret (h', U_OK, d) /\ ext h h' (cookie_addrs d) /\ view_cookie h' d = view_cookie h c.
Proof.
  intros h c L (V & X & D & P). unfold cookie_addrs in L. rewrite !Forall_app in L. destruct L as (L1 & L2 & L3 & L4 & L5).
  destruct (hstrdup_ok h (hc_key c)) as (h1 & q1 & S1 & E1 & W1 & N1); auto.
  destruct (hstrdup_ok h1 (hc_value c)) as (h2 & q2 & S2 & E2 & W2 & N2); [eapply live_keep; eauto|].
  pose proof (ext_app _ _ _ _ _ E1 E2) as E12.
  destruct (hstrdup_ok h2 (hc_expires c)) as (h3 & q3 & S3 & E3 & W3 & N3); [eapply live_keep; eauto|].
  pose proof (ext_app _ _ _ _ _ E12 E3) as E13.
  destruct (hstrdup_ok h3 (hc_domain c)) as (h4 & q4 & S4 & E4 & W4 & N4); [eapply live_keep; eauto|].
  pose proof (ext_app _ _ _ _ _ E13 E4) as E14.
  destruct (hstrdup_ok h4 (hc_path c)) as (h5 & q5 & S5 & E5 & W5 & N5); [eapply live_keep; eauto|].
  pose proof (ext_app _ _ _ _ _ E14 E5) as E15.
  unfold copy_cookie. rewrite S1. cbn [bind fst snd]. rewrite S2. cbn [bind fst snd]. rewrite S3. cbn [bind fst snd].
  rewrite S4. cbn [bind fst snd]. rewrite S5. cbn [bind fst snd].
  destruct q5 as [a5|]; [|tauto]. destruct q4 as [a4|]; [|tauto]. destruct q3 as [a3|]; [|tauto]. destruct q2 as [a2|]; [|tauto].
  do 2 eexists. split; [reflexivity|]. split.
  - unfold cookie_addrs. cbn [hc_key hc_value hc_expires hc_domain hc_path]. rewrite <- !app_assoc in E15. exact E15.
  - unfold view_cookie. cbn [hc_key hc_value hc_expires hc_domain hc_path hc_ints].
    rewrite W5, (value_keep h h4 _ (hc_path c) E14 L5).
    rewrite (value_keep h4 h5 _ (Some a4) E5) by (eapply ext_live; eauto). rewrite W4, (value_keep h h3 _ (hc_domain c) E13 L4).
    pose proof (ext_app _ _ _ _ _ E4 E5) as E45.
    rewrite (value_keep h3 h5 _ (Some a3) E45) by (eapply ext_live; eauto). rewrite W3, (value_keep h h2 _ (hc_expires c) E12 L3).
    pose proof (ext_app _ _ _ _ _ E3 E45) as E35.
    rewrite (value_keep h2 h5 _ (Some a2) E35) by (eapply ext_live; eauto). rewrite W2, (value_keep h h1 _ (hc_value c) E1 L2).
    pose proof (ext_app _ _ _ _ _ E2 E35) as E25.
    rewrite (value_keep h1 h5 _ q1 E25) by (eapply ext_live; eauto). rewrite W1. reflexivity.
Qed.

Lemma copy_cookies_ok : forall l h, Forall (live h) (flat_map cookie_addrs l) -> Forall full_cookie l ->
  exists h' ds, copy_cookies h l = Ret (h', ds) /\ ext h h' (flat_map cookie_addrs ds) /\ map (view_cookie h') ds = map (view_cookie h) l.
Proof.
  induction l as [|c l IH]; intros h L F.
  - exists h, []. split; [auto|]. split; [apply ext_nil|auto].
  - cbn [flat_map] in L. apply Forall_app in L as [L1 L2]. inversion F; subst.
    destruct (copy_cookie_ok h c) as (h1 & d & E1 & X1 & V1); auto.
    destruct (IH h1) as (h2 & ds & E2 & X2 & V2); [eapply live_keep; eauto|auto|].
    exists h2, (d :: ds). cbn [copy_cookies]. rewrite E1. cbn [bind fst snd]. rewrite E2. cbn [bind fst snd].
    split; [auto|]. split; [cbn [flat_map]; eapply ext_app; eauto|].
    cbn [map]. f_equal.
    + rewrite (cookie_value_keep h1 h2 _ d X2); auto. eapply ext_live; eauto.
    + rewrite V2. clear - X1 L2. induction l as [|c l IH]; auto. cbn [flat_map map] in *. apply Forall_app in L2 as [A B].
      f_equal; auto. eapply cookie_value_keep; eauto.
Qed.

Lemma copy_jar_ok : forall h l, Forall (live h) (flat_map cookie_addrs l) -> Forall full_cookie l ->
  exists h' j ds, copy_jar h l = Ret (h', j, ds) /\
    ext h h' (addr j ++ flat_map cookie_addrs ds) /\ map (view_cookie h') ds = map (view_cookie h) l.
Proof.
  intros h l L F. destruct l as [|c l].
  - exists h, None, []. split; [reflexivity|]. split; [apply ext_nil|auto].
  - destruct (copy_cookies_ok (c :: l) (h ++ [Some []])) as (h' & ds & E & X & V).
    + eapply live_keep; [apply ext_one|auto].
    + auto.
    + exists h', (Some (length h)), ds. unfold copy_jar. cbn [halloc fst snd]. rewrite E. cbn [bind fst snd]. split; [auto|]. split.
      * eapply ext_app; [apply ext_one|exact X].
      * rewrite V. clear - L. induction (c :: l) as [|x r IH]; auto. cbn [flat_map map] in *. apply Forall_app in L as [A B].
        f_equal; auto. eapply cookie_value_keep; [apply ext_one|auto].
Qed.

Lemma copy_body_ok : forall h src, Forall (live h) (addr (hr_body src)) ->
  match ptr_value h (hr_body src) with Some c => 0 <= hr_body_length src <= zlen c | None => hr_body_length src = 0 end ->
  exists h' q, copy_body h init_hresp src = Ret (h', q, hr_body_length src) /\ ext h h' (addr q) /\
    view_body h' q (hr_body_length src) = view_body h (hr_body src) (hr_body_length src).
Proof.
  intros h src L B. unfold copy_body, view_body, init_hresp. cbn [hr_body hr_body_length].
  destruct (hr_body src) as [b|].
  - cbn [addr] in L. inversion L as [|? ? (c & H) _]; subst. cbn [ptr_value] in *. rewrite H in *.
    unfold hread. rewrite H. cbn [bind]. destruct (hr_body_length src =? 0) eqn:N.
    + apply Z.eqb_eq in N. rewrite N. exists h, None. split; [auto|]. split; [apply ext_nil|]. reflexivity.
    + replace (hr_body_length src <=? zlen c) with true by (symmetry; apply Z.leb_le; lia).
      do 2 eexists. split; [reflexivity|]. split; [apply ext_one|]. cbn [ptr_value].
      cbn [halloc fst snd ptr_value]. rewrite nth_error_app2, Nat.sub_diag by auto. cbn [nth_error]. apply zfirstn_zfirstn.
  - cbn [ptr_value] in *. exists h, None. rewrite B. split; [auto|]. split; [apply ext_nil|]. reflexivity.
Qed.

Lemma view_body_keep : forall h h' ps p n, ext h h' ps -> Forall (live h) (addr p) -> view_body h' p n = view_body h p n.
Proof. intros. unfold view_body. erewrite value_keep; eauto. Qed.

Lemma view_cookies_keep : forall h h' ps l, ext h h' ps -> Forall (live h) (flat_map cookie_addrs l) ->
  map (view_cookie h') l = map (view_cookie h) l.
Proof.
  intros h h' ps l E. induction l as [|x r IH]; auto. cbn [flat_map map]. intros L. apply Forall_app in L as [A B].
  f_equal; auto. eapply cookie_value_keep; eauto.
Qed.

Lemma duplicate_ok : forall h r d, owned h r -> complete r -> repr (hr_header r) d ->
  exists h' c, duplicate_response h r = Ret (h', Some c) /\ ext h h' (addrs c) /\ view_resp h' c = view_resp h r /\
    repr (hr_header c) d.
Proof.
  intros h r d (ND & L & B) (P & F) R. unfold addrs in L. rewrite !Forall_app in L.
  destruct L as (L1 & L2 & _ & L4 & L5 & L6 & L7).
  destruct (hstrdup_ok h (hr_protocol r)) as (h1 & q1 & S1 & E1 & W1 & N1); auto.
  destruct (hstrdup_ok h1 (hr_realm r)) as (h2 & q2 & S2 & E2 & W2 & N2); [eapply live_keep; eauto|].
  pose proof (ext_app _ _ _ _ _ E1 E2) as E12.
  destruct R as (es & Lay & OK & W & F2 & T). destruct (copy_layout _ _ Lay OK) as (nm & ME & ML).
  destruct (copy_jar_ok h2 (hr_cookies r)) as (h3 & j & ds & S3 & E3 & W3); [eapply live_keep; eauto|auto|].
  pose proof (ext_app _ _ _ _ _ E12 E3) as E13.
  destruct (copy_body_ok h3 r) as (h4 & q4 & S4 & E4 & W4);
    [eapply live_keep; eauto|erewrite value_keep by eauto; exact B|].
  pose proof (ext_app _ _ _ _ _ E13 E4) as E14.
  destruct (hstrdup_ok h4 (hr_ws_protocol r)) as (h5 & q5 & S5 & E5 & W5 & N5); [eapply live_keep; eauto|].
  pose proof (ext_app _ _ _ _ _ E14 E5) as E15.
  destruct (hstrdup_ok h5 (hr_ws_extensions r)) as (h6 & q6 & S6 & E6 & W6 & N6); [eapply live_keep; eauto|].
  pose proof (ext_app _ _ _ _ _ E15 E6) as E16.
  unfold duplicate_response, copy_response. rewrite S1. cbn [bind fst snd]. rewrite S2. cbn [bind fst snd].
  destruct q1 as [a1|]; [|tauto]. rewrite ME. unfold bind at 2.
  rewrite S3. cbn [bind fst snd]. rewrite S4. cbn [bind fst snd].
  rewrite S5. cbn [bind fst snd]. rewrite S6. cbn [bind fst snd]. rewrite Z.eqb_refl.
  do 2 eexists. split; [reflexivity|]. split; [|split].
  - unfold addrs. cbn [hr_protocol hr_realm hr_jar hr_cookies hr_body hr_ws_protocol hr_ws_extensions].
    rewrite <- !app_assoc in E16. exact E16.
  - unfold view_resp. cbn [hr_status hr_stream hr_rest hr_protocol hr_realm hr_jar hr_cookies hr_body hr_body_length hr_ws_protocol hr_ws_extensions].
    rewrite W6, (value_keep h h5 _ (hr_ws_extensions r) E15 L7).
    rewrite (value_keep h5 h6 _ q5 E6) by (eapply ext_live; eauto). rewrite W5, (value_keep h h4 _ (hr_ws_protocol r) E14 L6).
    pose proof (ext_app _ _ _ _ _ E5 E6) as E56.
    rewrite (view_body_keep h4 h6 _ q4 _ E56) by (eapply ext_live; eauto). rewrite W4, (view_body_keep h h3 _ _ _ E13 L5).
    pose proof (ext_app _ _ _ _ _ E4 E56) as E46.
    rewrite (view_cookies_keep h3 h6 _ ds E46) by (pose proof (ext_live _ _ _ E3) as X; apply Forall_app in X; tauto).
    rewrite W3, (view_cookies_keep h h2 _ _ E12 L4).
    pose proof (ext_app _ _ _ _ _ E3 E46) as E36.
    rewrite (value_keep h2 h6 _ q2 E36) by (eapply ext_live; eauto). rewrite W2, (value_keep h h1 _ (hr_realm r) E1 L2).
    pose proof (ext_app _ _ _ _ _ E2 E36) as E26.
    rewrite (value_keep h1 h6 _ _ E26) by (eapply ext_live; eauto). rewrite W1.
    destruct (hr_stream r); reflexivity.
  - exists es. cbn [hr_header]. auto.
Qed.

(** cleaning *)
Fixpoint hfrees (h : heap) (l : list nat) : outcome heap :=
  match l with [] => Ret h | a :: r => do h1 <- hfree h (Some a); hfrees h1 r end.
Lemma bind_assoc : forall A B C (x : outcome A) (f : A -> outcome B) (g : B -> outcome C),
  bind (bind x f) g = bind x (fun a => bind (f a) g).
Proof. intros A B C [a|k] f g; auto. Qed.
Lemma bind_ret : forall A (x : outcome A), bind x Ret = x.
Proof. intros A [a|k]; auto. Qed.
Lemma hfrees_app : forall l m h, hfrees h (l ++ m) = bind (hfrees h l) (fun h1 => hfrees h1 m).
Proof.
  induction l as [|a l IH]; intros m h; auto. cbn [app hfrees]. rewrite bind_assoc.
  destruct (hfree h (Some a)); cbn [bind]; auto.
Qed.
Lemma hfree_addr : forall h p, hfree h p = hfrees h (addr p).
Proof. intros h [a|]; cbn [addr hfrees]; [now rewrite bind_ret|reflexivity]. Qed.
Lemma bind_ext : forall A B (x : outcome A) (f g : A -> outcome B), (forall a, f a = g a) -> bind x f = bind x g.
Proof. intros A B [a|k] f g H; cbn; auto. Qed.

Lemma clean_cookie_frees : forall h c, clean_cookie h c = hfrees h (cookie_addrs c).
Proof.
  intros h c. unfold clean_cookie, cookie_addrs. rewrite hfrees_app, <- hfree_addr. apply bind_ext. intro h1.
  rewrite hfrees_app, <- hfree_addr. apply bind_ext. intro h2.
  rewrite hfrees_app, <- hfree_addr. apply bind_ext. intro h3.
  rewrite hfrees_app, <- hfree_addr. apply bind_ext. intro h4. apply hfree_addr.
Qed.
Lemma clean_cookies_frees : forall l h, clean_cookies h l = hfrees h (flat_map cookie_addrs l).
Proof.
  induction l as [|c l IH]; intros h; auto. cbn [clean_cookies flat_map]. rewrite hfrees_app, clean_cookie_frees.
  apply bind_ext. auto.
Qed.
Definition clean_order (r : hresp) : list nat :=
  addr (hr_protocol r) ++ flat_map cookie_addrs (hr_cookies r) ++ addr (hr_realm r) ++ addr (hr_jar r) ++
  addr (hr_body r) ++ addr (hr_ws_protocol r) ++ addr (hr_ws_extensions r).
Lemma clean_frees : forall h r, clean_response h r = hfrees h (clean_order r).
Proof.
  intros h r. unfold clean_response, clean_order.
  rewrite hfrees_app, <- hfree_addr. apply bind_ext. intro h1.
  rewrite hfrees_app, <- clean_cookies_frees. apply bind_ext. intro h2.
  rewrite hfrees_app, <- hfree_addr. apply bind_ext. intro h3.
  rewrite hfrees_app, <- hfree_addr. apply bind_ext. intro h4.
  rewrite hfrees_app, <- hfree_addr. apply bind_ext. intro h5.
  rewrite hfrees_app, <- hfree_addr. apply bind_ext. intro h6. apply hfree_addr.
Qed.
Lemma clean_perm : forall r, Permutation (clean_order r) (addrs r).
Proof.
  intros r. unfold clean_order, addrs. apply Permutation_app_head.
  rewrite !app_assoc. do 3 apply Permutation_app_tail. rewrite <- app_assoc. apply Permutation_app_comm.
Qed.

Lemma set_nth_same : forall A (l : list A) i x, (i < length l)%nat -> nth_error (set_nth l i x) i = Some x.
Proof. induction l as [|y l IH]; intros [|i] x H; cbn in *; try lia; auto. apply IH. lia. Qed.
Lemma set_nth_other : forall A (l : list A) i j x, i <> j -> nth_error (set_nth l i x) j = nth_error l j.
Proof. induction l as [|y l IH]; intros [|i] [|j] x H; cbn; auto; try congruence. Qed.

Lemma hfrees_ok : forall l h, NoDup l -> Forall (live h) l ->
  exists h', hfrees h l = Ret h' /\ length h' = length h /\
    (forall a, In a l -> nth_error h' a = Some None) /\ (forall a, ~ In a l -> nth_error h' a = nth_error h a).
Proof.
  induction l as [|a l IH]; intros h N L.
  - exists h. repeat split; auto. intros a [].
  - inversion N; subst. inversion L as [|? ? (c & H) L']; subst. cbn [hfrees]. unfold hfree. rewrite H. cbn [bind].
    destruct (IH (set_nth h a None)) as (h' & E & LEN & D & K); auto.
    + apply Forall_forall. intros b I. rewrite Forall_forall in L'. destruct (L' b I) as (c' & H'). exists c'.
      rewrite set_nth_other; auto. intro; subst; auto.
    + exists h'. split; auto. split; [now rewrite LEN, set_nth_length|]. split.
      * intros b [<-|I]; auto. rewrite K by auto. apply set_nth_same. apply nth_error_Some. congruence.
      * intros b NI. rewrite K by (cbn in NI; tauto). apply set_nth_other. cbn in NI. tauto.
Qed.

Lemma clean_ok : forall h r, NoDup (addrs r) -> Forall (live h) (addrs r) ->
  exists h', clean_response h r = Ret h' /\ length h' = length h /\
    (forall a, In a (addrs r) -> nth_error h' a = Some None) /\ (forall a, ~ In a (addrs r) -> nth_error h' a = nth_error h a).
Proof.
  intros h r N L. pose proof (clean_perm r) as P. rewrite clean_frees.
  destruct (hfrees_ok (clean_order r) h) as (h' & E & LEN & D & K).
  - eapply Permutation_NoDup; [apply Permutation_sym; eauto|auto].
  - eapply Permutation_Forall; [apply Permutation_sym; eauto|auto].
  - exists h'. repeat split; auto.
    + intros a I. apply D. eapply Permutation_in; [apply Permutation_sym; eauto|auto].
    + intros a I. apply K. intro J. apply I. eapply Permutation_in; eauto.
Qed.

Lemma value_same : forall h h' p, (forall a, In a (addr p) -> nth_error h' a = nth_error h a) -> ptr_value h' p = ptr_value h p.
Proof. intros h h' [a|] H; cbn in *; auto. rewrite H; auto. Qed.
Lemma view_same : forall h h' r, (forall a, In a (addrs r) -> nth_error h' a = nth_error h a) -> view_resp h' r = view_resp h r.
Proof.
  intros h h' r H. unfold addrs in H. unfold view_resp, view_body.
  rewrite !(value_same h h') by (intros; apply H; rewrite !in_app_iff; tauto).
  assert (C : map (view_cookie h') (hr_cookies r) = map (view_cookie h) (hr_cookies r)).
  { assert (H' : forall a, In a (flat_map cookie_addrs (hr_cookies r)) -> nth_error h' a = nth_error h a)
      by (intros; apply H; rewrite !in_app_iff; tauto).
    clear H. induction (hr_cookies r) as [|c l IH]; auto. cbn [flat_map map] in *. f_equal.
    - unfold view_cookie, cookie_addrs in *.
      rewrite !(value_same h h') by (intros; apply H'; rewrite !in_app_iff; tauto). reflexivity.
    - apply IH. intros; apply H'. apply in_or_app; auto. }
  now rewrite C.
Qed.
