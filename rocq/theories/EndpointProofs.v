(** Proofs about the endpoint table (C19, C20). *)
From Coq Require Import String ZArith Bool List Lia.
From Verif Require Import Base BaseFacts UMapModel UMapProofs RouterModel RouterSpec RouterProofs.
Import ListNotations.
Open Scope Z_scope.

Lemma ostr_eqb_eq : forall a b, ostr_eqb a b = true <-> a = b.
Proof.
  intros [a|] [b|]; simpl; try rewrite str_eqb_eq; split; intro H; try congruence; try discriminate.
Qed.

Lemma equals_empty : forall e, equals_endpoints e empty_endpoint = true <-> ~ not_empty_ep e.
Proof.
  intros e. unfold equals_endpoints, not_empty_ep.
  destruct (http_method e), (url_prefix e), (url_format e); simpl; split; intro H; try discriminate; auto;
    try (intros [C|[C|C]]; congruence); exfalso; apply H;
    first [left; discriminate | right; left; discriminate | right; right; discriminate].
Qed.

Lemma valid_complete : forall e, not_empty_ep e -> is_valid_endpoint e false = true <-> complete e.
Proof.
  intros e N. unfold is_valid_endpoint, complete.
  destruct (equals_endpoints e empty_endpoint) eqn:E; [apply equals_empty in E; contradiction|]. simpl.
  destruct (http_method e); [|split; [discriminate|intros [H _]; congruence]].
  destruct (callback e); [|split; [discriminate|intros (_ & H & _); congruence]].
  destruct (url_prefix e), (url_format e); split; intro H; auto; try discriminate;
    try (split; [discriminate|split; [discriminate|]]); try (left; discriminate); try (right; discriminate).
  destruct H as (_ & _ & [H|H]); congruence.
Qed.

Lemma add_lemma : forall u es e, table_ok u es -> not_empty_ep e ->
  (complete e -> exists u', add_endpoint u e = Ret (U_OK, u') /\ table_ok u' (es ++ [e]) /\ endpoint_list u' <> None) /\
  (~ complete e -> add_endpoint u e = Ret (U_ERROR_PARAMS, u)).
Proof.
  intros u es e (F & N & A) NE. pose proof (valid_complete e NE) as V. unfold add_endpoint. split.
  - intros C. assert (V1 : is_valid_endpoint e false = true) by now apply V. rewrite V1.
    assert (C' := C). destruct C as (C1 & _).
    assert (X : exists arr n, (match endpoint_list u with
                     | None => ([None; None], 1%nat)
                     | Some l => (arealloc l (S (nb_endpoints u) + 1) None, S (nb_endpoints u))
                     end) = (arr, n) /\ exists x y, arr = map Some es ++ [x; y] /\ n = S (length es)).
    { destruct (endpoint_list u) as [l|].
      - do 2 eexists. split; [reflexivity|]. subst l. rewrite N. exists (Some empty_endpoint), None. split; auto.
        rewrite arealloc_grow1 by (rewrite app_length, map_length; simpl; lia). now rewrite <- app_assoc.
      - subst es. do 2 eexists. split; [reflexivity|]. exists None, None. auto. }
    destruct X as (arr & n & -> & x & y & -> & ->).
    unfold copy_endpoint at 1. replace (S (length es) - 1)%nat with (length (map (@Some endpoint) es)) by (rewrite map_length; lia).
    rewrite aset_mid. unfold bind at 1. rewrite V1. unfold bind at 1.
    change (negb (U_OK =? U_OK)) with false. cbv iota.
    unfold copy_endpoint.
    replace (map (@Some endpoint) es ++ [Some e; y]) with (map Some (es ++ [e]) ++ [y]) by (rewrite map_app, <- app_assoc; reflexivity).
    assert (L : S (length es) = length (map (@Some endpoint) (es ++ [e]))) by (rewrite map_length, app_length; simpl; lia).
    rewrite L.
    rewrite aset_mid. unfold bind at 1. unfold bind at 1. cbn [snd].
    eexists. split; [reflexivity|]. split; [|simpl; discriminate]. split; [|split].
    + apply Forall_app. split; auto.
    + simpl. now rewrite map_length.
    + reflexivity.
  - intros C. destruct (is_valid_endpoint e false); auto. exfalso. apply C. now apply V.
Qed.

Lemma complete_dec : forall e, complete e \/ ~ complete e.
Proof.
  intros e. unfold complete.
  destruct (http_method e), (callback e), (url_prefix e), (url_format e);
    try (left; split; [discriminate|split; [discriminate|]]; try (left; discriminate); try (right; discriminate); fail);
    right; intros (A & B & C); try congruence; destruct C; congruence.
Qed.

Lemma add_list_lemma : forall l u es, table_ok u es -> Forall not_empty_ep l ->
  exists a b c u', l = a ++ b /\ Forall complete a /\ (b = [] \/ exists x r, b = x :: r /\ ~ complete x) /\
    add_endpoint_list u (map Some l ++ [Some empty_endpoint]) = Ret (c, u') /\ table_ok u' (es ++ a) /\
    (c = U_OK <-> b = []).
Proof.
  induction l as [|e l IH]; intros u es T F.
  - exists [], [], U_OK, u. simpl. rewrite app_nil_r. split; [auto|]. split; [constructor|]. split; [auto|]. split; [auto|]. split; [exact T|]. tauto.
  - inversion F; subst. cbn [map app add_endpoint_list].
    replace (equals_endpoints e empty_endpoint) with false
      by (symmetry; apply not_true_iff_false; rewrite equals_empty; tauto).
    destruct (add_lemma u es e T H1) as [A1 A2]. destruct (complete_dec e) as [C|C].
    + destruct (A1 C) as (u1 & E1 & T1 & _). rewrite E1. unfold bind at 1. cbn [fst snd]. change (U_OK =? U_OK) with true. cbv iota.
      destruct (IH u1 _ T1 H2) as (a & b & c & u' & -> & FA & B & R & T' & Q).
      exists (e :: a), b, c, u'. split; auto. split; [constructor; auto|]. split; auto. split; auto. split; auto.
      now rewrite <- app_assoc in T'.
    + exists [], (e :: l), U_ERROR_PARAMS, u. rewrite (A2 C). unfold bind at 1. cbn [fst].
      change (U_ERROR_PARAMS =? U_OK) with false. cbv iota. rewrite app_nil_r.
      split; auto. split; [constructor|]. split; [right; eauto|]. split; auto. split; auto. split; discriminate.
Qed.

(** ** trimming *)
Lemma triml_spec : forall s, exists a, s = a ++ triml 47 s /\ Forall (eq 47) a /\ (forall r, triml 47 s <> 47 :: r).
Proof.
  induction s as [|c s (a & E & F & N)].
  - exists []. simpl. repeat split; auto. discriminate.
  - simpl. destruct (c =? 47) eqn:Q.
    + apply Z.eqb_eq in Q; subst. exists (47 :: a). simpl. rewrite <- E. repeat split; auto.
    + apply Z.eqb_neq in Q. exists []. repeat split; auto. intros r C. congruence.
Qed.

Lemma triml_prefix : forall a t, Forall (eq 47) a -> (forall r, t <> 47 :: r) -> triml 47 (a ++ t) = t.
Proof.
  induction 1 as [|x a E F IH]; intros N; simpl.
  - destruct t as [|c t]; auto. simpl. destruct (c =? 47) eqn:Q; auto. apply Z.eqb_eq in Q; subst. exfalso; eapply N; eauto.
  - subst x. simpl. auto.
Qed.

Lemma Forall_rev' : forall A (P : A -> Prop) l, Forall P l -> Forall P (rev l).
Proof. intros. apply Forall_rev. auto. Qed.

Lemma trimc_trims : forall s, trims s (trimc 47 s).
Proof.
  intros s. unfold trimc. destruct (triml_spec s) as (a & E & F & N).
  set (t := triml 47 s) in *. destruct (triml_spec (rev t)) as (b & E2 & F2 & N2).
  set (q := triml 47 (rev t)) in *.
  exists a, (rev b). 
  assert (T : t = rev q ++ rev b). { rewrite <- rev_app_distr, <- E2. now rewrite rev_involutive. }
  split; [rewrite E at 1; now rewrite T|]. split; auto. split; [now apply Forall_rev'|]. split.
  - intros r C. apply (N (r ++ rev b)). rewrite T, C. reflexivity.
  - intros r C. apply (N2 (rev r)). rewrite <- (rev_involutive q), C. now rewrite rev_app_distr.
Qed.

Lemma trims_unique : forall s t, trims s t -> t = trimc 47 s.
Proof.
  intros s t (a & b & -> & Fa & Fb & N1 & N2). unfold trimc.
  destruct t as [|c t].
  - simpl. assert (X : triml 47 (a ++ b) = []).
    { rewrite <- (app_nil_r (a ++ b)). rewrite triml_prefix; auto. apply Forall_app; auto. }
    rewrite X. reflexivity.
  - rewrite triml_prefix; auto.
    + rewrite rev_app_distr. rewrite triml_prefix; [now rewrite rev_involutive|now apply Forall_rev'|].
      intros r C. apply (N2 (rev r)). rewrite <- (rev_involutive (c :: t)), C. reflexivity.
    + intros r C. simpl in C. inversion C; subst. eapply N1; eauto.
Qed.

Lemma otrims_otrim : forall o t, otrims o t <-> t = otrim o.
Proof.
  intros [s|] [t|]; simpl; split; intro H; try discriminate; try contradiction; auto.
  - f_equal. now apply trims_unique.
  - injection H as ->. apply trimc_trims.
Qed.

Definition hit (t e : endpoint) : bool :=
  ostr_eqb (http_method e) (http_method t) && ostr_eqb (otrim (url_prefix e)) (otrim (url_prefix t))
  && ostr_eqb (otrim (url_format e)) (otrim (url_format t)).

Lemma hit_same_route : forall t e, hit t e = true <-> same_route t e.
Proof.
  intros t e. unfold hit, same_route. rewrite !andb_true_iff, !ostr_eqb_eq. split.
  - intros [[A B] C]. split; auto. split; eexists; split; apply otrims_otrim; eauto.
  - intros (A & (p & P1 & P2) & (f & F1 & F2)). apply otrims_otrim in P1, P2, F1, F2. subst. repeat split; congruence.
Qed.

(** ** removal *)
Lemma ep_shift_spec : forall c a x, ep_shift (a ++ x :: c) (length a) (length c) = Ret (a ++ c ++ match rev c with y :: _ => [y] | [] => [x] end).
Proof.
  induction c as [|y c IH]; intros a x.
  - reflexivity.
  - cbn [length ep_shift]. replace (length a + 1)%nat with (length (a ++ [x])) by (rewrite app_length; simpl; lia).
    replace (a ++ x :: y :: c) with ((a ++ [x]) ++ y :: c) at 1 by now rewrite <- app_assoc.
    rewrite aget_mid. unfold bind at 1. rewrite aset_mid. unfold bind at 1.
    replace (a ++ y :: y :: c) with ((a ++ [y]) ++ y :: c) by now rewrite <- app_assoc.
    replace (S (length a)) with (length (a ++ [y])) by (rewrite app_length; simpl; lia).
    rewrite IH. f_equal. rewrite <- app_assoc. simpl. f_equal. f_equal. f_equal.
    destruct (rev c); reflexivity.
Qed.

Lemma remove_ep_loop_spec : forall t pre post found,
  remove_ep_loop (map Some (pre ++ post) ++ [Some empty_endpoint]) (length (pre ++ post)) t (length pre) found
  = Ret (found || existsb (hit t) pre,
         (map Some (filter (fun e => negb (hit t e)) pre ++ post) ++ [Some empty_endpoint],
          length (filter (fun e => negb (hit t e)) pre ++ post))).
Proof.
  intros t pre. induction pre as [|e pre IH] using rev_ind; intros post found.
  - simpl. now rewrite orb_false_r.
  - replace (length (pre ++ [e])) with (S (length pre)) by (rewrite app_length; simpl; lia).
    cbn [remove_ep_loop]. replace ((pre ++ [e]) ++ post) with (pre ++ e :: post) by (now rewrite <- app_assoc).
    assert (G : ep_at (map Some (pre ++ e :: post) ++ [Some empty_endpoint]) (length pre) = Ret e).
    { unfold ep_at. rewrite map_app. simpl. rewrite <- app_assoc. simpl.
      rewrite <- (map_length (@Some endpoint) pre) at 1. now rewrite aget_mid. }
    rewrite G. unfold bind at 1. fold (hit t e).
    rewrite filter_app, existsb_app. cbn [filter existsb]. rewrite orb_false_r.
    destruct (hit t e) eqn:H; simpl negb; cbv iota.
    + rewrite map_app. simpl map. rewrite <- app_assoc. cbn [app].
      replace (length pre) with (length (map (@Some endpoint) pre)) at 1 by apply map_length.
      replace (length (pre ++ e :: post) - length pre)%nat with (length (map (@Some endpoint) post ++ [Some empty_endpoint]))
        by (rewrite !app_length, map_length; simpl; lia).
      rewrite ep_shift_spec. unfold bind at 1. rewrite rev_app_distr. cbn [rev app].
      replace (firstn (length (pre ++ e :: post)) (map Some pre ++ (map Some post ++ [Some empty_endpoint]) ++ [Some empty_endpoint]))
        with (map Some (pre ++ post) ++ [Some empty_endpoint]).
      * replace (length (pre ++ e :: post) - 1)%nat with (length (pre ++ post)) by (rewrite !app_length; simpl; lia).
        rewrite IH. now rewrite app_nil_r, !orb_true_r.
      * rewrite map_app, <- app_assoc.
        replace (map Some pre ++ (map Some post ++ [Some empty_endpoint]) ++ [Some empty_endpoint])
          with ((map Some pre ++ map Some post ++ [Some empty_endpoint]) ++ [Some empty_endpoint]) by now rewrite <- !app_assoc.
        rewrite firstn_app.
        replace (length (pre ++ e :: post) - length (map (@Some endpoint) pre ++ map Some post ++ [Some empty_endpoint]))%nat with 0%nat
          by (rewrite !app_length, !map_length; simpl; lia).
        rewrite firstn_O, app_nil_r. symmetry. apply firstn_all2. rewrite !app_length, !map_length. simpl. lia.
    + replace (pre ++ e :: post) with (pre ++ ([e] ++ post)) by reflexivity.
      rewrite IH. rewrite orb_false_r. now rewrite <- app_assoc.
Qed.

Lemma delete_valid : forall t,
  (negb (equals_endpoints t empty_endpoint) && is_valid_endpoint t true) = true <->
  ~ (http_method t = None \/ (url_prefix t = None /\ url_format t = None)).
Proof.
  intros t. unfold is_valid_endpoint. destruct (equals_endpoints t empty_endpoint) eqn:E; simpl.
  - apply equals_empty in E. split; [discriminate|]. intros H. exfalso. apply E. unfold not_empty_ep.
    destruct (http_method t); [left; discriminate|]. exfalso; apply H; auto.
  - destruct (http_method t), (url_prefix t), (url_format t); split; intro H; auto; try discriminate;
      try (intros [C|[C1 C2]]; discriminate); exfalso; apply H; auto.
Qed.

Lemma remove_lemma : forall u es t, table_ok u es ->
  ~ (http_method t = None \/ (url_prefix t = None /\ url_format t = None)) ->
  exists u', remove_endpoint u t = Ret (if existsb (hit t) es then U_OK else U_ERROR_NOT_FOUND, u') /\
    table_ok u' (filter (fun e => negb (hit t e)) es).
Proof.
  intros u es t (F & N & A) V. unfold remove_endpoint. apply delete_valid in V. rewrite V.
  destruct (endpoint_list u) as [arr|] eqn:L.
  - subst arr. rewrite N. pose proof (remove_ep_loop_spec t es [] false) as R. rewrite !app_nil_r in R.
    rewrite R. unfold bind. cbn [orb]. eexists. split; [reflexivity|]. split; [|split]; simpl; auto.
    apply Forall_forall. intros e I. apply filter_In in I. rewrite Forall_forall in F. apply F; tauto.
  - subst es. rewrite N. simpl. exists u. split; auto. split; auto. split; auto. now rewrite L.
Qed.

Lemma remove_bad_lemma : forall u t, http_method t = None \/ (url_prefix t = None /\ url_format t = None) ->
  remove_endpoint u t = Ret (U_ERROR_PARAMS, u).
Proof.
  intros u t H. unfold remove_endpoint. destruct (negb _ && _) eqn:E; auto. apply delete_valid in E. contradiction.
Qed.

Lemma delete_arg_dec : forall t, (http_method t = None \/ (url_prefix t = None /\ url_format t = None)) \/
  ~ (http_method t = None \/ (url_prefix t = None /\ url_format t = None)).
Proof.
  intros t. destruct (http_method t), (url_prefix t), (url_format t); auto; right; intros [C|[C1 C2]]; discriminate.
Qed.

Lemma eop_run_lemma : forall ops u es, table_ok u es -> Forall eop_ok ops ->
  exists u' es', eop_run u ops = Ret u' /\ eops_mean es ops es' /\ table_ok u' es'.
Proof.
  induction ops as [|o ops IH]; intros u es T F.
  - exists u, es. split; [reflexivity|]. split; [apply ems_nil|exact T].
  - inversion F; subst. cbn [eop_run].
    assert (X : exists c u1 es1, eop_step u o = Ret (c, u1) /\ eop_means es o es1 /\ table_ok u1 es1).
    { destruct o as [e|l|t]; simpl in *.
      - destruct (add_lemma u es e T H1) as [A1 A2]. destruct (complete_dec e) as [C|C].
        + destruct (A1 C) as (u1 & E & T1 & _). do 3 eexists. split; [eauto|]. split; [now constructor|auto].
        + do 3 eexists. split; [exact (A2 C)|]. split; [now apply em_add_bad|auto].
      - destruct (add_list_lemma l u es T H1) as (a & b & c & u' & -> & FA & B & R & T' & _).
        do 3 eexists. split; [eauto|]. split; [now constructor|auto].
      - destruct (delete_arg_dec t) as [D|D].
        + do 3 eexists. split; [now apply remove_bad_lemma|]. split; [now apply em_remove_bad|auto].
        + destruct (remove_lemma u es t T D) as (u' & R & T').
          do 3 eexists. split; [eauto|]. split; [|eauto]. eapply em_remove; eauto. apply hit_same_route. }
    destruct X as (c & u1 & es1 & E & M & T1). rewrite E. unfold bind at 1. cbn [snd].
    destruct (IH u1 es1 T1 H2) as (u' & es' & R & M' & T'). exists u', es'. split; auto. split; auto. econstructor; eauto.
Qed.

Lemma eop_means_det : forall es o a b, eop_means es o a -> eop_means es o b -> a = b.
Proof.
  intros es o a b A B. destruct A; inversion B; subst; auto; try contradiction.
  - assert (forall (a a0 : list endpoint) b b0, Forall complete a -> Forall complete a0 ->
      (b = [] \/ exists x r, b = x :: r /\ ~ complete x) -> (b0 = [] \/ exists x r, b0 = x :: r /\ ~ complete x) ->
      a0 ++ b0 = a ++ b -> a = a0) as G.
    { clear. induction a as [|e a IH]; intros a0 b b0 FA FA0 B B0 E.
      - simpl in E. destruct a0 as [|e0 a0]; auto. simpl in E.
        destruct B as [B|(x & r & B & N)]; rewrite B in E; [discriminate|]. inversion E; subst. inversion FA0; subst. contradiction.
      - destruct a0 as [|e0 a0].
        + simpl in E. destruct B0 as [B0|(x & r & B0 & N)]; rewrite B0 in E; [discriminate|]. inversion E; subst. inversion FA; subst. contradiction.
        + simpl in E. inversion E; subst. inversion FA0; inversion FA; subst. f_equal. exact (IH _ _ _ H7 H3 B B0 H1). }
    f_equal. exact (G _ _ _ _ H H2 H0 H4 H1).
  - apply filter_ext. intros e. f_equal.
    match goal with H1 : forall e, ?p e = true <-> _, H2 : forall e, ?q e = true <-> _ |- ?p e = ?q e =>
      destruct (p e) eqn:P, (q e) eqn:Q; auto;
      [apply H1 in P; apply H2 in P; congruence | apply H2 in Q; apply H1 in Q; congruence] end.
Qed.

Lemma eops_mean_det : forall ops es a b, eops_mean es ops a -> eops_mean es ops b -> a = b.
Proof.
  induction ops as [|o ops IH]; intros es a b A B.
  - inversion A; inversion B; subst; auto.
  - inversion A as [|? ? x ? ? X1 X2]; inversion B as [|? ? y ? ? Y1 Y2]; subst.
    assert (x = y) by (eapply eop_means_det; eauto). subst. eauto.
Qed.

Lemma clean_add_lemma : forall u e, complete e ->
  exists u', add_endpoint (clean_endpoints u) e = Ret (U_OK, u') /\ table_ok u' [e].
Proof.
  intros u e C. pose proof C as (C1 & _). unfold add_endpoint, clean_endpoints. cbn [endpoint_list].
  replace (is_valid_endpoint e false) with true by (symmetry; apply valid_complete; auto; left; auto).
  unfold copy_endpoint. cbn [aset length Nat.ltb Nat.leb set_nth Nat.sub bind].
  replace (is_valid_endpoint e false) with true by (symmetry; apply valid_complete; auto; left; auto).
  cbn. eexists. split; [reflexivity|]. split; [constructor; auto|]. split; reflexivity.
Qed.

(** ** matching on a well-formed table *)
Lemma match_table : forall qsort u es method url, table_ok u es ->
  endpoint_match qsort (Some method) (Some url) (endpoint_list u) = Ret (qsort (filter (sel method url) es)).
Proof.
  intros qsort u es method url (F & _ & A). destruct (endpoint_list u).
  - subst l. now apply match_ok.
  - subst es. reflexivity.
Qed.
