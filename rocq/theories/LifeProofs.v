(** Proofs about the life of an instance. *)
From Coq Require Import String ZArith Bool List Lia.
From Verif Require Import Base BaseFacts UMapModel RouterModel RouterSpec EndpointProofs LifeModel LifeSpec.
Import ListNotations.
Open Scope Z_scope.

Lemma blank_iff : forall e, equals_endpoints empty_endpoint e = true <-> blank e.
Proof.
  intros e. unfold equals_endpoints, blank. cbn [http_method url_prefix url_format empty_endpoint].
  destruct (http_method e), (url_prefix e), (url_format e); cbn; intuition congruence.
Qed.
Lemma blank_iff' : forall e, equals_endpoints e empty_endpoint = true <-> blank e.
Proof.
  intros e. unfold equals_endpoints, blank. cbn [http_method url_prefix url_format empty_endpoint].
  destruct (http_method e), (url_prefix e), (url_format e); cbn; intuition congruence.
Qed.
Lemma valid_iff : forall e, is_valid_endpoint e false = true <-> complete e \/ blank e.
Proof.
  intros e. unfold is_valid_endpoint. pose proof (blank_iff' e) as B. destruct (equals_endpoints e empty_endpoint).
  - split; auto. intros _. right. now apply B.
  - unfold complete, blank in *. destruct (http_method e), (callback e), (url_prefix e), (url_format e); cbn; split; intuition congruence.
Qed.
Lemma ep_at_mid : forall (a : list endpoint) e rest, ep_at (map Some a ++ Some e :: rest) (length a) = Ret e.
Proof.
  intros a e rest. unfold ep_at, aget. rewrite nth_error_app2 by (rewrite map_length; lia). rewrite map_length, Nat.sub_diag. reflexivity.
Qed.
Definition invalid e := ~ (complete e \/ blank e).
Lemma validate_from_ok : forall es done rest, exists r,
  validate_from (map Some (done ++ es) ++ rest) (length done) (length es) = Ret r /\ (r = U_OK \/ r = U_ERROR_PARAMS) /\
  (r = U_OK <-> Forall (fun e => complete e \/ blank e) es /\ (done = [] -> forall e l, es = e :: l -> ~ blank e)).
Proof.
  induction es as [|e es IH]; intros done rest.
  - exists U_OK. split; [reflexivity|]. split; auto. split; auto. intros _. split; [constructor|]. intros; discriminate.
  - cbn [length validate_from].
    assert (E : ep_at (map Some (done ++ e :: es) ++ rest) (length done) = Ret e).
    { rewrite map_app, <- app_assoc. apply ep_at_mid. }
    rewrite E. unfold bind at 1.
    assert (L : length (done ++ [e]) = S (length done)) by (rewrite app_length; simpl; lia).
    destruct ((length done =? 0)%nat && equals_endpoints empty_endpoint e) eqn:B0.
    + apply andb_true_iff in B0. destruct B0 as (L0 & B0). apply blank_iff in B0. apply Nat.eqb_eq in L0.
      exists U_ERROR_PARAMS. split; auto. split; auto. split; [discriminate|]. intros (_ & H). exfalso.
      eapply H; eauto. now apply length_zero_iff_nil.
    + assert (NB : done = [] -> ~ blank e).
      { intros ->. cbn in B0. intros X. apply blank_iff in X. congruence. }
      pose proof (valid_iff e) as V. destruct (is_valid_endpoint e false) eqn:I.
      * cbn [negb]. cbv iota. destruct (IH (done ++ [e]) rest) as (r & R & K & S). rewrite L in R.
        rewrite <- app_assoc in R. cbn [app] in R. exists r. split; [exact R|]. split; auto. rewrite S. split.
        -- intros (A & _). split; [constructor; [now apply V|auto]|]. intros D e' l X. inversion X; subst. auto.
        -- intros (A & _). inversion A; subst. split; auto. intros D. destruct done; discriminate.
      * cbn [negb]. cbv iota. exists U_ERROR_PARAMS. split; auto. split; auto. split; [discriminate|].
        intros (A & _). inversion A; subst. apply V in H1. discriminate.
Qed.
Lemma validate_ok : forall u es, holds (l_endpoints u) es -> exists r, validate_instance u = Ret r /\ (r = U_OK \/ r = U_ERROR_PARAMS) /\
  (r = U_OK <-> startable u es).
Proof.
  intros u es (N & A). unfold validate_instance, startable.
  destruct ((l_port u <=? 0) || (65536 <=? l_port u)) eqn:P.
  - exists U_ERROR_PARAMS. split; auto. split; auto. split; [discriminate|]. intros (H & _). exfalso.
    apply orb_true_iff in P. destruct P as [P|P]; apply Z.leb_le in P; lia.
  - apply orb_false_iff in P. destruct P as (P1 & P2). apply Z.leb_gt in P1, P2.
    unfold validate_endpoint_list. rewrite N. destruct (endpoint_list (l_endpoints u)) as [arr|] eqn:AE.
    + destruct (A arr eq_refl) as (rest & ->). destruct (validate_from_ok es [] rest) as (r & R & K & S).
      cbn [app length] in R. unfold str in *. rewrite R. unfold bind at 1.
      exists r. split; [destruct K as [-> | ->]; reflexivity|]. split; auto. rewrite S. split.
      * intros (X & Y). split; [lia|]. split; [discriminate|]. split; [exact X|exact (Y eq_refl)].
      * intros (_ & _ & X & Y). auto.
    + unfold bind at 1. exists U_ERROR_PARAMS. split; auto. split; auto. split; [discriminate|]. intros (_ & H & _). congruence.
Qed.

Lemma credentials_iff : forall key cert ca, credentials key cert ca <->
  xorb (isSome key) (isSome cert) = false /\ isSome ca && (negb (isSome key) || negb (isSome cert)) = false.
Proof. intros [k|] [c|] [t|]; unfold credentials; cbn; intuition congruence. Qed.

(** the options are all written inside the array and read up to the end *)
Ltac nodups := repeat (constructor; [cbn; intuition discriminate|]); try constructor.
Lemma options_ok : forall u key cert ca, l_daemon u = None -> credentials key cert ca -> 1 <= l_port u <= 65535 ->
  exists flags ops l, daemon_options u key cert ca = Ret (Some (flags, ops)) /\ read_options ops = Ret l /\
  forall h, as_asked u key cert ca (mk_daemon h (l_port u mod 65536) flags l).
Proof.
  intros u key cert ca D C P. unfold daemon_options. rewrite D.
  assert (PM : l_port u mod 65536 = l_port u) by (apply Z.mod_small; lia).
  destruct key as [k|], cert as [c|]; try (exfalso; unfold credentials in C; intuition congruence).
  2: assert (ca = None) by (unfold credentials in C; intuition congruence); subst ca.
  1: destruct ca as [t|].
  all: destruct (0 <? l_timeout u) eqn:T; [apply Z.ltb_lt in T | apply Z.ltb_ge in T].
  all: destruct (l_bind6 u) as [b6|] eqn:B6; [|destruct (bit (l_network u) 0) eqn:N0, (bit (l_network u) 4) eqn:N4].
  all: cbn -[Z.lt Z.gt]; do 3 eexists; (split; [reflexivity|]); (split; [reflexivity|]); intros h; split; cbn [d_port d_flags d_options];
    try rewrite B6; try rewrite N0; try rewrite N4.
  all: match goal with
    | |- _ mod _ = _ => exact PM
    | |- NoDup _ /\ NoDup _ => split; nodups
    | |- _ /\ _ => cbn [In]; tauto
    | |- _ => cbn [In]; intros; split;
        [intros X; repeat (destruct X as [X|X]; [try discriminate X; try (injection X as X; subst)|]); try contradiction
        |]; intuition (try discriminate; try congruence; try lia)
    end.
Qed.

Lemma start_lemma : forall ok s key cert ca es, holds (l_endpoints (s_inst s)) es -> exists r s', start ok s key cert ca = Ret (r, s') /\
  (r = U_OK <-> credentials key cert ca /\ startable (s_inst s) es /\ l_daemon (s_inst s) = None /\ ok = true) /\
  (r = U_ERROR_PARAMS <-> ~ (credentials key cert ca /\ startable (s_inst s) es)) /\
  l_endpoints (s_inst s') = l_endpoints (s_inst s) /\
  (r = U_OK -> exists d, s_live s' = s_live s ++ [d] /\ d_handle d = s_next s /\ s_next s' = s_next s + 1 /\ l_daemon (s_inst s') = Some (d_handle d) /\ l_status (s_inst s') = Running /\
     as_asked (s_inst s) key cert ca d /\ (l_client_auth (s_inst s') = true <-> ca <> None)) /\
  (r <> U_OK -> s_live s' = s_live s /\ s_next s' = s_next s) /\
  (r = U_ERROR_PARAMS -> l_daemon (s_inst s') = l_daemon (s_inst s) /\ l_status (s_inst s') = l_status (s_inst s)) /\
  (r <> U_OK -> r <> U_ERROR_PARAMS -> r = U_ERROR_LIBMHD /\ l_daemon (s_inst s') = None /\ l_status (s_inst s') = Failed).
Proof.
  intros ok s key cert ca es H. unfold start. pose proof (credentials_iff key cert ca) as C.
  destruct (xorb (isSome key) (isSome cert)).
  { exists U_ERROR_PARAMS, s. split; auto. split; [split; [discriminate|intros (X & _); apply C in X; destruct X; discriminate]|].
    split; [split; auto; intros _ (X & _); apply C in X; destruct X; discriminate|]. split; auto. split; [discriminate|]. split; auto. split; auto. intros; congruence. }
  destruct (isSome ca && (negb (isSome key) || negb (isSome cert))).
  { exists U_ERROR_PARAMS, s. split; auto. split; [split; [discriminate|intros (X & _); apply C in X; destruct X; discriminate]|].
    split; [split; auto; intros _ (X & _); apply C in X; destruct X; discriminate|]. split; auto. split; [discriminate|]. split; auto. split; auto. intros; congruence. }
  assert (CR : credentials key cert ca) by (apply C; auto). clear C.
  set (u := set_client_auth (s_inst s) (isSome ca)). cbv zeta. cbn [s_inst with_inst].
  destruct (validate_ok u es H) as (v & V & K & ST). change (startable u es) with (startable (s_inst s) es) in ST.
  rewrite V. unfold bind at 1. destruct K as [-> | ->].
  2:{ exists U_ERROR_PARAMS. eexists. split; [reflexivity|]. split; [split; [discriminate|intros (_ & X & _); apply ST in X; discriminate]|].
      split; [split; auto; intros _ (_ & X); apply ST in X; discriminate|]. split; auto. split; [discriminate|]. split; auto. split; auto. intros; congruence. }
  assert (SS : startable (s_inst s) es) by now apply ST.
  change (U_OK =? U_OK) with true. cbv iota.
  destruct (l_daemon (s_inst s)) as [h|] eqn:D.
  - assert (X : daemon_options u key cert ca = Ret None) by (unfold daemon_options, u; cbn [l_daemon set_client_auth]; now rewrite D).
    rewrite X. unfold bind at 1. exists U_ERROR_LIBMHD. eexists. split; [reflexivity|].
    split; [split; [discriminate|intros (_ & _ & Y & _); discriminate]|]. split; [split; [discriminate|intros Y; exfalso; auto]|].
    split; auto. split; [discriminate|]. split; auto. split; [discriminate|]. auto.
  - destruct (options_ok u key cert ca D CR (proj1 SS)) as (flags & ops & l & O & R & AS).
    rewrite O. unfold bind at 1. cbv iota beta. unfold mhd_start. cbn [s_inst s_live s_next with_inst]. rewrite R. unfold bind. destruct ok.
    + exists U_OK. eexists. split; [reflexivity|]. split; [split; auto|]. split; [split; [discriminate|intros Y; exfalso; auto]|].
      split; auto. split.
      * intros _. eexists. cbn [fst snd started with_inst s_live s_next s_inst set_daemon l_daemon l_status l_client_auth d_handle].
        split; [reflexivity|]. split; [reflexivity|]. split; [reflexivity|]. split; [reflexivity|]. split; [reflexivity|]. split.
        -- destruct (AS (s_next s)) as [A1 A2 A3 A4 A5 A6 A7 A8 A9 A10 A11]. split; assumption.
        -- unfold u. cbn [set_client_auth l_client_auth]. destruct ca; cbn; intuition congruence.
      * split; [congruence|]. split; [discriminate|]. congruence.
    + exists U_ERROR_LIBMHD. eexists. split; [reflexivity|]. split; [split; [discriminate|intros (_ & _ & _ & Y); discriminate]|].
      split; [split; [discriminate|intros Y; exfalso; auto]|]. split; auto. split; [discriminate|]. split; auto. split; [discriminate|]. auto.
Qed.

(** ** the invariant *)
Definition inv (s : system) : Prop :=
  (exists es, table_ok (l_endpoints (s_inst s)) es) /\
  NoDup (map d_handle (s_live s)) /\ Forall (fun d => d_handle d < s_next s) (s_live s) /\
  (forall h, l_daemon (s_inst s) = Some h -> In h (map d_handle (s_live s))) /\
  (l_status (s_inst s) = Running <-> l_daemon (s_inst s) <> None).
Lemma table_holds : forall u es, table_ok u es -> holds u es.
Proof.
  intros u es (_ & N & A). split; auto. intros arr E. rewrite E in A. eauto.
Qed.
Lemma read_ended : forall a b, ~ In End a -> read_options (map Some a ++ Some End :: b) = Ret a.
Proof.
  induction a as [|o a IH]; intros b N; [reflexivity|]. cbn [map app read_options].
  rewrite IH by (intros X; apply N; now right). destruct o; try reflexivity. exfalso. apply N. now left.
Qed.
Lemma nodup_snoc : forall (l : list daemon) d n, NoDup (map d_handle l) -> Forall (fun d => d_handle d < n) l -> d_handle d = n ->
  NoDup (map d_handle (l ++ [d])) /\ Forall (fun d => d_handle d < n + 1) (l ++ [d]).
Proof.
  intros l d n N F E. split.
  - rewrite map_app. apply NoDup_app_intro || idtac. clear - N F E. induction l as [|x l IH]; cbn.
    + constructor; [easy|constructor].
    + cbn in N. inversion N; subst. inversion F; subst. constructor; [|auto]. intros X. apply in_app_or in X. destruct X as [X|[X|[]]]; auto. lia.
  - apply Forall_app. split; [eapply Forall_impl; [|exact F]; cbn; intros; lia|]. constructor; [lia|constructor].
Qed.
Lemma existsb_handle : forall h l, existsb (fun d => d_handle d =? h) l = true <-> In h (map d_handle l).
Proof.
  intros h l. rewrite existsb_exists, in_map_iff. split; intros (d & A & B).
  - exists d. split; auto. now apply Z.eqb_eq.
  - exists d. split; auto. now apply Z.eqb_eq.
Qed.
Lemma nodup_filter : forall (f : daemon -> bool) l, NoDup (map d_handle l) -> NoDup (map d_handle (filter f l)).
Proof.
  induction l as [|d l IH]; intros N; [constructor|]. cbn in N. inversion N; subst. cbn. destruct (f d); auto.
  cbn. constructor; auto. intros X. apply H1. apply in_map_iff in X. destruct X as (x & <- & X). apply filter_In in X. apply in_map. tauto.
Qed.
Lemma eop_step_table : forall u es o, table_ok u es -> eop_ok o -> exists c u1 es1, eop_step u o = Ret (c, u1) /\ eop_means es o es1 /\ table_ok u1 es1.
Proof.
  intros u es o T K. destruct (eop_run_lemma [o] u es T) as (u' & es' & R & M & T'); [now constructor|].
  cbn [eop_run] in R. destruct (eop_step u o) as [[c u1]|] eqn:E; [|discriminate]. unfold bind in R. cbn [snd] in R. inversion R; subst u1.
  inversion M as [|? ? e1 ? ? M1 M2]; subst. inversion M2; subst. eauto 10.
Qed.
Lemma started_inv : forall d s s', inv s -> (d = None -> s' = s) ->
  (forall h, d = Some h -> exists x, s_live s' = s_live s ++ [x] /\ d_handle x = s_next s /\ h = s_next s /\ s_next s' = s_next s + 1 /\ s_inst s' = s_inst s) ->
  inv (snd (started d s')).
Proof.
  intros d s s' (T & N & F & D & R) A B. destruct d as [h|]; cbn [started snd].
  - destruct (B h eq_refl) as (x & L & H & E & NX & I). destruct (nodup_snoc _ x _ N F H) as (N' & F').
    unfold inv. cbn [s_inst s_live s_next with_inst set_daemon l_endpoints l_daemon l_status]. rewrite L, NX, I. split; auto. split; auto. split; auto. split.
    + intros h' X. inversion X; subst. rewrite map_app. apply in_or_app. right. rewrite <- H. now left.
    + intuition congruence.
  - rewrite (A eq_refl). unfold inv. cbn [s_inst s_live s_next with_inst set_daemon l_endpoints l_daemon l_status]. repeat (split; auto); try discriminate; congruence.
Qed.
Lemma inv_step : forall c s, inv s -> call_ok c -> exists r s', perform c s = Ret (r, s') /\ inv s'.
Proof.
  intros c s I K. pose proof I as I0. destruct I as ((es & T) & N & F & D & R). destruct c as [ok k ce ca|ok f [ops|]| |o]; cbn [perform].
  - destruct (start_lemma ok s k ce ca es (table_holds _ _ T)) as (r & s' & E & _ & _ & EP & OK & NOK & PA & LM).
    exists r, s'. split; auto. unfold inv. rewrite EP. split; eauto.
    destruct (Z.eq_dec r U_OK) as [X|X].
    + destruct (OK X) as (d & L & H & NX & DD & ST & _). destruct (nodup_snoc _ d _ N F H) as (N' & F').
      rewrite L, NX, DD, ST. split; auto. split; auto. split; [|intuition congruence].
      intros h Y. inversion Y; subst. rewrite map_app. apply in_or_app. right. now left.
    + destruct (NOK X) as (L & NX). rewrite L, NX. split; auto. split; auto.
      destruct (Z.eq_dec r U_ERROR_PARAMS) as [Y|Y].
      * destruct (PA Y) as (A & B). rewrite A, B. auto.
      * destruct (LM X Y) as (_ & A & B). rewrite A, B. split; [discriminate|]. intuition congruence.
  - destruct K as (a & b & -> & NE). unfold start_with_options, mhd_start. rewrite (read_ended a b NE). unfold bind at 1. unfold bind.
    eexists. eexists. split; [rewrite surjective_pairing at 1; reflexivity|]. apply started_inv with (s := s); auto.
    + destruct ok; [discriminate|]. reflexivity.
    + intros h X. destruct ok; [|discriminate]. cbn [fst] in X. inversion X; subst. cbn [snd s_live s_next s_inst]. eexists. repeat (split; [reflexivity|]). reflexivity.
  - do 2 eexists. split; [reflexivity|]. exact I0.
  - unfold stop. destruct (l_daemon (s_inst s)) as [h|] eqn:E.
    + pose proof (D h eq_refl) as X. apply existsb_handle in X. rewrite X. do 2 eexists. split; [reflexivity|].
      unfold inv. cbn [s_inst s_live s_next set_daemon l_endpoints l_daemon l_status]. split; eauto. split; [now apply nodup_filter|].
      split; [|split; [discriminate|intuition congruence]]. apply Forall_forall. intros d Y. apply filter_In in Y. rewrite Forall_forall in F. apply F. tauto.
    + do 2 eexists. split; [reflexivity|]. unfold inv. cbn [s_inst s_live s_next with_inst set_daemon l_endpoints l_daemon l_status]. split; eauto.
      split; auto. split; auto. split; [discriminate|intuition congruence].
  - destruct (eop_step_table _ _ o T K) as (c & u1 & es1 & E & _ & T1). unfold endpoints. rewrite E. unfold bind. cbn [fst snd].
    do 2 eexists. split; [reflexivity|]. unfold inv. cbn [s_inst s_live s_next with_inst set_endpoints l_endpoints l_daemon l_status]. split; eauto.
Qed.
Lemma inv_run : forall l s, inv s -> Forall call_ok l -> exists rs s', run l s = Ret (rs, s') /\ inv s'.
Proof.
  induction l as [|c l IH]; intros s I F; [eexists; eexists; split; [reflexivity|auto]|].
  inversion F; subst. destruct (inv_step c s I H1) as (r & s1 & E & I1). destruct (IH s1 I1 H2) as (rs & s' & E' & I').
  cbn [run]. rewrite E. unfold bind at 1. cbn [snd fst]. rewrite E'. unfold bind. cbn [fst snd]. eauto.
Qed.

(** ** legal programs *)
Definition exact (p : bool) (s : system) : Prop :=
  exists d, map d_handle (s_live s) = match d with Some h => [h] | None => [] end /\ l_daemon (s_inst s) = d /\ (d <> None <-> p = true).
Lemma exact_none : forall s, exact false s -> s_live s = [] /\ l_daemon (s_inst s) = None.
Proof.
  intros s (d & L & D & P). assert (d = None) by (destruct d; auto; exfalso; destruct P as [P _]; discriminate P; discriminate). subst d.
  split; auto. rewrite H in L. destruct (s_live s); [auto|discriminate].
Qed.
Lemma legal_run : forall p l rs q, legal p l rs q -> forall s s', inv s -> Forall call_ok l -> exact p s -> run l s = Ret (rs, s') -> inv s' /\ exact q s'.
Proof.
  assert (SPLIT : forall c l s r rs s', inv s -> Forall call_ok (c :: l) -> run (c :: l) s = Ret (r :: rs, s') ->
            exists s1, perform c s = Ret (r, s1) /\ inv s1 /\ Forall call_ok l /\ run l s1 = Ret (rs, s')).
  { intros c l s r rs s' I F E. inversion F; subst. destruct (inv_step c s I H1) as (r1 & s1 & E1 & I1).
    cbn [run] in E. rewrite E1 in E. unfold bind at 1 in E. cbn [fst snd] in E. destruct (run l s1) as [[rs1 s2]|] eqn:E2; [|discriminate].
    unfold bind in E. inversion E; subst. cbn [fst snd]. eauto 10. }
  induction 1 as [p|ok k c ca r q l rs q' Q L IH|ok f o r q l rs q' Q L IH|p r l rs q L IH|p o r l rs q L IH]; intros s s' I F X E.
  - inversion E; subst. auto.
  - destruct (SPLIT _ _ _ _ _ _ I F E) as (s1 & P & I1 & F1 & E1). apply (IH s1 s'); auto.
    destruct (exact_none s X) as (LV & D). pose proof I as ((es & T) & _).
    cbn [perform] in P. destruct (start_lemma ok s k c ca es (table_holds _ _ T)) as (r' & s1' & P' & _ & _ & _ & OK & NOK & PA & LM).
    rewrite P' in P. inversion P; subst r' s1'. destruct (Z.eq_dec r U_OK) as [Y|Y].
    + destruct (OK Y) as (d & A & B & _ & DD & _). exists (Some (d_handle d)). rewrite A, LV. split; auto. split; auto. split; [intros _; now apply Q|discriminate].
    + exists None. destruct (NOK Y) as (A & _). rewrite A, LV. split; auto. split.
      * destruct (Z.eq_dec r U_ERROR_PARAMS) as [W|W]; [destruct (PA W) as (-> & _); auto|destruct (LM Y W) as (_ & -> & _); auto].
      * split; [congruence|]. intros W. apply Q in W. congruence.
  - destruct (SPLIT _ _ _ _ _ _ I F E) as (s1 & P & I1 & F1 & E1). apply (IH s1 s'); auto.
    destruct (exact_none s X) as (LV & D). inversion F; subst. cbn [perform] in P. unfold start_with_options in P. destruct o as [ops|].
    + destruct H1 as (a & b & -> & NE). unfold mhd_start in P. rewrite (read_ended a b NE) in P. unfold bind at 1 in P. unfold bind in P.
      destruct ok; cbn [fst snd started] in P; inversion P; subst; unfold exact; cbn [with_inst s_live s_inst set_daemon l_daemon]; rewrite LV.
      * exists (Some (s_next s)). split; [reflexivity|]. split; [reflexivity|]. split; [intros _; now apply Q|discriminate].
      * exists None. split; auto. split; auto. split; [congruence|]. intros W. apply Q in W. discriminate.
    + inversion P; subst. exists None. rewrite LV. split; auto. split; auto. split; [congruence|]. intros W. apply Q in W. discriminate.
  - destruct (SPLIT _ _ _ _ _ _ I F E) as (s1 & P & I1 & F1 & E1). apply (IH s1 s'); auto.
    cbn [perform] in P. unfold stop in P. destruct X as (d & LV & D & _). rewrite D in P. destruct d as [h|].
    + destruct (existsb (fun d => d_handle d =? h) (s_live s)); [|discriminate]. inversion P; subst. unfold exact. cbn [s_live s_inst set_daemon l_daemon].
      exists None. split; [|split; [auto|intuition congruence]]. destruct (s_live s) as [|x [|y z]]; try discriminate. cbn in LV. inversion LV; subst.
      cbn. now rewrite Z.eqb_refl.
    + inversion P; subst. unfold exact. cbn [with_inst s_live s_inst set_daemon l_daemon]. exists None. split; auto. split; auto. intuition congruence.
  - destruct (SPLIT _ _ _ _ _ _ I F E) as (s1 & P & I1 & F1 & E1). apply (IH s1 s'); auto.
    cbn [perform] in P. unfold endpoints in P. destruct (eop_step (l_endpoints (s_inst s)) o); [|discriminate]. unfold bind in P. inversion P; subst. exact X.
Qed.

(** ** a daemon whose handle is lost *)
Lemma lost_step : forall c s r s' d, In d (s_live s) -> l_daemon (s_inst s) <> Some (d_handle d) -> d_handle d < s_next s ->
  perform c s = Ret (r, s') -> In d (s_live s') /\ l_daemon (s_inst s') <> Some (d_handle d) /\ d_handle d < s_next s'.
Proof.
  assert (M : forall ok s port f ops x, mhd_start ok s port f ops = Ret x -> s_inst (snd x) = s_inst s /\
     ((fst x = None /\ snd x = s) \/ (fst x = Some (s_next s) /\ s_next (snd x) = s_next s + 1 /\ exists y, s_live (snd x) = s_live s ++ [y]))).
  { intros ok s port f ops x E. unfold mhd_start in E. destruct (read_options ops); [|discriminate]. unfold bind in E. destruct ok; inversion E; subst; cbn [fst snd s_inst s_next s_live].
    - split; auto. right. eauto.
    - auto. }
  assert (ST : forall d dd s x, In d (s_live s) -> d_handle d < s_next s ->
     (s_inst (snd x) = dd) -> ((fst x = None /\ snd x = s) \/ (fst x = Some (s_next s) /\ s_next (snd x) = s_next s + 1 /\ exists y, s_live (snd x) = s_live s ++ [y])) ->
     let s' := snd (started (fst x) (snd x)) in In d (s_live s') /\ l_daemon (s_inst s') <> Some (d_handle d) /\ d_handle d < s_next s').
  { intros d dd s x I H _ [(A & B)|(A & B & y & C)]; cbv zeta; rewrite A; cbn [started snd with_inst s_live s_inst s_next set_daemon l_daemon].
    - rewrite B. split; auto. split; [discriminate|auto].
    - rewrite B, C. split; [apply in_or_app; auto|]. split; [intros X; inversion X; lia|lia]. }
  intros c s r s' d I N H E. destruct c as [ok k ce ca|ok f [ops|]| |o]; cbn [perform] in E.
  - unfold start in E. destruct (xorb _ _); [inversion E; subst; auto|]. destruct (isSome ca && _); [inversion E; subst; auto|]. cbv zeta in E.
    destruct (validate_instance _) as [v|]; [|discriminate]. unfold bind at 1 in E. destruct (v =? U_OK); [|inversion E; subst; auto].
    destruct (daemon_options _ k ce ca) as [[[f ops]|]|]; [| |discriminate]; unfold bind at 1 in E; cbv beta iota in E.
    + destruct (mhd_start _ _ _ _ _) as [x|] eqn:MS; [|discriminate]. unfold bind in E. destruct (M _ _ _ _ _ _ MS) as (A & B).
      assert (s' = snd (started (fst x) (snd x))) by (inversion E as [EE]; now rewrite EE). subst s'. exact (ST d _ (with_inst s (set_client_auth (s_inst s) (isSome ca))) x I H A B).
    + inversion E; subst. cbn [with_inst s_live s_inst s_next set_daemon l_daemon]. split; auto. split; [discriminate|auto].
  - unfold start_with_options in E. destruct (mhd_start _ _ _ _ _) as [x|] eqn:MS; [|discriminate]. unfold bind in E. destruct (M _ _ _ _ _ _ MS) as (A & B).
    assert (s' = snd (started (fst x) (snd x))) by (inversion E as [EE]; now rewrite EE). subst s'. exact (ST d _ _ x I H A B).
  - inversion E; subst; auto.
  - unfold stop in E. destruct (l_daemon (s_inst s)) as [h|].
    + destruct (existsb _ _); [|discriminate]. inversion E; subst. cbn [s_live s_inst s_next set_daemon l_daemon]. split; [|split; [discriminate|auto]].
      apply filter_In. split; auto. apply negb_true_iff. apply Z.eqb_neq. congruence.
    + inversion E; subst. cbn [with_inst s_live s_inst s_next set_daemon l_daemon]. split; [exact I|split; [discriminate|exact H]].
  - unfold endpoints in E. destruct (eop_step _ o); [|discriminate]. unfold bind in E. inversion E; subst. auto.
Qed.
Lemma lost_run : forall l s rs s' d, In d (s_live s) -> l_daemon (s_inst s) <> Some (d_handle d) -> d_handle d < s_next s ->
  run l s = Ret (rs, s') -> In d (s_live s') /\ l_daemon (s_inst s') <> Some (d_handle d).
Proof.
  induction l as [|c l IH]; intros s rs s' d I N H E; [inversion E; subst; auto|]. cbn [run] in E.
  destruct (perform c s) as [[r s1]|] eqn:P; [|discriminate]. destruct (lost_step c s r s1 d I N H P) as (I1 & N1 & H1).
  unfold bind at 1 in E. cbn [fst snd] in E. destruct (run l s1) as [[rs1 s2]|] eqn:R; [|discriminate]. unfold bind in E. inversion E; subst. eauto.
Qed.

(** ** the trust in the clients' certificates *)
Definition trusting (s : system) : Prop :=
  forall d, In d (s_live s) -> l_daemon (s_inst s) = Some (d_handle d) -> (l_client_auth (s_inst s) = true <-> exists t, In (MemTrust t) (d_options d)).
Lemma trust_run : forall p l rs q, legal p l rs q -> forall s s', Forall plain l -> inv s -> Forall call_ok l -> exact p s -> trusting s -> run l s = Ret (rs, s') -> trusting s'.
Proof.
  induction 1 as [p|ok k c ca r q l rs q' Q L IH|ok f o r q l rs q' Q L IH|p r l rs q L IH|p o r l rs q L IH]; intros s s' PL I F X T E.
  - inversion E; subst. auto.
  - assert (LG : legal false [Start ok k c ca] [r] q) by (econstructor; [exact Q|constructor]).
    inversion F; subst. inversion PL; subst. destruct (inv_step _ s I H1) as (r1 & s1 & P & I1).
    cbn [run] in E. rewrite P in E. unfold bind at 1 in E. cbn [fst snd] in E. destruct (run l s1) as [[rs1 s2]|] eqn:R; [|discriminate]. unfold bind in E. inversion E; subst. cbn [fst snd] in *.
    assert (R1 : run [Start ok k c ca] s = Ret ([r], s1)) by (cbn [run]; rewrite P; reflexivity).
    destruct (legal_run _ _ _ _ LG s s1 I ltac:(now constructor) X R1) as (_ & X1). apply (IH s1 s'); auto.
    destruct (exact_none s X) as (LV & D). pose proof I as ((es & TB) & _).
    cbn [perform] in P. destruct (start_lemma ok s k c ca es (table_holds _ _ TB)) as (r' & s1' & P' & _ & _ & _ & OK & NOK & _).
    rewrite P' in P. inversion P; subst r' s1'. intros d Y Z0. destruct (Z.eq_dec r U_OK) as [W|W].
    + destruct (OK W) as (d' & A & B & _ & DD & _ & AS & AU). rewrite A, LV in Y. destruct Y as [<-|[]]. rewrite AU. split.
      * intros CN. destruct ca as [t|]; [|congruence]. exists t. now apply (asked_trust _ _ _ _ _ AS).
      * intros (t & TI). apply (asked_trust _ _ _ _ _ AS) in TI. congruence.
    + destruct (NOK W) as (A & _). rewrite A, LV in Y. destruct Y.
  - inversion PL; subst. contradiction.
  - assert (LG : legal p [Stop] [r] false) by (econstructor; constructor).
    inversion F; subst. inversion PL; subst. destruct (inv_step _ s I H1) as (r1 & s1 & P & I1).
    cbn [run] in E. rewrite P in E. unfold bind at 1 in E. cbn [fst snd] in E. destruct (run l s1) as [[rs1 s2]|] eqn:R; [|discriminate]. unfold bind in E. inversion E; subst. cbn [fst snd] in *.
    assert (R1 : run [Stop] s = Ret ([r], s1)) by (cbn [run]; rewrite P; reflexivity).
    destruct (legal_run _ _ _ _ LG s s1 I ltac:(now constructor) X R1) as (_ & X1). apply (IH s1 s'); auto.
    destruct (exact_none s1 X1) as (LV & _). intros d Y. rewrite LV in Y. destruct Y.
  - inversion F; subst. inversion PL; subst. destruct (inv_step _ s I H1) as (r1 & s1 & P & I1).
    cbn [run] in E. rewrite P in E. unfold bind at 1 in E. cbn [fst snd] in E. destruct (run l s1) as [[rs1 s2]|] eqn:R; [|discriminate]. unfold bind in E. inversion E; subst. cbn [fst snd] in *.
    cbn [perform] in P. unfold endpoints in P. destruct (eop_step (l_endpoints (s_inst s)) o); [|discriminate]. unfold bind in P. inversion P; subst.
    refine (IH _ _ H4 I1 H2 _ _ R); [exact X|exact T].
Qed.

Lemma init_fields : forall port bind u, init port bind = Some u ->
  1 <= port <= 65535 /\ l_port u = port /\ l_bind4 u = bind /\ l_bind6 u = None /\ bit (l_network u) 0 = true /\ bit (l_network u) 4 = false /\ l_timeout u = 0 /\
  l_endpoints u = init_instance /\ l_daemon u = None /\ l_status u = Stopped.
Proof.
  intros port bind u E. unfold init, init_internal in E. destruct ((0 <? port) && (port <? 65536)) eqn:P; [|cbn in E; discriminate].
  apply andb_true_iff in P. destruct P as (P1 & P2). apply Z.ltb_lt in P1, P2.
  destruct bind; cbn in E; inversion E; subst; cbn; (split; [lia|]); repeat (split; [reflexivity|]); reflexivity.
Qed.
Lemma init_ipv6_fields : forall port bind network u, init_ipv6 port bind network = Some u ->
  1 <= port <= 65535 /\ bit network 4 = true /\ l_port u = port /\ l_bind4 u = None /\ l_bind6 u = bind /\
  bit (l_network u) 4 = true /\ (bit (l_network u) 0 = true <-> bind = None /\ bit network 0 = true) /\ l_timeout u = 0 /\
  l_endpoints u = init_instance /\ l_daemon u = None /\ l_status u = Stopped.
Proof.
  intros port bind network u E. unfold init_ipv6, init_internal in E. destruct (bit network 4) eqn:B; [|discriminate].
  destruct ((0 <? port) && (port <? 65536)) eqn:P; [|cbn in E; discriminate].
  apply andb_true_iff in P. destruct P as (P1 & P2). apply Z.ltb_lt in P1, P2.
  destruct bind as [b|]; cbn [isSome negb orb andb] in E.
  - inversion E; subst. cbn [l_port l_bind4 l_bind6 l_network l_timeout]. split; [lia|]. repeat (split; [reflexivity|]). split; [split; [discriminate|intros (X & _); discriminate]|].
    repeat (split; [reflexivity|]). reflexivity.
  - rewrite B, orb_true_r in E. inversion E; subst. cbn [l_port l_bind4 l_bind6 l_network l_timeout]. split; [lia|]. repeat (split; [reflexivity|]). split; [exact B|]. split; [tauto|].
    repeat (split; [reflexivity|]). reflexivity.
Qed.
Lemma initialised_inv : forall u, initialised u -> inv (fresh u) /\ exact false (fresh u).
Proof.
  intros u (u' & n & -> & H).
  assert (G : l_endpoints u' = init_instance /\ l_daemon u' = None /\ l_status u' = Stopped).
  { destruct H as [(p & b & H)|(p & b & w & H)]; [apply init_fields in H|apply init_ipv6_fields in H]; tauto. }
  destruct G as (G1 & G2 & G3). split.
  - unfold inv, fresh. cbn [s_inst s_live s_next with_timeout l_endpoints l_daemon l_status]. rewrite G1, G2, G3. cbn. split; [exists []; repeat split; constructor|]. split; [constructor|]. split; [constructor|].
    split; [intros; discriminate|]. intuition congruence.
  - exists None. cbn. rewrite G2. intuition congruence.
Qed.
