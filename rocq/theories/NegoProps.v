(** C41, C42, C43, C59: the websocket handshake. *)
From Coq Require Import String ZArith Bool List Lia Permutation.
From Verif Require Import Base BaseFacts UMapModel UMapSpec SMap RouterModel CookieModel DispatchModel StrModel Utf8Model NegoModel NegoSpec StrProofs NegoProofs.
Import ListNotations.
Open Scope Z_scope.

(** C41. The result of ulfius_check_list_match is the list of the client's values that the server has too, in the
    client's order; it fails iff there is none. A NULL list puts no condition. *)
Theorem C41_list_match : forall source mtch sep,
  match source, mtch with
  | Some s, Some m =>
      exists l r, items sep s l /\ common (value_of sep m) l r /\
        check_list_match source mtch sep = match r with [] => (U_ERROR, None) | _ => (U_OK, Some (join [sep] r)) end
  | _, _ => check_list_match source mtch sep = (U_OK, None)
  end.
Proof.
  intros [s|] [m|] sep; try reflexivity. exists (split_string sep s).
  destruct (list_loop_ok sep m (split_string sep s) []) as (r & C & E). exists r. split; [apply split_items|]. split; [exact C|].
  cbn [opt_join app] in E. unfold check_list_match. rewrite E. destruct r; reflexivity.
Qed.
Print Assumptions C41_list_match.

(** the same as sets: the values of the result are the values of both lists *)
Theorem C41_values : forall s m sep r, isspace sep = false -> check_list_match (Some s) (Some m) sep = (U_OK, Some r) ->
  forall v, value_of sep r v <-> value_of sep s v /\ value_of sep m v.
Proof.
  intros s m sep r SP H v. destruct (C41_list_match (Some s) (Some m) sep) as (l & q & I & C & E). rewrite H in E.
  destruct q as [|q0 q]; [discriminate|]. injection E as ->. pose proof (common_in _ _ _ C) as IN.
  assert (IT : items sep (join [sep] (q0 :: q)) (q0 :: q)).
  { split; [discriminate|]. split; [|reflexivity]. apply Forall_forall. intros x J. apply IN in J as [(y & Y & T) _].
    apply trimmed_trim in T. subst x. intros K. apply trim_incl in K. destruct I as (_ & F & _). rewrite Forall_forall in F. exact (F y Y K). }
  apply items_split in IT. apply items_split in I. subst l.
  rewrite (value_of_iff sep (join [sep] (q0 :: q))), <- IT. rewrite (value_of_iff sep s). split.
  - intros (x & J & ->). apply IN in J as [(y & Y & T) M]. apply trimmed_trim in T. subst x. rewrite trim_idem. split; eauto.
  - intros [(y & Y & ->) M]. exists (trim y). rewrite trim_idem. split; auto. apply IN. split; auto. exists y. split; auto. apply trim_trimmed.
Qed.
Print Assumptions C41_values.

(** ulfius_check_first_match: the client's first value that the server has; fails iff there is none. A
    NULL server list accepts everything. *)
Theorem C41_first_match : forall source mtch sep,
  match source, mtch with
  | Some s, Some m =>
      exists l r, items sep s l /\ common (value_of sep m) l r /\
        check_first_match source mtch sep = match r with [] => (U_ERROR, None) | v :: _ => (U_OK, Some v) end
  | Some s, None => exists x l t, items sep s (x :: l) /\ trimmed x t /\ check_first_match source mtch sep = (U_OK, Some t)
  | None, Some _ => check_first_match source mtch sep = (U_ERROR, None)
  | None, None => check_first_match source mtch sep = (U_OK, None)
  end.
Proof.
  intros [s|] [m|] sep; try reflexivity.
  - exists (split_string sep s). destruct (first_loop_ok sep m (split_string sep s)) as (r & C & E). exists r.
    split; [apply split_items|]. split; [exact C|]. unfold check_first_match. rewrite E. destruct r; reflexivity.
  - unfold check_first_match. pose proof (split_items sep s) as I. destruct (split_string sep s) as [|x l]; [now destruct I|].
    exists x, l, (trim x). split; [exact I|]. split; [apply trim_trimmed|reflexivity].
Qed.
Print Assumptions C41_first_match.

Example C41_example :
  check_list_match (Some (bs "chat , v2,, soap")) (Some (bs " soap,chat")) 44 = (U_OK, Some (bs "chat,soap")) /\
  check_first_match (Some (bs " x, chat ,soap")) (Some (bs "soap,chat")) 44 = (U_OK, Some (bs "chat")) /\
  check_first_match (Some (bs "x")) (Some (bs "soap,chat")) 44 = (U_ERROR, None).
Proof. vm_compute. auto. Qed.

(** C42 *)
Lemma header_caseval : forall d name, header d name = caseval d name.
Proof.
  intros d name. unfold caseval. induction d as [|[k o] d IH]; [reflexivity|]. cbn [header find fst].
  destruct (str_caseeqb k name); [destruct o; reflexivity|exact IH].
Qed.

Lemma common_empty : forall m l r, common m l r -> (r <> [] <-> exists x t, In x l /\ trimmed x t /\ m t).
Proof.
  intros m l r C. pose proof (common_in _ _ _ C) as IN. split.
  - intros N. destruct r as [|v r]; [congruence|]. destruct (proj1 (IN v) (or_introl eq_refl)) as [(x & I & T) M]. eauto.
  - intros (x & t & I & T & M) ->. apply (proj2 (IN t)). split; eauto.
Qed.

Lemma shares_common : forall s m l r, items comma s l -> common (value_of comma m) l r -> (r <> [] <-> shares s m).
Proof.
  intros s m l r I C. rewrite (common_empty _ _ _ C). split.
  - intros (x & t & J & T & M). exists t. split; [exists l, x; auto|exact M].
  - intros (t & (l' & x & I' & J & T) & M). apply items_split in I, I'. subst l l'. eauto.
Qed.

Section Server.
Variables (server_match : nat -> Z -> option str -> str -> list str -> Z * option str) (digest : str -> option str).
(** match functions that accept set a name *)
Hypothesis names : forall n f o t l c, server_match n f o t l = (U_OK, c) -> c <> None.
Variables (m : umap) (d : smap) (protocol verb : option str) (h : whandle).
Hypothesis R : repr m d.

Lemma shas_in : forall k, shas d k = true <-> In k (map fst d).
Proof.
  intros k. unfold shas. rewrite existsb_exists, in_map_iff. split; intros (p & A & B); exists p.
  - apply str_eqb_eq in B. auto.
  - subst k. split; auto. apply str_eqb_eq. reflexivity.
Qed.

Lemma negotiate_ok : exists ret ext exts rsv, negotiate server_match m h = Ret (ret, ext, exts, rsv) /\ (ret = U_OK \/ ret = U_ERROR) /\
  (ret = U_OK <-> extensions_agreed d h).
Proof.
  unfold negotiate. rewrite (repr_has m d _ R), (repr_get_case m d _ R). unfold bind at 1 2.
  unfold extensions_agreed. rewrite header_caseval.
  assert (NE : negb (zlen (h_list h) =? 0) = true <-> h_list h <> []).
  { destruct (h_list h) as [|e l]; [split; [discriminate|congruence]|]. split; [discriminate|]. intros _. apply negb_true_iff, Z.eqb_neq.
    unfold zlen. cbn [length]. lia. }
  destruct (shas d (bs "Sec-WebSocket-Extensions") && negb (zlen (h_list h) =? 0)) eqn:B.
  - apply andb_true_iff in B as [B1 B2]. apply shas_in in B1. apply NE in B2.
    destruct (caseval d (bs "Sec-WebSocket-Extensions")) as [o|].
    + assert (G : forall offer before exts calls rsv nm, exists n, offer_loop server_match before offer exts calls rsv nm = Ret n).
      { induction offer as [|x offer IH]; intros; [eexists; reflexivity|]. cbn [offer_loop].
        destruct (ext_loop_ok server_match names before offer exts x calls rsv nm) as (n & E & _). rewrite E. cbn [bind]. apply IH. }
      destruct (G (split_string comma o) [] (h_list h) 0%nat (h_rsv h) None) as (n & E). rewrite E. cbn [bind].
      do 4 eexists. split; [reflexivity|]. split; auto. split; auto.
    + do 4 eexists. split; [reflexivity|]. split; auto. split; auto.
  - assert (NB : ~ (In (bs "Sec-WebSocket-Extensions") (map fst d) /\ h_list h <> [])).
    { rewrite <- shas_in, <- NE. intros [X Y]. rewrite X, Y in B. discriminate. }
    pose proof (C41_list_match (caseval d (bs "Sec-WebSocket-Extensions")) (h_extensions h) comma) as C.
    destruct (caseval d (bs "Sec-WebSocket-Extensions")) as [o|], (h_extensions h) as [e|].
    + destruct C as (l & r & I & C & E). pose proof (shares_common _ _ _ _ I C) as SH. rewrite E. destruct r as [|v r].
      * do 4 eexists. split; [reflexivity|]. split; auto. split; [discriminate|]. intros [X|X]; [contradiction|].
        exfalso. apply (proj2 SH); [exact (X o e eq_refl eq_refl)|reflexivity].
      * do 4 eexists. split; [reflexivity|]. split; auto. split; auto. intros _. right. intros ? ? [= <-] [= <-]. apply SH. discriminate.
    + rewrite C. do 4 eexists. split; [reflexivity|]. split; auto. split; auto. intros _. right. discriminate.
    + rewrite C. do 4 eexists. split; [reflexivity|]. split; auto. split; auto. intros _. right. discriminate.
    + rewrite C. do 4 eexists. split; [reflexivity|]. split; auto. split; auto. intros _. right. discriminate.
Qed.

Lemma missing_ok : exists t, missing_text m protocol verb = Ret t.
Proof. unfold missing_text. rewrite !(repr_get_case m d _ R). unfold bind. eexists. reflexivity. Qed.

(** C42. The handshake succeeds exactly for valid requests that agree with the server on protocol and
    extensions; everything else is answered 400 (500 only when GnuTLS cannot compute the digest). *)
Theorem C42_upgrade_iff : exists r, server_handshake server_match digest m protocol verb h = Ret r /\
  match r with
  | inl (hs, exts, rsv) => exists key accept more, valid_request d protocol verb key /\ protocol_agreed d h /\ extensions_agreed d h /\
      digest (key ++ bs "258EAFA5-E914-47DA-95CA-C5AB0DC85B11") = Some accept /\
      hs = (bs "Upgrade", bs "websocket") :: (bs "Sec-WebSocket-Accept", accept) :: more /\
      Forall (fun p => fst p = bs "Sec-WebSocket-Protocol" \/ fst p = bs "Sec-WebSocket-Extensions") more
  | inr (status, text) =>
      (status = 400 /\ ~ ((exists key, valid_request d protocol verb key) /\ protocol_agreed d h /\ extensions_agreed d h)) \/
      (status = 500 /\ exists t, digest t = None)
  end.
Proof.
  unfold server_handshake. destruct (valid_upgrade_ok m d protocol verb R) as (ok & E & V). rewrite E. cbn [bind]. destruct ok.
  - destruct (proj1 V eq_refl) as (key & VR). destruct negotiate_ok as (ret & ext & exts & rsv & EN & RO & RI). rewrite EN. cbn [bind].
    rewrite !(repr_get_case m d _ R). cbn [bind].
    assert (PA : exists rp p, check_first_match (caseval d (bs "Sec-WebSocket-Protocol")) (h_protocol h) comma = (rp, p) /\ (rp = U_OK \/ rp = U_ERROR) /\
      (rp = U_OK <-> protocol_agreed d h)).
    { unfold protocol_agreed. rewrite header_caseval.
      pose proof (C41_first_match (caseval d (bs "Sec-WebSocket-Protocol")) (h_protocol h) comma) as C.
      destruct (caseval d (bs "Sec-WebSocket-Protocol")) as [o|], (h_protocol h) as [e|].
      - destruct C as (l & r & I & C & EC). pose proof (shares_common _ _ _ _ I C) as SH. rewrite EC. destruct r as [|v r].
        + do 2 eexists. split; [reflexivity|]. split; auto. split; [discriminate|]. intros X.
          destruct (X e eq_refl) as (o' & [= <-] & S). exfalso. apply (proj2 SH S). reflexivity.
        + do 2 eexists. split; [reflexivity|]. split; auto. split; auto. intros _ ? [= <-]. exists o. split; auto. apply SH. discriminate.
      - destruct C as (x & l & t & _ & _ & ->). do 2 eexists. split; [reflexivity|]. split; auto. split; auto. intros _. discriminate.
      - rewrite C. do 2 eexists. split; [reflexivity|]. split; auto. split; [discriminate|]. intros X. destruct (X e eq_refl) as (o' & Y & _). discriminate.
      - rewrite C. do 2 eexists. split; [reflexivity|]. split; auto. split; auto. intros _. discriminate. }
    destruct PA as (rp & p & EP & RPO & RPI). rewrite EP.
    destruct RO as [->| ->].
    + cbn [U_OK Z.eqb andb]. change (U_OK =? U_OK) with true. cbv iota. cbn [andb]. destruct RPO as [->| ->].
      * change (U_OK =? U_OK) with true. cbv iota. rewrite (valid_key _ _ _ _ VR). cbn [bind]. unfold generate_handshake_answer, magic.
        destruct (digest (key ++ bs "258EAFA5-E914-47DA-95CA-C5AB0DC85B11")) as [accept|] eqn:DG.
        -- eexists. split; [reflexivity|]. cbv beta iota. exists key, accept. eexists. split; [exact VR|]. split; [tauto|]. split; [tauto|]. split; [exact DG|].
           split; [cbn [app]; reflexivity|]. cbv beta. apply Forall_app. split.
           ++ destruct p; repeat constructor.
           ++ destruct ext as [[|? ?]|]; [constructor| |constructor]. constructor; [now right|constructor].
        -- eexists. split; [reflexivity|]. cbv beta iota. right. eauto.
      * change (U_ERROR =? U_OK) with false. cbv iota. eexists. split; [reflexivity|]. cbv beta iota. left. split; auto.
        intros (_ & X & _). apply RPI in X. discriminate.
    + change (U_ERROR =? U_OK) with false. cbv iota. cbn [andb]. eexists. split; [reflexivity|]. cbv beta iota. left. split; auto.
      intros (_ & _ & X). apply RI in X. discriminate.
  - destruct missing_ok as (t & ->). cbn [bind]. eexists. split; [reflexivity|]. cbv beta iota. left. split; auto.
    intros (X & _). apply V in X. discriminate.
Qed.
End Server.
Print Assumptions C42_upgrade_iff.

(** The dispatcher: an answer that upgrades the connection is only queued if the handshake succeeded, whatever the
    callbacks do. *)
Section Dispatcher.
Variables (W : Type) (tl : Z -> Z) (qsort : list endpoint -> list endpoint)
  (cb : Z -> Z -> Z -> umap -> response -> W -> Z * response * W) (accepts : str -> str -> bool)
  (handshake : Z -> list (str * str) + (Z * list Z)).
Variables (dflt : option endpoint) (dheaders : option umap) (realm : option str) (check : bool)
  (url : str) (initial : umap) (method : str) (table : option (list (option endpoint))) (map_url : umap) (w : W).

Definition the_dispatch :=
  dispatch W tl qsort cb accepts handshake dflt dheaders realm check url initial method table map_url w.

Definition safe (s : st W) : Prop := forall hd hs, s_mhd W s = Some (mk_mhd (CUpgrade hd) hs) -> exists up, handshake hd = inl up.

Lemma safe_other : forall s r c hs up inner rl, (forall hd, c <> CUpgrade hd) -> safe (with_mhd W s r (mk_mhd c hs) up inner rl).
Proof. intros s r c hs up inner rl N hd hs' H. cbn in H. injection H as H _. exfalso. exact (N hd H). Qed.

Lemma complete_safe : forall s s', complete_answer W accepts s = Ret s' -> safe s'.
Proof.
  intros s s' H. unfold complete_answer in H. destruct (set_headers _ _ _) as [x|]; [|discriminate]. cbn [bind] in H. injection H as <-.
  apply safe_other. discriminate.
Qed.
Lemma unauthorized_safe : forall s s', unauthorized_answer W accepts realm s = Ret s' -> safe s'.
Proof.
  intros s s' H. unfold unauthorized_answer in H. cbv zeta in H. destruct (set_headers _ _ _) as [x|]; [|discriminate]. cbn [bind] in H. injection H as <-.
  destruct (fst x); apply safe_other; discriminate.
Qed.
Lemma error_safe : forall s, safe (error_answer W s).
Proof. intros s. apply safe_other. discriminate. Qed.

Lemma loop_safe : forall l s s', s_mhd W s = None -> callback_loop W tl cb accepts handshake realm check url initial l s = Ret s' -> safe s'.
Proof.
  induction l as [|e l IH]; intros s s' N H.
  - cbn in H. injection H as <-. intros hd hs E. congruence.
  - cbn [callback_loop] in H. destruct (prepare_map_url _ _ _ _ _ _) as [p|]; [|discriminate]. cbn [bind] in H.
    destruct (run_callback W cb s e (snd p) true) as [[ret s1]|] eqn:RC; [|discriminate]. cbn [bind] in H.
    assert (N1 : s_mhd W s1 = None).
    { unfold run_callback in RC. destruct (callback e); [|discriminate]. destruct (cb _ _ _ _ _ _) as [[a b] c]. injection RC as _ <-. exact N. }
    destruct (r_stream (s_resp W s1)) as [x|].
    { unfold stream_answer in H. destruct (set_headers _ _ _) as [y|]; [|discriminate]. cbn [bind] in H. injection H as <-. apply safe_other. discriminate. }
    destruct (r_ws (s_resp W s1)) as [hd|].
    { unfold ws_answer in H. destruct (handshake hd) as [hs|[status text]] eqn:HK.
      - destruct (set_headers _ _ _) as [y|]; [|discriminate]. cbn [bind] in H. injection H as <-. intros hd' hs' E. cbn in E. injection E as <- _. eauto.
      - injection H as <-. apply safe_other. discriminate. }
    cbv zeta in H. set (ret1 := if _ && _ then _ else _) in H.
    destruct ((ret1 =? U_CALLBACK_CONTINUE) || (ret1 =? U_CALLBACK_IGNORE)); [exact (IH _ _ N1 H)|].
    destruct (ret1 =? U_CALLBACK_COMPLETE); [exact (complete_safe _ _ H)|].
    destruct (ret1 =? U_CALLBACK_UNAUTHORIZED); [exact (unauthorized_safe _ _ H)|]. injection H as <-. apply error_safe.
Qed.

Lemma default_safe : forall s s', safe s -> default_step W cb accepts dflt realm s = Ret s' -> safe s'.
Proof.
  intros s s' S H. unfold default_step in H. destruct (the_default dflt) as [e|]; [|injection H as <-; exact S].
  destruct (s_pos W s =? 0); [|injection H as <-; exact S]. cbv zeta in H.
  destruct (run_callback W cb _ e _ false) as [[ret s1]|] eqn:RC; [|discriminate]. cbn [bind] in H.
  assert (N1 : s_mhd W s1 = None).
  { unfold run_callback in RC. destruct (callback e); [|discriminate]. destruct (cb _ _ _ _ _ _) as [[a b] c]. injection RC as _ <-. reflexivity. }
  destruct (ret =? U_CALLBACK_UNAUTHORIZED); [exact (unauthorized_safe _ _ H)|].
  destruct (ret =? U_CALLBACK_ERROR); [injection H as <-; apply error_safe|].
  destruct ((ret =? U_CALLBACK_CONTINUE) || (ret =? U_CALLBACK_IGNORE) || (ret =? U_CALLBACK_COMPLETE)); [exact (complete_safe _ _ H)|].
  injection H as <-. intros hd hs E. congruence.
Qed.

Definition upgrades (a : answer) (hd : Z) : Prop :=
  match a with Queue _ m => c_content m = CUpgrade hd | QueueBasic _ m => c_content m = CUpgrade hd end.

Lemma dispatch_upgrades : forall res a hd, the_dispatch = Ret res -> In a (answers res) -> upgrades a hd -> exists up, handshake hd = inl up.
Proof.
  intros res a hd D I U. unfold the_dispatch, dispatch in D. destruct (endpoint_match _ _ _ _) as [l0|]; [|discriminate]. cbn [bind] in D. cbv zeta in D.
  set (l := match l0 with [] => _ | _ => l0 end) in D. destruct l as [|e l'].
  - injection D as <-. destruct I as [<-|[]]. discriminate U.
  - destruct (first_response dheaders) as [r|]; [|discriminate]. cbn [bind] in D.
    destruct (callback_loop _ _ _ _ _ _ _ _ _ _ _) as [s|] eqn:L; [|discriminate]. cbn [bind] in D.
    destruct (default_step _ _ _ _ _ s) as [s1|] eqn:DF; [|discriminate]. cbn [bind] in D. injection D as <-. cbn [answers] in I.
    assert (S : safe s1) by (eapply default_safe; [eapply loop_safe; [|exact L]; reflexivity|exact DF]).
    unfold queue_answer in I. destruct (s_mhd W s1) as [[c hs]|] eqn:M; [|destruct I]. destruct I as [<-|[]].
    assert (c = CUpgrade hd).
    { destruct (s_inner W s1 =? U_CALLBACK_UNAUTHORIZED); [destruct (s_realm W s1); exact U|]. destruct (s_upgrade W s1); exact U. }
    subst c. eapply S. exact M.
Qed.

(** when the last callback asked for a websocket and the handshake failed, the answer is the error *)
Lemma run_trace : forall s e mp cnt ret s1, run_callback W cb s e mp cnt = Ret (ret, s1) -> exists ev,
  s_trace W s1 = s_trace W s ++ [ev] /\ ev_resp ev = s_resp W s1 /\ s_inner W s1 = s_inner W s /\ s_upgrade W s1 = s_upgrade W s.
Proof.
  intros s e mp cnt ret s1 H. unfold run_callback in H. destruct (callback e); [|discriminate]. destruct (cb _ _ _ _ _ _) as [[a b] c].
  injection H as _ <-. eexists. repeat split.
Qed.

Lemma loop_refused : forall l s s' evs last hd status text, s_inner W s = 0 -> s_upgrade W s = false -> l <> [] ->
  callback_loop W tl cb accepts handshake realm check url initial l s = Ret s' ->
  s_trace W s' = evs ++ [last] -> r_stream (ev_resp last) = None -> r_ws (ev_resp last) = Some hd -> handshake hd = inr (status, text) ->
  s_mhd W s' = Some (mk_mhd (CBuffer text) []) /\ r_status (s_resp W s') = status /\ s_inner W s' = 0 /\ s_upgrade W s' = false.
Proof.
  induction l as [|e l IH]; intros s s' evs last hd status text IN UP NE H T RS RW HK; [congruence|].
  cbn [callback_loop] in H. destruct (prepare_map_url _ _ _ _ _ _) as [p|]; [|discriminate]. cbn [bind] in H.
  destruct (run_callback W cb s e (snd p) true) as [[ret s1]|] eqn:RC; [|discriminate]. cbn [bind] in H.
  destruct (run_trace _ _ _ _ _ _ RC) as (ev & TR & ER & I1 & U1). rewrite IN in I1. rewrite UP in U1.
  assert (FIN : s_trace W s' = s_trace W s1 -> last = ev).
  { intros X. rewrite X, TR in T. now apply app_inj_tail in T as [_ ->]. }
  destruct (r_stream (s_resp W s1)) as [x|] eqn:S1.
  { unfold stream_answer in H. destruct (set_headers _ _ _) as [y|]; [|discriminate]. cbn [bind] in H. injection H as <-.
    rewrite (FIN eq_refl), ER in RS. congruence. }
  destruct (r_ws (s_resp W s1)) as [hd1|] eqn:W1.
  { unfold ws_answer in H. destruct (handshake hd1) as [hs|[status1 text1]] eqn:HK1.
    - destruct (set_headers _ _ _) as [y|]; [|discriminate]. cbn [bind] in H. injection H as <-. rewrite (FIN eq_refl), ER in RW. congruence.
    - injection H as <-. rewrite (FIN eq_refl), ER in RW. assert (hd1 = hd) by congruence. subst hd1. rewrite HK in HK1. injection HK1 as <- <-.
      cbn [with_mhd s_mhd s_resp s_inner s_upgrade set_status r_status]. auto. }
  cbv zeta in H. set (ret1 := if _ && _ then _ else _) in H.
  destruct ((ret1 =? U_CALLBACK_CONTINUE) || (ret1 =? U_CALLBACK_IGNORE)) eqn:C1.
  { destruct l as [|e' l].
    - exfalso. subst ret1. rewrite andb_true_r in C1. destruct ((ret =? U_CALLBACK_CONTINUE) || (ret =? U_CALLBACK_IGNORE)) eqn:C2; [discriminate|congruence].
    - eapply IH; eauto. discriminate. }
  exfalso.
  assert (X : s_trace W s' = s_trace W s1).
  { destruct (ret1 =? U_CALLBACK_COMPLETE).
    - unfold complete_answer in H. destruct (set_headers _ _ _) as [y|]; [|discriminate]. cbn [bind] in H. injection H as <-. reflexivity.
    - destruct (ret1 =? U_CALLBACK_UNAUTHORIZED).
      + unfold unauthorized_answer in H. cbv zeta in H. destruct (set_headers _ _ _) as [y|]; [|discriminate]. cbn [bind] in H. injection H as <-. destruct (fst y); reflexivity.
      + injection H as <-. reflexivity. }
  rewrite (FIN X), ER in RW. congruence.
Qed.

Lemma dispatch_refused : forall res evs last hd status text, the_dispatch = Ret res -> calls res = evs ++ [last] -> extra res = [] ->
  r_stream (ev_resp last) = None -> r_ws (ev_resp last) = Some hd -> handshake hd = inr (status, text) ->
  answers res = [Queue status (mk_mhd (CBuffer text) [])].
Proof.
  intros res evs last hd status text D C X RS RW HK. unfold the_dispatch, dispatch in D. destruct (endpoint_match _ _ _ _) as [l0|]; [|discriminate].
  cbn [bind] in D. cbv zeta in D. set (l := match l0 with [] => _ | _ => l0 end) in D. destruct l as [|e l'] eqn:EL.
  - injection D as <-. cbn in C. destruct evs; discriminate.
  - destruct (first_response dheaders) as [r|]; [|discriminate]. cbn [bind] in D.
    destruct (callback_loop _ _ _ _ _ _ _ _ _ _ _) as [s|] eqn:L; [|discriminate]. cbn [bind] in D.
    destruct (default_step _ _ _ _ _ s) as [s1|] eqn:DF; [|discriminate]. cbn [bind] in D. injection D as <-. cbn [answers calls extra] in *.
    match type of L with callback_loop _ _ _ _ _ _ _ _ _ _ ?s0 = _ =>
      destruct (loop_refused (e :: l') s0 s evs last hd status text eq_refl eq_refl ltac:(discriminate) L C RS RW HK) as (M & ST & IN & UP) end.
    assert (s1 = s).
    { unfold default_step in DF. destruct (the_default dflt) as [e0|]; [|injection DF as <-; reflexivity].
      destruct (s_pos W s =? 0); [|injection DF as <-; reflexivity]. cbv zeta in DF. exfalso.
      destruct (run_callback W cb _ e0 _ false) as [[ret s2]|] eqn:RC; [|discriminate]. cbn [bind] in DF.
      destruct (run_trace _ _ _ _ _ _ RC) as (ev & TR & _). cbn [s_trace] in TR.
      assert (TT : s_trace W s1 = s_trace W s2).
      { destruct (ret =? U_CALLBACK_UNAUTHORIZED).
        - unfold unauthorized_answer in DF. cbv zeta in DF. destruct (set_headers _ _ _) as [y|]; [|discriminate]. cbn [bind] in DF. injection DF as <-. destruct (fst y); reflexivity.
        - destruct (ret =? U_CALLBACK_ERROR); [injection DF as <-; reflexivity|].
          destruct ((ret =? U_CALLBACK_CONTINUE) || (ret =? U_CALLBACK_IGNORE) || (ret =? U_CALLBACK_COMPLETE)); [|injection DF as <-; reflexivity].
          unfold complete_answer in DF. destruct (set_headers _ _ _) as [y|]; [|discriminate]. cbn [bind] in DF. injection DF as <-. reflexivity. }
      rewrite TT, TR in X. rewrite skipn_app, skipn_all, Nat.sub_diag in X. discriminate. }
    subst s1. unfold queue_answer. rewrite M, IN, UP, ST. reflexivity.
Qed.

(** Every request, with headers [d]: a connection is only upgraded if the request is a valid handshake; and when the last callback
    asks for a websocket although it is not, the answer is 400. *)
Variables (server_match : nat -> Z -> option str -> str -> list str -> Z * option str) (digest : str -> option str)
  (m : umap) (d : smap) (protocol : option str) (handles : Z -> whandle).
Hypothesis names : forall n f o t l c, server_match n f o t l = (U_OK, c) -> c <> None.
Hypothesis digests : forall t, digest t <> None.
Hypothesis R : repr m d.
Hypothesis shake : forall hd, match server_handshake server_match digest m protocol (Some method) (handles hd) with
  | Ret (inl (hs, _, _)) => handshake hd = inl hs
  | Ret (inr e) => handshake hd = inr e
  | UB _ => True
  end.

Theorem C42_only_valid_requests : forall res a hd, the_dispatch = Ret res -> In a (answers res) -> upgrades a hd ->
  exists key, valid_request d protocol (Some method) key.
Proof.
  intros res a hd D I U. destruct (dispatch_upgrades _ _ _ D I U) as (up & H). specialize (shake hd).
  destruct (C42_upgrade_iff server_match digest names m d protocol (Some method) (handles hd) R) as (r & E & P). rewrite E in shake.
  destruct r as [[[hs exts] rsv]|[st t]]; [|congruence]. destruct P as (key & _ & _ & V & _). eauto.
Qed.

Theorem C42_otherwise_400 : forall res evs last hd, the_dispatch = Ret res -> calls res = evs ++ [last] -> extra res = [] ->
  r_stream (ev_resp last) = None -> r_ws (ev_resp last) = Some hd -> (forall key, ~ valid_request d protocol (Some method) key) ->
  exists text, answers res = [Queue 400 (mk_mhd (CBuffer text) [])].
Proof.
  intros res evs last hd D C X RS RW NV. specialize (shake hd).
  destruct (C42_upgrade_iff server_match digest names m d protocol (Some method) (handles hd) R) as (r & E & P). rewrite E in shake.
  destruct r as [[[hs exts] rsv]|[st t]].
  - destruct P as (key & _ & _ & V & _). exfalso. exact (NV _ V).
  - destruct P as [[-> _]|[_ (t0 & Q)]]; [|now apply digests in Q]. exists t. eapply dispatch_refused; eauto.
Qed.
End Dispatcher.
Print Assumptions C42_only_valid_requests.
Print Assumptions C42_otherwise_400.

(** a concrete server: one extension, with the RSV1 bit and a match function (it accepts "x-deflate") *)
Definition c42_match (n : nat) (f : Z) (o : option str) (t : str) (l : list str) : Z * option str :=
  if str_eqb t (bs "x-deflate") then (U_OK, Some t) else (U_ERROR, None).
Lemma c42_names : forall n f o t l c, c42_match n f o t l = (U_OK, c) -> c <> None.
Proof. intros n f o t l c. unfold c42_match. destruct (str_eqb t (bs "x-deflate")); intros H; injection H; intros; subst; discriminate. Qed.
Definition c42_digest (t : str) : option str := Some (bs "digest of " ++ firstn 3 t).
Definition c42_handle : whandle := mk_whandle (Some (bs "chat")) None [mk_wext 64 (Some 1) None None false; mk_wext 32 None (Some (bs "frob")) None false] 0.
Definition c42_d : smap := [
  (bs "upgrade", Some (bs "WebSocket")); (bs "Connection", Some (bs "keep-alive, Upgrade")); (bs "Sec-WebSocket-Version", Some (bs "13"));
  (bs "Sec-WebSocket-Key", Some (bs "abc")); (bs "Sec-WebSocket-Protocol", Some (bs "x , chat")); (bs "Sec-WebSocket-Extensions", Some (bs "mux, x-deflate,frob"))].
Definition map_of (d : smap) : outcome umap :=
  fold_left (fun m p => do m <- m; do r <- u_map_put m (Some (fst p)) (snd p); Ret (snd r)) d (Ret (u_map_init)).

Lemma c42_repr : exists m, map_of c42_d = Ret m /\ repr m c42_d.
Proof.
  assert (G : forall l m d, repr m d -> Forall (fun p => fst p <> [] /\ ovalue_ok (snd p)) l ->
    exists m', fold_left (fun m p => do m <- m; do r <- u_map_put m (Some (fst p)) (snd p); Ret (snd r)) l (Ret m) = Ret m' /\
      repr m' (fold_left (fun d p => sput (fst p) (snd p) d) l d)).
  { induction l as [|[k v] l IH]; intros m d R F; [exists m; split; [reflexivity|exact R]|]. apply Forall_cons_iff in F as [[K V] F]. cbn [fst snd] in *.
    destruct (repr_put m d k v R K V) as (m1 & E & R1). cbn [fold_left bind fst snd]. rewrite E. cbn [bind snd]. exact (IH m1 _ R1 F). }
  destruct (G c42_d u_map_init [] repr_init) as (m & E & R).
  - unfold c42_d. repeat (apply Forall_cons; [split; [discriminate|split; [repeat constructor; vm_compute; discriminate|reflexivity]]|]). constructor.
  - exists m. split; [exact E|exact R].
Qed.

Example C42_example : exists m r, map_of c42_d = Ret m /\ server_handshake c42_match c42_digest m (Some (bs "HTTP/1.1")) (Some (bs "GET")) c42_handle = Ret (inl r) /\
  r = ([(bs "Upgrade", bs "websocket"); (bs "Sec-WebSocket-Accept", bs "digest of abc"); (bs "Sec-WebSocket-Protocol", bs "chat");
        (bs "Sec-WebSocket-Extensions", bs "x-deflate, frob")],
       [mk_wext 64 (Some 1) None (Some (bs "x-deflate")) true; mk_wext 32 None (Some (bs "frob")) (Some (bs "frob")) true], 96).
Proof. eexists. eexists. split; [vm_compute; reflexivity|]. split; vm_compute; reflexivity. Qed.
(** the same over HTTP/1.0 *)
Example C42_example_400 : exists m t, map_of c42_d = Ret m /\
  server_handshake c42_match c42_digest m (Some (bs "HTTP/1.0")) (Some (bs "GET")) c42_handle = Ret (inr (400, t)).
Proof. eexists. eexists. split; [vm_compute; reflexivity|]. vm_compute. reflexivity. Qed.

(** C59. The negotiated extensions on the server: each was asked for by the client, their RSV bits are apart, rsv_expected has
    exactly their bits, and the answer names exactly them. *)
Theorem C59_server : forall server_match digest m d protocol verb h hs exts rsv o offer,
  (forall n f o t l c, server_match n f o t l = (U_OK, c) -> c <> None) ->
  repr m d -> In (bs "Sec-WebSocket-Extensions") (map fst d) -> header d (bs "Sec-WebSocket-Extensions") = Some o -> items comma o offer ->
  h_list h <> [] -> Forall (fun e => x_enabled e = false) (h_list h) -> h_rsv h = 0 ->
  server_handshake server_match digest m protocol verb h = Ret (inl (hs, exts, rsv)) ->
  exists on, Permutation on (filter x_enabled exts) /\ Forall2 same_extension (h_list h) exts /\
    apart 0 on /\ rsv = union_bits 0 on /\ Forall (asked server_match offer) on /\
    filter (fun p => str_eqb (fst p) (bs "Sec-WebSocket-Extensions")) hs =
      match join (bs ", ") (map client_name on) with [] => [] | t => [(bs "Sec-WebSocket-Extensions", t)] end.
Proof.
  intros server_match digest m d protocol verb h hs exts rsv o offer NM R IK HO IT NE OFF R0 H.
  apply items_split in IT. subst offer. rewrite header_caseval in HO.
  unfold server_handshake in H. destruct (valid_upgrade m protocol verb) as [ok|]; [|discriminate]. cbn [bind] in H.
  destruct ok; [|destruct (missing_text _ _ _); discriminate].
  unfold negotiate in H. rewrite (repr_has m d _ R), !(repr_get_case m d _ R) in H. unfold bind at 2 3 in H. rewrite HO in H.
  apply shas_in in IK. rewrite IK in H. assert (ZL : (zlen (h_list h) =? 0) = false).
  { apply Z.eqb_neq. unfold zlen. destruct (h_list h); [congruence|cbn [length]; lia]. }
  rewrite ZL in H. cbn [negb andb] in H.
  assert (START : on_ok server_match (split_string comma o) (h_list h) [] (h_list h) 0 None).
  { constructor; auto.
    - replace (filter x_enabled (h_list h)) with (@nil wext); auto. clear -OFF. induction OFF as [|e l E F IH]; auto. cbn [filter]. now rewrite E.
    - exact I.
    - clear. induction (h_list h); constructor; auto. repeat split. }
  destruct (offer_loop_ok server_match NM (split_string comma o) (split_string comma o) (h_list h) [] [] (h_list h) 0%nat 0 None (fun x y => y) START) as (n & on & EN & OK).
  rewrite R0, EN in H. cbn [bind] in H. change (U_OK =? U_OK) with true in H. cbv iota in H. cbn [andb] in H.
  destruct (check_first_match _ _ _) as [rp p]. destruct (rp =? U_OK); [|discriminate].
  destruct (caseval d (bs "Sec-WebSocket-Key")) as [k|]; [|discriminate]. cbn [bind] in H. destruct (generate_handshake_answer digest k) as [acc|]; [|discriminate].
  injection H as <- <- <-. destruct OK as [P A RS N AS SM]. exists on. split; [exact P|]. split; [exact SM|]. split; [exact A|]. split; [exact RS|]. split; [exact AS|].
  cbn [app filter fst]. change (str_eqb (bs "Upgrade") (bs "Sec-WebSocket-Extensions")) with false. change (str_eqb (bs "Sec-WebSocket-Accept") (bs "Sec-WebSocket-Extensions")) with false.
  cbv iota. rewrite filter_app. replace (filter _ (match p with Some p0 => _ | None => [] end)) with (@nil (str * str)) by (destruct p; reflexivity).
  cbn [app]. rewrite N. destruct on as [|e on]; [reflexivity|]. destruct (join (bs ", ") (map client_name (e :: on))); reflexivity.
Qed.
Print Assumptions C59_server.

Lemma cext_ok : forall client_match exts x calls rsv, match cext_loop client_match exts x calls rsv with
  | (l, c, v, true) => exists a e b, exts = a ++ e :: b /\ l = a ++ yenable e (trim_left x) :: b /\ y_enabled e = false /\
      accepted client_match x e /\ Z.land (y_rsv e) rsv = 0 /\ v = Z.lor rsv (y_rsv e)
  | (l, c, v, false) => l = exts /\ v = rsv
  end.
Proof.
  intros cm exts x. induction exts as [|e r IH]; intros calls rsv; [split; reflexivity|]. cbn [cext_loop]. cbv zeta.
  assert (CONT : forall calls', match (let '(l, c, v, b) := cext_loop cm r x calls' rsv in (e :: l, c, v, b)) with
    | (l, c, v, true) => exists a e0 b, e :: r = a ++ e0 :: b /\ l = a ++ yenable e0 (trim_left x) :: b /\ y_enabled e0 = false /\
      accepted cm x e0 /\ Z.land (y_rsv e0) rsv = 0 /\ v = Z.lor rsv (y_rsv e0)
    | (l, c, v, false) => l = e :: r /\ v = rsv end).
  { intros calls'. specialize (IH calls' rsv). destruct (cext_loop cm r x calls' rsv) as [[[l c] v] [|]].
    - destruct IH as (a & e0 & b & -> & -> & X). exists (e :: a), e0, b. split; [reflexivity|]. split; [reflexivity|exact X].
    - destruct IH as [-> ->]. auto. }
  destruct (y_enabled e) eqn:EN; [apply CONT|].
  destruct (match y_match e with Some f => _ | None => _ end) as [b calls'] eqn:M. destruct b; [|apply CONT].
  destruct (Z.land (y_rsv e) rsv =? 0) eqn:L; [|split; reflexivity].
  exists [], e, r. split; [reflexivity|]. split; [reflexivity|]. split; [exact EN|]. split.
  - exists (trim x). split; [apply trim_trimmed|]. destruct (y_match e) as [f|].
    + injection M as M _. eauto.
    + injection M as M _. unfold ostr_eqb in M. destruct (y_client e) as [c|]; [|discriminate]. apply str_eqb_eq in M. now subst.
  - split; [now apply Z.eqb_eq|reflexivity].
Qed.

Fixpoint yapart (r0 : Z) (l : list cext) : Prop := match l with [] => True | e :: t => disjoint_bits (y_rsv e) r0 /\ yapart (Z.lor r0 (y_rsv e)) t end.
Lemma yapart_snoc : forall l r0 e, yapart r0 l -> Z.land (y_rsv e) (ybits r0 l) = 0 -> yapart r0 (l ++ [e]).
Proof. induction l as [|x l IH]; intros r0 e A D; cbn [app yapart] in *; [split; [exact D|exact I]|]. destruct A as [A1 A2]. split; auto. Qed.
Lemma ybits_snoc : forall l r0 e, ybits r0 (l ++ [e]) = Z.lor (ybits r0 l) (y_rsv e).
Proof. intros. unfold ybits. rewrite fold_left_app. reflexivity. Qed.

Lemma coffer_ok : forall cm offer exts0 exts done on calls rsv exts' rsv',
  Permutation on (filter y_enabled exts) -> yapart 0 on -> rsv = ybits 0 on -> Forall2 (accepted cm) done on -> Forall2 same_cext exts0 exts ->
  coffer_loop cm offer exts calls rsv = (U_OK, exts', rsv') ->
  exists on', Permutation on' (filter y_enabled exts') /\ yapart 0 on' /\ rsv' = ybits 0 on' /\ Forall2 (accepted cm) (done ++ offer) on' /\ Forall2 same_cext exts0 exts'.
Proof.
  intros cm. induction offer as [|x offer IH]; intros exts0 exts done on calls rsv exts' rsv' P A RS AC SM H.
  - injection H as <- <-. exists on. rewrite app_nil_r. auto.
  - cbn [coffer_loop] in H. pose proof (cext_ok cm exts x calls rsv) as C. destruct (cext_loop cm exts x calls rsv) as [[[l c] v] [|]]; [|discriminate].
    destruct C as (a & e & b & -> & -> & EN & AE & D & ->).
    replace (done ++ x :: offer) with ((done ++ [x]) ++ offer) by now rewrite <- app_assoc.
    apply (IH exts0 (a ++ yenable e (trim_left x) :: b) (done ++ [x]) (on ++ [yenable e (trim_left x)]) c (Z.lor rsv (y_rsv e))); auto.
    + rewrite filter_app in *. cbn [filter] in *. rewrite EN in P. cbn [yenable y_enabled].
      rewrite P. rewrite <- app_assoc. apply Permutation_app_head. apply Permutation_sym, Permutation_cons_append.
    + apply yapart_snoc; auto. cbn [yenable y_rsv]. now rewrite <- RS.
    + rewrite ybits_snoc, <- RS. reflexivity.
    + apply Forall2_app; auto.
    + apply Forall2_app_inv_r in SM as (a0 & b0 & S1 & S2 & ->). apply Forall2_app; auto. inversion S2; subst. constructor; auto.
Qed.

Lemma header_ext : forall check h w v, header_of (bs "Sec-WebSocket-Extensions") h v -> p_extensions (header_line check h w) = Some v.
Proof.
  intros check h w v (k & E & N & NI). unfold header_line. rewrite E, cut_colon_app by exact NI.
  assert (K : str_caseeqb k (bs "Sec-WebSocket-Extensions") = true) by (apply caseeq_iff; exact N).
  assert (X : forall p q, ~ In 58 p -> lowers p <> lowers (bs "Sec-WebSocket-Extensions") -> str_caseeqb (k ++ [58] ++ v) (p ++ [58] ++ q) = false).
  { intros p q NP NE. destruct (str_caseeqb (k ++ [58] ++ v) (p ++ [58] ++ q)) eqn:B; auto. exfalso. apply caseeq_iff in B.
    unfold same_name, lowers in B, N. unfold lowers in NE. rewrite !map_app in B.
    assert (C1 : cut_colon (map lower k ++ [58] ++ map lower v) = Some (map lower k, map lower v)) by (apply cut_colon_app; intros J; apply in_map_iff in J as (c & LC & J); unfold lower in LC; destruct ((65 <=? c) && (c <=? 90)) eqn:BB; [apply andb_true_iff in BB as [B1 B2]; lia|subst; contradiction]).
    assert (C2 : cut_colon (map lower p ++ [58] ++ map lower q) = Some (map lower p, map lower q)) by (apply cut_colon_app; intros J; apply in_map_iff in J as (c & LC & J); unfold lower in LC; destruct ((65 <=? c) && (c <=? 90)) eqn:BB; [apply andb_true_iff in BB as [B1 B2]; lia|subst; contradiction]).
    change (map lower [58]) with [58] in B. rewrite B, C2 in C1. injection C1 as C1 _. congruence. }
  pose proof (X (bs "Upgrade") (bs " websocket")) as X1. pose proof (X (bs "Connection") (bs " Upgrade")) as X2.
  change (bs "Upgrade" ++ [58] ++ bs " websocket") with (bs "Upgrade: websocket") in X1. change (bs "Connection" ++ [58] ++ bs " Upgrade") with (bs "Connection: Upgrade") in X2.
  rewrite X1, X2; [|vm_compute; intuition discriminate|vm_compute; discriminate|vm_compute; intuition discriminate|vm_compute; discriminate].
  replace (str_caseeqb k (bs "Sec-WebSocket-Protocol")) with false; [now rewrite K|].
  symmetry. destruct (str_caseeqb k (bs "Sec-WebSocket-Protocol")) eqn:B; auto. apply caseeq_iff in B. unfold same_name in *. rewrite N in B. vm_compute in B. discriminate.
Qed.

Section Client.
Variables (check : str -> bool) (client_match : nat -> Z -> str -> bool) (ap ae : bool).

Lemma first_line_ok : forall first hs, line_ok first -> Forall (fun h => line_ok h /\ h <> []) hs -> forall exts,
  client_handshake check client_match ap ae exts (render first hs) =
  (let w := fold_left (fun w h => header_line check h w) hs (mk_wresp 0 None None false) in
   let '(http, status) :=
     match split_string 32 first with v :: s :: _ => if str_eqb v (bs "HTTP/1.1") then (true, strtol s) else (false, 0) | _ => (false, 0) end in
   if negb http || negb (status =? 101) || (Z.land (p_flags w) (mask_of ap ae) =? 0) then
     ((if (400 <=? status) && (status <=? 499) then U_ERROR_PARAMS else U_ERROR), exts, 0, false)
   else match p_extensions w with
        | Some (c :: x) => if zlen exts =? 0 then (U_OK, exts, 0, negb (p_closed w))
            else let '(ret, l, v) := coffer_loop client_match (split_string comma (c :: x)) exts 0 0 in (ret, l, v, negb (p_closed w))
        | _ => (U_OK, exts, 0, negb (p_closed w))
        end).
Proof.
  intros first hs LF FH exts. unfold client_handshake, render. rewrite next_line_ok by exact LF. cbv iota beta zeta.
  pose proof (header_lines_ok check hs (S (length (flat_map (fun h => h ++ crlf) hs ++ crlf))) [] (mk_wresp 0 None None false) FH) as HL.
  rewrite !app_nil_r in HL. specialize (HL ltac:(lia)).
  destruct (match split_string 32 first with v :: s :: _ => if str_eqb v (bs "HTTP/1.1") then (true, strtol s) else (false, 0) | _ => (false, 0) end) as [http status] eqn:FL.
  destruct http; [|reflexivity]. cbn [negb orb andb]. destruct (status =? 101) eqn:ST.
  - cbv iota. rewrite HL. cbn [negb orb]. rewrite orb_false_r. reflexivity.
  - cbn [negb orb]. rewrite orb_true_r. reflexivity.
Qed.

Lemma switching_iff : forall first, switching first <->
  match split_string 32 first with v :: s :: _ => if str_eqb v (bs "HTTP/1.1") then (true, strtol s) else (false, 0) | _ => (false, 0) end = (true, 101).
Proof.
  intros first. split.
  - intros (s & more & I & T). apply items_split in I. rewrite <- I. replace (str_eqb _ _) with true by reflexivity. now rewrite T.
  - intros H. pose proof (split_items 32 first) as I. destruct (split_string 32 first) as [|v [|s more]]; [discriminate|discriminate|].
    destruct (str_eqb v (bs "HTTP/1.1")) eqn:E; [|discriminate]. apply str_eqb_eq in E. subst v. exists s, more. split; [exact I|]. congruence.
Qed.

(** C43. What the client takes for a successful handshake: a first line with 101, and one of the headers it
    looks for. *)
Theorem C43_accepts_iff : forall first hs exts, line_ok first -> Forall (fun h => line_ok h /\ h <> []) hs ->
  exts = [] \/ Forall (fun h => forall v, ~ header_of (bs "Sec-WebSocket-Extensions") h v) hs ->
  (fst (fst (fst (client_handshake check client_match ap ae exts (render first hs)))) = U_OK <-> switching first /\ Exists (telling ap ae) hs).
Proof.
  intros first hs exts LF FH EX. rewrite first_line_ok by auto. cbv zeta. pose proof (switching_iff first) as SW.
  destruct (match split_string 32 first with v :: s :: _ => if str_eqb v (bs "HTTP/1.1") then (true, strtol s) else (false, 0) | _ => (false, 0) end) as [http status].
  pose proof (fold_counts check ap ae hs (mk_wresp 0 None None false)) as FC.
  assert (FC' : Z.land (p_flags (fold_left (fun w h => header_line check h w) hs (mk_wresp 0 None None false))) (mask_of ap ae) = 0 <-> ~ Exists (telling ap ae) hs).
  { rewrite FC. rewrite <- Forall_Exists_neg. split; [tauto|]. intros X. split; [reflexivity|exact X]. }
  destruct http; cbn [negb orb].
  - destruct (status =? 101) eqn:ST; cbn [negb orb].
    + apply Z.eqb_eq in ST. subst status. assert (S : switching first) by (apply SW; reflexivity).
      destruct (Z.land _ (mask_of ap ae) =? 0) eqn:Z0.
      * apply Z.eqb_eq in Z0. apply FC' in Z0. change ((400 <=? 101) && (101 <=? 499)) with false. cbn [fst]. split; [discriminate|]. tauto.
      * apply Z.eqb_neq in Z0. assert (T : Exists (telling ap ae) hs).
        { destruct (Exists_dec (fun h => telling ap ae h) hs) as [Y|N]; [|exact Y|exfalso; apply Z0, FC'; exact N].
          intros h. destruct (Z.eq_dec (Z.land (p_flags (header_line check h (mk_wresp 0 None None false))) (mask_of ap ae)) 0) as [Y|Y].
          - right. apply header_counts in Y. tauto.
          - left. destruct (telling_dec ap ae h) as [T|T]; [exact T|]. exfalso. apply Y. apply header_counts. split; [reflexivity|exact T]. }
        split; [intros _; split; [exact S|exact T]|]. intros _.
        destruct EX as [->|NX].
        -- destruct (p_extensions _) as [[|? ?]|]; reflexivity.
        -- rewrite fold_no_ext by exact NX. reflexivity.
    + apply Z.eqb_neq in ST. split.
      * destruct ((400 <=? status) && (status <=? 499)); discriminate.
      * intros [S _]. apply SW in S. congruence.
  - split.
    + destruct ((400 <=? status) && (status <=? 499)); discriminate.
    + intros [S _]. apply SW in S. congruence.
Qed.

(** Any bytes from the server: acceptance needs such a line. (Partial: that the header line belongs to the
    header part of the response, and not to a body after an empty line, is only stated for well-formed responses above.) *)
Theorem C43_accepts_only_partial : forall exts inp, fst (fst (fst (client_handshake check client_match ap ae exts inp))) = U_OK ->
  exists first pre raw post, inp = first ++ crlf ++ pre ++ raw ++ crlf ++ post /\ switching (up_to_nul first) /\ telling ap ae (up_to_nul raw).
Proof.
  intros exts inp H. unfold client_handshake in H. destruct (next_line inp []) as [[line|] rest] eqn:NL; [|cbv in H; discriminate].
  destruct (next_line_raw _ _ _ _ NL) as (raw0 & E & L). cbn [rev app] in E. pose proof (switching_iff line) as SW.
  destruct (match split_string 32 line with v :: s :: _ => if str_eqb v (bs "HTTP/1.1") then (true, strtol s) else (false, 0) | _ => (false, 0) end) as [http status].
  destruct http; cbn [negb orb andb] in H; [|destruct ((400 <=? status) && (status <=? 499)); discriminate].
  destruct (status =? 101) eqn:ST.
  - apply Z.eqb_eq in ST. subst status. destruct (Z.land _ _ =? 0) eqn:Z0 in H; [change ((400 <=? 101) && (101 <=? 499)) with false in H; discriminate|].
    apply Z.eqb_neq in Z0. destruct (header_lines_sound check ap ae _ rest (mk_wresp 0 None None false) eq_refl Z0) as (pre & raw & post & E2 & T).
    exists raw0, pre, raw, post. rewrite E2 in E. split; [exact E|]. subst line. split; [apply SW; reflexivity|exact T].
  - cbn [negb] in H. rewrite orb_true_r in H. destruct ((400 <=? status) && (status <=? 499)); discriminate.
Qed.

(** C59 on the client: if the handshake succeeds although the server announces extensions, each of the announced extensions, in order, was
    accepted by an extension of its own, with RSV bits apart from the others, and rsv_expected has exactly their bits *)
Theorem C59_client : forall first hs exts v l exts' rsv op, line_ok first -> Forall (fun h => line_ok h /\ h <> []) hs ->
  last_header hs (bs "Sec-WebSocket-Extensions") v -> v <> [] -> items comma v l -> exts <> [] -> Forall (fun e => y_enabled e = false) exts ->
  client_handshake check client_match ap ae exts (render first hs) = (U_OK, exts', rsv, op) ->
  exists on, Forall2 (accepted client_match) l on /\ Permutation on (filter y_enabled exts') /\ Forall2 same_cext exts exts' /\
    yapart 0 on /\ rsv = ybits 0 on.
Proof.
  intros first hs exts v l exts' rsv op LF FH (a & h & b & EH & HO & NB) VN IT NE OFF H. apply items_split in IT. rewrite first_line_ok in H by auto. cbv zeta in H.
  destruct (match split_string 32 first with v :: s :: _ => if str_eqb v (bs "HTTP/1.1") then (true, strtol s) else (false, 0) | _ => (false, 0) end) as [http status].
  destruct (negb http || _ || _); [destruct ((400 <=? status) && (status <=? 499)); discriminate|].
  assert (PE : p_extensions (fold_left (fun w h => header_line check h w) hs (mk_wresp 0 None None false)) = Some v).
  { rewrite EH, fold_left_app. cbn [fold_left]. rewrite fold_no_ext by exact NB. now apply header_ext. }
  rewrite PE in H. destruct v as [|c x]; [congruence|].
  assert (ZL : (zlen exts =? 0) = false) by (apply Z.eqb_neq; unfold zlen; destruct exts; [congruence|cbn [length]; lia]).
  rewrite ZL in H. destruct (coffer_loop client_match (split_string comma (c :: x)) exts 0 0) as [[ret l1] v1] eqn:CO. injection H as -> <- <- _.
  destruct (coffer_ok client_match (split_string comma (c :: x)) exts exts [] [] 0%nat 0 l1 v1) as (on & P & A & RS & AC & SM); auto.
  - replace (filter y_enabled exts) with (@nil cext); auto. clear -OFF. induction OFF as [|e r E F IH]; auto. cbn [filter]. now rewrite E.
  - exact I.
  - clear. induction exts; constructor; auto. repeat split.
  - exists on. subst l. cbn [app] in AC. auto.
Qed.
End Client.
Print Assumptions C43_accepts_iff.
Print Assumptions C43_accepts_only_partial.
Print Assumptions C59_client.

(** C43, refuted: Sec-WebSocket-Accept is never looked at ... *)
Theorem C43_accept_never_checked_refuted : forall check1 check2 client_match ap ae exts inp,
  client_handshake check1 client_match ap ae exts inp = client_handshake check2 client_match ap ae exts inp.
Proof.
  intros. unfold client_handshake. destruct (next_line inp []) as [l rest].
  destruct (match l with Some line => _ | None => _ end) as [http status]. rewrite (header_lines_check check1 check2). reflexivity.
Qed.
Print Assumptions C43_accept_never_checked_refuted.

(** ... and one of Upgrade, Connection, the protocol, the extensions suffices *)
Theorem C43_one_header_suffices_refuted : exists first hs, line_ok first /\ Forall (fun h => line_ok h /\ h <> []) hs /\
  (forall h, In h hs -> ~ connection_line h) /\ (forall h v, In h hs -> ~ header_of (bs "Sec-WebSocket-Accept") h v) /\
  client_handshake (fun _ => false) (fun _ _ _ => false) true false [] (render first hs) = (U_OK, [], 0, true).
Proof.
  exists (bs "HTTP/1.1 101 Switching Protocols"), [bs "Upgrade: websocket"]. split; [|split; [|split; [|split]]].
  - split; [repeat constructor; vm_compute; discriminate|]. split; vm_compute; [reflexivity|discriminate].
  - constructor; [|constructor]. split; [|discriminate]. split; [repeat constructor; vm_compute; discriminate|]. split; vm_compute; [reflexivity|discriminate].
  - intros h [<-|[]]. vm_compute. discriminate.
  - intros h v [<-|[]] (k & E & N & _). pose proof (f_equal (firstn 1) E) as F. destruct k as [|c k]; [vm_compute in F; discriminate|]. cbn in F. injection F as <-.
    unfold same_name, lowers in N. cbn [map] in N. apply (f_equal (fun l => hd 0 l)) in N. vm_compute in N. discriminate.
  - vm_compute. reflexivity.
Qed.
Print Assumptions C43_one_header_suffices_refuted.

Definition c59_exts := [mk_cext 64 (Some 1) None None false; mk_cext 64 None (Some (bs "old")) None false; mk_cext 32 None (Some (bs "frob")) None false].
Example C59_client_example : client_handshake (fun _ => false) (fun _ _ t => str_eqb t (bs "x-deflate")) false false c59_exts
    (render (bs "HTTP/1.1 101 ok") [bs "Connection: Upgrade"; bs "Sec-WebSocket-Extensions: frob , x-deflate"]) =
  (U_OK, [mk_cext 64 (Some 1) None (Some (bs " x-deflate")) true; mk_cext 64 None (Some (bs "old")) None false;
          mk_cext 32 None (Some (bs "frob")) (Some (bs " frob")) true], 96, true) /\
  fst (fst (fst (client_handshake (fun _ => false) (fun _ _ t => str_eqb t (bs "x-deflate")) false false c59_exts
    (render (bs "HTTP/1.1 101 ok") [bs "Connection: Upgrade"; bs "Sec-WebSocket-Extensions: old, x-deflate"])))) = U_ERROR.
Proof. vm_compute. auto. Qed.
Example C59_server_example : exists m r, map_of c42_d = Ret m /\ repr m c42_d /\
  server_handshake c42_match c42_digest m (Some (bs "HTTP/1.1")) (Some (bs "GET")) c42_handle = Ret (inl r) /\ snd r = 96 /\
  items comma (bs "mux, x-deflate,frob") [bs "mux"; bs " x-deflate"; bs "frob"].
Proof.
  destruct c42_repr as (m & E & R). exists m. destruct C42_example as (m' & r & E' & S & V). assert (m' = m) by congruence. subst m'.
  exists r. split; [exact E|]. split; [exact R|]. split; [exact S|]. split; [now subst r|].
  split; [discriminate|]. split; [|reflexivity]. repeat constructor; vm_compute; intuition discriminate.
Qed.
