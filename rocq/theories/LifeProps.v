(** C81, C82: the life of an instance. *)
From Coq Require Import String ZArith Bool List Lia.
From Verif Require Import Base BaseFacts UMapModel RouterModel RouterSpec EndpointProofs LifeModel LifeSpec LifeProofs.
Import ListNotations.
Open Scope Z_scope.

(** ** C81 *)

(** C81. For every instance whose list holds [es]: starting succeeds iff the key and the certificate come together, the instance can be started, it does not run yet,
    and MHD agrees; the error is U_ERROR_PARAMS iff one of the first two fails. On success one daemon more runs, exactly the one that was asked for. *)
Theorem C81_start : forall ok s key cert ca es, holds (l_endpoints (s_inst s)) es -> exists r s', start ok s key cert ca = Ret (r, s') /\
  (r = U_OK <-> credentials key cert ca /\ startable (s_inst s) es /\ l_daemon (s_inst s) = None /\ ok = true) /\
  (r = U_ERROR_PARAMS <-> ~ (credentials key cert ca /\ startable (s_inst s) es)) /\
  (r = U_OK -> exists d, s_live s' = s_live s ++ [d] /\ l_daemon (s_inst s') = Some (d_handle d) /\ l_status (s_inst s') = Running /\
     as_asked (s_inst s) key cert ca d /\ (l_client_auth (s_inst s') = true <-> ca <> None)) /\
  (r <> U_OK -> s_live s' = s_live s).
Proof.
  intros ok s key cert ca es H. destruct (start_lemma ok s key cert ca es H) as (r & s' & E & A & B & _ & OK & NOK & _).
  exists r, s'. split; auto. split; auto. split; auto. split.
  - intros X. destruct (OK X) as (d & C & _ & _ & D & F & G & I). eauto 10.
  - intros X. now destruct (NOK X).
Qed.
Print Assumptions C81_start.

(** initialisation: which parameters are accepted, and with what result *)
Theorem C81_init : forall port bind u, init port bind = Some u ->
  1 <= port <= 65535 /\ l_port u = port /\ l_bind4 u = bind /\ l_bind6 u = None /\ bit (l_network u) 0 = true /\ bit (l_network u) 4 = false /\ l_timeout u = 0 /\
  endpoint_list (l_endpoints u) = None /\ nb_endpoints (l_endpoints u) = 0%nat /\ l_daemon u = None /\ l_status u = Stopped.
Proof. intros port bind u E. destruct (init_fields _ _ _ E) as (A & B & C & D & F & G & H & I & J & K). rewrite I. repeat (split; [assumption || reflexivity|]). exact K. Qed.
Print Assumptions C81_init.
Theorem C81_init_ipv6 : forall port bind network u, init_ipv6 port bind network = Some u ->
  1 <= port <= 65535 /\ bit network 4 = true /\ l_port u = port /\ l_bind4 u = None /\ l_bind6 u = bind /\
  bit (l_network u) 4 = true /\ (bit (l_network u) 0 = true <-> bind = None /\ bit network 0 = true) /\ l_timeout u = 0 /\
  endpoint_list (l_endpoints u) = None /\ nb_endpoints (l_endpoints u) = 0%nat /\ l_daemon u = None /\ l_status u = Stopped.
Proof. intros port bind network u E. destruct (init_ipv6_fields _ _ _ _ E) as (A & B & C & D & F & G & H & I & J & K & L). rewrite J. repeat (split; [assumption || reflexivity|]). exact L. Qed.
Print Assumptions C81_init_ipv6.
(** what internal_ulfius_init_instance accepts: a port, at most one address to bind to, and a known network *)
Theorem C81_init_internal : forall port a b network,
  (exists u, init_internal port a b network = Some u) <->
  1 <= port <= 65535 /\ (a = None \/ b = None) /\ (bit network 0 = true \/ bit network 4 = true).
Proof.
  intros port a b network. unfold init_internal. destruct (_ && _) eqn:E.
  - rewrite !andb_true_iff, !orb_true_iff, !Z.ltb_lt in E. destruct E as [[[P1 P2] A] N]. split; [|eauto]. intros _.
    split; [lia|]. split; [destruct a, b; cbn in A; destruct A; try discriminate; auto|auto].
  - split; [intros (u & X); discriminate|]. intros (P & A & N). exfalso. apply not_true_iff_false in E. apply E.
    rewrite !andb_true_iff, !orb_true_iff, !Z.ltb_lt. split; [|auto]. split; [lia|]. destruct A as [-> | ->]; auto.
Qed.
Print Assumptions C81_init_internal.
(** every port from 1 to 65535 is accepted *)
Theorem C81_init_accepts : forall port bind network, 1 <= port <= 65535 ->
  init port bind <> None /\ (bit network 4 = true -> init_ipv6 port bind network <> None).
Proof.
  intros port bind network P. assert (PP : (0 <? port) && (port <? 65536) = true) by (apply andb_true_iff; split; apply Z.ltb_lt; lia).
  split; [unfold init|intros B; unfold init_ipv6; rewrite B]; unfold init_internal; rewrite PP; destruct bind; cbn [isSome negb orb andb]; try discriminate.
  rewrite B, orb_true_r. discriminate.
Qed.
Print Assumptions C81_init_accepts.

Definition e1 : endpoint := mk_ep (Some (bs "GET")) None (Some (bs "/a")) 0 (Some 1) 0.
Definition e_bad : endpoint := mk_ep (Some (bs "GET")) None (Some (bs "/b")) 0 None 0.
Definition u0 : inst := mk_life 8080 init_instance None None 1 30 None Stopped false.
Definition with_eps (u : inst) (es : list endpoint) : inst := set_endpoints u (mk_inst (Some (map Some es ++ [Some empty_endpoint])) (length es)).
(** a start over TLS with clients' certificates and a timeout: nine options, all the array *)
Example C81_ex : exists s', start true (fresh (with_eps u0 [e1])) (Some (bs "key")) (Some (bs "cert")) (Some (bs "ca")) = Ret (U_OK, s') /\
  s_live s' = [mk_daemon 0 8080 [ThreadPerConnection; ErrorLog; Polling; Upgrade; Ssl]
                [Logger; Completed; SockAddr None; UriLog; MemKey (bs "key"); MemCert (bs "cert"); MemTrust (bs "ca"); Timeout 30]] /\
  holds (l_endpoints (with_eps u0 [e1])) [e1] /\ startable (with_eps u0 [e1]) [e1].
Proof.
  eexists. split; [vm_compute; reflexivity|]. split; [vm_compute; reflexivity|]. split.
  - split; [reflexivity|]. intros arr E. cbn in E. inversion E; subst. now exists [Some empty_endpoint].
  - unfold startable. split; [cbn; lia|]. split; [discriminate|]. split.
    + constructor; [|constructor]. left. repeat split; try discriminate. right. discriminate.
    + intros e r E. inversion E; subst. intros (X & _). discriminate.
Qed.
Example C81_bad : exists s1 s2 s3, start true (fresh (with_eps u0 [e1; e_bad])) None None None = Ret (U_ERROR_PARAMS, s1) /\
  start true (fresh (with_eps u0 [e1])) (Some (bs "key")) None None = Ret (U_ERROR_PARAMS, s2) /\
  start false (fresh (with_eps u0 [e1])) None None None = Ret (U_ERROR_LIBMHD, s3).
Proof. do 3 eexists. split; [|split]; vm_compute; reflexivity. Qed.

(** "an instance whose endpoints are all complete can be started" is false: with a default endpoint only, no list was ever allocated; after adding and removing an endpoint the same instance starts *)
Theorem C81_no_endpoint_refuted :
  (exists s', run [Start true None None None] (fresh u0) = Ret ([U_ERROR_PARAMS], s')) /\
  (exists s', run [Endpoint (EAdd e1); Endpoint (ERemove e1); Start true None None None] (fresh u0) = Ret ([U_OK; U_OK; U_OK], s') /\ nb_endpoints (l_endpoints (s_inst s')) = 0%nat).
Proof. split; eexists; [vm_compute; reflexivity|]. split; vm_compute; reflexivity. Qed.
Print Assumptions C81_no_endpoint_refuted.

(** ** C82 *)

(** C82. Whatever a program calls on an initialised instance: no undefined behaviour, and the status says whether the instance holds a daemon; that daemon runs. *)
Theorem C82_safe : forall u l, initialised u -> Forall call_ok l -> exists rs s', run l (fresh u) = Ret (rs, s') /\
  (l_status (s_inst s') = Running <-> l_daemon (s_inst s') <> None) /\
  (forall h, l_daemon (s_inst s') = Some h -> exists d, In d (s_live s') /\ d_handle d = h) /\
  NoDup (map d_handle (s_live s')).
Proof.
  intros u l I0 F. destruct (initialised_inv u I0) as (I & _). destruct (inv_run l _ I F) as (rs & s' & E & I'). exists rs, s'. split; auto. destruct I' as (_ & N & _ & D & R).
  split; auto. split; auto. intros h H. apply D in H. apply in_map_iff in H. destruct H as (d & A & B). eauto.
Qed.
Print Assumptions C82_safe.

(** For programs that never start a running instance: after any calls, exactly one daemon runs if the last start succeeded and no stop followed, and none otherwise;
    the status, the handle, and the answer of a stop agree with that. *)
Theorem C82_lifecycle_partial : forall u l rs s' q, initialised u -> Forall call_ok l ->
  run l (fresh u) = Ret (rs, s') -> legal false l rs q ->
  (q = true -> exists d, s_live s' = [d] /\ l_daemon (s_inst s') = Some (d_handle d) /\ l_status (s_inst s') = Running /\ exists s2, stop s' = Ret (U_OK, s2) /\ s_live s2 = []) /\
  (q = false -> s_live s' = [] /\ l_daemon (s_inst s') = None /\ l_status (s_inst s') <> Running /\ exists s2, stop s' = Ret (U_ERROR_PARAMS, s2) /\ s_live s2 = []).
Proof.
  intros u l rs s' q I0 F E L. destruct (initialised_inv u I0) as (I & X). destruct (legal_run _ _ _ _ L _ _ I F X E) as ((_ & _ & _ & _ & R) & (d & LV & D & P)). split; intros ->.
  - destruct d as [h|]; [|destruct P as [_ P]; exfalso; now apply P]. destruct (s_live s') as [|x [|y z]] eqn:SL; try discriminate. cbn in LV. inversion LV as [H].
    exists x. split; auto. split; [now rewrite H|]. split; [apply R; congruence|]. unfold stop. rewrite D, SL. cbn. rewrite H, Z.eqb_refl. cbn. eexists. split; reflexivity.
  - assert (d = None) by (destruct d; auto; destruct P as [P _]; discriminate P; discriminate). subst d. rewrite H in *. destruct (s_live s') eqn:SL; [|discriminate].
    split; auto. split; auto. split; [rewrite R; congruence|]. unfold stop. rewrite H. eexists. split; [reflexivity|]. exact SL.
Qed.
Print Assumptions C82_lifecycle_partial.

(** in such programs without own options, the running daemon trusts an authority iff the instance checks the clients' certificates *)
Theorem C82_client_certificates_partial : forall u l rs s' d, initialised u -> Forall call_ok l -> Forall plain l ->
  run l (fresh u) = Ret (rs, s') -> legal false l rs true -> In d (s_live s') ->
  (l_client_auth (s_inst s') = true <-> exists t, In (MemTrust t) (d_options d)).
Proof.
  intros u l rs s' d I0 F P E L ID. destruct (initialised_inv u I0) as (I & X). assert (T : trusting (fresh u)) by (intros y []).
  pose proof (trust_run _ _ _ _ L _ _ P I F X T E) as T'.
  destruct (C82_lifecycle_partial u l rs s' true I0 F E L) as (A & _). destruct (A eq_refl) as (d' & LV & D & _). rewrite LV in ID. destruct ID as [<-|[]].
  apply T'; auto. rewrite LV. now left.
Qed.
Print Assumptions C82_client_certificates_partial.

(** a daemon whose handle the instance has lost runs forever: no call reaches it *)
Theorem C82_lost : forall l s rs s' d, In d (s_live s) -> l_daemon (s_inst s) <> Some (d_handle d) -> d_handle d < s_next s ->
  run l s = Ret (rs, s') -> In d (s_live s').
Proof. intros l s rs s' d A B C E. now destruct (lost_run l s rs s' d A B C E). Qed.
Print Assumptions C82_lost.

(** full C82 is false: a second start of a running instance is refused ("already started"), yet it forgets the daemon: the port stays taken and whatever the program does next, the server runs on *)
Theorem C82_second_start_refuted : exists s1 d, run [Endpoint (EAdd e1); Start true None None None; Start true None None None] (fresh u0) = Ret ([U_OK; U_OK; U_ERROR_LIBMHD], s1) /\
  l_status (s_inst s1) = Failed /\ l_daemon (s_inst s1) = None /\ In d (s_live s1) /\ (exists s2, stop s1 = Ret (U_ERROR_PARAMS, s2)) /\
  forall l rs s', run l s1 = Ret (rs, s') -> In d (s_live s').
Proof.
  eexists. eexists (mk_daemon 0 8080 [ThreadPerConnection; ErrorLog; Polling; Upgrade] [Logger; Completed; SockAddr None; UriLog; Timeout 30]).
  split; [vm_compute; reflexivity|]. split; [reflexivity|]. split; [reflexivity|]. split; [left; reflexivity|]. split; [eexists; vm_compute; reflexivity|].
  intros l rs s' E. eapply C82_lost; [| | |exact E]; [left; reflexivity|discriminate|vm_compute; reflexivity].
Qed.
Print Assumptions C82_second_start_refuted.

(** full C82 is false: a refused start switches the clients' certificates off in an instance that runs with them *)
Theorem C82_client_certificates_refuted : exists s1 d, run [Endpoint (EAdd e1); Start true (Some (bs "k")) (Some (bs "c")) (Some (bs "ca")); Start true None None None] (fresh u0)
     = Ret ([U_OK; U_OK; U_ERROR_LIBMHD], s1) /\ s_live s1 = [d] /\ In (MemTrust (bs "ca")) (d_options d) /\ l_client_auth (s_inst s1) = false.
Proof.
  eexists. eexists. split; [vm_compute; reflexivity|]. split; [reflexivity|]. split; [do 6 right; left; reflexivity|reflexivity].
Qed.
Print Assumptions C82_client_certificates_refuted.

(** full C82 is false: the start with own options checks nothing and gives up the daemon that runs; both answer U_OK *)
Theorem C82_own_options_refuted : exists s1 d d', run [StartOptions true [] (Some [Some End]); StartOptions true [] (Some [Some End])] (fresh u0) = Ret ([U_OK; U_OK], s1) /\
  s_live s1 = [d; d'] /\ d_port d = d_port d' /\ endpoint_list (l_endpoints (s_inst s1)) = None /\ forall l rs s', run l s1 = Ret (rs, s') -> In d (s_live s').
Proof.
  eexists. exists (mk_daemon 0 8080 [] []). eexists. split; [vm_compute; reflexivity|]. split; [reflexivity|]. split; [reflexivity|]. split; [reflexivity|].
  intros l rs s' E. eapply C82_lost; [| | |exact E]; [left; reflexivity|discriminate|vm_compute; reflexivity].
Qed.
Print Assumptions C82_own_options_refuted.

Example C82_ex : exists s', run [Endpoint (EAdd e1); Stop; Start true None None None; Endpoint (ERemove e1); Stop; Start false None None None; Start true None None None] (fresh u0)
    = Ret ([U_OK; U_ERROR_PARAMS; U_OK; U_OK; U_OK; U_ERROR_LIBMHD; U_OK], s') /\
  legal false [Endpoint (EAdd e1); Stop; Start true None None None; Endpoint (ERemove e1); Stop; Start false None None None; Start true None None None]
    [U_OK; U_ERROR_PARAMS; U_OK; U_OK; U_OK; U_ERROR_LIBMHD; U_OK] true /\
  Forall call_ok [Endpoint (EAdd e1); Stop; Start true None None None; Endpoint (ERemove e1); Stop; Start false None None None; Start true None None None] /\
  initialised u0.
Proof.
  eexists. split; [vm_compute; reflexivity|]. split.
  - constructor. constructor. apply legal_start with (q := true); [split; reflexivity|]. constructor. constructor.
    apply legal_start with (q := false); [split; discriminate|]. apply legal_start with (q := true); [split; reflexivity|]. constructor.
  - split; [constructor; [left; discriminate|]; repeat (constructor; [exact Logic.I|]); constructor|].
    eexists. exists 30. split; [|left; exists 8080, None; vm_compute; reflexivity]. reflexivity.
Qed.
