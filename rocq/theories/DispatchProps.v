(** C21, C22, C23, C24: which callbacks run, what they see, and what is answered. *)
From Coq Require Import String ZArith Bool List Lia Sorted Permutation.
From Verif Require Import Base BaseFacts UMapModel UMapSpec SMap RouterModel RouterSpec RouterProofs EndpointProofs RouterProps
  CookieModel DispatchModel DispatchSpec DispatchProofs.
Import ListNotations.
Open Scope Z_scope.

Lemma configured_default : forall dflt e, the_default dflt = Some e <-> configured dflt e.
Proof.
  intros dflt e. unfold the_default, configured. destruct dflt as [x|]; [|split; [discriminate|intros [H _]; discriminate]].
  destruct (callback x) eqn:E; split.
  - intros H. injection H as <-. split; congruence.
  - intros [H _]. congruence.
  - discriminate.
  - intros [H N]. injection H as <-. contradiction.
Qed.

Section Props.
(** the state of the callbacks, the C library, the callbacks themselves, and MHD's header check *)
Variables (W : Type) (tl : Z -> Z) (qsort : list endpoint -> list endpoint)
  (cb : Z -> Z -> Z -> umap -> response -> W -> Z * response * W) (accepts : str -> str -> bool)
  (handshake : Z -> list (str * str) + (Z * list Z)).
(** the configuration of the instance, the history of its endpoint table *)
Variables (dflt : option endpoint) (dheaders : option umap) (realm : option str) (check : bool)
  (ops : list eop) (u : instance) (es : list endpoint).
(** the request *)
Variables (url : str) (initial : umap) (method : str) (map_url : umap) (w : W).

Hypothesis Q : sorts qsort.
Hypothesis OPS : Forall eop_ok ops.
Hypothesis RUN : eop_run init_instance ops = Ret u.
Hypothesis MEAN : eops_mean [] ops es.
Hypothesis FEW : zlen es < 4294967295.
Hypothesis CB : callbacks_ok W cb.
Hypothesis RQ : request_ok url initial.
Hypothesis DH : forall m, dheaders = Some m -> exists d, repr m d.

Definition the_dispatch :=
  dispatch W tl qsort cb accepts handshake dflt dheaders realm check url initial method (endpoint_list u) map_url w.

Lemma facts : exists l res, selection method url es l /\ the_dispatch = Ret res /\
  exists c, to_run dflt l c /\
  match c with
  | [] => res = mk_result [Queue 404 (mk_mhd (CBuffer not_found_body) [])] [] []
  | c => exists evs last r0, fresh_response dheaders r0 /\ calls res = evs ++ [last] /\
        genuine W cb r0 w (evs ++ [last]) /\ runs_in_order W c (evs ++ [last]) /\
        (forall a x b, evs ++ [last] = a ++ x :: b -> ev_pos x = not_ignored W a) /\
        ((extra res = [] /\ (the_default dflt = None \/ ~ all_ignored (evs ++ [last])) /\
          exists d a, repr (r_header (ev_resp last)) d /\ answers res = [a] /\
            chain_answer W accepts handshake realm last (all_headers d (r_cookies (ev_resp last))) a)
         \/
         (exists x e r1, extra res = [x] /\ the_default dflt = Some e /\ ev_ep x = e /\ ev_pos x = 0 /\
            all_ignored (evs ++ [last]) /\
            (r1 = ev_resp last \/ exists st, r1 = set_status (ev_resp last) st) /\ called W cb r1 (ev_world last) x /\
            (r_ws (ev_resp last) = None -> known_code (ev_code x) ->
               exists d a, repr (r_header (ev_resp x)) d /\ answers res = [a] /\
                 plain_answer accepts realm (ev_resp x) (all_headers d (r_cookies (ev_resp x))) (ev_code x) a) /\
            (~ known_code (ev_code x) -> answers res = [])))
  end.
Proof.
  destruct (eop_run_lemma ops init_instance [] ltac:(repeat split; constructor) OPS) as (u' & es' & R' & M' & T).
  rewrite RUN in R'. injection R' as <-. rewrite (eops_mean_det _ _ _ _ M' MEAN) in T.
  destruct (dispatch_ok W tl qsort cb accepts handshake dflt dheaders realm check url initial u es method map_url w
    Q T (eops_mean_complete _ _ _ MEAN ltac:(constructor)) FEW CB RQ DH) as (l & res & E & D & F).
  exists l, res. split.
  - exists (sel method url). split; [intros; apply sel_selected|].
    rewrite (match_table qsort u es method url T) in E. injection E as <-. apply Q.
  - split; [exact D|]. destruct l as [|e l]; [destruct (the_default dflt) as [e|] eqn:DE|].
    + exists [e]. split; [apply tr_default; now apply configured_default|exact F].
    + exists []. split; [|exact F]. apply tr_nothing. intros e H. apply configured_default in H. congruence.
    + exists (e :: l). split; [constructor|exact F].
Qed.

(** C21. Every request is handled without undefined behaviour; the callbacks run in the loop are the
    selected endpoints (or the default one) in priority order, each once, up to the first that
    stops; each gets the response and state its predecessor left. *)
Theorem C21_callbacks_in_order : exists l c res,
  selection method url es l /\ to_run dflt l c /\ the_dispatch = Ret res /\
  runs_in_order W c (calls res) /\ (c <> [] -> calls res <> []) /\
  exists r0, fresh_response dheaders r0 /\ genuine W cb r0 w (calls res).
Proof.
  destruct facts as (l & res & S & D & c & TR & F). exists l, c, res.
  split; [auto|]. split; [auto|]. split; [auto|]. destruct c as [|e c].
  - subst res. cbn [calls]. split; [|split; [congruence|]].
    + split; [reflexivity|]. split; [constructor|]. split; [intros a ev b H; destruct a; discriminate|cbn; lia].
    + destruct (first_response_ok dheaders DH) as (r0 & _ & _ & FR). exists r0. split; [auto|exact I].
  - destruct F as (evs & last & r0 & FR & C & G & R & _). rewrite C. split; [auto|]. split; [destruct evs; discriminate|].
    exists r0. auto.
Qed.

(** C22. Every callback, the default one included, sees in callback_position the number of earlier
    callbacks of this request that did not return IGNORE. *)
Theorem C22_position : forall res, the_dispatch = Ret res ->
  forall a ev b, calls res ++ extra res = a ++ ev :: b -> ev_pos ev = not_ignored W a.
Proof.
  intros res D a ev b H. destruct facts as (l & res' & S & D' & c & TR & F). rewrite D in D'. injection D' as <-.
  destruct c as [|e c].
  - subst res. destruct a; discriminate.
  - destruct F as (evs & last & r0 & FR & C & G & R & P & F). destruct F as [(X & _)|(x & e0 & r1 & X & _ & _ & X0 & AI & _)].
    + rewrite X, app_nil_r, C in H. eapply P; eauto.
    + rewrite X, C in H. destruct b as [|y b].
      * apply app_inj_tail in H as [<- <-]. rewrite X0. symmetry. now apply ignored_zero.
      * destruct (exists_last (l := y :: b)) as (b' & z & BE); [discriminate|]. rewrite BE in H.
        rewrite app_comm_cons, app_assoc in H. apply app_inj_tail in H as [H _]. eapply P; eauto.
Qed.

(** C23, when nothing can be run: exactly the 404 answer *)
Theorem C23_nothing_matches : (forall e, In e es -> ~ selected method url e) -> (forall e, ~ configured dflt e) ->
  the_dispatch = Ret (mk_result [Queue 404 (mk_mhd (CBuffer (bs "Resource not found")) [])] [] []).
Proof.
  intros NO ND. destruct facts as (l & res & (p & P & PM & _) & D & c & TR & F).
  assert (filter p es = []).
  { destruct (filter p es) as [|e r] eqn:E; auto. exfalso.
    assert (I : In e (filter p es)) by (rewrite E; left; auto). apply filter_In in I as [I I2]. apply P in I2. eapply NO; eauto. }
  rewrite H in PM. apply Permutation_nil in PM. subst l. inversion TR; subst.
  - exfalso. eapply ND; eauto.
  - rewrite D, F. reflexivity.
Qed.

(** C23. One answer, given by the last callback that ran: unless the default endpoint is
    run a second time after a websocket upgrade, or returns an unknown code there. *)
Theorem C23_one_answer_partial : forall res, the_dispatch = Ret res -> calls res <> [] ->
  exists evs last, calls res = evs ++ [last] /\
  (extra res = [] -> exists d a, repr (r_header (ev_resp last)) d /\ answers res = [a] /\
     chain_answer W accepts handshake realm last (all_headers d (r_cookies (ev_resp last))) a) /\
  (forall x, extra res = [x] -> r_ws (ev_resp last) = None -> U_CALLBACK_CONTINUE <= ev_code x <= U_CALLBACK_ERROR ->
     exists d a, repr (r_header (ev_resp x)) d /\ answers res = [a] /\
       plain_answer accepts realm (ev_resp x) (all_headers d (r_cookies (ev_resp x))) (ev_code x) a).
Proof.
  intros res D N. destruct facts as (l & res' & S & D' & c & TR & F). rewrite D in D'. injection D' as <-.
  destruct c as [|e c]; [subst res; cbn in N; congruence|].
  destruct F as (evs & last & r0 & FR & C & G & R & P & F). exists evs, last. split; [auto|].
  destruct F as [(X & _ & A)|(x & e0 & r1 & X & _ & _ & X0 & AI & _ & _ & A & _)].
  - split; [auto|]. intros x H. congruence.
  - split; [congruence|]. intros y H WN K. rewrite X in H. injection H as <-. apply A; auto.
    unfold known_code, U_CALLBACK_CONTINUE, U_CALLBACK_ERROR, U_CALLBACK_IGNORE, U_CALLBACK_COMPLETE, U_CALLBACK_UNAUTHORIZED in *. lia.
Qed.

(** an unknown code from the default endpoint at its second site: nothing is ever queued *)
Theorem C23_unknown_default_code_refuted : forall res x, the_dispatch = Ret res -> extra res = [x] ->
  ~ (U_CALLBACK_CONTINUE <= ev_code x <= U_CALLBACK_ERROR) -> answers res = [].
Proof.
  intros res x D X N. destruct facts as (l & res' & S & D' & c & TR & F). rewrite D in D'. injection D' as <-.
  destruct c as [|e c]; [subst res; cbn in X; discriminate|].
  destruct F as (evs & last & r0 & FR & C & G & R & P & F).
  destruct F as [(X' & _ & A)|(y & e0 & r1 & X' & _ & _ & X0 & AI & _ & _ & _ & A)]; [congruence|].
  rewrite X in X'. injection X' as <-. apply A. intros K. apply N.
  unfold known_code, U_CALLBACK_CONTINUE, U_CALLBACK_ERROR, U_CALLBACK_IGNORE, U_CALLBACK_COMPLETE, U_CALLBACK_UNAUTHORIZED in *. lia.
Qed.

(** C24. The default endpoint runs after the loop iff it is configured and every callback that ran
    returned IGNORE, and then once; it runs in the loop iff nothing matched. *)
Theorem C24_default_iff : forall res, the_dispatch = Ret res ->
  (zlen (extra res) <= 1) /\
  (forall x, In x (extra res) -> configured dflt (ev_ep x)) /\
  (extra res <> [] <-> (exists e, configured dflt e) /\ all_ignored (calls res)) /\
  ((forall e, In e es -> ~ selected method url e) -> forall e, configured dflt e -> map ev_ep (calls res) = [e]).
Proof.
  intros res D. destruct facts as (l & res' & (p & P & PM & _) & D' & c & TR & F). rewrite D in D'. injection D' as <-.
  assert (LAST : (forall e, In e es -> ~ selected method url e) -> forall e, configured dflt e -> c = [e]).
  { intros NO e CE.
    assert (filter p es = []).
    { destruct (filter p es) as [|e0 r] eqn:E; auto. exfalso.
      assert (I : In e0 (filter p es)) by (rewrite E; left; auto). apply filter_In in I as [I I2]. apply P in I2. eapply NO; eauto. }
    rewrite H in PM. apply Permutation_nil in PM. subst l. inversion TR; subst.
    - destruct H0, CE. congruence.
    - exfalso. eapply H0; eauto. }
  destruct c as [|e c].
  - subst res. cbn [calls extra]. split; [unfold zlen; cbn; lia|]. split; [intros x []|]. split.
    + split; [congruence|]. intros [(e & H) _]. exfalso. inversion TR; subst. eapply H0; eauto.
    + intros NO e CE. discriminate (LAST NO e CE).
  - destruct F as (evs & last & r0 & FR & C & G & R & Po & F).
    assert (L4 : (forall e, In e es -> ~ selected method url e) -> forall e, configured dflt e -> map ev_ep (calls res) = [e]).
    { intros NO e0 CE. pose proof (LAST NO e0 CE) as H. injection H as -> ->. rewrite C.
      destruct R as (R1 & R2 & _). rewrite app_length in R2. cbn in R2. destruct evs; [|cbn in R2; lia].
      rewrite R1. reflexivity. }
    destruct F as [(X & ND & A)|(x & e0 & r1 & X & DE & XE & X0 & AI & _)].
    + rewrite X. split; [unfold zlen; cbn; lia|]. split; [intros y []|]. split; [|auto].
      split; [congruence|]. intros [(e0 & H) AI]. rewrite C in AI. destruct ND as [ND|ND]; [|contradiction].
      apply configured_default in H. congruence.
    + rewrite X. apply configured_default in DE. split; [unfold zlen; cbn; lia|]. split; [|split; [|auto]].
      * intros y [<-|[]]. rewrite XE. exact DE.
      * split; [|discriminate]. intros _. split; [eauto|]. rewrite C. exact AI.
Qed.

(** C24, the part about "at most once" that holds: when some endpoint matches, or some callback does
    not return IGNORE, the default endpoint (not itself in the table) runs at most once *)
Theorem C24_at_most_once_partial : forall res e, the_dispatch = Ret res -> configured dflt e -> ~ In e es ->
  (exists e', In e' es /\ selected method url e') \/ ~ all_ignored (calls res) ->
  forall a x b y c, calls res ++ extra res = a ++ x :: b ++ y :: c -> ~ (ev_ep x = e /\ ev_ep y = e).
Proof.
  intros res e D CE NI H a x b y c E [X Y].
  destruct facts as (l & res' & (p & P & PM & _) & D' & c0 & TR & F). rewrite D in D'. injection D' as <-.
  destruct c0 as [|e0 c0]; [subst res; destruct a; discriminate|].
  destruct F as (evs & last & r0 & FR & C & G & R & Po & F). rewrite <- C in *.
  assert (PRE : map ev_ep (calls res) = firstn (length (calls res)) (e0 :: c0)) by apply R.
  assert (XL : zlen (extra res) <= 1 /\ (~ all_ignored (calls res) -> extra res = [])).
  { destruct F as [(-> & _)|(z & e1 & r1 & -> & _ & _ & _ & AI & _)]; split; auto; try (unfold zlen; cbn; lia); contradiction. }
  destruct XL as [XL XI].
  destruct l as [|l0 l].
  - destruct H as [(e' & I & S)|H].
    + apply Permutation_sym, Permutation_nil in PM. assert (In e' (filter p es)) by (apply filter_In; split; auto; apply P; auto).
      rewrite PM in *. contradiction.
    + rewrite (XI H), app_nil_r in E. inversion TR; subst. apply (f_equal (@length _)) in E.
      destruct R as (_ & R2 & _). rewrite E in R2. rewrite app_length in R2. cbn in R2. rewrite app_length in R2. cbn in R2. lia.
  - inversion TR; subst. assert (I : ~ In (ev_ep x) (map ev_ep (calls res))).
    { rewrite PRE. intros I. apply NI.
      assert (J : In (ev_ep x) (e0 :: c0)) by (rewrite <- (firstn_skipn (length (calls res)) (e0 :: c0)); apply in_or_app; auto).
      apply Permutation_sym in PM. apply (Permutation_in _ PM) in J. apply filter_In in J. tauto. }
    assert (J : ~ In (ev_ep y) (map ev_ep (calls res))) by now rewrite Y.
    destruct (extra res) as [|z [|z' r]]; [| |unfold zlen in XL; cbn in XL; lia].
    + rewrite app_nil_r in E. apply I. rewrite E, map_app. apply in_or_app. right. left. auto.
    + destruct (exists_last (l := y :: c)) as (c' & z' & E2); [discriminate|].
      assert (E3 : calls res ++ [z] = (a ++ x :: b ++ c') ++ [z']) by (rewrite E, E2, <- !app_assoc; cbn; rewrite <- app_assoc; auto).
      apply app_inj_tail in E3 as [E3 _]. apply I. rewrite E3, map_app. apply in_or_app. right. left. auto.
Qed.
End Props.
Print Assumptions C21_callbacks_in_order.
Print Assumptions C22_position.
Print Assumptions C23_nothing_matches.
Print Assumptions C23_one_answer_partial.
Print Assumptions C23_unknown_default_code_refuted.
Print Assumptions C24_default_iff.
Print Assumptions C24_at_most_once_partial.

(** ** concrete runs *)

(** callbacks by number: 1 CONTINUE and a body, 2 IGNORE, 3 UNAUTHORIZED, 4 COMPLETE, 5 IGNORE with a
    websocket, 6 an unknown code; the state counts calls *)
Definition ex_cb (f ud pos : Z) (m : umap) (r : response) (n : Z) : Z * response * Z :=
  if f =? 1 then (U_CALLBACK_CONTINUE, mk_resp 201 (r_header r) (r_cookies r) (bs "one") (r_realm r) (r_stream r) (r_ws r), n + 1)
  else if f =? 2 then (U_CALLBACK_IGNORE, r, n + 1)
  else if f =? 3 then (U_CALLBACK_UNAUTHORIZED, r, n + 1)
  else if f =? 4 then (U_CALLBACK_COMPLETE, mk_resp 200 (r_header r) (r_cookies r) (r_body r ++ bs "+four") (r_realm r) (r_stream r) (r_ws r), n + 1)
  else if f =? 5 then (U_CALLBACK_IGNORE, mk_resp 200 (r_header r) (r_cookies r) (r_body r) (r_realm r) (r_stream r) (Some 7), n + 1)
  else (77, r, n + 1).
Lemma ex_cb_ok : callbacks_ok Z ex_cb.
Proof.
  intros f ud pos m r w H. unfold ex_cb. destruct (f =? 1), (f =? 2), (f =? 3), (f =? 4), (f =? 5); exact H.
Qed.

Definition ex_tbl (fs : list Z) : instance :=
  match eop_run init_instance (map (fun f => EAdd (ep "GET" "/a" "*" f f)) fs) with Ret u => u | UB _ => init_instance end.
Definition ex_run (fs : list Z) (dflt : option Z) : outcome (list answer * list Z * list Z) :=
  match dispatch Z id_tl isort ex_cb (fun _ _ => true) (fun _ => inl []) (option_map (ep "" "" "" 0) dflt) None None true
          (bs "/a/b") u_map_init (bs "GET") (endpoint_list (ex_tbl fs)) u_map_init 0 with
  | Ret r => Ret (answers r, map ev_pos (calls r), map ev_world (extra r))
  | UB k => UB k
  end.

(** CONTINUE, IGNORE, UNAUTHORIZED, (not run) COMPLETE: positions 0, 1, 1 and a 401 *)
Example C21_ex : ex_run [1; 2; 3; 4] (Some 4) =
  Ret ([Queue 401 (mk_mhd (CBuffer (bs "one")) [])], [0; 1; 1], []).
Proof. vm_compute. reflexivity. Qed.
Example C22_ex : ex_run [2; 1; 4] None = Ret ([Queue 200 (mk_mhd (CBuffer (bs "one+four")) [])], [0; 1; 1], []).
Proof. vm_compute. reflexivity. Qed.
Example C23_ex : ex_run [] None = Ret ([Queue 404 (mk_mhd (CBuffer (bs "Resource not found")) [])], [], []).
Proof. vm_compute. reflexivity. Qed.
(** everything ignored: the default endpoint runs as third callback *)
Example C24_ex : ex_run [2; 2] (Some 4) = Ret ([Queue 200 (mk_mhd (CBuffer (bs "+four")) [])], [0; 0], [3]).
Proof. vm_compute. reflexivity. Qed.
Example C24_hypotheses_ex : request_ok (bs "/a/b") u_map_init /\ callbacks_ok Z ex_cb /\ sorts isort /\
  Forall eop_ok (map (fun f => EAdd (ep "GET" "/a" "*" f f)) [1; 2]) /\
  eops_mean [] (map (fun f => EAdd (ep "GET" "/a" "*" f f)) [1; 2]) (map (fun f => ep "GET" "/a" "*" f f) [1; 2]).
Proof.
  split; [|split; [apply ex_cb_ok|split; [apply isort_sorts|split]]].
  - split; [repeat constructor; vm_compute; split; congruence|]. exists []. split; [apply repr_init|]. split; [constructor|reflexivity].
  - constructor; [left; discriminate|]. constructor; [left; discriminate|constructor].
  - apply (ems_cons _ _ ([] ++ [ep "GET" "/a" "*" 1 1])).
    + apply em_add. split; [discriminate|]. split; [discriminate|left; discriminate].
    + apply (ems_cons _ _ ([ep "GET" "/a" "*" 1 1] ++ [ep "GET" "/a" "*" 2 2])).
      * apply em_add. split; [discriminate|]. split; [discriminate|left; discriminate].
      * apply ems_nil.
Qed.

(** nothing matches and the default endpoint returns IGNORE: it runs twice *)
Theorem C24_default_twice_refuted : exists r,
  dispatch Z id_tl isort ex_cb (fun _ _ => true) (fun _ => inl []) (Some (ep "" "" "" 0 2)) None None true
          (bs "/a/b") u_map_init (bs "GET") None u_map_init 0 = Ret r /\
  map ev_ep (calls r ++ extra r) = [ep "" "" "" 0 2; ep "" "" "" 0 2].
Proof. eexists. split; [vm_compute; reflexivity|vm_compute; reflexivity]. Qed.
Print Assumptions C24_default_twice_refuted.

(** a websocket upgrade by a callback that returns IGNORE is destroyed, and the body of the default
    endpoint goes out with status 101 *)
Theorem C23_upgrade_then_default_refuted : exists r,
  dispatch Z id_tl isort ex_cb (fun _ _ => true) (fun _ => inl []) (Some (ep "" "" "" 0 4)) None None true
          (bs "/a/b") u_map_init (bs "GET") (endpoint_list (ex_tbl [5])) u_map_init 0 = Ret r /\
  answers r = [Queue 101 (mk_mhd (CBuffer (bs "+four")) [])] /\ ev_code (last (extra r) (mk_event (ep "" "" "" 0 0) 0 0 (mk_resp 0 u_map_init [] [] None None None) 0)) = U_CALLBACK_COMPLETE.
Proof. eexists. split; [vm_compute; reflexivity|split; vm_compute; reflexivity]. Qed.
Print Assumptions C23_upgrade_then_default_refuted.

(** the request that is never answered *)
Example C23_unanswered_ex : ex_run [2] (Some 6) = Ret ([], [0], [2]).
Proof. vm_compute. reflexivity. Qed.
