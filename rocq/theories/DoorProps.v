(** C122: callbacks that guard others, and the authentication example. *)
From Coq Require Import String ZArith Bool List Lia Sorted Permutation.
From Verif Require Import Base BaseFacts UMapModel SMap RouterModel RouterSpec RouterProofs EndpointProofs RouterProps DispatchModel DispatchSpec DispatchProofs DispatchProps.
From Verif Require Import DoorModel DoorSpec.
Import ListNotations.
Open Scope Z_scope.

(** C122. A guard works: if every protected endpoint has one in front of it (it covers it, with a smaller priority) that refuses, no protected callback is called, whatever else is
    registered and however equal priorities are ordered. *)
Theorem C122_guard : forall W tl qsort cb accepts handshake dflt dheaders realm check ops u es url initial method map_url (w : W) (protected : endpoint -> Prop) res,
  sorts qsort -> Forall eop_ok ops -> eop_run init_instance ops = Ret u -> eops_mean [] ops es -> zlen es < 4294967295 -> callbacks_ok W cb -> request_ok url initial ->
  (forall m, dheaders = Some m -> exists d, repr m d) ->
  (forall p, protected p -> In p es -> exists g, In g es /\ covers g p /\ priority g < priority p /\ refuses cb g) ->
  (forall e, dflt = Some e -> ~ protected e) ->
  dispatch W tl qsort cb accepts handshake dflt dheaders realm check url initial method (endpoint_list u) map_url w = Ret res ->
  forall ev, In ev (calls res ++ extra res) -> ~ protected (ev_ep ev).
Proof.
  intros W tl qsort cb accepts handshake dflt dheaders realm check ops u es url initial method map_url w protected res Q OPS RUN MEAN FEW CB RQ DH GUARD ND D ev IN PR.
  destruct (facts W tl qsort cb accepts handshake dflt dheaders realm check ops u es url initial method map_url w Q OPS RUN MEAN FEW CB RQ DH) as (l & res' & S & D' & c & TR & F).
  unfold the_dispatch in D'. rewrite D in D'. injection D' as <-. destruct S as (p & PS & PERM & SORT).
  destruct c as [|c0 c]; [subst res; destruct IN|]. destruct F as (evs & last & r0 & FR & C & G & (R1 & R2 & R3 & R4) & _ & F).
  assert (X : In ev (evs ++ [last]) \/ dflt = Some (ev_ep ev)).
  { apply in_app_or in IN as [I|I]; [left; now rewrite <- C|]. destruct F as [(F & _)|(x & e & r1 & F & T & E & _)]; rewrite F in I; [destruct I|]. destruct I as [<-|[]]. right.
    apply configured_default in T. destruct T as [T _]. now rewrite E. }
  destruct X as [I|I]; [|exact (ND _ I PR)].
  inversion TR as [e0 l0 E1 E2|e0 CF E1 E2|]; subst; [|].
  2:{ assert (ev_ep ev = c0) as E. { apply (in_map ev_ep) in I. rewrite R1 in I. destruct (length (evs ++ [last])); cbn in I; [destruct I|]. rewrite firstn_nil in I. destruct I as [I|[]]. now symmetry. }
      destruct CF as [CF _]. rewrite <- E in CF. exact (ND _ CF PR). }
  (* the protected endpoint is among the selected ones, and its guard before it *)
  apply in_split in I as (a & b & I). assert (EP : nth_error (c0 :: c) (length a) = Some (ev_ep ev)).
  { assert (N : nth_error (map ev_ep (evs ++ [last])) (length a) = Some (ev_ep ev)) by (rewrite I, map_app, nth_error_app2; rewrite map_length; [rewrite Nat.sub_diag; reflexivity|lia]).
    rewrite R1 in N. rewrite <- (firstn_skipn (length (evs ++ [last])) (c0 :: c)). rewrite nth_error_app1; [exact N|]. apply nth_error_Some. rewrite N. discriminate. }
  assert (INP : In (ev_ep ev) (filter p es)) by (eapply Permutation_in; [apply Permutation_sym; exact PERM|eapply nth_error_In; exact EP]).
  apply filter_In in INP as [INP SP]. destruct (GUARD _ PR INP) as (g & IG & CV & PL & RF).
  assert (SG : In g (c0 :: c)). { eapply Permutation_in; [exact PERM|]. apply filter_In. split; [exact IG|]. apply PS, CV, PS, SP. }
  apply In_nth_error in SG as (k & SG). assert (KL : (k < length a)%nat).
  { destruct (Nat.lt_ge_cases k (length a)) as [L|L]; [exact L|exfalso]. clear - SORT SG EP L PL. revert SORT SG EP. generalize (c0 :: c). intros l. revert k L. induction (length a) as [|n IH] in l |- *; intros k L S N1 N2.
    - destruct l as [|x l]; [discriminate|]. cbn in N2. injection N2 as ->. destruct k as [|k]; cbn in N1; [injection N1 as N1; rewrite N1 in PL; lia|]. inversion S as [|? ? _ FA]; subst. apply nth_error_In in N1. rewrite Forall_forall in FA. specialize (FA _ N1). lia.
    - destruct l as [|x l]; [discriminate|]. destruct k as [|k]; [lia|]. inversion S; subst. eapply IH; [|eassumption|exact N1|exact N2]. lia. }
  (* the guard was called, and did not stop *)
  destruct (nth_error a k) as [eg|] eqn:NA; [|apply nth_error_None in NA; lia]. apply nth_error_split in NA as (a1 & a2 & EA & LA). subst a.
  assert (EG : ev_ep eg = g).
  { assert (N : nth_error (map ev_ep (evs ++ [last])) k = Some (ev_ep eg)) by (rewrite I, map_app, map_app, <- app_assoc, nth_error_app2; rewrite map_length; [replace (k - length a1)%nat with 0%nat by lia; reflexivity|lia]).
    rewrite R1 in N. assert (N' : nth_error (c0 :: c) k = Some (ev_ep eg)). { rewrite <- (firstn_skipn (length (evs ++ [last])) (c0 :: c)). rewrite nth_error_app1; [exact N|]. apply nth_error_Some. rewrite N. discriminate. }
    congruence. }
  destruct (R3 a1 eg (a2 ++ ev :: b)) as [[PC|PC] _]; [rewrite I, <- app_assoc; reflexivity|destruct a2; discriminate| |];
  (assert (CA : exists r w', called W cb r w' eg) by
    (clear - G I; rewrite I, <- app_assoc in G; clear I; revert G; generalize r0 w; induction a1 as [|y a1 IH]; intros r w' G; cbn [app genuine] in G; destruct G as [G1 G2]; [eexists; eexists; exact G1|eapply IH; exact G2]));
  destruct CA as (r & w' & f & m & CB1 & CB2); rewrite EG in CB1, CB2; specialize (RF f (ev_pos eg) m r w' CB1); rewrite CB2 in RF; cbn [fst] in RF; destruct RF; congruence.
Qed.

(** what covers what: an endpoint with the same method, prefix and format; an endpoint for all methods whose pattern is a star; *)
Lemma covers_same : forall g p, http_method g = http_method p -> url_prefix g = url_prefix p -> url_format g = url_format p -> covers g p.
Proof. intros g p M P F method url S. unfold selected, pattern in *. rewrite M, P, F. exact S. Qed.
Lemma covers_star : forall g p, http_method g = Some [42] -> url_prefix g = None -> url_format g = Some [42] -> covers g p.
Proof.
  intros g p M P F method url (_ & _ & u & _ & S & _). split; [exists [42]; split; [exact M|right; now exists []]|]. exists [[42]], u. split; [|split; [exact S|apply pm_star]].
  apply pattern_split. rewrite P, F. reflexivity.
Qed.

(** ** the authentication server *)
Definition door_es (certs : bool) : list endpoint :=
  [door_ep "/basic" 0 1; door_ep "/basic" 1 2; door_ep "/default" 1 2; door_ep "/default" 0 1] ++ (if certs then [door_ep "/client_cert" 0 3] else []).
Lemma door_table : forall certs, exists u, eop_run init_instance (door_ops certs) = Ret u /\ table_ok u (door_es certs).
Proof. intros [|]; eexists; (split; [vm_compute; reflexivity|]); (split; [repeat constructor; discriminate|split; [reflexivity|vm_compute; reflexivity]]). Qed.
Lemma pmatch_lit : forall p u, Forall (fun w => exists c r, w = c :: r /\ c <> 42 /\ c <> 64 /\ c <> 58) p -> pmatch p u -> u = p.
Proof.
  intros p u F M. induction M as [|x u|c n p w u H M IH|w p u M IH]; [reflexivity| | |].
  - inversion F as [|? ? (c & r & E & N & _) _]; subst. injection E as <- _. congruence.
  - inversion F as [|? ? (c' & r & E & _ & N1 & N2) _]; subst. injection E as <- _. destruct H; congruence.
  - inversion F; subst. now rewrite IH.
Qed.
Definition plain_word (w : str) : Prop := exists c r, w = c :: r /\ c <> 42 /\ c <> 64 /\ c <> 58.
Lemma door_selected : forall method url f prio cb w, split_url (Some (bs "/auth")) (Some (bs f)) = [bs "auth"; w] -> plain_word w ->
  (sel method url (door_ep f prio cb) = true <-> asks_for method url (bs "auth") w).
Proof.
  intros method url f prio cb w SU PW. rewrite sel_selected. unfold asks_for, selected. cbn [door_ep http_method]. split.
  - intros ((m & [= <-] & M) & p & u & P & S & PM). split; [destruct M as [M|(x & M)]; [symmetry; exact M|discriminate M]|].
    apply pattern_split in P. cbn [door_ep url_prefix url_format] in P. rewrite SU in P. subst p. apply pmatch_lit in PM; [now subst u|]. constructor; [|constructor; [exact PW|constructor]].
    exists 97, (bs "uth"). split; [reflexivity|lia].
  - intros [M S]. split; [exists (bs "GET"); split; [reflexivity|left; symmetry; exact M]|]. exists [bs "auth"; w], [bs "auth"; w]. split; [apply pattern_split; symmetry; exact SU|]. split; [exact S|].
    do 2 apply pm_lit. apply pm_end.
Qed.
Lemma door_callbacks : forall user password cert, callbacks_ok unit (door user password cert).
Proof.
  intros user password cert f ud pos m r w R. unfold door. destruct (f =? 1).
  - cbn [fst snd]. unfold auth_basic_body. destruct user as [u|], password as [p|]; try exact R. destruct (str_eqb u (bs "test") && str_eqb p (bs "testpassword")); exact R.
  - destruct (f =? 2); [exact R|]. cbn [fst snd]. unfold auth_client_cert. destruct cert as [[a b]|]; exact R.
Qed.

Lemma repr_empty : forall m d, repr m [] -> repr m d -> d = [].
Proof.
  intros m [|[k v] d] E R; [reflexivity|]. pose proof (repr_has m _ k E) as A. rewrite (repr_has m _ k R) in A. cbn [shas existsb fst] in A. rewrite str_eqb_refl in A. discriminate.
Qed.
Lemma sorted_two : forall (a b : endpoint) l, priority a < priority b -> Permutation [a; b] l -> StronglySorted prio_le l -> l = [a; b].
Proof.
  intros a b l L P S. pose proof (Permutation_length P) as LE. destruct l as [|x [|y [|z l]]]; try discriminate LE. apply Permutation_length_2 in P as [[-> ->]|[-> ->]]; [reflexivity|].
  inversion S as [|? ? _ F]; subst. inversion F as [|? ? F1 _]; subst. unfold prio_le in F1. lia.
Qed.
Lemma right_dec : forall user password cert m pos ud r w, exists code r', door user password cert 1 ud pos m r w = (code, r', w) /\
  ((right user password /\ code = U_CALLBACK_CONTINUE /\ r' = r) \/ (~ right user password /\ code = U_CALLBACK_UNAUTHORIZED /\ r' = string_body r 401 (bs "Error authentication"))).
Proof.
  intros user password cert m pos ud r w. unfold door. change (1 =? 1) with true. cbv iota. unfold auth_basic_body, right.
  destruct user as [u|], password as [p|]; try (eexists; eexists; split; [reflexivity|right; split; [intros [? ?]; discriminate|split; reflexivity]]).
  destruct (str_eqb u (bs "test") && str_eqb p (bs "testpassword")) eqn:E; (eexists; eexists; split; [reflexivity|]).
  - apply andb_prop in E as [E1 E2]. apply str_eqb_eq in E1, E2. subst. left. repeat split; reflexivity.
  - right. split; [|split; reflexivity]. intros [[= ->] [= ->]]. rewrite !str_eqb_refl in E. discriminate.
Qed.
Definition page (status : Z) (text : str) : answer := Queue status (mk_mhd (CBuffer text) []).

(** the facts of one request, by the endpoints found *)
Lemma door_run : forall certs user password cert tl qsort accepts handshake url initial method map_url, sorts qsort -> request_ok url initial ->
  exists l res, l = qsort (filter (sel method url) (door_es certs)) /\ auth_server certs user password cert tl qsort accepts handshake url initial method map_url = Ret res /\
    extra res = [] /\
    match l with
    | [] => res = mk_result [Queue 404 (mk_mhd (CBuffer not_found_body) [])] [] []
    | c => exists evs last r0, r_stream r0 = None /\ r_ws r0 = None /\ r_cookies r0 = [] /\ r_realm r0 = None /\ repr (r_header r0) [] /\ calls res = evs ++ [last] /\
        genuine unit (door user password cert) r0 tt (evs ++ [last]) /\ runs_in_order unit c (evs ++ [last]) /\
        (r_header (ev_resp last) = r_header r0 -> r_cookies (ev_resp last) = [] -> r_stream (ev_resp last) = None -> r_ws (ev_resp last) = None -> r_realm (ev_resp last) = None ->
           (ev_code last = U_CALLBACK_CONTINUE -> answers res = [page (r_status (ev_resp last)) (r_body (ev_resp last))]) /\
           (ev_code last = U_CALLBACK_UNAUTHORIZED -> answers res = [QueueBasic (bs "auth_basic_default") (mk_mhd (CBuffer (r_body (ev_resp last))) [])]))
    end.
Proof.
  intros certs user password cert tl qsort accepts handshake url initial method map_url Q RQ. destruct (door_table certs) as (u & EU & T).
  destruct (dispatch_ok unit tl qsort (door user password cert) accepts handshake None (Some u_map_init) (Some (bs "auth_basic_default")) true url initial u (door_es certs) method map_url tt Q T)
    as (l & res & E & D & F).
  { destruct certs; repeat constructor; try discriminate; left; discriminate. }
  { destruct certs; reflexivity. }
  { apply door_callbacks. } { exact RQ. } { intros m [= <-]. exists []. apply repr_init. }
  rewrite (match_table qsort u (door_es certs) method url T) in E. injection E as E. exists l, res. split; [now symmetry|]. unfold auth_server. rewrite EU. cbn [bind].
  split; [exact D|]. destruct l as [|e l]; cbn [the_default] in F; [subst res; split; reflexivity|].
  destruct F as (evs & last & r0 & (_ & FC & _ & FR & FS & FW & FH) & C & G & R & _ & [(X & _ & d & a & RD & A & CH)|(x & e0 & r1 & _ & X & _)]); [|discriminate X].
  split; [exact X|]. specialize (FH [] repr_init). exists evs, last, r0. do 4 (split; [assumption|]). split; [exact FH|]. split; [exact C|]. split; [exact G|]. split; [exact R|].
  intros HH HC HS HW HR. rewrite HH in RD. apply (repr_empty _ _ FH) in RD. subst d. rewrite HC in CH. change (all_headers [] []) with (@nil (str * str)) in CH. rewrite A.
  inversion CH as [? N|? ? N1 N2|? ? N1 N2|? ? ? N1 N2|? _ _ PA]; try congruence. subst.
  split; intros CO; rewrite CO in PA; inversion PA as [? ?|? N|realm N1 N2|N1 N2|? N1 N2 N3 N4]; subst; try congruence; try discriminate; try reflexivity.
  - destruct H as [H|[H|H]]; discriminate.
  - injection N2 as <-. reflexivity.
Qed.
Lemma one_event : forall A (evs : list A) last x, evs ++ [last] = [x] -> evs = [] /\ last = x.
Proof. intros A evs last x E. apply (app_inj_tail evs [] last x) in E. exact E. Qed.

(** C122. The server of the example: for every request, certificate and order of qsort there is one answer. The protected page is only given with the right user and password, and without them
    the guard alone is called; *)
Theorem C122_server : forall certs user password cert tl qsort accepts handshake url initial method map_url, sorts qsort -> request_ok url initial ->
  exists res, auth_server certs user password cert tl qsort accepts handshake url initial method map_url = Ret res /\ extra res = [] /\
    (asks_for method url (bs "auth") (bs "basic") \/ asks_for method url (bs "auth") (bs "default") ->
       (right user password -> answers res = [page 200 (bs "Basic auth callback")] /\ map (fun ev => callback (ev_ep ev)) (calls res) = [Some 1; Some 2]) /\
       (~ right user password -> answers res = [QueueBasic (bs "auth_basic_default") (mk_mhd (CBuffer (bs "Error authentication")) [])] /\ map (fun ev => callback (ev_ep ev)) (calls res) = [Some 1])) /\
    (certs = true -> asks_for method url (bs "auth") (bs "client_cert") ->
       answers res = [match cert with
                      | Some (dn, issuer) => page 200 (bs "client dn: '" ++ dn ++ bs "', ussued by: '" ++ issuer ++ bs "'")
                      | None => page 400 (bs "Invalid client certificate")
                      end] /\ map (fun ev => callback (ev_ep ev)) (calls res) = [Some 3]) /\
    (~ asks_for method url (bs "auth") (bs "basic") -> ~ asks_for method url (bs "auth") (bs "default") -> (certs = true -> ~ asks_for method url (bs "auth") (bs "client_cert")) ->
       answers res = [page 404 (bs "Resource not found")] /\ calls res = []).
Proof.
  intros certs user password cert tl qsort accepts handshake url initial method map_url Q RQ.
  destruct (door_run certs user password cert tl qsort accepts handshake url initial method map_url Q RQ) as (l & res & EL & D & X & F). exists res. split; [exact D|]. split; [exact X|]. clear D.
  assert (PB : plain_word (bs "basic")) by (exists 98, (bs "asic"); split; [reflexivity|lia]). assert (PD : plain_word (bs "default")) by (exists 100, (bs "efault"); split; [reflexivity|lia]).
  assert (PC : plain_word (bs "client_cert")) by (exists 99, (bs "lient_cert"); split; [reflexivity|lia]).
  assert (UNIQ : forall a b, asks_for method url (bs "auth") a -> asks_for method url (bs "auth") b -> a = b).
  { intros a b [_ A] [_ B]. apply segs_words in A, B. rewrite <- A in B. now injection B. }
  pose proof (fun prio cb => door_selected method url "/basic" prio cb (bs "basic") eq_refl PB) as SB.
  pose proof (fun prio cb => door_selected method url "/default" prio cb (bs "default") eq_refl PD) as SD.
  pose proof (fun prio cb => door_selected method url "/client_cert" prio cb (bs "client_cert") eq_refl PC) as SC.
  assert (TWO : forall g p, callback g = Some 1 -> callback p = Some 2 -> l = [g; p] ->
     (right user password -> answers res = [page 200 (bs "Basic auth callback")] /\ map (fun ev => callback (ev_ep ev)) (calls res) = [Some 1; Some 2]) /\
     (~ right user password -> answers res = [QueueBasic (bs "auth_basic_default") (mk_mhd (CBuffer (bs "Error authentication")) [])] /\ map (fun ev => callback (ev_ep ev)) (calls res) = [Some 1])).
  { intros g p CG CP El. rewrite El in F. destruct F as (evs & last & r0 & F1 & F2 & F3 & F4 & F5 & C & G & (R1 & R2 & R3 & R4) & AN). rewrite C. clear EL C SB SD SC UNIQ PB PD PC.
    destruct evs as [|e1 [|e2 [|e3 evs]]].
    - cbn [app length firstn map] in R1. injection R1 as R1. cbn [app genuine] in G. destruct G as [(f & m & CF & CA) _]. rewrite R1, CG in CF. injection CF as <-.
      destruct (right_dec user password cert m (ev_pos last) (user_data (ev_ep last)) r0 tt) as (code & r' & E & H). rewrite E in CA. injection CA as CO RE WO.
      destruct (R4 ltac:(cbn; lia)) as (a & e & EA & NP). symmetry in EA. apply one_event in EA as [-> ->]. destruct H as [(RI & HC & HR)|(NR & HC & HR)].
      + exfalso. apply NP. split; [left; congruence|]. rewrite <- RE, HR. split; assumption.
      + split; [intros RI; contradiction|]. intros _. rewrite <- RE, HR in AN. cbn [string_body r_header r_cookies r_stream r_ws r_realm r_body] in AN. destruct (AN eq_refl F3 F1 F2 F4) as [_ A].
        split; [apply A; congruence|]. cbn [app map]. now rewrite R1, CG.
    - cbn [app length firstn map] in R1. injection R1 as RA RB. cbn [app genuine] in G. destruct G as [(f & m & CF & CA) [(f2 & m2 & CF2 & CA2) _]]. rewrite RA, CG in CF. injection CF as <-. rewrite RB, CP in CF2. injection CF2 as <-.
      destruct (right_dec user password cert m (ev_pos e1) (user_data (ev_ep e1)) r0 tt) as (code & r' & E & H). rewrite E in CA. injection CA as CO RE WO.
      destruct (R3 [] e1 [last] eq_refl ltac:(discriminate)) as [PA _]. unfold door in CA2. change (2 =? 1) with false in CA2. change (2 =? 2) with true in CA2. cbv iota in CA2. unfold auth_basic in CA2. injection CA2 as CO2 RE2 _.
      destruct H as [(RI & HC & HR)|(NR & HC & HR)]; [|exfalso; rewrite <- CO, HC in PA; destruct PA; discriminate].
      split; [|intros N; contradiction]. intros _. rewrite <- RE2, <- RE, HR in AN. cbn [string_body r_header r_cookies r_stream r_ws r_realm r_body r_status] in AN. destruct (AN eq_refl F3 F1 F2 F4) as [A _].
      split; [apply A; congruence|]. cbn [app map]. now rewrite RA, RB, CG, CP.
    - exfalso. cbn in R2. lia.
    - exfalso. cbn in R2. rewrite app_length in R2. cbn in R2. lia. }
  assert (NA : (bs "basic") <> (bs "default") /\ (bs "basic") <> (bs "client_cert") /\ (bs "default") <> (bs "client_cert")) by (repeat split; discriminate). destruct NA as (N1 & N2 & N3).
  unfold door_es in EL. destruct (Q (filter (sel method url) (door_es certs))) as [QP QS]. unfold door_es in QP, QS. rewrite <- EL in QP, QS. cbn [filter app] in QP.
  assert (BB : forall a b c d, sel method url (door_ep "/basic" a b) = sel method url (door_ep "/basic" c d)) by reflexivity.
  assert (BD : forall a b c d, sel method url (door_ep "/default" a b) = sel method url (door_ep "/default" c d)) by reflexivity.
  rewrite (BB 1 2 0 1), (BD 1 2 0 1) in QP. specialize (SB 0 1). specialize (SD 0 1). specialize (SC 0 3).
  destruct (sel method url (door_ep "/basic" 0 1)) eqn:E1; [|destruct (sel method url (door_ep "/default" 0 1)) eqn:E2].
  - destruct SB as [SB _]. specialize (SB eq_refl). destruct (sel method url (door_ep "/default" 0 1)); [exfalso; apply N1, UNIQ; [exact SB|now apply SD]|].
    assert (QP' : Permutation [door_ep "/basic" 0 1; door_ep "/basic" 1 2] l).
    { destruct certs; [|exact QP]. cbn [filter app] in QP. destruct (sel method url (door_ep "/client_cert" 0 3)); [exfalso; apply N2, UNIQ; [exact SB|now apply SC]|exact QP]. }
    apply sorted_two in QP'; [|cbn; lia|exact QS]. split; [intros _; apply (TWO (door_ep "/basic" 0 1) (door_ep "/basic" 1 2) eq_refl eq_refl QP')|]. split; [intros _ A; exfalso; apply N2, UNIQ; assumption|]. intros NB. contradiction.
  - destruct SD as [SD _]. specialize (SD eq_refl).
    assert (QP' : Permutation [door_ep "/default" 0 1; door_ep "/default" 1 2] l).
    { destruct certs; [|etransitivity; [apply perm_swap|exact QP]]. cbn [filter app] in QP. destruct (sel method url (door_ep "/client_cert" 0 3)); [exfalso; apply N3, UNIQ; [exact SD|now apply SC]|etransitivity; [apply perm_swap|exact QP]]. }
    apply sorted_two in QP'; [|cbn; lia|exact QS]. split; [intros _; apply (TWO (door_ep "/default" 0 1) (door_ep "/default" 1 2) eq_refl eq_refl QP')|]. split; [intros _ A; exfalso; apply N3, UNIQ; assumption|]. intros NB ND. contradiction.
  - split; [intros [A|A]; [apply SB in A|apply SD in A]; discriminate|]. split.
    + intros -> A. cbn [filter app] in QP. destruct SC as [_ SC]. rewrite (SC A) in QP. apply Permutation_length_1_inv in QP. rewrite QP in F.
      destruct F as (evs & last & r0 & F1 & F2 & F3 & F4 & F5 & C & G & (R1 & R2 & R3 & R4) & AN). rewrite C. destruct evs as [|e1 evs]; [|exfalso; cbn in R2; rewrite app_length in R2; cbn in R2; lia].
      cbn [app length firstn map] in R1. injection R1 as R1. cbn [app genuine] in G. destruct G as [(f & m & CF & CA) _]. rewrite R1 in CF. injection CF as <-.
      unfold door in CA. change (3 =? 1) with false in CA. change (3 =? 2) with false in CA. cbv iota in CA. unfold auth_client_cert in CA. injection CA as CO RE _. cbn [app map]. rewrite R1. split; [|reflexivity].
      destruct cert as [[dn is]|]; rewrite <- RE in AN; cbn [string_body r_header r_cookies r_stream r_ws r_realm r_body r_status] in AN; destruct (AN eq_refl F3 F1 F2 F4) as [AA _]; apply AA; now symmetry.
    + intros _ _ NC. assert (l = []) as ->; [|subst res; split; reflexivity]. apply Permutation_nil. destruct certs; [|exact QP]. cbn [filter app] in QP.
      destruct (sel method url (door_ep "/client_cert" 0 3)); [|exact QP]. exfalso. apply NC; [reflexivity|]. now apply SC.
Qed.

(** With the same priority nothing is guarded: qsort may put the protected callback first, and it is called without a password. *)
Definition tie_guard : endpoint := door_ep "/basic" 0 1.
Definition tie_page : endpoint := door_ep "/basic" 0 2.
(** C122, refuted: a guard with the priority of what it guards. A qsort that sorts, and a request without user and password that reaches the page; the order of the registrations does not help. *)
Theorem C122_tie_refuted : exists qsort, sorts qsort /\ covers tie_guard tie_page /\ refuses (door None None None) tie_guard /\
  forall ops, In ops [[EAdd tie_guard; EAdd tie_page]; [EAdd tie_page; EAdd tie_guard]] -> exists u res, eop_run init_instance ops = Ret u /\
    dispatch unit id_tl qsort (door None None None) (fun _ _ => true) (fun _ => inl []) None None None true (bs "/auth/basic") u_map_init (bs "GET") (endpoint_list u) u_map_init tt = Ret res /\
    exists ev, In ev (calls res) /\ ev_ep ev = tie_page.
Proof.
  exists (fun l => isort (filter (fun e => negb (match callback e with Some c => c =? 1 | None => false end)) l ++ filter (fun e => match callback e with Some c => c =? 1 | None => false end) l)).
  split; [|split; [now apply covers_same|split]].
  - intros l. destruct (isort_sorts (filter (fun e => negb (match callback e with Some c => c =? 1 | None => false end)) l ++ filter (fun e => match callback e with Some c => c =? 1 | None => false end) l)) as [P S].
    split; [|exact S]. etransitivity; [|exact P]. clear P S. induction l as [|e l IH]; [constructor|]. cbn [filter]. destruct (match callback e with Some c => c =? 1 | None => false end); cbn [negb].
    + now apply Permutation_cons_app.
    + cbn [app]. now constructor.
  - intros f pos m r w [= <-]. cbn. split; discriminate.
  - intros ops [<-|[<-|[]]]; (eexists; eexists; split; [vm_compute; reflexivity|]; split; [vm_compute; reflexivity|]; eexists; split; [left; reflexivity|reflexivity]).
Qed.
(** C122, refuted: a guard whose method is written for one method only does not cover the same path under "*": a request with another method reaches the page unguarded. *)
Theorem C122_method_refuted : exists g p, url_prefix g = url_prefix p /\ url_format g = url_format p /\ priority g < priority p /\ refuses (door None None None) g /\ ~ covers g p /\
  exists u res, eop_run init_instance [EAdd g; EAdd p] = Ret u /\
    dispatch unit id_tl isort (door None None None) (fun _ _ => true) (fun _ => inl []) None None None true (bs "/auth/basic") u_map_init (bs "POST") (endpoint_list u) u_map_init tt = Ret res /\
    answers res = [page 200 (bs "Basic auth callback")].
Proof.
  exists (door_ep "/basic" 0 1), (mk_ep (Some (bs "*")) (Some (bs "/auth")) (Some (bs "/basic")) 1 (Some 2) 0). split; [reflexivity|]. split; [reflexivity|]. split; [reflexivity|].
  split; [intros f pos m r w [= <-]; cbn; split; discriminate|]. split.
  - intros C. specialize (C (bs "POST") (bs "/auth/basic")). assert (A : selected (bs "POST") (bs "/auth/basic") (mk_ep (Some (bs "*")) (Some (bs "/auth")) (Some (bs "/basic")) 1 (Some 2) 0)) by (apply sel_selected; vm_compute; reflexivity).
    apply C, sel_selected in A. vm_compute in A. discriminate.
  - eexists; eexists. split; [vm_compute; reflexivity|]. split; vm_compute; reflexivity.
Qed.

(** ** cases *)
(** the hypotheses of C122_guard for the table of the example, without the password *)
Example C122_ex_guard : forall p, callback p = Some 2 -> In p (door_es true) -> exists g, In g (door_es true) /\ covers g p /\ priority g < priority p /\ refuses (door None (Some (bs "x")) None) g.
Proof.
  assert (R : forall f, refuses (door None (Some (bs "x")) None) (door_ep f 0 1)) by (intros f f' pos m r w [= <-]; cbn; split; discriminate).
  intros p C [<-|[<-|[<-|[<-|[<-|[]]]]]]; try discriminate C.
  - exists (door_ep "/basic" 0 1). split; [cbn; tauto|]. split; [now apply covers_same|]. split; [reflexivity|apply R].
  - exists (door_ep "/default" 0 1). split; [cbn; tauto|]. split; [now apply covers_same|]. split; [reflexivity|apply R].
Qed.
Definition ask (user password : option str) (method url : string) : list answer :=
  match auth_server true user password None id_tl isort (fun _ _ => true) (fun _ => inl []) (bs url) u_map_init (bs method) u_map_init with Ret r => answers r | UB _ => [] end.
Example C122_ex_server :
  ask (Some (bs "test")) (Some (bs "testpassword")) "GET" "/auth/basic" = [page 200 (bs "Basic auth callback")] /\
  ask (Some (bs "test")) (Some (bs "testpassword")) "get" "//auth//default/" = [page 200 (bs "Basic auth callback")] /\
  ask (Some (bs "test")) (Some (bs "Testpassword")) "GET" "/auth/basic" = [QueueBasic (bs "auth_basic_default") (mk_mhd (CBuffer (bs "Error authentication")) [])] /\
  ask None None "GET" "/auth/default" = [QueueBasic (bs "auth_basic_default") (mk_mhd (CBuffer (bs "Error authentication")) [])] /\
  ask None None "GET" "/auth/client_cert" = [page 400 (bs "Invalid client certificate")] /\ ask None None "POST" "/auth/basic" = [page 404 (bs "Resource not found")].
Proof. repeat split; vm_compute; reflexivity. Qed.
Example C122_ex_hyps : sorts isort /\ request_ok (bs "/auth/basic") u_map_init /\ asks_for (bs "GET") (bs "/auth/basic") (bs "auth") (bs "basic").
Proof.
  split; [apply isort_sorts|]. split; [split; [repeat constructor; discriminate|exists []; split; [apply repr_init|split; [constructor|reflexivity]]]|].
  split; [reflexivity|]. change [bs "auth"; bs "basic"] with (words (bs "/auth/basic")). apply words_segs.
Qed.

Print Assumptions C122_guard.
Print Assumptions C122_server.
Print Assumptions C122_tie_refuted.
Print Assumptions C122_method_refuted.
