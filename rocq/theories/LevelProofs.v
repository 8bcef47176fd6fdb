(** Lemmas for LevelProps. *)
From Coq Require Import String ZArith Bool List Lia Sorted Permutation.
From Verif Require Import Base BaseFacts UMapModel SMap RouterModel RouterSpec RouterProofs EndpointProofs DispatchModel DispatchSpec DispatchProofs DoorModel.
From Verif Require Import LevelModel LevelSpec.
Import ListNotations.
Open Scope Z_scope.

(** ** which endpoints *)
Fixpoint under (p ws : list str) : bool :=
  match p, ws with [], _ => true | a :: p, b :: ws => str_eqb b a && under p ws | _ :: _, [] => false end.
Fixpoint exactly (p ws : list str) : bool :=
  match p, ws with [], [] => true | a :: p, b :: ws => str_eqb b a && exactly p ws | _, _ => false end.
Definition literal (w : str) : bool := negb (starts_with 42 w) && negb (starts_with 64 w) && negb (starts_with 58 w).
Lemma eqb_sym : forall a b, str_eqb a b = str_eqb b a.
Proof.
  intros a b. destruct (str_eqb a b) eqn:E; destruct (str_eqb b a) eqn:F; try reflexivity; [apply str_eqb_eq in E; subst; rewrite str_eqb_refl in F|apply str_eqb_eq in F; subst; rewrite str_eqb_refl in E]; discriminate.
Qed.
Lemma star_match : forall p ws, forallb literal p = true -> url_format_match ws (p ++ [[42]]) = under p ws.
Proof.
  induction p as [|a p IH]; intros ws H; [reflexivity|]. cbn [forallb] in H. apply andb_prop in H as [H1 H2]. unfold literal in H1. apply andb_prop in H1 as [H1 H3]. apply andb_prop in H1 as [H0 H1].
  cbn [app url_format_match under]. rewrite (negb_true_iff (starts_with 42 a)) in H0. rewrite H0, H1, H3. cbn [andb]. destruct ws as [|b ws]; [reflexivity|]. rewrite (eqb_sym b a). destruct (str_eqb a b); [apply (IH ws H2)|reflexivity].
Qed.
Lemma exact_match : forall p ws, forallb literal p = true -> url_format_match ws p = exactly p ws.
Proof.
  induction p as [|a p IH]; intros ws H; [destruct ws; reflexivity|]. cbn [forallb] in H. apply andb_prop in H as [H1 H2]. unfold literal in H1. apply andb_prop in H1 as [H1 H3]. apply andb_prop in H1 as [H0 H1].
  cbn [url_format_match exactly]. rewrite (negb_true_iff (starts_with 42 a)) in H0. rewrite H0, H1, H3. cbn [andb]. destruct ws as [|b ws]; [reflexivity|]. rewrite (eqb_sym b a). destruct (str_eqb a b); [apply (IH ws H2)|reflexivity].
Qed.
(** is the method there *)
Definition heard (verb method : str) : bool := str_caseeqb method verb || starts_with 42 method.
Definition chosen (get put : bool) (ws : list str) : list endpoint :=
  (if under [bs "multiple"; bs "zero"] ws then [level_ep "*" "/zero/*" 99 5] else []) ++
  (if get && under [bs "multiple"; bs "zero"] ws then [level_ep "GET" "/zero/*" 0 0] else []) ++
  (if get && under [bs "multiple"; bs "zero"; bs "one"] ws then [level_ep "GET" "/zero/one/*" 1 1] else []) ++
  (if get && under [bs "multiple"; bs "zero"; bs "one"; bs "two"] ws then [level_ep "GET" "/zero/one/two/*" 2 2] else []) ++
  (if get && exactly [bs "multiple"; bs "zero"; bs "one"; bs "two"; bs "three"] ws then [level_ep "GET" "/zero/one/two/three/" 3 3] else []) ++
  (if get && under [bs "multiple"; bs "zero"; bs "onec"] ws then [level_ep "GET" "/zero/onec/*" 1 4] else []) ++
  (if get && under [bs "multiple"; bs "zero"; bs "onec"; bs "two"] ws then [level_ep "GET" "/zero/onec/two/*" 2 2] else []) ++
  (if get && under [bs "multiple"; bs "auth"] ws then [level_ep "GET" "/auth/*" 1 6] else []) ++
  (if put && under [bs "multiple"; bs "auth"] ws then [level_ep "PUT" "/auth/*" 1 6] else []) ++
  (if exactly [bs "multiple"; bs "auth"; bs "data"] ws then [level_ep "*" "/auth/data/" 2 7] else []).
Lemma chosen_ok : forall verb url, filter (sel verb url) level_es = chosen (str_caseeqb (bs "GET") verb) (str_caseeqb (bs "PUT") verb) (words url).
Proof.
  intros verb url.
  assert (G : forall f p c, sel verb url (level_ep "GET" f p c) = str_caseeqb (bs "GET") verb && url_format_match (words url) (split_url (Some (bs "/multiple")) (Some (bs f)))) by (intros; unfold sel; cbn [level_ep http_method url_prefix url_format]; now rewrite orb_false_r).
  assert (P : forall f p c, sel verb url (level_ep "PUT" f p c) = str_caseeqb (bs "PUT") verb && url_format_match (words url) (split_url (Some (bs "/multiple")) (Some (bs f)))) by (intros; unfold sel; cbn [level_ep http_method url_prefix url_format]; now rewrite orb_false_r).
  assert (S : forall f p c, sel verb url (level_ep "*" f p c) = url_format_match (words url) (split_url (Some (bs "/multiple")) (Some (bs f)))) by (intros; unfold sel; cbn [level_ep http_method url_prefix url_format]; now rewrite orb_true_r).
  unfold level_es, chosen. cbn [filter]. rewrite !G, !P, !S.
  change (split_url (Some (bs "/multiple")) (Some (bs "/zero/*"))) with ([bs "multiple"; bs "zero"] ++ [[42]]).
  change (split_url (Some (bs "/multiple")) (Some (bs "/zero/one/*"))) with ([bs "multiple"; bs "zero"; bs "one"] ++ [[42]]).
  change (split_url (Some (bs "/multiple")) (Some (bs "/zero/one/two/*"))) with ([bs "multiple"; bs "zero"; bs "one"; bs "two"] ++ [[42]]).
  change (split_url (Some (bs "/multiple")) (Some (bs "/zero/one/two/three/"))) with [bs "multiple"; bs "zero"; bs "one"; bs "two"; bs "three"].
  change (split_url (Some (bs "/multiple")) (Some (bs "/zero/onec/*"))) with ([bs "multiple"; bs "zero"; bs "onec"] ++ [[42]]).
  change (split_url (Some (bs "/multiple")) (Some (bs "/zero/onec/two/*"))) with ([bs "multiple"; bs "zero"; bs "onec"; bs "two"] ++ [[42]]).
  change (split_url (Some (bs "/multiple")) (Some (bs "/auth/*"))) with ([bs "multiple"; bs "auth"] ++ [[42]]).
  change (split_url (Some (bs "/multiple")) (Some (bs "/auth/data/"))) with [bs "multiple"; bs "auth"; bs "data"].
  rewrite !star_match, !exact_match by reflexivity.
  repeat match goal with |- context [if ?b then _ :: filter _ _ else _] => idtac end.
  repeat (match goal with |- (if ?b then _ else _) = _ => destruct b; cbn [app]; [f_equal|] | |- ?x = ?x => reflexivity end).
Qed.

(** ** in which order: priorities that differ leave no choice *)
Definition prio_lt (a b : endpoint) : Prop := priority a < priority b.
Lemma one_order : forall l0 l, StronglySorted prio_lt l0 -> Permutation l0 l -> StronglySorted prio_le l -> l = l0.
Proof.
  induction l0 as [|a l0 IH]; intros l S0 P S; [now apply Permutation_nil in P|]. inversion S0 as [|? ? S1 F0]; subst. destruct l as [|b l]; [apply Permutation_sym, Permutation_nil in P; discriminate|].
  inversion S as [|? ? S2 F]; subst. assert (b = a).
  { assert (IB : In b (a :: l0)) by (eapply Permutation_in; [apply Permutation_sym; exact P|now left]). assert (IA : In a (b :: l)) by (eapply Permutation_in; [exact P|now left]).
    destruct IB as [->|IB]; [reflexivity|]. destruct IA as [->|IA]; [reflexivity|]. rewrite Forall_forall in F, F0. specialize (F _ IA). specialize (F0 _ IB). unfold prio_le, prio_lt in *. lia. }
  subst b. f_equal. apply IH; [exact S1|now apply Permutation_cons_inv in P|exact S2].
Qed.

(** ** one step of the loop *)
Section Steps.
Variables (verb : str) (user password : option str) (tl : Z -> Z) (accepts : str -> str -> bool) (handshake : Z -> list (str * str) + (Z * list Z)) (url : str) (initial : umap).
Hypothesis RQ : request_ok url initial.
Notation cb := (levels_cb verb user password).
Notation loop := (callback_loop (outcome shared) tl cb accepts handshake (Some (bs "default_realm")) true url initial).

Lemma step_on : forall e rest pos m r w tr f r' w', callback e = Some f -> rest <> [] -> (forall m', cb f (user_data e) pos m' r w = (U_CALLBACK_CONTINUE, r', w')) -> r_stream r' = None -> r_ws r' = None ->
  exists m', loop (e :: rest) (mk_st _ pos m r w None false 0 None tr) = loop rest (mk_st _ ((pos + 1) mod 4294967296) m' r' w' None false 0 None (tr ++ [mk_event e pos U_CALLBACK_CONTINUE r' w'])).
Proof.
  intros e rest pos m r w tr f r' w' C N CB S1 S2. destruct (prepare_total tl true m initial url e RQ) as (x & E). exists (snd x). cbn [callback_loop s_map]. rewrite E. cbn [bind]. unfold run_callback. rewrite C. cbn [s_pos s_resp s_world]. rewrite CB.
  cbn [bind s_resp]. rewrite S1, S2. destruct rest as [|e2 rest]; [congruence|]. reflexivity.
Qed.
Lemma step_stop : forall e rest pos m r w tr f code r' w', callback e = Some f -> (code = U_CALLBACK_COMPLETE \/ code = U_CALLBACK_CONTINUE /\ rest = []) ->
  (forall m', cb f (user_data e) pos m' r w = (code, r', w')) -> r_stream r' = None -> r_ws r' = None ->
  exists m', loop (e :: rest) (mk_st _ pos m r w None false 0 None tr) = complete_answer _ accepts (mk_st _ ((pos + 1) mod 4294967296) m' r' w' None false 0 None (tr ++ [mk_event e pos code r' w'])).
Proof.
  intros e rest pos m r w tr f code r' w' C N CB S1 S2. destruct (prepare_total tl true m initial url e RQ) as (x & E). exists (snd x). cbn [callback_loop s_map]. rewrite E. cbn [bind]. unfold run_callback. rewrite C. cbn [s_pos s_resp s_world]. rewrite CB.
  cbn [bind s_resp]. rewrite S1, S2. destruct N as [->|[-> ->]]; reflexivity.
Qed.
Lemma step_refuse : forall e rest pos m r w tr f r' w', callback e = Some f ->
  (forall m', cb f (user_data e) pos m' r w = (U_CALLBACK_UNAUTHORIZED, r', w')) -> r_stream r' = None -> r_ws r' = None ->
  exists m', loop (e :: rest) (mk_st _ pos m r w None false 0 None tr) = unauthorized_answer _ accepts (Some (bs "default_realm")) (mk_st _ ((pos + 1) mod 4294967296) m' r' w' None false 0 None (tr ++ [mk_event e pos U_CALLBACK_UNAUTHORIZED r' w'])).
Proof.
  intros e rest pos m r w tr f r' w' C CB S1 S2. destruct (prepare_total tl true m initial url e RQ) as (x & E). exists (snd x). cbn [callback_loop s_map]. rewrite E. cbn [bind]. unfold run_callback. rewrite C. cbn [s_pos s_resp s_world]. rewrite CB.
  cbn [bind s_resp]. rewrite S1, S2. reflexivity.
Qed.
End Steps.

(** the header of the example *)
Definition acao : umap := match u_map_put u_map_init (Some (bs "Access-Control-Allow-Origin")) (Some (bs "*")) with Ret h => snd h | UB _ => u_map_init end.
Definition acao_copy : umap := match u_map_copy acao with Ret (Some m) => m | _ => u_map_init end.
Lemma first_ok : first_response (Some acao) = Ret (mk_resp 200 acao_copy [] [] None None None).
Proof. vm_compute. reflexivity. Qed.
Lemma headers_ok : forall accepts status body realm st ws, accepts (bs "Access-Control-Allow-Origin") (bs "*") = true ->
  set_headers accepts (mk_resp status acao_copy [] body realm st ws) [] = Ret (true, open_to_all).
Proof.
  intros accepts status body realm st ws A. unfold set_headers. cbn [r_header r_cookies].
  set (k := bs "Access-Control-Allow-Origin") in *. set (v := bs "*") in *.
  assert (K : exists rest, keys acao_copy = Some k :: None :: rest) by (exists []; vm_compute; reflexivity). destruct K as (rest & K).
  rewrite K. cbn [header_loop]. assert (G : get_str acao_copy k = Ret (Some v)) by (vm_compute; reflexivity). rewrite G. cbn [bind]. rewrite A. reflexivity.
Qed.

(** ** a request *)
Section Request.
Variables (verb : str) (user password : option str) (tl : Z -> Z) (qsort : list endpoint -> list endpoint) (accepts : str -> str -> bool) (handshake : Z -> list (str * str) + (Z * list Z)) (url : str) (initial map_url : umap).
Variables (live : list Z) (next : Z).
Hypothesis RQ : request_ok url initial.
Hypothesis QS : sorts qsort.
Hypothesis AC : accepts (bs "Access-Control-Allow-Origin") (bs "*") = true.
Hypothesis NEW : Forall (fun a => a < next) live.
Notation cb := (levels_cb verb user password).
Notation loop := (callback_loop (outcome shared) tl cb accepts handshake (Some (bs "default_realm")) true url initial).
Notation the_step := (default_step (outcome shared) cb accepts (Some level_dflt) (Some (bs "default_realm"))).
Notation req w := (multiple verb user password tl qsort accepts handshake url initial map_url w).
Definition resp (status : Z) (body : str) : response := mk_resp status acao_copy [] body None None None.
Definition s0 : shared := mk_shared live next None.
Definition s1 : shared := mk_shared (next :: live) (next + 1) (Some next).
Definition s2 : shared := mk_shared live (next + 1) (Some next).
Notation start := (mk_st (outcome shared) 0 map_url (resp 200 []) (Ret s0) None false 0 None []).
Definition after (s : outcome (st (outcome shared))) : outcome (result (outcome shared)) :=
  do s <- s; do t <- the_step s; Ret (mk_result (queue_answer _ t) (s_trace _ s) (skipn (length (s_trace _ s)) (s_trace _ t))).

Lemma the_run : forall l0, StronglySorted prio_lt l0 -> Permutation (chosen (str_caseeqb (bs "GET") verb) (str_caseeqb (bs "PUT") verb) (words url)) l0 ->
  req (Ret s0) = after (loop (match l0 with [] => [level_dflt] | _ => l0 end) start).
Proof.
  intros l0 S P. unfold multiple.
  assert (T : exists u, eop_run init_instance (map EAdd level_es) = Ret u /\ table_ok u level_es).
  { eexists. split; [vm_compute; reflexivity|]. split; [repeat constructor; discriminate|split; [reflexivity|vm_compute; reflexivity]]. }
  destruct T as (u & EU & T). rewrite EU. cbn [bind]. assert (H : exists c, u_map_put u_map_init (Some (bs "Access-Control-Allow-Origin")) (Some (bs "*")) = Ret (c, acao)) by (eexists; vm_compute; reflexivity).
  destruct H as (c & H). rewrite H. cbn [bind snd]. unfold dispatch. rewrite (match_table qsort u level_es verb url T). cbn [bind]. rewrite chosen_ok.
  destruct (QS (chosen (str_caseeqb (bs "GET") verb) (str_caseeqb (bs "PUT") verb) (words url))) as [P1 S1].
  rewrite (one_order l0 _ S (perm_trans (Permutation_sym P) P1) S1). change (the_default (Some level_dflt)) with (Some level_dflt). destruct l0 as [|e l0]; rewrite first_ok; reflexivity.
Qed.

Lemma after_complete : forall pos m status body w tr, pos <> 0 ->
  after (complete_answer (outcome shared) accepts (mk_st _ pos m (resp status body) w None false 0 None tr)) = Ret (mk_result [says status body] tr []).
Proof.
  intros pos m status body w tr P. unfold complete_answer, resp. cbn [s_resp]. rewrite (headers_ok accepts status body None None None AC). cbn [bind r_body snd]. unfold after, with_mhd. cbn [bind s_pos s_map s_world s_trace s_upgrade s_inner s_realm].
  unfold default_step. change (the_default (Some level_dflt)) with (Some level_dflt). cbv iota. cbn [s_pos]. rewrite (proj2 (Z.eqb_neq pos 0) P). cbn [bind s_trace queue_answer s_mhd s_inner s_upgrade s_resp r_status]. rewrite skipn_all. reflexivity.
Qed.
Lemma after_refuse : forall pos m status body realm w tr, pos <> 0 ->
  after (unauthorized_answer (outcome shared) accepts (Some (bs "default_realm")) (mk_st _ pos m (mk_resp status acao_copy [] body realm None None) w None false 0 None tr)) =
  Ret (mk_result [QueueBasic (match realm with Some x => x | None => bs "default_realm" end) (mk_mhd (CBuffer body) open_to_all)] tr []).
Proof.
  intros pos m status body realm w tr P. unfold unauthorized_answer. cbn [s_resp]. rewrite (headers_ok accepts status body realm None None AC). cbn [bind r_body r_realm snd fst]. unfold after, with_mhd. cbn [bind s_pos s_map s_world s_trace s_upgrade s_inner s_realm].
  unfold default_step. change (the_default (Some level_dflt)) with (Some level_dflt). cbv iota. cbn [s_pos]. rewrite (proj2 (Z.eqb_neq pos 0) P). cbn [bind s_trace]. rewrite skipn_all. cbn [queue_answer s_mhd s_inner s_upgrade s_resp r_status s_realm]. change (U_CALLBACK_UNAUTHORIZED =? U_CALLBACK_UNAUTHORIZED) with true. destruct realm; reflexivity.
Qed.

Lemma live_next : is_live s1 next = true.
Proof. unfold is_live, s1. cbn [sh_live existsb]. rewrite Z.eqb_refl. reflexivity. Qed.
Lemma free_next : free_shared s1 = Ret s2.
Proof.
  unfold free_shared. change (sh_data s1) with (Some next). cbv iota. rewrite live_next. unfold s1, s2. cbn [sh_live sh_next sh_data filter]. rewrite Z.eqb_refl. cbn [negb]. f_equal. f_equal.
  induction NEW as [|a l A F IH]; [reflexivity|]. cbn [filter]. rewrite (proj2 (Z.eqb_neq next a)) by lia. cbn [negb]. now rewrite IH.
Qed.
Lemma log_next : log_shared s1 = Ret s1.
Proof. unfold log_shared. change (sh_data s1) with (Some next). cbv iota. now rewrite live_next. Qed.
Lemma cb_zero : forall ud pos m r, cb 0 ud pos m r (Ret s0) = (U_CALLBACK_CONTINUE, string_body r 200 (bs "Level zero"), Ret s1).
Proof. reflexivity. Qed.
Lemma cb_more : forall f text ud pos m status body, (f, text) = (1, "Level one"%string) \/ (f, text) = (2, "Level two"%string) \/ (f, text) = (3, "Level three"%string) -> body <> [] ->
  cb f ud pos m (resp status body) (Ret s1) = (U_CALLBACK_CONTINUE, resp 200 (c_text body ++ [10] ++ bs text), Ret s1).
Proof.
  intros f text ud pos m status body E N. unfold levels_cb. assert (L : level verb user password f (resp status body) s1 = level_more text (resp status body) s1) by (destruct E as [[= -> ->]|[[= -> ->]|[= -> ->]]]; reflexivity).
  rewrite L. unfold level_more, add_level. cbn [fst snd resp r_body]. destruct body as [|c body]; [congruence|]. rewrite log_next. reflexivity.
Qed.
Lemma cb_one_complete : forall ud pos m status body, body <> [] -> cb 4 ud pos m (resp status body) (Ret s1) = (U_CALLBACK_COMPLETE, resp 200 (c_text body ++ [10] ++ bs "Level one"), Ret s2).
Proof.
  intros ud pos m status body N. unfold levels_cb. change (level verb user password 4) with level_one_complete. unfold level_one_complete, add_level. cbn [fst snd resp r_body]. destruct body as [|c body]; [congruence|]. rewrite log_next. cbn [bind]. rewrite free_next. reflexivity.
Qed.
Lemma cb_final : forall ud pos m r, cb 5 ud pos m r (Ret s1) = (U_CALLBACK_COMPLETE, r, Ret s2).
Proof. intros. unfold levels_cb. change (level verb user password 5) with level_final. unfold level_final. now rewrite free_next. Qed.
End Request.
