(** C140: the endpoints of the websocket server example. *)
From Coq Require Import String ZArith Bool List Lia Sorted Permutation.
From Verif Require Import Base BaseFacts UMapModel SMap RouterModel RouterSpec RouterProofs RouterProps EndpointProofs CookieModel DispatchModel DispatchSpec DispatchProofs StaticModel StaticProofs SiteMemModel SiteMemSpec SiteMemProofs.
From Verif Require Import LevelSpec LevelProofs LevelProps.
Import DispatchModel.
From Verif Require Import PortalModel SimpleProps HerdModel HerdProps.
Import ListNotations.
Open Scope Z_scope.

Definition portal_ep (n : nat) : endpoint := nth n portal_es (mk_ep None None None 0 None 0).
(** which words are for which websocket; 0: the one that talks, 1: echo, 2: file *)
Definition socket_words (n : nat) (ws : list str) : Prop := match n with 0%nat => ws = [bs "websocket"] | 1%nat => ws = [bs "websocket"; bs "echo"] | 2%nat => ws = [bs "websocket"; bs "file"] | _ => False end.
Lemma portal_picked : forall verb url, filter (sel verb url) portal_es =
  (if str_caseeqb (bs "GET") verb && exactly [bs "websocket"] (words url) then [portal_ep 0] else []) ++ (if str_caseeqb (bs "GET") verb && exactly [bs "websocket"; bs "echo"] (words url) then [portal_ep 1] else []) ++
  (if str_caseeqb (bs "GET") verb && exactly [bs "websocket"; bs "file"] (words url) then [portal_ep 2] else []) ++ (if str_caseeqb (bs "GET") verb && under [bs "static"] (words url) then [portal_ep 3] else []).
Proof.
  intros verb url.
  assert (G : forall pre fm f p, split_url (Some (bs pre)) (option_map bs fm) = p -> forallb literal p = true ->
    sel verb url (mk_ep (Some (bs "GET")) (Some (bs pre)) (option_map bs fm) 0 (Some f) 0) = str_caseeqb (bs "GET") verb && exactly p (words url)).
  { intros pre fm f p E L. unfold sel. cbn [http_method url_prefix url_format]. change (starts_with 42 (bs "GET")) with false. rewrite orb_false_r, E, exact_match by exact L. reflexivity. }
  pose proof (G "/websocket"%string None 1 [bs "websocket"] eq_refl eq_refl) as H0. pose proof (G "/websocket"%string (Some "/echo"%string) 2 [bs "websocket"; bs "echo"] eq_refl eq_refl) as H1. pose proof (G "/websocket"%string (Some "/file"%string) 3 [bs "websocket"; bs "file"] eq_refl eq_refl) as H2.
  assert (H3 : sel verb url (mk_ep (Some (bs "GET")) (Some (bs "/static")) (Some (bs "*")) 0 (Some 4) 0) = str_caseeqb (bs "GET") verb && under [bs "static"] (words url)).
  { unfold sel. cbn [http_method url_prefix url_format]. change (starts_with 42 (bs "GET")) with false. change (split_url (Some (bs "/static")) (Some (bs "*"))) with ([bs "static"] ++ [[42]]). rewrite orb_false_r, star_match by reflexivity. reflexivity. }
  cbn [option_map] in *. unfold portal_es. cbn [filter]. rewrite H0, H1, H2, H3. do 3 apply filter_step. reflexivity.
Qed.

Section Portal.
Variables (http_url : str) (opens : Z -> bool) (site : str -> response -> Z * response) (tl : Z -> Z) (qsort : list endpoint -> list endpoint) (accepts : str -> str -> bool)
  (handshake : Z -> list (str * str) + (Z * list Z)) (verb : str) (initial map_url : umap).
Notation req := (portal_server http_url opens site tl qsort accepts handshake verb initial map_url).
Notation path := (until 63 http_url).
Definition begun : response := mk_resp 200 acao_copy [] [] None None None.
Lemma portal_table : exists u, eop_run init_instance (map EAdd portal_es) = Ret u /\ table_ok u portal_es.
Proof. eexists. split; [vm_compute; reflexivity|]. split; [repeat constructor; discriminate|split; [reflexivity|vm_compute; reflexivity]]. Qed.
Lemma put_acao : u_map_put u_map_init (Some (bs "Access-Control-Allow-Origin")) (Some (bs "*")) = Ret (0, acao).
Proof. vm_compute. reflexivity. Qed.
Lemma all_socket_headers : forall hs r, accepts (bs "Access-Control-Allow-Origin") (bs "*") = true -> r_header r = acao_copy -> r_cookies r = [] -> set_headers accepts r hs = Ret (true, hs ++ open_to_all).
Proof.
  intros hs r A RH RC. unfold set_headers. rewrite RH, RC. set (k := bs "Access-Control-Allow-Origin") in *. set (v := bs "*") in *. assert (K : exists rest, keys acao_copy = Some k :: None :: rest) by (exists []; vm_compute; reflexivity). destruct K as (rest & K).
  rewrite K. cbn [header_loop]. assert (G : get_str acao_copy k = Ret (Some v)) by (vm_compute; reflexivity). rewrite G. cbn [bind]. rewrite A. reflexivity.
Qed.
(** the request has one endpoint *)
Lemma portal_one : forall e, request_ok path initial -> sorts qsort -> filter (sel verb path) portal_es = [e] -> exists m,
  req = do s <- (do x <- run_callback (outcome (list str)) (portal_cb http_url opens site) (mk_st (outcome (list str)) 0 map_url begun (Ret []) None false 0 None []) e m true;
    let '(ret, s1) := x in
      match r_stream (s_resp _ s1), r_ws (s_resp _ s1) with
      | Some str, _ => stream_answer _ accepts s1 str
      | None, Some h => ws_answer _ accepts handshake s1 h
      | None, None =>
          let ret1 := if ((ret =? U_CALLBACK_CONTINUE) || (ret =? U_CALLBACK_IGNORE)) && true then U_CALLBACK_COMPLETE else ret in
          if (ret1 =? U_CALLBACK_CONTINUE) || (ret1 =? U_CALLBACK_IGNORE) then Ret s1
          else if ret1 =? U_CALLBACK_COMPLETE then complete_answer _ accepts s1
          else if ret1 =? U_CALLBACK_UNAUTHORIZED then unauthorized_answer _ accepts None s1
          else Ret (error_answer _ s1)
      end);
    Ret (mk_result (queue_answer _ s) (s_trace _ s) (skipn (List.length (s_trace _ s)) (s_trace _ s))).
Proof.
  intros e RQ QS FL. destruct (prepare_total tl true map_url initial path e RQ) as ([c m] & P). exists m. unfold portal_server. rewrite put_acao. cbn [bind snd]. destruct portal_table as (u & EU & T). rewrite EU. cbn [bind]. unfold dispatch, portal_path. rewrite (match_table qsort u portal_es verb path T), FL. cbn [bind].
  destruct (QS [e]) as [Q _]. apply Permutation_length_1_inv in Q. rewrite Q. cbv zeta iota. rewrite first_ok. cbn [bind callback_loop s_map]. rewrite P. cbn [bind snd]. fold begun. reflexivity.
Qed.
Lemma socket_picked : forall n ws, is_verb "get" verb -> segs path ws -> socket_words n ws -> filter (sel verb path) portal_es = [portal_ep n] /\ callback (portal_ep n) = Some (Z.of_nat n + 1) /\ (n < 3)%nat.
Proof.
  intros n ws V SG SW. apply segs_words in SG. rewrite portal_picked, <- SG, (verb_is "GET" "get" verb eq_refl V). destruct n as [|[|[|n]]]; cbn [socket_words] in SW; [rewrite SW..|contradiction]; (split; [reflexivity|split; [reflexivity|lia]]).
Qed.

(** C140. Each of the three websockets of the README is at its path, the query does not matter: when the handshake is accepted, the answer is 101 with the headers of the handshake and the header of the example, and the connection goes to that websocket and no other. *)
Theorem C140_sockets : forall n ws hs, request_ok path initial -> sorts qsort -> (forall k v, accepts k v = true) -> is_verb "get" verb -> segs path ws -> socket_words n ws -> opens (Z.of_nat n + 1) = true -> handshake (Z.of_nat n + 1) = inl hs ->
  exists res e, req = Ret res /\ answers res = [Queue 101 (mk_mhd (CUpgrade (Z.of_nat n + 1)) (hs ++ open_to_all))] /\ calls res = [e] /\ ev_world e = Ret [] /\ extra res = [].
Proof.
  intros n ws hs RQ QS AC V SG SW OP HS. destruct (socket_picked n ws V SG SW) as (FL & CB & LT). destruct (portal_one _ RQ QS FL) as (m & E). unfold run_callback in E. rewrite CB in E. unfold portal_cb in E. rewrite (proj2 (Z.ltb_lt _ _)) in E by lia. rewrite OP in E. cbn [bind s_resp s_pos s_world begun r_stream r_ws] in E.
  unfold ws_answer in E. rewrite HS in E. assert (FA : filter (fun p => accepts (fst p) (snd p)) hs = hs) by (clear -AC; induction hs as [|p hs IH]; [reflexivity|cbn [filter]; now rewrite AC, IH]). rewrite FA in E. cbn [s_resp] in E. rewrite (all_socket_headers hs) in E; [|apply AC|reflexivity|reflexivity]. cbn [bind fst snd] in E. do 2 eexists. split; [exact E|]. repeat split; reflexivity.
Qed.
(** C140. A handshake that is refused is answered as it says, and without memory for a websocket the answer is 500. *)
Theorem C140_refused : forall n ws, request_ok path initial -> sorts qsort -> is_verb "get" verb -> segs path ws -> socket_words n ws ->
  (forall status text, opens (Z.of_nat n + 1) = true -> handshake (Z.of_nat n + 1) = inr (status, text) -> exists res, req = Ret res /\ answers res = [Queue status (mk_mhd (CBuffer text) [])]) /\
  (opens (Z.of_nat n + 1) = false -> exists res, req = Ret res /\ answers res = [Queue 500 (mk_mhd (CBuffer (bs "Server Error")) [])]).
Proof.
  intros n ws RQ QS V SG SW. destruct (socket_picked n ws V SG SW) as (FL & CB & LT). destruct (portal_one _ RQ QS FL) as (m & E). unfold run_callback in E. rewrite CB in E. unfold portal_cb in E. rewrite (proj2 (Z.ltb_lt _ _)) in E by lia. split.
  - intros status text OP HS. rewrite OP in E. cbn [bind s_resp s_pos s_world begun r_stream r_ws] in E. unfold ws_answer in E. rewrite HS in E. cbn [bind] in E. eexists. split; [exact E|]. reflexivity.
  - intros OP. rewrite OP in E. cbn [bind s_resp s_pos s_world begun r_stream r_ws] in E. eexists. split; [exact E|]. reflexivity.
Qed.
(** C140. Everything else but the files is 404. *)
Theorem C140_elsewhere : sorts qsort -> (is_verb "get" verb -> forall ws, segs path ws -> (forall n, ~ socket_words n ws) /\ hd [] ws <> bs "static") -> req = Ret (mk_result [Queue 404 (mk_mhd (CBuffer (bs "Resource not found")) [])] [] []).
Proof.
  intros QS H. unfold portal_server. rewrite put_acao. cbn [bind snd]. destruct portal_table as (u & EU & T). rewrite EU. cbn [bind]. unfold dispatch, portal_path. rewrite (match_table qsort u portal_es verb path T).
  assert (FL : filter (sel verb path) portal_es = []).
  { rewrite portal_picked. destruct (str_caseeqb (bs "GET") verb) eqn:V; [|reflexivity]. assert (V' : is_verb "get" verb) by (unfold str_caseeqb in V; apply str_eqb_eq in V; unfold is_verb; now rewrite <- V). destruct (H V' _ (words_segs path)) as [A B]. cbn [andb].
    assert (X : forall n p, (forall ws, ws = p -> socket_words n ws) -> exactly p (words path) = false). { intros n p Y. destruct (exactly p (words path)) eqn:Z0; [|reflexivity]. apply exactly_eq in Z0. exfalso. apply (A n). now apply Y. }
    rewrite (X 0%nat), (X 1%nat), (X 2%nat) by (intros; assumption). cbn [app]. destruct (words path) as [|w l]; [reflexivity|]. cbn [under]. cbn [hd] in B. destruct (str_eqb w (bs "static")) eqn:Z0; [apply str_eqb_eq in Z0; contradiction|reflexivity]. }
  rewrite FL. cbn [bind]. destruct (QS []) as [Q _]. apply Permutation_nil in Q. rewrite Q. reflexivity.
Qed.

Lemma files_run : forall name content, request_ok path initial -> sorts qsort -> accepts (bs "Access-Control-Allow-Origin") (bs "*") = true -> is_verb "get" verb -> (exists ws, segs path (bs "static" :: ws)) -> portal_name http_url = Ret name ->
  site name begun = (U_CALLBACK_CONTINUE, mk_resp 200 acao_copy [] content None None None) ->
  exists res e, req = Ret res /\ answers res = [Queue 200 (mk_mhd (CBuffer content) open_to_all)] /\ calls res = [e] /\ ev_world e = Ret [name].
Proof.
  intros name content RQ QS AC V (ws & SG) N ST. apply segs_words in SG. assert (FL : filter (sel verb path) portal_es = [portal_ep 3]).
  { rewrite portal_picked, <- SG, (verb_is "GET" "get" verb eq_refl V). cbn [andb]. destruct ws as [|w [|w' ws]]; reflexivity. }
  destruct (portal_one _ RQ QS FL) as (m & E). unfold run_callback in E. change (callback (portal_ep 3)) with (Some 4) in E. unfold portal_cb in E. cbv iota in E. cbn [s_pos s_resp s_world] in E. change (4 <? 4) with false in E. change (0 <? 0) with false in E. cbv iota in E. rewrite N, ST in E. cbn [fst snd bind s_resp r_stream r_ws app] in E.
  change (U_CALLBACK_CONTINUE =? U_CALLBACK_CONTINUE) with true in E. unfold complete_answer in E. cbn [orb andb s_resp] in E. rewrite (all_socket_headers []) in E by (assumption || reflexivity). do 2 eexists. split; [exact E|]. repeat split; reflexivity.
Qed.
Lemma static_words : forall name tail, ~ In 63 name -> (tail = [] \/ hd 0 tail = 63) -> exists ws, segs (until 63 (bs "/static/" ++ name ++ tail)) (bs "static" :: ws).
Proof.
  intros name tail N TL. assert (U : until 63 (bs "/static/" ++ name ++ tail) = bs "/static/" ++ name).
  { change (bs "/static/" ++ name ++ tail) with (47 :: bs "static" ++ 47 :: name ++ tail). cbn [bs until app]. assert (X : until 63 (name ++ tail) = name); [|change (until 63 (47 :: bs "static/" ++ (name ++ tail)) = bs "/static/" ++ name); cbn; now rewrite X].
    clear -N TL. induction name as [|c name IH]; cbn [app]; [destruct TL as [->|H]; [reflexivity|destruct tail as [|x tail]; [reflexivity|cbn in H; subst x; reflexivity]]|]. cbn [until]. rewrite (proj2 (Z.eqb_neq c 63)) by (intros ->; apply N; now left). rewrite IH; [reflexivity|]. intros X. apply N. now right. }
  rewrite U. exists (words name). assert (W : words (bs "/static/" ++ name) = bs "static" :: words name) by reflexivity. rewrite <- W. apply words_segs.
Qed.
(** C140. GET of /static/name is the file of that name. Proved for files that the web site puts in the body. *)
Theorem C140_files_partial : forall name tail content, request_ok path initial -> sorts qsort -> accepts (bs "Access-Control-Allow-Origin") (bs "*") = true -> is_verb "get" verb ->
  http_url = bs "/static/" ++ name ++ tail -> cstr http_url -> name <> [] -> hd 0 name <> 47 -> ~ In 35 name -> ~ In 63 name -> (tail = [] \/ hd 0 tail = 63) ->
  site name begun = (U_CALLBACK_CONTINUE, mk_resp 200 acao_copy [] content None None None) ->
  exists res e, req = Ret res /\ answers res = [Queue 200 (mk_mhd (CBuffer content) open_to_all)] /\ calls res = [e] /\ ev_world e = Ret [name].
Proof.
  intros name tail content RQ QS AC V E CS NE NS H35 H63 TL ST. apply files_run; try assumption.
  - rewrite E. apply static_words; assumption.
  - change (portal_name http_url) with (wanted http_url). exact (wanted_ok http_url (bs "static") name tail E CS eq_refl NE NS H35 H63 TL).
Qed.
(** C140. GET of the folder, with or without a slash, is index.html. *)
Theorem C140_index_partial : forall slash tail content, request_ok path initial -> sorts qsort -> accepts (bs "Access-Control-Allow-Origin") (bs "*") = true -> is_verb "get" verb ->
  http_url = bs "/static" ++ slash ++ tail -> (slash = [] \/ slash = bs "/") -> cstr http_url -> (tail = [] \/ hd 0 tail = 63) ->
  site (bs "index.html") begun = (U_CALLBACK_CONTINUE, mk_resp 200 acao_copy [] content None None None) ->
  exists res e, req = Ret res /\ answers res = [Queue 200 (mk_mhd (CBuffer content) open_to_all)] /\ calls res = [e] /\ ev_world e = Ret [bs "index.html"].
Proof.
  intros slash tail content RQ QS AC V E SL CS TL ST. apply files_run; try assumption.
  - exists []. change (bs "static" :: []) with (words (bs "/static")). replace (words (bs "/static")) with (words path); [apply words_segs|]. rewrite E. destruct TL as [->|H]; [destruct SL as [->| ->]; reflexivity|]. destruct tail as [|x tail]; [destruct SL as [->| ->]; reflexivity|]. cbn in H. subst x. destruct SL as [->| ->]; reflexivity.
  - unfold portal_name. pose proof (cut_name_ok (mk_gconfig None portal_prefix None false false false (fun _ => false)) http_url CS) as C. cbn [g_prefix] in C. rewrite C; [|rewrite E, app_length; cbn; lia]. cbn [bind]. unfold cut_of. cbn [g_prefix]. change (olen portal_prefix) with 7%nat. rewrite E.
    change (skipn 7 (bs "/static" ++ slash ++ tail)) with (slash ++ tail). assert (X : up_to (no_slash (slash ++ tail)) = []); [|now rewrite X]. rewrite <- drop_no_slash, <- until_up_to. destruct TL as [->|H]; [destruct SL as [->| ->]; reflexivity|]. destruct tail as [|x tail]; [destruct SL as [->| ->]; reflexivity|]. cbn in H. subst x. destruct SL as [->| ->]; reflexivity.
Qed.
(** C140, refuted: the router leaves out empty words, so that //static/name is a file, but the web site skips seven bytes and looks for c/name. *)
Theorem C140_slash_refuted : forall name content, request_ok path initial -> sorts qsort -> accepts (bs "Access-Control-Allow-Origin") (bs "*") = true -> is_verb "get" verb ->
  http_url = bs "//static/" ++ name -> cstr http_url -> ~ In 35 name -> ~ In 63 name ->
  site (bs "c/" ++ name) begun = (U_CALLBACK_CONTINUE, mk_resp 200 acao_copy [] content None None None) ->
  exists res e, req = Ret res /\ answers res = [Queue 200 (mk_mhd (CBuffer content) open_to_all)] /\ calls res = [e] /\ ev_world e = Ret [bs "c/" ++ name].
Proof.
  intros name content RQ QS AC V E CS H35 H63 ST. assert (U : until 63 (bs "//static/" ++ name) = bs "//static/" ++ name). { apply until_id. intros X. apply in_app_or in X. destruct X as [X|X]; [|contradiction]. cbn in X. repeat destruct X as [X|X]; try discriminate X. exact X. }
  apply files_run; try assumption.
  - rewrite E, U. exists (words name). assert (W : words (bs "//static/" ++ name) = bs "static" :: words name) by reflexivity. rewrite <- W. apply words_segs.
  - unfold portal_name. pose proof (cut_name_ok (mk_gconfig None portal_prefix None false false false (fun _ => false)) http_url CS) as C. cbn [g_prefix] in C. rewrite C; [|rewrite E, app_length; cbn; lia]. cbn [bind]. unfold cut_of. cbn [g_prefix]. change (olen portal_prefix) with 7%nat. rewrite E.
    change (skipn 7 (bs "//static/" ++ name)) with (bs "c/" ++ name). rewrite <- drop_no_slash, <- until_up_to. change (drop_slash (bs "c/" ++ name)) with (bs "c/" ++ name). assert (I0 : forall z, z <> 99 -> z <> 47 -> ~ In z name -> ~ In z (bs "c/" ++ name)) by (intros z Z1 Z2 Z3 X; cbn in X; destruct X as [X|[X|X]]; [congruence|congruence|contradiction]).
    rewrite (until_id 35) by (apply I0; [discriminate|discriminate|assumption]). rewrite (until_id 63) by (apply I0; [discriminate|discriminate|assumption]). reflexivity.
Qed.
(** C140, refuted: a file that is not there is not 404 but 200 with nothing: the web site leaves the request to the next callback (static_compressed_inmemory_website_callback.c:210-211, 218-219, redirect_on_404 being NULL) and there is none. *)
Theorem C140_missing_refuted : forall name tail, request_ok path initial -> sorts qsort -> accepts (bs "Access-Control-Allow-Origin") (bs "*") = true -> is_verb "get" verb ->
  http_url = bs "/static/" ++ name ++ tail -> cstr http_url -> name <> [] -> hd 0 name <> 47 -> ~ In 35 name -> ~ In 63 name -> (tail = [] \/ hd 0 tail = 63) -> (forall r, site name r = (U_CALLBACK_IGNORE, r)) ->
  exists res e, req = Ret res /\ answers res = [Queue 200 (mk_mhd (CBuffer []) open_to_all)] /\ calls res = [e] /\ ev_world e = Ret [name].
Proof.
  intros name tail RQ QS AC V E0 CS NE NS H35 H63 TL ST. destruct (static_words name tail H63 TL) as (ws & SG). rewrite <- E0 in SG. apply segs_words in SG. assert (FL : filter (sel verb path) portal_es = [portal_ep 3]).
  { rewrite portal_picked, <- SG, (verb_is "GET" "get" verb eq_refl V). cbn [andb]. destruct ws as [|w [|w' ws]]; reflexivity. }
  assert (N : portal_name http_url = Ret name) by (change (portal_name http_url) with (wanted http_url); exact (wanted_ok http_url (bs "static") name tail E0 CS eq_refl NE NS H35 H63 TL)).
  destruct (portal_one _ RQ QS FL) as (m & E). unfold run_callback in E. change (callback (portal_ep 3)) with (Some 4) in E. unfold portal_cb in E. cbv iota in E. cbn [s_pos s_resp s_world] in E. change (4 <? 4) with false in E. change (0 <? 0) with false in E. cbv iota in E. rewrite N, ST in E. cbn [fst snd bind s_resp r_stream r_ws app begun] in E.
  change (U_CALLBACK_IGNORE =? U_CALLBACK_CONTINUE) with false in E. change (U_CALLBACK_IGNORE =? U_CALLBACK_IGNORE) with true in E. unfold complete_answer in E. cbn [orb andb s_resp] in E. rewrite (all_socket_headers []) in E by (assumption || reflexivity). do 2 eexists. split; [exact E|]. repeat split; reflexivity.
Qed.
End Portal.

Definition knock (verb url : string) : option (list Z * list (outcome (list str))) :=
  match portal_server (bs url) (fun f => f <? 3) (fun _ r => (U_CALLBACK_IGNORE, r)) (fun c => c) isort (fun _ _ => true) (fun _ => inl []) (bs verb) u_map_init u_map_init with
  | Ret res => Some (map (fun a => match a with Queue s _ => s | _ => 0 end) (answers res), map ev_world (calls res)) | UB _ => None end.
Example C140_ex : knock "GET" "/websocket?x" = Some ([101], [Ret []]) /\ knock "get" "/websocket/echo" = Some ([101], [Ret []]) /\ knock "GET" "/websocket/file" = Some ([500], [Ret []]) /\ knock "POST" "/websocket" = Some ([404], []) /\
  knock "GET" "/static/index.html" = Some ([200], [Ret [bs "index.html"]]) /\ knock "GET" "//static/index.html" = Some ([200], [Ret [bs "c/index.html"]]) /\ knock "GET" "/static" = Some ([200], [Ret [bs "index.html"]]).
Proof. repeat split; vm_compute; reflexivity. Qed.
Example C140_hyps : request_ok (until 63 (bs "/websocket/echo?a")) u_map_init /\ segs (until 63 (bs "/websocket/echo?a")) [bs "websocket"; bs "echo"] /\ socket_words 1 [bs "websocket"; bs "echo"] /\ is_verb "get" (bs "GET").
Proof.
  split; [split; [repeat constructor; discriminate|exists []; split; [apply repr_init|split; [constructor|reflexivity]]]|]. split; [change [bs "websocket"; bs "echo"] with (words (until 63 (bs "/websocket/echo?a"))); apply words_segs|]. split; reflexivity.
Qed.

Print Assumptions C140_sockets.
Print Assumptions C140_refused.
Print Assumptions C140_elsewhere.
Print Assumptions C140_files_partial.
Print Assumptions C140_index_partial.
Print Assumptions C140_slash_refuted.
Print Assumptions C140_missing_refuted.
