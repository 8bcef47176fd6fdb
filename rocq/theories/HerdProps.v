(** C139: the endpoints of the sheep counter. *)
From Coq Require Import String ZArith Bool List Lia Sorted Permutation.
From Verif Require Import Base BaseFacts Dec UMapModel SMap RouterModel RouterSpec RouterProofs RouterProps EndpointProofs CookieModel DispatchModel DispatchSpec DispatchProofs DoorModel PrintModel PrintSpec PrintProps TokenModel StaticModel StaticProofs SiteMemModel SiteMemSpec SiteMemProofs.
From Verif Require SheepModel.
Import DispatchModel.
From Verif Require Import LevelSpec LevelProofs LevelProps.
From Verif Require Import HerdModel SimpleProps.
Import ListNotations.
Open Scope Z_scope.

Definition herd_ep (n : nat) : endpoint := nth n herd_es (mk_ep None None None 0 None 0).
Definition picked (get post put delete : bool) (ws : list str) : list endpoint :=
  (if post && exactly [bs "sheep"] ws then [herd_ep 0] else []) ++ (if put && exactly [bs "sheep"] ws then [herd_ep 1] else []) ++ (if delete && exactly [bs "sheep"] ws then [herd_ep 2] else []) ++
  (if exactly [bs "sheep"] ws then [herd_ep 3] else []) ++ (if exactly [bs "static"; bs "upload"] ws then [herd_ep 4] else []) ++ (if exactly [bs "static"; bs "submit"] ws then [herd_ep 5] else []) ++ (if get then [herd_ep 6] else []).
Lemma picked_ok : forall verb url, filter (sel verb url) herd_es =
  picked (str_caseeqb (bs "GET") verb) (str_caseeqb (bs "POST") verb) (str_caseeqb (bs "PUT") verb) (str_caseeqb (bs "DELETE") verb) (words url).
Proof.
  intros verb url.
  assert (G : forall mt pre fm pr f p, starts_with 42 (bs mt) = false -> split_url (Some (bs pre)) (option_map bs fm) = p -> forallb literal p = true ->
    sel verb url (mk_ep (Some (bs mt)) (Some (bs pre)) (option_map bs fm) pr (Some f) 0) = str_caseeqb (bs mt) verb && exactly p (words url)).
  { intros mt pre fm pr f p N E L. unfold sel. cbn [http_method url_prefix url_format]. rewrite N, orb_false_r, E, exact_match by exact L. reflexivity. }
  assert (A : forall pre fm pr f p, split_url (Some (bs pre)) (option_map bs fm) = p -> forallb literal p = true ->
    sel verb url (mk_ep (Some (bs "*")) (Some (bs pre)) (option_map bs fm) pr (Some f) 0) = exactly p (words url)).
  { intros pre fm pr f p E L. unfold sel. cbn [http_method url_prefix url_format]. change (starts_with 42 (bs "*")) with true. rewrite orb_true_r, E, exact_match by exact L. reflexivity. }
  unfold herd_es, picked. cbn [filter].
  pose proof (G "POST"%string "/sheep"%string None 1 1 [bs "sheep"] eq_refl eq_refl eq_refl) as H0. pose proof (G "PUT"%string "/sheep"%string None 1 2 [bs "sheep"] eq_refl eq_refl eq_refl) as H1. pose proof (G "DELETE"%string "/sheep"%string None 1 3 [bs "sheep"] eq_refl eq_refl eq_refl) as H2.
  pose proof (A "/sheep"%string None 2 4 [bs "sheep"] eq_refl eq_refl) as H3. pose proof (A "static"%string (Some "/upload"%string) 1 5 [bs "static"; bs "upload"] eq_refl eq_refl) as H4. pose proof (A "static"%string (Some "/submit"%string) 1 6 [bs "static"; bs "submit"] eq_refl eq_refl) as H5.
  cbn [option_map] in *. rewrite H0, H1, H2, H3, H4, H5.
  assert (H6 : sel verb url (mk_ep (Some (bs "GET")) (Some (bs "*")) None 1 (Some 7) 0) = str_caseeqb (bs "GET") verb).
  { unfold sel. cbn [http_method url_prefix url_format]. change (starts_with 42 (bs "GET")) with false. change (split_url (Some (bs "*")) None) with ([] ++ [[42]] : list str). rewrite orb_false_r, star_match by reflexivity. cbn [under]. now rewrite andb_true_r. }
  rewrite H6. do 6 apply filter_step. reflexivity.
Qed.
Lemma exactly_eq : forall p ws, exactly p ws = true <-> ws = p.
Proof.
  induction p as [|a p IH]; intros [|b ws]; cbn [exactly]; split; intros H; try reflexivity; try discriminate H.
  - apply andb_prop in H as [H1 H2]. apply str_eqb_eq in H1. apply IH in H2. now subst.
  - injection H as -> ->. rewrite str_eqb_refl. now apply IH.
Qed.
Lemma exactly_refl : forall p, exactly p p = true. Proof. intros p. now apply exactly_eq. Qed.
Lemma verb_is : forall up lo verb, lowers (bs up) = bs lo -> is_verb lo verb -> str_caseeqb (bs up) verb = true.
Proof. intros up lo verb E V. unfold is_verb in V. unfold str_caseeqb. rewrite E, V. apply str_eqb_refl. Qed.
Lemma verb_not : forall up lo verb, lowers (bs up) = bs lo -> ~ is_verb lo verb -> str_caseeqb (bs up) verb = false.
Proof. intros up lo verb E V. destruct (str_caseeqb (bs up) verb) eqn:Q; [|reflexivity]. exfalso. apply V. unfold str_caseeqb in Q. apply str_eqb_eq in Q. unfold is_verb. now rewrite <- Q. Qed.

Definition first : response := mk_resp 200 u_map_init [] [] None None None.
(** no service but the web site has this path *)
Definition no_service (url : str) : Prop := forall ws, segs url ws -> ws <> [bs "sheep"] /\ ws <> [bs "static"; bs "upload"] /\ ws <> [bs "static"; bs "submit"].
(** what the README says the three methods do to the counter *)
Definition does (body : option json) (verb : str) (sheep n : Z) : Prop :=
  (is_verb "post" verb /\ n = SheepModel.start_value body) \/ (is_verb "put" verb /\ sheep < 2 ^ 63 - 1 /\ n = sheep + 1) \/ (is_verb "delete" verb /\ n = 0).

Section Herd.
Variables (http_url : str) (body : option json) (map_header map_cookie map_post : umap) (mem : nat -> nat -> bool) (null : option str) (zip : response -> Z * response) (site : str -> response -> Z * response)
  (tl : Z -> Z) (qsort : list endpoint -> list endpoint) (accepts : str -> str -> bool) (handshake : Z -> list (str * str) + (Z * list Z)) (verb url : str) (initial map_url : umap) (sheep : Z).
Notation req := (herd_server http_url body map_header map_cookie map_post mem null zip site tl qsort accepts handshake verb url initial map_url sheep).
Notation cb := (herd_cb http_url body map_header map_cookie map_post mem null zip site).

Lemma herd_table : exists u, eop_run init_instance (map EAdd herd_es) = Ret u /\ table_ok u herd_es.
Proof. eexists. split; [vm_compute; reflexivity|]. split; [repeat constructor; discriminate|split; [reflexivity|vm_compute; reflexivity]]. Qed.
(** one callback *)
Lemma run1_any : forall e f hs, request_ok url initial -> sorts qsort -> filter (sel verb url) herd_es = [e] -> callback e = Some f ->
  exists m, forall c1 r1 w1, (c1 = U_CALLBACK_CONTINUE \/ c1 = U_CALLBACK_IGNORE) -> cb f (user_data e) 0 m first (Ret sheep) = (c1, r1, w1) -> r_stream r1 = None -> r_ws r1 = None -> set_headers accepts r1 [] = Ret (true, hs) ->
  req = Ret (mk_result [Queue (r_status r1) (mk_mhd (CBuffer (r_body r1)) hs)] [mk_event e 0 c1 r1 w1] []).
Proof.
  intros e f hs RQ QS FL CB. destruct (prepare_total tl true map_url initial url e RQ) as ([c m] & P). exists m. intros c1 r1 w1 DC RUN RS RW HS. unfold herd_server. destruct herd_table as (u & EU & T). rewrite EU. cbn [bind]. unfold dispatch. rewrite (match_table qsort u herd_es verb url T), FL. cbn [bind].
  destruct (QS [e]) as [Q _]. apply Permutation_length_1_inv in Q. rewrite Q. cbv zeta iota. assert (F : first_response None = Ret first) by reflexivity. rewrite F. cbn [bind]. cbn [callback_loop s_map]. rewrite P. cbn [bind snd]. unfold run_callback. rewrite CB. cbv iota. cbn [s_pos s_resp s_world]. rewrite RUN.
  cbn [bind s_resp]. rewrite RS, RW. cbv iota. assert (G : (c1 =? U_CALLBACK_CONTINUE) || (c1 =? U_CALLBACK_IGNORE) = true) by (destruct DC as [->| ->]; reflexivity). rewrite G. cbv zeta. cbn [andb]. change (U_CALLBACK_COMPLETE =? U_CALLBACK_CONTINUE) with false. change (U_CALLBACK_COMPLETE =? U_CALLBACK_IGNORE) with false. change (U_CALLBACK_COMPLETE =? U_CALLBACK_COMPLETE) with true. cbn [orb]. cbv iota. unfold complete_answer. cbn [s_resp s_pos s_map s_world s_mhd s_upgrade s_inner s_realm s_trace]. rewrite HS. cbn [bind snd]. reflexivity.
Qed.
Lemma run1 : forall e f hs, request_ok url initial -> sorts qsort -> filter (sel verb url) herd_es = [e] -> callback e = Some f ->
  exists m, forall r1 w1, cb f (user_data e) 0 m first (Ret sheep) = (U_CALLBACK_CONTINUE, r1, w1) -> r_stream r1 = None -> r_ws r1 = None -> set_headers accepts r1 [] = Ret (true, hs) ->
  req = Ret (mk_result [Queue (r_status r1) (mk_mhd (CBuffer (r_body r1)) hs)] [mk_event e 0 U_CALLBACK_CONTINUE r1 w1] []).
Proof. intros e f hs RQ QS FL CB. destruct (run1_any e f hs RQ QS FL CB) as (m & R). exists m. intros r1 w1 RUN. apply R; [now left|exact RUN]. Qed.
(** a callback, and compression that has nothing to do *)
Lemma run2_order : forall e f hs, request_ok url initial -> sorts qsort -> qsort (filter (sel verb url) herd_es) = [e; herd_ep 3] -> callback e = Some f -> (forall r, zip r = (U_CALLBACK_CONTINUE, r)) ->
  forall r1 w1, (forall m, cb f (user_data e) 0 m first (Ret sheep) = (U_CALLBACK_CONTINUE, r1, w1)) -> r_stream r1 = None -> r_ws r1 = None -> set_headers accepts r1 [] = Ret (true, hs) ->
  req = Ret (mk_result [Queue (r_status r1) (mk_mhd (CBuffer (r_body r1)) hs)] [mk_event e 0 U_CALLBACK_CONTINUE r1 w1; mk_event (herd_ep 3) 1 U_CALLBACK_CONTINUE r1 w1] []).
Proof.
  intros e f hs RQ QS Q CB ZIP r1 w1 RUN RS RW HS. destruct (prepare_total tl true map_url initial url e RQ) as ([c m] & P). destruct (prepare_total tl true m initial url (herd_ep 3) RQ) as ([c2 m2] & P2).
  unfold herd_server. destruct herd_table as (u & EU & T). rewrite EU. cbn [bind]. unfold dispatch. rewrite (match_table qsort u herd_es verb url T). cbn [bind].
  rewrite Q. cbv zeta iota. assert (F : first_response None = Ret first) by reflexivity. rewrite F. cbn [bind]. cbn [callback_loop s_map]. rewrite P. cbn [bind snd]. unfold run_callback at 1. rewrite CB. cbv iota. cbn [s_pos s_resp s_world]. rewrite RUN.
  cbn [bind s_resp]. rewrite RS, RW. cbv iota. change (U_CALLBACK_CONTINUE =? U_CALLBACK_CONTINUE) with true. rewrite andb_false_r. cbv iota. change (U_CALLBACK_CONTINUE =? U_CALLBACK_CONTINUE) with true. cbn [orb]. cbn [s_map]. rewrite P2. cbn [bind snd]. unfold run_callback.
  change (callback (herd_ep 3)) with (Some 4). cbv iota. cbn [s_pos s_resp s_world]. unfold herd_cb at 1. change (4 =? 1) with false. change (4 =? 2) with false. change (4 =? 3) with false. change (4 =? 4) with true. cbv zeta iota. rewrite ZIP. cbn [fst snd bind s_resp]. rewrite RS, RW. cbv iota.
  change (U_CALLBACK_CONTINUE =? U_CALLBACK_CONTINUE) with true. unfold complete_answer. cbn [s_resp s_pos s_map s_world s_mhd s_upgrade s_inner s_realm s_trace]. rewrite HS. cbn [bind snd]. reflexivity.
Qed.
Lemma run2 : forall e f hs, request_ok url initial -> sorts qsort -> filter (sel verb url) herd_es = [e; herd_ep 3] -> priority e = 1 -> callback e = Some f -> (forall r, zip r = (U_CALLBACK_CONTINUE, r)) ->
  forall r1 w1, (forall m, cb f (user_data e) 0 m first (Ret sheep) = (U_CALLBACK_CONTINUE, r1, w1)) -> r_stream r1 = None -> r_ws r1 = None -> set_headers accepts r1 [] = Ret (true, hs) ->
  req = Ret (mk_result [Queue (r_status r1) (mk_mhd (CBuffer (r_body r1)) hs)] [mk_event e 0 U_CALLBACK_CONTINUE r1 w1; mk_event (herd_ep 3) 1 U_CALLBACK_CONTINUE r1 w1] []).
Proof.
  intros e f hs RQ QS FL PR CB ZIP. apply run2_order; try assumption. rewrite FL. destruct (QS [e; herd_ep 3]) as [Q1 Q2]. apply one_order; [|exact Q1|exact Q2]. repeat constructor. unfold prio_lt. rewrite PR. reflexivity.
Qed.
Definition typed : umap := match u_map_put u_map_init (Some (bs "Content-Type")) (Some (bs "application/json")) with Ret h => snd h | UB _ => u_map_init end.
Definition json_text (n : Z) : str := (123 :: 34 :: bs "nbsheep") ++ 34 :: 58 :: sdec n ++ [125].
Lemma nbsheep_ok : forall n, nbsheep first n = Ret (mk_resp 200 typed [] (json_text n) None None None).
Proof. intros n. unfold nbsheep, first. cbn [r_header r_cookies r_realm r_stream r_ws]. assert (E : u_map_put u_map_init (Some (bs "Content-Type")) (Some (bs "application/json")) = Ret (0, typed)) by (vm_compute; reflexivity). rewrite E. reflexivity. Qed.
Lemma typed_headers : forall b, (forall k v, accepts k v = true) -> set_headers accepts (mk_resp 200 typed [] b None None None) [] = Ret (true, [(bs "Content-Type", bs "application/json")]).
Proof.
  intros b AC. unfold set_headers. cbn [r_header r_cookies]. assert (K : exists rest, keys typed = Some (bs "Content-Type") :: None :: rest) by (exists []; vm_compute; reflexivity). destruct K as (rest & ->). cbn [header_loop].
  assert (G1 : get_str typed (bs "Content-Type") = Ret (Some (bs "application/json"))) by (vm_compute; reflexivity). rewrite G1. cbn [bind]. rewrite AC. reflexivity.
Qed.
Lemma plain_headers : forall s b, set_headers accepts (mk_resp s u_map_init [] b None None None) [] = Ret (true, []).
Proof. reflexivity. Qed.
Lemma no_service_words : no_service url -> exactly [bs "sheep"] (words url) = false /\ exactly [bs "static"; bs "upload"] (words url) = false /\ exactly [bs "static"; bs "submit"] (words url) = false.
Proof.
  intros N. destruct (N _ (words_segs url)) as (A & B & C). repeat split; match goal with |- ?x = false => destruct x eqn:E; [apply exactly_eq in E; contradiction|reflexivity] end.
Qed.

(** C139. POST, PUT and DELETE of /sheep do to the counter what the README says and answer with its value as JSON; compression comes after. *)
Theorem C139_counter : forall n, request_ok url initial -> sorts qsort -> (forall k v, accepts k v = true) -> (forall r, zip r = (U_CALLBACK_CONTINUE, r)) -> segs url [bs "sheep"] -> does body verb sheep n ->
  exists res e1 e2, req = Ret res /\ answers res = [Queue 200 (mk_mhd (CBuffer ((123 :: 34 :: bs "nbsheep") ++ 34 :: 58 :: sdec n ++ [125])) [(bs "Content-Type", bs "application/json")])] /\
    calls res = [e1; e2] /\ ev_world e1 = Ret n /\ ev_world e2 = Ret n /\ extra res = [].
Proof.
  intros n RQ QS AC ZIP SG D. apply segs_words in SG.
  assert (X : exists e f, filter (sel verb url) herd_es = [e; herd_ep 3] /\ priority e = 1 /\ callback e = Some f /\ forall m, cb f (user_data e) 0 m first (Ret sheep) = (U_CALLBACK_CONTINUE, mk_resp 200 typed [] (json_text n) None None None, Ret n)).
  { rewrite picked_ok, <- SG. unfold picked. rewrite exactly_refl. change (exactly [bs "static"; bs "upload"] [bs "sheep"]) with false. change (exactly [bs "static"; bs "submit"] [bs "sheep"]) with false.
    assert (V : forall lo up, lowers (bs up) = bs lo -> forall lo' up', lowers (bs up') = bs lo' -> str_eqb (bs lo) (bs lo') = false -> is_verb lo verb -> str_caseeqb (bs up') verb = false).
    { intros lo up E lo' up' E' NE VB. apply (verb_not up' lo' verb E'). intros VB'. unfold is_verb in *. rewrite VB in VB'. rewrite VB', str_eqb_refl in NE. discriminate NE. }
    destruct D as [(VB & ->)|[(VB & LT & ->)|(VB & ->)]].
    - rewrite (verb_is "POST" "post" verb eq_refl VB), (V "post"%string "POST"%string eq_refl "get"%string "GET"%string eq_refl eq_refl VB), (V "post"%string "POST"%string eq_refl "put"%string "PUT"%string eq_refl eq_refl VB), (V "post"%string "POST"%string eq_refl "delete"%string "DELETE"%string eq_refl eq_refl VB). cbn [andb app].
      exists (herd_ep 0), 1. split; [reflexivity|split; [reflexivity|split; [reflexivity|]]]. intros m. unfold herd_cb. change (1 =? 1) with true. cbv zeta iota. cbn [bind]. rewrite nbsheep_ok. reflexivity.
    - rewrite (verb_is "PUT" "put" verb eq_refl VB), (V "put"%string "PUT"%string eq_refl "get"%string "GET"%string eq_refl eq_refl VB), (V "put"%string "PUT"%string eq_refl "post"%string "POST"%string eq_refl eq_refl VB), (V "put"%string "PUT"%string eq_refl "delete"%string "DELETE"%string eq_refl eq_refl VB). cbn [andb app].
      exists (herd_ep 1), 2. split; [reflexivity|split; [reflexivity|split; [reflexivity|]]]. intros m. unfold herd_cb. change (2 =? 1) with false. change (2 =? 2) with true. cbv zeta iota. cbn [bind]. rewrite (proj2 (Z.eqb_neq _ _)) by lia. cbn [bind]. rewrite nbsheep_ok. reflexivity.
    - rewrite (verb_is "DELETE" "delete" verb eq_refl VB), (V "delete"%string "DELETE"%string eq_refl "get"%string "GET"%string eq_refl eq_refl VB), (V "delete"%string "DELETE"%string eq_refl "post"%string "POST"%string eq_refl eq_refl VB), (V "delete"%string "DELETE"%string eq_refl "put"%string "PUT"%string eq_refl eq_refl VB). cbn [andb app].
      exists (herd_ep 2), 3. split; [reflexivity|split; [reflexivity|split; [reflexivity|]]]. intros m. unfold herd_cb. change (3 =? 1) with false. change (3 =? 2) with false. change (3 =? 3) with true. cbv zeta iota. cbn [bind]. rewrite nbsheep_ok. reflexivity. }
  destruct X as (e & f & FL & PR & CB & RUN). pose proof (run2 e f _ RQ QS FL PR CB ZIP _ _ RUN eq_refl eq_refl (typed_headers (json_text n) AC)) as E. do 3 eexists. split; [exact E|]. repeat split; reflexivity.
Qed.
(** C139. POST of a form to /static/submit is answered with two words; *)
Theorem C139_submit : request_ok url initial -> sorts qsort -> ~ is_verb "get" verb -> segs url [bs "static"; bs "submit"] -> exists res, req = Ret res /\ answers res = [Queue 200 (mk_mhd (CBuffer (bs "Form submitted")) [])].
Proof.
  intros RQ QS NG SG. apply segs_words in SG. assert (FL : filter (sel verb url) herd_es = [herd_ep 5]).
  { rewrite picked_ok, <- SG. unfold picked. rewrite (verb_not "GET" "get" verb eq_refl NG). change (exactly [bs "sheep"] [bs "static"; bs "submit"]) with false. rewrite !andb_false_r. reflexivity. }
  destruct (run1 (herd_ep 5) 6 [] RQ QS FL eq_refl) as (m & R). eexists. split; [apply (R _ _ eq_refl eq_refl eq_refl); reflexivity|reflexivity].
Qed.
(** and what is not a service is 404 unless it is asked with GET. *)
Theorem C139_elsewhere : sorts qsort -> ~ is_verb "get" verb -> no_service url -> req = Ret (mk_result [Queue 404 (mk_mhd (CBuffer (bs "Resource not found")) [])] [] []).
Proof.
  intros QS NG N. destruct (no_service_words N) as (A & B & C). unfold herd_server. destruct herd_table as (u & EU & T). rewrite EU. cbn [bind]. unfold dispatch. rewrite (match_table qsort u herd_es verb url T), picked_ok. unfold picked. rewrite A, B, C, (verb_not "GET" "get" verb eq_refl NG), !andb_false_r. cbn [app bind].
  destruct (QS []) as [Q _]. apply Permutation_nil in Q. rewrite Q. reflexivity.
Qed.
Lemma site_only : is_verb "get" verb -> no_service url -> filter (sel verb url) herd_es = [herd_ep 6].
Proof. intros V N. destruct (no_service_words N) as (A & B & C). rewrite picked_ok. unfold picked. rewrite A, B, C, (verb_is "GET" "get" verb eq_refl V), !andb_false_r. reflexivity. Qed.

(** seven bytes are skipped, whatever they are *)
Lemma wanted_ok : forall p name tail, http_url = 47 :: p ++ 47 :: name ++ tail -> cstr http_url -> List.length p = 6%nat -> name <> [] -> hd 0 name <> 47 -> ~ In 35 name -> ~ In 63 name -> (tail = [] \/ hd 0 tail = 63) -> wanted http_url = Ret name.
Proof.
  intros p name tail E CS LP NE NS H35 H63 TL. unfold wanted. pose proof (cut_name_ok (mk_gconfig None herd_prefix None false false false (fun _ => false)) http_url CS) as C. cbn [g_prefix] in C. rewrite C; [|rewrite E; cbn; rewrite app_length; cbn; lia]. cbn [bind]. unfold cut_of. cbn [g_prefix].
  change (olen herd_prefix) with 7%nat. rewrite E. change (skipn 7 (47 :: p ++ 47 :: name ++ tail)) with (skipn 6 (p ++ 47 :: name ++ tail)). rewrite skipn_app, LP, skipn_all2 by lia. cbn [app skipn Nat.sub]. rewrite <- drop_no_slash. cbn [drop_slash]. change (47 =? 47) with true. cbv iota.
  assert (D : drop_slash (name ++ tail) = name ++ tail). { destruct name as [|c name]; [congruence|]. cbn in NS. cbn [app drop_slash]. now rewrite (proj2 (Z.eqb_neq _ _) NS). } rewrite D, <- until_up_to.
  assert (U : until 63 (until 35 (name ++ tail)) = name).
  { clear -H35 H63 TL. induction name as [|c name IH]; cbn [app].
    - destruct TL as [->|H]; [reflexivity|]. destruct tail as [|x tail]; [reflexivity|]. cbn in H. subst x. reflexivity.
    - cbn [until]. rewrite (proj2 (Z.eqb_neq c 35)) by (intros ->; apply H35; now left). cbn [until]. rewrite (proj2 (Z.eqb_neq c 63)) by (intros ->; apply H63; now left). rewrite IH; [reflexivity| |]; intros X; [apply H35|apply H63]; now right. }
  rewrite U. destruct name; [congruence|reflexivity].
Qed.
(** C139. GET of /static/name is the file of that name, although the prefix of the web site is /upload (210): the two have the same length. Proved for files that the web site puts in the body. *)
Theorem C139_files_partial : forall name tail content, request_ok url initial -> sorts qsort -> is_verb "get" verb -> no_service url ->
  http_url = bs "/static/" ++ name ++ tail -> cstr http_url -> name <> [] -> hd 0 name <> 47 -> ~ In 35 name -> ~ In 63 name -> (tail = [] \/ hd 0 tail = 63) ->
  site name (mk_resp 200 u_map_init [] [] None None None) = (U_CALLBACK_CONTINUE, mk_resp 200 u_map_init [] content None None None) ->
  exists res e, req = Ret res /\ answers res = [Queue 200 (mk_mhd (CBuffer content) [])] /\ calls res = [e] /\ ev_world e = Ret sheep.
Proof.
  intros name tail content RQ QS V N E CS NE NS H35 H63 TL ST. pose proof (wanted_ok (bs "static") name tail E CS eq_refl NE NS H35 H63 TL) as W. destruct (run1 (herd_ep 6) 7 [] RQ QS (site_only V N) eq_refl) as (m & R).
  assert (C : cb 7 (user_data (herd_ep 6)) 0 m first (Ret sheep) = (U_CALLBACK_CONTINUE, mk_resp 200 u_map_init [] content None None None, Ret sheep)).
  { unfold herd_cb. cbv zeta. change (7 =? 1) with false. change (7 =? 2) with false. change (7 =? 3) with false. change (7 =? 4) with false. change (7 =? 5) with false. change (7 =? 6) with false. change (0 <? 0) with false. cbv iota. rewrite W. unfold first. rewrite ST. reflexivity. }
  do 2 eexists. split; [exact (R _ _ C eq_refl eq_refl eq_refl)|]. repeat split; reflexivity.
Qed.
(** C139, refuted: the prefix of the web site is not looked at, only its length is: any six letters in the place of static give the same file. *)
Theorem C139_prefix_refuted : forall p name content, request_ok url initial -> sorts qsort -> is_verb "get" verb -> no_service url -> List.length p = 6%nat -> p <> bs "upload" /\ p <> bs "static" ->
  http_url = 47 :: p ++ 47 :: name -> cstr http_url -> name <> [] -> hd 0 name <> 47 -> ~ In 35 name -> ~ In 63 name ->
  site name (mk_resp 200 u_map_init [] [] None None None) = (U_CALLBACK_CONTINUE, mk_resp 200 u_map_init [] content None None None) ->
  exists res, req = Ret res /\ answers res = [Queue 200 (mk_mhd (CBuffer content) [])].
Proof.
  intros p name content RQ QS V N LP _ E CS NE NS H35 H63 ST. rewrite <- (app_nil_r name) in E. pose proof (wanted_ok p name [] E CS LP NE NS H35 H63 (or_introl eq_refl)) as W. destruct (run1 (herd_ep 6) 7 [] RQ QS (site_only V N) eq_refl) as (m & R).
  assert (C : cb 7 (user_data (herd_ep 6)) 0 m first (Ret sheep) = (U_CALLBACK_CONTINUE, mk_resp 200 u_map_init [] content None None None, Ret sheep)).
  { unfold herd_cb. cbv zeta. change (7 =? 1) with false. change (7 =? 2) with false. change (7 =? 3) with false. change (7 =? 4) with false. change (7 =? 5) with false. change (7 =? 6) with false. change (0 <? 0) with false. cbv iota. rewrite W. unfold first. rewrite ST. reflexivity. }
  eexists. split; [exact (R _ _ C eq_refl eq_refl eq_refl)|reflexivity].
Qed.
(** C139, refuted: GET of anything shorter than /upload, as of / itself, reads after the end of the copy of the url (static_compressed_inmemory_website_callback.c:319-320). *)
Theorem C139_short_refuted : request_ok url initial -> sorts qsort -> is_verb "get" verb -> no_service url -> (List.length http_url < 7)%nat -> exists res e, req = Ret res /\ calls res = [e] /\ ev_world e = UB OutOfBounds.
Proof.
  intros RQ QS V N L. assert (W : wanted http_url = UB OutOfBounds).
  { unfold wanted, cut_name, advance. change (olen herd_prefix) with 7%nat. unfold cblock, block_of. rewrite map_length, app_length. cbn [List.length]. destruct (Nat.ltb_spec (List.length http_url + 1) 7) as [H|H]; [reflexivity|]. cbn [bind]. rewrite skipn_all2; [reflexivity|]. rewrite map_length, app_length. cbn [List.length]. lia. }
  destruct (run1 (herd_ep 6) 7 [] RQ QS (site_only V N) eq_refl) as (m & R). 
  assert (C : cb 7 (user_data (herd_ep 6)) 0 m first (Ret sheep) = (U_CALLBACK_CONTINUE, first, UB OutOfBounds)).
  { unfold herd_cb. cbv zeta. change (7 =? 1) with false. change (7 =? 2) with false. change (7 =? 3) with false. change (7 =? 4) with false. change (7 =? 5) with false. change (7 =? 6) with false. change (0 <? 0) with false. cbv iota. rewrite W. reflexivity. }
  do 2 eexists. split; [exact (R _ _ C eq_refl eq_refl eq_refl)|]. split; reflexivity.
Qed.
(** C139, refuted: README.md has the upload service at /upload, where POST is 404. *)
Theorem C139_upload_refuted : sorts qsort -> is_verb "post" verb -> segs url [bs "upload"] -> req = Ret (mk_result [Queue 404 (mk_mhd (CBuffer (bs "Resource not found")) [])] [] []).
Proof.
  intros QS V SG. apply C139_elsewhere; [exact QS| |].
  - unfold is_verb in *. rewrite V. discriminate.
  - intros ws S0. apply segs_words in S0, SG. rewrite <- SG in S0. rewrite S0. repeat split; discriminate.
Qed.
(** C139, refuted: README.md says that the answer to an upload has information about it. The text is made and thrown away (133, 144): the answer is empty. *)
Theorem C139_nothing_refuted : request_ok url initial -> sorts qsort -> ~ is_verb "get" verb -> segs url [bs "static"; bs "upload"] -> exists res, req = Ret res /\ answers res = [Queue 200 (mk_mhd (CBuffer []) [])].
Proof.
  intros RQ QS NG SG. apply segs_words in SG. assert (FL : filter (sel verb url) herd_es = [herd_ep 4]).
  { rewrite picked_ok, <- SG. unfold picked. rewrite (verb_not "GET" "get" verb eq_refl NG). change (exactly [bs "sheep"] [bs "static"; bs "upload"]) with false. rewrite !andb_false_r. reflexivity. }
  destruct (run1 (herd_ep 4) 5 [] RQ QS FL eq_refl) as (m & R). eexists. split; [apply (R _ _ eq_refl eq_refl eq_refl); reflexivity|reflexivity].
Qed.
(** C139, refuted: a method that is not a service of /sheep, PATCH say, is answered 200 with nothing, because compression is there for every method (230). *)
Theorem C139_method_refuted : request_ok url initial -> sorts qsort -> (forall r, zip r = (U_CALLBACK_CONTINUE, r)) -> ~ is_verb "get" verb -> ~ is_verb "post" verb -> ~ is_verb "put" verb -> ~ is_verb "delete" verb -> segs url [bs "sheep"] ->
  exists res, req = Ret res /\ answers res = [Queue 200 (mk_mhd (CBuffer []) [])].
Proof.
  intros RQ QS ZIP N1 N2 N3 N4 SG. apply segs_words in SG. assert (FL : filter (sel verb url) herd_es = [herd_ep 3]).
  { rewrite picked_ok, <- SG. unfold picked. rewrite (verb_not "GET" "get" verb eq_refl N1), (verb_not "POST" "post" verb eq_refl N2), (verb_not "PUT" "put" verb eq_refl N3), (verb_not "DELETE" "delete" verb eq_refl N4), exactly_refl. reflexivity. }
  destruct (run1 (herd_ep 3) 4 [] RQ QS FL eq_refl) as (m & R). 
  assert (C : cb 4 (user_data (herd_ep 3)) 0 m first (Ret sheep) = (U_CALLBACK_CONTINUE, first, Ret sheep)).
  { unfold herd_cb. cbv zeta. change (4 =? 1) with false. change (4 =? 2) with false. change (4 =? 3) with false. change (4 =? 4) with true. cbv iota. now rewrite ZIP. }
  eexists. split; [exact (R _ _ C eq_refl eq_refl eq_refl)|reflexivity].
Qed.
(** C139, refuted: a form without fields makes the server log NULL with %s (155). *)
Theorem C139_form_refuted : request_ok url initial -> sorts qsort -> ~ is_verb "get" verb -> segs url [bs "static"; bs "submit"] -> (forall i j, mem i j = true) -> repr map_post [] -> null = None ->
  exists res e, req = Ret res /\ calls res = [e] /\ ev_world e = UB NullDeref.
Proof.
  intros RQ QS NG SG MEM RP NU. apply segs_words in SG. assert (FL : filter (sel verb url) herd_es = [herd_ep 5]).
  { rewrite picked_ok, <- SG. unfold picked. rewrite (verb_not "GET" "get" verb eq_refl NG). change (exactly [bs "sheep"] [bs "static"; bs "submit"]) with false. rewrite !andb_false_r. reflexivity. }
  assert (A : argument mem null 0 map_post = UB NullDeref). { pose proof (C123_prints_partial (mem 0%nat) map_post [] (MEM 0%nat) RP ltac:(constructor) ltac:(constructor) ltac:(discriminate)) as X. unfold argument. cbv iota in X. rewrite X. cbn [bind]. now rewrite NU. }
  destruct (run1 (herd_ep 5) 6 [] RQ QS FL eq_refl) as (m & R). do 2 eexists. split; [apply (R _ _ eq_refl eq_refl eq_refl); reflexivity|]. split; [reflexivity|]. cbn [ev_world bind]. unfold submit. rewrite A. reflexivity.
Qed.
(** C139. GET of the folder, with or without a slash, is index.html. *)
Theorem C139_index_partial : forall slash tail content, request_ok url initial -> sorts qsort -> is_verb "get" verb -> no_service url ->
  http_url = bs "/static" ++ slash ++ tail -> (slash = [] \/ slash = bs "/") -> cstr http_url -> (tail = [] \/ hd 0 tail = 63) ->
  site (bs "index.html") (mk_resp 200 u_map_init [] [] None None None) = (U_CALLBACK_CONTINUE, mk_resp 200 u_map_init [] content None None None) ->
  exists res, req = Ret res /\ answers res = [Queue 200 (mk_mhd (CBuffer content) [])].
Proof.
  intros slash tail content RQ QS V N E SL CS TL ST.
  assert (W : wanted http_url = Ret (bs "index.html")).
  { unfold wanted. pose proof (cut_name_ok (mk_gconfig None herd_prefix None false false false (fun _ => false)) http_url CS) as C. cbn [g_prefix] in C. rewrite C; [|rewrite E; rewrite app_length; cbn; lia]. cbn [bind]. unfold cut_of. cbn [g_prefix]. change (olen herd_prefix) with 7%nat. rewrite E.
    change (skipn 7 (bs "/static" ++ slash ++ tail)) with (slash ++ tail). assert (X : up_to (no_slash (slash ++ tail)) = []); [|now rewrite X]. rewrite <- drop_no_slash, <- until_up_to. destruct TL as [->|H]; [destruct SL as [->| ->]; reflexivity|]. destruct tail as [|x tail]; [destruct SL as [->| ->]; reflexivity|]. cbn in H. subst x. destruct SL as [->| ->]; reflexivity. }
  destruct (run1 (herd_ep 6) 7 [] RQ QS (site_only V N) eq_refl) as (m & R).
  assert (C : cb 7 (user_data (herd_ep 6)) 0 m first (Ret sheep) = (U_CALLBACK_CONTINUE, mk_resp 200 u_map_init [] content None None None, Ret sheep)).
  { unfold herd_cb. cbv zeta. change (7 =? 1) with false. change (7 =? 2) with false. change (7 =? 3) with false. change (7 =? 4) with false. change (7 =? 5) with false. change (7 =? 6) with false. change (0 <? 0) with false. cbv iota. rewrite W. unfold first. rewrite ST. reflexivity. }
  eexists. split; [exact (R _ _ C eq_refl eq_refl eq_refl)|reflexivity].
Qed.
(** two callbacks of the same priority, of which the first has no stream *)
Lemma run_pair : forall a b f g r1 c1 r2 c2, request_ok url initial -> sorts qsort -> qsort (filter (sel verb url) herd_es) = [a; b] -> callback a = Some f -> callback b = Some g ->
  (forall m, exists w1, cb f (user_data a) 0 m first (Ret sheep) = (c1, r1, w1)) -> (c1 = U_CALLBACK_CONTINUE \/ c1 = U_CALLBACK_IGNORE) -> r_stream r1 = None -> r_ws r1 = None ->
  (forall m w1, exists w2, cb g (user_data b) (if c1 =? U_CALLBACK_IGNORE then 0 else 1) m r1 w1 = (c2, r2, w2)) -> (c2 = U_CALLBACK_CONTINUE \/ c2 = U_CALLBACK_IGNORE) -> r_stream r2 = None -> r_ws r2 = None ->
  set_headers accepts r2 [] = Ret (true, []) -> exists res, req = Ret res /\ answers res = [Queue (r_status r2) (mk_mhd (CBuffer (r_body r2)) [])] /\ map ev_ep (calls res) = [a; b].
Proof.
  intros a b f g r1 c1 r2 c2 RQ QS Q CA CB2 RUN D1 RS RW RUN2 D2 RS2 RW2 HS. destruct (prepare_total tl true map_url initial url a RQ) as ([k m] & P). destruct (prepare_total tl true m initial url b RQ) as ([k2 m2] & P2). destruct (RUN m) as (w1 & RUN'). destruct (RUN2 m2 w1) as (w2 & RUN2'). clear RUN RUN2. rename RUN' into RUN. rename RUN2' into RUN2.
  unfold herd_server. destruct herd_table as (u & EU & T). rewrite EU. cbn [bind]. unfold dispatch. rewrite (match_table qsort u herd_es verb url T), Q. cbn [bind]. assert (F : first_response None = Ret first) by reflexivity. rewrite F. cbn [bind]. cbn [callback_loop s_map]. rewrite P. cbn [bind snd].
  unfold run_callback at 1. rewrite CA. cbv iota. cbn [s_pos s_resp s_world]. rewrite RUN. cbn [bind s_resp]. rewrite RS, RW. cbv iota. rewrite andb_false_r. cbv iota.
  destruct D1 as [->| ->]; destruct D2 as [->| ->]; change (U_CALLBACK_CONTINUE =? U_CALLBACK_CONTINUE) with true; change (U_CALLBACK_IGNORE =? U_CALLBACK_IGNORE) with true in *; change (U_CALLBACK_CONTINUE =? U_CALLBACK_IGNORE) with false in *; change (U_CALLBACK_IGNORE =? U_CALLBACK_CONTINUE) with false;
    cbv iota in RUN2; cbn [orb s_map]; cbv iota; rewrite P2; cbn [bind snd]; unfold run_callback; rewrite CB2; cbv iota; cbn [s_pos s_resp s_world negb andb]; cbv iota; try (change ((0 + 1) mod 4294967296) with 1); rewrite RUN2; cbn [bind s_resp]; rewrite RS2, RW2; cbv iota; cbn [andb orb]; cbv iota;
    try change (U_CALLBACK_CONTINUE =? U_CALLBACK_CONTINUE) with true; try change (U_CALLBACK_IGNORE =? U_CALLBACK_CONTINUE) with false; try change (U_CALLBACK_IGNORE =? U_CALLBACK_IGNORE) with true; cbn [andb orb]; cbv iota;
    change (U_CALLBACK_COMPLETE =? U_CALLBACK_CONTINUE) with false; change (U_CALLBACK_COMPLETE =? U_CALLBACK_IGNORE) with false; change (U_CALLBACK_COMPLETE =? U_CALLBACK_COMPLETE) with true; cbn [orb]; cbv iota;
    unfold complete_answer; cbn [s_resp s_pos s_map s_world s_mhd s_upgrade s_inner s_realm s_trace]; rewrite HS; cbn [bind snd]; eexists; repeat split; reflexivity.
Qed.
(** C139. GET of /static/submit has two callbacks of the same priority, the form and the web site. Whichever qsort puts first, the answer is that of the form, whether the web site has no such file or puts it in the body. *)
Theorem C139_form_and_site_partial : forall status b, request_ok url initial -> sorts qsort -> is_verb "get" verb -> segs url [bs "static"; bs "submit"] -> http_url = bs "/static/submit" -> (forall n r, site n r = (U_CALLBACK_CONTINUE, string_body r status b)) \/ (forall n r, site n r = (U_CALLBACK_IGNORE, r)) ->
  exists res, req = Ret res /\ answers res = [Queue 200 (mk_mhd (CBuffer (bs "Form submitted")) [])] /\ Permutation (map ev_ep (calls res)) [herd_ep 5; herd_ep 6].
Proof.
  intros status b RQ QS V SG E ST. apply segs_words in SG.
  assert (FL : filter (sel verb url) herd_es = [herd_ep 5; herd_ep 6]).
  { rewrite picked_ok, <- SG. unfold picked. rewrite (verb_is "GET" "get" verb eq_refl V). change (exactly [bs "sheep"] [bs "static"; bs "submit"]) with false. rewrite !andb_false_r. reflexivity. }
  assert (W : wanted http_url = Ret (bs "submit")) by (rewrite E; vm_compute; reflexivity).
  destruct (QS [herd_ep 5; herd_ep 6]) as [Q _]. apply Permutation_length_2_inv in Q. assert (Q' : qsort (filter (sel verb url) herd_es) = [herd_ep 5; herd_ep 6] \/ qsort (filter (sel verb url) herd_es) = [herd_ep 6; herd_ep 5]) by (now rewrite FL). clear Q. destruct Q' as [Q|Q].
  - destruct (run_pair (herd_ep 5) (herd_ep 6) 6 7 (string_body first 200 (bs "Form submitted")) U_CALLBACK_CONTINUE (string_body first 200 (bs "Form submitted")) U_CALLBACK_IGNORE RQ QS Q eq_refl eq_refl) as (res & A & B & C);
      [intros m; eexists; reflexivity|now left|reflexivity|reflexivity|intros m w1; eexists; reflexivity|now right|reflexivity|reflexivity|reflexivity|]. exists res. split; [exact A|split; [exact B|]]. rewrite C. apply Permutation_refl.
  - assert (S7 : forall m, cb 7 (user_data (herd_ep 6)) 0 m first (Ret sheep) = (fst (site (bs "submit") first), snd (site (bs "submit") first), Ret sheep)).
    { intros m. unfold herd_cb. cbv zeta. change (7 =? 1) with false. change (7 =? 2) with false. change (7 =? 3) with false. change (7 =? 4) with false. change (7 =? 5) with false. change (7 =? 6) with false. change (0 <? 0) with false. cbv iota. rewrite W. reflexivity. }
    destruct ST as [ST|ST]; rewrite ST in S7; cbn [fst snd] in S7.
    + destruct (run_pair (herd_ep 6) (herd_ep 5) 7 6 (string_body first status b) U_CALLBACK_CONTINUE (string_body first 200 (bs "Form submitted")) U_CALLBACK_CONTINUE RQ QS Q eq_refl eq_refl) as (res & A & B & C);
        [intros m; eexists; apply S7|now left|reflexivity|reflexivity|intros m w1; eexists; reflexivity|now left|reflexivity|reflexivity|reflexivity|]. exists res. split; [exact A|split; [exact B|]]. rewrite C. apply perm_swap.
    + destruct (run_pair (herd_ep 6) (herd_ep 5) 7 6 first U_CALLBACK_IGNORE (string_body first 200 (bs "Form submitted")) U_CALLBACK_CONTINUE RQ QS Q eq_refl eq_refl) as (res & A & B & C);
        [intros m; eexists; apply S7|now right|reflexivity|reflexivity|intros m w1; eexists; reflexivity|now left|reflexivity|reflexivity|reflexivity|]. exists res. split; [exact A|split; [exact B|]]. rewrite C. apply perm_swap.
Qed.
(** C139, refuted: and an upload without a cookie prints NULL with %s (133), however much of it is there. *)
Theorem C139_cookie_refuted : request_ok url initial -> sorts qsort -> ~ is_verb "get" verb -> segs url [bs "static"; bs "upload"] -> (forall i j, mem i j = true) -> repr map_cookie [] -> null = None ->
  exists res e k, req = Ret res /\ calls res = [e] /\ ev_world e = UB k.
Proof.
  intros RQ QS NG SG MEM RP NU. apply segs_words in SG. assert (FL : filter (sel verb url) herd_es = [herd_ep 4]).
  { rewrite picked_ok, <- SG. unfold picked. rewrite (verb_not "GET" "get" verb eq_refl NG). change (exactly [bs "sheep"] [bs "static"; bs "upload"]) with false. rewrite !andb_false_r. reflexivity. }
  assert (A : argument mem null 2 map_cookie = UB NullDeref). { pose proof (C123_prints_partial (mem 2%nat) map_cookie [] (MEM 2%nat) RP ltac:(constructor) ltac:(constructor) ltac:(discriminate)) as X. unfold argument. cbv iota in X. rewrite X. cbn [bind]. now rewrite NU. }
  destruct (run1 (herd_ep 4) 5 [] RQ QS FL eq_refl) as (m & R). do 2 eexists. exists (match argument mem null 0 m with Ret _ => NullDeref | UB k => k end). split; [apply (R _ _ eq_refl eq_refl eq_refl); reflexivity|]. split; [reflexivity|]. cbn [ev_world bind]. unfold upload. rewrite A. destruct (argument mem null 0 m); reflexivity.
Qed.
(** C139, refuted: GET of /sheep itself gets to the web site before compression, and reads after the end of the url, which is one byte too short. *)
Theorem C139_sheep_refuted : request_ok url initial -> sorts qsort -> (forall r, zip r = (U_CALLBACK_CONTINUE, r)) -> is_verb "get" verb -> segs url [bs "sheep"] -> (List.length http_url < 7)%nat ->
  exists res e1 e2, req = Ret res /\ calls res = [e1; e2] /\ ev_ep e1 = herd_ep 6 /\ ev_world e1 = UB OutOfBounds.
Proof.
  intros RQ QS ZIP V SG L. apply segs_words in SG.
  assert (FL : filter (sel verb url) herd_es = [herd_ep 3; herd_ep 6]).
  { rewrite picked_ok, <- SG. unfold picked. rewrite (verb_is "GET" "get" verb eq_refl V). assert (NV : forall up lo, lowers (bs up) = bs lo -> str_eqb (bs "get") (bs lo) = false -> str_caseeqb (bs up) verb = false).
    { intros up lo E NE. apply (verb_not up lo verb E). intros V'. unfold is_verb in *. rewrite V in V'. rewrite V', str_eqb_refl in NE. discriminate NE. }
    rewrite (NV "POST" "post" eq_refl eq_refl)%string, (NV "PUT" "put" eq_refl eq_refl)%string, (NV "DELETE" "delete" eq_refl eq_refl)%string. reflexivity. }
  assert (Q : qsort (filter (sel verb url) herd_es) = [herd_ep 6; herd_ep 3]).
  { rewrite FL. destruct (QS [herd_ep 3; herd_ep 6]) as [Q1 Q2]. apply one_order; [repeat constructor| |exact Q2]. eapply Permutation_trans; [apply perm_swap|exact Q1]. }
  assert (W : wanted http_url = UB OutOfBounds).
  { unfold wanted, cut_name, advance. change (olen herd_prefix) with 7%nat. unfold cblock, block_of. rewrite map_length, app_length. cbn [List.length]. destruct (Nat.ltb_spec (List.length http_url + 1) 7) as [H|H]; [reflexivity|]. cbn [bind]. rewrite skipn_all2; [reflexivity|]. rewrite map_length, app_length. cbn [List.length]. lia. }
  assert (C : forall m, cb 7 (user_data (herd_ep 6)) 0 m first (Ret sheep) = (U_CALLBACK_CONTINUE, first, UB OutOfBounds)).
  { intros m. unfold herd_cb. cbv zeta. change (7 =? 1) with false. change (7 =? 2) with false. change (7 =? 3) with false. change (7 =? 4) with false. change (7 =? 5) with false. change (7 =? 6) with false. change (0 <? 0) with false. cbv iota. rewrite W. reflexivity. }
  pose proof (run2_order (herd_ep 6) 7 [] RQ QS Q eq_refl ZIP _ _ C eq_refl eq_refl eq_refl) as E. do 3 eexists. split; [exact E|]. repeat split; reflexivity.
Qed.
(** C139, refuted: a file that is not there is not 404 but 200 with nothing: the web site leaves the request to the next callback (static_compressed_inmemory_website_callback.c:210-211, 218-219, redirect_on_404 being NULL) and there is none. *)
Theorem C139_missing_refuted : forall name tail, request_ok url initial -> sorts qsort -> is_verb "get" verb -> no_service url ->
  http_url = bs "/static/" ++ name ++ tail -> cstr http_url -> name <> [] -> hd 0 name <> 47 -> ~ In 35 name -> ~ In 63 name -> (tail = [] \/ hd 0 tail = 63) -> (forall r, site name r = (U_CALLBACK_IGNORE, r)) ->
  exists res, req = Ret res /\ answers res = [Queue 200 (mk_mhd (CBuffer []) [])].
Proof.
  intros name tail RQ QS V N E CS NE NS H35 H63 TL ST. pose proof (wanted_ok (bs "static") name tail E CS eq_refl NE NS H35 H63 TL) as W. destruct (run1_any (herd_ep 6) 7 [] RQ QS (site_only V N) eq_refl) as (m & R).
  assert (C : cb 7 (user_data (herd_ep 6)) 0 m first (Ret sheep) = (U_CALLBACK_IGNORE, first, Ret sheep)).
  { unfold herd_cb. cbv zeta. change (7 =? 1) with false. change (7 =? 2) with false. change (7 =? 3) with false. change (7 =? 4) with false. change (7 =? 5) with false. change (7 =? 6) with false. change (0 <? 0) with false. cbv iota. rewrite W, ST. reflexivity. }
  eexists. split; [exact (R _ _ _ (or_intror eq_refl) C eq_refl eq_refl eq_refl)|reflexivity].
Qed.
End Herd.

Lemma rev_sorts : sorts (fun l => isort (rev l)).
Proof. intros l. destruct (isort_sorts (rev l)) as [P S0]. split; [eapply Permutation_trans; [apply Permutation_rev|exact P]|exact S0]. Qed.
(** C139, refuted: GET of /static/upload has two callbacks of the same priority. When the folder has a file of that name, the answer is the file or nothing, as qsort likes. *)
Theorem C139_order_refuted : exists q1 q2 file, sorts q1 /\ sorts q2 /\ file <> [] /\
  let get q := herd_server (bs "/static/upload") None u_map_init u_map_init u_map_init (fun _ _ => true) (Some (bs "(null)")) (fun r => (U_CALLBACK_CONTINUE, r)) (fun _ r => (U_CALLBACK_CONTINUE, string_body r 200 file)) (fun c => c) q (fun _ _ => true) (fun _ => inr (0, [])) (bs "GET") (bs "/static/upload") u_map_init u_map_init 0 in
  exists r1 r2, get q1 = Ret r1 /\ get q2 = Ret r2 /\ answers r1 = [Queue 200 (mk_mhd (CBuffer []) [])] /\ answers r2 = [Queue 200 (mk_mhd (CBuffer file) [])].
Proof.
  exists isort, (fun l => isort (rev l)), (bs "a file"). split; [apply isort_sorts|]. split; [apply rev_sorts|]. split; [discriminate|]. cbv zeta. do 2 eexists. split; [vm_compute; reflexivity|]. split; [vm_compute; reflexivity|]. split; vm_compute; reflexivity.
Qed.
(** what some requests are answered, and what becomes of the counter *)
Definition one_file (name : str) (r : response) : Z * response := if str_eqb name (bs "index.html") then (U_CALLBACK_CONTINUE, string_body r 200 (bs "sheep!")) else (U_CALLBACK_IGNORE, r).
Definition ask (verb url : string) (sheep : Z) : option (list (Z * list Z) * list (outcome Z)) :=
  match herd_server (bs url) None u_map_init u_map_init u_map_init (fun _ _ => true) None (fun r => (U_CALLBACK_CONTINUE, r)) one_file (fun c => c) isort (fun _ _ => true) (fun _ => inr (0, [])) (bs verb) (bs url) u_map_init u_map_init sheep with
  | Ret res => Some (map (fun a => match a with Queue s m => (s, match c_content m with CBuffer b => b | _ => [] end) | _ => (0, []) end) (answers res), map ev_world (calls res))
  | UB _ => None
  end.
Example C139_ex :
  ask "PUT" "/sheep" 41 = Some ([(200, (123 :: 34 :: bs "nbsheep") ++ 34 :: 58 :: bs "42}")], [Ret 42; Ret 42]) /\ ask "delete" "/sheep" 41 = Some ([(200, (123 :: 34 :: bs "nbsheep") ++ 34 :: 58 :: bs "0}")], [Ret 0; Ret 0]) /\
  ask "GET" "/static/index.html" 3 = Some ([(200, bs "sheep!")], [Ret 3]) /\ ask "GET" "/wolves/index.html" 3 = Some ([(200, bs "sheep!")], [Ret 3]) /\ ask "GET" "/static/none.html" 3 = Some ([(200, [])], [Ret 3]) /\ ask "GET" "/sheep" 3 = Some ([(200, [])], [UB OutOfBounds; UB OutOfBounds]) /\ ask "GET" "/" 3 = Some ([(200, [])], [UB OutOfBounds]) /\
  ask "POST" "/upload" 3 = Some ([(404, bs "Resource not found")], []) /\ ask "PATCH" "/sheep" 3 = Some ([(200, [])], [Ret 3]) /\ ask "POST" "/static/submit" 3 = Some ([(200, bs "Form submitted")], [UB NullDeref]).
Proof. repeat split; vm_compute; reflexivity. Qed.
Example C139_hyps : request_ok (bs "/static/index.html") u_map_init /\ no_service (bs "/static/index.html") /\ no_service (bs "/") /\ segs (bs "/sheep") [bs "sheep"] /\ does None (bs "PUT") 41 42 /\ ~ is_verb "get" (bs "PATCH").
Proof.
  split; [split; [repeat constructor; discriminate|exists []; split; [apply repr_init|split; [constructor|reflexivity]]]|]. split; [intros ws H; apply segs_words in H; subst ws; repeat split; discriminate|]. split; [intros ws H; apply segs_words in H; subst ws; repeat split; discriminate|].
  split; [change [bs "sheep"] with (words (bs "/sheep")); apply words_segs|]. split; [right; left; repeat split; reflexivity|]. discriminate.
Qed.

Print Assumptions C139_counter.
Print Assumptions C139_submit.
Print Assumptions C139_elsewhere.
Print Assumptions C139_files_partial.
Print Assumptions C139_prefix_refuted.
Print Assumptions C139_short_refuted.
Print Assumptions C139_upload_refuted.
Print Assumptions C139_nothing_refuted.
Print Assumptions C139_method_refuted.
Print Assumptions C139_form_refuted.
Print Assumptions C139_cookie_refuted.
Print Assumptions C139_index_partial.
Print Assumptions C139_missing_refuted.
Print Assumptions C139_sheep_refuted.
Print Assumptions C139_order_refuted.
Print Assumptions C139_form_and_site_partial.
