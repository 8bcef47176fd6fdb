(** C137, continued: the page that shows the request, and what is not as README.md says. *)
From Coq Require Import String ZArith Bool List Lia Sorted Permutation.
From Verif Require Import Base BaseFacts Dec UMapModel UMapProps SMap RouterModel RouterSpec RouterProofs RouterProps Utf8Spec EndpointProofs CookieModel DispatchModel DispatchSpec DispatchProofs DoorModel PrintModel PrintSpec PrintProps.
From Verif Require Import LevelSpec LevelProofs LevelProps.
From Verif Require Import SimpleModel SimpleProps.
Import ListNotations.
Open Scope Z_scope.

(** the four methods of /test/param/:foo and the user data of each *)
Inductive param_verb : string -> string -> nat -> Prop :=
| pv_get : param_verb "get" "user data 1" 4 | pv_post : param_verb "post" "user data 2" 5 | pv_put : param_verb "put" "user data 3" 6 | pv_delete : param_verb "delete" "user data 4" 7.
(** the text that shows a request *)
Definition whole_text (verb http_url u c h p ud address : str) : str :=
  bs "Hello World!" ++ [10; 10] ++ bs "  method is " ++ verb ++ [10] ++ bs "  url is " ++ http_url ++ [10; 10] ++ bs "  parameters from the url are " ++ [10] ++ u ++ [10; 10] ++
  bs "  cookies are " ++ [10] ++ c ++ [10; 10] ++ bs "  headers are " ++ [10] ++ h ++ [10; 10] ++ bs "  post parameters are " ++ [10] ++ p ++ [10; 10] ++
  bs "  user data is " ++ ud ++ [10; 10] ++ bs "client address is " ++ address ++ [10; 10].

Section Foo.
Variables (verb http_url : str) (map_header map_cookie map_post : umap) (address : str) (mem : nat -> nat -> bool) (tl : Z -> Z) (qsort : list endpoint -> list endpoint) (accepts : str -> str -> bool)
  (handshake : Z -> list (str * str) + (Z * list Z)) (url : str) (initial map_url : umap).
Notation req := (simple_server verb http_url map_header map_cookie map_post address mem tl qsort accepts handshake url initial map_url).
Notation good := (good verb http_url map_header map_cookie map_post address mem tl qsort accepts handshake url initial map_url).
Notation fair := (fair mem qsort accepts url initial).
Notation foo := (foo_text verb http_url map_header map_cookie map_post address mem).

Lemma shown_ok : forall which m d, (forall i j, mem i j = true) -> repr m d -> keys_ok d -> no_null d -> d <> [] -> print_size d <= INT_MAX -> exists t, prints d t /\ shown mem which m = Ret t.
Proof.
  intros which m d MEM R K N NE B. pose proof (C123_prints_partial (mem which) m d (MEM which) R K N B) as X. destruct d as [|p d]; [congruence|]. destruct X as (t & PR & X & _). exists t. split; [exact PR|].
  unfold shown. rewrite X. cbn [bind]. apply read_cblock. apply (prints_cstr _ _ (fun k v => get_str m k = Ret (Some v)) PR). exact (pairs_readable m _ R K N).
Qed.
Lemma shown_empty : forall which m, repr m [] -> shown mem which m = UB NullDeref.
Proof. intros which m R. unfold shown. rewrite (proj1 (C123_empty_refuted (mem which) m R)). reflexivity. Qed.
Lemma shown_null : forall which m, (forall i j, mem i j = true) -> forall d, repr m d -> keys_ok d -> no_null d -> print_size d <= INT_MAX -> (exists t, shown mem which m = Ret t) \/ shown mem which m = UB NullDeref.
Proof. intros which m MEM d R K N B. destruct d as [|p d]; [right; now apply shown_empty|]. destruct (shown_ok which m (p :: d) MEM R K N ltac:(discriminate) B) as (t & _ & E). left. eauto. Qed.
Lemma param_page : forall low ud n, param_verb low ud n -> is_verb low verb -> follows P5 (words url) -> filter (sel verb url) simple_es = [nthe n] /\ callback (nthe n) = Some 4 /\ user_text (user_data (nthe n)) = Ret (bs ud) /\
  owords (url_format (nthe n)) = [bs "param"; bs ":foo"] /\ length (owords (url_prefix (nthe n))) = 1%nat.
Proof. intros low ud n H V F. destruct H; (split; [|repeat split; reflexivity]); [now apply page_4|now apply page_5|now apply page_6|now apply page_7]. Qed.
Lemma joined_some : forall l x, joined l = Some x -> exists v, x = Some v.
Proof. intros [|a l] x E; [discriminate|]. injection E as <-. eauto. Qed.
Lemma in_sget : forall d k v, NoDup (map fst d) -> In (k, v) d -> sget d k = Some v.
Proof.
  unfold sget, sfind. induction d as [|[k' v'] d IH]; intros k v N IN; [destruct IN|]. cbn [find fst]. inversion N as [|? ? N1 N2]; subst. destruct (str_eqb k' k) eqn:E.
  - apply str_eqb_eq in E. subst k'. destruct IN as [[= <-]|IN]; [reflexivity|]. exfalso. apply N1. apply (in_map fst) in IN. exact IN.
  - destruct IN as [[= -> ->]|IN]; [rewrite str_eqb_refl in E; discriminate|]. now apply IH.
Qed.
Lemma sget_in : forall d k v, sget d k = Some v -> In (k, v) d.
Proof. intros d k v E. unfold sget, sfind in E. destruct (find _ d) as [[k' v']|] eqn:F; [|discriminate]. apply find_some in F as [IN Q]. cbn [fst snd] in *. apply str_eqb_eq in Q. injection E as <-. now subst k'. Qed.
(** the map of the path and the query *)
Lemma url_map : forall n d w, request_ok url initial -> repr initial d -> keys_ok d -> no_null d -> sweight d + zlen url + 4 < two64 -> words url = [bs "test"; bs "param"; w] ->
  owords (url_format (nthe n)) = [bs "param"; bs ":foo"] -> length (owords (url_prefix (nthe n))) = 1%nat ->
  exists m' d', prepare_map_url tl map_url initial url (nthe n) true = Ret (U_OK, m') /\ repr m' d' /\ keys_ok d' /\ no_null d' /\
    (forall name, sget d' name = joined (old_values (sget d name) ++ if str_eqb name (bs "foo") && okw true (seg_text tl w) then [seg_text tl w] else [])).
Proof.
  intros n d w (CU & _) RI K NN SZ W F1 F2.
  assert (NP : forall fmt, osegs (url_format (nthe n)) fmt -> ~ In [64] fmt /\ ~ In [58] fmt).
  { intros fmt O. apply osegs_owords in O. rewrite O, F1. split; vm_compute; intuition discriminate. }
  destruct (prepare_lemma tl true map_url initial url (nthe n) d RI NN CU NP SZ) as (m' & d' & P & R & G). rewrite F1, F2, W in G. cbn [skipn] in G.
  assert (G' : forall name, sget d' name = joined (old_values (sget d name) ++ if str_eqb name (bs "foo") && okw true (seg_text tl w) then [seg_text tl w] else [])).
  { intros name. rewrite G. cbn [bound]. change (str_eqb (bs "param") (64 :: name)) with false. change (str_eqb (bs "param") (58 :: name)) with false. cbn [orb andb]. change (str_eqb (bs ":foo") (64 :: name)) with false. cbn [orb].
    change (str_eqb (bs ":foo") (58 :: name)) with (str_eqb (bs "foo") name). rewrite (eqb_sym (bs "foo") name). reflexivity. }
  exists m', d'. split; [exact P|]. split; [exact R|]. destruct (repr_keys m' d' R) as [_ ND].
  split; [|split; [|exact G']]; apply Forall_forall; intros [k v] IN; cbn [fst snd]; pose proof (G' k) as E; rewrite (in_sget d' k v ND IN) in E.
  - destruct (sget d k) as [o|] eqn:Q; [apply sget_in in Q; unfold keys_ok in K; rewrite Forall_forall in K; exact (K _ Q)|]. cbn [old_values app] in E. destruct (str_eqb k (bs "foo")) eqn:S1; [|discriminate E].
    apply str_eqb_eq in S1. subst k. repeat constructor; discriminate.
  - symmetry in E. destruct (joined_some _ _ E) as (x & ->). discriminate.
Qed.

(** C137. GET, POST, PUT and DELETE /test/param/:foo show the whole request, each with its own user data: the parameters of the path and of the query, the cookies, the headers and the parameters of the body, all of them in order, when there is
    at least one of each. *)
Theorem C137_param_partial : exists text ok, decoded_by text /\ (forall w, cstr w -> (ok (text w) = true <-> utf8_text (text w))) /\ forall low ud n d dh dc dp w,
  fair -> param_verb low ud n -> is_verb low verb -> segs url [bs "test"; bs "param"; w] -> utf8_text (text w) ->
  repr initial d -> keys_ok d -> no_null d -> sweight d + zlen url + 4 < two64 ->
  repr map_header dh -> keys_ok dh -> no_null dh -> dh <> [] -> print_size dh <= INT_MAX ->
  repr map_cookie dc -> keys_ok dc -> no_null dc -> dc <> [] -> print_size dc <= INT_MAX ->
  repr map_post dp -> keys_ok dp -> no_null dp -> dp <> [] -> print_size dp <= INT_MAX ->
  exists d', (forall name, sget d' name = joined (old_values (sget d name) ++ if str_eqb name (bs "foo") then [text w] else [])) /\
    (print_size d' <= INT_MAX -> exists u h c p, prints d' u /\ prints dh h /\ prints dc c /\ prints dp p /\ good 200 (whole_text verb http_url u c h p (bs ud) address) []).
Proof.
  exists (seg_text tl), (okw true). split; [apply seg_text_decoded|]. assert (OK : forall w, cstr w -> (okw true (seg_text tl w) = true <-> utf8_text (seg_text tl w))).
  { intros w CW. rewrite (okw_spec tl true w CW). split; [intros [X|X]; [discriminate|exact X]|now right]. }
  split; [exact OK|]. intros low ud n d dh dc dp w FA PV V SG U RI K NN SZ RH KH NH EH BH RC KC NC EC BC RP KP NP EP BP. pose proof (segs_cstr _ _ SG (proj1 (proj1 FA))) as CS. apply segs_words in SG.
  assert (F : follows P5 (words url)) by (rewrite <- SG; repeat constructor). destruct (param_page low ud n PV V F) as (L & CB & UD & F1 & F2). destruct FA as (RQ & QS & AC & MEM).
  destruct (url_map n d w RQ RI K NN SZ (eq_sym SG) F1 F2) as (m' & d' & P & R & K' & N' & G). exists d'.
  assert (W : okw true (seg_text tl w) = true) by (apply OK; [inversion CS as [|? ? ? C2]; subst; inversion C2 as [|? ? ? C3]; subst; now inversion C3|exact U]).
  split; [intros name; rewrite G, W; now rewrite andb_true_r|]. intros B'.
  assert (NE : d' <> []). { intros ->. pose proof (G (bs "foo")) as E. rewrite str_eqb_refl, W in E. cbn [andb] in E. destruct (old_values (sget d (bs "foo"))); discriminate E. }
  destruct (shown_ok 0 m' d' MEM R K' N' NE B') as (u & PU & EU). destruct (shown_ok 1 map_header dh MEM RH KH NH EH BH) as (h & PH & EH'). destruct (shown_ok 2 map_cookie dc MEM RC KC NC EC BC) as (c & PC & EC'). destruct (shown_ok 3 map_post dp MEM RP KP NP EP BP) as (p & PP & EP').
  exists u, h, c, p. do 4 (split; [assumption|]).
  assert (E : foo (user_data (nthe n)) m' = Ret (whole_text verb http_url u c h p (bs ud) address)) by (unfold foo_text; rewrite EU, EH', EC', EP', UD; reflexivity).
  assert (CBK : simple_cb verb http_url map_header map_cookie map_post address mem 4 (user_data (nthe n)) 0 m' (mk_resp 200 acao_copy [] [] None None None) (Ret tt) =
    (U_CALLBACK_CONTINUE, mk_resp 200 acao_copy [] (whole_text verb http_url u c h p (bs ud) address) None None None, Ret tt)).
  { unfold simple_cb, simple. cbn [Z.eqb Pos.eqb]. rewrite E. reflexivity. }
  assert (L' : (match filter (sel verb url) simple_es with [] => [simple_dflt] | l => l end) = [nthe n]) by (rewrite L; reflexivity).
  eexists. split; [exact (lone verb http_url map_header map_cookie map_post address mem tl qsort accepts handshake url initial map_url QS AC (nthe n) 4 U_OK m' 200 [] _ (Ret tt) L' CB P CBK)|].
  split; [reflexivity|]. split; [reflexivity|]. do 2 eexists. reflexivity.
Qed.
(** C137, refuted: callback_all_test_foo prints the text of an empty map with %s, and print_map gives NULL for one (201-205): undefined for every request to /test/param/:foo that sends no cookie, whatever else it sends. *)
Theorem C137_param_refuted : forall low ud n d dh w, fair -> param_verb low ud n -> is_verb low verb -> segs url [bs "test"; bs "param"; w] ->
  repr initial d -> keys_ok d -> no_null d -> sweight d + zlen url + 4 < two64 -> repr map_header dh -> keys_ok dh -> no_null dh -> print_size dh <= INT_MAX -> repr map_cookie [] ->
  exists m' d', prepare_map_url tl map_url initial url (nthe n) true = Ret (U_OK, m') /\ repr m' d' /\ (print_size d' <= INT_MAX -> exists res, req = Ret res /\ went_wrong res NullDeref).
Proof.
  intros low ud n d dh w FA PV V SG RI K NN SZ RH KH NH BH RC. apply segs_words in SG.
  assert (F : follows P5 (words url)) by (rewrite <- SG; repeat constructor). destruct (param_page low ud n PV V F) as (L & CB & UD & F1 & F2). destruct FA as (RQ & QS & AC & MEM).
  destruct (url_map n d w RQ RI K NN SZ (eq_sym SG) F1 F2) as (m' & d' & P & R & K' & N' & G). exists m', d'. split; [exact P|]. split; [exact R|]. intros B'.
  assert (E : foo (user_data (nthe n)) m' = UB NullDeref).
  { unfold foo_text. destruct (shown_null 0 m' MEM d' R K' N' B') as [(t & ->)| ->]; [|reflexivity]. cbn [bind]. destruct (shown_null 1 map_header MEM dh RH KH NH BH) as [(t1 & ->)| ->]; [|reflexivity]. cbn [bind]. rewrite (shown_empty 2 map_cookie RC). reflexivity. }
  assert (CBK : simple_cb verb http_url map_header map_cookie map_post address mem 4 (user_data (nthe n)) 0 m' (mk_resp 200 acao_copy [] [] None None None) (Ret tt) = (U_CALLBACK_CONTINUE, mk_resp 200 acao_copy [] [] None None None, UB NullDeref)).
  { unfold simple_cb, simple. cbn [Z.eqb Pos.eqb]. rewrite E. reflexivity. }
  assert (L' : (match filter (sel verb url) simple_es with [] => [simple_dflt] | l => l end) = [nthe n]) by (rewrite L; reflexivity).
  eexists. split; [exact (lone verb http_url map_header map_cookie map_post address mem tl qsort accepts handshake url initial map_url QS AC (nthe n) 4 U_OK m' 200 [] [] (UB NullDeref) L' CB P CBK)|]. do 2 eexists. reflexivity.
Qed.
End Foo.

(** C137, refuted: the endpoint /test/multiple/:multiple/:multiple/:not_multiple has NULL as its user data (123), which the same callback prints with %s (205): undefined for every request to it. *)
Theorem C137_multiple_refuted : forall verb http_url map_header map_cookie map_post address mem tl qsort accepts handshake url initial map_url,
  fair mem qsort accepts url initial -> asks verb url "get" P3 ->
  exists res k, simple_server verb http_url map_header map_cookie map_post address mem tl qsort accepts handshake url initial map_url = Ret res /\ went_wrong res k.
Proof.
  intros verb http_url map_header map_cookie map_post address mem tl qsort accepts handshake url initial map_url (RQ & QS & AC & MEM) A. apply asks_words in A as [V F]. pose proof (page_2 verb url V F) as L.
  destruct (prepare_total tl true map_url initial url (nthe 2) RQ) as ([c m'] & P).
  assert (E : exists k, foo_text verb http_url map_header map_cookie map_post address mem (user_data (nthe 2)) m' = UB k).
  { unfold foo_text. change (user_text (user_data (nthe 2))) with (@UB str NullDeref). destruct (shown mem 0 m'); [|eexists; reflexivity]. cbn [bind]. destruct (shown mem 1 map_header); [|eexists; reflexivity]. cbn [bind].
    destruct (shown mem 2 map_cookie); [|eexists; reflexivity]. cbn [bind]. destruct (shown mem 3 map_post); eexists; reflexivity. }
  destruct E as (k & E).
  assert (CBK : simple_cb verb http_url map_header map_cookie map_post address mem 4 (user_data (nthe 2)) 0 m' (mk_resp 200 acao_copy [] [] None None None) (Ret tt) = (U_CALLBACK_CONTINUE, mk_resp 200 acao_copy [] [] None None None, UB k)).
  { unfold simple_cb, simple. cbn [Z.eqb Pos.eqb]. rewrite E. reflexivity. }
  assert (L' : (match filter (sel verb url) simple_es with [] => [simple_dflt] | l => l end) = [nthe 2]) by (rewrite L; reflexivity).
  eexists. exists k. split; [exact (lone verb http_url map_header map_cookie map_post address mem tl qsort accepts handshake url initial map_url QS AC (nthe 2) 4 c m' 200 [] [] (UB k) L' eq_refl P CBK)|]. do 2 eexists. reflexivity.
Qed.
Lemma prints_one : forall d t, prints d t -> forall t', prints d t' -> t = t'.
Proof. induction 1 as [k v|k v d t PR IH]; intros t' H; inversion H; subst; [reflexivity|match goal with X : prints [] _ |- _ => inversion X end|inversion PR|]. do 2 f_equal. now apply IH. Qed.
(** C137, refuted: README.md says that POST /test displays all the parameters of the request, its headers and cookies too. Two requests with the same body get the same answer, whatever their headers, their cookies, their query and their address. *)
Theorem C137_readme_refuted : forall verb u1 u2 h1 h2 c1 c2 p a1 a2 mem tl qsort accepts handshake url i1 i2 m1 m2 d,
  fair mem qsort accepts url i1 -> fair mem qsort accepts url i2 -> asks verb url "post" P1 -> repr p d -> keys_ok d -> no_null d -> d <> [] -> print_size d <= INT_MAX ->
  exists t, good verb u1 h1 c1 p a1 mem tl qsort accepts handshake url i1 m1 200 t [] /\ good verb u2 h2 c2 p a2 mem tl qsort accepts handshake url i2 m2 200 t [].
Proof.
  intros verb u1 u2 h1 h2 c1 c2 p a1 a2 mem tl qsort accepts handshake url i1 i2 m1 m2 d F1 F2 A R K N NE B.
  destruct (C137_post_partial verb u1 h1 c1 p a1 mem tl qsort accepts handshake url i1 m1 d F1 A R K N NE B) as (t & P1' & G1).
  destruct (C137_post_partial verb u2 h2 c2 p a2 mem tl qsort accepts handshake url i2 m2 d F2 A R K N NE B) as (t' & P2' & G2). rewrite <- (prints_one d t P1' t' P2') in G2. eauto.
Qed.

(** ** cases *)
Definition of_pairs (l : list (str * str)) : umap := fold_left (fun m p => match u_map_put m (Some (fst p)) (Some (snd p)) with Ret x => snd x | UB _ => m end) l u_map_init.
Definition visit (verb : string) (cookies : list (str * str)) (url : string) : outcome (list answer) :=
  do r <- simple_server (bs verb) (bs url) (of_pairs [(bs "Host", bs "localhost")]) (of_pairs cookies) (of_pairs [(bs "a", bs "b")]) (bs "127.0.0.1") (fun _ _ => true) (fun c => c) isort (fun _ _ => true) (fun _ => inr (0, [])) (bs url) u_map_init u_map_init;
  match calls r with [e] => match ev_world e with Ret _ => Ret (answers r) | UB k => UB k end | _ => Ret [] end.
(** C137, refuted: the words of the path are decoded and put into Set-Cookie as they are (237-238): a link can give the cookie a domain, or any other attribute. *)
Theorem C137_attribute_refuted : visit "GET" [] "/testcookie/fr%3B%20Domain=example.com/x" =
  Ret [Queue 200 (mk_mhd (CBuffer (bs "Cookies set!")) (open_to_all ++ [(bs "Set-Cookie", bs "lang=fr; Domain=example.com"); (bs "Set-Cookie", bs "extra=x"); (bs "Set-Cookie", bs "counter=0")]))].
Proof. vm_compute. reflexivity. Qed.
Example C137_ex : visit "GET" [] "/test" = Ret [says 200 (bs "Hello World!")] /\ visit "get" [] "/test/empty/" = Ret [says 200 []] /\ visit "POST" [] "/test" = Ret [says 200 (bs "Hello World!" ++ [10] ++ bs "key is a, value is b")] /\
  visit "GET" [(bs "counter", bs "41")] "/testcookie/fr/x" = Ret [Queue 200 (mk_mhd (CBuffer (bs "Cookies set!")) (open_to_all ++ [(bs "Set-Cookie", bs "lang=fr"); (bs "Set-Cookie", bs "extra=x"); (bs "Set-Cookie", bs "counter=42")]))] /\
  visit "PUT" [(bs "c", bs "d")] "/test/param/here" = Ret [says 200 (whole_text (bs "PUT") (bs "/test/param/here") (bs "key is foo, value is here") (bs "key is c, value is d") (bs "key is Host, value is localhost") (bs "key is a, value is b") (bs "user data 3") (bs "127.0.0.1"))] /\
  visit "PUT" [] "/test/param/here" = UB NullDeref /\ visit "GET" [(bs "c", bs "d")] "/test/multiple/a/b/c" = UB NullDeref /\ visit "PUT" [] "/test" = Ret [says 404 (bs "Page not found, do what you want")].
Proof. repeat (split; [vm_compute; reflexivity|]). vm_compute. reflexivity. Qed.

(** the hypotheses can hold *)
Example C137_hyps : fair (fun _ _ => true) isort (fun _ _ => true) (bs "/test/param/here") u_map_init /\ param_verb "put" "user data 3" 6 /\ is_verb "put" (bs "PUT") /\ segs (bs "/test/param/here") [bs "test"; bs "param"; bs "here"] /\
  segs (bs "/testcookie/fr/x") [bs "testcookie"; bs "fr"; bs "x"] /\ asks (bs "Get") (bs "/test") "get" P1 /\ asks (bs "GET") (bs "/test/multiple/a/b/c") "get" P3 /\ cookietest (sval [] (bs "counter")) = Ret (bs "0").
Proof.
  split; [split; [split; [repeat constructor; discriminate|exists []; split; [apply repr_init|split; [constructor|reflexivity]]]|split; [apply isort_sorts|split; reflexivity]]|].
  split; [constructor|]. split; [reflexivity|]. split; [change [bs "test"; bs "param"; bs "here"] with (words (bs "/test/param/here")); apply words_segs|]. split; [change [bs "testcookie"; bs "fr"; bs "x"] with (words (bs "/testcookie/fr/x")); apply words_segs|].
  split; [split; [reflexivity|exists [bs "test"]; split; [change [bs "test"] with (words (bs "/test")); apply words_segs|repeat constructor]]|].
  split; [split; [reflexivity|exists [bs "test"; bs "multiple"; bs "a"; bs "b"; bs "c"]; split; [change [bs "test"; bs "multiple"; bs "a"; bs "b"; bs "c"] with (words (bs "/test/multiple/a/b/c")); apply words_segs|repeat constructor]]|]. reflexivity.
Qed.

Print Assumptions C137_hello.
Print Assumptions C137_post_partial.
Print Assumptions C137_default.
Print Assumptions C137_cookies.
Print Assumptions C137_param_partial.
Print Assumptions C137_param_refuted.
Print Assumptions C137_multiple_refuted.
Print Assumptions C137_readme_refuted.
Print Assumptions C137_attribute_refuted.
