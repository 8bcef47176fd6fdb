(** C137: the pages of the simple example. *)
From Coq Require Import String ZArith Bool List Lia Sorted Permutation.
From Verif Require Import Base BaseFacts Dec UMapModel UMapProps SMap RouterModel RouterSpec RouterProofs RouterProps Utf8Spec EndpointProofs CookieModel DispatchModel DispatchSpec DispatchProofs DoorModel PrintModel PrintSpec PrintProps.
From Verif Require Import LevelSpec LevelProofs LevelProps.
From Verif Require Import SimpleModel.
Import ListNotations.
Open Scope Z_scope.

(** the path of the request has the words of this pattern; None: any word *)
Definition follows (p : list (option string)) (ws : list str) : Prop := Forall2 (fun o w => match o with Some a => w = bs a | None => True end) p ws.
Definition is_verb (name : string) (verb : str) : Prop := lowers verb = bs name.
(** the answer, with the header of the example *)
Definition answered (res : result (outcome unit)) (status : Z) (text : str) (cookies : list str) : Prop :=
  answers res = [Queue status (mk_mhd (CBuffer text) (open_to_all ++ map (fun c => (bs "Set-Cookie", c)) cookies))] /\ extra res = [] /\ exists e r, calls res = [mk_event e 0 U_CALLBACK_CONTINUE r (Ret tt)].
(** the one callback that was called did something undefined *)
Definition went_wrong (res : result (outcome unit)) (k : ub_kind) : Prop := exists e r, calls res = [mk_event e 0 U_CALLBACK_CONTINUE r (UB k)].

(** ** which endpoint *)
Fixpoint pm (p : list (option string)) (ws : list str) : bool :=
  match p, ws with [], [] => true | Some a :: p, w :: ws => str_eqb w (bs a) && pm p ws | None :: p, _ :: ws => pm p ws | _, _ => false end.
Lemma pm_follows : forall p ws, pm p ws = true <-> follows p ws.
Proof.
  induction p as [|o p IH]; intros ws; destruct ws as [|w ws]; cbn [pm].
  - split; [constructor|reflexivity].
  - split; [discriminate|intros H; inversion H].
  - split; [destruct o; discriminate|intros H; inversion H].
  - destruct o as [a|].
    + split; [intros H; apply andb_prop in H as [H1 H2]; apply str_eqb_eq in H1; constructor; [exact H1|now apply IH]|]. intros H. inversion H as [|? ? ? ? H1 H2]; subst. rewrite str_eqb_refl. now apply IH.
    + split; [intros H; constructor; [exact Coq.Init.Logic.I|now apply IH]|]. intros H. inversion H as [|? ? ? ? H1 H2]; subst. now apply IH.
Qed.
Definition faces (o : option string) (f : str) : bool := match o with Some a => str_eqb f (bs a) && literal f | None => starts_with 58 f end.
Lemma pm_match : forall p fs, Forall2 (fun o f => faces o f = true) p fs -> forall ws, url_format_match ws fs = pm p ws.
Proof.
  induction 1 as [|o f p fs H F IH]; intros ws; [destruct ws; reflexivity|]. cbn [url_format_match pm]. destruct o as [a|]; cbn [faces] in H.
  - apply andb_prop in H as [E H]. apply str_eqb_eq in E. subst f. unfold literal in H. apply andb_prop in H as [H1 H3]. apply andb_prop in H1 as [H0 H1]. rewrite (negb_true_iff (starts_with 42 (bs a))) in H0. rewrite H0, H1, H3.
    destruct ws as [|w ws]; [reflexivity|]. cbn [andb]. rewrite (eqb_sym w (bs a)). destruct (str_eqb (bs a) w); [apply IH|reflexivity].
  - assert (H0 : starts_with 42 f = false /\ starts_with 64 f = false). { destruct f as [|c f]; [discriminate H|]. cbn in H. cbn. apply Z.eqb_eq in H. subst c. split; reflexivity. }
    destruct H0 as [H0 H1]. rewrite H0, H1, H. destruct ws as [|w ws]; [reflexivity|]. cbn [negb andb orb]. apply IH.
Qed.
Definition P1 := [Some "test"]%string. Definition P2 := [Some "test"; Some "empty"]%string. Definition P3 := [Some "test"; Some "multiple"; None; None; None]%string.
Definition P5 := [Some "test"; Some "param"; None]%string. Definition P9 := [Some "testcookie"; None; None]%string.
Definition nthe (n : nat) : endpoint := nth n simple_es simple_dflt.
Definition chosen (get post put delete : bool) (ws : list str) : list endpoint :=
  (if get && pm P1 ws then [nthe 0] else []) ++ (if get && pm P2 ws then [nthe 1] else []) ++ (if get && pm P3 ws then [nthe 2] else []) ++ (if post && pm P1 ws then [nthe 3] else []) ++
  (if get && pm P5 ws then [nthe 4] else []) ++ (if post && pm P5 ws then [nthe 5] else []) ++ (if put && pm P5 ws then [nthe 6] else []) ++ (if delete && pm P5 ws then [nthe 7] else []) ++
  (if get && pm P9 ws then [nthe 8] else []).
Lemma filter_step : forall (A : Type) (b : bool) (x : A) l l', l = l' -> (if b then x :: l else l) = (if b then [x] else []) ++ l'.
Proof. intros A [] x l l' ->; reflexivity. Qed.
Lemma chosen_ok : forall verb url, filter (sel verb url) simple_es =
  chosen (str_caseeqb (bs "GET") verb) (str_caseeqb (bs "POST") verb) (str_caseeqb (bs "PUT") verb) (str_caseeqb (bs "DELETE") verb) (words url).
Proof.
  intros verb url.
  assert (G : forall mt pre fm f ud p, starts_with 42 (bs mt) = false -> Forall2 (fun o f => faces o f = true) p (split_url (Some (bs pre)) (option_map bs fm)) ->
    sel verb url (simple_ep mt pre fm f ud) = str_caseeqb (bs mt) verb && pm p (words url)).
  { intros mt pre fm f ud p S F. unfold sel. cbn [simple_ep http_method url_prefix url_format]. rewrite S, orb_false_r. now rewrite (pm_match _ _ F). }
  unfold simple_es, chosen. cbn [filter].
  rewrite (G "GET"%string "/test"%string None 1 0 P1 eq_refl) by (vm_compute; repeat constructor).
  rewrite (G "GET"%string "/test"%string (Some "/empty"%string) 2 0 P2 eq_refl) by (vm_compute; repeat constructor).
  rewrite (G "GET"%string "/test"%string (Some "/multiple/:multiple/:multiple/:not_multiple"%string) 4 0 P3 eq_refl) by (vm_compute; repeat constructor).
  rewrite (G "POST"%string "/test"%string None 3 0 P1 eq_refl) by (vm_compute; repeat constructor).
  rewrite (G "GET"%string "/test"%string (Some "/param/:foo"%string) 4 1 P5 eq_refl) by (vm_compute; repeat constructor).
  rewrite (G "POST"%string "/test"%string (Some "/param/:foo"%string) 4 2 P5 eq_refl) by (vm_compute; repeat constructor).
  rewrite (G "PUT"%string "/test"%string (Some "/param/:foo"%string) 4 3 P5 eq_refl) by (vm_compute; repeat constructor).
  rewrite (G "DELETE"%string "/test"%string (Some "/param/:foo"%string) 4 4 P5 eq_refl) by (vm_compute; repeat constructor).
  rewrite (G "GET"%string "/testcookie"%string (Some "/:lang/:extra"%string) 5 0 P9 eq_refl) by (vm_compute; repeat constructor).
  do 8 apply filter_step. reflexivity.
Qed.
(** a request for one page is for no other *)
Ltac shape H := repeat match type of H with
  | Forall2 _ [] _ => inversion H; subst; clear H
  | Forall2 _ (_ :: _) _ => let H1 := fresh "E" in let H2 := fresh "R" in inversion H as [|? ? ? ? H1 H2]; subst; clear H; rename H2 into H
  end.
Definition page_of (verb : string) (p : list (option string)) (n : nat) : Prop :=
  forall v url, is_verb verb v -> follows p (words url) -> filter (sel v url) simple_es = [nthe n].
Ltac one_page := let V := fresh "V" in let F := fresh "F" in intros ? url V F; rewrite chosen_ok; unfold str_caseeqb; rewrite V; revert F; generalize (words url); intros ? F; unfold follows, P1, P2, P3, P5, P9 in F; shape F;
  unfold chosen, P1, P2, P3, P5, P9; cbn [pm]; eqs; cbn [andb]; vm_compute (lowers _); reflexivity.
Lemma page_0 : page_of "get" P1 0. Proof. one_page. Qed.
Lemma page_1 : page_of "get" P2 1. Proof. one_page. Qed.
Lemma page_2 : page_of "get" P3 2. Proof. one_page. Qed.
Lemma page_3 : page_of "post" P1 3. Proof. one_page. Qed.
Lemma page_4 : page_of "get" P5 4. Proof. one_page. Qed.
Lemma page_5 : page_of "post" P5 5. Proof. one_page. Qed.
Lemma page_6 : page_of "put" P5 6. Proof. one_page. Qed.
Lemma page_7 : page_of "delete" P5 7. Proof. one_page. Qed.
Lemma page_8 : page_of "get" P9 8. Proof. one_page. Qed.

(** ** one request *)
Section Request.
Variables (verb http_url : str) (map_header map_cookie map_post : umap) (address : str) (mem : nat -> nat -> bool) (tl : Z -> Z) (qsort : list endpoint -> list endpoint) (accepts : str -> str -> bool)
  (handshake : Z -> list (str * str) + (Z * list Z)) (url : str) (initial map_url : umap).
Hypothesis QS : sorts qsort.
Hypothesis AC : forall k v, accepts k v = true.
Notation req := (simple_server verb http_url map_header map_cookie map_post address mem tl qsort accepts handshake url initial map_url).
Notation cb := (simple_cb verb http_url map_header map_cookie map_post address mem).
Notation fresh_resp := (mk_resp 200 acao_copy [] [] None None None).

Lemma cookies_taken : forall cs hs, cookie_loop accepts cs hs = (true, hs ++ map (fun c => (bs "Set-Cookie", c)) (map generate_cookie_header cs)).
Proof. induction cs as [|c cs IH]; intros hs; cbn [cookie_loop map]; [now rewrite app_nil_r|]. rewrite AC, IH, <- app_assoc. reflexivity. Qed.
Lemma all_headers : forall status cs body, set_headers accepts (mk_resp status acao_copy cs body None None None) [] = Ret (true, open_to_all ++ map (fun c => (bs "Set-Cookie", c)) (map generate_cookie_header cs)).
Proof.
  intros status cs body. pose proof (headers_ok accepts status body None None None (AC _ _)) as H. unfold set_headers in *. cbn [r_header r_cookies] in *.
  destruct (header_loop accepts acao_copy (keys acao_copy) []) as [[b h]|k]; [|discriminate H]. cbn [bind fst snd cookie_loop] in H |- *. destruct b; [|discriminate H]. injection H as H. subst h. now rewrite cookies_taken.
Qed.
Lemma lone : forall e f c m' status cs body w', (match filter (sel verb url) simple_es with [] => [simple_dflt] | l => l end) = [e] -> callback e = Some f ->
  prepare_map_url tl map_url initial url e true = Ret (c, m') -> cb f (user_data e) 0 m' fresh_resp (Ret tt) = (U_CALLBACK_CONTINUE, mk_resp status acao_copy cs body None None None, w') ->
  req = Ret (mk_result [Queue status (mk_mhd (CBuffer body) (open_to_all ++ map (fun c => (bs "Set-Cookie", c)) (map generate_cookie_header cs)))]
    [mk_event e 0 U_CALLBACK_CONTINUE (mk_resp status acao_copy cs body None None None) w'] []).
Proof.
  intros e f c m' status cs body w' L C P B. unfold simple_server.
  assert (T : exists u, eop_run init_instance (map EAdd simple_es) = Ret u /\ table_ok u simple_es).
  { eexists. split; [vm_compute; reflexivity|]. split; [repeat constructor; discriminate|split; [reflexivity|vm_compute; reflexivity]]. }
  destruct T as (u & EU & T). rewrite EU. cbn [bind]. assert (H : exists c, u_map_put u_map_init (Some (bs "Access-Control-Allow-Origin")) (Some (bs "*")) = Ret (c, acao)) by (eexists; vm_compute; reflexivity).
  destruct H as (c0 & H). rewrite H. cbn [bind snd]. unfold dispatch. rewrite (match_table qsort u simple_es verb url T). cbn [bind]. change (the_default (Some simple_dflt)) with (Some simple_dflt).
  cbv zeta. set (lst := match qsort _ with [] => _ | _ => _ end). assert (Q : lst = [e]); [unfold lst|].
  { destruct (filter (sel verb url) simple_es) as [|a l]; [destruct (QS []) as [Q _]; apply Permutation_nil in Q; rewrite Q; exact L|]. rewrite L. destruct (QS [e]) as [Q _]. apply Permutation_length_1_inv in Q. now rewrite Q. }
  rewrite Q. rewrite first_ok. cbn [bind]. cbn [callback_loop s_map]. rewrite P. cbn [bind snd]. unfold run_callback. rewrite C. cbn [s_pos s_resp s_world]. rewrite B. cbn [bind s_resp r_stream r_ws].
  change (U_CALLBACK_CONTINUE =? U_CALLBACK_CONTINUE) with true. unfold complete_answer. cbn [s_resp r_body].
  cbn [s_pos s_map s_world s_mhd s_upgrade s_inner s_realm s_trace]. rewrite all_headers. cbn [bind snd]. reflexivity.
Qed.
End Request.

(** ** the pages *)
Lemma prints_cstr : forall d t (Q : str -> str -> Prop), prints d t -> Forall (fun p => cstr (fst p) /\ exists v, snd p = Some v /\ cstr v /\ Q (fst p) v) d -> cstr t.
Proof.
  intros d t Q. induction 1 as [k v|k v d t PR IH]; intros F; inversion F as [|? ? (CK & v' & E & CV & _) F']; subst; cbn [fst snd] in *; injection E as <-.
  - now apply line_cstr.
  - apply cstr_app; [now apply line_cstr|]. apply cstr_app; [repeat constructor; discriminate|]. now apply IH.
Qed.
Section Pages.
Variables (verb http_url : str) (map_header map_cookie map_post : umap) (address : str) (mem : nat -> nat -> bool) (tl : Z -> Z) (qsort : list endpoint -> list endpoint) (accepts : str -> str -> bool)
  (handshake : Z -> list (str * str) + (Z * list Z)) (url : str) (initial map_url : umap).
Notation req := (simple_server verb http_url map_header map_cookie map_post address mem tl qsort accepts handshake url initial map_url).
Definition fair : Prop := request_ok url initial /\ sorts qsort /\ (forall k v, accepts k v = true) /\ (forall i j, mem i j = true).
Definition asks (name : string) (p : list (option string)) : Prop := is_verb name verb /\ exists ws, segs url ws /\ follows p ws.
Lemma asks_words : forall name p, asks name p -> is_verb name verb /\ follows p (words url).
Proof. intros name p (V & ws & S & F). apply segs_words in S. subst ws. auto. Qed.
Definition good (status : Z) (text : str) (cookies : list str) : Prop := exists res, req = Ret res /\ answered res status text cookies.

(** a page whose callback does not look at the path *)
Lemma plain : forall n f status text, fair -> (match filter (sel verb url) simple_es with [] => [simple_dflt] | l => l end) = [n] -> callback n = Some f ->
  (forall m, simple verb http_url map_header map_cookie map_post address mem f (user_data n) m (mk_resp 200 acao_copy [] [] None None None) = Ret (mk_resp status acao_copy [] text None None None)) -> good status text [].
Proof.
  intros n f status text (RQ & QS & AC & MEM) L C B. destruct (prepare_total tl true map_url initial url n RQ) as ([c m'] & P).
  assert (CB : simple_cb verb http_url map_header map_cookie map_post address mem f (user_data n) 0 m' (mk_resp 200 acao_copy [] [] None None None) (Ret tt) = (U_CALLBACK_CONTINUE, mk_resp status acao_copy [] text None None None, Ret tt)) by (unfold simple_cb; now rewrite B).
  eexists. split; [exact (lone verb http_url map_header map_cookie map_post address mem tl qsort accepts handshake url initial map_url QS AC n f c m' status [] text (Ret tt) L C P CB)|]. split; [reflexivity|]. split; [reflexivity|]. do 2 eexists. reflexivity.
Qed.

(** C137. GET /test is answered Hello World! and GET /test/empty with nothing, both with status 200 and the header of the example; *)
Theorem C137_hello : fair -> (asks "get" P1 -> good 200 (bs "Hello World!") []) /\ (asks "get" P2 -> good 200 [] []).
Proof.
  intros FA. split; intros A; apply asks_words in A as [V F].
  - apply (plain (nthe 0) 1 200 (bs "Hello World!") FA); [now rewrite (page_0 verb url V F)|reflexivity|reflexivity].
  - apply (plain (nthe 1) 2 200 [] FA); [now rewrite (page_1 verb url V F)|reflexivity|reflexivity].
Qed.
(** POST /test with at least one parameter is answered Hello World! and the parameters of the body, all of them and in order; *)
Theorem C137_post_partial : forall d, fair -> asks "post" P1 -> repr map_post d -> keys_ok d -> no_null d -> d <> [] -> print_size d <= INT_MAX ->
  exists t, prints d t /\ good 200 (bs "Hello World!" ++ [10] ++ t) [].
Proof.
  intros d FA A R K N NE B. apply asks_words in A as [V F]. destruct FA as (RQ & QS & AC & MEM). pose proof (C123_prints_partial (mem 3%nat) map_post d (MEM 3%nat) R K N B) as X. destruct d as [|p d]; [congruence|].
  destruct X as (t & PR & X & _). exists t. split; [exact PR|]. apply (plain (nthe 3) 3 200 _ (conj RQ (conj QS (conj AC MEM)))); [now rewrite (page_3 verb url V F)|reflexivity|]. intros m. unfold simple. cbn [Z.eqb Pos.eqb].
  assert (CT : cstr t) by (apply (prints_cstr _ _ (fun k v => get_str map_post k = Ret (Some v)) PR); exact (pairs_readable map_post _ R K N)).
  unfold post_test. rewrite X. cbn [bind]. rewrite (read_cblock t CT). reflexivity.
Qed.
(** everything that README.md does not list is answered 404 by the default page. *)
Theorem C137_default : fair ->
  ~ asks "get" P1 -> ~ asks "get" P2 -> ~ asks "get" P3 -> ~ asks "post" P1 -> ~ asks "get" P5 -> ~ asks "post" P5 -> ~ asks "put" P5 -> ~ asks "delete" P5 -> ~ asks "get" P9 ->
  good 404 (bs "Page not found, do what you want") [].
Proof.
  intros FA H1 H2 H3 H4 H5 H6 H7 H8 H9. apply (plain simple_dflt 6 404 (bs "Page not found, do what you want") FA); [|reflexivity|reflexivity].
  assert (X : forall up lo p, lowers (bs up) = bs lo -> ~ asks lo p -> str_caseeqb (bs up) verb && pm p (words url) = false).
  { intros up lo p E N. destruct (str_caseeqb (bs up) verb) eqn:Q; [|reflexivity]. destruct (pm p (words url)) eqn:M; [|reflexivity]. exfalso. apply N. split; [unfold str_caseeqb in Q; apply str_eqb_eq in Q; unfold is_verb; now rewrite <- Q|].
    exists (words url). split; [apply words_segs|now apply pm_follows]. }
  rewrite chosen_ok. unfold chosen. rewrite (X "GET" "get" P1)%string, (X "GET" "get" P2)%string, (X "GET" "get" P3)%string, (X "POST" "post" P1)%string, (X "GET" "get" P5)%string, (X "POST" "post" P5)%string, (X "PUT" "put" P5)%string, (X "DELETE" "delete" P5)%string, (X "GET" "get" P9)%string by (reflexivity || assumption).
  reflexivity.
Qed.

(** a value of the page: what the query had under the name, then the word of the path *)
Definition value (o : option (option str)) : str := match o with Some (Some v) => v | _ => [] end.
Lemma value_sval : forall o, match match o with Some v => v | None => None end with Some v => v | None => [] end = value o.
Proof. intros [[v|]|]; reflexivity. Qed.
(** C137. GET /testcookie/:lang/:extra sets three cookies, in this order, with no attribute of its own: lang and extra are the decoded words of the path, after what the query has under these names; the counter is 0, or one more than the
    counter that the client sent. *)
Theorem C137_cookies : exists text ok, decoded_by text /\ (forall w, cstr w -> (ok (text w) = true <-> utf8_text (text w))) /\ forall d dc lang extra counter,
  fair -> is_verb "get" verb -> segs url [bs "testcookie"; lang; extra] -> repr initial d -> no_null d -> sweight d + zlen url + 4 < two64 -> repr map_cookie dc -> cookietest (sval dc (bs "counter")) = Ret counter ->
  good 200 (bs "Cookies set!")
    [bs "lang=" ++ value (joined (old_values (sget d (bs "lang")) ++ (if ok (text lang) then [text lang] else [])));
     bs "extra=" ++ value (joined (old_values (sget d (bs "extra")) ++ (if ok (text extra) then [text extra] else [])));
     bs "counter=" ++ counter].
Proof.
  exists (seg_text tl), (okw true). split; [apply seg_text_decoded|]. split.
  { intros w CW. rewrite (okw_spec tl true w CW). split; [intros [X|X]; [discriminate|exact X]|now right]. }
  intros d dc lang extra counter (RQ & QS & AC & MEM) V SG RI NN SZ RC CT. apply segs_words in SG.
  assert (F : follows P9 (words url)) by (rewrite <- SG; repeat constructor).
  assert (NP : forall fmt, osegs (url_format (nthe 8)) fmt -> ~ In [64] fmt /\ ~ In [58] fmt).
  { intros fmt O. apply osegs_owords in O. subst fmt. split; vm_compute; intuition discriminate. }
  destruct RQ as (CU & _). destruct (prepare_lemma tl true map_url initial url (nthe 8) d RI NN CU NP SZ) as (m' & d' & P & R & G).
  change (owords (url_format (nthe 8))) with [bs ":lang"; bs ":extra"] in G. change (length (owords (url_prefix (nthe 8)))) with 1%nat in G. rewrite <- SG in G. cbn [skipn] in G.
  pose proof (G (bs "lang")) as GL. pose proof (G (bs "extra")) as GE. cbn [bound] in GL, GE.
  change (str_eqb (bs ":lang") (64 :: bs "lang") || str_eqb (bs ":lang") (58 :: bs "lang")) with true in GL. change (str_eqb (bs ":extra") (64 :: bs "lang") || str_eqb (bs ":extra") (58 :: bs "lang")) with false in GL.
  change (str_eqb (bs ":lang") (64 :: bs "extra") || str_eqb (bs ":lang") (58 :: bs "extra")) with false in GE. change (str_eqb (bs ":extra") (64 :: bs "extra") || str_eqb (bs ":extra") (58 :: bs "extra")) with true in GE.
  cbn [andb] in GL, GE.
  set (vl := value (joined (old_values (sget d (bs "lang")) ++ (if okw true (seg_text tl lang) then [seg_text tl lang] else [])))).
  set (ve := value (joined (old_values (sget d (bs "extra")) ++ (if okw true (seg_text tl extra) then [seg_text tl extra] else [])))).
  assert (VL : match sval d' (bs "lang") with Some v => v | None => [] end = vl) by (unfold sval; rewrite GL; apply value_sval).
  assert (VE : match sval d' (bs "extra") with Some v => v | None => [] end = ve) by (unfold sval; rewrite GE; apply value_sval).
  set (ck := fun k v => mk_cookie k v None 0 None None 0 0 0).
  assert (CB : simple_cb verb http_url map_header map_cookie map_post address mem 5 (user_data (nthe 8)) 0 m' (mk_resp 200 acao_copy [] [] None None None) (Ret tt) =
    (U_CALLBACK_CONTINUE, mk_resp 200 acao_copy [ck (bs "lang") vl; ck (bs "extra") ve; ck (bs "counter") counter] (bs "Cookies set!") None None None, Ret tt)).
  { unfold simple_cb, simple. cbn [Z.eqb Pos.eqb]. unfold cookie_page. rewrite !(repr_get m' d' _ R), (repr_get map_cookie dc _ RC). cbn [bind]. rewrite CT. cbn [bind].
    assert (S1 : forall v, set_cookie (mk_resp 200 acao_copy [] [] None None None) (bs "lang") v = Ret (mk_resp 200 acao_copy [ck (bs "lang") (match v with Some v => v | None => [] end)] [] None None None)) by reflexivity.
    assert (S2 : forall a v, set_cookie (mk_resp 200 acao_copy [ck (bs "lang") a] [] None None None) (bs "extra") v = Ret (mk_resp 200 acao_copy [ck (bs "lang") a; ck (bs "extra") (match v with Some v => v | None => [] end)] [] None None None)) by reflexivity.
    assert (S3 : forall a b v, set_cookie (mk_resp 200 acao_copy [ck (bs "lang") a; ck (bs "extra") b] [] None None None) (bs "counter") (Some v) = Ret (mk_resp 200 acao_copy [ck (bs "lang") a; ck (bs "extra") b; ck (bs "counter") v] [] None None None)) by reflexivity.
    rewrite S1, VL. cbn [bind]. rewrite S2, VE. cbn [bind]. rewrite S3. reflexivity. }
  assert (L' : (match filter (sel verb url) simple_es with [] => [simple_dflt] | l => l end) = [nthe 8]) by (rewrite (page_8 verb url V F); reflexivity).
  eexists. split; [exact (lone verb http_url map_header map_cookie map_post address mem tl qsort accepts handshake url initial map_url QS AC (nthe 8) 5 U_OK m' 200 _ _ (Ret tt) L' eq_refl P CB)|].
  split; [|split; [reflexivity|do 2 eexists; reflexivity]]. cbn [answers map]. unfold generate_cookie_header, ck. cbn [ck_key ck_value ck_expires ck_max_age ck_domain ck_path ck_secure ck_http_only ck_same_site]. rewrite !app_nil_r. reflexivity.
Qed.
End Pages.
