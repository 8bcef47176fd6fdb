(** C138: the server of the request example. *)
From Coq Require Import String ZArith Bool List Lia Sorted Permutation.
From Verif Require Import Base BaseFacts UMapModel SMap RouterModel RouterSpec RouterProofs RouterProps EndpointProofs CookieModel DispatchModel DispatchSpec DispatchProofs DoorModel PrintModel PrintSpec PrintProps ShowModel ShowProps.
From Verif Require Import LevelSpec LevelProofs LevelProps.
From Verif Require Import TellModel SimpleProps.
Import ListNotations.
Open Scope Z_scope.

Lemma prefixes_ok : forall sub s, prefixes sub s = true <-> exists b, s = sub ++ b.
Proof.
  induction sub as [|a sub IH]; intros s; [split; [intros _; now exists s|reflexivity]|]. destruct s as [|c s]; cbn [prefixes]; [split; [discriminate|intros (b & E); discriminate E]|]. split.
  - intros H. apply andb_prop in H as [H1 H2]. apply Z.eqb_eq in H1. subst c. apply IH in H2 as (b & ->). now exists b.
  - intros (b & E). injection E as -> E. rewrite Z.eqb_refl. apply IH. eauto.
Qed.
Lemma strstr_ok : forall s sub, strstr s sub = true <-> exists a b, s = a ++ sub ++ b.
Proof.
  induction s as [|c s IH]; intros sub; cbn [strstr].
  - rewrite orb_false_r, prefixes_ok. split; [intros (b & E); now exists [], b|intros (a & b & E)]. exists b. destruct a; [exact E|discriminate E].
  - rewrite orb_true_iff, prefixes_ok, IH. split; [intros [(b & ->)|(a & b & ->)]; [now exists [], b|now exists (c :: a), b]|]. intros (a & b & E). destruct a as [|x a]; [left; now exists b|]. injection E as -> E. right. eauto.
Qed.

(** the text for a map: its pairs, or what printf makes of NULL *)
Definition pairs_or (null : option str) (d : smap) (t : str) : Prop := match d with [] => null = Some t | _ => prints d t end.
Definition printable (m : umap) (d : smap) : Prop := repr m d /\ keys_ok d /\ no_null d /\ print_size d <= INT_MAX.

Section Tell.
Variables (verb http_url : str) (map_header map_cookie map_post : umap) (body : list Z) (stack : Z) (mem : nat -> nat -> bool) (null : option str) (tl : Z -> Z) (qsort : list endpoint -> list endpoint) (accepts : str -> str -> bool)
  (handshake : Z -> list (str * str) + (Z * list Z)) (url : str) (initial map_url : umap) (console : list str).
Notation req := (tell_server verb http_url map_header map_cookie map_post body stack mem null tl qsort accepts handshake url initial map_url console).
Notation told' := (told verb http_url map_header map_cookie map_post body stack mem null).
Definition tell_body : str := if strstr http_url (bs "limit") then bs "This is a large body response that should be truncated by the client" else bs "ok".
Definition tell_headers : list (str * str) := [(bs "multiple-key", bs "value 1"); (bs "Multiple-Key", bs "value 2"); (bs "Set-Cookie", bs "cook=ie; Max-Age=5000")].
Definition mk_header : umap := match (do h <- u_map_put u_map_init (Some (bs "multiple-key")) (Some (bs "value 1")); u_map_put (snd h) (Some (bs "Multiple-Key")) (Some (bs "value 2"))) with Ret h => snd h | UB _ => u_map_init end.
Definition the_cookie : cookie := mk_cookie (bs "cook") (bs "ie") None 5000 None None 0 0 0.
Definition tell_resp : response := mk_resp 200 mk_header [the_cookie] tell_body None None None.

Lemma tell_response_ok : tell_response http_url (mk_resp 200 u_map_init [] [] None None None) = Ret tell_resp.
Proof. unfold tell_response, tell_resp, tell_body. destruct (strstr http_url (bs "limit")); vm_compute; reflexivity. Qed.
Lemma tell_sel : sel verb url tell_ep = under [bs "curl"] (words url).
Proof.
  unfold sel. change (http_method tell_ep) with (Some (bs "*")). cbv iota. change (starts_with 42 (bs "*")) with true. rewrite orb_true_r. cbn [andb]. change (split_url (url_prefix tell_ep) (url_format tell_ep)) with ([bs "curl"] ++ [[42]]). now rewrite star_match.
Qed.
Lemma tell_headers_ok : (forall k v, accepts k v = true) -> set_headers accepts tell_resp [] = Ret (true, tell_headers).
Proof.
  intros AC. unfold set_headers. cbn [tell_resp r_header r_cookies]. assert (K : exists rest, keys mk_header = Some (bs "multiple-key") :: Some (bs "Multiple-Key") :: None :: rest) by (exists []; vm_compute; reflexivity). destruct K as (rest & ->).
  cbn [header_loop]. assert (G1 : get_str mk_header (bs "multiple-key") = Ret (Some (bs "value 1"))) by (vm_compute; reflexivity). assert (G2 : get_str mk_header (bs "Multiple-Key") = Ret (Some (bs "value 2"))) by (vm_compute; reflexivity).
  rewrite G1. cbn [bind]. rewrite AC. rewrite G2. cbn [bind]. rewrite AC. cbn [bind fst snd cookie_loop app]. rewrite AC. reflexivity.
Qed.
(** every request under /curl: one answer, one call *)
Lemma tell_run : forall rest, request_ok url initial -> sorts qsort -> (forall k v, accepts k v = true) -> segs url (bs "curl" :: rest) ->
  exists c m', prepare_map_url tl map_url initial url tell_ep true = Ret (c, m') /\
  req = Ret (mk_result [Queue 200 (mk_mhd (CBuffer tell_body) tell_headers)] [mk_event tell_ep 0 U_CALLBACK_CONTINUE tell_resp (do t <- told' m'; Ret (console ++ [t]))] []).
Proof.
  intros rest RQ QS AC SG. apply segs_words in SG. destruct (prepare_total tl true map_url initial url tell_ep RQ) as ([c m'] & P). exists c, m'. split; [exact P|]. unfold tell_server.
  assert (T : exists u, eop_run init_instance [EAdd tell_ep] = Ret u /\ table_ok u [tell_ep]).
  { eexists. split; [vm_compute; reflexivity|]. split; [repeat constructor; discriminate|split; [reflexivity|vm_compute; reflexivity]]. }
  destruct T as (u & EU & T). rewrite EU. cbn [bind]. unfold dispatch. rewrite (match_table qsort u [tell_ep] verb url T). cbn [bind filter]. rewrite tell_sel, <- SG. cbn [under]. rewrite str_eqb_refl. cbn [andb].
  destruct (QS [tell_ep]) as [Q _]. apply Permutation_length_1_inv in Q. rewrite Q. cbv zeta iota. assert (F : first_response None = Ret (mk_resp 200 u_map_init [] [] None None None)) by reflexivity. rewrite F. cbn [bind].
  cbn [callback_loop s_map]. rewrite P. cbn [bind snd]. unfold run_callback. change (callback tell_ep) with (Some 1). cbv iota. cbn [s_pos s_resp s_world]. unfold tell_cb. rewrite tell_response_ok. cbn [bind s_resp]. change (r_stream tell_resp) with (@None Z). change (r_ws tell_resp) with (@None Z).
  cbv iota. change (U_CALLBACK_CONTINUE =? U_CALLBACK_CONTINUE) with true. unfold complete_answer. cbn [s_resp s_pos s_map s_world s_mhd s_upgrade s_inner s_realm s_trace]. rewrite (tell_headers_ok AC). cbn [bind snd]. reflexivity.
Qed.

(** C138. Whatever the method and whatever follows /curl, the answer is 200 with the long text when the url has limit in it and ok otherwise, the two headers that differ by case, and the cookie. *)
Theorem C138_answers : forall rest, request_ok url initial -> sorts qsort -> (forall k v, accepts k v = true) -> segs url (bs "curl" :: rest) ->
  exists res text, req = Ret res /\ answers res = [Queue 200 (mk_mhd (CBuffer text) tell_headers)] /\ extra res = [] /\
    ((exists a b, http_url = a ++ bs "limit" ++ b) -> text = bs "This is a large body response that should be truncated by the client") /\ (~ (exists a b, http_url = a ++ bs "limit" ++ b) -> text = bs "ok").
Proof.
  intros rest RQ QS AC SG. destruct (tell_run rest RQ QS AC SG) as (c & m' & P & E). do 2 eexists. split; [exact E|]. split; [reflexivity|]. split; [reflexivity|]. unfold tell_body. split; intros H.
  - now rewrite (proj2 (strstr_ok _ _) H).
  - destruct (strstr http_url (bs "limit")) eqn:S0; [exfalso; apply H; now apply strstr_ok|reflexivity].
Qed.
(** and anything else is 404, without a call. *)
Theorem C138_elsewhere : sorts qsort -> (forall rest, ~ segs url (bs "curl" :: rest)) -> req = Ret (mk_result [Queue 404 (mk_mhd (CBuffer (bs "Resource not found")) [])] [] []).
Proof.
  intros QS H. unfold tell_server.
  assert (T : exists u, eop_run init_instance [EAdd tell_ep] = Ret u /\ table_ok u [tell_ep]).
  { eexists. split; [vm_compute; reflexivity|]. split; [repeat constructor; discriminate|split; [reflexivity|vm_compute; reflexivity]]. }
  destruct T as (u & EU & T). rewrite EU. cbn [bind]. unfold dispatch. rewrite (match_table qsort u [tell_ep] verb url T). cbn [bind filter]. rewrite tell_sel.
  assert (U : under [bs "curl"] (words url) = false).
  { pose proof (words_segs url) as W. destruct (words url) as [|w ws]; [reflexivity|]. cbn [under]. rewrite andb_true_r. destruct (str_eqb w (bs "curl")) eqn:E; [|reflexivity]. apply str_eqb_eq in E. subst w. now apply H in W. }
  rewrite U. destruct (QS []) as [Q _]. apply Permutation_nil in Q. rewrite Q. reflexivity.
Qed.

Lemma shows_ok : forall which m d, (forall i j, mem i j = true) -> printable m d -> null <> None -> exists t, pairs_or null d t /\ shows mem null which m = Ret t.
Proof.
  intros which m d MEM (R & K & N & B) NN. pose proof (C123_prints_partial (mem which) m d (MEM which) R K N B) as X. unfold shows. destruct d as [|p d].
  - rewrite X. cbn [bind pairs_or]. destruct null as [t|]; [eauto|congruence].
  - destruct X as (t & PR & X & _). exists t. split; [exact PR|]. rewrite X. cbn [bind]. apply read_cblock. apply (prints_cstr _ _ (fun k v => get_str m k = Ret (Some v)) PR). exact (pairs_readable m _ R K N).
Qed.
(** C138. With a libc that prints something for NULL, the console gets the whole request after what was there: method, url, the four maps in order, the body up to its first NUL. *)
Theorem C138_tells_partial : forall rest dh dc dp nul, request_ok url initial -> sorts qsort -> (forall k v, accepts k v = true) -> (forall i j, mem i j = true) -> segs url (bs "curl" :: rest) -> null = Some nul ->
  printable map_header dh -> printable map_cookie dc -> printable map_post dp -> zlen body + 1 < two64 -> zlen body + 1 <= stack ->
  exists c m', prepare_map_url tl map_url initial url tell_ep true = Ret (c, m') /\ forall du, printable m' du ->
  exists res ev u h ck p b, req = Ret res /\ calls res = [ev] /\ pairs_or null du u /\ pairs_or null dh h /\ pairs_or null dc ck /\ pairs_or null dp p /\ before_nul body b /\
    ev_world ev = Ret (console ++ [bs "######################################################" ++ [10] ++ bs "###################### Callback ######################" ++ [10] ++ bs "######################################################" ++ [10; 10] ++ 
       bs "Method is " ++ verb ++ [10] ++ bs "  url is " ++ http_url ++ [10; 10] ++ bs "  parameters from the url are " ++ [10] ++ u ++ [10; 10] ++ bs "  cookies are " ++ [10] ++ ck ++ [10; 10] ++
       bs "  headers are " ++ [10] ++ h ++ [10; 10] ++ bs "  post parameters are " ++ [10] ++ p ++ [10; 10] ++ bs "  raw body is " ++ [10] ++ b ++ [10; 10] ++ bs "  user data is " ++ nul ++ [10; 10]]).
Proof.
  intros rest dh dc dp nul RQ QS AC MEM SG NU PH PC PP W ST. destruct (tell_run rest RQ QS AC SG) as (c & m' & P & E). exists c, m'. split; [exact P|]. intros du PU. assert (NN : null <> None) by congruence.
  destruct (shows_ok 0 m' du MEM PU NN) as (u & U1 & U2). destruct (shows_ok 1 map_header dh MEM PH NN) as (h & H1 & H2). destruct (shows_ok 2 map_cookie dc MEM PC NN) as (ck & C1 & C2). destruct (shows_ok 3 map_post dp MEM PP NN) as (p & Q1 & Q2).
  destruct (body_text_ok stack body W ST) as (b & B1 & B2). do 2 eexists. exists u, h, ck, p, b. split; [exact E|]. split; [reflexivity|]. do 5 (split; [assumption|]). cbn [ev_world]. unfold told. rewrite U2. cbn [bind]. rewrite C2. cbn [bind]. rewrite H2. cbn [bind]. rewrite Q2. cbn [bind].
  rewrite B2. cbn [bind]. rewrite NU. reflexivity.
Qed.
(** C138, refuted: user_data is NULL (95) and is printed with %s (72): strictly, every request under /curl is undefined. On glibc it prints (null). *)
Theorem C138_null_refuted : forall rest, request_ok url initial -> sorts qsort -> (forall k v, accepts k v = true) -> segs url (bs "curl" :: rest) -> null = None ->
  exists res ev k, req = Ret res /\ calls res = [ev] /\ ev_world ev = UB k.
Proof.
  intros rest RQ QS AC SG NU. destruct (tell_run rest RQ QS AC SG) as (c & m' & P & E).
  assert (X : exists k, told' m' = UB k).
  { unfold told. destruct (shows mem null 0 m'); [|eexists; reflexivity]. cbn [bind]. destruct (shows mem null 2 map_cookie); [|eexists; reflexivity]. cbn [bind]. destruct (shows mem null 1 map_header); [|eexists; reflexivity]. cbn [bind].
    destruct (shows mem null 3 map_post); [|eexists; reflexivity]. cbn [bind]. destruct (body_text stack _ _); [|eexists; reflexivity]. cbn [bind]. rewrite NU. eexists. reflexivity. }
  destruct X as (k & X). do 2 eexists. exists k. split; [exact E|]. split; [reflexivity|]. cbn [ev_world]. rewrite X. reflexivity.
Qed.
(** C138, refuted: whatever libc prints for NULL, a client that sends a body larger than the stack brings the server down (62). *)
Theorem C138_stack_refuted : forall rest, request_ok url initial -> sorts qsort -> (forall k v, accepts k v = true) -> segs url (bs "curl" :: rest) -> 0 <= stack <= zlen body -> zlen body + 1 < two64 ->
  exists res ev k, req = Ret res /\ calls res = [ev] /\ ev_world ev = UB k.
Proof.
  intros rest RQ QS AC SG ST W. destruct (tell_run rest RQ QS AC SG) as (c & m' & P & E).
  assert (X : exists k, told' m' = UB k).
  { unfold told. destruct (shows mem null 0 m'); [|eexists; reflexivity]. cbn [bind]. destruct (shows mem null 2 map_cookie); [|eexists; reflexivity]. cbn [bind]. destruct (shows mem null 1 map_header); [|eexists; reflexivity]. cbn [bind].
    destruct (shows mem null 3 map_post); [|eexists; reflexivity]. cbn [bind]. unfold body_text. assert (A : add64 (zlen body) 1 = zlen body + 1) by (unfold add64; apply Z.mod_small; pose proof (zlen_nonneg _ body); lia). rewrite A.
    rewrite (proj2 (Z.eqb_neq _ _)) by lia. rewrite (proj2 (Z.ltb_lt _ _)) by lia. eexists. reflexivity. }
  destruct X as (k & X). do 2 eexists. exists k. split; [exact E|]. split; [reflexivity|]. cbn [ev_world]. rewrite X. reflexivity.
Qed.
End Tell.

(** two requests *)
Example C138_ex : exists r1 r2, let ask url stack := tell_server (bs "PATCH") (bs url) u_map_init u_map_init u_map_init (bs "body") stack (fun _ _ => true) (Some (bs "(null)")) (fun c => c) isort (fun _ _ => true) (fun _ => inr (0, [])) (bs url) u_map_init u_map_init [] in
  ask "/curl/limit"%string 100 = Ret r1 /\ answers r1 = [Queue 200 (mk_mhd (CBuffer (bs "This is a large body response that should be truncated by the client")) tell_headers)] /\ map (fun e => match ev_world e with Ret l => zlen (concat l) | UB _ => -1 end) (calls r1) = [364] /\
  ask "/curl"%string 4 = Ret r2 /\ answers r2 = [Queue 200 (mk_mhd (CBuffer (bs "ok")) tell_headers)] /\ map (fun e => ev_world e) (calls r2) = [UB Overflow].
Proof. do 2 eexists. cbv zeta. split; [vm_compute; reflexivity|]. split; [vm_compute; reflexivity|]. split; [vm_compute; reflexivity|]. split; [vm_compute; reflexivity|]. split; [vm_compute; reflexivity|]. vm_compute. reflexivity. Qed.
Example C138_hyps : request_ok (bs "/curl/limit") u_map_init /\ segs (bs "/curl/limit") (bs "curl" :: [bs "limit"]) /\ printable u_map_init [] /\ (forall rest, ~ segs (bs "/other") (bs "curl" :: rest)).
Proof.
  split; [split; [repeat constructor; discriminate|exists []; split; [apply repr_init|split; [constructor|reflexivity]]]|]. split; [change [bs "curl"; bs "limit"] with (words (bs "/curl/limit")); apply words_segs|].
  split; [split; [apply repr_init|split; [constructor|split; [constructor|discriminate]]]|]. intros rest H. apply segs_words in H. discriminate H.
Qed.

Print Assumptions C138_answers.
Print Assumptions C138_elsewhere.
Print Assumptions C138_tells_partial.
Print Assumptions C138_null_refuted.
Print Assumptions C138_stack_refuted.
