(** C65-C69: what the HTTP and mail client asks libcurl to send. *)
From Coq Require Import String ZArith Bool List Lia.
From Verif Require Import Base BaseFacts UMapModel UMapSpec SMap SMapCase ClientModel Dec SendModel YuarelSpec YuarelProofs HttpText SendSpec SendProofs.
Import ListNotations.
Open Scope Z_scope.

(** Concrete maps for the examples *)
Fixpoint filled (m : umap) (d : smap) : umap := match d with [] => m | p :: r => match u_map_put m (Some (fst p)) (snd p) with Ret x => filled (snd x) r | UB _ => m end end.
Definition map_of (d : smap) : umap := filled u_map_init d.
Definition entry_okb (p : str * option str) : bool := negb (str_eqb (fst p) []) && match snd p with Some s => cstrb s && (zlen s + 2 <? two64) | None => true end.
Lemma cstrb_cstr : forall s, cstrb s = true -> cstr s.
Proof. intros s H. unfold cstrb in H. rewrite forallb_forall in H. apply Forall_forall. intros b I. apply H in I. apply andb_prop in I as [A B]. apply Z.ltb_lt in A, B. lia. Qed.
Lemma repr_map_of : forall d, forallb entry_okb d = true -> repr (map_of d) (scopy_into [] d).
Proof.
  unfold map_of, scopy_into. assert (G : forall d m e, repr m e -> forallb entry_okb d = true -> repr (filled m d) (fold_left (fun d p => sput (fst p) (snd p) d) d e)); [|intros d; apply G; apply repr_init].
  induction d as [|p d IH]; intros m e R B; [exact R|]. cbn [forallb] in B. apply andb_prop in B as [A B]. unfold entry_okb in A. apply andb_prop in A as [K V]. cbn [filled fold_left].
  destruct (repr_put m e (fst p) (snd p) R) as (m' & P & R').
  - intros E. rewrite E in K. discriminate.
  - destruct (snd p) as [s|]; [|exact I]. apply andb_prop in V as [V1 V2]. split; [now apply cstrb_cstr|now apply Z.ltb_lt].
  - rewrite P. now apply IH.
Qed.

(** ** C65: nothing is sent unless libcurl accepts every option, and the options say what the request says *)
Theorem C65_options_faithful_partial : forall c r writer data heads x, holds_dicts r x ->
  exists l,
    (all_accepted c l -> send_request c r writer data heads = Ret (Some l)) /\
    (~ all_accepted c l -> send_request c r writer data heads = Ret None) /\
    check_state (negb (h_check_server r =? 0) && Z.testbit (h_server_flag r) 0) (last_of o_peer l) /\
    check_state (negb (h_check_server r =? 0) && Z.testbit (h_server_flag r) 4) (last_of o_host l) /\
    check_state (negb (h_check_proxy r =? 0) && Z.testbit (h_proxy_flag r) 0) (last_of o_proxy_peer l) /\
    check_state (negb (h_check_proxy r =? 0) && Z.testbit (h_proxy_flag r) 4) (last_of o_proxy_host l) /\
    last_of o_protocols l = Some (bs "http,https") /\ last_of o_redir l = Some (bs "http,https") /\
    (last_of o_user l, last_of o_password l) = match h_user r, h_password r with Some a, Some b => (Some a, Some b) | _, _ => (None, None) end /\
    (last_of o_cert l, last_of o_key l) = match h_cert r, h_key r with Some a, Some b => (Some a, Some b) | _, _ => (None, None) end /\
    last_of o_proxy l = h_proxy r /\ last_of o_ca l = h_ca_path r /\
    last_of o_follow l = (if h_follow r =? 0 then None else Some tt) /\
    last_of o_timeout l = (if h_timeout r =? 0 then None else Some (h_timeout r)) /\
    last_of o_verb l = Some (match h_verb r with Some v => v | None => bs "GET" end).
Proof.
  intros c r w da h x H. destruct H as (RH & RP & RF & RC). destruct (request_url_any (h_url r) _ _ RP) as (u & U).
  exists (wanted r w da h (texts_of r x u)). rewrite (send_request_wanted c r w da h x u) by (try exact U; repeat split; assumption).
  split; [intros A; now rewrite set_all_all|]. split; [intros A; now rewrite set_all_refused|].
  unfold check_state. rewrite wanted_peer, wanted_host, wanted_proxy_peer, wanted_proxy_host, wanted_auth, wanted_cert, wanted_proxy, wanted_ca, wanted_follow, wanted_timeout, wanted_verb.
  rewrite (proj1 (wanted_protocols r w da h x u)), (proj2 (wanted_protocols r w da h x u)).
  assert (K : forall (p q : Z -> opt) f g chk fl, (forall n, f (p n) = Some n) -> (forall n, f (q n) = None) -> (forall n, g (q n) = Some n) -> (forall n, g (p n) = None) ->
    last_of f (checks p q chk fl) = (if negb (chk =? 0) && Z.testbit fl 0 then None else Some 0) /\ last_of g (checks p q chk fl) = (if negb (chk =? 0) && Z.testbit fl 4 then None else Some 0)).
  { intros p q f g chk fl A B C D. unfold checks. unfold SSL_VERIFY_PEER, SSL_VERIFY_HOSTNAME. rewrite bit0, bit4. unfold is_set.
    destruct (chk =? 0), (Z.testbit fl 0), (Z.testbit fl 4); cbn [negb andb app last_of]; rewrite ?A, ?B, ?C, ?D; split; reflexivity. }
  destruct (K VerifyPeer VerifyHost o_peer o_host (h_check_server r) (h_server_flag r)) as [K1 K2]; try reflexivity.
  destruct (K ProxyVerifyPeer ProxyVerifyHost o_proxy_peer o_proxy_host (h_check_proxy r) (h_proxy_flag r)) as [K3 K4]; try reflexivity.
  split; [exact K1|]. split; [exact K2|]. split; [exact K3|]. split; [exact K4|]. repeat (split; [reflexivity|]). reflexivity.
Qed.

(** a request that checks the certificate but not the host name, with a user, through a proxy *)
Definition ex_r : hreq := mk_hreq (Some (bs "POST")) (Some (bs "https://h.example/a b?x=1")) (Some (bs "u")) (Some (bs "p")) None None None (Some (bs "proxy:3128")) 1 17
  (map_of [(bs "X-A", Some (bs "1")); (bs "X-B", Some (bs "two"))]) (map_of [(bs "k", Some (bs "a&b c")); (bs "f", None)])
  (map_of [(bs "n", Some (bs "v=1")); (bs "e", Some [])]) (map_of [(bs "c", Some (bs "1")); (bs "d", Some (bs "2"))]) None 0 1 1 1 17 None 30.
Definition ex_x : dicts := mk_dicts [(bs "X-A", Some (bs "1")); (bs "X-B", Some (bs "two"))] [(bs "k", Some (bs "a&b c")); (bs "f", None)]
  [(bs "n", Some (bs "v=1")); (bs "e", Some [])] [(bs "c", Some (bs "1")); (bs "d", Some (bs "2"))].
Lemma ex_holds : holds_dicts ex_r ex_x.
Proof. split; [exact (repr_map_of (dh ex_x) eq_refl)|split; [exact (repr_map_of (dp ex_x) eq_refl)|split; [exact (repr_map_of (df ex_x) eq_refl)|exact (repr_map_of (dc ex_x) eq_refl)]]]. Qed.
Definition yes : curl := fun _ _ => true.
Example C65_example : holds_dicts ex_r ex_x /\
  (exists l, send_request yes ex_r true true true = Ret (Some l) /\ last_of o_peer l = None /\ last_of o_host l = Some 0 /\ last_of o_proxy_host l = None /\
     last_of o_user l = Some (bs "u") /\ last_of o_timeout l = Some 30) /\
  send_request (fun _ o => match o with Protocols _ => false | _ => true end) ex_r true true true = Ret None.
Proof. split; [exact ex_holds|]. split; [eexists; vm_compute; repeat split|vm_compute; reflexivity]. Qed.

(** C65 in full also wants the request restricted to the network its network_type names. It is not: the test
    "network_type & U_USE_ALL" holds for U_USE_IPV4 and U_USE_IPV6 alone (u_send_request.c:396), so libcurl may use either. *)
Theorem C65_network_refuted : exists r x, holds_dicts r x /\ h_network r = USE_IPV6 /\
  exists l, send_request yes r true true true = Ret (Some l) /\ last_of o_network l = Some IPRESOLVE_WHATEVER.
Proof.
  exists (mk_hreq None (Some (bs "http://h/")) None None None None None None 0 USE_IPV6 u_map_init u_map_init u_map_init u_map_init None 0 1 17 1 17 None 0), (mk_dicts [] [] [] []).
  split; [repeat split; apply repr_init|]. split; [reflexivity|]. eexists. split; vm_compute; reflexivity.
Qed.
(** and it is so for every request with any of the two bits *)
Theorem C65_network_never_restricted : forall c r w da h x l, holds_dicts r x -> Z.testbit (h_network r) 0 = true \/ Z.testbit (h_network r) 4 = true ->
  send_request c r w da h = Ret (Some l) -> last_of o_network l = Some IPRESOLVE_WHATEVER.
Proof.
  intros c r w da h x l H N S. destruct H as (RH & RP & RF & RC). destruct (request_url_any (h_url r) _ _ RP) as (u & U).
  rewrite (send_request_wanted c r w da h x u) in S by (try exact U; repeat split; assumption). injection S as S. apply set_all_some in S as [-> _]. cbn [app]. rewrite wanted_network. f_equal.
  unfold USE_ALL, is_set. destruct (Z.eqb_spec (Z.land (h_network r) 17) 0) as [E|]; [|reflexivity]. exfalso.
  destruct N as [N|N]; [assert (Z.testbit (Z.land (h_network r) 17) 0 = true) by (rewrite Z.land_spec, N; reflexivity)|assert (Z.testbit (Z.land (h_network r) 17) 4 = true) by (rewrite Z.land_spec, N; reflexivity)]; rewrite E in *; discriminate.
Qed.

(** ** C66: the URL that is sent carries the query of the request's URL and then the parameters *)
Definition no_blanks (s : str) : str := join_with (bs "%20") (pieces 32 s).
Lemma no_space_blanks : forall s, no_space s = no_blanks s.
Proof.
  unfold no_blanks. induction s as [|c s IH]; [reflexivity|]. cbn [no_space pieces]. rewrite IH. pose proof (fun s => match s return pieces 32 s <> [] with [] => ltac:(discriminate) | c :: r => ltac:(cbn [pieces]; destruct (c =? 32); [discriminate|destruct (pieces 32 r); discriminate]) end) as NE.
  destruct (Z.eqb_spec c 32) as [->|].
  - rewrite join_cons by apply NE. reflexivity.
  - specialize (NE s). destruct (pieces 32 s) as [|a l]; [congruence|]. destruct l; reflexivity.
Qed.
Lemma sent_list : forall c r w da h x opts, holds_dicts r x -> send_request c r w da h = Ret (Some opts) ->
  exists u, request_url (h_url r) (h_params r) = Ret u /\ opts = wanted r w da h (texts_of r x u).
Proof.
  intros c r w da h x opts H S. destruct (request_url_any (h_url r) (h_params r) (dp x) (proj1 (proj2 H))) as (u & U). exists u. split; [exact U|].
  rewrite (send_request_wanted c r w da h x u H U) in S. injection S as S. now apply set_all_some in S as [-> _].
Qed.

Theorem C66_query_sent_partial : forall c r w da h x opts url, holds_dicts r x -> names_ok (dp x) -> h_url r = Some url -> ~ In 35 url ->
  send_request c r w da h = Ret (Some opts) ->
  exists sent, last_of o_url opts = Some (Some sent) /\ ~ In 35 sent /\
    fst (split_url sent) = no_blanks (fst (split_url url)) /\
    forall old, query_pairs (option_map no_blanks (snd (split_url url))) = Some old -> query_pairs (snd (split_url sent)) = Some (old ++ dp x).
Proof.
  intros c r w da h x opts url H K U F S. destruct (sent_list c r w da h x opts H S) as (u & R & ->). destruct H as (RH & RP & RF & RC). rewrite U, (request_url_text url _ _ RP) in R. injection R as <-. fold (url_of url (dp x)).
  exists (url_of url (dp x)). rewrite wanted_url. split; [reflexivity|]. pose proof (repr_entries _ _ RP K) as EB.
  assert (J : forall y, y <> 38 -> (y = 38 \/ y = 63 \/ y = 35) -> ~ In y (join_with [38] (map pair_text (dp x)))).
  { intros y Y1 Y2. apply join_no; [exact Y1|]. apply Forall_map. eapply Forall_impl; [|exact EB]. intros p P. now apply pair_text_no. }
  assert (NS : ~ In 35 (no_space url)) by (apply no_space_no; try lia; exact F).
  split.
  { unfold url_of. intros I. apply in_app_or in I as [I|I]; [tauto|]. destruct (dp x) as [|p d]; [destruct I|]. apply in_app_or in I as [I|I].
    - destruct (has_char 63 (no_space url)); cbn in I; lia.
    - revert I. apply J; lia. }
  unfold split_url. destruct (cut 63 url) as [path [q|]] eqn:C.
  - apply cut_found in C as [-> NP]. assert (NP' : ~ In 63 (no_space path)) by (apply no_space_no; try lia; exact NP).
    unfold url_of. replace (has_char 63 (no_space (path ++ 63 :: q))) with true by (symmetry; apply has_char_in; rewrite no_space_app; apply in_or_app; right; cbn [no_space]; now left).
    assert (SU : no_space (path ++ 63 :: q) = no_space path ++ 63 :: no_space q) by (rewrite no_space_app; reflexivity). rewrite SU. rewrite <- app_assoc. cbn [app]. rewrite cut_intro by exact NP'. cbn [fst snd option_map]. rewrite <- !no_space_blanks.
    split; [reflexivity|]. intros old O. cbn [query_pairs] in *. destruct (dp x) as [|p d] eqn:D; [rewrite !app_nil_r; exact O|].
    unfold read_pairs in *. assert (P : forall a b, pieces 38 (a ++ 38 :: b) = pieces 38 a ++ pieces 38 b).
    { clear. induction a as [|c a IH]; intros b; [reflexivity|]. cbn [app pieces]. destruct (c =? 38); [cbn [app]; now rewrite IH|]. rewrite IH.
      assert (NE : pieces 38 a <> []) by (destruct a as [|e a]; [discriminate|cbn [pieces]; destruct (e =? 38); [discriminate|destruct (pieces 38 a); discriminate]]). destruct (pieces 38 a); [congruence|reflexivity]. }
    cbn [app]. rewrite P, map_app. apply all_some_app; [exact O|]. pose proof (read_join (p :: d) ltac:(discriminate) EB) as RJ. exact RJ.
  - apply cut_none in C as [<- NP]. assert (NP' : ~ In 63 (no_space url)) by (apply no_space_no; try lia; exact NP).
    unfold url_of. rewrite (has_char_not 63 (no_space url) NP'). cbn [fst snd option_map query_pairs]. rewrite <- no_space_blanks. destruct (dp x) as [|p d] eqn:D.
    + rewrite app_nil_r, cut_intro_none by exact NP'. cbn [fst snd query_pairs]. split; [reflexivity|]. intros old O. rewrite app_nil_r. exact O.
    + cbn [app]. rewrite cut_intro by exact NP'. cbn [fst snd query_pairs]. split; [reflexivity|]. intros old O. injection O as <-. cbn [app]. apply read_join; [discriminate|exact EB].
Qed.

Example C66_example : holds_dicts ex_r ex_x /\ names_ok (dp ex_x) /\ exists l, send_request yes ex_r true true true = Ret (Some l) /\
  last_of o_url l = Some (Some (bs "https://h.example/a%20b?x=1&k=a%26b%20c&f")) /\
  query_pairs (snd (split_url (bs "https://h.example/a%20b?x=1&k=a%26b%20c&f"))) = Some [(bs "x", Some (bs "1")); (bs "k", Some (bs "a&b c")); (bs "f", None)].
Proof.
  split; [exact ex_holds|]. split; [repeat constructor|]. eexists. split; [vm_compute; reflexivity|]. split; vm_compute; reflexivity.
Qed.

(** With a fragment in the URL the parameters go into the fragment and are not part of the query: they are not sent. *)
Definition ex_fragment : hreq := mk_hreq None (Some (bs "http://h/p#top")) None None None None None None 0 17 u_map_init (map_of [(bs "k", Some (bs "v"))]) u_map_init u_map_init None 0 1 17 1 17 None 0.
Theorem C66_fragment_refuted : holds_dicts ex_fragment (mk_dicts [] [(bs "k", Some (bs "v"))] [] []) /\
  exists l sent p, send_request yes ex_fragment true true true = Ret (Some l) /\ last_of o_url l = Some (Some sent) /\
    parse_text sent = Some p /\ p_query p = None /\ p_fragment p = Some (bs "top?k=v").
Proof.
  split; [split; [apply repr_init|split; [exact (repr_map_of [(bs "k", Some (bs "v"))] eq_refl)|split; apply repr_init]]|].
  eexists _, _, _. split; [vm_compute; reflexivity|]. split; [vm_compute; reflexivity|]. split; [vm_compute; reflexivity|]. split; reflexivity.
Qed.

(** ** C67: the body is the request's, byte for byte, or its form *)
Theorem C67_form_sent : forall c r w da h x opts, holds_dicts r x -> names_ok (df x) -> df x <> [] ->
  send_request c r w da h = Ret (Some opts) ->
  exists text, read_pairs text = Some (df x) /\ last_of o_size opts = Some (zlen text) /\
    last_of o_body opts = Some (map Some text ++ [Some 0]) /\
    exists lines, last_of o_headers opts = Some lines /\ In (bs "Content-Type:application/x-www-form-urlencoded") lines.
Proof.
  intros c r w da h x opts H K N S. destruct (sent_list c r w da h x opts H S) as (u & R & ->). destruct H as (RH & RP & RF & RC).
  pose proof (repr_entries _ _ RF K) as EB. exists (join_with [38] (map pair_text (df x))). split; [apply read_join; assumption|].
  pose proof (wanted_body r w da h x u) as B.
  assert (TB : t_body (texts_of r x u) = Some (cblock (join_with [38] (map pair_text (df x))))) by (unfold texts_of; cbn [t_body]; destruct (df x); [congruence|reflexivity]).
  assert (TL : t_len (texts_of r x u) = zlen (join_with [38] (map pair_text (df x)))) by (unfold texts_of; cbn [t_len]; destruct (df x); [congruence|reflexivity]).
  rewrite TB, TL in B. destruct (Z.eqb_spec (zlen (join_with [38] (map pair_text (df x)))) 0) as [Z0|NZ].
  - exfalso. destruct (df x) as [|p d] eqn:D; [congruence|]. pose proof (proj2 (repr_nodup _ _ RF)) as NE. cbn [map] in NE. assert (E : fst p <> []) by (intros E; apply NE; left; exact E).
    assert (X : pair_text p <> []) by (unfold pair_text; destruct (fst p) as [|y t]; [congruence|]; cbn [curl_escape]; destruct (snd p); destruct (unreserved y); discriminate).
    assert (J : join_with [38] (map pair_text (p :: d)) <> []) by (cbn [map join_with]; destruct (map pair_text d); destruct (pair_text p); try congruence; discriminate).
    destruct (join_with [38] (map pair_text (p :: d))); [congruence|]. unfold zlen in Z0. cbn [length] in Z0. lia.
  - split; [exact (f_equal snd B)|]. split; [transitivity (Some (cblock (join_with [38] (map pair_text (df x))))); [exact (f_equal fst B)|f_equal; unfold cblock, block_of; now rewrite map_app]|]. exists (map header_line (final_headers x)). split; [apply wanted_headers|]. unfold final_headers. destruct (df x) as [|p d] eqn:D; [congruence|].
    apply in_map_iff. exists (bs "Content-Type", Some form_type). split; [reflexivity|]. clear. generalize (dh x). induction s as [|q s IH]; cbn [sput]; [now left|]. destruct (str_eqb (fst q) (bs "Content-Type")) eqn:E; [left; apply str_eqb_eq in E; now rewrite E|right; exact IH].
Qed.
Theorem C67_body_sent : forall c r w da h x opts, holds_dicts r x -> df x = [] ->
  send_request c r w da h = Ret (Some opts) ->
  (last_of o_body opts, last_of o_size opts) = match h_body r with Some b => if h_length r =? 0 then (None, None) else (Some b, Some (h_length r)) | None => (None, None) end.
Proof.
  intros c r w da h x opts H D S. destruct (sent_list c r w da h x opts H S) as (u & R & ->). rewrite wanted_body. unfold texts_of. cbn [t_body t_len]. rewrite D. reflexivity.
Qed.

Example C67_example : holds_dicts ex_r ex_x /\ exists l, send_request yes ex_r true true true = Ret (Some l) /\
  last_of o_body l = Some (map Some (bs "n=v%3D1&e=") ++ [Some 0]) /\ last_of o_size l = Some 10 /\
  last_of o_headers l = Some [bs "X-A:1"; bs "X-B:two"; bs "Content-Type:application/x-www-form-urlencoded"] /\
  read_pairs (bs "n=v%3D1&e=") = Some [(bs "n", Some (bs "v=1")); (bs "e", Some [])].
Proof. split; [exact ex_holds|]. eexists. split; [vm_compute; reflexivity|]. repeat split; vm_compute; reflexivity. Qed.

(** The content type is put under its exact name: a request that has one under another case sends two. *)
Definition ex_twice : hreq := mk_hreq None (Some (bs "http://h/")) None None None None None None 0 17 (map_of [(bs "content-type", Some (bs "text/plain"))]) u_map_init (map_of [(bs "k", Some (bs "v"))]) u_map_init None 0 1 17 1 17 None 0.
Theorem C67_content_type_refuted : holds_dicts ex_twice (mk_dicts [(bs "content-type", Some (bs "text/plain"))] [] [(bs "k", Some (bs "v"))] []) /\
  exists l, send_request yes ex_twice true true true = Ret (Some l) /\
    last_of o_headers l = Some [bs "content-type:text/plain"; bs "Content-Type:application/x-www-form-urlencoded"].
Proof.
  split; [split; [exact (repr_map_of [(bs "content-type", Some (bs "text/plain"))] eq_refl)|split; [apply repr_init|split; [exact (repr_map_of [(bs "k", Some (bs "v"))] eq_refl)|apply repr_init]]]|].
  eexists. split; vm_compute; reflexivity.
Qed.

(** ** C68: every header and every cookie of the request is sent as it is *)
Definition header_ok (p : str * option str) : Prop := ~ In 58 (fst p) /\ ~ In 13 (fst p) /\ exists v, snd p = Some v /\ v <> [] /\ tight v /\ ~ In 13 v.
Definition plain_field (p : str * option str) : str * str := (fst p, match snd p with Some v => v | None => [] end).
Lemma header_sent : forall d, ~ In [] (map fst d) -> Forall header_ok d ->
  read_fields (S (length (wire (map header_line d)))) (wire (map header_line d)) = Some (map plain_field d, []).
Proof.
  intros d NE F. assert (A : sent_lines (map header_line d) = map header_line d /\ Forall2 writes (map header_line d) (map plain_field d)).
  { induction F as [|p d P F IH]; [split; [reflexivity|constructor]|]. destruct IH as [I1 I2]; [intros I; apply NE; now right|]. destruct p as [k o]. destruct P as (N1 & N2 & v & V & V0 & T & N3). cbn [fst snd] in *. subst o.
    assert (K : k <> []) by (intros ->; apply NE; now left). assert (HV : has_value (k ++ 58 :: v) = true) by (unfold has_value; rewrite (cut_intro 58 k v N1), (strip_tight v T); destruct v; [congruence|reflexivity]).
    unfold sent_lines in *. cbn [map filter]. change (header_line (k, Some v)) with (k ++ 58 :: v). rewrite HV. split; [now f_equal|]. constructor; [|exact I2].
    split; [intros I; apply in_app_or in I as [I|[I|I]]; [tauto|lia|tauto]|]. change (plain_field (k, Some v)) with (k, v). rewrite read_field_intro by assumption. now rewrite (strip_tight _ T). }
  destruct A as [A B]. unfold wire at 2. rewrite A. pose proof (read_fields_intro (map header_line d) (map plain_field d) [] (S (length (wire (map header_line d)))) B) as RF. rewrite app_nil_r in RF. apply RF.
  unfold wire. rewrite A, app_length. generalize (map header_line d) as ls. clear. induction ls as [|l ls IH]; [cbn; lia|]. cbn [map concat length]. rewrite !app_length. cbn [eol length] in *. lia.
Qed.
Theorem C68_headers_sent_partial : forall c r w da h x opts, holds_dicts r x -> df x = [] -> Forall header_ok (dh x) ->
  send_request c r w da h = Ret (Some opts) ->
  exists lines, last_of o_headers opts = Some lines /\ read_fields (S (length (wire lines))) (wire lines) = Some (map plain_field (dh x), []).
Proof.
  intros c r w da h x opts H D K S. destruct (sent_list c r w da h x opts H S) as (u & R & ->). eexists. split; [apply wanted_headers|]. unfold final_headers. rewrite D.
  apply header_sent; [|exact K]. exact (proj2 (repr_nodup _ _ (proj1 H))).
Qed.
Definition cookie_ok (p : str * option str) : Prop := ~ In 61 (fst p) /\ ~ In 59 (fst p) /\ exists v, snd p = Some v /\ ~ In 59 v.
Theorem C68_cookies_sent_partial : forall c r w da h x opts, holds_dicts r x -> dc x <> [] -> Forall cookie_ok (dc x) ->
  send_request c r w da h = Ret (Some opts) ->
  exists text, last_of o_cookies opts = Some (Some text) /\ read_cookies text = Some (map plain_field (dc x)).
Proof.
  intros c r w da h x opts H D K S. destruct (sent_list c r w da h x opts H S) as (u & R & ->). rewrite wanted_cookies. destruct (dc x) as [|p d] eqn:E; [congruence|].
  eexists. split; [reflexivity|]. unfold read_cookies. rewrite pieces_join.
  - rewrite map_map. rewrite (all_some_map _ plain_field); [reflexivity|]. eapply Forall_impl; [|exact K]. intros [k o] (N1 & N2 & v & V & N3). cbn [fst snd] in *. subst o. unfold read_cookie, cookie_line, plain_field. cbn [fst snd]. now rewrite cut_intro.
  - discriminate.
  - apply Forall_map. eapply Forall_impl; [|exact K]. intros [k o] (N1 & N2 & v & V & N3). cbn [fst snd] in *. subst o. unfold cookie_line. cbn [fst snd]. intros I. apply in_app_or in I as [I|[I|I]]; [tauto|lia|tauto].
Qed.

Definition ex_h : hreq := mk_hreq None (Some (bs "http://h/")) None None None None None None 0 17 (map_of [(bs "X-A", Some (bs "a b")); (bs "Accept", Some (bs "*/*"))]) u_map_init u_map_init
  (map_of [(bs "c", Some (bs "1")); (bs "d", Some (bs "x=y"))]) None 0 1 17 1 17 None 0.
Definition ex_hx : dicts := mk_dicts [(bs "X-A", Some (bs "a b")); (bs "Accept", Some (bs "*/*"))] [] [] [(bs "c", Some (bs "1")); (bs "d", Some (bs "x=y"))].
Example C68_example : holds_dicts ex_h ex_hx /\ Forall header_ok (dh ex_hx) /\ Forall cookie_ok (dc ex_hx) /\ exists l, send_request yes ex_h true true true = Ret (Some l) /\
  last_of o_headers l = Some [bs "X-A:a b"; bs "Accept:*/*"] /\ last_of o_cookies l = Some (Some (bs "c=1;d=x=y")).
Proof.
  split; [split; [exact (repr_map_of (dh ex_hx) eq_refl)|split; [apply repr_init|split; [apply repr_init|exact (repr_map_of (dc ex_hx) eq_refl)]]]|].
  split; [repeat (constructor; [split; [cbn; lia|split; [cbn; lia|eexists; split; [reflexivity|split; [discriminate|split; [repeat split; cbn; lia|cbn; lia]]]]]|]); constructor|].
  split; [repeat (constructor; [split; [cbn; lia|split; [cbn; lia|eexists; split; [reflexivity|cbn; lia]]]|]); constructor|].
  eexists. split; [vm_compute; reflexivity|]. split; vm_compute; reflexivity.
Qed.

Definition with_headers (d : smap) : hreq := mk_hreq None (Some (bs "http://h/")) None None None None None None 0 17 (map_of d) u_map_init u_map_init u_map_init None 0 1 17 1 17 None 0.
Definition with_cookies (d : smap) : hreq := mk_hreq None (Some (bs "http://h/")) None None None None None None 0 17 u_map_init u_map_init u_map_init (map_of d) None 0 1 17 1 17 None 0.
(** A header with an empty value is not sent: the line "name:" tells libcurl to leave the header out. *)
Theorem C68_empty_header_refuted : holds_dicts (with_headers [(bs "X-Empty", Some [])]) (mk_dicts [(bs "X-Empty", Some [])] [] [] []) /\
  exists l lines, send_request yes (with_headers [(bs "X-Empty", Some [])]) true true true = Ret (Some l) /\ last_of o_headers l = Some lines /\ sent_lines lines = [].
Proof. split; [split; [exact (repr_map_of [(bs "X-Empty", Some [])] eq_refl)|repeat split; apply repr_init]|]. eexists _, _. split; [vm_compute; reflexivity|]. split; vm_compute; reflexivity. Qed.
(** A line break in a value is not refused: what follows it is sent as another header. *)
Definition broken : smap := [(bs "X-A", Some (bs "1" ++ [13; 10] ++ bs "Admin: yes"))].
Theorem C68_line_break_refuted : holds_dicts (with_headers broken) (mk_dicts broken [] [] []) /\
  exists l lines, send_request yes (with_headers broken) true true true = Ret (Some l) /\ last_of o_headers l = Some lines /\
    read_fields (S (length (wire lines))) (wire lines) = Some ([(bs "X-A", bs "1"); (bs "Admin", bs "yes")], []).
Proof. split; [split; [exact (repr_map_of broken eq_refl)|repeat split; apply repr_init]|]. eexists _, _. split; [vm_compute; reflexivity|]. split; vm_compute; reflexivity. Qed.
(** A cookie without a value is sent as "name:", which reads as another name; a semicolon in a value makes another cookie. *)
Definition odd_cookies : smap := [(bs "a", None); (bs "b", Some (bs "1;admin=1"))].
Theorem C68_cookies_refuted : holds_dicts (with_cookies odd_cookies) (mk_dicts [] [] [] odd_cookies) /\
  exists l, send_request yes (with_cookies odd_cookies) true true true = Ret (Some l) /\ last_of o_cookies l = Some (Some (bs "a:;b=1;admin=1")).
Proof. split; [repeat split; try apply repr_init; exact (repr_map_of odd_cookies eq_refl)|]. eexists. split; vm_compute; reflexivity. Qed.

(** ** C69: mail *)
Definition read_mail (s : str) : option (list (str * str) * str) := read_fields (S (length s)) s.
Definition word (s : str) : Prop := tight s /\ ~ In 13 s.
Lemma field_writes : forall (n v : str), n <> [] -> ~ In 58 n -> ~ In 13 n -> word v -> writes (n ++ 58 :: 32 :: v) (n, v).
Proof.
  intros n v N A B [T C]. split; [|rewrite read_field_intro by assumption; now rewrite strip_space]. intros I. apply in_app_or in I as [I|I]; [tauto|]. destruct I as [I|[I|I]]; [discriminate|discriminate|tauto].
Qed.
Theorem C69_mail_sent_partial : forall c date e host from to body ty,
  m_host e = Some host -> m_from e = Some from -> m_to e = Some to -> m_body e = Some body -> m_type e = Some ty ->
  exists l text,
    (all_accepted c l -> send_mail c (bs "Date: " ++ date) e = Ret (Some (Some l))) /\
    (~ all_accepted c l -> send_mail c (bs "Date: " ++ date) e = Ret (Some None)) /\
    (** encrypted, and the certificate checked, unless the caller says otherwise *)
    last_of o_ssl l = (if m_tls e =? 0 then None else Some tt) /\
    (m_verify e <> 0 -> check_state true (last_of o_peer l) /\ check_state true (last_of o_host l)) /\
    last_of o_url l = Some (Some (bs "smtp" ++ (if m_tls e =? 0 then [] else bs "s") ++ bs "://" ++ host ++ bs ":" ++
                                  sdec (if m_port e =? 0 then if m_tls e =? 0 then 25 else 587 else m_port e))) /\
    (last_of o_user l, last_of o_password l) = match m_user e, m_password e with Some a, Some b => (Some a, Some b) | _, _ => (None, None) end /\
    (** the envelope *)
    last_of o_from l = Some from /\ last_of o_rcpt l = Some ([to] ++ olist (m_cc e) ++ olist (m_bcc e)) /\
    (** the message: these fields, none of them naming the hidden recipient, and the body *)
    last_of o_text l = Some text /\
    (word date -> word from -> word to -> word ty -> oall word (m_cc e) -> oall word (m_subject e) ->
     read_mail text = Some ([(bs "Date", date); (bs "To", to); (bs "From", from)] ++ match m_cc e with Some x => [(bs "Cc", x)] | None => [] end ++
                            [(bs "Subject", match m_subject e with Some s => s | None => [] end); (bs "Content-Type", ty)], body ++ eol)).
Proof.
  intros c date e host from to body ty H F T B Y. exists (mail_wanted e (bs "Date: " ++ date) host from to ty body), (mail_text e (bs "Date: " ++ date) from to ty body).
  rewrite (send_mail_wanted c (bs "Date: " ++ date) e host from to body ty H F T B Y).
  split; [intros A; now rewrite set_all_all|]. split; [intros A; now rewrite set_all_refused|].
  destruct (mail_rest e (bs "Date: " ++ date) host from to ty body) as (R1 & R2 & R3 & R4). destruct (mail_peer e (bs "Date: " ++ date) host from to ty body) as [P1 P2].
  rewrite mail_ssl, mail_auth, R1, R2, R3, R4, P1, P2. split; [reflexivity|]. split.
  { intros V. apply Z.eqb_neq in V. rewrite V. cbn [negb]. rewrite orb_true_r. split; reflexivity. }
  split; [reflexivity|]. split; [reflexivity|]. split; [reflexivity|]. split; [reflexivity|]. split; [reflexivity|].
  intros WD WF WT WY WC WS. set (subj := match m_subject e with Some s => s | None => [] end).
  assert (WS' : word subj) by (unfold subj; destruct (m_subject e); [exact WS|repeat split; cbn; lia]).
  set (cl := match m_cc e with Some x => [bs "Cc" ++ 58 :: 32 :: x] | None => [] end). set (cf := match m_cc e with Some x => [(bs "Cc", x)] | None => [] end).
  assert (W : Forall2 writes ([bs "Date" ++ 58 :: 32 :: date; bs "To" ++ 58 :: 32 :: to; bs "From" ++ 58 :: 32 :: from] ++ cl ++ [bs "Subject" ++ 58 :: 32 :: subj; bs "Content-Type" ++ 58 :: 32 :: ty])
                             ([(bs "Date", date); (bs "To", to); (bs "From", from)] ++ cf ++ [(bs "Subject", subj); (bs "Content-Type", ty)])).
  { assert (FW : forall n v, n <> [] -> forallb (fun c => negb (c =? 58) && negb (c =? 13)) n = true -> word v -> writes (n ++ 58 :: 32 :: v) (n, v)).
    { intros n v N Q V. rewrite forallb_forall in Q. apply field_writes; try assumption; intros I; apply Q in I; discriminate. }
    apply Forall2_app; [|apply Forall2_app].
    - repeat constructor; apply FW; try assumption; try discriminate; reflexivity.
    - unfold cl, cf. destruct (m_cc e); constructor; [apply FW; try assumption; try discriminate; reflexivity|constructor].
    - repeat constructor; apply FW; try assumption; try discriminate; reflexivity. }
  unfold read_mail. pose proof (read_fields_intro _ _ (body ++ eol) (S (length (mail_text e (bs "Date: " ++ date) from to ty body))) W) as RF.
  assert (TX : mail_text e (bs "Date: " ++ date) from to ty body = concat (map (fun l => l ++ eol) ([bs "Date" ++ 58 :: 32 :: date; bs "To" ++ 58 :: 32 :: to; bs "From" ++ 58 :: 32 :: from] ++ cl ++ [bs "Subject" ++ 58 :: 32 :: subj; bs "Content-Type" ++ 58 :: 32 :: ty])) ++ eol ++ body ++ eol).
  { unfold mail_text, cl. fold subj. clear. rewrite !map_app, !concat_app. destruct (m_cc e) as [x|]; cbn [map concat app]; rewrite <- ?app_assoc; reflexivity. }
  rewrite TX in RF |- *. apply RF. clear. match goal with |- (length ?ls < _)%nat => generalize ls end. intros ls. rewrite !app_length. assert (length ls <= length (concat (map (fun l => l ++ eol) ls)))%nat; [|unfold str in *; lia].
  induction ls as [|l ls IH]; [cbn; lia|]. cbn [map concat length]. rewrite !app_length. cbn [eol length]. unfold str in *. lia.
Qed.

Definition ex_mail : mail := mk_mail (Some (bs "mx")) 0 1 1 None None (Some (bs "a@x")) (Some (bs "b@x")) (Some (bs "c@x")) (Some (bs "d@x")) (Some (bs "text/plain")) (Some (bs "Hi")) (Some (bs "Hello")).
Example C69_example : exists l, send_mail yes (bs "Date: now") ex_mail = Ret (Some (Some l)) /\ last_of o_url l = Some (Some (bs "smtps://mx:587")) /\
  last_of o_rcpt l = Some [bs "b@x"; bs "c@x"; bs "d@x"] /\ last_of o_peer l = None /\
  option_map read_mail (last_of o_text l) = Some (Some ([(bs "Date", bs "now"); (bs "To", bs "b@x"); (bs "From", bs "a@x"); (bs "Cc", bs "c@x"); (bs "Subject", bs "Hi"); (bs "Content-Type", bs "text/plain")], bs "Hello" ++ eol)).
Proof. eexists. split; [vm_compute; reflexivity|]. repeat split; vm_compute; reflexivity. Qed.

(** A line break in the subject is not refused and adds a field of the sender's choice; a NULL content type goes to printf. *)
Definition ex_break : mail := mk_mail (Some (bs "mx")) 0 1 1 None None (Some (bs "a@x")) (Some (bs "b@x")) None None (Some (bs "text/plain")) (Some (bs "Hi" ++ [13; 10] ++ bs "Reply-To: z@x")) (Some (bs "Hello")).
Theorem C69_line_break_refuted : exists l text fields body, send_mail yes (bs "Date: now") ex_break = Ret (Some (Some l)) /\ last_of o_text l = Some text /\
  read_mail text = Some (fields, body) /\ In (bs "Reply-To", bs "z@x") fields.
Proof. eexists _, _, _, _. split; [vm_compute; reflexivity|]. split; [vm_compute; reflexivity|]. split; [vm_compute; reflexivity|]. vm_compute. tauto. Qed.
Theorem C69_no_type_refuted : exists e, m_host e <> None /\ m_from e <> None /\ m_to e <> None /\ m_body e <> None /\ send_mail yes (bs "Date: now") e = UB NullDeref.
Proof.
  exists (mk_mail (Some (bs "mx")) 0 1 1 None None (Some (bs "a@x")) (Some (bs "b@x")) None None None (Some (bs "Hi")) (Some (bs "Hello"))).
  repeat (split; [discriminate|]). vm_compute. reflexivity.
Qed.

Print Assumptions C65_options_faithful_partial. Print Assumptions C65_network_refuted. Print Assumptions C65_network_never_restricted.
Print Assumptions C66_query_sent_partial. Print Assumptions C66_fragment_refuted.
Print Assumptions C67_form_sent. Print Assumptions C67_body_sent. Print Assumptions C67_content_type_refuted.
Print Assumptions C68_headers_sent_partial. Print Assumptions C68_cookies_sent_partial. Print Assumptions C68_empty_header_refuted. Print Assumptions C68_line_break_refuted. Print Assumptions C68_cookies_refuted.
Print Assumptions C69_mail_sent_partial. Print Assumptions C69_line_break_refuted. Print Assumptions C69_no_type_refuted.
