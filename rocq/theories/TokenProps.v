(** C57, C77, C78 and C79: callbacks that check access tokens. *)
From Coq Require Import String ZArith Bool List Lia.
From Verif Require Import Base BaseFacts UMapModel UMapSpec SMap SMapCase NegoSpec SendProps StrModel StrProofs TokenModel TokenSpec TokenProofs.
From Verif Require NegoProofs ClientModel.
Import ListNotations.
Open Scope Z_scope.

(** ** C57: oauth2_bearer *)
Definition alive (now : Z) (j : json) : Prop := exists i e, amount j (bs "iat") i /\ amount j (bs "expires_in") e /\ now < i + e.
Definition username (j : json) : Prop := stated j (bs "username").
Lemma glewlwyd_named : forall j y, (exists x, glewlwyd_shared j (Some y) = Some x) <-> username j.
Proof.
  intros j y. unfold glewlwyd_shared, username, stated. destruct (jstr (jget (Some j) (bs "username"))) as [u|] eqn:E.
  - split; [|eauto]. intros _. exists u. now apply jstr_iff.
  - split; [intros (x & X); discriminate|]. intros (u & U). apply jstr_iff in U. congruence.
Qed.
(** the decision, for every configuration, request, token and time: CONTINUE exactly when the request presents a token that verifies with the configured algorithm,
    lives, has an accepted type and a subject, shares a piece of the scope - and has a username, which is more than is asked of a client token *)
Theorem C57_decision_partial : forall verify writes now c q r dh dp du ret r', request_is q dh dp du -> glewlwyd verify writes now (Some c) q r = Ret (ret, r') ->
  (ret = 0 <-> exists tok j, presented false (t_method c) dh dp du tok /\ verify tok = Some (t_alg c, Some j) /\ alive now j /\ subject c j (bs "username") (bs "client_id") /\ scoped piece (t_scope c) j /\ username j).
Proof.
  intros verify writes now c q r dh dp du ret r' RQ H.
  destruct (check_token_iff verify writes false false (glewlwyd_validity now) (fun _ => Some (JArr [])) glewlwyd_shared (fun c j => alive now j /\ subject c j (bs "username") (bs "client_id")) (glewlwyd_validity_iff now) username glewlwyd_named c q r dh dp du ret r' RQ H) as (A & _).
  rewrite A. unfold fine. split.
  - intros (j & (((tok & P & V) & (L & S) & SC & _) & U)). exists tok, j. auto 8.
  - intros (tok & j & P & V & L & S & SC & U). exists j. split; [|exact U]. split; [eauto|]. split; [auto|]. split; [exact SC|]. unfold kept_scope. destruct (t_scope c) as [[|]|]; [discriminate|exact I|discriminate].
Qed.
(** C57 for a configured scope written with single spaces *)
Theorem C57_only_valid_partial : forall verify writes now c q r dh dp du r', request_is q dh dp du -> glewlwyd verify writes now (Some c) q r = Ret (0, r') -> match t_scope c with Some s => tidy s | None => True end ->
  exists tok j, presented false (t_method c) dh dp du tok /\ verify tok = Some (t_alg c, Some j) /\ alive now j /\ subject c j (bs "username") (bs "client_id") /\ scoped word (t_scope c) j.
Proof.
  intros verify writes now c q r dh dp du r' RQ H T. destruct (proj1 (C57_decision_partial verify writes now c q r dh dp du 0 r' RQ H) eq_refl) as (tok & j & P & V & L & S & SC & _).
  exists tok, j. split; [exact P|]. split; [exact V|]. split; [exact L|]. split; [exact S|]. now apply scoped_tidy.
Qed.
(** what is handed to the next callbacks, and only then *)
Theorem C57_shared : forall verify writes now c q r dh dp du ret r', request_is q dh dp du -> glewlwyd verify writes now (Some c) q r = Ret (ret, r') ->
  (ret = 0 -> p_headers r' = p_headers r /\ exists tok j u x, verify tok = Some (t_alg c, Some j) /\ member j (bs "username") (JStr u) /\ p_shared r' = Some (JObj [(bs "username", JStr u); (bs "scope", x)]) /\
     match t_scope c with Some (_ :: _) => exists t l, member j (bs "scope") (JStr t) /\ x = JArr (map JStr l) /\ l <> [] /\ (forall w, In w l <-> piece (match t_scope c with Some s => s | None => [] end) w /\ piece t w) | _ => x = JArr [] end) /\
  (ret <> 0 -> ret = 3 /\ p_shared r' = p_shared r \/ ret = 4).
Proof.
  intros verify writes now c q r dh dp du ret r' RQ H.
  destruct (check_token_iff verify writes false false (glewlwyd_validity now) (fun _ => Some (JArr [])) glewlwyd_shared (fun c j => alive now j /\ subject c j (bs "username") (bs "client_id")) (glewlwyd_validity_iff now) username glewlwyd_named c q r dh dp du ret r' RQ H) as (A & _ & R & S & S3). split.
  - intros ->. destruct (S eq_refl) as (E & j & y & ((tok & P & V) & _) & AG & SH). split; [exact E|]. destruct (proj1 A eq_refl) as (j' & ((tok' & P' & V') & _) & (u & U)).
    pose proof (presented_fun false c q dh dp du tok tok' RQ P P') as <-. rewrite V in V'. injection V' as <-. exists tok, j, u, y. split; [exact V|]. split; [exact U|]. split.
    + rewrite SH. unfold glewlwyd_shared. apply jstr_iff in U. now rewrite U.
    + unfold agreed in AG. destruct (t_scope c) as [[|x s]|]; [congruence|exact AG|congruence].
  - intros N. destruct R as [R|[R|R]]; [contradiction|left; auto|now right].
Qed.
(** an answer is given, and a refusal says why, unless the lifetime overflows or the claim "scope" is missing *)
Theorem C57_answer_partial : forall verify writes now c q r dh dp du d, request_is q dh dp du -> repr (p_headers r) d -> (forall e, In e [e_scope; e_internal; e_invalid; e_missing] -> ovalue_ok (Some (complaint (t_realm c) e))) ->
  (forall tok j, presented false (t_method c) dh dp du tok -> verify tok = Some (t_alg c, Some j) ->
     (forall i e, amount j (bs "iat") i -> amount j (bs "expires_in") e -> -9223372036854775808 <= i + e < 9223372036854775808) /\ (writes = true \/ stated j (bs "scope"))) ->
  exists ret r', glewlwyd verify writes now (Some c) q r = Ret (ret, r') /\
    (ret = 3 -> exists e, In e [e_scope; e_internal; e_invalid; e_missing] /\ repr (p_headers r') (sput (bs "WWW-Authenticate") (Some (complaint (t_realm c) e)) d)).
Proof.
  intros verify writes now c q r dh dp du d RQ R RE T. apply (check_token_total verify writes false false (glewlwyd_validity now) (fun _ => Some (JArr [])) glewlwyd_shared c q r dh dp du d RQ R RE).
  intros tok j P V. destruct (T tok j P V) as [L W]. split; [|exact W]. unfold glewlwyd_validity, add_int. specialize (L _ _ (proj1 (jint_iff j (bs "iat") _) eq_refl) (proj1 (jint_iff j (bs "expires_in") _) eq_refl)).
  cbv zeta. replace (-9223372036854775808 <=? _) with true by (symmetry; apply Z.leb_le; lia). replace (_ <? 9223372036854775808) with true by (symmetry; apply Z.ltb_lt; lia). cbn [andb bind]. eauto.
Qed.

(** examples *)
Definition ex_claims : json := JObj [(bs "iat", JInt 1000); (bs "expires_in", JInt 600); (bs "type", JStr (bs "access_token")); (bs "username", JStr (bs "ann")); (bs "scope", JStr (bs "read write"))].
Definition ex_verify (j : json) (tok : str) : option (Z * option json) := if str_eqb tok (bs "abc") then Some (7, Some j) else None.
Definition ex_cfg : tconfig := mk_tconfig 0 (Some (bs "admin write")) 7 (Some (bs "site")) true true.
Definition ex_dh : smap := [(bs "authorization", Some (bs "Bearer abc"))].
Definition ex_q : trequest := mk_trequest (map_of ex_dh) u_map_init u_map_init (Some (bs "GET")) (Some (bs "/x")).
Definition ex_r : tresponse := mk_tresponse u_map_init None.
Lemma ex_request : request_is ex_q ex_dh [] [].
Proof. split; [exact (repr_map_of ex_dh eq_refl)|split; apply repr_init]. Qed.
Example C57_holds : glewlwyd (ex_verify ex_claims) false 1599 (Some ex_cfg) ex_q ex_r = Ret (0, mk_tresponse u_map_init (Some (JObj [(bs "username", JStr (bs "ann")); (bs "scope", JArr [JStr (bs "write")])]))) /\
  tidy (bs "admin write") /\
  match glewlwyd (ex_verify ex_claims) false 1600 (Some ex_cfg) ex_q ex_r with Ret (3, r) => get_str (p_headers r) (bs "WWW-Authenticate") = Ret (Some (bs "Bearer realm=site," ++ e_internal)) | _ => False end.
Proof. split; [vm_compute; reflexivity|]. split; [|vm_compute; reflexivity]. unfold tidy. rewrite piece_iff. intros X. cbn in X. intuition discriminate. Qed.

(** the complaint names the reason: no token, a token that is not signed as it must, one that is signed but not acceptable, one without any of the scopes *)
Theorem C57_reason : forall verify writes now c q r dh dp du d, request_is q dh dp du -> repr (p_headers r) d -> (forall e, In e [e_scope; e_internal; e_invalid; e_missing] -> ovalue_ok (Some (complaint (t_realm c) e))) ->
  let complains e := exists r', glewlwyd verify writes now (Some c) q r = Ret (3, r') /\ repr (p_headers r') (sput (bs "WWW-Authenticate") (Some (bs "Bearer " ++ match t_realm c with Some x => bs "realm=" ++ x ++ bs "," | None => [] end ++ e)) d) in
  ((forall tok, ~ presented false (t_method c) dh dp du tok) -> complains (bs "error=""invalid_token"",error_description=""The access token is missing""")) /\
  (forall tok, presented false (t_method c) dh dp du tok -> (forall j, verify tok <> Some (t_alg c, Some j)) -> complains (bs "error=""invalid_request"",error_description=""The access token is invalid""")) /\
  (forall tok j v, presented false (t_method c) dh dp du tok -> verify tok = Some (t_alg c, Some j) -> glewlwyd_validity now c j = Ret v ->
     (~ (alive now j /\ subject c j (bs "username") (bs "client_id")) -> complains (bs "error=""invalid_request"",error_description=""Internal server error""")) /\
     (alive now j /\ subject c j (bs "username") (bs "client_id") -> forall s t, t_scope c = Some s -> s <> [] -> member j (bs "scope") (JStr t) -> (forall w, ~ (piece s w /\ piece t w)) -> complains (bs "error=""insufficient_scope"",error_description=""The scope is invalid"""))).
Proof.
  intros verify writes now c q r dh dp du d RQ R RE. exact (check_token_reason verify writes false false (glewlwyd_validity now) (fun _ => Some (JArr [])) glewlwyd_shared
    (fun c j => alive now j /\ subject c j (bs "username") (bs "client_id")) (glewlwyd_validity_iff now) c q r dh dp du d RQ R RE).
Qed.
(** C57 fails: two spaces in a row are an empty scope, which both lists then share *)
Theorem C57_empty_scope_refuted : exists verify now c q r r' dh, request_is q dh [] [] /\ glewlwyd verify false now (Some c) q r = Ret (0, r') /\
  forall tok j, verify tok = Some (t_alg c, Some j) -> ~ scoped word (t_scope c) j.
Proof.
  exists (ex_verify (JObj [(bs "iat", JInt 1000); (bs "expires_in", JInt 600); (bs "type", JStr (bs "access_token")); (bs "username", JStr (bs "ann")); (bs "scope", JStr (bs "read "))])), 1000,
    (mk_tconfig 0 (Some (bs "admin  write")) 7 None true true), ex_q, ex_r. eexists _, ex_dh. split; [exact ex_request|]. split; [vm_compute; reflexivity|].
  intros tok j V. unfold ex_verify in V. destruct (str_eqb tok (bs "abc")); [|discriminate]. injection V as <-. intros (t & w & M & [P N] & [Q _]). apply jget_iff in M. assert (E : t = bs "read ") by (vm_compute in M; injection M as <-; reflexivity). subst t.
  apply piece_iff in P, Q. vm_compute in P, Q. destruct P as [<-|[<-|[]]]; [|congruence]. intuition discriminate.
Qed.
(** a token without a lifetime is accepted when its date is in the future *)
Theorem C57_no_lifetime_refuted : exists verify now c q r r' dh, request_is q dh [] [] /\ glewlwyd verify false now (Some c) q r = Ret (0, r') /\
  forall tok j, verify tok = Some (t_alg c, Some j) -> forall v, ~ member j (bs "expires_in") v.
Proof.
  exists (ex_verify (JObj [(bs "iat", JInt 9000); (bs "type", JStr (bs "access_token")); (bs "username", JStr (bs "ann")); (bs "scope", JStr (bs "write"))])), 1000, ex_cfg, ex_q, ex_r. eexists _, ex_dh.
  split; [exact ex_request|]. split; [vm_compute; reflexivity|]. intros tok j V v M. unfold ex_verify in V. destruct (str_eqb tok (bs "abc")); [|discriminate]. injection V as <-. apply jget_iff in M. vm_compute in M. discriminate.
Qed.
(** a client token, which has no username, is never accepted although it fulfils every condition *)
Theorem C57_client_refuted : forall verify writes now c q r dh dp du ret r' tok j, request_is q dh dp du -> glewlwyd verify writes now (Some c) q r = Ret (ret, r') ->
  presented false (t_method c) dh dp du tok -> verify tok = Some (t_alg c, Some j) -> alive now j -> subject c j (bs "username") (bs "client_id") -> scoped word (t_scope c) j -> ~ username j -> ret = 4.
Proof.
  intros verify writes now c q r dh dp du ret r' tok j RQ H P V L S SC U.
  destruct (check_token_iff verify writes false false (glewlwyd_validity now) (fun _ => Some (JArr [])) glewlwyd_shared (fun c j => alive now j /\ subject c j (bs "username") (bs "client_id")) (glewlwyd_validity_iff now) username glewlwyd_named c q r dh dp du ret r' RQ H) as (_ & A & _).
  apply A. exists j. split; [|exact U]. split; [eauto|]. split; [auto|]. split.
  - unfold scoped in *. destruct (t_scope c) as [[|x s]|]; auto. destruct SC as (t & w & M & [P1 _] & [P2 _]). eauto.
  - unfold kept_scope. destruct (t_scope c) as [[|]|]; [discriminate|exact I|discriminate].
Qed.
Definition ex_client : json := JObj [(bs "iat", JInt 1000); (bs "expires_in", JInt 600); (bs "type", JStr (bs "client_token")); (bs "client_id", JStr (bs "app")); (bs "scope", JStr (bs "write"))].
Example C57_client_holds : glewlwyd (ex_verify ex_client) false 1000 (Some ex_cfg) ex_q ex_r = Ret (4, ex_r) /\ alive 1000 ex_client /\ subject ex_cfg ex_client (bs "username") (bs "client_id").
Proof.
  split; [vm_compute; reflexivity|]. split; [exists 1000, 600; repeat split; [left; apply jget_iff; reflexivity|left; apply jget_iff; reflexivity]|]. right. split; [reflexivity|]. split; [apply jget_iff; reflexivity|].
  exists (bs "app"). split; [apply jget_iff; reflexivity|discriminate].
Qed.
(** undefined behaviour from the content of a verified token: a missing scope frees an uninitialised pointer (unless split_string sets it), a lifetime overflows *)
Theorem C57_no_scope_refuted : exists verify now c q r, glewlwyd verify false now (Some c) q r = UB Uninit /\ t_scope c = None.
Proof.
  exists (ex_verify (JObj [(bs "iat", JInt 1000); (bs "expires_in", JInt 600); (bs "type", JStr (bs "access_token")); (bs "username", JStr (bs "ann"))])), 1000, (mk_tconfig 0 None 7 None true true), ex_q, ex_r. split; vm_compute; reflexivity.
Qed.
Theorem C57_overflow_refuted : exists verify now c q r, glewlwyd verify true now (Some c) q r = UB Overflow.
Proof. exists (ex_verify (JObj [(bs "iat", JInt 9223372036854775807); (bs "expires_in", JInt 1)])), 1000, ex_cfg, ex_q, ex_r. vm_compute. reflexivity. Qed.

(** ** C77: jwt_profile *)
Definition sub (j : json) : Prop := stated j (bs "sub").
Definition unexpired (now : Z) (j : json) : Prop := exists e, amount j (bs "exp") e /\ now < e.
Lemma oidc_named : forall j y, (exists x, oidc_shared j (Some y) = Some x) <-> sub j.
Proof.
  intros j y. unfold oidc_shared, sub, stated. destruct (jstr (jget (Some j) (bs "sub"))) as [u|] eqn:E.
  - split; [|eauto]. intros _. exists u. now apply jstr_iff.
  - split; [intros (x & X); discriminate|]. intros (u & U). apply jstr_iff in U. congruence.
Qed.
Theorem C77_decision_partial : forall verify writes now c q r dh dp du ret r', request_is q dh dp du -> oidc verify writes now (Some c) q r = Ret (ret, r') ->
  (ret = 0 <-> exists tok j, presented true (t_method c) dh dp du tok /\ verify tok = Some (t_alg c, Some j) /\ unexpired now j /\ subject c j (bs "sub") (bs "aud") /\ scoped piece (t_scope c) j /\
     match t_scope c with Some (_ :: _) => True | _ => exists v, member j (bs "scope") v end /\ sub j).
Proof.
  intros verify writes now c q r dh dp du ret r' RQ H.
  destruct (check_token_iff verify writes true true (oidc_validity now) (fun claims => jget (Some claims) (bs "scope")) oidc_shared (fun c j => unexpired now j /\ subject c j (bs "sub") (bs "aud")) (oidc_validity_iff now) sub oidc_named c q r dh dp du ret r' RQ H) as (A & _).
  assert (K : forall j, kept_scope (fun claims => jget (Some claims) (bs "scope")) (t_scope c) j <-> match t_scope c with Some (_ :: _) => True | _ => exists v, member j (bs "scope") v end).
  { intros j. assert (G : jget (Some j) (bs "scope") <> None <-> exists v, member j (bs "scope") v).
    { destruct (jget (Some j) (bs "scope")) as [v|] eqn:E; [split; [intros _; exists v; now apply jget_iff|discriminate]|]. split; [congruence|]. intros (v & M). apply jget_iff in M. congruence. }
    unfold kept_scope. destruct (t_scope c) as [[|]|]; [exact G|tauto|exact G]. }
  rewrite A. unfold fine. split.
  - intros (j & (((tok & P & V) & (L & S) & SC & KS) & U)). apply K in KS. exists tok, j. auto 10.
  - intros (tok & j & P & V & L & S & SC & KS & U). apply K in KS. exists j. split; [|exact U]. split; [eauto|]. auto.
Qed.
(** a token whose header names a key is only accepted if that key is one of the configuration and verifies it; the default key is for tokens without a name *)
Theorem C77_key : forall (K : Type) parse key default signed writes now c q r dh dp du r', request_is q dh dp du -> oidc (@by_key K parse key default signed) writes now (Some c) q r = Ret (0, r') ->
  exists tok j, presented true (t_method c) dh dp du tok /\
    ((exists kid k, parse tok = Some (Some kid) /\ key kid = Some k /\ signed tok (Some k) = Some (t_alg c, Some j)) \/ parse tok = Some None /\ signed tok default = Some (t_alg c, Some j)) /\
    unexpired now j /\ subject c j (bs "sub") (bs "aud") /\ (match t_scope c with Some s => tidy s | None => True end -> scoped word (t_scope c) j).
Proof.
  intros K parse key default signed writes now c q r dh dp du r' RQ H. destruct (proj1 (C77_decision_partial _ _ _ _ _ _ _ _ _ _ _ RQ H) eq_refl) as (tok & j & P & V & L & S & SC & _). exists tok, j. split; [exact P|]. split.
  - unfold by_key in V. destruct (parse tok) as [[kid|]|]; [|auto|discriminate]. left. destruct (key kid) as [k|] eqn:KK; [|discriminate]. eauto.
  - split; [exact L|]. split; [exact S|]. intros T. now apply scoped_tidy.
Qed.
Theorem C77_answer_partial : forall verify writes now c q r dh dp du d, request_is q dh dp du -> repr (p_headers r) d -> (forall e, In e [e_scope; e_internal; e_invalid; e_missing] -> ovalue_ok (Some (complaint (t_realm c) e))) ->
  (forall tok j, presented true (t_method c) dh dp du tok -> verify tok = Some (t_alg c, Some j) -> writes = true \/ stated j (bs "scope")) ->
  exists ret r', oidc verify writes now (Some c) q r = Ret (ret, r') /\
    (ret = 3 -> exists e, In e [e_scope; e_internal; e_invalid; e_missing] /\ repr (p_headers r') (sput (bs "WWW-Authenticate") (Some (complaint (t_realm c) e)) d)).
Proof.
  intros verify writes now c q r dh dp du d RQ R RE T. apply (check_token_total verify writes true true (oidc_validity now) (fun claims => jget (Some claims) (bs "scope")) oidc_shared c q r dh dp du d RQ R RE).
  intros tok j P V. split; [unfold oidc_validity; eauto|eauto].
Qed.
Theorem C77_reason : forall verify writes now c q r dh dp du d, request_is q dh dp du -> repr (p_headers r) d -> (forall e, In e [e_scope; e_internal; e_invalid; e_missing] -> ovalue_ok (Some (complaint (t_realm c) e))) ->
  let complains e := exists r', oidc verify writes now (Some c) q r = Ret (3, r') /\ repr (p_headers r') (sput (bs "WWW-Authenticate") (Some (bs "Bearer " ++ match t_realm c with Some x => bs "realm=" ++ x ++ bs "," | None => [] end ++ e)) d) in
  ((forall tok, ~ presented true (t_method c) dh dp du tok) -> complains (bs "error=""invalid_token"",error_description=""The access token is missing""")) /\
  (forall tok, presented true (t_method c) dh dp du tok -> (forall j, verify tok <> Some (t_alg c, Some j)) -> complains (bs "error=""invalid_request"",error_description=""The access token is invalid""")) /\
  (forall tok j v, presented true (t_method c) dh dp du tok -> verify tok = Some (t_alg c, Some j) -> oidc_validity now c j = Ret v ->
     (~ (unexpired now j /\ subject c j (bs "sub") (bs "aud")) -> complains (bs "error=""invalid_request"",error_description=""Internal server error""")) /\
     (unexpired now j /\ subject c j (bs "sub") (bs "aud") -> forall s t, t_scope c = Some s -> s <> [] -> member j (bs "scope") (JStr t) -> (forall w, ~ (piece s w /\ piece t w)) -> complains (bs "error=""insufficient_scope"",error_description=""The scope is invalid"""))).
Proof.
  intros verify writes now c q r dh dp du d RQ R RE. exact (check_token_reason verify writes true true (oidc_validity now) (fun claims => jget (Some claims) (bs "scope")) oidc_shared
    (fun c j => unexpired now j /\ subject c j (bs "sub") (bs "aud")) (oidc_validity_iff now) c q r dh dp du d RQ R RE).
Qed.
Definition ex_oidc : json := JObj [(bs "exp", JInt 2000); (bs "type", JStr (bs "access_token")); (bs "sub", JStr (bs "ann")); (bs "scope", JStr (bs "read write")); (bs "aud", JStr (bs "app"))].
Definition ex_keyed := @by_key Z (fun t => if str_eqb t (bs "abc") then Some (Some (bs "k1")) else None) (fun k => if str_eqb k (bs "k1") then Some 1 else None) None (fun _ k => if match k with Some 1 => true | _ => false end then Some (7, Some ex_oidc) else None).
Example C77_holds : oidc ex_keyed false 1999 (Some ex_cfg) ex_q ex_r = Ret (0, mk_tresponse u_map_init (Some (JObj [(bs "sub", JStr (bs "ann")); (bs "scope", JArr [JStr (bs "write")]); (bs "aud", JStr (bs "app"))]))) /\
  match oidc ex_keyed false 2000 (Some ex_cfg) ex_q ex_r with Ret (3, _) => True | _ => False end.
Proof. split; [vm_compute; reflexivity|vm_compute; exact I]. Qed.
(** the shared data of an earlier callback is lost when the token has no "sub" *)
Theorem C77_client_refuted : exists verify now c q r, p_shared r = Some JNull /\ oidc verify true now (Some c) q r = Ret (4, mk_tresponse (p_headers r) None).
Proof.
  exists (ex_verify (JObj [(bs "exp", JInt 2000); (bs "type", JStr (bs "client_token")); (bs "aud", JStr (bs "app")); (bs "scope", JStr (bs "write"))])), 1000, ex_cfg, ex_q, (mk_tresponse u_map_init (Some JNull)). split; vm_compute; reflexivity.
Qed.

(** ** C78: proofs of possession *)
Section Dpop.
Variables (parse : str -> option proof) (import : option json -> bool) (thumbprint : json -> option str).
Definition text_claim (v : option str) (j : json) (k : str) : Prop := match v with Some s => member j k (JStr s) | None => forall s, ~ member j k (JStr s) end.
Lemma ostr_jstr : forall v j k, ostr_eqb v (jstr (jget (Some j) k)) = true <-> text_claim v j k.
Proof.
  intros v j k. unfold text_claim. destruct v as [s|].
  - rewrite <- jstr_iff. destruct (jstr (jget (Some j) k)) as [t|]; cbn [ostr_eqb]; [rewrite str_eqb_eq; split; congruence|split; discriminate].
  - destruct (jstr (jget (Some j) k)) as [t|] eqn:E; cbn [ostr_eqb]; [split; [discriminate|intros H; apply jstr_iff in E; now apply H in E]|]. split; [|reflexivity]. intros _ s M. apply jstr_iff in M. congruence.
Qed.
(** a proof is accepted exactly when it is a DPoP token signed by the key in its header with an asymmetric algorithm, for this method and URL, made within max_iat seconds,
    and the key is the one the token is bound to *)
Theorem C78_proof : forall now header htm htu max_iat jkt res, verify_dpop parse import thumbprint now header htm htu max_iat jkt = Ret res -> forall jh jc,
  res = DGood jh jc <-> exists h p key i, header = Some h /\ parse h = Some p /\ jh = d_header p /\ jc = d_claims p /\ d_verified p = true /\ d_alg p <> OtherAlg /\ member jh (bs "typ") (JStr (bs "dpop+jwt")) /\
    (forall v, ~ member jh (bs "x5c") v) /\ (forall v, ~ member jh (bs "x5u") v) /\ member jh (bs "jwk") key /\ import (Some key) = true /\ nonempty jc (bs "jti") /\ text_claim htm jc (bs "htm") /\ text_claim htu jc (bs "htu") /\
    amount jc (bs "iat") i /\ i <= now <= i + max_iat /\ exists t, thumbprint key = Some t /\ jkt = Some t.
Proof.
  intros now header htm htu max_iat jkt res H jh jc. unfold verify_dpop in H. destruct header as [h|]; [|apply Ret_inj in H; subst res; split; [discriminate|]; intros (h & p & key & i & E & _); discriminate].
  destruct (parse h) as [p|] eqn:PH; [|apply Ret_inj in H; subst res; split; [discriminate|]; intros (h' & p & key & i & E & P & _); congruence].
  assert (NO : forall P : Prop, res <> DGood jh jc -> (forall key i, jh = d_header p -> jc = d_claims p -> d_verified p = true -> d_alg p <> OtherAlg -> member jh (bs "typ") (JStr (bs "dpop+jwt")) ->
     (forall v, ~ member jh (bs "x5c") v) -> (forall v, ~ member jh (bs "x5u") v) -> member jh (bs "jwk") key -> import (Some key) = true -> nonempty jc (bs "jti") -> text_claim htm jc (bs "htm") -> text_claim htu jc (bs "htu") ->
     amount jc (bs "iat") i -> i <= now <= i + max_iat -> (exists t, thumbprint key = Some t /\ jkt = Some t) -> False) ->
     res = DGood jh jc <-> exists h0 p key i, Some h = Some h0 /\ parse h0 = Some p /\ jh = d_header p /\ jc = d_claims p /\ d_verified p = true /\ d_alg p <> OtherAlg /\ member jh (bs "typ") (JStr (bs "dpop+jwt")) /\
    (forall v, ~ member jh (bs "x5c") v) /\ (forall v, ~ member jh (bs "x5u") v) /\ member jh (bs "jwk") key /\ import (Some key) = true /\ nonempty jc (bs "jti") /\ text_claim htm jc (bs "htm") /\ text_claim htu jc (bs "htu") /\
    amount jc (bs "iat") i /\ i <= now <= i + max_iat /\ exists t, thumbprint key = Some t /\ jkt = Some t).
  { intros _ N F. split; [contradiction|]. intros (h0 & p0 & key & i & E & P & A1 & A2 & A3 & A4 & A5 & A6 & A7 & A8 & A9 & B1 & B2 & B3 & B4 & B5 & B6). injection E as <-. rewrite PH in P. injection P as <-. exfalso. now apply (F key i). }
  cbv zeta in H.
  destruct (d_verified p) eqn:D1; [|apply Ret_inj in H; subst res; apply (NO True); [discriminate|congruence]]. cbn [negb] in H.
  destruct (ostr_eqb (Some (bs "dpop+jwt")) (jstr (jget (Some (d_header p)) (bs "typ")))) eqn:D2.
  2:{ apply Ret_inj in H; subst res; apply (NO True); [discriminate|]. intros key i -> _ _ _ M. apply (ostr_jstr (Some (bs "dpop+jwt"))) in M. congruence. }
  cbn [negb] in H. destruct (allowed_alg (d_alg p)) eqn:D3.
  2:{ apply Ret_inj in H; subst res; apply (NO True); [discriminate|]. intros key i _ _ _ M. destruct (d_alg p); try discriminate. congruence. }
  cbn [negb] in H. destruct (jget (Some (d_header p)) (bs "x5c")) as [v|] eqn:X1.
  { apply Ret_inj in H; subst res; apply (NO True); [discriminate|]. intros key i -> _ _ _ _ M. apply jget_iff in X1. now apply M in X1. }
  destruct (jget (Some (d_header p)) (bs "x5u")) as [v|] eqn:X2.
  { apply Ret_inj in H; subst res; apply (NO True); [discriminate|]. intros key i -> _ _ _ _ _ M. apply jget_iff in X2. now apply M in X2. }
  destruct (import (jget (Some (d_header p)) (bs "jwk"))) eqn:D4.
  2:{ apply Ret_inj in H; subst res; apply (NO True); [discriminate|]. intros key i -> _ _ _ _ _ _ M IM. apply jget_iff in M. rewrite M in D4. congruence. }
  cbn [negb] in H. destruct (jstr (jget (Some (d_claims p)) (bs "jti"))) as [[|z jti]|] eqn:D5.
  1:{ apply Ret_inj in H; subst res; apply (NO True); [discriminate|]. intros key i _ -> _ _ _ _ _ _ _ (s & M & N). apply jstr_iff in M. congruence. }
  2:{ apply Ret_inj in H; subst res; apply (NO True); [discriminate|]. intros key i _ -> _ _ _ _ _ _ _ (s & M & N). apply jstr_iff in M. congruence. }
  destruct (ostr_eqb htm (jstr (jget (Some (d_claims p)) (bs "htm")))) eqn:D6.
  2:{ apply Ret_inj in H; subst res; apply (NO True); [discriminate|]. intros key i _ -> _ _ _ _ _ _ _ _ M. apply ostr_jstr in M. congruence. }
  cbn [negb] in H. destruct (ostr_eqb htu (jstr (jget (Some (d_claims p)) (bs "htu")))) eqn:D7.
  2:{ apply Ret_inj in H; subst res; apply (NO True); [discriminate|]. intros key i _ -> _ _ _ _ _ _ _ _ _ M. apply ostr_jstr in M. congruence. }
  cbn [negb] in H. set (iat := jint (jget (Some (d_claims p)) (bs "iat"))) in *.
  assert (AM : forall i, amount (d_claims p) (bs "iat") i -> i = iat) by (intros i A; apply jint_iff in A; unfold iat; congruence).
  destruct (now <? iat) eqn:T1.
  { cbn [bind] in H. apply Ret_inj in H; subst res; apply (NO True); [discriminate|]. intros key i _ -> _ _ _ _ _ _ _ _ _ _ A L. apply AM in A. apply Z.ltb_lt in T1. lia. }
  destruct (add_int iat max_iat) as [e|] eqn:AE; [|discriminate]. apply add_int_inv in AE. cbn [bind] in H. destruct (e <? now) eqn:T2.
  { apply Ret_inj in H; subst res; apply (NO True); [discriminate|]. intros key i _ -> _ _ _ _ _ _ _ _ _ _ A L. apply AM in A. apply Z.ltb_lt in T2. lia. }
  destruct (jget (Some (d_header p)) (bs "jwk")) as [key|] eqn:K.
  2:{ apply Ret_inj in H; subst res; apply (NO True); [discriminate|]. intros key i -> _ _ _ _ _ _ M. apply jget_iff in M. congruence. }
  destruct (thumbprint key) as [t|] eqn:TH.
  2:{ apply Ret_inj in H; subst res; apply (NO True); [discriminate|]. intros key' i -> _ _ _ _ _ _ M _ _ _ _ _ _ (t & A & _). apply jget_iff in M. congruence. }
  destruct (ostr_eqb jkt (Some t)) eqn:D8.
  2:{ apply Ret_inj in H; subst res; apply (NO True); [discriminate|]. intros key' i -> _ _ _ _ _ _ M _ _ _ _ _ _ (t' & A & ->). apply jget_iff in M. rewrite M in K. injection K as <-. rewrite A in TH. injection TH as <-. cbn [ostr_eqb] in D8. rewrite str_eqb_refl in D8. discriminate. }
  cbn [negb] in H. apply Ret_inj in H. subst res. split.
  - intros E. injection E as <- <-. exists h, p, key, iat. apply Z.ltb_ge in T1, T2. split; [reflexivity|]. split; [exact PH|]. split; [reflexivity|]. split; [reflexivity|]. split; [exact D1|].
    split; [intros E; rewrite E in D3; discriminate|]. split; [now apply (ostr_jstr (Some (bs "dpop+jwt")))|]. split; [intros v M; apply jget_iff in M; congruence|]. split; [intros v M; apply jget_iff in M; congruence|].
    split; [now apply jget_iff|]. split; [exact D4|]. split; [exists (z :: jti); split; [now apply jstr_iff|discriminate]|]. split; [now apply ostr_jstr|]. split; [now apply ostr_jstr|].
    split; [now apply jint_iff|]. split; [lia|]. exists t. split; [exact TH|]. destruct jkt as [k|]; [|discriminate]. cbn [ostr_eqb] in D8. apply str_eqb_eq in D8. congruence.
  - intros (h0 & p0 & key' & i & E & P & -> & -> & _). injection E as <-. rewrite PH in P. injection P as <-. reflexivity.
Qed.
End Dpop.
Definition ex_proof : proof := mk_proof true ES256 (JObj [(bs "typ", JStr (bs "dpop+jwt")); (bs "jwk", JObj [(bs "kty", JStr (bs "EC"))])]) (JObj [(bs "jti", JStr (bs "1")); (bs "htm", JStr (bs "GET")); (bs "htu", JStr (bs "https://h/x")); (bs "iat", JInt 100)]).
Example C78_holds : verify_dpop (fun _ => Some ex_proof) (fun j => match j with Some _ => true | None => false end) (fun _ => Some (bs "tp")) 160 (Some (bs "x")) (Some (bs "GET")) (Some (bs "https://h/x")) 60 (Some (bs "tp")) = Ret (DGood (d_header ex_proof) (d_claims ex_proof)) /\
  verify_dpop (fun _ => Some ex_proof) (fun j => match j with Some _ => true | None => false end) (fun _ => Some (bs "tp")) 161 (Some (bs "x")) (Some (bs "GET")) (Some (bs "https://h/x")) 60 (Some (bs "tp")) = Ret (DBad 4).
Proof. split; vm_compute; reflexivity. Qed.

(** ** C79: iddawc_jwt_profile *)
Lemma jkt_iff : forall j v, jget (jget (Some j) (bs "cnf")) (bs "jkt") = Some v <-> bound j v.
Proof.
  intros j v. unfold bound. destruct (jget (Some j) (bs "cnf")) as [k|] eqn:E.
  - rewrite jget_iff. split; [intros M; exists k; split; [now apply jget_iff|exact M]|]. intros (k' & M & N). apply jget_iff in M. rewrite M in E. injection E as <-. exact N.
  - split; [discriminate|]. intros (k' & M & _). apply jget_iff in M. congruence.
Qed.
(** the data handed on by the JWT profile callback: the subject, the granted scopes, the key the token is bound to, and the audience, client and claims of the token *)
Lemma oidc_members : forall j y x, oidc_shared j (Some y) = Some x ->
  (forall u, member x (bs "sub") (JStr u) <-> member j (bs "sub") (JStr u)) /\ member x (bs "scope") y /\ (forall v, member x (bs "jkt") v <-> bound j v) /\
  (forall k v, In k [bs "aud"; bs "client_id"; bs "claims"] -> member x k v <-> member j k v).
Proof.
  intros j y x H. unfold oidc_shared in H. destruct (jstr (jget (Some j) (bs "sub"))) as [u|] eqn:U; [|discriminate]. assert (SI : forall a b : json, Some a = Some b -> a = b) by (intros a b HH; congruence). apply SI in H. subst x. apply jstr_iff in U.
  split; [|split; [|split]].
  - intros u'. split.
    + intros M. apply jget_iff in M. cbn in M. injection M as <-. exact U.
    + intros M. pose proof (member_fun _ _ _ _ U M) as X. injection X as <-. apply jget_iff. reflexivity.
  - apply jget_iff. reflexivity.
  - intros v. rewrite <- jget_iff, <- jkt_iff. unfold kept. destruct (jget (jget (Some j) (bs "cnf")) (bs "jkt")) as [w|]; [reflexivity|].
    destruct (jget (Some j) (bs "aud")), (jget (Some j) (bs "client_id")), (jget (Some j) (bs "claims")); cbn; split; discriminate.
  - intros k v IN. rewrite <- !jget_iff. unfold kept. destruct (jget (jget (Some j) (bs "cnf")) (bs "jkt")) as [w|];
    destruct IN as [<-|[<-|[<-|[]]]]; destruct (jget (Some j) (bs "aud")) eqn:E1, (jget (Some j) (bs "client_id")) eqn:E2, (jget (Some j) (bs "claims")) eqn:E3; cbn -[jget] ; cbn; rewrite ?E1, ?E2, ?E3; reflexivity.
Qed.
Theorem C77_shared : forall verify writes now c q r dh dp du ret r', request_is q dh dp du -> oidc verify writes now (Some c) q r = Ret (ret, r') ->
  (ret = 0 -> p_headers r' = p_headers r /\ exists tok j x, presented true (t_method c) dh dp du tok /\ verify tok = Some (t_alg c, Some j) /\ p_shared r' = Some x /\
     (forall u, member x (bs "sub") (JStr u) <-> member j (bs "sub") (JStr u)) /\ (forall v, member x (bs "jkt") v <-> bound j v) /\
     (forall k v, In k [bs "aud"; bs "client_id"; bs "claims"] -> member x k v <-> member j k v) /\
     match t_scope c with
     | Some (a :: s) => exists t l, member j (bs "scope") (JStr t) /\ member x (bs "scope") (JArr (map JStr l)) /\ l <> [] /\ (forall w, In w l <-> piece (a :: s) w /\ piece t w)
     | _ => forall v, member x (bs "scope") v <-> member j (bs "scope") v
     end) /\
  (ret = 3 -> p_shared r' = p_shared r) /\ (ret = 0 \/ ret = 3 \/ ret = 4).
Proof.
  intros verify writes now c q r dh dp du ret r' RQ H.
  destruct (check_token_iff verify writes true true (oidc_validity now) (fun claims => jget (Some claims) (bs "scope")) oidc_shared (fun c j => unexpired now j /\ subject c j (bs "sub") (bs "aud")) (oidc_validity_iff now) sub oidc_named c q r dh dp du ret r' RQ H) as (A & B & C & S & T).
  split; [|auto]. intros ->. destruct (S eq_refl) as (E & j & y & F & AG & SH). split; [exact E|]. destruct F as ((tok & P & V) & _).
  destruct (proj1 A eq_refl) as (j' & ((tok' & P' & V') & _) & N). pose proof (presented_fun true c q dh dp du tok tok' RQ P P') as <-. rewrite V in V'. injection V' as <-.
  destruct (proj2 (oidc_named j y) N) as (x & X). destruct (oidc_members j y x X) as (M1 & M2 & M3 & M4). rewrite X in SH. exists tok, j, x. do 6 (split; [assumption|]).
  unfold agreed in AG. destruct (t_scope c) as [[|a s]|].
  - intros v. apply jget_iff in AG. split; intros M; [pose proof (member_fun _ _ _ _ M2 M) as <-|pose proof (member_fun _ _ _ _ AG M) as <-]; auto.
  - destruct AG as (t & l & Q1 & -> & Q3 & Q4). exists t, l. auto.
  - intros v. apply jget_iff in AG. split; intros M; [pose proof (member_fun _ _ _ _ M2 M) as <-|pose proof (member_fun _ _ _ _ AG M) as <-]; auto.
Qed.
Lemma caseval_eq : forall d k, NegoProofs.caseval d k = sval_case d k.
Proof.
  intros d k. unfold NegoProofs.caseval, sval_case. replace (find (fun p : str * option str => str_caseeqb (fst p) k) d) with (find (is_case k) d); [|reflexivity]. destruct (find (is_case k) d) as [[a [v|]]|]; reflexivity.
Qed.
Lemma single_val : forall d k v, single d k v <-> zlen (filter (fun p => str_caseeqb (fst p) k) d) = 1 /\ sval_case d k = Some v.
Proof. intros. rewrite NegoProofs.single_iff, caseval_eq. reflexivity. Qed.
Lemma lacks_iff : forall d k, sval_case d k = None <-> lacks d k.
Proof.
  intros d k. unfold sval_case, lacks. destruct (find (is_case k) d) as [p|] eqn:F.
  - split; [discriminate|]. intros L. apply find_some in F as [I C]. apply is_case_iff in C. now apply L in C.
  - split; [|reflexivity]. intros _ p I S. apply is_case_iff in S. pose proof (find_none _ _ F p I). congruence.
Qed.
Lemma scheme_token_iff : forall v t b, scheme_token v = Some (t, b) <-> v = Some ((if b : bool then bs "DPoP " else bs "Bearer ") ++ t).
Proof.
  intros v t b. unfold scheme_token. destruct (after_prefix (bs "Bearer ") v) as [x|] eqn:E.
  - pose proof (proj1 (after_prefix_iff _ _ _) E) as ->. split; [intros H; injection H as -> <-; reflexivity|]. destruct b; [intros H; discriminate|]. intros H. injection H as <-. reflexivity.
  - destruct (after_prefix (bs "DPoP ") v) as [x|] eqn:E2.
    + pose proof (proj1 (after_prefix_iff _ _ _) E2) as ->. split; [intros H; injection H as -> <-; reflexivity|]. destruct b; [intros H; injection H as <-; reflexivity|intros H; discriminate].
    + split; [discriminate|]. destruct b; intros H; apply after_prefix_iff in H; congruence.
Qed.
Lemma iddawc_token_eq : forall method q dh dp du, request_is q dh dp du -> exists o, iddawc_token method q = Ret o /\ forall tok b, o = Some (tok, b) <-> carried method dh dp du tok b.
Proof.
  intros method q dh dp du RQ. unfold iddawc_token, carried. destruct (Z.eqb_spec method 0) as [->|N].
  - destruct RQ as (RH & _ & _). rewrite (NegoProofs.repr_count_case _ _ _ RH). cbn [bind]. destruct (Z.eqb_spec (zlen (filter (fun p => str_caseeqb (fst p) (bs "Authorization")) dh)) 1) as [E|E].
    + rewrite (repr_get_case _ _ _ RH). cbn [bind]. eexists. split; [reflexivity|]. intros tok b. rewrite scheme_token_iff, single_val. tauto.
    + eexists. split; [reflexivity|]. intros tok b. rewrite single_val. split; [discriminate|tauto].
  - destruct (token_value_eq true method q dh dp du RQ) as (o & -> & O). cbn [bind]. eexists. split; [reflexivity|]. intros tok b. rewrite <- O. destruct o as [t|]; cbn [option_map].
    + split; [intros H; injection H as -> <-; auto|]. intros [-> H]. injection H as ->. reflexivity.
    + split; [discriminate|]. intros [_ H]. discriminate.
Qed.
Section Iddawc.
Variables (verify : str -> option str -> option json) (dpop_ok : option str -> option str -> str -> Z -> option str -> str -> bool).
(** what has to hold of the request and of the token *)
Definition let_in (c : iconfig) (q : trequest) (dh dp du : smap) (tok : str) (j : json) : Prop := exists dpop,
  carried (i_method c) dh dp du tok dpop /\ tok <> [] /\ verify tok (i_aud c) = Some j /\ scoped piece (i_scope c) j /\
  if dpop then exists v pf root x tail, bound j v /\ single dh (bs "DPoP") pf /\ i_root c = Some root /\ q_path q = Some (x :: tail) /\ dpop_ok (Some pf) (q_verb q) (root ++ tail) (i_max_iat c) (as_text v) tok = true
  else (forall v, ~ bound j v) /\ lacks dh (bs "DPoP").
Theorem C79_decision : forall c q r dh dp du ret r', request_is q dh dp du -> iddawc verify dpop_ok (Some c) q r = Ret (ret, r') ->
  (ret = 0 <-> exists tok j, let_in c q dh dp du tok j) /\ (ret = 0 \/ ret = 3) /\
  (ret = 0 -> p_headers r' = p_headers r /\ exists tok j, let_in c q dh dp du tok j /\ p_shared r' = Some j) /\ (ret = 3 -> p_shared r' = p_shared r).
Proof.
  intros c q r dh dp du ret r' RQ H. unfold iddawc in H. pose proof RQ as (RH & _ & _). rewrite (repr_get_case _ _ _ RH), (NegoProofs.repr_count_case _ _ _ RH) in H. cbn [bind] in H.
  destruct (iddawc_token_eq (i_method c) q dh dp du RQ) as (o & E & O). rewrite E in H. cbn [bind] in H.
  assert (NO : (forall tok j, ~ let_in c q dh dp du tok j) -> ret = 3 /\ p_shared r' = p_shared r -> (ret = 0 <-> exists tok j, let_in c q dh dp du tok j) /\ (ret = 0 \/ ret = 3) /\
    (ret = 0 -> p_headers r' = p_headers r /\ exists tok j, let_in c q dh dp du tok j /\ p_shared r' = Some j) /\ (ret = 3 -> p_shared r' = p_shared r)).
  { intros N [-> S]. split; [split; [discriminate|intros (t & j & L); now apply N in L]|]. split; [auto|]. split; [discriminate|auto]. }
  destruct o as [[tok b]|].
  2:{ apply refuse_inv in H. apply NO; auto. intros t j (b & C & _). apply O in C. discriminate. }
  assert (ONE : forall t j, let_in c q dh dp du t j -> t = tok /\ verify tok (i_aud c) = Some j).
  { intros t j (b' & C & _ & V & _). apply O in C. injection C as -> ->. auto. }
  pose proof (proj1 (O tok b) eq_refl) as CA.
  destruct tok as [|z tok].
  { apply refuse_inv in H. apply NO; auto. intros t j L. pose proof (ONE t j L) as [-> _]. destruct L as (b' & _ & N & _). congruence. }
  destruct (verify (z :: tok) (i_aud c)) as [j|] eqn:V.
  2:{ apply refuse_inv in H. apply NO; auto. intros t j L. pose proof (ONE t j L) as [_ X]. congruence. }
  assert (SAME : forall t j', let_in c q dh dp du t j' -> t = z :: tok /\ j' = j) by (intros t j' L; apply ONE in L as [-> L]; split; congruence).
  destruct (check_scope true (fun _ => Some JNull) (i_scope c) j) as [s|] eqn:CS; [|discriminate]. cbn [bind] in H. pose proof (check_scope_iff _ _ _ _ _ CS) as SI.
  assert (SC : (exists y, s = Good (Some y)) <-> scoped piece (i_scope c) j). { rewrite SI. split; [tauto|]. intros X. split; [exact X|]. unfold kept_scope. destruct (i_scope c) as [[|]|]; [discriminate|exact I|discriminate]. }
  assert (BAD : (forall y, s <> Good (Some y)) -> forall t j', ~ let_in c q dh dp du t j').
  { intros B t j' L. pose proof (SAME t j' L) as [-> ->]. destruct L as (b' & _ & _ & _ & X & _). apply SC in X as (y & X). now apply B in X. }
  cbv zeta in H. destruct s as [g| |].
  2:{ apply refuse_inv in H. apply NO; auto. apply BAD. discriminate. }
  2:{ apply refuse_inv in H. apply NO; auto. apply BAD. discriminate. }
  destruct (check_scope_good _ _ _ _ _ CS) as (y & -> & _). assert (SP : scoped piece (i_scope c) j) by (apply SC; eauto). clear SC SI BAD.
  assert (BB : forall t (j' : json) b', carried (i_method c) dh dp du t b' -> b' = b) by (intros t j' b' C; apply O in C; congruence).
  assert (YES : let_in c q dh dp du (z :: tok) j -> Ret (0, mk_tresponse (p_headers r) (Some j)) = Ret (ret, r') -> (ret = 0 <-> exists tok j, let_in c q dh dp du tok j) /\ (ret = 0 \/ ret = 3) /\
    (ret = 0 -> p_headers r' = p_headers r /\ exists tok j, let_in c q dh dp du tok j /\ p_shared r' = Some j) /\ (ret = 3 -> p_shared r' = p_shared r)).
  { intros L X. injection X as <- <-. split; [split; [eauto|reflexivity]|]. split; [auto|]. split; [|discriminate]. intros _. split; [reflexivity|]. eexists _, _. split; [exact L|reflexivity]. }
  destruct b; cbn [andb negb] in H.
  - destruct (jget (jget (Some j) (bs "cnf")) (bs "jkt")) as [v|] eqn:K; cbn [andb] in H.
    2:{ apply Ret_inj in H. injection H as <- <-. apply NO; [|split; reflexivity]. intros t j' L. pose proof (SAME t j' L) as [-> ->]. destruct L as (b' & C & _ & _ & _ & L). pose proof (BB _ j _ C) as ->.
        destruct L as (v & pf & root & x & tail & B & _). apply jkt_iff in B. congruence. }
    destruct (sval_case dh (bs "DPoP")) as [pf|] eqn:PF; cbn [andb] in H.
    2:{ apply Ret_inj in H. injection H as <- <-. apply NO; [|split; reflexivity]. intros t j' L. pose proof (SAME t j' L) as [-> ->]. destruct L as (b' & C & _ & _ & _ & L). pose proof (BB _ j _ C) as ->.
        destruct L as (v' & pf & root & x & tail & _ & S & _). apply single_val in S as [_ S]. congruence. }
    destruct (Z.eqb_spec (zlen (filter (fun p => str_caseeqb (fst p) (bs "DPoP")) dh)) 1) as [C1|C1].
    2:{ apply Ret_inj in H. injection H as <- <-. apply NO; [|split; reflexivity]. intros t j' L. pose proof (SAME t j' L) as [-> ->]. destruct L as (b' & C & _ & _ & _ & L). pose proof (BB _ j _ C) as ->.
        destruct L as (v' & pf' & root & x & tail & _ & S & _). apply single_val in S as [S _]. contradiction. }
    destruct (i_root c) as [root|] eqn:RO; [|discriminate]. destruct (q_path q) as [[|x tail]|] eqn:QP; try discriminate. cbn [path_tail bind] in H.
    destruct (dpop_ok (Some pf) (q_verb q) (root ++ tail) (i_max_iat c) (jstr (Some v)) (z :: tok)) eqn:DO.
    + apply YES; [|exact H]. exists true. split; [exact CA|]. split; [discriminate|]. split; [exact V|]. split; [exact SP|]. exists v, pf, root, x, tail. split; [now apply jkt_iff|]. split; [apply single_val; auto|]. split; [exact RO|]. split; [exact QP|]. exact DO.
    + apply refuse_inv in H. apply NO; auto. intros t j' L. pose proof (SAME t j' L) as [-> ->]. destruct L as (b' & C & _ & _ & _ & L). pose proof (BB _ j _ C) as ->.
      destruct L as (v' & pf' & root' & x' & tail' & B & S & R' & Q' & D). apply jkt_iff in B. apply single_val in S as [_ S]. rewrite B in K. injection K as ->. rewrite S in PF. injection PF as ->. rewrite RO in R'. injection R' as ->. rewrite QP in Q'. injection Q' as -> ->. change (jstr (Some v)) with (as_text v) in DO. congruence.
  - destruct (jget (jget (Some j) (bs "cnf")) (bs "jkt")) as [v|] eqn:K; cbn [andb] in H.
    { apply Ret_inj in H. injection H as <- <-. apply NO; [|split; reflexivity]. intros t j' L. pose proof (SAME t j' L) as [-> ->]. destruct L as (b' & C & _ & _ & _ & L). pose proof (BB _ j _ C) as ->. destruct L as [L _]. apply jkt_iff in K. now apply L in K. }
    destruct (sval_case dh (bs "DPoP")) as [pf|] eqn:PF.
    { apply Ret_inj in H. injection H as <- <-. apply NO; [|split; reflexivity]. intros t j' L. pose proof (SAME t j' L) as [-> ->]. destruct L as (b' & C & _ & _ & _ & L). pose proof (BB _ j _ C) as ->. destruct L as [_ L]. apply lacks_iff in L. congruence. }
    apply YES; [|exact H]. exists false. split; [exact CA|]. split; [discriminate|]. split; [exact V|]. split; [exact SP|]. split; [intros v B; apply jkt_iff in B; congruence|]. now apply lacks_iff.
Qed.
(** an answer is given if the path of the request is not empty *)
Theorem C79_answer : forall c q r dh dp du d root x tail, request_is q dh dp du -> repr (p_headers r) d -> (forall e, In e [e_scope; e_internal; e_invalid; e_missing; e_dpop] -> ovalue_ok (Some (complaint (i_realm c) e))) ->
  i_root c = Some root -> q_path q = Some (x :: tail) -> exists ret r', iddawc verify dpop_ok (Some c) q r = Ret (ret, r').
Proof.
  intros c q r dh dp du d root x tail RQ R RE RO QP. unfold iddawc. pose proof RQ as (RH & _ & _). rewrite (repr_get_case _ _ _ RH), (NegoProofs.repr_count_case _ _ _ RH). cbn [bind].
  destruct (iddawc_token_eq (i_method c) q dh dp du RQ) as (o & E & _). rewrite E. cbn [bind].
  assert (RF : forall e, In e [e_scope; e_internal; e_invalid; e_missing; e_dpop] -> exists ret r', refuse (i_realm c) r e = Ret (ret, r')) by (intros e IN; destruct (refuse_eq (i_realm c) r e d R (RE e IN)) as (r' & E' & _); eauto).
  destruct o as [[[|z tok] b]|]; [apply RF; cbn; auto| |apply RF; cbn; auto]. destruct (verify (z :: tok) (i_aud c)) as [j|]; [|apply RF; cbn; auto].
  destruct (check_scope_total true (fun _ => Some JNull) (i_scope c) j (or_introl eq_refl)) as (s & ->). cbn [bind]. cbv zeta. destruct s as [g| |]; [|apply RF; cbn; auto|apply RF; cbn; auto].
  rewrite RO, QP. cbn [path_tail bind]. repeat match goal with |- exists _ _, (if ?b then _ else _) = _ => destruct b end; eauto; apply RF; cbn; auto 8.
Qed.
End Iddawc.
(** a token bound to a key is never accepted without a proof for that key, this method, this URL and this token *)
Theorem C79_bound : forall verify dpop_ok c q r dh dp du r', request_is q dh dp du -> iddawc verify dpop_ok (Some c) q r = Ret (0, r') ->
  exists j, p_shared r' = Some j /\ forall v, bound j v -> exists tok pf root x tail, single dh (bs "Authorization") (bs "DPoP " ++ tok) /\ verify tok (i_aud c) = Some j /\ single dh (bs "DPoP") pf /\ i_root c = Some root /\ q_path q = Some (x :: tail) /\
    dpop_ok (Some pf) (q_verb q) (root ++ tail) (i_max_iat c) (as_text v) tok = true.
Proof.
  intros verify dpop_ok c q r dh dp du r' RQ H. destruct (C79_decision verify dpop_ok c q r dh dp du 0 r' RQ H) as (_ & _ & A & _). destruct (A eq_refl) as (_ & tok & j & L & S). exists j. split; [exact S|]. intros v B.
  destruct L as ([|] & C & _ & V & _ & L); [|destruct L as [L _]; now apply L in B]. destruct L as (v' & pf & root & x & tail & B' & S1 & R1 & Q1 & D). exists tok, pf, root, x, tail.
  assert (v' = v) as -> by (apply jkt_iff in B, B'; congruence). split; [|auto]. unfold carried in C. destruct (i_method c =? 0); [exact C|]. destruct C as [C _]. discriminate.
Qed.
Definition ex_icfg : iconfig := mk_iconfig 0 (Some (bs "read")) None (Some (bs "me")) (Some (bs "https://h/")) 60.
Definition ex_bound : json := JObj [(bs "scope", JStr (bs "read")); (bs "cnf", JObj [(bs "jkt", JStr (bs "tp"))])].
Definition ex_idh : smap := [(bs "Authorization", Some (bs "DPoP abc")); (bs "dpop", Some (bs "proof"))].
Definition ex_iq (d : smap) : trequest := mk_trequest (map_of d) u_map_init u_map_init (Some (bs "GET")) (Some (bs "/x")).
Lemma ex_irequest : request_is (ex_iq ex_idh) ex_idh [] [].
Proof. split; [exact (repr_map_of ex_idh eq_refl)|split; apply repr_init]. Qed.
Definition ex_iverify (tok : str) (aud : option str) : option json := if str_eqb tok (bs "abc") then Some ex_bound else None.
Definition ex_dpop (pf htm : option str) (htu : str) (n : Z) (jkt : option str) (tok : str) : bool := ostr_eqb pf (Some (bs "proof")) && ostr_eqb htm (Some (bs "GET")) && str_eqb htu (bs "https://h/x") && (n =? 60) && ostr_eqb jkt (Some (bs "tp")) && str_eqb tok (bs "abc").
Example C79_holds : iddawc ex_iverify ex_dpop (Some ex_icfg) (ex_iq ex_idh) ex_r = Ret (0, mk_tresponse u_map_init (Some ex_bound)) /\ bound ex_bound (JStr (bs "tp")) /\
  iddawc ex_iverify (fun _ _ _ _ _ _ => true) (Some ex_icfg) (ex_iq ex_dh) ex_r = Ret (3, ex_r).
Proof. split; [vm_compute; reflexivity|]. split; [apply jkt_iff; reflexivity|vm_compute; reflexivity]. Qed.
(** the last case of the example is a refusal without any explanation *)
Theorem C79_silent_refuted : exists verify dpop_ok c q r dh r', request_is q dh [] [] /\ iddawc verify dpop_ok (Some c) q r = Ret (3, r') /\ get_str (p_headers r') (bs "WWW-Authenticate") = Ret None.
Proof. exists ex_iverify, ex_dpop, ex_icfg, (ex_iq ex_dh), ex_r, ex_dh, ex_r. split; [split; [exact (repr_map_of ex_dh eq_refl)|split; apply repr_init]|]. split; vm_compute; reflexivity. Qed.
(** and a request whose path is empty makes the URL of the proof start after its end *)
Theorem C79_path_refuted : exists verify dpop_ok c q r, q_path q = Some [] /\ iddawc verify dpop_ok (Some c) q r = UB OutOfBounds.
Proof. exists ex_iverify, ex_dpop, ex_icfg, (mk_trequest (map_of ex_idh) u_map_init u_map_init (Some (bs "GET")) (Some [])), ex_r. split; vm_compute; reflexivity. Qed.

Print Assumptions C57_decision_partial.
Print Assumptions C57_only_valid_partial.
Print Assumptions C57_shared.
Print Assumptions C57_answer_partial.
Print Assumptions C57_reason.
Print Assumptions C57_empty_scope_refuted.
Print Assumptions C57_no_lifetime_refuted.
Print Assumptions C57_client_refuted.
Print Assumptions C57_no_scope_refuted.
Print Assumptions C57_overflow_refuted.
Print Assumptions C77_decision_partial.
Print Assumptions C77_key.
Print Assumptions C77_answer_partial.
Print Assumptions C77_reason.
Print Assumptions C77_shared.
Print Assumptions C77_client_refuted.
Print Assumptions C78_proof.
Print Assumptions C79_decision.
Print Assumptions C79_answer.
Print Assumptions C79_bound.
Print Assumptions C79_silent_refuted.
Print Assumptions C79_path_refuted.
