(** Properties C83 (requests set by options), C84 (responses set by options, shared data), C85 (JSON bodies). *)
From Coq Require Import String ZArith Bool List Lia.
From Verif Require Import Base BaseFacts UMapModel SMap SendModel SendProps CopyModel PropModel PropSpec PropProofs.
From Verif Require TokenModel NegoSpec NegoProofs.
Import ListNotations.
Open Scope Z_scope.

(** ** C83 *)
(** the call does to the request what the options say one after the other, up to the first that fails, whose code it returns; it reads no other argument and no freed memory *)
Theorem C83_properties : forall dumps q a opts, shows q a -> Forall for_request opts -> Forall opt_ok opts ->
  exists q', set_request_properties dumps q (call opts) = Ret (fst (effects dumps a opts), q') /\ shows q' (snd (effects dumps a opts)).
Proof.
  intros dumps q a opts S FR K. unfold set_request_properties. apply request_loop_ok; auto. 
Qed.
(** when the call succeeds, a field has the value of the last option for it, or its old value *)
Theorem C83_last_value : forall dumps q a opts q', shows q a -> Forall for_request opts -> Forall opt_ok opts ->
  set_request_properties dumps q (call opts) = Ret (U_OK, q') ->
  (forall f, f <> Url -> q_text q' f = match last_set f opts with Some v => v | None => q_text q f end) /\
  (forall f, q_int q' f = match last_int f opts with Some z => z | None => q_int q f end).
Proof.
  intros dumps q a opts q' S FR K E. destruct (C83_properties dumps q a opts S FR K) as (q2 & E2 & S2). rewrite E in E2. injection E2 as E2 <-. symmetry in E2.
  destruct S as (A & B & _), S2 as (A2 & B2 & _). split.
  - intros f NU. rewrite A2, A. now apply last_text.
  - intros f. rewrite B2, B. now apply last_number.
Qed.

Definition plain_request : preq :=
  mk_preq (fun f => match f with Url => Some (bs "http://host/old") | Verb => Some (bs "GET") | _ => None end) (fun _ => 0)
    (fun m => match m with MHeader => map_of [(bs "Accept", Some (bs "*/*"))] | _ => map_of [] end) (mk_msg (Some (cblock (bs "old"))) 3 0) (fun _ => false) false.
Definition plain_view : view :=
  mk_view (fun f => match f with Url => Some (bs "http://host/old") | Verb => Some (bs "GET") | _ => None end) (fun _ => 0)
    (fun m => match m with MHeader => [(bs "Accept", Some (bs "*/*"))] | _ => [] end) (Some (bs "old")).
Example plain_shows : shows plain_request plain_view.
Proof.
  split; [reflexivity|]. split; [reflexivity|]. split.
  - intros f. assert (E0 : repr (map_of []) []) by (apply (repr_map_of []); reflexivity).
    assert (E1 : repr (map_of [(bs "Accept", Some (bs "*/*"))]) [(bs "Accept", Some (bs "*/*"))]) by (apply (repr_map_of [(bs "Accept", Some (bs "*/*"))]); reflexivity).
    destruct f; [exact E0|exact E1|exact E0|exact E0].
  - split; [exists [Some 0]; reflexivity|reflexivity].
Qed.
Definition some_options : list opt :=
  [OText Verb (Some (bs "POST")); OText Url (Some (bs "http://host")); OAppend (bs "/path"); OText Verb (Some (bs "PUT")); OInt Timeout 12; OAuth (Some (bs "u")) (Some []);
   OPut MHeader (Some (bs "X")) (Some (bs "1")); ORemove MHeader (Some (bs "Accept")); OString (Some (bs "body"))].
Example C83_properties_case : Forall for_request some_options /\ Forall opt_ok some_options /\
  match set_request_properties (fun _ => None) plain_request (call some_options) with
  | Ret (c, q) => c = U_OK /\ q_text q Verb = Some (bs "PUT") /\ q_text q Url = Some (bs "http://host/path") /\ q_text q User = Some (bs "u") /\ q_text q Password = None /\
      q_int q Timeout = 12 /\ q_body q = mk_msg (Some (cblock (bs "body"))) 4 0
  | UB _ => False
  end.
Proof.
  split; [repeat constructor|]. split; [|vm_compute; repeat split].
  repeat constructor; try (apply cstrb_true; reflexivity); try discriminate.
Qed.
(** an option that fails hides the ones after it; removing a key that is not there is one *)
Example C83_removal_stops :
  match set_request_properties (fun _ => None) plain_request (call [ORemove MHeader (Some (bs "X")); OText Verb (Some (bs "PUT"))]) with
  | Ret (c, q) => c = U_ERROR_NOT_FOUND /\ q_text q Verb = Some (bs "GET")
  | UB _ => False
  end.
Proof. vm_compute. split; reflexivity. Qed.

(** a value that points into the field it sets is read after it was freed *)
Theorem C83_own_value_refuted : exists q,
  set_request_properties (fun _ => None) q [VInt 2; VPtr (PHeld (BText Url)); VInt 0] = UB UseAfterFree /\
  set_request_properties (fun _ => None) q [VInt 24; VPtr (PHeld BBody); VInt 0] = UB UseAfterFree /\
  set_request_properties (fun _ => None) q [VInt 23; VPtr (PHeld BBody); VLong 1; VInt 0] = UB UseAfterFree.
Proof. exists plain_request. split; [reflexivity|split; reflexivity]. Qed.
(** the documented type of U_OPT_TIMEOUT, unsigned long, is not the one that is read, for requests as for responses *)
Theorem C83_timeout_type_refuted : forall dumps q r z, set_request_properties dumps q [VInt 11; VLong z; VInt 0] = UB BadArgument /\
  set_response_properties dumps r [VInt 11; VLong z; VInt 0] = UB BadArgument.
Proof. intros. split; reflexivity. Qed.
(** a negative int gives a huge timeout *)
Theorem C83_negative_timeout_refuted : exists q q',
  set_request_properties (fun _ => None) q [VInt 11; VInt (-1); VInt 0] = Ret (U_OK, q') /\ q_int q' Timeout = two64 - 1.
Proof. exists plain_request. eexists. split; reflexivity. Qed.
(** an option the function does not know ends the work only after the next argument was read as an option: its value *)
Theorem C83_unknown_option_refuted : forall dumps q s, set_request_properties dumps q [VInt 30; VPtr s; VInt 0] = UB BadArgument.
Proof. reflexivity. Qed.
Theorem C83_append_null_refuted : forall dumps q, set_request_properties dumps q [VInt 32; VPtr PNull; VInt 0] = UB NullDeref.
Proof. reflexivity. Qed.

(** ** C84 *)
Theorem C84_properties : forall dumps r a opts, rshows r a -> Forall for_response opts -> Forall opt_ok opts ->
  exists r', set_response_properties dumps r (call opts) = Ret (fst (reffects dumps a opts), r') /\ rshows r' (snd (reffects dumps a opts)).
Proof. intros dumps r a opts S FR K. unfold set_response_properties. apply response_loop_ok; auto. Qed.
(** whatever the arguments, the free function of the shared data stays as it was *)
Theorem C84_free_kept : forall dumps r l c r', set_response_properties dumps r l = Ret (c, r') -> p_free r' = p_free r.
Proof.
  assert (O : forall dumps o r l c r' l', response_option dumps o r l = Ret (c, r', l') -> p_free r' = p_free r).
  { intros dumps o r l c r' l' E. unfold response_option, bind in E.
    repeat match type of E with
    | (if ?b then _ else _) = _ => destruct b
    | match ?x with _ => _ end = _ => destruct x; try discriminate E
    end; injection E as _ <- _; reflexivity. }
  assert (L : forall dumps n ret r l c r', response_loop dumps n ret r l = Ret (c, r') -> p_free r' = p_free r).
  { intros dumps. induction n as [|n IH]; intros ret r l c r' E; [discriminate|]. cbn [response_loop] in E.
    destruct (va_uint l) as [[o l1]|]; [|discriminate]. cbn [bind fst snd] in E. destruct (_ && _).
    - destruct (response_option dumps o r l1) as [[[c1 r1] l2]|] eqn:E1; [|discriminate]. cbn [bind fst snd] in E.
      rewrite (IH _ _ _ _ _ E). eapply O; eauto.
    - injection E as _ <-. reflexivity. }
  intros dumps r l c r' E. eapply L; exact E.
Qed.
(** ulfius_set_response_shared_data refuses NULL, leaving the response alone, and takes anything else *)
Theorem C84_shared_result : forall r d f r' calls c, set_shared_data r d f = (c, r', calls) ->
  (c = U_OK <-> d <> None) /\ (c <> U_OK -> c = U_ERROR_PARAMS /\ r' = r /\ calls = []) /\ (c = U_OK -> p_shared r' = d /\ p_free r' = f).
Proof.
  intros r [d|] f r' calls c E; injection E as <- <- <-.
  - split; [split; [discriminate|reflexivity]|]. split; [congruence|auto].
  - split; [split; [discriminate|congruence]|]. split; [auto|discriminate].
Qed.
Definition plain_response : presp := mk_presp (mk_msg None 0 200) (map_of []) None None None 0.
Example plain_rshows : rshows plain_response (mk_rview 200 [] None None 0 None).
Proof. split; [reflexivity|]. split; [cbn; lia|]. split; [apply (repr_map_of []); reflexivity|]. repeat (split; [reflexivity|]). split; reflexivity. Qed.
Definition some_answers : list opt := [OStatus 404; OPut MHeader (Some (bs "X")) (Some (bs "1")); ORealm (Some (bs "home")); OString (Some (bs "no")); OSeconds 5; OShared (Some 7); OAlien 99; OStatus 200].
Example C84_properties_case : Forall for_response some_answers /\ Forall opt_ok some_answers /\
  match set_response_properties (fun _ => None) plain_response (call some_answers) with
  | Ret (c, r) => c = U_ERROR_PARAMS /\ p_body r = mk_msg (Some (cblock (bs "no"))) 2 404 /\ p_realm r = Some (bs "home") /\ p_timeout r = 5 /\ p_shared r = Some 7
  | UB _ => False
  end.
Proof.
  split; [repeat constructor|]. split; [|vm_compute; repeat split].
  repeat constructor; try (apply cstrb_true; reflexivity); try discriminate.
Qed.
(** the status of a body is 32 bits wide, the status of a response is a long *)
Theorem C84_wide_status_refuted : exists r',
  set_response_properties (fun _ => None) plain_response [VInt 29; VLong 4294967296; VInt 24; VPtr (PMem (cblock (bs "x"))); VInt 0] = Ret (U_OK, r') /\ m_status (p_body r') = 0.
Proof. eexists. split; reflexivity. Qed.

(** data given with ulfius_set_response_shared_data and a free function are released by that function, once, in the order they were given, when the request is answered *)
Theorem C84_shared_partial : forall r l, fresh r -> Forall gives l ->
  shared_life true r l = flat_map given l /\ (NoDup (flat_map data_of l) -> NoDup (map snd (shared_life true r l))).
Proof.
  intros r l (A & B) G. assert (E : shared_life true r l = flat_map given l).
  { unfold shared_life. cbn [release_shared_data]. pose proof (shared_run l r [] G) as X. cbv zeta in X. unfold pending at 1 2 in X. rewrite A, B in X. exact X. }
  split; auto. rewrite E. apply given_data.
Qed.
Example C84_shared_case : shared_life true plain_response [Give (Some 1) (Some 10); Give (Some 2) None; Give (Some 3) (Some 11); Give None (Some 12)] = [(10, 1); (11, 3)].
Proof. reflexivity. Qed.
(** U_OPT_SHARED_DATA drops the data without releasing them, and leaves their free function to the new ones *)
Theorem C84_overwrite_refuted : exists r l d f, fresh r /\ In (Give (Some d) (Some f)) l /\ ~ In (f, d) (shared_life true r l) /\ exists d2, In (f, d2) (shared_life true r l) /\ d2 <> d.
Proof.
  exists plain_response, [Give (Some 1) (Some 10); Overwrite (Some 2)], 1, 10. split; [split; reflexivity|]. split; [left; reflexivity|]. split.
  - intros X. cbn in X. intuition discriminate.
  - exists 2. split; [left; reflexivity|discriminate].
Qed.
(** the same data given twice are released twice *)
Theorem C84_given_twice_refuted : exists r l, fresh r /\ Forall gives l /\ ~ NoDup (map snd (shared_life true r l)).
Proof.
  exists plain_response, [Give (Some 1) (Some 10); Give (Some 1) (Some 10)]. split; [split; reflexivity|]. split; [repeat constructor|].
  intros N. cbn in N. inversion N; subst. apply H1. left. reflexivity.
Qed.
(** and data of a request that gets no response of MHD are never released *)
Theorem C84_unanswered_refuted : exists r l d f, fresh r /\ In (Give (Some d) (Some f)) l /\ shared_life false r l = [].
Proof. exists plain_response, [Give (Some 1) (Some 10)], 1, 10. split; [split; reflexivity|]. split; [left; reflexivity|reflexivity]. Qed.

(** ** C85 *)
(** the body is read as JSON exactly when there is one Content-Type header, in any case, that mentions application/json *)
Theorem C85_read : forall loadb b t h d, body_is b (Some t) -> repr h d ->
  ((exists v, NegoSpec.single d (bs "Content-Type") v /\ exists x y, v = x ++ bs "application/json" ++ y) -> get_json_body loadb b h = Ret (loadb t)) /\
  (~ (exists v, NegoSpec.single d (bs "Content-Type") v /\ exists x y, v = x ++ bs "application/json" ++ y) -> get_json_body loadb b h = Ret None).
Proof.
  intros loadb b t h d B R. rewrite (get_json loadb b t h d B R). split.
  - intros (v & S & C). apply NegoProofs.single_iff in S as (N & V). rewrite V. apply Z.eqb_eq in N. rewrite N. apply containsb_true in C. rewrite C. reflexivity.
  - intros X. destruct (zlen _ =? 1) eqn:N; [|reflexivity]. destruct (NegoProofs.caseval d (bs "Content-Type")) as [v|] eqn:V; [|reflexivity]. destruct (containsb v (bs "application/json")) eqn:C; [|reflexivity].
    exfalso. apply X. exists v. split; [apply NegoProofs.single_iff; split; [now apply Z.eqb_eq|exact V]|now apply containsb_true].
Qed.
(** a document that was set is read back *)
Theorem C85_round_trip : forall (dumps : TokenModel.json -> option str) loadb j t b status h d, container (Some j) = true -> dumps j = Some t -> loadb t = Some j -> repr h d ->
  (forall k v, In (k, v) d -> NegoSpec.same_name k (bs "Content-Type") -> k = bs "Content-Type") ->
  exists x, json_body dumps b status h (Some j) = Ret (U_OK, x) /\ get_json_body loadb (fst x) (snd x) = Ret (Some j).
Proof.
  intros dumps loadb j t b status h d C D L R A. unfold json_body.
  assert (X : document dumps (Some j) = Some (Some t)) by (destruct j; try discriminate; cbn; rewrite D; reflexivity). rewrite X.
  destruct (repr_put h d (bs "Content-Type") (Some (bs "application/json")) R) as (h' & E & R'); [discriminate|split; [apply cstrb_true; reflexivity|reflexivity]|].
  rewrite E. unfold bind. cbn [fst snd]. eexists. split; [reflexivity|]. cbn [fst snd].
  assert (B : body_is (mk_msg (Some (cblock t)) (zlen t) status) (Some t)) by apply cblock_body.
  destruct (C85_read loadb _ t h' _ B R') as (Y & _). rewrite Y, L; [reflexivity|].
  exists (bs "application/json"). split; [|exists [], []; now rewrite app_nil_r].
  apply put_single; [apply (repr_nodup _ _ R)|exact A].
Qed.
Definition a_document : TokenModel.json := TokenModel.JArr [].
Example C85_round_trip_case :
  (exists x, json_body (fun _ => Some (bs "[]")) (mk_msg None 0 200) 200 (map_of [(bs "Content-Type", Some (bs "text/plain")); (bs "Accept", Some (bs "*/*"))]) (Some a_document) = Ret (U_OK, x) /\
   get_json_body (fun t => if str_eqb t (bs "[]") then Some a_document else None) (fst x) (snd x) = Ret (Some a_document)).
Proof. eexists. split; vm_compute; reflexivity. Qed.
(** unless there was a Content-Type header in another case: put adds a second one, and the reader wants exactly one *)
Theorem C85_other_case_refuted : exists (dumps : TokenModel.json -> option str) loadb j t b status h x, container (Some j) = true /\ dumps j = Some t /\ loadb t = Some j /\
  json_body dumps b status h (Some j) = Ret (U_OK, x) /\ get_json_body loadb (fst x) (snd x) = Ret None.
Proof.
  exists (fun _ => Some (bs "[]")), (fun t => if str_eqb t (bs "[]") then Some a_document else None), a_document, (bs "[]"), (mk_msg None 0 200), 200, (map_of [(bs "content-type", Some (bs "text/plain"))]).
  eexists. split; [reflexivity|]. split; [reflexivity|]. split; [reflexivity|]. split; vm_compute; reflexivity.
Qed.
(** what is neither an array nor an object is refused and changes nothing *)
Theorem C85_containers_only : forall dumps b status h j, container j = false -> json_body dumps b status h j = Ret (U_ERROR_PARAMS, (b, h)).
Proof. intros dumps b status h [[]|] C; try discriminate; reflexivity. Qed.
(** a document jansson cannot write costs the body that was there *)
Theorem C85_unwritable_refuted : exists dumps b h j, m_body b <> None /\ json_body dumps b 200 h (Some j) = Ret (U_ERROR_MEMORY, (mk_msg None 0 (m_status b), h)).
Proof. exists (fun _ => None), (mk_msg (Some (cblock (bs "old"))) 3 200), (map_of []), a_document. split; [discriminate|reflexivity]. Qed.

Print Assumptions C83_properties.
Print Assumptions C83_last_value.
Print Assumptions C83_own_value_refuted.
Print Assumptions C83_timeout_type_refuted.
Print Assumptions C83_negative_timeout_refuted.
Print Assumptions C83_unknown_option_refuted.
Print Assumptions C83_append_null_refuted.
Print Assumptions C84_properties.
Print Assumptions C84_free_kept.
Print Assumptions C84_shared_result.
Print Assumptions C84_wide_status_refuted.
Print Assumptions C84_shared_partial.
Print Assumptions C84_overwrite_refuted.
Print Assumptions C84_given_twice_refuted.
Print Assumptions C84_unanswered_refuted.
Print Assumptions C85_read.
Print Assumptions C85_round_trip.
Print Assumptions C85_other_case_refuted.
Print Assumptions C85_containers_only.
Print Assumptions C85_unwritable_refuted.
