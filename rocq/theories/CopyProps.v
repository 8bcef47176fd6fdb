(** C30, C31, C32: copies of requests and responses, body setters. *)
From Coq Require Import String ZArith Bool List Lia.
From Verif Require Import Base BaseFacts UMapModel UMapSpec UMapProofs SMap CopyModel CopySpec CopyProofs.
Import ListNotations.
Open Scope Z_scope.

(** C30, partial: for a response with a protocol and with cookies that have all their attributes,
    the duplicate shows the same, owns only blocks that did not exist before, and either of the
    two can be cleaned, which leaves the other as it was and frees exactly its own blocks. *)
Theorem C30_duplicate_independent_partial : forall h r d, owned h r -> complete r -> repr (hr_header r) d ->
  exists h' c, duplicate_response h r = Ret (h', Some c) /\
    view_resp h' c = view_resp h r /\ view_resp h' r = view_resp h r /\ repr (hr_header c) d /\
    owned h' r /\ owned h' c /\ (forall a, In a (addrs c) <-> (length h <= a < length h')%nat) /\
    (exists h1, clean_response h' c = Ret h1 /\ view_resp h1 r = view_resp h r /\ owned h1 r /\
       forall a, (length h <= a < length h')%nat -> nth_error h1 a = Some None) /\
    (exists h2, clean_response h' r = Ret h2 /\ view_resp h2 c = view_resp h r /\ owned h2 c).
Proof.
  intros h r d OW CO R. destruct (duplicate_ok h r d OW CO R) as (h' & c & E & X & V & R').
  destruct OW as (ND & L & B). assert (IN := fun a => ext_in h h' _ a X).
  assert (LT : forall a, In a (addrs r) -> (a < length h)%nat).
  { intros a I. apply live_lt. rewrite Forall_forall in L. auto. }
  assert (LP : Forall (live h') (addrs r)) by (eapply live_keep; eauto).
  assert (KR : forall a, In a (addrs r) -> nth_error h' a = nth_error h a).
  { intros a I. rewrite Forall_forall in L. destruct (L a I) as (x & H). rewrite H. eapply ext_keep; eauto. }
  assert (VR : view_resp h' r = view_resp h r) by (apply view_same; auto).
  assert (LEN : forall g p q n, view_body g p n = view_body h q n ->
    match ptr_value h q with Some x => 0 <= n <= zlen x | None => n = 0 end ->
    match ptr_value g p with Some x => 0 <= n <= zlen x | None => n = 0 end).
  { intros g p q n VB BB. unfold view_body in VB. destruct (ptr_value g p) as [x|], (ptr_value h q) as [y|]; auto.
    - apply (f_equal zlen) in VB. unfold zfirstn, zlen in *. rewrite !firstn_length in VB. lia.
    - subst. unfold zlen. lia.
    - symmetry in VB. apply (f_equal zlen) in VB. unfold zfirstn, zlen in *. rewrite firstn_length in VB. cbn in VB. lia. }
  assert (OR : forall g, view_resp g r = view_resp h r -> Forall (live g) (addrs r) -> owned g r).
  { intros g VG LG. split; [auto|]. split; [auto|]. unfold view_resp in VG. inversion VG. eapply LEN; eauto. }
  assert (OC : forall g, view_resp g c = view_resp h r -> Forall (live g) (addrs c) -> owned g c).
  { intros g VG LG. split; [eapply ext_nodup; eauto|]. split; [auto|]. 
    assert (HL : hr_body_length c = hr_body_length r) by (unfold view_resp in VG; injection VG; auto).
    assert (HV : view_body g (hr_body c) (hr_body_length c) = view_body h (hr_body r) (hr_body_length r))
      by (unfold view_resp in VG; injection VG; auto).
    rewrite HL in *. eapply LEN; eauto. }
  assert (LC : Forall (live h') (addrs c)) by (eapply ext_live; eauto).
  exists h', c. split; [auto|]. split; [auto|]. split; [auto|]. split; [auto|].
  split; [auto|]. split; [auto|]. split; [auto|]. split.
  - destruct (clean_ok h' c) as (h1 & E1 & LN & D & K); [eapply ext_nodup; eauto|auto|].
    assert (K1 : forall a, In a (addrs r) -> nth_error h1 a = nth_error h' a).
    { intros a I. apply K. intro J. apply IN in J. apply LT in I. lia. }
    exists h1. split; [auto|].
    assert (V1 : view_resp h1 r = view_resp h r) by (rewrite (view_same h' h1 r); auto).
    split; [auto|]. split.
    + apply OR; auto. rewrite Forall_forall in *. intros a I. destruct (LP a I) as (x & H). exists x. rewrite K1; auto.
    + intros a I. apply D. apply IN. auto.
  - destruct (clean_ok h' r) as (h2 & E2 & LN & D & K); auto.
    assert (K2 : forall a, In a (addrs c) -> nth_error h2 a = nth_error h' a).
    { intros a I. apply K. intro J. apply IN in I. apply LT in J. lia. }
    exists h2. split; [auto|].
    assert (V2 : view_resp h2 c = view_resp h r) by (rewrite (view_same h' h2 c); auto).
    split; [auto|]. apply OC; auto. rewrite Forall_forall in *. intros a I. destruct (LC a I) as (x & H). exists x. rewrite K2; auto.
Qed.
Print Assumptions C30_duplicate_independent_partial.

(** a response received by the client side: protocol, one complete cookie, a body *)
Definition ex_heap : heap := [Some (bs "1.1"); Some []; Some (bs "k"); Some (bs "v"); Some (bs "e"); Some (bs "d"); Some (bs "/"); Some (bs "body")].
Definition ex_hresp : hresp :=
  mk_hresp 201 None (repeat 0 8) (Some 0%nat) None u_map_init (Some 1%nat)
    [mk_hcookie (Some 2%nat) (Some 3%nat) (Some 4%nat) (Some 5%nat) (Some 6%nat) [0; 1; 0; 2]] (Some 7%nat) 3 None None.
Example ex30_hyp : owned ex_heap ex_hresp /\ complete ex_hresp /\ repr (hr_header ex_hresp) [].
Proof.
  split; [|split; [|apply repr_init]].
  - split; [|split].
    + repeat constructor; cbn; intuition discriminate.
    + repeat constructor; unfold live; cbn; eauto.
    + cbn. unfold zlen. cbn. lia.
  - split; [discriminate|]. repeat constructor; discriminate.
Qed.
Example ex30_run : (do x <- duplicate_response ex_heap ex_hresp; Ret (fst x, match snd x with Some c => addrs c | None => [] end))
  = Ret (ex_heap ++ [Some (bs "1.1"); Some []; Some (bs "k"); Some (bs "v"); Some (bs "e"); Some (bs "d"); Some (bs "/"); Some (bs "bod")],
         [8; 9; 10; 11; 12; 13; 14; 15]%nat).
Proof. vm_compute. reflexivity. Qed.

(** C30 does not hold for a response as built by the server API: protocol is NULL, and a NULL copy
    is taken for an allocation failure. *)
Theorem C30_server_response_refuted : forall h r, owned h r -> hr_protocol r = None ->
  exists h', duplicate_response h r = Ret (h', None).
Proof.
  intros h r (N & L & _) P. unfold duplicate_response, copy_response. rewrite P. cbn [hstrdup bind fst snd].
  destruct (hstrdup_ok h (hr_realm r)) as (h2 & q2 & S2 & E2 & _ & _).
  { unfold addrs in L. rewrite !Forall_app in L. tauto. }
  rewrite S2. cbn [bind fst snd]. change (U_ERROR_MEMORY =? U_OK) with false. cbv beta iota.
  match goal with |- exists h', bind (clean_response h2 ?d) _ = _ => destruct (clean_ok h2 d) as (h1 & E1 & _) end.
  - unfold addrs. cbn. rewrite app_nil_r. eapply ext_nodup; eauto.
  - unfold addrs. cbn. rewrite app_nil_r. eapply ext_live; eauto.
  - rewrite E1. cbn. eauto.
Qed.
Print Assumptions C30_server_response_refuted.
Example ex30_server : owned [Some (bs "x")] (mk_hresp 200 None [] None None u_map_init None [] (Some 0%nat) 1 None None).
Proof.
  split; [|split].
  - repeat constructor; cbn; intuition discriminate.
  - repeat constructor; unfold live; cbn; eauto.
  - cbn. unfold zlen. cbn. lia.
Qed.

(** C30 does not hold for a cookie without domain: ulfius_duplicate_response reports success and
    the copy has dangling pointers, cleaning it frees blocks twice. *)
Theorem C30_cookie_without_domain_refuted : exists h r h' c,
  owned h r /\ hr_protocol r <> None /\ duplicate_response h r = Ret (h', Some c) /\
  view_resp h' c <> view_resp h r /\ clean_response h' c = UB DoubleFree.
Proof.
  exists [Some (bs "1.1"); Some []; Some (bs "k"); Some (bs "v"); Some (bs "/")].
  exists (mk_hresp 200 None [] (Some 0%nat) None u_map_init (Some 1%nat)
    [mk_hcookie (Some 2%nat) (Some 3%nat) None None (Some 4%nat) [0; 0; 0; 0]] None 0 None None).
  do 2 eexists. split; [|split; [discriminate|split; [vm_compute; reflexivity|split; [|vm_compute; reflexivity]]]].
  - split; [|split].
    + repeat constructor; cbn; intuition discriminate.
    + repeat constructor; unfold live; cbn; eauto.
    + reflexivity.
  - vm_compute. discriminate.
Qed.
Print Assumptions C30_cookie_without_domain_refuted.

(** C31. The duplicate of a request is a request with equal fields, map contents and body. *)
Theorem C31_duplicate_equal : forall q, request_ok q -> exists r, duplicate_request q = Ret (Some r) /\ same_request r q.
Proof.
  intros q OK. unfold duplicate_request. destruct (copy_request_ok init_request q OK) as (r & E & H1 & H2 & H3 & H4 & H5 & H6 & H7 & H8).
  rewrite E. cbn [bind fst snd]. rewrite Z.eqb_refl. exists r. split; [auto|]. unfold same_request.
  split; [auto|]. split; [auto|]. split; [rewrite H3; destruct (q_address q); reflexivity|].
  split; [auto|]. split; [auto|]. split; [auto|]. split; [auto|].
  destruct (q_body_length q =? 0) eqn:N; [|tauto]. apply Z.eqb_eq in N. destruct H8 as [B1 B2]. rewrite B1, B2, N.
  split; reflexivity.
Qed.
Print Assumptions C31_duplicate_equal.

(** C31 for ulfius_copy_request into any request: equal as soon as the source has a body and an
    address, or [dest] has none. Partial: see C31_used_dest_refuted. *)
Theorem C31_copy_equal_partial : forall dest q, request_ok q ->
  (q_body_length q <> 0 \/ q_body_length dest = 0) -> (q_address q <> None \/ q_address dest = None) ->
  exists r, copy_request dest q = Ret (U_OK, r) /\ same_request r q.
Proof.
  intros dest q OK HB HA. destruct (copy_request_ok dest q OK) as (r & E & H1 & H2 & H3 & H4 & H5 & H6 & H7 & H8).
  exists r. split; [auto|]. unfold same_request.
  split; [auto|]. split; [auto|]. split; [rewrite H3; destruct (q_address q); [auto|destruct HA; congruence]|].
  split; [auto|]. split; [auto|]. split; [auto|]. split; [auto|].
  destruct (q_body_length q =? 0) eqn:N; [|tauto]. apply Z.eqb_eq in N. destruct H8 as [B1 B2]. rewrite B1, B2, N.
  destruct HB as [HB| ->]; [congruence|]. split; reflexivity.
Qed.
Print Assumptions C31_copy_equal_partial.

Definition ex_map (k v : string) : umap := match u_map_put u_map_init (Some (bs k)) (Some (bs v)) with Ret r => snd r | UB _ => u_map_init end.
Definition ex_request : request :=
  mk_request [Some (bs "HTTP/1.1"); Some (bs "POST"); Some (bs "/a?b=c"); Some (bs "/a"); None; None; None; None; None; None; None]
    [17; 1; 17; 1; 17; 0; 0; 0] (Some (repeat 1 16)) (ex_map "b" "c") (ex_map "Host" "h") u_map_init u_map_init
    (Some (block_of (bs "xyz"))) 3.
Lemma ex_map_repr : forall k v, bs k <> [] -> ovalue_ok (Some (bs v)) -> repr (ex_map k v) [(bs k, Some (bs v))].
Proof.
  intros k v K V. unfold ex_map. destruct (repr_put u_map_init [] (bs k) (Some (bs v)) repr_init K V) as (m & E & R).
  rewrite E. exact R.
Qed.
Example ex31_hyp : request_ok ex_request.
Proof.
  assert (O : forall l, cstrb (bs l) = true -> zlen (bs l) + 2 < two64 -> ovalue_ok (Some (bs l))).
  { intros l H Z. apply cstrb_true in H. unfold ovalue_ok. auto. }
  unfold request_ok. split; [|split; [|split; [|split]]].
  - eexists. apply ex_map_repr; [discriminate|apply O; reflexivity].
  - eexists. apply ex_map_repr; [discriminate|apply O; reflexivity].
  - exists []. apply repr_init.
  - exists []. apply repr_init.
  - cbn. unfold zlen. cbn. lia.
Qed.

(** C31 does not hold for ulfius_copy_request into a request that has a body when the source has
    none: the old body stays. *)
Theorem C31_used_dest_refuted : exists dest q r, request_ok dest /\ request_ok q /\
  copy_request dest q = Ret (U_OK, r) /\ q_body q = None /\ q_body_length q = 0 /\
  q_body r = Some (block_of (bs "xyz")) /\ q_body_length r = 3.
Proof.
  exists ex_request, init_request. eexists. split; [apply ex31_hyp|]. split.
  - repeat split; try (exists []; apply repr_init).
  - split; [vm_compute; reflexivity|]. repeat split.
Qed.
Print Assumptions C31_used_dest_refuted.

(** C32. After any history of body calls in which ulfius_set_string_body_* never runs out of
    memory, each call answered as expected and body, length and status are those of the last
    effective call. Partial: see C32_string_body_oom_refuted. *)
Theorem C32_body_and_length_partial : forall ops, Forall body_op_ok ops -> forallb (fun o => negb (failed_string o)) ops = true ->
  exists m, body_run init_msg ops = Ret (map expected_code ops, m) /\
    msg_is m (fst (fold_left body_effect ops ([], 200))) (snd (fold_left body_effect ops ([], 200))).
Proof. intros ops OK NF. apply body_run_ok; auto. repeat split. Qed.
Print Assumptions C32_body_and_length_partial.

Definition ex_ops : list body_op :=
  [SetString true 200 (Some (bs "hello")); SetBinary true 201 (Some [1; 0; 2; 9]) 3; SetString true 500 None;
   SetBinary true 500 (Some [1]) 0; SetJson false 400 (Some (bs "{}"))].
Example ex32_hyp : Forall body_op_ok ex_ops /\ forallb (fun o => negb (failed_string o)) ex_ops = true.
Proof.
  split; [|reflexivity]. repeat constructor; cbn; try lia.
Qed.
Example ex32_run : body_run init_msg (firstn 4 ex_ops) = Ret ([0; 0; 3; 3], mk_msg (Some [Some 1; Some 0; Some 2]) 3 201)
  /\ body_run init_msg ex_ops = Ret ([0; 0; 3; 3; 2], mk_msg None 0 201).
Proof. split; vm_compute; reflexivity. Qed.

(** C32 does not hold when o_strdup fails: NULL body with the old length. *)
Theorem C32_string_body_oom_refuted : exists ops m, Forall body_op_ok ops /\
  body_run init_msg ops = Ret (map expected_code ops, m) /\ m_body m = None /\ m_length m = 5.
Proof.
  exists [SetString true 200 (Some (bs "hello")); SetString false 200 (Some (bs "x"))]. eexists.
  split; [repeat constructor; cbn; lia|]. split; [vm_compute; reflexivity|]. split; reflexivity.
Qed.
Print Assumptions C32_string_body_oom_refuted.
