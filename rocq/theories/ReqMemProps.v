(** C98: the memory of requests, also when allocations fail. *)
From Coq Require Import String ZArith Bool List Lia.
From Verif Require Import Base BaseFacts OwnModel OwnSpec OwnProofs MapMemModel MapMemSpec MapMemProofs MapMemSteps RespMemModel RespMemSpec RespMemProofs RespMemSteps
  ReqMemModel ReqMemSpec ReqMemProofs ReqMemCalls ReqMemCopy ReqMemSteps.
Import ListNotations.
Open Scope Z_scope.

(** C98. A program makes requests or gets them from connections, gives them texts, entries of
    maps, bodies and certificates, duplicates and releases them, any number at a time. Each call
    comes with what o_malloc, o_strdup and gnutls_x509_crt_init answer while it runs; where they may
    fail is said by [q_memory_ok]. No block is used after its release or released twice, no member
    is read before it is written, no byte outside a body is read. A call does what it means, or,
    only if an allocation failed while it ran, it leaves what [aq_step_fail] says. At the end the
    requests show what the calls mean, and the blocks in use are exactly those reachable from the
    requests, each from one place only, and the blocks of the certificates that were written over,
    as many as the specification counts. *)
Theorem C98_exact_partial : forall dups max ops, 0 <= max -> max + Z.of_nat (List.length ops) + 1 < two64 ->
  Forall (fun x => qop_ok dups max (snd x) /\ q_memory_ok dups (snd x) (fst x)) ops ->
  exists cs s l gone, qrun qstart ops = Ret (cs, s) /\ aq_means [] ops cs l (List.length gone) /\
    read_reqs (n_mem s) (n_reqs s) = Ret l /\
    NoDup (qprog_blocks s ++ gone) /\ NoDup (h_live (m_heap (n_mem s))) /\
    (forall x, In x (h_live (m_heap (n_mem s))) <-> In x (qprog_blocks s ++ gone)).
Proof.
  intros dups max ops M0 LT F. destruct (qrun_ok dups ops max qstart [] [] (qpinv_start _ _) F M0 LT) as (cs & s & l & more & R & M & [FL O]).
  rewrite app_nil_r in O. exists cs, s, l, more. split; [exact R|]. split; [exact M|]. split; [eapply read_reqs_ok; [exact O|apply incl_appl, incl_refl|exact FL]|].
  destruct (owns_spec _ _ (proj1 O)) as (A & B & C). auto.
Qed.
Print Assumptions C98_exact_partial.

(** C98. When every allocation has memory, every call does what it means. *)
Theorem C98_memory_partial : forall dups max ops, 0 <= max -> max + Z.of_nat (List.length ops) + 1 < two64 -> Forall (qop_ok dups max) ops ->
  exists cs s, qrun qstart (map (pair []) ops) = Ret (cs, s) /\
    cs = snd (fold_left (fun x o => (fst (snd (aq_step (fst x) o)), snd x ++ [fst (aq_step (fst x) o)])) ops ([], [])) /\
    read_reqs (n_mem s) (n_reqs s) = Ret (fold_left (fun l o => fst (snd (aq_step l o))) ops []).
Proof.
  intros dups max ops M0 LT F.
  destruct (C98_exact_partial dups max (map (pair []) ops) M0) as (cs & s & l & gone & R & M & D & _); [now rewrite map_length| |].
  { apply Forall_forall. intros x X. apply in_map_iff in X as (o & <- & X). cbn [fst snd]. rewrite Forall_forall in F. split; [auto|].
    destruct o; cbn; auto. }
  exists cs, s. split; [exact R|].
  assert (G : forall ops a cs l n, aq_means a (map (pair []) ops) cs l n -> forall c0,
    c0 ++ cs = snd (fold_left (fun x o => (fst (snd (aq_step (fst x) o)), snd x ++ [fst (aq_step (fst x) o)])) ops (a, c0)) /\
    l = fold_left (fun l o => fst (snd (aq_step l o))) ops a).
  { clear. induction ops as [|o ops IH]; intros a cs l n M c0; cbn [fold_left map fst snd] in *; inversion M; subst.
    - rewrite app_nil_r. auto.
    - match goal with H : aq_means (fst (snd (aq_step a o))) _ _ _ _ |- _ => destruct (IH _ _ _ _ H (c0 ++ [fst (aq_step a o)])) as [E1 E2] end. rewrite <- app_assoc in E1. cbn [app] in E1. split; [exact E1|exact E2].
    - contradiction. }
  destruct (G _ _ _ _ _ M []) as [E1 E2]. cbn [app] in E1. rewrite D, <- E2. auto.
Qed.
Print Assumptions C98_memory_partial.

(** C98. Releasing the requests leaves no block but those of the certificates that were written
    over; so none at all when no request is given a certificate. *)
Theorem C98_released_partial : forall dups max ops cs s, 0 <= max -> max + Z.of_nat (List.length ops) + 1 < two64 ->
  Forall (fun x => qop_ok dups max (snd x) /\ q_memory_ok dups (snd x) (fst x)) ops -> qrun qstart ops = Ret (cs, s) ->
  exists cs' s' l, qrun s (repeat ([], QRelease 0) (List.length (n_reqs s))) = Ret (cs', s') /\ Forall (eq U_OK) cs' /\
    aq_means [] ops cs l (List.length (h_live (m_heap (n_mem s')))) /\
    (Forall (fun x => no_cert (snd x)) ops -> h_live (m_heap (n_mem s')) = []).
Proof.
  intros dups max ops cs s M0 LT F R.
  destruct (qrun_ok dups ops max qstart [] [] (qpinv_start _ _) F M0 LT) as (cs1 & s1 & l & more & R1 & M & P).
  rewrite R in R1. injection R1 as <- <-. rewrite app_nil_r in P.
  destruct (qrelease_all _ _ _ _ _ _ P eq_refl) as (cs' & s' & R' & _ & O & FC). exists cs', s', l. split; [exact R'|]. split; [exact FC|].
  destruct (owns_spec _ _ (proj1 O)) as (A & B & C).
  assert (LEN : List.length (h_live (m_heap (n_mem s'))) = List.length more) by (apply Nat.le_antisymm; apply NoDup_incl_length; auto; intros x X; now apply A).
  rewrite LEN. split; [exact M|]. intros NC. pose proof (no_cert_lost _ _ _ _ _ M NC (Forall_nil _)) as Z. rewrite Z in LEN. now destruct (h_live (m_heap (n_mem s'))).
Qed.
Print Assumptions C98_released_partial.

(** a request that comes in with a certificate, its duplicate, another one; the first is released *)
Definition C98_ops : list qop :=
  [QIncoming (bs "/a?b") (bs "/a") (Some (Some (bs "PEM"))) (bs "HTTP/1.1") (bs "POST") [127; 0; 0; 1]; QPut 0 M_HEADER (bs "Host") (Some (bs "x")); QPut 0 M_URL (bs "b") (Some []);
   QPut 0 M_HEADER (bs "Accept") (Some (bs "text")); QRemove 0 M_HEADER (bs "Host"); QBytes 0 [1; 0; 2]; QText 0 T_USER (Some (bs "me")); QText 0 T_PATH (Some (bs "no")); QDuplicate 0;
   QNew; QText 2 T_URL (Some (bs "http://h/")); QString 2 (bs "hello"); QCert 2 false (bs "bad"); QDuplicate 2; QRelease 0].
Example C98_ex_ok : Forall (qop_ok true 100) C98_ops.
Proof. repeat constructor; unfold qop_ok; intros; repeat split; try discriminate; try (vm_compute; intuition discriminate); try (repeat constructor; vm_compute; reflexivity). Qed.
Example C98_ex : exists s, qrun qstart (map (pair []) C98_ops) = Ret ([U_OK; U_OK; U_OK; U_OK; U_OK; U_OK; U_OK; U_ERROR_PARAMS; U_OK; U_OK; U_OK; U_OK; U_ERROR; U_ERROR; U_OK], s) /\
  read_reqs (n_mem s) (n_reqs s) = Ret
    [mk_areq [Some (bs "HTTP/1.1"); Some (bs "POST"); Some (bs "/a?b"); Some (bs "/a"); None; Some (bs "me"); None; None; None; None; None] (Some [127; 0; 0; 1])
       [[(bs "b", [0])]; [(bs "Accept", bs "text" ++ [0])]; []; []] (Some [1; 0; 2]) (Some (Some (bs "PEM")));
     mk_areq [None; None; Some (bs "http://h/"); None; None; None; None; None; None; None; None] None [[]; []; []; []] (Some (bs "hello")) (Some None)].
Proof. eexists. split; [vm_compute; reflexivity|]. vm_compute. reflexivity. Qed.
(** memory is missing for the method of a request, for a request, for the user, an entry, a body,
    for a text of a duplicate and for its address *)
Definition C98_poor : list (list bool * qop) :=
  [(repeat true 20 ++ [false], QIncoming (bs "/a") (bs "/a") None (bs "HTTP/1.1") (bs "GET") [1]); ([false], QNew); ([], QNew); ([], QText 1 T_USER (Some (bs "me")));
   ([false], QText 1 T_USER (Some (bs "you"))); ([false], QPut 1 M_POST (bs "k") (Some (bs "v"))); ([false], QBytes 1 [1]);
   (repeat true 17 ++ [false], QDuplicate 0); (repeat true 20 ++ [false], QDuplicate 0)].
Example C98_ex_poor_ok : Forall (fun x => qop_ok true 100 (snd x) /\ q_memory_ok true (snd x) (fst x)) C98_poor.
Proof.
  repeat apply Forall_cons; try apply Forall_nil; split; cbn; try exact I; try reflexivity; try discriminate;
    try (left; reflexivity); try (right; intros H; decompose [or] H; try discriminate; assumption).
  split; [repeat constructor; vm_compute; reflexivity|vm_compute; discriminate].
Qed.
Example C98_ex_poor : exists s, qrun qstart C98_poor = Ret ([U_ERROR_MEMORY; U_ERROR_MEMORY; U_OK; U_OK; U_OK; U_ERROR_MEMORY; U_ERROR_MEMORY; U_OK; U_ERROR], s) /\
  read_reqs (n_mem s) (n_reqs s) = Ret
    [mk_areq [Some (bs "HTTP/1.1"); None; Some (bs "/a"); Some (bs "/a"); None; None; None; None; None; None; None] (Some [1]) [[]; []; []; []] None None;
     new_req;
     mk_areq [None; None; Some (bs "/a"); Some (bs "/a"); None; None; None; None; None; None; None] (Some [1]) [[]; []; []; []] None None].
Proof. eexists. split; [vm_compute; reflexivity|]. vm_compute. reflexivity. Qed.

(** the state after some calls that all have memory *)
Definition after_qcalls (ops : list qop) (s : qprog) : Prop := exists cs, qrun qstart (map (pair []) ops) = Ret (cs, s) /\ Forall (eq U_OK) cs.
Ltac qcalls := eexists; split; [vm_compute; reflexivity|repeat constructor].

(** Refuted when one of the four maps has no memory: ulfius_init_request calls
    ulfius_clean_request on the structure it did not fill, and http_protocol is read before it was
    ever written. *)
Theorem C98_init_refuted : qstep (q_answers qstart [true; true; false]) QNew = UB Uninit.
Proof. vm_compute. reflexivity. Qed.
Print Assumptions C98_init_refuted.

(** Refuted when an array of a map has no memory: ulfius_init_request does not look at the results
    of u_map_init and answers U_OK; u_map_put on this map goes through NULL. *)
Theorem C98_init_map_refuted : exists s,
  qstep (q_answers qstart [true; true; true; true; true; false]) QNew = Ret (U_OK, s) /\ qstep s (QPut 0 M_URL (bs "k") (Some (bs "v"))) = UB NullDeref.
Proof. eexists. split; vm_compute; reflexivity. Qed.
Print Assumptions C98_init_map_refuted.

(** Refuted: ulfius_clean_request resets http_protocol, http_verb, http_url and proxy, but not
    url_path, auth_basic_user, auth_basic_password, ca_path, the texts and the block of the
    certificate. A second ulfius_clean_request on the same request releases them again. *)
Theorem C98_clean_twice_refuted :
  Forall (fun o => exists s p r m r', after_qcalls [QNew; o] s /\ n_reqs s = [(p, r)] /\ x_clean_req (n_mem s) r = Ret (m, r') /\ x_clean_req m r' = UB DoubleFree)
    [QText 0 T_USER (Some (bs "me")); QText 0 T_PASSWORD (Some (bs "me")); QText 0 T_CA (Some (bs "me")); QText 0 T_CERT (Some (bs "me")); QText 0 T_KEY (Some (bs "me"));
     QText 0 T_KEY_PASSWORD (Some (bs "me")); QCert 0 true (bs "PEM")] /\
  (exists s p r m r', after_qcalls [QIncoming (bs "/") (bs "/") None (bs "HTTP/1.1") (bs "GET") [1]] s /\ n_reqs s = [(p, r)] /\ x_clean_req (n_mem s) r = Ret (m, r') /\ x_clean_req m r' = UB DoubleFree).
Proof.
  split; [repeat (apply Forall_cons; [do 5 eexists; (split; [qcalls|]); (split; [reflexivity|]); (split; [vm_compute; reflexivity|]); vm_compute; reflexivity|]); apply Forall_nil|].
  do 5 eexists; (split; [qcalls|]); (split; [reflexivity|]); (split; [vm_compute; reflexivity|]); vm_compute; reflexivity.
Qed.
Print Assumptions C98_clean_twice_refuted.

(** Refuted when o_strdup has no memory in ulfius_set_string_body_request: the body becomes NULL
    and the old length stays; ulfius_duplicate_request then copies that many bytes from NULL. *)
Theorem C98_string_length_refuted : exists s s',
  after_qcalls [QNew; QString 0 (bs "hello")] s /\ qstep (q_answers s [false]) (QString 0 (bs "bye")) = Ret (U_ERROR_MEMORY, s') /\ qstep s' (QDuplicate 0) = UB NullDeref.
Proof. do 2 eexists. split; [qcalls|]. split; [vm_compute; reflexivity|]. vm_compute. reflexivity. Qed.
Print Assumptions C98_string_length_refuted.

(** Refuted, with memory: ulfius_copy_request initialises the certificate of the copy and the
    import initialises it again, so the block of the first is never released: each duplicate of a
    request that has a certificate loses one. *)
Theorem C98_copy_cert_refuted : exists s s',
  after_qcalls [QNew; QCert 0 true (bs "PEM"); QDuplicate 0; QRelease 1; QRelease 0] s /\ n_reqs s = [] /\ List.length (h_live (m_heap (n_mem s))) = 1%nat /\
  after_qcalls [QNew; QCert 0 true (bs "PEM"); QDuplicate 0; QDuplicate 1; QDuplicate 2; QRelease 3; QRelease 2; QRelease 1; QRelease 0] s' /\ n_reqs s' = [] /\ List.length (h_live (m_heap (n_mem s'))) = 3%nat.
Proof. do 2 eexists. split; [qcalls|]. split; [reflexivity|]. split; [reflexivity|]. split; [qcalls|]. split; reflexivity. Qed.
Print Assumptions C98_copy_cert_refuted.

(** Refuted, with memory: ulfius_import_client_certificate_pem on a request that has a certificate
    writes over it without releasing it. *)
Theorem C98_import_twice_refuted : exists s,
  after_qcalls [QNew; QCert 0 true (bs "one"); QCert 0 true (bs "two"); QRelease 0] s /\ n_reqs s = [] /\ h_live (m_heap (n_mem s)) <> [].
Proof. eexists. split; [qcalls|]. split; [reflexivity|]. vm_compute. discriminate. Qed.
Print Assumptions C98_import_twice_refuted.

(** Refuted when GnuTLS cannot read the certificate of a peer (ulfius.c:519-521): it is released
    and the pointer is kept, and the end of the connection, ulfius_clean_request, releases it
    again. *)
Theorem C98_peer_cert_refuted : exists s,
  after_qcalls [QIncoming (bs "/") (bs "/") (Some None) (bs "HTTP/1.1") (bs "GET") [1]] s /\ qstep s (QRelease 0) = UB DoubleFree.
Proof. eexists. split; [qcalls|]. vm_compute. reflexivity. Qed.
Print Assumptions C98_peer_cert_refuted.

(** Refuted: ulfius_copy_request into a request that already has texts, an address, a body or a
    certificate writes over them without releasing them. *)
Theorem C98_copy_used_refuted :
  Forall (fun o => exists s p r q t c m r2 m2 m3,
    after_qcalls [o; QIncoming (bs "/") (bs "/") None (bs "HTTP/1.1") (bs "GET") [1]; QBytes 0 [1]; QBytes 1 [2]] s /\ n_reqs s = [(p, r); (q, t)] /\
    x_copy_req (n_mem s) r t = Ret (c, (m, r2)) /\ c = U_OK /\ x_clean_req_full m p r2 = Ret m2 /\ x_clean_req_full m2 q t = Ret m3 /\ h_live (m_heap m3) <> [])
    [QNew; QIncoming (bs "/") (bs "/") None (bs "HTTP/1.1") (bs "GET") [1]].
Proof.
  repeat (apply Forall_cons; [do 10 eexists; (split; [qcalls|]); (split; [reflexivity|]); (split; [vm_compute; reflexivity|]); (split; [reflexivity|]); (split; [vm_compute; reflexivity|]); (split; [vm_compute; reflexivity|]); vm_compute; discriminate|]).
  apply Forall_nil.
Qed.
Print Assumptions C98_copy_used_refuted.

(** Refuted when o_strdup has no memory: ulfius_set_request_properties and
    ulfius_duplicate_request answer as if all was well, with the text missing; for the duplicate of
    a request, the method or the URL. *)
Theorem C98_missing_refuted : exists s s1 s2,
  after_qcalls [QNew; QText 0 T_VERB (Some (bs "DELETE")); QText 0 T_USER (Some (bs "me"))] s /\
  qstep (q_answers s [false]) (QText 0 T_USER (Some (bs "you"))) = Ret (U_OK, s1) /\
  read_reqs (n_mem s1) (n_reqs s1) = Ret [put_texts new_req (set_nth (repeat None 11) T_VERB (Some (bs "DELETE")))] /\
  qstep (q_answers s (repeat true 17 ++ [false])) (QDuplicate 0) = Ret (U_OK, s2) /\
  read_reqs (n_mem s2) (skipn 1 (n_reqs s2)) = Ret [put_texts new_req (set_nth (repeat None 11) T_USER (Some (bs "me")))].
Proof. do 3 eexists. split; [qcalls|]. split; [vm_compute; reflexivity|]. split; [vm_compute; reflexivity|]. split; [vm_compute; reflexivity|]. vm_compute. reflexivity. Qed.
Print Assumptions C98_missing_refuted.
