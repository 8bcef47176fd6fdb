(** Properties C86 (what a request says about its client) and C87 (everything kept for a request is released once). *)
From Coq Require Import String ZArith Bool List Lia.
From Verif Require Import Base BaseFacts ConnModel ConnSpec ConnProofs.
Import ListNotations.
Open Scope Z_scope.

(** ** C86 *)
(** the URL is kept as it was sent, the path is what stands before the question mark *)
Theorem C86_url : forall uri, exists c q tr, uri_logger plenty uri = Ret (Some c, tr) /\ cn_request c = Some q /\ cn_first c = true /\
  rq_url q = Some uri /\ (forall p, rq_path q = Some p <-> path_of uri p).
Proof.
  intros uri. do 3 eexists. split; [reflexivity|]. split; [reflexivity|]. split; [reflexivity|]. split; [reflexivity|]. cbn [rq_path al_path plenty]. pose proof (path_lemma uri) as H. intros p. split.
  - intros E. injection E as <-. exact H.
  - intros P. apply f_equal. now apply (path_unique uri).
Qed.
(** after the first call the request has the method, the version and the first bytes of the client's address, and a certificate exactly when the instance asks for them,
    GnuTLS verified the chain of the peer, and the certificate could be read *)
Theorem C86_client : forall i c q, has_memory i -> 16 <= zlen (f_peer i) -> cn_request c = Some q ->
  exists c' q' tr, first_call i c = Ret (true, c', tr) /\ cn_request c' = Some q' /\ cn_first c' = false /\
    rq_url q' = rq_url q /\ rq_path q' = rq_path q /\ rq_verb q' = Some (f_method i) /\ rq_protocol q' = Some (f_version i) /\ rq_address q' = Some (zfirstn 16 (f_peer i)) /\
    (rq_cert q' = Held <-> f_auth i = true /\ exists s, f_tls i = Some s /\ verified s /\ t_init s = 0 /\ t_import s = 0) /\
    (rq_cert q' = Dangling -> exists s, f_tls i = Some s /\ verified s /\ t_import s <> 0).
Proof.
  intros i c q (A1 & A2 & A3 & A4) L Q. unfold first_call. rewrite Q, A1, A2, A3, A4. pose proof (take_spec (f_auth i) (f_tls i)) as T. pose proof (take_dangling (f_auth i) (f_tls i)) as D.
  destruct (take_certificate (f_auth i) (f_tls i)) as (crt & ev). cbn [fst] in *. cbn [negb andb]. replace (zlen (f_peer i) <? ADDRESS) with false by (symmetry; apply Z.ltb_ge; unfold ADDRESS; lia).
  destruct (wants_post (f_allowed i) (f_content i)); do 3 eexists; (split; [reflexivity|]); (split; [reflexivity|]); repeat (split; [reflexivity|]); split; auto.
Qed.
(** forms are read for the content types the instance allows *)
Theorem C86_forms : forall i c q, has_memory i -> 16 <= zlen (f_peer i) -> cn_request c = Some q -> cn_post c = false ->
  exists c' tr, first_call i c = Ret (true, c', tr) /\ (cn_post c' = true <-> exists t rest, f_content i = Some (t ++ rest) /\
    ((t = bs "application/x-www-form-urlencoded" /\ Z.land (f_allowed i) 1 <> 0) \/ (t = bs "multipart/form-data" /\ Z.land (f_allowed i) 16 <> 0))).
Proof.
  intros i c q (A1 & A2 & A3 & A4) L Q P. unfold first_call. rewrite Q, A1, A2, A3, A4.
  destruct (take_certificate (f_auth i) (f_tls i)) as (crt & ev). cbn [negb andb]. replace (zlen (f_peer i) <? ADDRESS) with false by (symmetry; apply Z.ltb_ge; unfold ADDRESS; lia).
  assert (W : wants_post (f_allowed i) (f_content i) = true <-> exists t rest, f_content i = Some (t ++ rest) /\
    ((t = bs "application/x-www-form-urlencoded" /\ Z.land (f_allowed i) 1 <> 0) \/ (t = bs "multipart/form-data" /\ Z.land (f_allowed i) 16 <> 0))).
  { unfold wants_post. destruct (f_content i) as [t|].
    - rewrite orb_true_iff, !andb_true_iff, !negb_true_iff, !Z.eqb_neq, !prefixb_true. split.
      + intros [(Z1 & r & ->)|(Z1 & r & ->)]; [exists FORM, r|exists MULTIPART, r]; auto.
      + intros (t' & r & E & [(-> & Z1)|(-> & Z1)]); injection E as E; [left|right]; (split; [exact Z1|exists r; exact E]).
    - split; [discriminate|intros (t & r & E & _); discriminate]. }
  destruct (wants_post (f_allowed i) (f_content i)); do 2 eexists; (split; [reflexivity|]); cbn [cn_post]; [exact W|]. rewrite P. exact W.
Qed.
Definition a_session : tls := mk_tls 0 0 1 0 0.
Definition a_peer : list Z := [2; 0; 31; 144; 192; 168; 1; 7; 0; 0; 0; 0; 0; 0; 0; 0].
Definition a_call : call1 := mk_call1 true 17 (Some a_session) (bs "POST") (bs "HTTP/1.1") a_peer (Some (bs "multipart/form-data; boundary=x")) true true true true.
Example C86_case : has_memory a_call /\ 16 <= zlen (f_peer a_call) /\
  match uri_logger plenty (bs "/a/b?x=1?2") with
  | Ret (Some c, _) =>
      match first_call a_call c with
      | Ret (y, c', tr) => y = true /\ tr = [New Cert; New Post] /\ cn_request c' = Some (mk_req (Some (bs "/a/b?x=1?2")) (Some (bs "/a/b")) (Some (bs "POST")) (Some (bs "HTTP/1.1")) (Some a_peer) Held)
      | UB _ => False
      end
  | _ => False
  end.
Proof. split; [repeat split|]. split; [vm_compute; congruence|]. vm_compute. repeat split. Qed.
(** the address of an IPv6 client is cut: two clients in different networks look the same *)
Theorem C86_ipv6_refuted : exists i1 i2 c q1 q2 c1 c2 t1 t2, has_memory i1 /\ has_memory i2 /\ zlen (f_peer i1) = 28 /\ zlen (f_peer i2) = 28 /\ f_peer i1 <> f_peer i2 /\
  first_call i1 c = Ret (true, c1, t1) /\ first_call i2 c = Ret (true, c2, t2) /\ cn_request c1 = Some q1 /\ cn_request c2 = Some q2 /\ rq_address q1 = rq_address q2.
Proof.
  exists (mk_call1 false 0 None (bs "GET") (bs "HTTP/1.1") ([10; 0; 0; 80; 0; 0; 0; 0] ++ [32; 1; 13; 184; 0; 0; 0; 1] ++ [0; 0; 0; 0; 0; 0; 0; 1] ++ [0; 0; 0; 0]) None true true true true).
  exists (mk_call1 false 0 None (bs "GET") (bs "HTTP/1.1") ([10; 0; 0; 80; 0; 0; 0; 0] ++ [32; 1; 13; 184; 0; 0; 0; 1] ++ [0; 0; 0; 0; 0; 0; 0; 2] ++ [0; 0; 0; 0]) None true true true true).
  exists (mk_con true false false (Some (mk_req None None None None None NoCert))). do 6 eexists.
  repeat (split; [repeat split || discriminate|]). reflexivity.
Qed.

(** ** C87 *)
Theorem C87_released_partial : forall uri i l, 16 <= zlen (f_peer i) -> readable (f_tls i) -> exists tr, life plenty uri i l = Ret tr /\ balanced tr.
Proof. exact life_balanced. Qed.
Example C87_case : 16 <= zlen (f_peer a_call) /\ readable (f_tls a_call) /\
  life plenty (bs "/a?b") a_call [true; true; false] = Ret [New Info; New UrlMap; New Request; New Cert; New Post; Release Post; Release Cert; Release Request; Release UrlMap; Release Info].
Proof. split; [vm_compute; congruence|]. split; [intros _; reflexivity|reflexivity]. Qed.
(** the certificate that cannot be read is released twice *)
Theorem C87_unreadable_certificate_refuted : exists i uri l, has_memory i /\ 16 <= zlen (f_peer i) /\ life plenty uri i l = UB DoubleFree.
Proof.
  exists (mk_call1 true 0 (Some (mk_tls 0 0 1 0 (-1))) (bs "GET") (bs "HTTP/1.1") a_peer None true true true true), (bs "/"), [true].
  split; [repeat split|]. split; [vm_compute; congruence|reflexivity].
Qed.
(** without memory for the maps of the request, pointers that were never set are freed; without memory for the request or its texts, the map of the URL is lost *)
Theorem C87_memory_refuted : (exists al uri i l, life al uri i l = UB Uninit) /\ (exists al uri i l tr, life al uri i l = Ret tr /\ ~ balanced tr).
Proof.
  split.
  - exists (mk_allocs true true false true true), (bs "/"), a_call, []. reflexivity.
  - exists (mk_allocs true true true true false), (bs "/"), a_call, []. eexists. split; [reflexivity|]. intros B. vm_compute in B. discriminate.
Qed.

(** when the request or its texts cannot be allocated, the map of the URL is all that is lost *)
Theorem C87_only_the_map_is_lost : forall al uri i l, al_info al = true -> al_maps al = true -> al_request al && al_url al && al_path al = false ->
  exists tr, life al uri i l = Ret tr /\ balanced (tr ++ [Release UrlMap]).
Proof.
  intros [a b c d e] uri i l A M N. cbn in *. subst. unfold life, uri_logger. cbn [al_info al_request al_maps al_url al_path negb].
  destruct b, d, e; try discriminate; cbn; eexists; (split; [reflexivity|vm_compute; reflexivity]).
Qed.
Example C87_lost_case : al_request (mk_allocs true true true true false) && al_url (mk_allocs true true true true false) && al_path (mk_allocs true true true true false) = false.
Proof. reflexivity. Qed.

Print Assumptions C86_url.
Print Assumptions C86_client.
Print Assumptions C86_forms.
Print Assumptions C86_ipv6_refuted.
Print Assumptions C87_released_partial.
Print Assumptions C87_unreadable_certificate_refuted.
Print Assumptions C87_memory_refuted.
Print Assumptions C87_only_the_map_is_lost.
