(** C97: the memory of responses, also when allocations fail. *)
From Coq Require Import String ZArith Bool List Lia.
From Verif Require Import Base BaseFacts OwnModel OwnSpec OwnProofs MapMemModel MapMemSpec MapMemProofs MapMemSteps RespMemModel RespMemSpec RespMemProofs RespMemSteps.
Import ListNotations.
Open Scope Z_scope.

(** C97. A program makes responses, gives them a protocol, a realm, headers, bodies, cookies,
    websocket parameters and extensions, duplicates and releases them, any number at a time. Each
    call comes with what o_malloc and o_strdup answer while it runs; where they may fail is said by
    [memory_ok]. No block is used after its release or released twice, no member is read before it
    is written, no byte outside a body is read. A call does what it means, or, only if an
    allocation failed while it ran, it leaves what [ar_step_fail] says. At the end the responses
    show what the calls mean, and the blocks in use are exactly those reachable from the responses,
    each from one place only. *)
Theorem C97_exact_partial : forall dups max ops, 0 <= max -> max + 1 < two64 ->
  Forall (fun x => rop_ok dups max (snd x) /\ memory_ok (snd x) (fst x)) ops ->
  exists cs s l, rrun rstart ops = Ret (cs, s) /\ ar_means [] ops cs l /\
    read_resps (g_mem s) (g_resps s) = Ret l /\
    NoDup (rprog_blocks s) /\ NoDup (h_live (m_heap (g_mem s))) /\
    (forall x, In x (h_live (m_heap (g_mem s))) <-> In x (rprog_blocks s)).
Proof.
  intros dups max ops M0 LT F. destruct (rrun_ok dups max ops rstart [] (ginv_start _ _) F M0 LT) as (cs & s & l & R & M & [FL O]).
  exists cs, s, l. split; [exact R|]. split; [exact M|]. split; [eapply read_resps_ok; [exact O|apply incl_refl|exact FL]|].
  destruct (owns_spec _ _ (proj1 O)) as (A & B & C). auto.
Qed.
Print Assumptions C97_exact_partial.

(** C97. When every allocation has memory, every call does what it means. *)
Theorem C97_memory_partial : forall dups max ops, 0 <= max -> max + 1 < two64 -> Forall (rop_ok dups max) ops ->
  exists cs s, rrun rstart (map (pair []) ops) = Ret (cs, s) /\
    cs = snd (fold_left (fun x o => (snd (ar_step (fst x) o), snd x ++ [fst (ar_step (fst x) o)])) ops ([], [])) /\
    read_resps (g_mem s) (g_resps s) = Ret (fold_left (fun l o => snd (ar_step l o)) ops []).
Proof.
  intros dups max ops M0 LT F.
  destruct (C97_exact_partial dups max (map (pair []) ops) M0 LT) as (cs & s & l & R & M & D & _).
  { apply Forall_forall. intros x X. apply in_map_iff in X as (o & <- & X). cbn [fst snd]. rewrite Forall_forall in F. split; [auto|].
    destruct o as [| | | | | | | | |? [?|] ?| | |]; cbn; auto. }
  exists cs, s. split; [exact R|].
  assert (G : forall ops a cs l, ar_means a (map (pair []) ops) cs l -> forall c0,
    c0 ++ cs = snd (fold_left (fun x o => (snd (ar_step (fst x) o), snd x ++ [fst (ar_step (fst x) o)])) ops (a, c0)) /\
    l = fold_left (fun l o => snd (ar_step l o)) ops a).
  { clear. induction ops as [|o ops IH]; intros a cs l M c0; cbn [fold_left map fst snd] in *; inversion M; subst.
    - rewrite app_nil_r. auto.
    - match goal with H : ar_means (snd (ar_step a o)) _ _ _ |- _ => destruct (IH _ _ _ H (c0 ++ [fst (ar_step a o)])) as [E1 E2] end. rewrite <- app_assoc in E1. cbn [app] in E1. split; [exact E1|exact E2].
    - contradiction. }
  destruct (G _ _ _ _ M []) as [E1 E2]. cbn [app] in E1. rewrite D, <- E2. auto.
Qed.
Print Assumptions C97_memory_partial.

(** C97. Releasing the responses leaves no block, whatever was done before and whatever failed. *)
Theorem C97_released_partial : forall dups max ops cs s, 0 <= max -> max + 1 < two64 ->
  Forall (fun x => rop_ok dups max (snd x) /\ memory_ok (snd x) (fst x)) ops -> rrun rstart ops = Ret (cs, s) ->
  exists cs' s', rrun s (repeat ([], RRelease 0) (List.length (g_resps s))) = Ret (cs', s') /\ Forall (eq U_OK) cs' /\ h_live (m_heap (g_mem s')) = [].
Proof.
  intros dups max ops cs s M0 LT F R.
  destruct (rrun_ok dups max ops rstart [] (ginv_start _ _) F M0 LT) as (cs1 & s1 & l & R1 & M & P).
  rewrite R in R1. injection R1 as <- <-.
  destruct (rrelease_all _ _ _ _ _ P eq_refl) as (cs' & s' & R' & _ & O & FC). exists cs', s'. split; [exact R'|]. split; [exact FC|].
  destruct (owns_spec _ _ (proj1 O)) as (A & _ & _). destruct (h_live (m_heap (g_mem s'))) as [|x r]; auto. exfalso. apply (A x). now left.
Qed.
Print Assumptions C97_released_partial.

(** a response with everything, two cookies of which one is written twice, its duplicate, the
    first one released *)
Definition C97_ops : list rop :=
  [RNew; RProtocol 0 (bs "HTTP/1.1"); RRealm 0 (Some (bs "home")); RHeader 0 (bs "A") (Some (bs "one")); RHeader 0 (bs "B") (Some (bs "two")); RUnheader 0 (bs "A");
   RText 0 (bs "hello"); RBytes 0 [1; 0; 2];
   RCookie 0 (bs "c") (Some (bs "1")) (Some (bs "e")) (Some (bs "d")) (Some (bs "/")); RCookie 0 (bs "k") (Some (bs "2")) (Some []) (Some []) (Some []);
   RCookie 0 (bs "c") (Some (bs "3")) (Some (bs "e")) (Some (bs "d")) (Some (bs "/"));
   RSocket 0 (Some (bs "chat")) None; RExtension 0 (bs "permessage-deflate"); RDuplicate 0; RText 1 (bs "bye"); RRelease 0].
Example C97_ex_ok : Forall (rop_ok true 100) C97_ops.
Proof. repeat constructor; unfold rop_ok; intros; repeat split; try discriminate; try (vm_compute; intuition discriminate); try (repeat constructor; vm_compute; reflexivity). Qed.
Example C97_ex : exists s, rrun rstart (map (pair []) C97_ops) = Ret (repeat U_OK 16, s) /\
  read_resps (g_mem s) (g_resps s) = Ret [mk_aresp (Some (bs "HTTP/1.1")) (Some (bs "home")) [(bs "B", bs "two" ++ [0])]
    [mk_acookie (Some (bs "c")) (Some (bs "3")) (Some (bs "e")) (Some (bs "d")) (Some (bs "/"));
     mk_acookie (Some (bs "k")) (Some (bs "2")) (Some []) (Some []) (Some [])] (Some (bs "bye")) (Some (bs "chat"), None) []].
Proof. eexists. split; [vm_compute; reflexivity|]. vm_compute. reflexivity. Qed.
(** a cookie cannot be added, the body cannot be changed, the response cannot be duplicated *)
Definition C97_poor : list (list bool * rop) :=
  [([], RNew); ([], RProtocol 0 (bs "HTTP/1.1")); ([], RText 0 (bs "hello")); ([false], RCookie 0 (bs "c") (Some (bs "1")) (Some []) (Some []) (Some []));
   ([false], RText 0 (bs "longer text")); ([true; false], RDuplicate 0); ([false], RRealm 0 (Some (bs "home")))].
Example C97_ex_poor_ok : Forall (fun x => rop_ok true 100 (snd x) /\ memory_ok (snd x) (fst x)) C97_poor.
Proof.
  repeat apply Forall_cons; try apply Forall_nil; split; cbn; first [exact I|reflexivity|right; reflexivity|right; right; eexists; reflexivity|left; tauto|idtac].
  intros _. repeat split; discriminate.
Qed.
Example C97_ex_poor : exists s, rrun rstart C97_poor = Ret ([U_OK; U_OK; U_OK; U_ERROR_MEMORY; U_ERROR_MEMORY; U_ERROR_MEMORY; U_OK], s) /\
  read_resps (g_mem s) (g_resps s) = Ret [set_protocol new_resp (Some (bs "HTTP/1.1"))].
Proof. eexists. split; [vm_compute; reflexivity|]. vm_compute. reflexivity. Qed.

(** the state after some calls that all have memory *)
Definition after_calls (ops : list rop) (s : rprog) : Prop := exists cs, rrun rstart (map (pair []) ops) = Ret (cs, s) /\ Forall (eq U_OK) cs.
Ltac calls := eexists; split; [vm_compute; reflexivity|repeat constructor].

(** Refuted when u_map_init has no memory: ulfius_init_response answers U_ERROR_PARAMS and the map
    of headers is never released; when the websocket handle or its list has no memory, it answers
    U_ERROR_MEMORY and the map and its three arrays are never released (the caller cannot call
    ulfius_clean_response on the first, its other members are not initialised). The same is lost by
    ulfius_duplicate_response. *)
Theorem C97_init_refuted :
  (exists c s, rstep (with_answers rstart [true; true; false]) RNew = Ret (c, s) /\ c <> U_OK /\ g_resps s = [] /\ h_live (m_heap (g_mem s)) <> []) /\
  (exists c s, rstep (with_answers rstart [true; true; true; true; true; false]) RNew = Ret (c, s) /\ c <> U_OK /\ g_resps s = [] /\ h_live (m_heap (g_mem s)) <> []) /\
  (exists c s, rstep (with_answers rstart [true; true; true; true; true; true; false]) RNew = Ret (c, s) /\ c <> U_OK /\ g_resps s = [] /\ h_live (m_heap (g_mem s)) <> []).
Proof. repeat split; do 2 eexists; (split; [vm_compute; reflexivity|]); (split; [discriminate|]); (split; [reflexivity|]); vm_compute; discriminate. Qed.
Print Assumptions C97_init_refuted.

(** Refuted when the websocket handle's list has no memory: ulfius_init_response releases the
    handle and keeps the pointer; ulfius_clean_response on this response uses it after its release.
    And when u_map_init has no memory, ulfius_clean_response reads members that were never written. *)
Theorem C97_init_clean_refuted :
  (exists m r, x_init_resp (mk_mem (mk_heap 0 []) [true; true; true; true; true; false] []) raw_resp = Ret (U_ERROR_MEMORY, (m, r)) /\ x_clean_resp m r = UB UseAfterFree) /\
  (exists m r, x_init_resp (mk_mem (mk_heap 0 []) [true; false] []) raw_resp = Ret (U_ERROR_PARAMS, (m, r)) /\ x_clean_resp m r = UB Uninit).
Proof. split; do 2 eexists; (split; [vm_compute; reflexivity|]); vm_compute; reflexivity. Qed.
Print Assumptions C97_init_clean_refuted.

(** Refuted: ulfius_clean_response does not reset websocket_handle nor nb_cookies. A second
    ulfius_clean_response on the same response uses the handle after its release; with a cookie it
    reads the cookies through NULL. *)
Theorem C97_clean_twice_refuted :
  (exists s p r m r', after_calls [RNew] s /\ g_resps s = [(p, r)] /\ x_clean_resp (g_mem s) r = Ret (m, r') /\ x_clean_resp m r' = UB UseAfterFree) /\
  (exists s p r m r', after_calls [RNew; RCookie 0 (bs "a") None None None None] s /\ g_resps s = [(p, r)] /\ x_clean_resp (g_mem s) r = Ret (m, r') /\ x_clean_resp m r' = UB NullDeref).
Proof. split; do 5 eexists; (split; [calls|]); (split; [reflexivity|]); (split; [vm_compute; reflexivity|]); vm_compute; reflexivity. Qed.
Print Assumptions C97_clean_twice_refuted.

(** Refuted when a cookie lacks a value, an expiration date, a domain or a path:
    ulfius_copy_cookie releases the texts it copied and keeps the pointers, ulfius_copy_response
    does not look at its result, and the duplicate, given as good, releases them again. *)
Theorem C97_incomplete_refuted : exists s,
  after_calls [RNew; RProtocol 0 (bs "1.1"); RCookie 0 (bs "a") (Some (bs "1")) None None None; RDuplicate 0] s /\
  rstep s (RRelease 1) = UB DoubleFree /\ read_resps (g_mem s) (g_resps s) = UB UseAfterFree.
Proof. eexists. split; [calls|]. split; vm_compute; reflexivity. Qed.
Print Assumptions C97_incomplete_refuted.

(** Refuted when o_strdup has no memory in ulfius_copy_cookie: the same with complete cookies. *)
Theorem C97_copy_cookie_refuted : exists s s',
  after_calls [RNew; RProtocol 0 (bs "1.1"); RCookie 0 (bs "a") (Some (bs "1")) (Some (bs "e")) (Some (bs "d")) (Some (bs "p"))] s /\
  rstep (with_answers s (repeat true 15 ++ [false])) (RDuplicate 0) = Ret (U_OK, s') /\ rstep s' (RRelease 1) = UB DoubleFree.
Proof. do 2 eexists. split; [calls|]. split; vm_compute; reflexivity. Qed.
Print Assumptions C97_copy_cookie_refuted.

(** Refuted when the array of cookies has no memory in ulfius_copy_response: nb_cookies is already
    set, and ulfius_duplicate_response releases the incomplete copy through the NULL array. *)
Theorem C97_copy_array_refuted : exists s,
  after_calls [RNew; RProtocol 0 (bs "1.1"); RCookie 0 (bs "a") (Some (bs "1")) (Some (bs "e")) (Some (bs "d")) (Some (bs "p"))] s /\
  rstep (with_answers s (repeat true 12 ++ [false])) (RDuplicate 0) = UB NullDeref.
Proof. eexists. split; [calls|]. vm_compute. reflexivity. Qed.
Print Assumptions C97_copy_array_refuted.

(** Refuted when o_strdup has no memory in ulfius_add_cookie_to_response on the first cookie: the
    array stays in the response with nb_cookies 0, the next cookie takes a new array and the first
    one is never released. *)
Theorem C97_cookie_refuted : exists s s1 s2 s3, after_calls [RNew] s /\
  rstep (with_answers s [true; false]) (RCookie 0 (bs "a") (Some (bs "1")) None None None) = Ret (U_ERROR_MEMORY, s1) /\
  rstep (with_answers s1 []) (RCookie 0 (bs "a") (Some (bs "1")) None None None) = Ret (U_OK, s2) /\
  rstep s2 (RRelease 0) = Ret (U_OK, s3) /\ g_resps s3 = [] /\ h_live (m_heap (g_mem s3)) <> [].
Proof. do 4 eexists. split; [calls|]. split; [vm_compute; reflexivity|]. split; [vm_compute; reflexivity|]. split; [vm_compute; reflexivity|]. split; [reflexivity|]. vm_compute. discriminate. Qed.
Print Assumptions C97_cookie_refuted.

(** Refuted when o_realloc may fail: ulfius_add_cookie_to_response stores the NULL of o_realloc and
    keeps nb_cookies; the old array is lost and ulfius_clean_response reads through NULL. *)
Theorem C97_cookie_grow_refuted : exists s s1, after_calls [RNew; RCookie 0 (bs "a") (Some (bs "1")) None None None] s /\
  rstep (mk_rprog (mk_mem (m_heap (g_mem s)) [] [false]) (g_resps s)) (RCookie 0 (bs "b") (Some (bs "2")) None None None) = Ret (U_ERROR_MEMORY, s1) /\
  rstep s1 (RRelease 0) = UB NullDeref /\ exists x, In x (h_live (m_heap (g_mem s1))) /\ ~ In x (rprog_blocks s1).
Proof. do 2 eexists. split; [calls|]. split; [vm_compute; reflexivity|]. split; [vm_compute; reflexivity|]. exists 7%nat. vm_compute. intuition discriminate. Qed.
Print Assumptions C97_cookie_grow_refuted.

(** Refuted when o_strdup has no memory for the extensions in ulfius_set_websocket_response: the
    protocol is released and its pointer stays in the handle; ulfius_clean_response releases it
    again. *)
Theorem C97_socket_refuted : exists s s1, after_calls [RNew] s /\
  rstep (with_answers s [true; false]) (RSocket 0 (Some (bs "chat")) (Some (bs "x"))) = Ret (U_ERROR_MEMORY, s1) /\
  rstep s1 (RRelease 0) = UB DoubleFree.
Proof. do 2 eexists. split; [calls|]. split; vm_compute; reflexivity. Qed.
Print Assumptions C97_socket_refuted.

(** Refuted when pointer_list_append of orcania has no memory:
    ulfius_add_websocket_extension_message_perform answers an error and its extension, with its
    name, is never released. *)
Theorem C97_extension_refuted : exists s s1 s2, after_calls [RNew] s /\
  rstep (mk_rprog (mk_mem (m_heap (g_mem s)) [] [false]) (g_resps s)) (RExtension 0 (bs "x")) = Ret (U_ERROR, s1) /\
  rstep s1 (RRelease 0) = Ret (U_OK, s2) /\ g_resps s2 = [] /\ h_live (m_heap (g_mem s2)) <> [].
Proof. do 3 eexists. split; [calls|]. split; [vm_compute; reflexivity|]. split; [vm_compute; reflexivity|]. split; [reflexivity|]. vm_compute. discriminate. Qed.
Print Assumptions C97_extension_refuted.

(** Refuted: ulfius_copy_response into a response that is in use writes over its protocol, its
    realm, its cookies, its body and the parameters of its websocket handle without releasing them. *)
Theorem C97_copy_used_refuted : exists s p0 r0 p1 r1 m r1',
  after_calls [RNew; RProtocol 0 (bs "1.1"); RNew; RProtocol 1 (bs "1.0")] s /\ g_resps s = [(p0, r0); (p1, r1)] /\
  x_copy_resp (g_mem s) r1 r0 = Ret (U_OK, (m, r1')) /\
  exists x, In x (h_live (m_heap m)) /\ ~ In x (rprog_blocks (mk_rprog m [(p0, r0); (p1, r1')])).
Proof. do 7 eexists. split; [calls|]. split; [reflexivity|]. split; [vm_compute; reflexivity|]. exists 15%nat. vm_compute. intuition discriminate. Qed.
Print Assumptions C97_copy_used_refuted.
