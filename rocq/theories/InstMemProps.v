(** C113: the life of an instance with failing allocations. *)
From Coq Require Import String ZArith Bool List Lia.
From Verif Require Import Base UMapModel RouterModel RouterSpec EndpointProofs OwnModel OwnSpec OwnProofs MapMemModel MapMemSpec InstMemModel InstMemSpec InstMemProofs.
Import ListNotations.
Open Scope Z_scope.

(** C113, for all lives of an instance one after the other, whatever o_malloc and o_strdup answer, within [life_ok]: no undefined behaviour;
    every call gives the result and leaves the values described by [lmeans] and [imeans]; in the end nothing is allocated but, for a life in which
    a lock could not be initialised, the locks initialised before it. Partial: the other failures are the refuted theorems below. *)
Theorem C113_history_partial : forall max lives, 0 <= max -> max + 1 < two64 -> Forall (life_ok max) lives ->
  exists rs m, lruns start_mem lives = Ret (rs, m) /\ Forall2 lmeans lives rs /\ NoDup (h_live (m_heap m)) /\
    (List.length (h_live (m_heap m)) <= list_sum (map (fun l => stuck (l_locks l)) lives))%nat.
Proof.
  intros max lives M0 MT F. destruct (lruns_ok max lives start_mem []) as (rs & m & lost & R & M & O & L); auto.
  { split; [intros x; reflexivity|]. split; [intros x; apply Nat.le_0_l|intros; reflexivity]. }
  exists rs, m. split; [exact R|]. split; [exact M|]. rewrite app_nil_r in O. destruct (owns_spec _ _ O) as (A & B & C). split; [exact C|].
  eapply Nat.le_trans; [|exact L]. apply NoDup_incl_length; [exact C|]. intros x X. now apply A.
Qed.
Print Assumptions C113_history_partial.

(** ** with memory *)
Definition table_ops (l : list order) : list eop := flat_map (fun o => match o_op o with IAdd e => [EAdd e] | IRemove t => [ERemove t] | _ => [] end) l.
Definition default_of (d : option endpoint) (l : list order) : option endpoint :=
  fold_left (fun d o => match o_op o with IDefault cb x => Some (mk_ep None None None 0 (Some cb) x) | _ => d end) l d.
Definition headers_of (a : amap) (l : list order) : amap :=
  fold_left (fun a o => match o_op o with IHeader [] _ => a | IHeader k v => a_put k (Some v) a | _ => a end) l a.
Definition rich (o : order) : Prop := o_table o = true /\ ~ In false (o_new o).
Definition asks_right (max : Z) (o : order) : Prop := match o_op o with IAdd e => not_empty_ep e | IHeader _ v => cstr v /\ zlen v + 1 <= max | _ => True end.

Lemma hd_rich : forall l, ~ In false l -> hd true l = true.
Proof. intros [|[] l] H; cbn [hd In] in *; tauto. Qed.
Lemma kept_rich : forall t l, ~ In false l -> fst (kept t l) = t /\ ~ In false (snd (kept t l)).
Proof. intros [t|] l H; cbn [kept fst snd]; [|auto]. rewrite (hd_rich l H). split; [reflexivity|]. destruct l; cbn [tl In] in *; tauto. Qed.
Lemma copied_rich : forall e l, ~ In false l -> copied e l = e.
Proof.
  intros e l H. unfold copied. destruct (kept_rich (http_method e) l H) as [-> H1]. destruct (kept_rich (url_prefix e) _ H1) as [-> H2]. destruct (kept_rich (url_format e) _ H2) as [-> _]. now destruct e.
Qed.
Lemma drops_exact : forall (may must : endpoint -> Prop) p a a', (forall e, may e -> p e = true) -> (forall e, p e = true -> must e) -> drops may must a a' -> a' = filter (fun e => negb (p e)) a.
Proof.
  intros may must p a a' A B D. induction D as [|e a a' K D IH|e a a' K D IH]; cbn [filter]; [reflexivity| |].
  - destruct (p e) eqn:E; [exfalso; auto|]. cbn [negb]. now rewrite IH.
  - rewrite (A e K). exact IH.
Qed.
Lemma means_rich : forall s l r, imeans_all s l r -> forall a, n_headers s = Some a -> Forall rich l ->
  n_realm (last (map snd r) s) = n_realm s /\ eops_mean (n_table s) (table_ops l) (n_table (last (map snd r) s)) /\
  n_default (last (map snd r) s) = default_of (n_default s) l /\ n_headers (last (map snd r) s) = Some (headers_of a l).
Proof.
  intros s l r M. induction M as [s|s o z s1 l r M1 M2 IH]; intros a HA F.
  - repeat split; try reflexivity; [constructor|exact HA].
  - inversion F as [|? ? F1 F2]; subst.
    assert (X : exists a1, n_headers s1 = Some a1 /\ n_realm s1 = n_realm s /\ eops_mean (n_table s) (table_ops [o]) (n_table s1) /\ n_default s1 = default_of (n_default s) [o] /\ a1 = headers_of a [o]).
    { destruct F1 as [F1 F3]. inversion M1; subst; cbn [o_table o_new] in *; try contradiction.
      - exists a. split; [exact HA|]. split; [reflexivity|]. split; [|split; reflexivity]. rewrite copied_rich by exact F3. econstructor; [apply em_add; auto|constructor].
      - discriminate F1.
      - exists a. split; [exact HA|]. split; [reflexivity|]. split; [|split; reflexivity]. econstructor; [apply em_add_bad; auto|constructor].
      - exists a. split; [exact HA|]. split; [reflexivity|]. split; [|split; reflexivity]. econstructor; [apply em_remove_bad|constructor].
        match goal with B : ~ removable _ |- _ => unfold removable in B; destruct (http_method t), (url_prefix t), (url_format t); auto; exfalso; apply B; (split; [discriminate|]); first [left; discriminate|right; discriminate] end.
      - exists a. split; [exact HA|]. split; [reflexivity|]. split; [|split; reflexivity]. cbn [n_table]. econstructor; [|constructor]. eapply (em_remove _ t _ (hit t)); [|apply hit_same_route|].
        + match goal with B : removable _ |- _ => destruct B as [B1 B2] end. intros [C|[C1 C2]]; [tauto|]. destruct B2; congruence.
        + eapply drops_exact; [| |eassumption]; cbn beta.
          * intros e [C|[C _]]; [now apply hit_same_route|contradiction].
          * intros e C. split; [now apply hit_same_route|exact F3].
      - exists a. split; [exact HA|]. split; [reflexivity|]. split; [constructor|split; reflexivity].
      - rewrite (hd_rich _ F3) in *. discriminate.
      - exists (a_put k (Some v) a). cbn [n_headers]. match goal with B : n_headers s = Some _ |- _ => rewrite HA in B; injection B as <- end. split; [reflexivity|]. split; [reflexivity|]. split; [constructor|]. split; [reflexivity|]. unfold headers_of. cbn [fold_left o_op]. destruct k; [congruence|reflexivity].
      - exists a. split; [exact HA|]. split; [reflexivity|]. split; [constructor|split; reflexivity]. }
    destruct X as (a1 & A1 & A2 & A3 & A4 & ->). destruct (IH _ A1 F2) as (B1 & B2 & B3 & B4).
    assert (LAST : last (map snd ((z, s1) :: r)) s = last (map snd r) s1).
    { cbn [map snd]. destruct (map snd r) as [|q qs] eqn:E; [reflexivity|]. cbn [last]. clear. revert q. induction qs as [|y qs IH]; intros q; [reflexivity|]. cbn [last] in *. apply IH. }
    rewrite LAST. split; [congruence|]. split; [|split].
    + change (o :: l) with ([o] ++ l). unfold table_ops in *. rewrite flat_map_app.
      clear -A3 B2. revert A3. generalize (flat_map (fun o0 => match o_op o0 with IAdd e => [EAdd e] | IRemove t => [ERemove t] | _ => [] end) [o]). intros q Q. induction Q; cbn [app]; [exact B2|]. econstructor; [exact H|]. apply IHQ, B2.
    + rewrite B3, A4. reflexivity.
    + exact B4.
Qed.

(** C113, when there is memory and the locks can be initialised: every life succeeds, the instance has its realm, and at the end of the calls the endpoints
    they mean (C19), the last default endpoint and the default headers; after ulfius_clean_instance nothing is allocated. *)
Theorem C113_memory : forall max realm k new orders, 0 <= max -> max + 1 < two64 -> locked k -> ~ In false new -> Forall rich orders -> Forall (asks_right max) orders ->
  exists v r m, lrun start_mem (mk_life realm k new orders) = Ret ((U_OK, (U_OK, v) :: r), m) /\ h_live (m_heap m) = [] /\
    v = mk_imean realm false [] None (Some []) /\
    n_realm (last (map snd r) v) = realm /\ eops_mean [] (table_ops orders) (n_table (last (map snd r) v)) /\
    n_default (last (map snd r) v) = default_of None orders /\ n_headers (last (map snd r) v) = Some (headers_of [] orders).
Proof.
  intros max realm k new orders M0 MT (K1 & K2 & K3) RN RO AO.
  destruct (lrun_ok max start_mem (mk_life realm k new orders) []) as (r & m & lost & R & M & O & L); auto.
  { split; [intros x; reflexivity|]. split; [intros x; apply Nat.le_0_l|intros; reflexivity]. }
  { split; [exact K1|]. split; [|intros C; contradiction]. cbn [l_orders]. rewrite Forall_forall in *. intros o I1. specialize (RO o I1). specialize (AO o I1). destruct RO as [_ RO]. unfold asks_right, order_ok in *.
    destruct (o_op o); auto. split; [exact AO|]. now rewrite copied_rich. }
  inversion M as [h r0 LK HH MA E|BAD E]; subst; cbn [l_realm l_new l_orders l_locks] in *.
  2:{ exfalso. destruct BAD as [BAD|BAD]; [contradiction|]. apply BAD. unfold locked. auto. }
  destruct (kept_rich realm new RN) as [KR _]. rewrite KR in *. destruct HH as [->|[_ HH]]; [|contradiction].
  do 3 eexists. split; [exact R|]. split.
  { unfold stuck in L. rewrite K2, K3 in L. destruct lost; [|cbn in L; lia]. destruct (owns_spec _ _ O) as (A & _ & _). destruct (h_live (m_heap m)) as [|x q]; [reflexivity|]. exfalso. apply (A x). now left. }
  split; [reflexivity|]. exact (means_rich _ _ _ MA [] eq_refl RO).
Qed.
Print Assumptions C113_memory.

(** ** cases *)
Definition e_a : endpoint := mk_ep (Some (bs "GET")) (Some (bs "/api")) (Some (bs "/a/:id")) 1 (Some 7) 0.
Definition e_b : endpoint := mk_ep (Some (bs "GET")) (Some (bs "/api")) (Some (bs "/b")) 2 (Some 8) 0.
Definition e_c : endpoint := mk_ep (Some (bs "POST")) None (Some (bs "/c")) 0 (Some 9) 0.
Definition k_ok : locks := mk_locks true true true.
Definition plain (o : iop) : order := mk_order o true [].
Definition C113_calls : list order :=
  [plain (IAdd e_a); plain (IAdd e_b); plain (IDefault 3 4); mk_order (IHeader (bs "Server") (bs "me")) true []; plain (IAdd e_c);
   plain (IRemove (mk_ep (Some (bs "GET")) (Some (bs "api/")) (Some (bs "b/")) 0 None 0)); plain (IRemove e_b)].
Example C113_ex_ok : life_ok 100 (mk_life (Some (bs "realm")) k_ok [] C113_calls).
Proof.
  split; [reflexivity|]. split; [|intros []]. unfold C113_calls, plain, order_ok. cbn [l_orders].
  repeat (apply Forall_cons || apply Forall_nil); cbn [o_op]; try exact I; try (split; [left; discriminate|intros C; exact C]).
  split; [repeat constructor; vm_compute; intuition discriminate|vm_compute; discriminate].
Qed.
Example C113_ex : exists v m, lrun start_mem (mk_life (Some (bs "realm")) k_ok [] C113_calls) = Ret ((U_OK, v), m) /\
  map fst v = [U_OK; U_OK; U_OK; U_OK; U_OK; U_OK; U_OK; U_ERROR_NOT_FOUND] /\ h_live (m_heap m) = [] /\
  last (map snd v) (mk_imean None false [] None None) = mk_imean (Some (bs "realm")) true [e_a; e_c] (Some (mk_ep None None None 0 (Some 3) 4)) (Some [(bs "Server", bs "me" ++ [0])]).
Proof. do 2 eexists. split; [vm_compute; reflexivity|]. vm_compute. auto. Qed.
(** three lives: no memory for the handler; the condition cannot be initialised; no memory for the first endpoint, nor for the default endpoint, nor for the copies of ulfius_remove_endpoint *)
Definition C113_lives : list life :=
  [mk_life (Some (bs "r")) k_ok [true; true; true; true; true; false] [plain (IAdd e_a)]; mk_life None (mk_locks true true false) [] [];
   mk_life None k_ok [] [mk_order (IAdd e_a) false []; plain (IAdd e_a); mk_order (IDefault 3 4) true [false]; mk_order (IRemove e_a) true [false]; plain (IRemove e_a)]].
Example C113_ex_lives_ok : Forall (life_ok 100) C113_lives.
Proof.
  assert (A : forall e b l, e = e_a -> ~ In false l -> order_ok 100 (mk_order (IAdd e) b l)).
  { intros e b l -> H. split; [left; discriminate|]. cbn [o_new]. now rewrite copied_rich. }
  unfold C113_lives, plain. apply Forall_cons; [|apply Forall_cons; [|apply Forall_cons; [|constructor]]]; (split; [reflexivity|]); cbn [l_new l_orders].
  - split; [apply Forall_cons; [apply A; [reflexivity|auto]|constructor]|]. intros _. apply Forall_cons; [intros []|constructor].
  - split; [constructor|]. constructor.
  - split; [|intros []]. repeat (apply Forall_cons); try exact I; try (apply A; [reflexivity|intros []]). constructor.
Qed.
Example C113_ex_lives : exists v m, lruns start_mem C113_lives = Ret (v, m) /\
  map (fun x => (fst x, map fst (snd x))) v = [(U_ERROR_MEMORY, []); (U_ERROR_MEMORY, []); (U_OK, [U_OK; U_ERROR_MEMORY; U_OK; U_ERROR_MEMORY; U_ERROR_NOT_FOUND; U_OK])] /\ List.length (h_live (m_heap m)) = 2%nat.
Proof. do 2 eexists. split; [vm_compute; reflexivity|]. vm_compute. auto. Qed.

(** ** what does not hold *)
(** Refuted: the copy of the authentication realm is not checked; without memory for it ulfius_init_instance answers U_OK and the instance has no realm. *)
Theorem C113_realm_refuted : exists v m, lrun start_mem (mk_life (Some (bs "realm")) k_ok [false] []) = Ret ((U_OK, [(U_OK, v)]), m) /\ n_realm v = None.
Proof. do 2 eexists. split; vm_compute; reflexivity. Qed.
Print Assumptions C113_realm_refuted.
(** Refuted: the result of u_map_init is not checked; without memory for the arrays of the default headers ulfius_init_instance answers U_OK, and the first u_map_put on the headers reads through NULL. *)
Theorem C113_headers_refuted : exists m u, x_init_inst (mk_mem (mk_heap 0 []) [true; false] []) None k_ok = Ret (U_OK, (m, u)) /\ x_set_header m u (bs "Server") (bs "me") = UB NullDeref.
Proof. do 2 eexists. split; vm_compute; reflexivity. Qed.
Print Assumptions C113_headers_refuted.
(** Refuted: when the first mutex cannot be initialised, ulfius_clean_instance is called before pthread_init has been set, and reads it. *)
Theorem C113_lock_refuted : forall realm b c, x_init_inst start_mem realm (mk_locks false b c) = UB Uninit.
Proof. intros [realm|] b c; reflexivity. Qed.
Print Assumptions C113_lock_refuted.
(** Refuted: when the second mutex or the condition cannot be initialised, the locks initialised before are never destroyed. *)
Theorem C113_stuck_refuted : forall realm c, exists m, lrun start_mem (mk_life realm (mk_locks true true false) [] c) = Ret ((U_ERROR_MEMORY, []), m) /\ List.length (h_live (m_heap m)) = 2%nat.
Proof. intros [realm|] c; eexists; (split; [vm_compute; reflexivity|vm_compute; reflexivity]). Qed.
Print Assumptions C113_stuck_refuted.

(** an instance without endpoints, with memory *)
Definition C113_inst : mem * minst := match x_init_inst start_mem None k_ok with Ret (_, x) => x | UB _ => (start_mem, mk_minst None None 0 None None None) end.
Definition on_inst (o : order) (x : mem * minst) : outcome (Z * (mem * minst)) := icall (fst x) (snd x) o.
(** Refuted: when the method of an endpoint cannot be copied, ulfius_add_endpoint answers U_ERROR_MEMORY, but the endpoint has been counted, the end of the list is not written, so the next request reads memory
    never written, and the texts copied are lost when the instance is cleaned. *)
Theorem C113_method_refuted : exists x y m, on_inst (plain (IAdd e_a)) C113_inst = Ret (U_OK, x) /\ on_inst (mk_order (IAdd e_b) true [false]) x = Ret (U_ERROR_MEMORY, y) /\
  i_nb (snd y) = 2%nat /\ view (fst y) (snd y) = UB Uninit /\ x_clean_inst (fst y) (snd y) = Ret m /\ List.length (h_live (m_heap (fst m))) = 2%nat.
Proof. do 3 eexists. split; [vm_compute; reflexivity|]. split; [vm_compute; reflexivity|]. split; [reflexivity|]. split; [vm_compute; reflexivity|]. split; vm_compute; reflexivity. Qed.
Print Assumptions C113_method_refuted.
(** Refuted: when both the prefix and the format cannot be copied, ulfius_add_endpoint answers U_ERROR_MEMORY, and ulfius_clean_instance goes beyond the endpoint into memory never written. *)
Theorem C113_texts_refuted : exists y, on_inst (mk_order (IAdd e_a) true [true; false; false]) C113_inst = Ret (U_ERROR_MEMORY, y) /\ x_clean_inst (fst y) (snd y) = UB Uninit.
Proof. eexists. split; vm_compute; reflexivity. Qed.
Print Assumptions C113_texts_refuted.
(** Refuted: when only the format cannot be copied, ulfius_add_endpoint answers U_OK and the callback is registered for the url of the prefix alone; when only the prefix cannot, for the url of the format alone. *)
Theorem C113_route_refuted :
  (exists x v, on_inst (mk_order (IAdd e_a) true [true; true; false]) C113_inst = Ret (U_OK, x) /\ view (fst x) (snd x) = Ret v /\ n_table v = [mk_ep (Some (bs "GET")) (Some (bs "/api")) None 1 (Some 7) 0]) /\
  (exists x v, on_inst (mk_order (IAdd e_a) true [true; false; true]) C113_inst = Ret (U_OK, x) /\ view (fst x) (snd x) = Ret v /\ n_table v = [mk_ep (Some (bs "GET")) None (Some (bs "/a/:id")) 1 (Some 7) 0]).
Proof. split; do 2 eexists; (split; [vm_compute; reflexivity|]); split; vm_compute; reflexivity. Qed.
Print Assumptions C113_route_refuted.
(** Refuted: when no text can be copied, the endpoint is the empty one: ulfius_add_endpoint answers U_OK, and it and all the endpoints added later are not seen. *)
Theorem C113_silent_refuted : exists x y v, on_inst (mk_order (IAdd e_a) true [false; false; false]) C113_inst = Ret (U_OK, x) /\ on_inst (plain (IAdd e_b)) x = Ret (U_OK, y) /\ view (fst y) (snd y) = Ret v /\ n_table v = [].
Proof. do 3 eexists. split; [vm_compute; reflexivity|]. split; [vm_compute; reflexivity|]. split; vm_compute; reflexivity. Qed.
Print Assumptions C113_silent_refuted.
(** Refuted: when o_realloc fails in ulfius_add_endpoint, all the endpoints are lost with their memory, the count is not reset and ulfius_remove_endpoint reads through NULL. *)
Theorem C113_grow_refuted : exists x y m, on_inst (plain (IAdd e_a)) C113_inst = Ret (U_OK, x) /\
  x_add (mk_mem (m_heap (fst x)) [] [false]) (snd x) e_b = Ret (U_ERROR_MEMORY, y) /\ i_table (snd y) = None /\ on_inst (plain (IRemove e_a)) y = UB NullDeref /\
  x_clean_inst (fst y) (snd y) = Ret m /\ List.length (h_live (m_heap (fst m))) = 4%nat.
Proof. do 3 eexists. split; [vm_compute; reflexivity|]. split; [vm_compute; reflexivity|]. split; [reflexivity|]. split; [vm_compute; reflexivity|]. split; vm_compute; reflexivity. Qed.
Print Assumptions C113_grow_refuted.
(** Refuted: when o_realloc fails to make the list shorter, ulfius_remove_endpoint loses the endpoints that should stay, with their memory. *)
Theorem C113_shrink_refuted : exists x y z m, on_inst (plain (IAdd e_a)) C113_inst = Ret (U_OK, x) /\ on_inst (plain (IAdd e_b)) x = Ret (U_OK, y) /\
  x_remove (mk_mem (m_heap (fst y)) [] [false]) (snd y) e_b = Ret (U_ERROR_MEMORY, z) /\ i_table (snd z) = None /\ x_clean_inst (fst z) (snd z) = Ret m /\ List.length (h_live (m_heap (fst m))) = 4%nat.
Proof. do 4 eexists. split; [vm_compute; reflexivity|]. split; [vm_compute; reflexivity|]. split; [vm_compute; reflexivity|]. split; [reflexivity|]. split; vm_compute; reflexivity. Qed.
Print Assumptions C113_shrink_refuted.
(** Refuted: the copies made by ulfius_remove_endpoint are not checked. Without memory it answers U_ERROR_NOT_FOUND for an endpoint that is there, or removes another endpoint of the same method and answers U_OK. *)
Theorem C113_remove_refuted :
  (exists x y, on_inst (plain (IAdd e_a)) C113_inst = Ret (U_OK, x) /\ on_inst (mk_order (IRemove e_a) true [false]) x = Ret (U_ERROR_NOT_FOUND, y)) /\
  (exists x y v, on_inst (plain (IAdd e_a)) C113_inst = Ret (U_OK, x) /\ on_inst (mk_order (IRemove e_b) true [true; false; true; false]) x = Ret (U_OK, y) /\ view (fst y) (snd y) = Ret v /\ n_table v = []).
Proof.
  split.
  - do 2 eexists. split; vm_compute; reflexivity.
  - do 3 eexists. split; [vm_compute; reflexivity|]. split; [vm_compute; reflexivity|]. split; vm_compute; reflexivity.
Qed.
Print Assumptions C113_remove_refuted.

(** An instance that has been cleaned has no default headers, and u_map_put on them is refused, not undefined: nothing changes. *)
Theorem C113_cleaned : forall m u m' u' key value, x_clean_inst m u = Ret (m', u') -> x_set_header m' u' key value = Ret (U_ERROR_PARAMS, (m', u')).
Proof.
  intros m u m' u' key value E. unfold x_clean_inst in E.
  repeat match type of E with context [bind ?x _] => destruct x; cbn [bind] in E; [|discriminate] end.
  injection E as _ <-. reflexivity.
Qed.
Print Assumptions C113_cleaned.
Example C113_ex_cleaned : exists m u, x_clean_inst (fst C113_inst) (snd C113_inst) = Ret (m, u) /\ x_set_header m u (bs "Server") (bs "me") = Ret (U_ERROR_PARAMS, (m, u)).
Proof. do 2 eexists. split; vm_compute; reflexivity. Qed.
