(** C15, C16, C17, C19, C20, C25: endpoint table, routing, path parameters. *)
From Coq Require Import String ZArith Bool List Lia Sorted Permutation.
From Verif Require Import Base BaseFacts UMapModel UrlModel UrlSpec UrlProofs Utf8Model Utf8Spec Utf8Proofs SMap
  RouterModel RouterSpec RouterProofs EndpointProofs.
Import ListNotations.
Open Scope Z_scope.

(** ** C15, C16 *)

(** a qsort for the examples *)
Fixpoint ins (e : endpoint) (l : list endpoint) : list endpoint :=
  match l with [] => [e] | x :: r => if priority e <=? priority x then e :: l else x :: ins e r end.
Definition isort (l : list endpoint) : list endpoint := fold_right ins [] l.
Lemma isort_sorts : sorts isort.
Proof.
  intros l. induction l as [|e l [P S]]; [split; constructor|]. simpl. generalize dependent (isort l). intros q P S. split.
  - transitivity (e :: q); [now constructor|]. clear P S. induction q as [|x q IH]; simpl; auto.
    destruct (priority e <=? priority x); auto. rewrite perm_swap. now constructor.
  - clear P. induction S as [|x q S IH F]; simpl.
    + repeat constructor.
    + destruct (priority e <=? priority x) eqn:E.
      * apply Z.leb_le in E. constructor; [now constructor|]. constructor; [exact E|].
        eapply Forall_impl; [|exact F]. intros a H. unfold prio_le in *. lia.
      * apply Z.leb_gt in E. constructor; auto. clear S IH. induction F as [|y q H F IH]; simpl.
        -- constructor; [unfold prio_le; lia|constructor].
        -- destruct (priority e <=? priority y); constructor; auto; unfold prio_le; lia.
Qed.

(** C15. Whatever admissible registrations were made, and however qsort breaks ties: the
    endpoints selected for a request are the registered ones whose method and pattern match. *)
Theorem C15_selected_iff_match : forall qsort ops u es method url,
  sorts qsort -> Forall eop_ok ops -> eop_run init_instance ops = Ret u -> eops_mean [] ops es ->
  exists l, endpoint_match qsort (Some method) (Some url) (endpoint_list u) = Ret l /\
    forall e, In e l <-> In e es /\ selected method url e.
Proof.
  intros qsort ops u es method url Q OK R M.
  destruct (eop_run_lemma ops init_instance [] ltac:(repeat split; constructor) OK) as (u' & es' & R' & M' & T).
  rewrite R in R'. injection R' as <-. rewrite (eops_mean_det _ _ _ _ M' M) in T.
  exists (qsort (filter (sel method url) es)). split; [now apply match_table|].
  intros e. destruct (Q (filter (sel method url) es)) as [P _]. rewrite <- sel_selected, <- filter_In. split; intro H.
  - eapply Permutation_in; [apply Permutation_sym; exact P|exact H].
  - eapply Permutation_in; eauto.
Qed.
Print Assumptions C15_selected_iff_match.

(** C16. ... and they come out as a priority-sorted permutation of the matching ones: [p] is any
    decision procedure for [selected]. *)
Theorem C16_priority_order : forall qsort ops u es method url (p : endpoint -> bool),
  sorts qsort -> Forall eop_ok ops -> eop_run init_instance ops = Ret u -> eops_mean [] ops es ->
  (forall e, p e = true <-> selected method url e) ->
  exists l, endpoint_match qsort (Some method) (Some url) (endpoint_list u) = Ret l /\
    Permutation (filter p es) l /\ StronglySorted (fun a b => priority a <= priority b) l.
Proof.
  intros qsort ops u es method url p Q OK R M D.
  destruct (eop_run_lemma ops init_instance [] ltac:(repeat split; constructor) OK) as (u' & es' & R' & M' & T).
  rewrite R in R'. injection R' as <-. rewrite (eops_mean_det _ _ _ _ M' M) in T.
  exists (qsort (filter (sel method url) es)). split; [now apply match_table|].
  replace (filter p es) with (filter (sel method url) es); [exact (Q _)|].
  apply filter_ext. intros e. pose proof (sel_selected method url e). specialize (D e).
  destruct (sel method url e), (p e); auto; [destruct H as [H _]; specialize (H eq_refl); apply D in H; congruence
    | destruct D as [D _]; specialize (D eq_refl); apply H in D; congruence].
Qed.
Print Assumptions C16_priority_order.

Definition ep (m p f : string) (pr cb : Z) : endpoint := mk_ep (Some (bs m)) (Some (bs p)) (Some (bs f)) pr (Some cb) 0.
Definition e1 := ep "GET" "/api" "/user/@id" 5 1.
Definition e2 := ep "*" "" "*" 1 2.
Definition e3 := ep "GET" "api/" "user/me" 3 3.
Definition e4 := ep "POST" "api" ":x/:y" 0 4.
Definition tbl : instance :=
  match eop_run init_instance [EAdd e1; EAddList [e2; e3]; EAdd e4] with Ret u => u | UB _ => init_instance end.

Example C15_ex : Forall eop_ok [EAdd e1; EAddList [e2; e3]; EAdd e4] /\
  eop_run init_instance [EAdd e1; EAddList [e2; e3]; EAdd e4] = Ret tbl /\
  eops_mean [] [EAdd e1; EAddList [e2; e3]; EAdd e4] [e1; e2; e3; e4] /\
  endpoint_match isort (Some (bs "get")) (Some (bs "//api/user//me/")) (endpoint_list tbl) = Ret [e2; e3; e1].
Proof.
  split. { repeat constructor; simpl; discriminate. }
  split; [vm_compute; reflexivity|]. split; [|vm_compute; reflexivity].
  assert (C : forall m p f pr cb, complete (ep m p f pr cb)) by (intros; split; [discriminate|split; [discriminate|left; discriminate]]).
  apply ems_cons with [e1]. { apply (em_add [] e1). apply C. }
  apply ems_cons with ([e1] ++ [e2; e3]). { apply (em_add_list [e1] [e2; e3] []); [repeat apply Forall_cons; try apply C; apply Forall_nil|auto]. }
  apply ems_cons with (([e1] ++ [e2; e3]) ++ [e4]). { apply em_add. apply C. } apply ems_nil.
Qed.

(** ** C17, C25 *)

(** the C string read at the start of the bytes [o] *)
Definition text_of (o t : list Z) : Prop :=
  ~ In 0 t /\ exists r, o = t ++ r /\ (r = [] \/ exists r', r = 0 :: r').
Definition decoded_by (text : str -> str) : Prop :=
  forall w, cstr w -> exists o, decodes w o /\ text_of o (text w).

Lemma c_text_spec : forall o, text_of o (c_text o).
Proof.
  induction o as [|c o (N & r & E & H)]; simpl.
  - split; auto. exists []. auto.
  - destruct (c =? 0) eqn:Z.
    + apply Z.eqb_eq in Z; subst. split; auto. exists (0 :: o). split; auto. right; eauto.
    + apply Z.eqb_neq in Z. split; [intros [C|C]; auto|]. exists r. split; auto. simpl. now rewrite <- E.
Qed.
Lemma seg_text_decoded : forall tl, decoded_by (seg_text tl).
Proof.
  intros tl w C. destruct (seg_text_spec tl w C) as (o & _ & D & E & _). exists o. split; auto. rewrite E. apply c_text_spec.
Qed.
Lemma okw_spec : forall tl check w, cstr w ->
  (okw check (seg_text tl w) = true <-> check = false \/ utf8_text (seg_text tl w)).
Proof.
  intros tl check w C. destruct (seg_text_spec tl w C) as (_ & _ & _ & _ & B & _). unfold okw.
  destruct check; simpl.
  - rewrite utf8_valid_spec; [intuition discriminate|]. eapply Forall_impl; [|exact B]. intros; simpl in *; lia.
  - intuition.
Qed.

(** C17, general form. For every url, endpoint without nameless parameters and parameter map
    [m] holding [d]: parsing succeeds, and each name is bound to its old value followed by the
    texts of the segments facing it (pattern positions counted from the end of the prefix), comma
    joined; nothing else changes. *)
Theorem C17_parameters_bound_partial : forall tl check, exists text ok,
  decoded_by text /\
  (forall w, cstr w -> (ok (text w) = true <-> check = false \/ utf8_text (text w))) /\
  forall url e m d pre fmt segments,
  repr m d -> no_null d -> cstr url -> sweight d + zlen url + 4 < two64 ->
  osegs (url_prefix e) pre -> osegs (url_format e) fmt -> segs url segments ->
  ~ In [64] fmt -> ~ In [58] fmt ->
  exists m' d', parse_url tl url e m check = Ret (U_OK, m') /\ repr m' d' /\
    forall name, sget d' name = joined (old_values (sget d name) ++ bound text ok name fmt (skipn (length pre) segments)).
Proof.
  intros tl check. exists (seg_text tl), (okw check). split; [apply seg_text_decoded|]. split; [apply okw_spec|].
  intros url e m d pre fmt segments R N C S P F G N1 N2.
  apply osegs_owords in P, F. apply segs_words in G. subst.
  destruct (parse_url_lemma tl check url e m d R N C) as (m' & d' & E & R' & _ & H); auto.
  - intros ws W. apply osegs_owords in W. subst ws. auto.
  - eauto.
Qed.
Print Assumptions C17_parameters_bound_partial.

(** C17, for an endpoint that the router selects, a name used once: the name is bound to the
    decoded text of the segment at the position of the parameter in the pattern. *)
Theorem C17_single_parameter_partial : forall tl check method url e m d i c name,
  repr m d -> no_null d -> cstr url -> sweight d + zlen url + 4 < two64 ->
  selected method url e ->
  (forall ws, osegs (url_format e) ws -> ~ In [64] ws /\ ~ In [58] ws /\ (forall w, ~ In (63 :: w) ws) /\
     nth_error ws i = Some (c :: name) /\
     (forall j x, nth_error ws j = Some x -> j <> i -> x <> 64 :: name /\ x <> 58 :: name)) ->
  c = 64 \/ c = 58 -> sget d name = None ->
  exists pre u seg o text m' d', osegs (url_prefix e) pre /\ segs url u /\ nth_error u (length pre + i) = Some seg /\
    decodes seg o /\ text_of o text /\
    parse_url tl url e m check = Ret (U_OK, m') /\ repr m' d' /\
    (check = false \/ utf8_text text -> sget d' name = Some (Some text)).
Proof.
  intros tl check method url e m d i c name R N C S SL F Hc G.
  destruct (param_lemma tl check url e m d method i c name) as (pre & u & seg & P & U & E & m' & d' & PE & R' & H); auto.
  - intros ws W. destruct (F ws W) as (A & B & _). auto.
  - intros ws W. destruct (F ws W) as (_ & _ & A). auto.
  - assert (CS : cstr seg).
    { pose proof (segs_cstr _ _ U C) as FC. rewrite Forall_forall in FC. apply FC. eapply nth_error_In; eauto. }
    destruct (seg_text_decoded tl seg CS) as (o & D & T).
    exists pre, u, seg, o, (seg_text tl seg), m', d'. repeat (split; auto).
    intros Q. apply H. now apply okw_spec.
Qed.
Print Assumptions C17_single_parameter_partial.

(** the text of a segment produced by ulfius_url_encode is the encoded value *)
Theorem C17_encoded_segment : forall ah tl v e, cstr v -> url_encode ah v = Ret (e ++ [0]) -> seg_text tl e = v.
Proof.
  intros ah tl v e C E. destruct (C11_lemma ah tl false v C) as (e' & E' & _ & D). rewrite E in E'.
  injection E' as E'. apply app_inj_tail in E' as [<- _]. unfold seg_text. rewrite D.
  clear E D. rewrite c_text_app0. induction C as [|c v B F IH]; auto. simpl.
  replace (c =? 0) with false by (symmetry; apply Z.eqb_neq; lia). now rewrite IH.
Qed.
Print Assumptions C17_encoded_segment.

(** C25. The map prepared for one callback does not depend on what the map held before: it is
    the query-string map [d] extended with the parameters of this endpoint. *)
Theorem C25_own_parameters_only : forall tl check, exists text ok,
  decoded_by text /\
  (forall w, cstr w -> (ok (text w) = true <-> check = false \/ utf8_text (text w))) /\
  forall old initial url e d pre fmt segments,
  repr initial d -> no_null d -> cstr url -> sweight d + zlen url + 4 < two64 ->
  osegs (url_prefix e) pre -> osegs (url_format e) fmt -> segs url segments ->
  ~ In [64] fmt -> ~ In [58] fmt ->
  exists m' d', prepare_map_url tl old initial url e check = Ret (U_OK, m') /\ repr m' d' /\
    forall name, sget d' name = joined (old_values (sget d name) ++ bound text ok name fmt (skipn (length pre) segments)).
Proof.
  intros tl check. exists (seg_text tl), (okw check). split; [apply seg_text_decoded|]. split; [apply okw_spec|].
  intros old initial url e d pre fmt segments R N C S P F G N1 N2.
  apply osegs_owords in P, F. apply segs_words in G. subst.
  apply prepare_lemma; auto.
  intros ws W. apply osegs_owords in W. subst ws. auto.
Qed.
Print Assumptions C25_own_parameters_only.

Theorem C25_old_map_irrelevant : forall tl check old old' initial url e,
  prepare_map_url tl old initial url e check = prepare_map_url tl old' initial url e check.
Proof. reflexivity. Qed.
Print Assumptions C25_old_map_irrelevant.

(** ** C17 counterexamples and examples *)
Definition id_tl (c : Z) := c.
Definition parsed (url : string) (e : endpoint) (m : umap) (k : string) : option (Z * outcome (option str)) :=
  match parse_url id_tl (bs url) e m false with
  | Ret (r, m') => Some (r, get_str m' (bs k))
  | UB _ => None
  end.

Example C17_ex :
  parsed "/api/user/a%20b" e1 u_map_init "id" = Some (U_OK, Ret (Some (bs "a b"))) /\
  parsed "/x/1/2" (ep "GET" "x" "@a/:a" 0 1) u_map_init "a" = Some (U_OK, Ret (Some (bs "1,2"))) /\
  selected (bs "GET") (bs "/api/user/a%20b") e1.
Proof.
  split; [vm_compute; reflexivity|]. split; [vm_compute; reflexivity|]. apply sel_selected. vm_compute. reflexivity.
Qed.

(** full C17 is false: a '?' segment in the format is dropped for matching but not for binding *)
Theorem C17_query_segment_refuted : exists url e, selected (bs "GET") url e /\
  pattern e [bs "@a"; bs "@b"] /\ segs url [bs "1"; bs "2"] /\
  exists r m, parse_url id_tl url e u_map_init false = Ret (r, m) /\
    get_str m (bs "a") = Ret (Some (bs "2")) /\ get_str m (bs "b") = Ret None.
Proof.
  exists (bs "/1/2"), (ep "GET" "" "?x/@a/@b" 0 1). split; [apply sel_selected; vm_compute; reflexivity|].
  split; [apply pattern_split; vm_compute; reflexivity|].
  split. { change [bs "1"; bs "2"] with (words (bs "/1/2")). apply words_segs. }
  do 2 eexists. split; [vm_compute; reflexivity|]. split; vm_compute; reflexivity.
Qed.
Print Assumptions C17_query_segment_refuted.

(** full C17 is false: a nameless '@' makes parsing stop, later parameters are lost *)
Theorem C17_nameless_refuted : exists url e, selected (bs "GET") url e /\
  pattern e [bs "@"; bs "@b"] /\ segs url [bs "1"; bs "2"] /\
  exists m, parse_url id_tl url e u_map_init false = Ret (U_ERROR_MEMORY, m) /\ get_str m (bs "b") = Ret None.
Proof.
  exists (bs "/1/2"), (ep "GET" "" "@/@b" 0 1). split; [apply sel_selected; vm_compute; reflexivity|].
  split; [apply pattern_split; vm_compute; reflexivity|].
  split. { change [bs "1"; bs "2"] with (words (bs "/1/2")). apply words_segs. }
  eexists. split; [vm_compute; reflexivity|]. vm_compute; reflexivity.
Qed.
Print Assumptions C17_nameless_refuted.

(** ** C19 *)

(** C19. Any history of add, add list and remove that never passes the empty endpoint: no
    undefined behaviour, and the table is the abstract list followed by the empty endpoint, with
    the right count. ([eops_mean] is functional: [C19_meaning_functional].) *)
Theorem C19_table_well_formed_partial : forall ops, Forall eop_ok ops ->
  exists u es, eop_run init_instance ops = Ret u /\ eops_mean [] ops es /\ table_ok u es.
Proof. intros ops OK. apply eop_run_lemma; auto. repeat split; constructor. Qed.
Print Assumptions C19_table_well_formed_partial.

Theorem C19_meaning_functional : forall ops es a b, eops_mean es ops a -> eops_mean es ops b -> a = b.
Proof. exact eops_mean_det. Qed.
Print Assumptions C19_meaning_functional.

(** after the endpoint list is freed (ulfius_clean_instance) the next addition starts afresh *)
Theorem C19_clean_then_add : forall u e, complete e ->
  exists u', add_endpoint (clean_endpoints u) e = Ret (U_OK, u') /\ table_ok u' [e].
Proof. exact clean_add_lemma. Qed.
Print Assumptions C19_clean_then_add.

(** full C19 is false: adding the empty endpoint succeeds and hides every later endpoint *)
Theorem C19_empty_endpoint_refuted : exists u, eop_run init_instance [EAdd empty_endpoint; EAdd e1] = Ret u /\
  nb_endpoints u = 2%nat /\ (exists u1, add_endpoint init_instance empty_endpoint = Ret (U_OK, u1)) /\
  selected (bs "GET") (bs "/api/user/1") e1 /\
  forall qsort, qsort [] = [] -> endpoint_match qsort (Some (bs "GET")) (Some (bs "/api/user/1")) (endpoint_list u) = Ret [].
Proof.
  eexists. split; [vm_compute; reflexivity|]. split; [reflexivity|]. split; [eexists; vm_compute; reflexivity|].
  split; [apply sel_selected; vm_compute; reflexivity|]. intros q Q. unfold endpoint_match. cbn [endpoint_list].
  match goal with |- context [match_loop ?a ?b ?c] => replace (match_loop a b c) with (@Ret (list endpoint) []) by (vm_compute; reflexivity) end.
  simpl. now rewrite Q.
Qed.
Print Assumptions C19_empty_endpoint_refuted.

(** full C19 is false: cleaning does not reset the count, so a removal afterwards dereferences NULL *)
Theorem C19_clean_then_remove_refuted : exists u, eop_run init_instance [EAdd e1] = Ret u /\
  remove_endpoint (clean_endpoints u) e1 = UB NullDeref.
Proof. eexists. split; vm_compute; reflexivity. Qed.
Print Assumptions C19_clean_then_remove_refuted.

Example C19_ex : eop_run init_instance [EAdd e1; EAddList [e2; e3]; ERemove e2; EAdd e4]
  = Ret (mk_inst (Some [Some e1; Some e3; Some e4; Some empty_endpoint]) 3).
Proof. vm_compute. reflexivity. Qed.

(** ** C20 *)

(** C20. On every reachable table: exactly the endpoints with the same method, prefix and format
    up to surrounding slashes go, the order of the others is kept, and the code tells whether
    there was one. *)
Theorem C20_remove_exact : forall ops u es t (p : endpoint -> bool),
  Forall eop_ok ops -> eop_run init_instance ops = Ret u -> eops_mean [] ops es ->
  (forall e, p e = true <-> same_route t e) ->
  http_method t <> None -> url_prefix t <> None \/ url_format t <> None ->
  exists u' r, remove_endpoint u t = Ret (r, u') /\ table_ok u' (filter (fun e => negb (p e)) es) /\
    (r = U_OK \/ r = U_ERROR_NOT_FOUND) /\ (r = U_OK <-> exists e, In e es /\ same_route t e).
Proof.
  intros ops u es t p OK R M D HM HP.
  destruct (eop_run_lemma ops init_instance [] ltac:(repeat split; constructor) OK) as (u1 & es' & R' & M' & T).
  rewrite R in R'. injection R' as <-. rewrite (eops_mean_det _ _ _ _ M' M) in T.
  destruct (remove_lemma u es t T) as (u' & E & T').
  { intros [C|[C1 C2]]; [congruence|destruct HP; congruence]. }
  exists u', (if existsb (hit t) es then U_OK else U_ERROR_NOT_FOUND). split; auto. split.
  - replace (filter (fun e => negb (p e)) es) with (filter (fun e => negb (hit t e)) es); auto.
    apply filter_ext. intros e. f_equal. pose proof (hit_same_route t e). specialize (D e).
    destruct (hit t e), (p e); auto; [destruct H as [H _]; specialize (H eq_refl); apply D in H; congruence
    | destruct D as [D _]; specialize (D eq_refl); apply H in D; congruence].
  - destruct (existsb (hit t) es) eqn:X.
    + split; auto. split; auto. intros _. apply existsb_exists in X as (e & I & H). exists e. split; auto. now apply hit_same_route.
    + split; auto. split; [discriminate|]. intros (e & I & H). exfalso. apply hit_same_route in H.
      assert (existsb (hit t) es = true) by (apply existsb_exists; eauto). congruence.
Qed.
Print Assumptions C20_remove_exact.

(** an argument without method or without any path is refused, nothing changes *)
Theorem C20_bad_argument : forall u t, http_method t = None \/ (url_prefix t = None /\ url_format t = None) ->
  remove_endpoint u t = Ret (U_ERROR_PARAMS, u).
Proof. exact remove_bad_lemma. Qed.
Print Assumptions C20_bad_argument.

Example C20_ex : remove_endpoint tbl (ep "GET" "//api/" "user/me/" 9 9)
  = Ret (U_OK, mk_inst (Some [Some e1; Some e2; Some e4; Some empty_endpoint]) 3) /\
  (exists u, remove_endpoint tbl (ep "get" "//api/" "user/me/" 9 9) = Ret (U_ERROR_NOT_FOUND, u)).
Proof. split; [vm_compute; reflexivity|]. eexists. vm_compute. reflexivity. Qed.
