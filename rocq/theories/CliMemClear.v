(** Proofs about the memory of websockets opened by a client (C101): releasing a websocket, the headers
    of the answer, new websockets. *)
From Coq Require Import String ZArith Bool List Lia.
From Verif Require Import Base BaseFacts StrModel UMapModel UMapProofs OwnModel OwnSpec OwnProofs MapMemModel MapMemSpec MapMemProofs MapMemPut MapMemRun MapMemSteps
  RespMemModel RespMemSpec RespMemProofs RespMemSteps WsMemModel WsMemSpec WsMemProofs WsMemCalls HandMemModel HandMemSpec HandMemProofs CliMemModel CliMemSpec CliMemProofs.
Import ListNotations.
Open Scope Z_scope.
Open Scope list_scope.

(** ** a websocket is released *)
Definition stay (E : cenv) (e : nat * wext) : list nat := if x_on (snd e) && c_free E (x_fun (snd e)) then [] else ctx e.
Lemma len_stay : forall E es, List.length (flat_map (stay E) es) = left_behind E (map cabs es).
Proof.
  intros E es. unfold left_behind. induction es as [|e es IH]; [reflexivity|]. cbn [flat_map map filter]. rewrite app_length, IH. unfold stay.
  change (e_on (cabs e)) with (x_on (snd e)). change (e_fun (cabs e)) with (x_fun (snd e)).
  destruct (x_on (snd e) && c_free E (x_fun (snd e))); cbn [negb].
  - rewrite andb_false_r. reflexivity.
  - rewrite andb_true_r, len_cctx. destruct (holds (cabs e)); reflexivity.
Qed.
Lemma free_ccontexts_ok : forall E es m ids, Forall (good E) es -> mowns m (flat_map ctx es ++ ids) -> incl (map fst es) ids ->
  exists m', x_free_ccontexts E m (map Some es) = Ret m' /\ mowns m' (flat_map (stay E) es ++ ids) /\ later m m'.
Proof.
  intros E. induction es as [|[i e] es IH]; intros m ids CS W C.
  - exists m. split; [reflexivity|]. split; [exact W|]. eapply later_refl; eauto.
  - inversion CS as [|? ? C1 C2]; subst. cbn [map x_free_ccontexts flat_map] in *. rewrite <- app_assoc in W.
    rewrite (x_deref_ok _ m i e _ W) by (apply in_or_app; right; apply in_or_app; right; apply C; now left). unfold bind at 2. cbn [snd].
    assert (G : exists m1, (if x_on e && c_free E (x_fun e) then (do c <- x_member (x_context e); x_free m (addr c)) else Ret m) = Ret m1 /\ mowns m1 (stay E (i, e) ++ flat_map ctx es ++ ids) /\ later m m1).
    { unfold stay. cbn [snd]. destruct (x_on e && c_free E (x_fun e)) eqn:B.
      - apply andb_prop in B as [B1 B2]. destruct C1 as [_ C1]. cbn [snd] in C1. specialize (C1 B1 B2). unfold ctx in W at 1. cbn [snd] in W. destruct (x_context e) as [c|]; [|contradiction].
        cbn [x_member of_member] in *. unfold bind at 1. destruct (x_free_ptr _ _ _ _ W) as (m1 & -> & W1 & L1). exists m1. auto.
      - exists m. split; [reflexivity|]. split; [exact W|]. eapply later_refl; eauto. }
    destruct G as (m1 & -> & W1 & L1). unfold bind at 1.
    assert (W1' : mowns m1 (flat_map ctx es ++ (stay E (i, e) ++ ids))) by mowns_by W1.
    destruct (IH m1 _ C2 W1') as (m2 & -> & W2 & L2); [intros z Z; apply in_or_app; right; apply C; now right|]. exists m2. split; [reflexivity|]. split; [mowns_by W2|]. chain.
Qed.
Definition empty_list (i : nat) : member (ptr hlist) := Some (Some (i, mk_hlist None 0)).
Lemma clear_cman_ok : forall E m b li lo exp ex es prot text ids, exfit ex es -> Forall (good E) es ->
  mowns m (li :: lo :: ptr_blocks prot ++ ptr_blocks text ++ wexts_blocks ex ++ ids) ->
  exists m', x_clear_cman E m (mk_hman b (empty_list li) (empty_list lo) true true exp (Some ex)) prot text = Ret m' /\ mowns m' (flat_map (stay E) es ++ ids) /\ later m m'.
Proof.
  intros E m b li lo exp ex es prot text ids A CS W. unfold x_clear_cman, empty_list. cbn [g_in g_out g_exts x_member]. unfold bind at 1.
  cbn [x_clear_list]. rewrite (x_deref_ok _ m li _ _ W) by now left. unfold bind at 2. cbn [snd l_arr l_len x_clear_msgs addr]. unfold bind at 2. change (x_free m None) with (Ret m). unfold bind at 2. unfold bind at 1. cbn [fst].
  destruct (x_free_ok _ _ _ W) as (m1 & -> & W1 & L1 & _). unfold bind at 1. unfold bind at 1.
  cbn [x_clear_list]. rewrite (x_deref_ok _ m1 lo _ _ W1) by now left. unfold bind at 2. cbn [snd l_arr l_len x_clear_msgs addr]. unfold bind at 2. change (x_free m1 None) with (Ret m1). unfold bind at 2. unfold bind at 1. cbn [fst].
  destruct (x_free_ok _ _ _ W1) as (m2 & -> & W2 & L2 & _). unfold bind at 1.
  destruct (x_free_ptr _ _ _ _ W2) as (m3 & -> & W3 & L3). unfold bind at 1.
  destruct (x_free_ptr _ _ _ _ W3) as (m4 & -> & W4 & L4). unfold bind at 1. unfold bind at 1.
  assert (W5 : mowns m4 (flat_map ctx es ++ (flat_map body es ++ (spine ex ++ ids)))).
  { eapply mowns_ext; [exact W4|]. intros x. rewrite cnt_app, (wexts_eq _ _ _ A), (xb_split es). repeat rewrite cnt_app. lia. }
  rewrite (x_elements_ok _ _ _ _ A W5) by (do 2 apply incl_appr; apply incl_appl, incl_refl). unfold bind at 1.
  destruct (free_ccontexts_ok E _ _ _ CS W5) as (m5 & -> & W6 & L5); [apply incl_appl, body_in|]. unfold bind at 1.
  destruct (clean_spine ex es m5 (flat_map (stay E) es ++ ids) A) as (m6 & E6 & W7 & L6); [mowns_by W6|]. exists m6. split; [exact E6|]. split; [exact W7|]. chain.
Qed.
(** the websocket of a handler and its reading *)
Definition manrel (E : cenv) (g : ptr hman) (conn : bool) (bits : Z) (l : list cext) : Prop :=
  exists pm li lo ex es, g = Some (pm, mk_hman conn (empty_list li) (empty_list lo) true true bits (Some ex)) /\ exfit ex es /\ Forall (good E) es /\ l = map cabs es.
Definition wrel (E : cenv) (w : cws) (s : cst) : Prop :=
  exists g, k_man w = Some g /\ manrel E g (t_conn s) (t_bits s) (t_exts s) /\ t_prot s = ptext (k_prot w) /\ t_text s = ptext (k_text w) /\ t_req s = has (k_req w).
Lemma clear_cws_ok : forall E m p w s ids, wrel E w s -> mowns m (p :: cws_blocks w ++ ids) ->
  exists m' more, x_clear_cws E m p w = Ret m' /\ later m m' /\ mowns m' (more ++ ids) /\ List.length more = left_behind E (t_exts s).
Proof.
  intros E m p [man prot text req] s ids (g & K & (pm & li & lo & ex & es & -> & A & G & X) & _) W. cbn [k_man] in K. subst man.
  unfold cws_blocks in W. cbn [k_man k_prot k_text k_req of_member man_blocks g_in g_out g_exts empty_list mlist_blocks l_arr] in W.
  unfold x_clear_cws. cbn [k_man k_prot k_text k_req]. rewrite (use_ok _ _ p (proj1 W)) by now left. unfold bind at 1.
  assert (W0 : mowns m (ptr_blocks req ++ (p :: pm :: (li :: lo :: ptr_blocks prot ++ ptr_blocks text ++ wexts_blocks ex ++ ids)))) by mowns_by W.
  destruct (x_free_ptr _ _ _ _ W0) as (m1 & -> & W1 & L1). unfold bind at 1. cbn [x_member]. unfold bind at 1.
  rewrite (x_deref_ok _ m1 pm _ _ W1) by (right; now left). unfold bind at 2. cbn [snd].
  destruct (clear_cman_ok E m1 (t_conn s) li lo (t_bits s) ex es prot text (p :: pm :: ids) A G) as (m2 & -> & W2 & L2); [mowns_by W1|]. unfold bind at 1. cbn [addr].
  assert (W3 : mowns m2 (pm :: p :: (flat_map (stay E) es ++ ids))) by mowns_by W2.
  destruct (x_free_ok _ _ _ W3) as (m3 & -> & W4 & L3 & _). unfold bind at 1.
  destruct (x_free_ok _ _ _ W4) as (m4 & -> & W5 & L4 & _). exists m4, (flat_map (stay E) es). split; [reflexivity|]. split; [chain|]. split; [exact W5|]. rewrite X. apply len_stay.
Qed.

(** ** the headers of the answer *)
Definition texts (w : cws) : list nat := ptr_blocks (k_prot w) ++ ptr_blocks (k_text w).
Definition is_prot (h : header) : bool := match h with HProt _ => true | _ => false end.
Definition is_exts (h : header) : bool := match h with HExts _ => true | _ => false end.
Definition header_result (m : mem) (w : cws) (ids : list nat) (r : outcome (mem * cws)) (ar : cst -> cst * nat) (np nt : nat) : Prop :=
  exists m' w' more, r = Ret (m', w') /\ later m m' /\ k_man w' = k_man w /\ k_req w' = k_req w /\ mowns m' (texts w' ++ more ++ ids) /\
    ((forall l b q c, ar (mk_cst l b (ptext (k_prot w)) (ptext (k_text w)) q c) = (mk_cst l b (ptext (k_prot w')) (ptext (k_text w')) q c, List.length more)) \/ short m) /\
    ((np + one_if (has (k_prot w)) <= 1)%nat -> (nt + one_if (has (k_text w)) <= 1)%nat -> more = [] /\
      (one_if (has (k_prot w')) <= np + one_if (has (k_prot w)))%nat /\ (one_if (has (k_text w')) <= nt + one_if (has (k_text w)))%nat).
Lemma x_header_ok : forall m w h ids, mowns m (texts w ++ ids) ->
  header_result m w ids (x_header m w h) (fun s => a_header s h) (one_if (is_prot h)) (one_if (is_exts h)).
Proof.
  intros m w h ids W. unfold x_header.
  destruct (match h with HProt v => (bs "Sec-WebSocket-Protocol", v) | HExts v => (bs "Sec-WebSocket-Extensions", v) | HOther k v => (k, v) end) as [k v] eqn:KV.
  destruct (x_strdup_ok m (Some k) _ W) as (pk & m1 & -> & L1 & W1 & T1).
  destruct (x_strdup_ok m1 (Some v) _ W1) as (pv & m2 & -> & L2 & W2 & T2).
  assert (DONE : forall m3 w' more, later m2 m3 -> k_man w' = k_man w -> k_req w' = k_req w -> mowns m3 (ptr_blocks pk ++ ptr_blocks pv ++ texts w' ++ more ++ ids) ->
    ((forall l b q c, a_header (mk_cst l b (ptext (k_prot w)) (ptext (k_text w)) q c) h = (mk_cst l b (ptext (k_prot w')) (ptext (k_text w')) q c, List.length more)) \/ short m) ->
    ((one_if (is_prot h) + one_if (has (k_prot w)) <= 1)%nat -> (one_if (is_exts h) + one_if (has (k_text w)) <= 1)%nat -> more = [] /\
      (one_if (has (k_prot w')) <= one_if (is_prot h) + one_if (has (k_prot w)))%nat /\ (one_if (has (k_text w')) <= one_if (is_exts h) + one_if (has (k_text w)))%nat) ->
    header_result m w ids (do m4 <- x_free m3 (addr pk); do m5 <- x_free m4 (addr pv); Ret (m5, w')) (fun s => a_header s h) (one_if (is_prot h)) (one_if (is_exts h))).
  { intros m3 w' more L3 K Q W3 EX PL.
    destruct (x_free_ptr _ _ _ _ W3) as (m4 & -> & W4 & L4). unfold bind at 1. destruct (x_free_ptr _ _ _ _ W4) as (m5 & -> & W5 & L5). unfold bind.
    exists m5, w', more. split; [reflexivity|]. split; [chain|]. auto. }
  assert (SAME : short m \/ (exists a b, h = HOther a b) ->
    header_result m w ids (do m4 <- x_free m2 (addr pk); do m5 <- x_free m4 (addr pv); Ret (m5, w)) (fun s => a_header s h) (one_if (is_prot h)) (one_if (is_exts h))).
  { intros S. apply (DONE m2 w []); [eapply later_refl; eauto|reflexivity|reflexivity|mowns_by W2| |intros; split; [reflexivity|lia]].
    destruct S as [S|(a & b & ->)]; [now right|left; reflexivity]. }
  destruct pk as [pk|].
  2:{ unfold bind at 1. cbn [fst snd]. apply SAME. left. destruct T1 as [T1|(_ & S & _)]; [discriminate|exact S]. }
  destruct h as [v'|v'|k' v'].
  1,2: injection KV as <- <-; destruct (x_dup_ok m2 pv _ W2) as (t & m3 & E3 & L3 & W3 & T3); [apply incl_appl, incl_refl|]; rewrite E3; unfold bind at 2; cbn [fst snd]; unfold bind at 1; cbn [fst snd].
  3:{ unfold bind at 1. cbn [fst snd]. apply SAME. right. eauto. }
  - apply (DONE m3 (mk_cws (k_man w) t (k_text w) (k_req w)) (ptr_blocks (k_prot w))); [exact L3|reflexivity|reflexivity| | |].
    + unfold texts in *. cbn [k_prot k_text]. mowns_by W3.
    + destruct T2 as [T2|(_ & S & _)]; [|right; apply L1, S]. destruct T3 as [T3|(_ & S & _)]; [|right; apply L1, L2, S]. left. intros l b q c. cbn [a_header t_exts t_bits t_prot t_text t_req t_conn k_prot k_text].
      rewrite len_ptr, has_ptext, T3, T2. reflexivity.
    + cbn [is_prot is_exts one_if k_prot k_text]. intros H1 H2. destruct (k_prot w) as [?|]; [cbn in H1; lia|]. split; [reflexivity|]. cbn [has one_if]. destruct (has t); cbn [one_if]; lia.
  - apply (DONE m3 (mk_cws (k_man w) (k_prot w) t (k_req w)) (ptr_blocks (k_text w))); [exact L3|reflexivity|reflexivity| | |].
    + unfold texts in *. cbn [k_prot k_text]. mowns_by W3.
    + destruct T2 as [T2|(_ & S & _)]; [|right; apply L1, S]. destruct T3 as [T3|(_ & S & _)]; [|right; apply L1, L2, S]. left. intros l b q c. cbn [a_header t_exts t_bits t_prot t_text t_req t_conn k_prot k_text].
      rewrite len_ptr, has_ptext, T3, T2. reflexivity.
    + cbn [is_prot is_exts one_if k_prot k_text]. intros H1 H2. destruct (k_text w) as [?|]; [cbn in H2; lia|]. split; [reflexivity|]. cbn [has one_if]. destruct (has t); cbn [one_if]; lia.
Qed.
Definition lines (p : header -> bool) (l : list header) : nat := List.length (filter p l).
Lemma lines_cons : forall p h l, lines p (h :: l) = (one_if (p h) + lines p l)%nat.
Proof. intros p h l. unfold lines. cbn [filter]. destruct (p h); reflexivity. Qed.
Lemma x_headers_ok : forall l m w ids, mowns m (texts w ++ ids) -> header_result m w ids (x_headers m w l) (fun s => a_headers s l) (lines is_prot l) (lines is_exts l).
Proof.
  induction l as [|h l IH]; intros m w ids W.
  - exists m, w, []. cbn [x_headers a_headers app lines filter List.length]. split; [reflexivity|]. split; [eapply later_refl; eauto|]. split; [reflexivity|]. split; [reflexivity|]. split; [exact W|].
    split; [left; reflexivity|]. intros _ _. split; [reflexivity|lia].
  - cbn [x_headers a_headers]. destruct (x_header_ok m w h ids W) as (m1 & w1 & more & -> & L1 & K1 & Q1 & W1 & EX1 & PL1). unfold bind at 1. cbn [fst snd].
    destruct (IH m1 w1 _ W1) as (m2 & w2 & more2 & -> & L2 & K2 & Q2 & W2 & EX2 & PL2).
    exists m2, w2, (more ++ more2). split; [reflexivity|]. split; [chain|]. split; [congruence|]. split; [congruence|]. split; [mowns_by W2|]. split.
    + destruct EX1 as [EX1|SH]; [|now right]. destruct EX2 as [EX2|SH]; [left|right; apply L1, SH]. intros k b q c. rewrite EX1, EX2, app_length. reflexivity.
    + rewrite !lines_cons. intros H1 H2. destruct PL1 as (-> & P1 & P2); [lia|lia|]. destruct PL2 as (-> & P3 & P4); [lia|lia|]. split; [reflexivity|lia].
Qed.

(** ** new websockets *)
Lemma x_init_ws_bad : forall m ids, mowns m ids -> nth 0 (m_new m) true = true -> nth 1 (m_new m) true = false -> exists k, x_init_ws m true = UB k.
Proof.
  intros m ids W N0 N1. unfold x_init_ws, x_init_man. cbn [negb].
  destruct (x_malloc m) as [p m1] eqn:E1. destruct (malloc_tl _ _ _ E1) as [T1 [_ X1]].
  destruct p as [p|]; [|destruct (malloc_tl _ _ _ E1) as [_ [X _]]; specialize (X eq_refl); congruence].
  destruct (x_malloc m1) as [p2 m2] eqn:E2. destruct (malloc_tl _ _ _ E2) as [_ [_ X2]].
  rewrite T1, nth_tl in X2. rewrite (X2 N1). cbn [bind x_member]. unfold bind. destruct (x_free m2 (addr (@None (nat * hlist)))); cbn; eexists; reflexivity.
Qed.
Lemma wrel_fresh : forall E li lo pm, wrel E (mk_cws (Some (Some (pm, mk_hman false (empty_list li) (empty_list lo) true true 0 (Some None)))) None None None) fresh.
Proof.
  intros E li lo pm. eexists. split; [reflexivity|]. cbn [k_prot k_text k_req fresh t_conn t_bits t_exts t_prot t_text t_req]. split; [|auto].
  exists pm, li, lo, None, []. split; [reflexivity|]. split; [reflexivity|]. split; [constructor|reflexivity].
Qed.
