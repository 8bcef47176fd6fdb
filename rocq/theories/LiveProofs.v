(** Proofs about endpoints that change while requests are served (C114). *)
From Coq Require Import ZArith Bool List Lia Sorted Permutation.
From Verif Require Import Base BaseFacts UMapModel UMapProofs RouterModel RouterSpec RouterProofs EndpointProofs OwnModel OwnSpec OwnProofs.
From Verif Require Import LiveModel LiveSpec.
Import ListNotations.
Open Scope Z_scope.

Definition dbl (u : shared) : list nat := match t_default u with Some (i, _) => [i] | None => [] end.
Definition def_is (u : shared) (d : option endpoint) : Prop :=
  match t_default u with
  | None => d = None
  | Some (_, (Some cb, Some x)) => d = Some (mk_ep None None None 0 (Some cb) x)
  | _ => False
  end.
(** the table between two changes *)
Definition tab (h : heap) (u : shared) (hs : list hep) : Prop :=
  t_nb u = length hs /\
  match t_list u with Some (i, arr) => arr = slots hs /\ owns h (i :: hsb hs ++ dbl u) | None => hs = [] /\ owns h (dbl u) end.
Definition stays (t : endpoint) (es : list endpoint) : list endpoint := filter (fun e => negb (hit t e)) es.
Definition removable (t : endpoint) : Prop := ~ (http_method t = None \/ (url_prefix t = None /\ url_format t = None)).

(** the table during a change *)
Inductive busy : task -> heap -> shared -> list endpoint -> option endpoint -> Prop :=
| b_grown : forall e h u d hs i x y, t_list u = Some (i, map Some hs ++ [x; y]) -> t_nb u = S (length hs) -> owns h (i :: hsb hs ++ dbl u) ->
    complete e -> def_is u d -> busy (Grown e) h u (map erase hs) d
| b_filled : forall e h u d hs c i y, t_list u = Some (i, map Some (hs ++ [c]) ++ [y]) -> t_nb u = S (length hs) -> owns h (i :: hsb (hs ++ [c]) ++ dbl u) ->
    complete e -> erase c = e -> def_is u d -> busy (Filled e) h u (map erase hs) d
| b_seek : forall t h u d pre post es, tab h u (pre ++ post) -> map erase post = stays t es -> removable t -> def_is u d ->
    busy (Seek t (length pre)) h u (map erase pre ++ es) d
| b_hole : forall t h u d pre x post es i, t_list u = Some (i, slots (pre ++ x :: post)) -> t_nb u = S (length (pre ++ post)) ->
    owns h (i :: hsb (pre ++ post) ++ dbl u) -> map erase post = stays t es -> removable t -> def_is u d ->
    busy (Hole t (length pre)) h u (map erase pre ++ es) d
| b_short : forall t h u d pre post es i, t_list u = Some (i, slots (pre ++ post) ++ [Some hzero]) -> t_nb u = S (length (pre ++ post)) ->
    owns h (i :: hsb (pre ++ post) ++ dbl u) -> map erase post = stays t es -> removable t -> def_is u d ->
    busy (Short t (length pre)) h u (map erase pre ++ es) d
| b_blank : forall cb x h u d hs i w, tab h u hs -> t_default u = Some (i, w) -> busy (Blank cb x) h u (map erase hs) d
| b_half : forall cb x h u d hs i w, tab h u hs -> t_default u = Some (i, (Some cb, w)) -> busy (Half cb x) h u (map erase hs) d.

Definition order_of (k : task) : option change :=
  match k with
  | Idle => None | Begin o => Some o | Grown e | Filled e => Some (Add e) | Seek t _ | Hole t _ | Short t _ => Some (Drop t)
  | Blank cb x | Half cb x => Some (Fall cb x)
  end.
(** a request that looks at the table [hs] *)
Definition pos (u : shared) (hs : list hep) (c : call) : Prop :=
  let hits := filter (sel (c_method c) (c_url c)) in
  match c_stage c with
  | Looking p i found => p = option_map fst (t_list u) /\ (i <= length hs)%nat /\ found = hits (firstn i (map erase hs))
  | Asking => hits (map erase hs) = []
  | Fetching => hits (map erase hs) = [] /\ t_default u <> None
  | Copying cb => hits (map erase hs) = [] /\ exists i x, t_default u = Some (i, (Some cb, x))
  | _ => True
  end.
Definition still (h : heap) (u : shared) (es : list endpoint) (d : option endpoint) (cs : list call) : Prop :=
  exists hs, tab h u hs /\ def_is u d /\ es = map erase hs /\ Forall (pos u hs) cs.
Definition away (cs : list call) : Prop := Forall (fun c => looking (c_stage c) = false) cs.
Definition inv (s : live) (g : meaning) : Prop :=
  m_order g = order_of (l_task s) /\ m_calls g = map answer (l_calls s) /\ Forall registered (m_table g) /\
  (forall e, l_task s = Begin (Add e) -> not_empty_ep e) /\
  (changing (l_task s) = false /\ still (l_heap s) (l_shared s) (m_table g) (m_default g) (l_calls s) \/
   busy (l_task s) (l_heap s) (l_shared s) (m_table g) (m_default g) /\ away (l_calls s)).

Lemma busy_changing : forall k h u es d, busy k h u es d -> changing k = true.
Proof. intros k h u es d B. now inversion B. Qed.
Lemma away_pos : forall u hs cs, away cs -> Forall (pos u hs) cs.
Proof. intros u hs cs A. eapply Forall_impl; [|exact A]. intros c. unfold pos. destruct (c_stage c); cbn [looking]; intros L; try discriminate; exact Logic.I. Qed.

(** ** the program's thread *)
Lemma def_use : forall h u hs i w, tab h u hs -> t_default u = Some (i, w) -> h_use h i = Ret tt.
Proof.
  intros h u hs i w [_ L] TD. unfold dbl in L. rewrite TD in L. destruct (t_list u) as [[b arr]|]; destruct L as [_ O]; apply (use_ok h _ i O).
  - right. apply in_or_app. right. now left.
  - now left.
Qed.
Lemma resized_ok : forall h i moves ids, owns h (i :: ids) -> exists j h', resized h i moves = Ret (j, h') /\ owns h' (j :: ids).
Proof.
  intros h i [|] ids O; unfold resized; [now apply realloc_ok|]. rewrite (use_ok h (i :: ids) i O) by now left. unfold bind. eauto.
Qed.
Lemma slots_at : forall pre x post, aget (slots (pre ++ x :: post)) (length pre) = Ret (Some x).
Proof.
  intros. unfold slots. rewrite map_app. cbn [map]. rewrite <- app_assoc. cbn [app]. rewrite <- (map_length (@Some hep) pre). apply aget_mid.
Qed.
Lemma slots_end : forall hs, aget (slots hs) (length hs) = Ret (Some hzero).
Proof. intros. unfold slots. rewrite <- (map_length (@Some hep) hs). apply aget_mid. Qed.
Lemma h_at_ok : forall h ids i pre x post, owns h ids -> In i ids -> h_at h i (slots (pre ++ x :: post)) (length pre) = Ret x.
Proof. intros. unfold h_at. rewrite (use_ok h ids i) by auto. unfold bind at 1. rewrite slots_at. reflexivity. Qed.
Lemma shift_ok : forall pre x post, h_shift (slots (pre ++ x :: post)) (length pre) (S (length (pre ++ post)) - length pre) = Ret (slots (pre ++ post) ++ [Some hzero]).
Proof.
  intros pre x post. pose proof (h_shift_spec (map Some post ++ [Some hzero]) (map Some pre) (Some x)) as SH.
  rewrite (map_length Some pre), app_length, map_length in SH. cbn [length] in SH. unfold slots at 1. rewrite map_app. cbn [map]. rewrite <- app_assoc. cbn [app].
  replace (S (length (pre ++ post)) - length pre)%nat with (length post + 1)%nat by (rewrite app_length; lia).
  rewrite SH. f_equal. rewrite rev_app_distr. cbn [rev app]. unfold slots. rewrite map_app, <- !app_assoc. reflexivity.
Qed.
Lemma stays_app : forall t a b, stays t (a ++ b) = stays t a ++ stays t b.
Proof. intros. apply filter_app. Qed.

(** the result of a step of the program: the change goes on, or it is made *)
Definition goes (k : task) (h : heap) (u : shared) (es : list endpoint) (d : option endpoint) (r : heap * (shared * task)) : Prop :=
  let '(h', (u', k')) := r in
  busy k' h' u' es d /\ order_of k' = order_of k \/
  k' = Idle /\ exists o es' d' hs, order_of k = Some o /\ makes es d o es' d' /\ Forall registered es' /\ tab h' u' hs /\ def_is u' d' /\ es' = map erase hs.

Lemma work_begin : forall o h u hs d moves, tab h u hs -> def_is u d -> Forall registered (map erase hs) -> (forall e, o = Add e -> not_empty_ep e) ->
  exists r, work h u (Begin o) moves = Ret r /\ goes (Begin o) h u (map erase hs) d r.
Proof.
  intros o h u hs d moves (N & L) D R NE. destruct o as [e|t|cb x]; cbn [work].
  - specialize (NE e eq_refl). destruct (is_valid_endpoint e false) eqn:V.
    + apply (valid_complete e NE) in V. destruct (t_list u) as [[i arr]|] eqn:TL.
      * destruct L as [-> O]. destruct (resized_ok h i moves _ O) as (j & h1 & -> & O1). unfold bind. cbn [fst snd].
        eexists. split; [reflexivity|]. left. split; [|reflexivity].
        rewrite arealloc_grow1 by (unfold slots; rewrite app_length, map_length; cbn [length]; lia).
        eapply b_grown with (i := j) (x := Some hzero) (y := None); auto.
        -- unfold slots. cbn [with_list t_list]. rewrite <- app_assoc. reflexivity.
        -- cbn [with_list t_nb]. congruence.
      * destruct L as [-> O]. unfold h_malloc. eexists. split; [reflexivity|]. left. split; [|reflexivity].
        apply b_grown with (hs := []) (i := h_next h) (x := None) (y := None); auto. exact (malloc_ok _ _ O).
    + eexists. split; [reflexivity|]. right. split; [reflexivity|]. exists (Add e), (map erase hs), d, hs. split; [reflexivity|].
      split; [constructor; apply em_add_bad; intros C; apply (valid_complete e NE) in C; congruence|]. split; [exact R|]. split; [split; auto|]. auto.
  - destruct (negb (equals_endpoints t empty_endpoint) && is_valid_endpoint t true) eqn:V.
    + apply delete_valid in V. eexists. split; [reflexivity|]. left. split; [|reflexivity].
      rewrite N. replace (map erase hs) with (map erase hs ++ []) by apply app_nil_r. apply b_seek with (post := []); auto. rewrite app_nil_r. split; auto.
    + eexists. split; [reflexivity|]. right. split; [reflexivity|]. exists (Drop t), (map erase hs), d, hs. split; [reflexivity|].
      split; [|split; [exact R|split; [split; auto|auto]]]. constructor. apply em_remove_bad.
      assert (X : ~ removable t) by (intros X; apply delete_valid in X; congruence). unfold removable in X.
      destruct (http_method t), (url_prefix t), (url_format t); try (left; reflexivity); try (right; split; reflexivity); exfalso; apply X; intros [Y|[Y Y']]; discriminate.
  - unfold def_is in D. destruct (t_default u) as [[i [w1 w2]]|] eqn:TD.
    + eexists. split; [reflexivity|]. left. split; [|reflexivity]. eapply b_blank; eauto. split; auto.
    + unfold h_malloc. eexists. split; [reflexivity|]. left. split; [|reflexivity]. eapply b_blank with (i := h_next h); [|reflexivity].
      split; [exact N|]. unfold dbl in *. rewrite TD in L. cbn [t_list t_default]. destruct (t_list u) as [[i arr]|].
      * destruct L as [-> O]. split; [reflexivity|]. pose proof (malloc_ok _ _ O) as O1. owns_by O1.
      * destruct L as [-> O]. split; [reflexivity|]. exact (malloc_ok _ _ O).
Qed.

Lemma work_busy : forall k h u es d moves, busy k h u es d -> Forall registered es -> exists r, work h u k moves = Ret r /\ goes k h u es d r.
Proof.
  intros k h u es d moves B R. destruct B as [e h u d hs i x y TL N O C D|e h u d hs c i y TL N O C E D|t h u d pre post es T M V D|t h u d pre x post es i TL N O M V D|t h u d pre post es i TL N O M V D|cb x h u d hs i w T TD|cb x h u d hs i w T TD].
  - cbn [work]. destruct (e_copy h e) as [c h1] eqn:EC. destruct (e_copy_ok _ _ _ _ _ O EC) as [O1 E1]. unfold set_slot. rewrite TL.
    rewrite (use_ok h1 _ i O1) by (apply in_or_app; right; left; reflexivity). unfold bind at 2. rewrite N.
    replace (S (length hs) - 1)%nat with (length (map (@Some hep) hs)) by (rewrite map_length; lia). rewrite aset_mid. unfold bind.
    eexists. split; [reflexivity|]. left. split; [|reflexivity]. eapply b_filled with (c := c) (y := y) (i := i); auto.
    + cbn [with_list t_list]. rewrite map_app, <- app_assoc. reflexivity.
    + change (dbl (with_list _ _ _)) with (dbl u). rewrite hsb_app. unfold hsb at 2. cbn [flat_map]. rewrite app_nil_r. owns_by O1.
  - cbn [work]. rewrite e_copy_empty. unfold set_slot. rewrite TL. rewrite (use_ok h _ i O) by now left. unfold bind at 2. rewrite N.
    replace (S (length hs)) with (length (map (@Some hep) (hs ++ [c]))) by (rewrite map_length, app_length; cbn [length]; lia). rewrite aset_mid. unfold bind.
    eexists. split; [reflexivity|]. right. split; [reflexivity|]. exists (Add e), (map erase hs ++ [e]), d, (hs ++ [c]). split; [reflexivity|].
    split; [constructor; now apply em_add|]. split; [apply Forall_app; split; [exact R|]; constructor; [apply C|constructor]|].
    split; [|split; [exact D|rewrite map_app; cbn [map]; now rewrite E]]. split; [reflexivity || (cbn [with_list t_nb]; now rewrite map_length)|].
    cbn [with_list t_list]. split; [reflexivity|exact O].
  - destruct T as [N L]. destruct pre as [|z pre0 _] using rev_ind.
    + cbn [length work]. eexists. split; [reflexivity|]. right. split; [reflexivity|]. cbn [map app] in *.
      exists (Drop t), (stays t es), d, post. split; [reflexivity|]. split; [constructor; eapply em_remove; [exact V|apply hit_same_route|reflexivity]|].
      split; [apply Forall_forall; intros e I; apply filter_In in I; rewrite Forall_forall in R; apply R; tauto|]. split; [split; auto|]. auto.
    + replace (length (pre0 ++ [z])) with (S (length pre0)) by (rewrite app_length; cbn [length]; lia). cbn [work].
      replace ((pre0 ++ [z]) ++ post) with (pre0 ++ z :: post) in * by now rewrite <- app_assoc.
      destruct (t_list u) as [[i arr]|] eqn:TL.
      2:{ destruct L as [L _]. destruct pre0; discriminate. }
      destruct L as [-> O]. rewrite (h_at_ok h _ i _ _ _ O) by now left. unfold bind at 1.
      rewrite (e_read_ok h _ z O) by (rewrite hsb_app, hsb_cons; intros w W; right; apply in_or_app; left; apply in_or_app; right; apply in_or_app; auto).
      unfold bind at 1. fold (hit t (erase z)). rewrite map_app. cbn [map]. rewrite <- app_assoc. cbn [app]. destruct (hit t (erase z)) eqn:HT.
      * assert (O' : owns h (ep_blocks z ++ (i :: hsb (pre0 ++ post) ++ dbl u))) by (rewrite hsb_app, hsb_cons in O; rewrite hsb_app; owns_by O).
        destruct (e_free_ok _ _ _ O') as (h1 & h2 & h3 & F1 & F2 & F3 & O3). rewrite F1. unfold bind at 1. rewrite F2. unfold bind at 1. rewrite F3. unfold bind at 1.
        eexists. split; [reflexivity|]. left. split; [|reflexivity]. eapply b_hole with (x := z) (post := post); eauto.
        -- rewrite N, !app_length. cbn [length]. lia.
        -- rewrite M. unfold stays. cbn [filter]. rewrite HT. reflexivity.
      * eexists. split; [reflexivity|]. left. split; [|reflexivity]. apply b_seek with (post := z :: post); auto.
        -- split; [exact N|]. rewrite TL. auto.
        -- cbn [map]. rewrite M. unfold stays. cbn [filter]. rewrite HT. reflexivity.
  - cbn [work]. rewrite TL. rewrite (use_ok h _ i O) by now left. unfold bind at 1. rewrite N, shift_ok. unfold bind.
    eexists. split; [reflexivity|]. left. split; [|reflexivity]. eapply b_short with (post := post); eauto. reflexivity.
  - cbn [work]. rewrite TL. destruct (resized_ok h i moves _ O) as (j & h1 & -> & O1). unfold bind. cbn [fst snd]. rewrite N.
    eexists. split; [reflexivity|]. left. split; [|reflexivity]. apply b_seek with (post := post); auto. split.
    + cbn [with_list t_nb]. lia.
    + cbn [with_list t_list]. split; [|exact O1]. rewrite firstn_app. replace (S (length (pre ++ post)) - length (slots (pre ++ post)))%nat with 0%nat
        by (unfold slots; rewrite !app_length, map_length, !app_length; cbn [length]; lia). rewrite firstn_O, app_nil_r. apply firstn_all2. unfold slots. rewrite !app_length, map_length, !app_length. cbn [length]. lia.
  - cbn [work]. rewrite TD. destruct w as [w1 w2]. destruct T as [N L].
    pose proof (def_use _ _ _ _ _ (conj N L) TD) as U.
    rewrite U. unfold bind. eexists. split; [reflexivity|]. left. split; [|reflexivity]. eapply b_half; [|reflexivity]. split; [exact N|].
    unfold dbl in *. rewrite TD in L. cbn [t_list t_default]. exact L.
  - cbn [work]. rewrite TD. destruct T as [N L].
    pose proof (def_use _ _ _ _ _ (conj N L) TD) as U.
    rewrite U. unfold bind. eexists. split; [reflexivity|]. right. split; [reflexivity|]. exists (Fall cb x), (map erase hs), (Some (mk_ep None None None 0 (Some cb) x)), hs.
    split; [reflexivity|]. split; [constructor|]. split; [exact R|]. split; [|split; reflexivity]. split; [exact N|]. unfold dbl in *. rewrite TD in L. cbn [t_list t_default]. exact L.
Qed.

(** ** a request *)
Section Calls.
Variable qsort : list endpoint -> list endpoint.
Hypothesis SORTS : sorts qsort.

Lemma qsort_nil : forall l, qsort l = [] -> l = [].
Proof. intros l E. destruct (SORTS l) as [P _]. rewrite E in P. now apply Permutation_sym, Permutation_nil in P. Qed.
Lemma chosen_ok : forall u hs d m url, 
  (exists l, chosen qsort (filter (sel m url) (map erase hs)) = Running l /\ given (map erase hs) d m url l) \/
  chosen qsort (filter (sel m url) (map erase hs)) = Asking /\ pos u hs (mk_call m url Asking).
Proof.
  intros u hs d m url. unfold chosen. destruct (qsort (filter (sel m url) (map erase hs))) as [|e l] eqn:E.
  - right. split; [reflexivity|]. unfold pos. cbn [c_stage c_method c_url]. now apply qsort_nil.
  - left. exists (e :: l). split; [reflexivity|]. exists (sel m url), (e :: l). split; [apply sel_selected|]. rewrite <- E. destruct (SORTS (filter (sel m url) (map erase hs))) as [P S].
    split; [exact P|]. split; [exact S|]. now rewrite E.
Qed.
Lemma firstn_mid : forall (pre : list hep) x post, firstn (S (length pre)) (map erase (pre ++ x :: post)) = map erase pre ++ [erase x].
Proof.
  intros. rewrite map_app. cbn [map]. rewrite <- (map_length erase pre). change (erase x :: map erase post) with ([erase x] ++ map erase post). rewrite app_assoc, firstn_app.
  replace (S (length (map erase pre)) - length (map erase pre ++ [erase x]))%nat with 0%nat by (rewrite app_length; cbn [length]; lia). rewrite firstn_O, app_nil_r.
  apply firstn_all2. rewrite app_length. cbn [length]. lia.
Qed.

Lemma given_default : forall es d m url, filter (sel m url) es = [] -> given es d m url (match d with Some e => [e] | None => [] end).
Proof. intros es d m url E. exists (sel m url), []. split; [apply sel_selected|]. rewrite E. split; [constructor|]. split; [constructor|]. now destruct d. Qed.

Lemma advance_ok : forall h u hs d c, tab h u hs -> def_is u d -> Forall registered (map erase hs) -> pos u hs c ->
  exists g, advance qsort h u c = Ret g /\
    (pos u hs (mk_call (c_method c) (c_url c) g) /\ answer (mk_call (c_method c) (c_url c) g) = answer c \/
     answer c = (c_method c, c_url c, None) /\ exists l, g = Running l /\ given (map erase hs) d (c_method c) (c_url c) l).
Proof.
  intros h u hs d [m url g] [N L] D R P. unfold advance. cbn [c_method c_url c_stage] in *. unfold pos in P. cbn [c_method c_url c_stage] in P.
  destruct g as [|[b|] i found| | |cb|l].
  - eexists. split; [reflexivity|]. left. split; [|reflexivity]. unfold pos. cbn [c_stage]. destruct (t_list u) as [[i arr]|]; cbn [option_map fst firstn filter]; repeat split; lia.
  - destruct P as (PP & LE & ->). unfold slot_at. destruct (t_list u) as [[b' arr]|] eqn:TL; [|discriminate]. cbn [option_map fst] in PP. injection PP as ->. destruct L as [-> O].
    rewrite (use_ok h _ b' O) by now left. unfold bind at 2. rewrite Nat.eqb_refl.
    destruct (Nat.eq_dec i (length hs)) as [->|NE].
    + unfold h_at. rewrite (use_ok h _ b' O) by now left. unfold bind at 2. rewrite slots_end. unfold bind at 2. unfold bind at 1. change (e_read h hzero) with (Ret empty_endpoint). unfold bind at 1. change (equals_endpoints empty_endpoint empty_endpoint) with true.
      cbv iota. rewrite firstn_all2 by (rewrite map_length; lia).
      eexists. split; [reflexivity|]. destruct (chosen_ok u hs d m url) as [(l & -> & G)|[-> G]]; [right|left]; [split; [reflexivity|]; eauto|split; [exact G|reflexivity]].
    + assert (X : exists pre x post, hs = pre ++ x :: post /\ length pre = i).
      { destruct (nth_error hs i) as [x|] eqn:E; [|apply nth_error_None in E; lia]. apply nth_error_split in E as (pre & post & -> & <-). eauto. }
      destruct X as (pre & x & post & -> & <-). rewrite (h_at_ok h _ b' _ _ _ O) by now left. unfold bind at 1.
      rewrite (e_read_ok h _ x O) by (rewrite hsb_app, hsb_cons; intros w W; right; apply in_or_app; left; apply in_or_app; right; apply in_or_app; auto).
      unfold bind at 1. assert (RX : registered (erase x)) by (rewrite Forall_forall in R; apply R, in_map, in_or_app; right; now left).
      rewrite registered_not_empty by exact RX. unfold method_match. unfold registered in RX. destruct (http_method (erase x)) as [mt|] eqn:MT; [|congruence]. unfold bind at 1.
      eexists. split; [reflexivity|]. left. split; [|reflexivity]. unfold pos. cbn [c_stage c_method c_url option_map fst]. rewrite TL. split; [reflexivity|]. split; [rewrite app_length; cbn [length]; lia|].
      rewrite firstn_mid, filter_app. cbn [filter]. assert (SX : sel m url (erase x) = (str_caseeqb mt m || starts_with 42 mt) && url_format_match (split_url (Some url) None) (split_url (url_prefix (erase x)) (url_format (erase x)))) by (unfold sel; rewrite MT, split_url_url; reflexivity). rewrite SX.
      replace (firstn (length pre) (map erase (pre ++ x :: post))) with (map erase pre).
      2:{ rewrite map_app, <- (map_length erase pre), firstn_app, Nat.sub_diag, firstn_O, app_nil_r, firstn_all. reflexivity. }
      destruct ((str_caseeqb mt m || starts_with 42 mt) && _); [reflexivity|]. now rewrite app_nil_r.
  - destruct P as (PP & LE & ->). destruct (t_list u) as [[b arr]|] eqn:TL; [discriminate|]. destruct L as [-> O]. cbn [map] in *. rewrite firstn_nil. eexists. split; [reflexivity|].
    destruct (chosen_ok u [] d m url) as [(l & EE & G)|[EE G]]; cbn [map] in EE; rewrite EE; [right|left]; [split; [reflexivity|]; eauto|split; [exact G|reflexivity]].
  - unfold def_is in D. destruct (t_default u) as [[i [[cb|] [x|]]]|] eqn:TD; try contradiction.
    + pose proof (def_use _ _ _ _ _ (conj N L) TD) as U.
      rewrite U. unfold bind, written. eexists. split; [reflexivity|]. left. split; [|reflexivity]. unfold pos. cbn [c_stage c_method c_url]. rewrite TD. split; [exact P|discriminate].
    + eexists. split; [reflexivity|]. right. split; [reflexivity|]. eexists. split; [reflexivity|]. rewrite D. exact (given_default _ None _ _ P).
  - destruct P as [P NN]. unfold def_is in D. destruct (t_default u) as [[i [[cb|] [x|]]]|] eqn:TD; try contradiction.
    pose proof (def_use _ _ _ _ _ (conj N L) TD) as U.
    rewrite U. unfold bind, written. eexists. split; [reflexivity|]. left. split; [|reflexivity]. unfold pos. cbn [c_stage c_method c_url]. rewrite TD. split; [exact P|eauto].
  - destruct P as (P & i & w & TD). unfold def_is in D. rewrite TD in D |- *. destruct w as [x|]; [|contradiction].
    pose proof (def_use _ _ _ _ _ (conj N L) TD) as U.
    rewrite U. unfold bind, written. eexists. split; [reflexivity|]. right. split; [reflexivity|]. eexists. split; [reflexivity|]. rewrite D. exact (given_default _ (Some _) _ _ P).
  - eexists. split; [reflexivity|]. left. split; [exact Logic.I|reflexivity].
Qed.

Lemma set_same : forall A (l : list A) t x, nth_error l t = Some x -> set_nth l t x = l.
Proof. induction l as [|y l IH]; intros [|t] x E; cbn in *; try discriminate; [now inversion E|f_equal; auto]. Qed.
Lemma map_set : forall A B (f : A -> B) l t x, map f (set_nth l t x) = set_nth (map f l) t (f x).
Proof. induction l as [|y l IH]; intros [|t] x; cbn [set_nth map]; auto. f_equal. apply IH. Qed.
Lemma forall_set : forall A (P : A -> Prop) l t x, Forall P l -> P x -> Forall P (set_nth l t x).
Proof. intros A P l. induction l as [|y l IH]; intros [|t] x F X; cbn [set_nth]; auto; inversion F; subst; constructor; auto. Qed.
Lemma meaning_eta : forall g, mk_meaning (m_table g) (m_default g) (m_order g) (m_calls g) = g.
Proof. now intros []. Qed.

Lemma act_ok : forall s g a, inv s g -> action_ok a -> apart s a -> exists s' g', act qsort s a = Ret s' /\ a_act g a g' /\ inv s' g'.
Proof.
  intros s [es d ord q] a (OR & CS & RG & NE & ST) OK AP. cbn [m_order m_calls m_table m_default] in *. destruct a as [m url|r|o|moves]; cbn [act].
  - do 2 eexists. split; [reflexivity|]. split; [apply aa_come|]. unfold inv. cbn [m_order m_calls m_table m_default l_task l_calls l_heap l_shared].
    split; [exact OR|]. split; [rewrite map_app, CS; reflexivity|]. split; [exact RG|]. split; [exact NE|]. destruct ST as [(CH & hs & T & D & E & P)|(B & A)]; [left|right].
    + split; [exact CH|]. exists hs. repeat (split; [assumption|]). apply Forall_app. split; [exact P|]. constructor; [exact Logic.I|constructor].
    + split; [exact B|]. apply Forall_app. split; [exact A|]. repeat constructor.
  - cbn [apart] in AP. destruct (nth_error (l_calls s) r) as [c|] eqn:EN; [|exists s, (mk_meaning es d ord q); split; [reflexivity|]; split; [constructor|]; unfold inv; auto].
    destruct ST as [(CH & hs & T & D & E & P)|(B & A)].
    + assert (PC : pos (l_shared s) hs c) by (rewrite Forall_forall in P; apply P; eapply nth_error_In; eauto).
      rewrite E in RG. destruct (advance_ok _ _ _ _ c T D RG PC) as (st & -> & [[P1 A1]|(A0 & l & -> & G)]); unfold bind.
      * do 2 eexists. split; [reflexivity|]. split; [apply aa_wait|]. unfold inv. cbn [m_order m_calls m_table m_default l_task l_calls l_heap l_shared].
        split; [exact OR|]. split; [rewrite map_set, A1, set_same; [exact CS|now apply map_nth_error]|]. split; [rewrite E; exact RG|]. split; [exact NE|]. left. split; [exact CH|].
        exists hs. repeat (split; [assumption|]). now apply forall_set.
      * do 2 eexists. split; [reflexivity|]. split.
        -- apply aa_given; [rewrite CS; rewrite (map_nth_error answer _ _ EN), A0; reflexivity|rewrite E; exact G].
        -- unfold inv. cbn [m_order m_calls m_table m_default l_task l_calls l_heap l_shared]. split; [exact OR|]. split; [rewrite map_set, CS; reflexivity|]. split; [rewrite E; exact RG|]. split; [exact NE|].
           left. split; [exact CH|]. exists hs. repeat (split; [assumption|]). apply forall_set; [exact P|exact Logic.I].
    + pose proof (busy_changing _ _ _ _ _ B) as CH. assert (LK : looking (c_stage c) = false) by (unfold away in A; rewrite Forall_forall in A; apply A; eapply nth_error_In; eauto).
      destruct c as [m url st]. cbn [c_stage c_method c_url] in *. destruct st; try discriminate; [exfalso; specialize (AP eq_refl); congruence|].
      unfold advance. cbn [c_stage]. unfold bind. exists s, (mk_meaning es d ord q). split; [|split; [apply aa_wait|unfold inv; cbn [m_order m_calls m_table m_default]; auto 8]]. rewrite set_same by exact EN. now destruct s.
  - destruct (l_task s) eqn:TK; cbn [order_of] in OR.
    + destruct ST as [(CH & SS)|(B & A)]; [|inversion B]. do 2 eexists. split; [reflexivity|]. split; [rewrite OR; apply aa_order|].
      unfold inv. cbn [m_order m_calls m_table m_default l_task l_calls l_heap l_shared order_of]. split; [reflexivity|]. split; [exact CS|]. split; [exact RG|]. split; [|left; auto].
      intros e EQ. injection EQ as ->. exact OK.
    + rewrite OR. do 2 eexists. split; [reflexivity|]. split; [apply aa_busy|]. unfold inv. cbn [m_order m_calls m_table m_default]. rewrite TK. auto.
    + rewrite OR. do 2 eexists. split; [reflexivity|]. split; [apply aa_busy|]. unfold inv. cbn [m_order m_calls m_table m_default]. rewrite TK. auto.
    + rewrite OR. do 2 eexists. split; [reflexivity|]. split; [apply aa_busy|]. unfold inv. cbn [m_order m_calls m_table m_default]. rewrite TK. auto.
    + rewrite OR. do 2 eexists. split; [reflexivity|]. split; [apply aa_busy|]. unfold inv. cbn [m_order m_calls m_table m_default]. rewrite TK. auto.
    + rewrite OR. do 2 eexists. split; [reflexivity|]. split; [apply aa_busy|]. unfold inv. cbn [m_order m_calls m_table m_default]. rewrite TK. auto.
    + rewrite OR. do 2 eexists. split; [reflexivity|]. split; [apply aa_busy|]. unfold inv. cbn [m_order m_calls m_table m_default]. rewrite TK. auto.
    + rewrite OR. do 2 eexists. split; [reflexivity|]. split; [apply aa_busy|]. unfold inv. cbn [m_order m_calls m_table m_default]. rewrite TK. auto.
    + rewrite OR. do 2 eexists. split; [reflexivity|]. split; [apply aa_busy|]. unfold inv. cbn [m_order m_calls m_table m_default]. rewrite TK. auto.
  - assert (FIN : forall k r, l_task s = k -> away (l_calls s) -> goes k (l_heap s) (l_shared s) es d r -> order_of k = ord ->
      exists g', a_act (mk_meaning es d ord q) (Work moves) g' /\ inv (mk_live (fst r) (fst (snd r)) (snd (snd r)) (l_calls s)) g').
    { intros k [h' [u' k']] EK AW G OK'. cbn [fst snd]. unfold goes in G. destruct G as [[B EO]|(-> & o & es' & d' & hs & EO & MK & RR & T & D & EE)].
      - exists (mk_meaning es d ord q). split; [apply aa_work|]. unfold inv. cbn [m_order m_calls m_table m_default l_task l_calls l_heap l_shared]. split; [congruence|]. split; [exact CS|]. split; [exact RG|]. split; [|right; auto].
        intros e X. subst k'. inversion B.
      - exists (mk_meaning es' d' None q). split; [rewrite <- OK', EO; now apply aa_made|]. unfold inv. cbn [m_order m_calls m_table m_default l_task l_calls l_heap l_shared order_of].
        split; [reflexivity|]. split; [exact CS|]. split; [exact RR|]. split; [discriminate|]. left. split; [reflexivity|]. exists hs. repeat (split; [assumption|]). now apply away_pos. }
    destruct ST as [(CH & hs & T & D & E & P)|(B & A)].
    + destruct (l_task s) as [|o| | | | | | |] eqn:TK; try discriminate.
      * cbn [work]. unfold bind. exists s, (mk_meaning es d ord q). split; [|split; [apply aa_work|]].
        -- cbn [fst snd]. rewrite <- TK. now destruct s.
        -- unfold inv. rewrite TK. repeat (split; [assumption|]). left. split; [reflexivity|]. exists hs. auto.
      * cbn [apart] in AP. rewrite TK in AP. assert (AW : away (l_calls s)) by (apply Forall_forall; intros c I; apply AP; [discriminate|exact I]).
        rewrite E in RG. destruct (work_begin o (l_heap s) (l_shared s) hs d moves T D RG) as (r & -> & G); [intros e ->; now apply NE|]. unfold bind.
        rewrite <- E in G. rewrite <- E in RG. destruct (FIN (Begin o) r eq_refl AW G (eq_sym OR)) as (g' & AA & I'). eauto.
    + destruct (work_busy _ _ _ _ _ moves B RG) as (r & -> & G). unfold bind. destruct (FIN (l_task s) r eq_refl A G (eq_sym OR)) as (g' & AA & I'). eauto.
Qed.

Lemma run_ok : forall l s g, inv s g -> Forall action_ok l -> apart_all qsort s l -> exists s' g', run qsort s l = Ret s' /\ a_run g l g' /\ inv s' g'.
Proof.
  induction l as [|a l IH]; intros s g I OK AP.
  - exists s, g. split; [reflexivity|]. split; [constructor|exact I].
  - inversion OK; subst. destruct AP as [AP AR]. destruct (act_ok s g a I) as (s1 & g1 & E & A & I1); auto. cbn [run]. rewrite E in AR |- *. unfold bind.
    destruct (IH s1 g1 I1) as (s2 & g2 & E2 & A2 & I2); auto. exists s2, g2. split; [exact E2|]. split; [econstructor; eauto|exact I2].
Qed.
End Calls.

Lemma inv_opened : inv opened (mk_meaning [] None None []).
Proof.
  split; [reflexivity|]. split; [reflexivity|]. split; [constructor|]. split; [discriminate|]. left. split; [reflexivity|]. exists []. split; [|split; [reflexivity|split; [reflexivity|constructor]]].
  split; [reflexivity|]. cbn. split; [reflexivity|]. split; [reflexivity|]. split; [|reflexivity]. intros x. change (0 <= 1)%nat. lia.
Qed.

(** ** the end of a run *)
Lemma slots_flat : forall hs, flat_map slot_blocks (slots hs) = hsb hs.
Proof. intros hs. unfold slots. rewrite flat_map_app. cbn [flat_map]. cbn. rewrite app_nil_r. induction hs as [|x hs IH]; [reflexivity|]. cbn [map flat_map]. rewrite IH. reflexivity. Qed.
Lemma inv_idle : forall s g, inv s g -> l_task s = Idle -> shown s = Ret (m_table g) /\ NoDup (shared_blocks (l_shared s)) /\
  (forall x, In x (h_live (l_heap s)) <-> In x (shared_blocks (l_shared s))).
Proof.
  intros s g (_ & _ & RG & _ & ST) E. destruct ST as [(_ & hs & (N & L) & D & EE & _)|(B & _)]; [|rewrite E in B; inversion B].
  assert (O : owns (l_heap s) (shared_blocks (l_shared s))).
  { unfold shared_blocks. fold (dbl (l_shared s)). destruct (t_list (l_shared s)) as [[i arr]|]; destruct L as [-> O]; [rewrite slots_flat; exact O|exact O]. }
  split; [|destruct (owns_spec _ _ O) as (X & Y & _); split; assumption].
  unfold shown. rewrite EE in RG |- *. destruct (t_list (l_shared s)) as [[i arr]|]; destruct L as [-> O']; [|reflexivity].
  rewrite (use_ok _ _ i O') by now left. unfold bind. apply (read_slots_ok _ _ _ RG O'). intros x X. right. apply in_or_app. now left.
Qed.
Lemma inv_order : forall s g, inv s g -> (m_order g = None <-> l_task s = Idle).
Proof. intros s g (O & _). rewrite O. destruct (l_task s); split; intros E; (reflexivity || discriminate). Qed.

Section Ends.
Variable qsort : list endpoint -> list endpoint.
Hypothesis SORTS : sorts qsort.

(** ** a change comes to its end *)
Definition left_of (n : nat) (k : task) : nat :=
  match k with
  | Idle => 0 | Begin _ => 3 * n + 3 | Grown _ => 2 | Filled _ => 1 | Seek _ k => 3 * k + 1 | Hole _ k => 3 * k + 3 | Short _ k => 3 * k + 2 | Blank _ _ => 2 | Half _ _ => 1
  end.
Lemma work_left : forall h u k moves h' u' k', work h u k moves = Ret (h', (u', k')) -> k <> Idle -> (left_of (t_nb u') k' < left_of (t_nb u) k)%nat.
Proof.
  intros h u k moves h' u' k' W N. destruct k as [|[e|t|cb x]|e|e|t [|n]|t n|t n|cb x|cb x]; [congruence| | | | | | | | | | |]; cbn [work] in W.
  - destruct (is_valid_endpoint e false); [|injection W as <- <- <-; cbn; lia]. destruct (t_list u) as [[i arr]|].
    + destruct (resized h i moves) as [[j h1]|]; [|discriminate]. unfold bind in W. injection W as <- <- <-. cbn [left_of]. lia.
    + destruct (h_malloc h) as [i h1]. injection W as <- <- <-. cbn [left_of]. lia.
  - destruct (negb (equals_endpoints t empty_endpoint) && is_valid_endpoint t true); injection W as <- <- <-; cbn [left_of]; lia.
  - destruct (t_default u); [|destruct (h_malloc h)]; injection W as <- <- <-; cbn [left_of]; lia.
  - destruct (e_copy h e) as [c h1]. destruct (set_slot h1 u (t_nb u - 1) c); [|discriminate]. injection W as <- <- <-. cbn [left_of]. lia.
  - destruct (e_copy h empty_endpoint) as [c h1]. destruct (set_slot h1 u (t_nb u) c); [|discriminate]. injection W as <- <- <-. cbn [left_of]. lia.
  - injection W as <- <- <-. cbn [left_of]. lia.
  - destruct (t_list u) as [[i arr]|]; [|discriminate]. destruct (h_at h i arr n) as [x|]; [|discriminate]. unfold bind at 1 in W. destruct (e_read h x) as [e|]; [|discriminate]. unfold bind at 1 in W.
    destruct (ostr_eqb _ _ && _ && _).
    + destruct (t_free h _) as [h1|]; [|discriminate]. unfold bind at 1 in W. destruct (t_free h1 _) as [h2|]; [|discriminate]. unfold bind at 1 in W. destruct (t_free h2 _) as [h3|]; [|discriminate]. unfold bind at 1 in W.
      injection W as <- <- <-. cbn [left_of]. lia.
    + injection W as <- <- <-. cbn [left_of]. lia.
  - destruct (t_list u) as [[i arr]|]; [|discriminate]. destruct (h_use h i); [|discriminate]. unfold bind at 1 in W. destruct (h_shift _ _ _); [|discriminate]. injection W as <- <- <-. cbn [left_of]. lia.
  - destruct (t_list u) as [[i arr]|]; [|discriminate]. destruct (resized h i moves) as [[j h1]|]; [|discriminate]. injection W as <- <- <-. cbn [left_of]. lia.
  - destruct (t_default u) as [[i [c old]]|]; [|discriminate]. destruct (h_use h i); [|discriminate]. injection W as <- <- <-. cbn [left_of]. lia.
  - destruct (t_default u) as [[i [c old]]|]; [|discriminate]. destruct (h_use h i); [|discriminate]. injection W as <- <- <-. cbn [left_of]. lia.
Qed.
Lemma busy_left : forall k h u es d, busy k h u es d -> (left_of (t_nb u) k <= 3 * t_nb u + 3)%nat.
Proof.
  intros k h u es d B. destruct B as [| |t h u d pre post es [N _] _ _ _|t h u d pre x post es i _ N _ _ _ _|t h u d pre post es i _ N _ _ _ _| |]; cbn [left_of]; try (rewrite app_length in N); lia.
Qed.
Lemma change_ends : forall bs s g, inv s g -> away (l_calls s) -> (left_of (t_nb (l_shared s)) (l_task s) <= length bs)%nat ->
  exists s', run qsort s (map Work bs) = Ret s' /\ l_task s' = Idle /\ l_calls s' = l_calls s.
Proof.
  induction bs as [|b bs IH]; intros s g I A L.
  - exists s. split; [reflexivity|]. split; [|reflexivity]. destruct (l_task s); cbn [left_of length] in L; (reflexivity || lia).
  - destruct (act_ok qsort SORTS s g (Work b) I Logic.I) as (s1 & g1 & E & _ & I1).
    { intros _ c C. unfold away in A. rewrite Forall_forall in A. now apply A. }
    cbn [map run]. rewrite E. unfold bind at 1. cbn [act] in E. destruct (work (l_heap s) (l_shared s) (l_task s) b) as [[h' [u' k']]|] eqn:W; [|discriminate]. unfold bind in E. cbn [fst snd] in E.
    injection E as <-. destruct (IH _ g1 I1 A) as (s' & E' & T' & C'); [|exists s'; auto]. cbn [l_shared l_task length] in *.
    assert (D : l_task s = Idle \/ l_task s <> Idle) by (destruct (l_task s); (now left) || (now right)). destruct D as [D|D].
    + rewrite D in W. injection W as <- <- <-. cbn [left_of]. lia.
    + pose proof (work_left _ _ _ _ _ _ _ W D). lia.
Qed.

(** ** a request comes to its end *)
Definition steps_of (n : nat) (g : stage) : nat :=
  match g with Arrived => n + 5 | Looking _ i _ => n - i + 4 | Asking => 3 | Fetching => 2 | Copying _ => 1 | Running _ => 0 end.
Lemma advance_left : forall h u c g hs, advance qsort h u c = Ret g -> tab h u hs -> pos u hs c -> (0 < steps_of (length hs) (c_stage c))%nat -> Forall registered (map erase hs) ->
  (steps_of (length hs) g < steps_of (length hs) (c_stage c))%nat.
Proof.
  intros h u [m url g0] g hs E [N L] P POS R. unfold advance in E. unfold pos in P. cbn [c_stage c_method c_url] in *.
  assert (CH : forall f n, (steps_of n (chosen qsort f) <= 3)%nat) by (intros f n; unfold chosen; destruct (qsort f); cbn [steps_of]; lia).
  destruct g0 as [|[b|] i found| | |cb|l]; cbn [steps_of] in *.
  - injection E as <-. destruct (t_list u) as [[i arr]|]; cbn [steps_of]; lia.
  - destruct P as (PP & LE & ->). unfold slot_at in E. destruct (t_list u) as [[b' arr]|] eqn:TL; [|discriminate]. cbn [option_map fst] in PP. injection PP as ->. destruct L as [-> O].
    rewrite (use_ok h _ b' O) in E by now left. unfold bind at 2 in E. rewrite Nat.eqb_refl in E.
    destruct (Nat.eq_dec i (length hs)) as [->|NE].
    + unfold h_at in E. rewrite (use_ok h _ b' O) in E by now left. unfold bind at 2 in E. rewrite slots_end in E.
      unfold bind at 2 in E. unfold bind at 1 in E. change (e_read h hzero) with (Ret empty_endpoint) in E. unfold bind at 1 in E. change (equals_endpoints empty_endpoint empty_endpoint) with true in E. cbv iota in E.
      injection E as <-. specialize (CH (filter (sel m url) (firstn (length hs) (map erase hs))) (length hs)). lia.
    + destruct (h_at h b' (slots hs) i) as [x|]; [|discriminate]. unfold bind at 1 in E. destruct (e_read h x) as [e|]; [|discriminate]. unfold bind at 1 in E.
      destruct (equals_endpoints e empty_endpoint); [injection E as <-; specialize (CH (filter (sel m url) (firstn i (map erase hs))) (length hs)); lia|].
      destruct (method_match e m); [|discriminate]. unfold bind in E. injection E as <-. cbn [steps_of]. lia.
  - injection E as <-. specialize (CH found (length hs)). lia.
  - destruct (t_default u) as [[i [w1 w2]]|]; [|injection E as <-; cbn [steps_of]; lia]. destruct (h_use h i); [|discriminate]. unfold bind at 1 in E. destruct (written w1); [|discriminate]. injection E as <-. cbn [steps_of]. lia.
  - destruct (t_default u) as [[i [w1 w2]]|]; [|discriminate]. destruct (h_use h i); [|discriminate]. unfold bind at 1 in E. destruct (written w1); [|discriminate]. injection E as <-. cbn [steps_of]. lia.
  - destruct (t_default u) as [[i [w1 w2]]|]; [|discriminate]. destruct (h_use h i); [|discriminate]. unfold bind at 1 in E. destruct (written w2); [|discriminate]. injection E as <-. cbn [steps_of]. lia.
  - lia.
Qed.
Lemma request_ends : forall n s g r c, inv s g -> changing (l_task s) = false -> nth_error (l_calls s) r = Some c -> (steps_of (t_nb (l_shared s)) (c_stage c) <= n)%nat ->
  exists s' l, run qsort s (repeat (Step r) n) = Ret s' /\ nth_error (l_calls s') r = Some (mk_call (c_method c) (c_url c) (Running l)) /\
    l_shared s' = l_shared s /\ l_heap s' = l_heap s /\ l_task s' = l_task s.
Proof.
  induction n as [|n IH]; intros s g r c I CH EN L.
  - exists s. destruct c as [m url st]. cbn [c_stage c_method c_url] in *. destruct st; cbn [steps_of] in L; try lia. eexists. cbn [repeat run]. split; [reflexivity|]. rewrite EN. auto.
  - destruct (act_ok qsort SORTS s g (Step r) I Logic.I) as (s1 & g1 & E & _ & I1).
    { cbn [apart]. rewrite EN. auto. }
    cbn [repeat run]. rewrite E. unfold bind at 1. cbn [act] in E. rewrite EN in E. destruct (advance qsort (l_heap s) (l_shared s) c) as [st|] eqn:AD; [|discriminate]. unfold bind in E. injection E as <-.
    assert (EN1 : nth_error (set_nth (l_calls s) r (mk_call (c_method c) (c_url c) st)) r = Some (mk_call (c_method c) (c_url c) st)).
    { clear -EN. revert r EN. induction (l_calls s) as [|y q IHq]; intros [|r] EN; try discriminate; [reflexivity|]. cbn [nth_error] in EN. cbn [set_nth nth_error]. now apply IHq. }
    destruct (IH _ g1 r (mk_call (c_method c) (c_url c) st) I1 CH EN1) as (s' & l & E' & N' & S' & H' & T'); [|exists s', l; auto]. cbn [l_shared c_stage] in *.
    destruct I as (_ & _ & RG & _ & [(_ & hs & T & D & EE & P)|(B & _)]); [|pose proof (busy_changing _ _ _ _ _ B); congruence].
    assert (PC : pos (l_shared s) hs c) by (rewrite Forall_forall in P; apply P; eapply nth_error_In; eauto). rewrite EE in RG.
    assert (Z : steps_of (t_nb (l_shared s)) (c_stage c) = 0%nat \/ (0 < steps_of (t_nb (l_shared s)) (c_stage c))%nat) by lia. destruct T as [N TT]. rewrite N in *. destruct Z as [Z|Z].
    + destruct c as [m url st0]. cbn [c_stage] in *. destruct st0; cbn [steps_of] in Z; try lia. unfold advance in AD. cbn [c_stage] in AD. injection AD as <-. cbn [steps_of]. lia.
    + pose proof (advance_left _ _ _ _ _ AD (conj N TT) PC Z RG). lia.
Qed.
End Ends.

(** [apart_all] can be computed *)
Definition apart_b (s : live) (a : action) : bool :=
  match a with
  | Work _ => match l_task s with Idle => true | _ => forallb (fun c => negb (looking (c_stage c))) (l_calls s) end
  | Step r => match nth_error (l_calls s) r with Some c => match c_stage c with Arrived => negb (changing (l_task s)) | _ => true end | None => true end
  | _ => true
  end.
Fixpoint apart_all_b (qsort : list endpoint -> list endpoint) (s : live) (l : list action) : bool :=
  match l with
  | [] => true
  | a :: r => apart_b s a && match act qsort s a with Ret s1 => apart_all_b qsort s1 r | UB _ => true end
  end.
Lemma apart_all_dec : forall qsort l s, apart_all_b qsort s l = true -> apart_all qsort s l.
Proof.
  intros qsort l. induction l as [|a l IH]; intros s E; [exact Logic.I|]. cbn [apart_all_b] in E. apply andb_true_iff in E as [A R]. split.
  - destruct a as [m u|r|o|b]; cbn [apart apart_b] in *; try exact Logic.I.
    + destruct (nth_error (l_calls s) r) as [c|]; [|exact Logic.I]. intros EQ. rewrite EQ in A. now apply negb_true_iff in A.
    + intros N c C. assert (F : forallb (fun c => negb (looking (c_stage c))) (l_calls s) = true) by (destruct (l_task s); [congruence|..]; exact A).
      rewrite forallb_forall in F. apply F in C. now apply negb_true_iff in C.
  - destruct (act qsort s a) as [s1|]; [now apply IH|exact Logic.I].
Qed.
