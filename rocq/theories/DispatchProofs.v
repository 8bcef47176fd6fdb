(** Proofs about DispatchModel. *)
From Coq Require Import String ZArith Bool List Lia Permutation Sorted.
From Verif Require Import Base BaseFacts UMapModel UMapSpec UMapProofs SMap RouterModel RouterSpec RouterProofs EndpointProofs
  CookieModel DispatchModel DispatchSpec.
Import ListNotations.
Open Scope Z_scope.

(** ** the url map of an endpoint can always be built *)
Lemma parse_loop_total : forall tl check fw uw m d,
  repr m d -> no_null d -> Forall cstr uw -> sweight d + wtotal uw + 3 < two64 ->
  exists x, parse_loop tl check fw uw m = Ret x.
Proof.
  intros tl check. induction fw as [|f fr IH]; intros uw m d R N CU S.
  - simpl. eauto.
  - destruct uw as [|u ur]; [simpl; eauto|].
    inversion CU; subst.
    cbn [parse_loop]. destruct (seg_text_spec tl u H1) as (o & E & D & T & TC & TL). rewrite E.
    unfold bind at 1. cbv zeta. rewrite c_text_app0, <- T.
    cbn [wtotal fold_right] in S. fold (wtotal ur) in S. pose proof (wtotal_nonneg ur).
    fold (is_param f). fold (okw check (seg_text tl u)).
    destruct (is_param f && okw check (seg_text tl u)) eqn:Q.
    + rewrite (repr_has m d _ R). unfold bind at 1.
      assert (X : (do v <- (if shas d (tail f) : bool then
                   do g <- get_str m (tail f);
                   Ret (match g with Some s => s | None => bs "(null)" end ++ [44] ++ seg_text tl u)
                 else Ret (seg_text tl u)); Ret v) =
              Ret (match sget d (tail f) with Some (Some s) => s ++ [44] ++ seg_text tl u | _ => seg_text tl u end)).
      { rewrite shas_sget. pose proof (no_null_sget d (tail f) N) as NN.
        rewrite (repr_get m d _ R). unfold sval.
        destruct (sget d (tail f)) as [[s|]|]; [reflexivity|congruence|reflexivity]. }
      destruct (if shas d (tail f) : bool then
                   do g <- get_str m (tail f);
                   Ret (match g with Some s => s | None => bs "(null)" end ++ [44] ++ seg_text tl u)
                 else Ret (seg_text tl u)) as [v|]; [|discriminate].
      unfold bind in X. injection X as X. unfold bind at 1.
      destruct (tail f) as [|c name] eqn:TF.
      * change (@Some (list Z)) with (@Some str). rewrite repr_put_empty. cbn [bind fst snd]. change (U_ERROR_PARAMS =? U_OK) with false. cbv iota. eauto.
      * destruct (put_joined m d (c :: name) (seg_text tl u) v R N ltac:(discriminate) TC ltac:(lia) X) as (m1 & P & R1).
        change (@Some (list Z)) with (@Some str). rewrite P. unfold bind at 1. cbn [fst snd]. change (U_OK =? U_OK) with true. cbv iota.
        apply (IH ur m1 _ R1); auto using bind1_no_null. rewrite bind1_weight by auto. lia.
    + apply (IH ur m d); auto. pose proof (zlen_nonneg _ u). lia.
Qed.

Lemma prepare_total : forall tl check old initial url e, request_ok url initial ->
  exists x, prepare_map_url tl old initial url e check = Ret x.
Proof.
  intros tl check old initial url e (C & d & R & N & S). unfold prepare_map_url, u_map_empty.
  destruct (repr_copy_into u_map_init initial [] d repr_init R) as (m1 & E1 & R1).
  rewrite E1. unfold bind at 1. cbn [snd].
  rewrite scopy_into_fresh in R1 by (apply (repr_nodup _ _ R)). simpl in R1.
  unfold parse_url. rewrite skip_words_skipn.
  pose proof (words_segs url) as SG. pose proof (segs_total _ _ SG) as [T _].
  pose proof (wtotal_skipn (length (owords (url_prefix e))) (words url)) as T2.
  apply (parse_loop_total tl check _ _ m1 d R1 N).
  - apply Forall_skipn. eapply segs_cstr; eauto.
  - lia.
Qed.

Section D.
Variable W : Type.
Variable tl : Z -> Z.
Variable cb : Z -> Z -> Z -> umap -> response -> W -> Z * response * W.
Variable accepts : str -> str -> bool.
Variable handshake : Z -> list (str * str) + (Z * list Z).
Variable default_endpoint : option endpoint.
Variable default_auth_realm : option str.
Variable check_utf8 : bool.
Variable url : str.
Variable initial : umap.

(** ** headers *)
Lemma prefix_app_all : forall a b, all_accepted accepts a ->
  accepted_prefix accepts (a ++ b) = a ++ accepted_prefix accepts b.
Proof.
  induction a as [|h a IH]; intros b A; auto. inversion A as [|? ? HA HB]; subst. cbn [app accepted_prefix].
  rewrite HA. now rewrite IH.
Qed.
Lemma prefix_all : forall a, all_accepted accepts a -> accepted_prefix accepts a = a.
Proof. intros a A. pose proof (prefix_app_all a [] A) as H. rewrite app_nil_r in H. now rewrite H, app_nil_r. Qed.
Lemma prefix_app_not : forall a b, ~ all_accepted accepts a -> accepted_prefix accepts (a ++ b) = accepted_prefix accepts a.
Proof.
  induction a as [|h a IH]; intros b A.
  - destruct A. constructor.
  - cbn [app accepted_prefix]. destruct (accepts (fst h) (snd h)) eqn:E; auto. f_equal. apply IH. intro B. apply A.
    constructor; auto.
Qed.

Lemma header_loop_ok : forall m d post pre hs, repr m d -> d = pre ++ post ->
  exists b, header_loop accepts m (map (fun p => Some (fst p)) post ++ [None]) hs = Ret (b, hs ++ accepted_prefix accepts (set_entries post)) /\
    (b = true <-> all_accepted accepts (set_entries post)).
Proof.
  intros m d. induction post as [|p post IH]; intros pre hs R E.
  - exists true. cbn. rewrite app_nil_r. split; auto. split; auto. constructor.
  - cbn [map app header_loop]. rewrite (repr_get m d _ R). cbn [bind].
    assert (SV : sval d (fst p) = snd p).
    { rewrite E. apply sval_self. rewrite <- E. apply (repr_nodup _ _ R). }
    rewrite SV. destruct p as [k [v|]]; cbn [fst snd set_entries].
    + cbn [accepted_prefix fst snd]. destruct (accepts k v) eqn:A.
      * destruct (IH (pre ++ [(k, Some v)]) (hs ++ [(k, v)]) R) as (b & EQ & B); [now rewrite E, <- app_assoc|].
        exists b. split; [rewrite EQ; now rewrite <- app_assoc|]. rewrite B. split; intro H; [constructor; auto|inversion H; auto].
      * exists false. split; [now rewrite app_nil_r|]. split; [discriminate|]. intro H. inversion H as [|? ? HA HB]; subst. cbn [fst snd] in HA. congruence.
    + destruct (IH (pre ++ [(k, None)]) hs R) as (b & EQ & B); [now rewrite E, <- app_assoc|]. eauto.
Qed.

Lemma cookie_loop_ok : forall l hs,
  exists b, cookie_loop accepts l hs = (b, hs ++ accepted_prefix accepts (map (fun c => (bs "Set-Cookie", generate_cookie_header c)) l)) /\
    (b = true <-> all_accepted accepts (map (fun c => (bs "Set-Cookie", generate_cookie_header c)) l)).
Proof.
  induction l as [|c l IH]; intros hs.
  - exists true. cbn. rewrite app_nil_r. split; auto. split; auto. constructor.
  - cbn [cookie_loop map accepted_prefix fst snd]. destruct (accepts (bs "Set-Cookie") (generate_cookie_header c)) eqn:A.
    + destruct (IH (hs ++ [(bs "Set-Cookie", generate_cookie_header c)])) as (b & EQ & B).
      exists b. split; [rewrite EQ; now rewrite <- app_assoc|]. rewrite B. split; intro H; [constructor; auto|inversion H; auto].
    + exists false. split; [now rewrite app_nil_r|]. split; [discriminate|]. intro H. apply Forall_inv in H. cbn [fst snd] in H. rewrite A in H. discriminate.
Qed.

Lemma set_headers_ok : forall r d hs, repr (r_header r) d ->
  exists b, set_headers accepts r hs = Ret (b, hs ++ accepted_prefix accepts (all_headers d (r_cookies r))) /\
    (b = true <-> all_accepted accepts (all_headers d (r_cookies r))).
Proof.
  intros r d hs R. unfold set_headers, all_headers. rewrite (repr_keys _ _ R).
  destruct (header_loop_ok (r_header r) d d [] hs R eq_refl) as (b & E & B). rewrite E. cbn [bind fst snd].
  destruct b.
  - destruct (cookie_loop_ok (r_cookies r) (hs ++ accepted_prefix accepts (set_entries d))) as (b & E' & B').
    rewrite E'. exists b. assert (A : all_accepted accepts (set_entries d)) by (apply B; auto). split.
    + rewrite prefix_app_all by auto. rewrite prefix_all by auto. now rewrite <- app_assoc.
    + rewrite B'. unfold all_accepted. rewrite Forall_app. tauto.
  - exists false. assert (A : ~ all_accepted accepts (set_entries d)) by (rewrite <- B; discriminate). split.
    + rewrite prefix_app_not by auto. reflexivity.
    + split; [discriminate|]. unfold all_accepted. rewrite Forall_app. tauto.
Qed.

(** ** the answers *)
Definition quiet (s : st W) : Prop := s_mhd W s = None /\ s_upgrade W s = false /\ s_inner W s = 0 /\ s_realm W s = None.

Notation hs_of d r := (all_headers d (r_cookies r)).

Definition same_rest (s s' : st W) : Prop :=
  s_pos W s' = s_pos W s /\ s_world W s' = s_world W s /\ s_trace W s' = s_trace W s /\
  (s_resp W s' = s_resp W s \/ exists x, s_resp W s' = set_status (s_resp W s) x).

Lemma complete_ok : forall s d, quiet s -> repr (r_header (s_resp W s)) d ->
  exists s', complete_answer W accepts s = Ret s' /\ same_rest s s' /\ s_inner W s' = 0 /\ s_realm W s' = None /\ s_upgrade W s' = false /\
    queue_answer W s' = [Queue (r_status (s_resp W s)) (mk_mhd (CBuffer (r_body (s_resp W s))) (accepted_prefix accepts (hs_of d (s_resp W s))))].
Proof.
  intros s d (Q1 & Q2 & Q3 & Q4) R. unfold complete_answer.
  destruct (set_headers_ok (s_resp W s) d [] R) as (b & E & _). rewrite E. cbn [bind fst snd app].
  eexists. split; [reflexivity|]. unfold with_mhd, queue_answer, same_rest. cbn. rewrite Q2, Q3, Q4. cbn. repeat split; auto.
Qed.

Lemma unauthorized_ok : forall s d, quiet s -> repr (r_header (s_resp W s)) d ->
  exists s' a, unauthorized_answer W accepts default_auth_realm s = Ret s' /\ same_rest s s' /\
    queue_answer W s' = [a] /\ plain_answer accepts default_auth_realm (s_resp W s) (hs_of d (s_resp W s)) U_CALLBACK_UNAUTHORIZED a.
Proof.
  intros s d (Q1 & Q2 & Q3 & Q4) R. unfold unauthorized_answer.
  destruct (set_headers_ok (s_resp W s) d [] R) as (b & E & B). rewrite E. cbn [bind fst snd app].
  assert (G : forall r', (r' = s_resp W s \/ exists x, r' = set_status (s_resp W s) x) -> forall c,
    (c = U_CALLBACK_UNAUTHORIZED \/ c = U_ERROR_PARAMS) ->
    exists s' a, Ret (with_mhd W s r' (mk_mhd (CBuffer (r_body (s_resp W s))) (accepted_prefix accepts (hs_of d (s_resp W s)))) (s_upgrade W s) c
        (match r_realm (s_resp W s) with Some r => Some r | None => match default_auth_realm with Some r => Some r | None => s_realm W s end end)) = Ret s' /\
      same_rest s s' /\ queue_answer W s' = [a] /\
      plain_answer accepts default_auth_realm (s_resp W s) (hs_of d (s_resp W s)) U_CALLBACK_UNAUTHORIZED a).
  { intros r' HR c HC. do 2 eexists. split; [reflexivity|]. split; [repeat split; auto|].
    assert (CC : c =? U_CALLBACK_UNAUTHORIZED = true) by (destruct HC as [->| ->]; reflexivity).
    unfold with_mhd, queue_answer. cbn [s_mhd s_inner s_realm s_upgrade s_resp]. rewrite CC. split; [reflexivity|].
    rewrite Q4. destruct (r_realm (s_resp W s)) as [r|] eqn:RR; [now apply pa_basic_own|].
    destruct default_auth_realm as [r|] eqn:DR; [now apply pa_basic_default|now apply pa_unauthorized]. }
  destruct b; apply G; eauto.
Qed.

Lemma run_callback_eq : forall s e f m count, callback e = Some f -> exists ret r w,
  cb f (user_data e) (s_pos W s) m (s_resp W s) (s_world W s) = (ret, r, w) /\
  run_callback W cb s e m count = Ret (ret,
    mk_st W (if count && negb (ret =? U_CALLBACK_IGNORE) then (s_pos W s + 1) mod 4294967296 else s_pos W s) m r w
      (s_mhd W s) (s_upgrade W s) (s_inner W s) (s_realm W s) (s_trace W s ++ [mk_event e (s_pos W s) ret r w])).
Proof.
  intros s e f m count E. unfold run_callback. rewrite E.
  destruct (cb f (user_data e) (s_pos W s) m (s_resp W s) (s_world W s)) as [[ret r] w]. exists ret, r, w. auto.
Qed.

Lemma not_ignored_cons : forall (ev : event W) l,
  not_ignored W (ev :: l) = (if ev_code ev =? U_CALLBACK_IGNORE then 0 else 1) + not_ignored W l.
Proof. intros. unfold not_ignored. cbn [filter]. destruct (ev_code ev =? U_CALLBACK_IGNORE); cbn [negb]; rewrite ?zlen_cons; lia. Qed.
Lemma not_ignored_nonneg : forall l, 0 <= not_ignored W l.
Proof. intros. apply zlen_nonneg. Qed.

Lemma in_order_one : forall e l ev, ev_ep ev = e -> (l <> [] -> ~ passes W ev) -> runs_in_order W (e :: l) [ev].
Proof.
  intros e l ev E NP. split; [cbn; now rewrite E|]. split; [cbn; lia|]. split.
  - intros a x b H B. destruct a as [|? a]; [injection H as _ <-; congruence|destruct a; discriminate].
  - intros L. exists [], ev. split; auto. apply NP. intros ->. cbn in L. lia.
Qed.
Lemma in_order_cons : forall e l ev evs, ev_ep ev = e -> passes W ev -> runs_in_order W l evs -> runs_in_order W (e :: l) (ev :: evs).
Proof.
  intros e l ev evs E P (I1 & I2 & I3 & I4). split; [cbn; now rewrite E, I1|]. split; [cbn; lia|]. split.
  - intros a x b H B. destruct a as [|y a]; [injection H as <- _; auto|]. injection H as _ H. eauto.
  - intros L. destruct I4 as (a & x & -> & NP); [cbn in L; lia|]. exists (ev :: a), x. auto.
Qed.

Definition loop_result (l : list endpoint) (s s' : st W) (evs : list (event W)) (last : event W) : Prop :=
  s_trace W s' = s_trace W s ++ evs ++ [last] /\
  genuine W cb (s_resp W s) (s_world W s) (evs ++ [last]) /\
  runs_in_order W l (evs ++ [last]) /\
  (forall a x b, evs ++ [last] = a ++ x :: b -> ev_pos x = s_pos W s + not_ignored W a) /\
  s_pos W s' = s_pos W s + not_ignored W (evs ++ [last]) /\
  s_world W s' = ev_world last /\
  (s_resp W s' = ev_resp last \/ exists x, s_resp W s' = set_status (ev_resp last) x) /\
  (ev_code last = U_CALLBACK_IGNORE -> s_inner W s' = 0 /\ s_realm W s' = None /\ (r_ws (ev_resp last) = None -> s_upgrade W s' = false)) /\
  (exists d a, repr (r_header (ev_resp last)) d /\ queue_answer W s' = [a] /\
     chain_answer W accepts handshake default_auth_realm last (hs_of d (ev_resp last)) a).

Lemma loop_end : forall e l s s1 s' (ev : event W) m code d a,
  s1 = mk_st W (if negb (code =? U_CALLBACK_IGNORE) then (s_pos W s + 1) mod 4294967296 else s_pos W s) m (ev_resp ev) (ev_world ev)
      (s_mhd W s) (s_upgrade W s) (s_inner W s) (s_realm W s) (s_trace W s ++ [ev]) ->
  ev_ep ev = e -> ev_pos ev = s_pos W s -> ev_code ev = code -> 0 <= s_pos W s -> s_pos W s + 1 < 4294967296 ->
  called W cb (s_resp W s) (s_world W s) ev ->
  same_rest s1 s' -> (l <> [] -> ~ passes W ev) ->
  (ev_code ev = U_CALLBACK_IGNORE -> s_inner W s' = 0 /\ s_realm W s' = None /\ (r_ws (ev_resp ev) = None -> s_upgrade W s' = false)) ->
  repr (r_header (ev_resp ev)) d -> queue_answer W s' = [a] ->
  chain_answer W accepts handshake default_auth_realm ev (hs_of d (ev_resp ev)) a ->
  loop_result (e :: l) s s' [] ev.
Proof.
  intros e l s s1 s' ev m code d a S1 EE EP EC P0 P1 CA (R1 & R2 & R3 & R4) NP IG RD QA CH. unfold loop_result. subst s1. cbn in R1, R2, R3, R4.
  cbn [app]. split; [auto|]. split; [split; [auto|exact I]|]. split; [now apply in_order_one|]. split.
  { intros x y b H. destruct x as [|z x]; [injection H as <- _; unfold not_ignored; cbn; unfold zlen; cbn; lia|destruct x; discriminate]. }
  split.
  { rewrite R1, not_ignored_cons, EC. unfold not_ignored. cbn [filter]. change (zlen (@nil (event W))) with 0.
    destruct (code =? U_CALLBACK_IGNORE); cbn [negb]; [lia|]. rewrite Z.mod_small; lia. }
  split; [auto|]. split; [auto|]. split; [auto|]. exists d, a. auto.
Qed.

Lemma callback_loop_ok : forall l s, l <> [] -> Forall (fun e => callback e <> None) l ->
  request_ok url initial -> callbacks_ok W cb -> readable (s_resp W s) -> quiet s ->
  0 <= s_pos W s -> s_pos W s + zlen l < 4294967296 ->
  exists s' evs last, callback_loop W tl cb accepts handshake default_auth_realm check_utf8 url initial l s = Ret s' /\
    loop_result l s s' evs last.
Proof.
  induction l as [|e l IH]; intros s NE CB RQ OK RD Q P0 P1; [congruence|].
  inversion CB as [|? ? CBe CBl]; subst. destruct (callback e) as [f|] eqn:CE; [|congruence].
  cbn [callback_loop]. destruct (prepare_total tl check_utf8 (s_map W s) initial url e RQ) as (p & PE). rewrite PE. cbn [bind].
  destruct (run_callback_eq s e f (snd p) true CE) as (ret & r & w & CC & RC). rewrite RC. cbn [bind andb].
  set (s1 := mk_st W _ _ r w _ _ _ _ _). set (ev := mk_event e (s_pos W s) ret r w) in *.
  assert (RDr : readable r). { specialize (OK f (user_data e) (s_pos W s) (snd p) (s_resp W s) (s_world W s) RD). rewrite CC in OK. exact OK. }
  destruct RDr as (d & RR).
  assert (CA : called W cb (s_resp W s) (s_world W s) ev) by (exists f, (snd p); auto).
  rewrite zlen_cons in P1. pose proof (zlen_nonneg _ l) as LP.
  assert (QS : quiet s1) by exact Q. destruct Q as (Q1 & Q2 & Q3 & Q4).
  change (s_resp W s1) with r.
  assert (FIN : forall s' a, same_rest s1 s' -> (l <> [] -> ~ passes W ev) ->
     (ret = U_CALLBACK_IGNORE -> s_inner W s' = 0 /\ s_realm W s' = None /\ (r_ws r = None -> s_upgrade W s' = false)) ->
     queue_answer W s' = [a] -> chain_answer W accepts handshake default_auth_realm ev (hs_of d r) a ->
     exists s'' evs last, Ret s' = Ret s'' /\ loop_result (e :: l) s s'' evs last).
  { intros s' a SR NP IG QA CH. exists s', [], ev. split; auto.
    eapply (loop_end e l s s1 s' ev (snd p) ret d a); auto; try reflexivity; lia. }
  destruct (r_stream r) as [x|] eqn:RS.
  - unfold stream_answer. change (s_resp W s1) with r. destruct (set_headers_ok r d [] RR) as (b & E & B). rewrite E. cbn [bind fst snd app].
    eapply FIN.
    + repeat split; auto.
    + intros _ (_ & H & _). cbn in H. congruence.
    + intros _. cbn. auto.
    + unfold queue_answer, with_mhd. cbn. rewrite Q2, Q3. cbn. reflexivity.
    + change r with (ev_resp ev). now apply ca_stream.
  - destruct (r_ws r) as [h|] eqn:RW.
    + unfold ws_answer. destruct (handshake h) as [up|[status text]] eqn:HS.
      * change (s_resp W s1) with r.
        destruct (set_headers_ok r d (filter (fun q => accepts (fst q) (snd q)) up) RR) as (b & E & B). rewrite E. cbn [bind fst snd].
        eapply FIN.
        -- repeat split; auto.
        -- intros _ (_ & _ & H). cbn in H. congruence.
        -- intros _. cbn. split; [auto|]. split; [auto|]. discriminate.
        -- unfold queue_answer, with_mhd. cbn. rewrite Q2, Q3. cbn. reflexivity.
        -- destruct b.
           ++ assert (A : all_accepted accepts (hs_of d r)) by (apply B; auto). rewrite (prefix_all _ A). eapply ca_upgrade; eauto.
           ++ assert (A : ~ all_accepted accepts (hs_of d r)) by (rewrite <- B; discriminate).
              change r with (ev_resp ev). eapply ca_upgrade_refused; eauto.
      * eapply FIN.
        -- repeat split; auto. right. eexists. reflexivity.
        -- intros _ (_ & _ & H). cbn in H. congruence.
        -- intros _. cbn. split; [auto|]. split; [auto|]. discriminate.
        -- unfold queue_answer, with_mhd. cbn. rewrite Q2, Q3. cbn. reflexivity.
        -- eapply ca_ws_error; eauto.
    + assert (CP : forall code, code = U_CALLBACK_CONTINUE \/ code = U_CALLBACK_IGNORE \/ code = U_CALLBACK_COMPLETE -> ret = code ->
                   (l <> [] -> ~ passes W ev) ->
        exists s'' evs last, complete_answer W accepts s1 = Ret s'' /\ loop_result (e :: l) s s'' evs last).
      { intros code HC RC1 NP. destruct (complete_ok s1 d QS RR) as (s' & E & SR & I1 & I2 & I3 & QA). rewrite E.
        eapply FIN; eauto. apply ca_plain; auto. change (ev_resp ev) with r. change (s_resp W s1) with r.
        apply pa_complete. cbn. rewrite RC1. exact HC. }
      assert (NPR : ret <> U_CALLBACK_CONTINUE -> ret <> U_CALLBACK_IGNORE -> ~ passes W ev)
        by (intros A B (C & _); cbn in C; tauto).
      destruct (((ret =? U_CALLBACK_CONTINUE) || (ret =? U_CALLBACK_IGNORE))) eqn:CI.
      * assert (HC : ret = U_CALLBACK_CONTINUE \/ ret = U_CALLBACK_IGNORE)
          by (apply orb_true_iff in CI as [C|C]; apply Z.eqb_eq in C; auto).
        destruct l as [|e2 l].
        -- cbn [andb]. change (U_CALLBACK_COMPLETE =? U_CALLBACK_CONTINUE) with false. change (U_CALLBACK_COMPLETE =? U_CALLBACK_IGNORE) with false.
           change (U_CALLBACK_COMPLETE =? U_CALLBACK_COMPLETE) with true. cbn [orb]. apply (CP ret); auto; tauto.
        -- cbn [andb]. rewrite CI.
           assert (PO : 0 <= s_pos W s1 /\ s_pos W s1 = s_pos W s + (if ret =? U_CALLBACK_IGNORE then 0 else 1)).
           { cbn. destruct (ret =? U_CALLBACK_IGNORE); cbn [negb]; [lia|]. rewrite Z.mod_small; lia. }
           destruct (IH s1) as (s' & evs & last & E & LR); auto; try discriminate; try lia.
           { exists d. exact RR. }
           { destruct (ret =? U_CALLBACK_IGNORE); lia. }
           exists s', (ev :: evs), last. split; [exact E|].
           destruct LR as (L1 & L2 & L3 & L4 & L5 & L6 & L7 & L8 & L9). unfold loop_result.
           split. { rewrite L1. cbn. now rewrite <- app_assoc. }
           split. { cbn [app genuine]. split; auto. }
           split. { cbn [app]. apply in_order_cons; auto. split; auto. }
           split. { cbn [app]. intros a x b H. destruct a as [|y a].
             - injection H as <- _. unfold not_ignored. cbn. unfold zlen. cbn. lia.
             - injection H as <- H. rewrite (L4 a x b H), not_ignored_cons. change (ev_code ev) with ret. lia. }
           split. { rewrite L5. cbn [app]. rewrite not_ignored_cons. change (ev_code ev) with ret. lia. }
           auto 10.
      * apply orb_false_iff in CI as [C1 C2]. cbn [andb]. rewrite C1, C2. cbn [orb]. apply Z.eqb_neq in C1. apply Z.eqb_neq in C2.
        destruct (ret =? U_CALLBACK_COMPLETE) eqn:C3.
        -- apply Z.eqb_eq in C3. apply (CP ret); auto.
        -- apply Z.eqb_neq in C3. destruct (ret =? U_CALLBACK_UNAUTHORIZED) eqn:C4.
           ++ apply Z.eqb_eq in C4. destruct (unauthorized_ok s1 d QS RR) as (s' & a & E & SR & QA & PA). rewrite E.
              eapply FIN; eauto; [congruence|]. apply ca_plain; auto. change (ev_code ev) with ret. rewrite C4. exact PA.
           ++ apply Z.eqb_neq in C4. eapply FIN.
              ** repeat split; auto. right. eexists. reflexivity.
              ** auto.
              ** congruence.
              ** unfold queue_answer, error_answer, with_mhd. cbn. rewrite Q2, Q3. cbn. reflexivity.
              ** apply ca_plain; auto. now apply pa_error.
Qed.

(** ** the default endpoint afterwards *)
Lemma default_none : forall s, s_pos W s <> 0 \/ the_default default_endpoint = None ->
  default_step W cb accepts default_endpoint default_auth_realm s = Ret s.
Proof.
  intros s [H|H]; unfold default_step.
  - destruct (the_default default_endpoint); auto. apply Z.eqb_neq in H. now rewrite H.
  - now rewrite H.
Qed.

Lemma the_default_callback : forall e, the_default default_endpoint = Some e -> exists f, callback e = Some f.
Proof.
  intros e. unfold the_default. destruct default_endpoint as [x|]; [|discriminate].
  destruct (callback x) eqn:C; [|discriminate]. intros E. injection E as <-. eauto.
Qed.

Definition known_code (c : Z) : Prop :=
  c = U_CALLBACK_CONTINUE \/ c = U_CALLBACK_IGNORE \/ c = U_CALLBACK_COMPLETE \/ c = U_CALLBACK_UNAUTHORIZED \/ c = U_CALLBACK_ERROR.

Lemma default_some : forall s e, the_default default_endpoint = Some e -> s_pos W s = 0 ->
  callbacks_ok W cb -> readable (s_resp W s) -> s_inner W s = 0 -> s_realm W s = None ->
  exists s' ev, default_step W cb accepts default_endpoint default_auth_realm s = Ret s' /\
    s_trace W s' = s_trace W s ++ [ev] /\ ev_ep ev = e /\ ev_pos ev = 0 /\ called W cb (s_resp W s) (s_world W s) ev /\
    (s_upgrade W s = false ->
       (known_code (ev_code ev) -> exists d a, repr (r_header (ev_resp ev)) d /\ queue_answer W s' = [a] /\
          plain_answer accepts default_auth_realm (ev_resp ev) (hs_of d (ev_resp ev)) (ev_code ev) a)) /\
    (~ known_code (ev_code ev) -> queue_answer W s' = []).
Proof.
  intros s e DE P0 OK RD I0 R0. destruct (the_default_callback e DE) as (f & CE).
  unfold default_step. rewrite DE, P0. cbn [Z.eqb].
  destruct (run_callback_eq (mk_st W 0 (s_map W s) (s_resp W s) (s_world W s) None (s_upgrade W s) (s_inner W s) (s_realm W s) (s_trace W s))
     e f (s_map W s) false CE) as (ret & r & w & CC & RC).
  cbn [s_map]. rewrite RC. cbn [bind]. cbn [s_pos s_map s_resp s_world s_mhd s_upgrade s_inner s_realm s_trace] in *.
  set (ev := mk_event e 0 ret r w). set (s1 := mk_st W _ _ r w _ _ _ _ _).
  assert (RDr : readable r). { specialize (OK f (user_data e) 0 (s_map W s) (s_resp W s) (s_world W s) RD). rewrite CC in OK. exact OK. }
  destruct RDr as (d & RR).
  assert (CA : called W cb (s_resp W s) (s_world W s) ev) by (exists f, (s_map W s); auto).
  destruct (s_upgrade W s) eqn:UP.
  - (* not the clean case *)
    assert (T : exists s', complete_answer W accepts s1 = Ret s' /\ s_trace W s' = s_trace W s1).
    { unfold complete_answer. destruct (set_headers_ok r d [] RR) as (b1 & E & _). change (s_resp W s1) with r. rewrite E.
      cbn [bind]. eexists. split; [reflexivity|]. reflexivity. }
    assert (T2 : exists s', unauthorized_answer W accepts default_auth_realm s1 = Ret s' /\ s_trace W s' = s_trace W s1).
    { unfold unauthorized_answer. destruct (set_headers_ok r d [] RR) as (b1 & E & _). change (s_resp W s1) with r. rewrite E.
      cbn [bind fst snd]. destruct b1; eexists; (split; [reflexivity|]); reflexivity. }
    destruct (ret =? U_CALLBACK_UNAUTHORIZED) eqn:C4.
    { apply Z.eqb_eq in C4. destruct T2 as (s' & E & TR). exists s', ev. rewrite E, TR. split; [auto|]. split; [auto|]. split; [auto|].
      split; [auto|]. split; [auto|]. split; [discriminate|]. intros NK. destruct NK. unfold known_code. cbn. tauto. }
    destruct (ret =? U_CALLBACK_ERROR) eqn:C5.
    { apply Z.eqb_eq in C5. eexists. exists ev. split; [reflexivity|]. split; [auto|]. split; [auto|].
      split; [auto|]. split; [auto|]. split; [discriminate|]. intros NK. destruct NK. unfold known_code. cbn. tauto. }
    destruct ((ret =? U_CALLBACK_CONTINUE) || (ret =? U_CALLBACK_IGNORE) || (ret =? U_CALLBACK_COMPLETE)) eqn:C6.
    { destruct T as (s' & E & TR). exists s', ev. rewrite E, TR. split; [auto|]. split; [auto|]. split; [auto|].
      split; [auto|]. split; [auto|]. split; [discriminate|]. intros NK. destruct NK. unfold known_code. cbn.
      rewrite !orb_true_iff, !Z.eqb_eq in C6. tauto. }
    exists s1, ev. split; [auto|]. split; [auto|]. split; [auto|]. split; [auto|]. split; [auto|]. split; [discriminate|]. reflexivity.
  - assert (QS : quiet s1) by (repeat split; auto).
    destruct (ret =? U_CALLBACK_UNAUTHORIZED) eqn:C4.
    { apply Z.eqb_eq in C4. destruct (unauthorized_ok s1 d QS RR) as (s' & a & E & (_ & _ & TR & _) & QA & PA).
      exists s', ev. rewrite E, TR. split; [auto|]. split; [auto|]. split; [auto|]. split; [auto|]. split; [auto|]. split.
      - intros _ _. exists d, a. change (ev_code ev) with ret. rewrite C4. auto.
      - intros NK. destruct NK. unfold known_code. cbn. tauto. }
    destruct (ret =? U_CALLBACK_ERROR) eqn:C5.
    { apply Z.eqb_eq in C5. eexists. exists ev. split; [reflexivity|]. split; [auto|]. split; [auto|]. split; [auto|]. split; [auto|]. split.
      - intros _ _. exists d. eexists. split; [auto|]. split.
        + unfold queue_answer, error_answer, with_mhd. cbn. rewrite I0. cbn. reflexivity.
        + change (ev_code ev) with ret. rewrite C5. apply pa_error; discriminate.
      - intros NK. destruct NK. unfold known_code. cbn. tauto. }
    destruct ((ret =? U_CALLBACK_CONTINUE) || (ret =? U_CALLBACK_IGNORE) || (ret =? U_CALLBACK_COMPLETE)) eqn:C6.
    { rewrite !orb_true_iff, !Z.eqb_eq in C6. destruct (complete_ok s1 d QS RR) as (s' & E & (_ & _ & TR & _) & _ & _ & _ & QA).
      exists s', ev. rewrite E, TR. split; [auto|]. split; [auto|]. split; [auto|]. split; [auto|]. split; [auto|]. split.
      - intros _ _. exists d. eexists. split; [auto|]. split; [exact QA|]. apply (pa_complete accepts default_auth_realm (ev_resp ev)). cbn. tauto.
      - intros NK. destruct NK. unfold known_code. cbn. tauto. }
    exists s1, ev. split; [auto|]. split; [auto|]. split; [auto|]. split; [auto|]. split; [auto|]. split.
    + intros _ K. rewrite !orb_false_iff, !Z.eqb_neq in C6. apply Z.eqb_neq in C4. apply Z.eqb_neq in C5. unfold known_code in K. cbn in K. tauto.
    + reflexivity.
Qed.

Lemma first_response_ok : forall dh, (forall m, dh = Some m -> exists d, repr m d) ->
  exists r, first_response dh = Ret r /\ readable r /\ fresh_response dh r.
Proof.
  intros dh H. unfold first_response. destruct dh as [m|].
  - destruct (0 <? u_map_count m) eqn:C.
    + destruct (H m eq_refl) as (d & es & L & OK & X). destruct (copy_layout m es L OK) as (m' & E & L'). rewrite E. cbn [bind].
      eexists. split; [reflexivity|]. split; [exists d, es; cbn; auto|].
      do 6 (split; [reflexivity|]). intros d2 (es2 & L2 & OK2 & X2). destruct (copy_layout m es2 L2 OK2) as (m2 & E2 & L2').
      rewrite E in E2. injection E2 as <-. exists es2. cbn. auto.
    + cbn [bind]. eexists. split; [reflexivity|]. split; [exists []; apply repr_init|].
      do 6 (split; [reflexivity|]). intros d (es & L & _ & _ & F & _). unfold u_map_count in C. apply Z.ltb_ge in C.
      destruct L as (_ & _ & _ & L). destruct es; [|cbn in L; lia]. inversion F; subst. apply repr_init.
  - cbn [bind]. eexists. split; [reflexivity|]. split; [exists []; apply repr_init|].
    do 6 (split; [reflexivity|]). apply repr_init.
Qed.
End D.

(** ** registered endpoints have a callback *)
Lemma eop_means_complete : forall es o es', eop_means es o es' -> Forall complete es -> Forall complete es'.
Proof.
  intros es o es' M F. inversion M; subst; auto.
  - apply Forall_app. auto.
  - apply Forall_app. auto.
  - apply Forall_forall. intros e I. apply filter_In in I as [I _]. rewrite Forall_forall in F. auto.
Qed.
Lemma eops_mean_complete : forall es ops es', eops_mean es ops es' -> Forall complete es -> Forall complete es'.
Proof. induction 1; auto. intros F. apply IHeops_mean. eapply eop_means_complete; eauto. Qed.

(** ** the whole dispatcher *)

Lemma ignored_zero : forall W (evs : list (event W)), not_ignored W evs = 0 <-> all_ignored evs.
Proof.
  intros W. induction evs as [|ev evs IH].
  - split; intro; [constructor|reflexivity].
  - rewrite not_ignored_cons. pose proof (not_ignored_nonneg W evs). destruct (ev_code ev =? U_CALLBACK_IGNORE) eqn:E.
    + apply Z.eqb_eq in E. rewrite Z.add_0_l, IH. split; intro H0; [constructor; auto|inversion H0; auto].
    + apply Z.eqb_neq in E. split; [lia|]. intros H0. inversion H0; congruence.
Qed.

Lemma dispatch_ok : forall W tl qsort cb accepts handshake dflt dheaders realm check url initial u es method map_url (w : W),
  sorts qsort -> table_ok u es -> Forall complete es -> zlen es < 4294967295 ->
  callbacks_ok W cb -> request_ok url initial -> (forall m, dheaders = Some m -> exists d, repr m d) ->
  exists l res, endpoint_match qsort (Some method) (Some url) (endpoint_list u) = Ret l /\
    dispatch W tl qsort cb accepts handshake dflt dheaders realm check url initial method (endpoint_list u) map_url w = Ret res /\
    match (match l with [] => match the_default dflt with Some e => [e] | None => [] end | _ => l end) with
    | [] => res = mk_result [Queue 404 (mk_mhd (CBuffer not_found_body) [])] [] []
    | c => exists evs last r0, fresh_response dheaders r0 /\ calls res = evs ++ [last] /\
        genuine W cb r0 w (evs ++ [last]) /\ runs_in_order W c (evs ++ [last]) /\
        (forall a x b, evs ++ [last] = a ++ x :: b -> ev_pos x = not_ignored W a) /\
        ((extra res = [] /\ (the_default dflt = None \/ ~ all_ignored (evs ++ [last])) /\
          exists d a, repr (r_header (ev_resp last)) d /\ answers res = [a] /\
            chain_answer W accepts handshake realm last (all_headers d (r_cookies (ev_resp last))) a)
         \/
         (exists x e r1, extra res = [x] /\ the_default dflt = Some e /\ ev_ep x = e /\ ev_pos x = 0 /\
            all_ignored (evs ++ [last]) /\
            (r1 = ev_resp last \/ exists st, r1 = set_status (ev_resp last) st) /\ called W cb r1 (ev_world last) x /\
            (r_ws (ev_resp last) = None -> known_code (ev_code x) ->
               exists d a, repr (r_header (ev_resp x)) d /\ answers res = [a] /\
                 plain_answer accepts realm (ev_resp x) (all_headers d (r_cookies (ev_resp x))) (ev_code x) a) /\
            (~ known_code (ev_code x) -> answers res = [])))
    end.
Proof.
  intros W tl qsort cb accepts handshake dflt dheaders realm check url initial u es method map_url w Q T C N OK RQ DH.
  exists (qsort (filter (sel method url) es)). unfold dispatch. rewrite (match_table qsort u es method url T). cbn [bind].
  set (l := qsort (filter (sel method url) es)).
  set (c := match l with [] => match the_default dflt with Some e => [e] | None => [] end | _ => l end).
  assert (CB : Forall (fun e => callback e <> None) c /\ zlen c < 4294967296).
  { destruct (Q (filter (sel method url) es)) as [P _]. fold l in P.
    assert (Forall (fun e => callback e <> None) l).
    { apply Forall_forall. intros e I. apply Permutation_sym in P. apply (Permutation_in e P) in I. apply filter_In in I as [I _].
      rewrite Forall_forall in C. apply C in I. apply I. }
    assert (zlen l <= zlen es).
    { unfold zlen. rewrite <- (Permutation_length P). clear. induction es as [|e es IH]; cbn; [lia|]. destruct (sel method url e); cbn; lia. }
    unfold c. destruct l as [|e0 l'].
    - destruct (the_default dflt) as [e|] eqn:DE.
      + split; [|unfold zlen; cbn; lia]. constructor; auto. destruct (the_default_callback dflt e DE) as (f & ->). discriminate.
      + split; [constructor|unfold zlen; cbn; lia].
    - split; auto. lia. }
  destruct CB as [CB1 CB2]. destruct c as [|e0 c'] eqn:CE.
  - eexists. split; [reflexivity|]. split; [reflexivity|]. reflexivity.
  - destruct (first_response_ok dheaders DH) as (r0 & RE & RD & FR). rewrite RE. cbn [bind].
    destruct (callback_loop_ok W tl cb accepts handshake realm check url initial (e0 :: c')
       (mk_st W 0 map_url r0 w None false 0 None [])) as (s & evs & last & E & LR); auto; try discriminate; try (cbn; lia).
    { repeat split. }
    rewrite E. cbn [bind]. destruct LR as (L1 & L2 & L3 & L4 & L5 & L6 & L7 & L8 & d & a & L9 & L10 & L11).
    cbn [s_trace s_resp s_world s_pos] in *. cbn [app] in L1. rewrite Z.add_0_l in L5.
    assert (RDs : readable (s_resp W s)) by (destruct L7 as [-> | (x & ->)]; exists d; auto).
    destruct (Z.eq_dec (s_pos W s) 0) as [P0|P0].
    + assert (AI : all_ignored (evs ++ [last])) by (apply ignored_zero; congruence).
      assert (LI : ev_code last = U_CALLBACK_IGNORE).
      { unfold all_ignored in AI. rewrite Forall_app in AI. destruct AI as [_ AI]. now apply Forall_inv in AI. }
      destruct (L8 LI) as (I0 & R0 & UP).
      destruct (the_default dflt) as [e|] eqn:DE.
      * destruct (default_some W tl cb accepts handshake dflt realm url s e DE P0 OK RDs I0 R0) as (s' & x & DS & TX & X1 & X2 & X3 & X4 & X5).
        rewrite DS. cbn [bind]. eexists. split; [reflexivity|]. split; [reflexivity|].
        exists evs, last, r0. cbn [calls extra answers]. rewrite TX.
        split; [auto|]. split; [auto|]. split; [auto|]. split; [auto|].
        split. { intros a0 x0 b0 H0. rewrite (L4 a0 x0 b0 H0). lia. }
        right. exists x, e, (s_resp W s).
        split. { rewrite skipn_app, skipn_all, Nat.sub_diag. reflexivity. }
        split; [auto|]. split; [auto|]. split; [auto|]. split; [auto|]. split; [auto|].
        split; [rewrite <- L6; auto|]. split; auto.
      * rewrite (default_none W cb accepts dflt realm s) by auto. cbn [bind]. eexists. split; [reflexivity|]. split; [reflexivity|].
        exists evs, last, r0. cbn [calls extra answers]. split; [auto|]. split; [auto|]. split; [auto|]. split; [auto|].
        split. { intros a0 x0 b0 H0. rewrite (L4 a0 x0 b0 H0). lia. }
        left. split; [apply skipn_all|]. split; [auto|]. exists d, a. auto.
    + rewrite (default_none W cb accepts dflt realm s) by auto. cbn [bind]. eexists. split; [reflexivity|]. split; [reflexivity|].
      exists evs, last, r0. cbn [calls extra answers]. split; [auto|]. split; [auto|]. split; [auto|]. split; [auto|].
      split. { intros a0 x0 b0 H0. rewrite (L4 a0 x0 b0 H0). lia. }
      left. split; [apply skipn_all|]. split.
      * right. rewrite <- ignored_zero. congruence.
      * exists d, a. auto.
Qed.
