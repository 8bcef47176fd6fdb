(** C108: the memory of responses that the HTTP client receives, also when allocations fail. *)
From Coq Require Import String ZArith Bool List Lia.
From Verif Require Import Base BaseFacts UMapModel UMapProofs StrModel ClientSpec ClientProofs OwnModel OwnSpec OwnProofs MapMemModel MapMemSpec MapMemProofs MapMemSteps MapMemRun
  RespMemModel RespMemSpec RespMemProofs RespMemCalls RespMemSteps RecvMemModel RecvMemProofs HttpMemSpec PullMemModel PullMemSpec PullMemProofs PullMemCookies PullMemRun.
Import ListNotations.
Open Scope Z_scope.

Lemma owns_blocks : forall m l, mowns m l -> blocks_are m l.
Proof. intros m l [O _]. destruct (owns_spec _ _ O) as (A & B & C). split; [exact B|]. split; [exact C|exact A]. Qed.

(** C108. A program makes responses as in C97, and receives into them, one after the other, what servers send. Each call of
    libcurl comes with what the allocations answer. Either NULL is printed, which [all_pulled] allows only when a header that has
    no value comes again or a cookie's name or value has no memory, or every function comes back: the responses are those that
    [all_pulled] says, no block is used after its release or released twice, and the blocks in use are those of the responses and
    those that [all_pulled] counts as lost. *)
Theorem C108_exact_partial : forall max ops cs s l ys, 0 <= max -> max + all_sizes l + 2 < two64 ->
  Forall (fun x => rop_ok false max (snd x) /\ memory_ok (snd x) (fst x)) ops -> rrun rstart ops = Ret (cs, s) ->
  Forall2 (fun x y => tells (snd x) y) l ys -> Forall story_ok ys -> Forall (fun x => pull_ok (snd x)) l ->
  exists la, read_resps (g_mem s) (g_resps s) = Ret la /\
    ((exists zs m' rs la' lost, x_pulls (g_mem s) (g_resps s) l = Ret (zs, (m', rs)) /\ all_pulled la l ys (Some (zs, la', List.length lost)) /\
        read_resps m' rs = Ret la' /\ blocks_are m' (flat_map resp_blocks rs ++ lost)) \/
     (x_pulls (g_mem s) (g_resps s) l = UB NullDeref /\ all_pulled la l ys None)).
Proof.
  intros max ops cs s l ys M0 LT F R T SO PO. assert (AP : 0 <= all_sizes l).
  { clear. induction l as [|x l IH]; cbn [all_sizes fold_right]; [lia|]. fold (all_sizes l). pose proof (sizes_pos (p_events (snd x))). lia. }
  destruct (rrun_ok false max ops rstart [] (ginv_start _ _) F M0) as (cs1 & s1 & la & R1 & M & [FL O]); [lia|]. rewrite R in R1. injection R1 as <- <-.
  exists la. split; [eapply read_resps_ok; [exact O|apply incl_refl|exact FL]|].
  destruct (pulls_ok l ys max (g_mem s) (g_resps s) la [] FL) as [(zs & m' & rs & la' & lost & E & AL & FL' & O' & _)|[E AL]]; auto; [rewrite app_nil_r; exact O|].
  left. exists zs, m', rs, la', lost. split; [exact E|]. split; [exact AL|]. rewrite app_nil_r in O'. split; [eapply read_resps_ok; [exact O'|apply incl_appl, incl_refl|exact FL']|now apply owns_blocks].
Qed.
Print Assumptions C108_exact_partial.

(** ** with memory *)
Lemma valued_field : forall k a, Forall (fun e : str * list Z => snd e <> []) a -> field k a <> Some [].
Proof.
  intros k a F E. unfold field in E. destruct (find (is_name k) a) as [e|] eqn:X; [|discriminate E]. injection E as E. apply find_some in X as [X _]. rewrite Forall_forall in F. now apply (F e X).
Qed.
Lemma valued_put : forall k v a, Forall (fun e : str * list Z => snd e <> []) a -> Forall (fun e => snd e <> []) (a_put k (Some v) a).
Proof.
  intros k v a F. unfold a_put.
  assert (NV : forall old, overlay old (v ++ [0]) 0 <> []).
  { intros old E. unfold overlay in E. apply app_eq_nil in E as [_ E]. apply app_eq_nil in E as [E _]. apply app_eq_nil in E as [_ E]. discriminate E. }
  induction F as [|[y w] a NW F IH]; cbn [a_change]; [constructor; [apply NV|constructor]|]. destruct (str_eqb y k); constructor; auto. apply NV.
Qed.
Lemma valued_without : forall k a, Forall (fun e : str * list Z => snd e <> []) a -> Forall (fun e => snd e <> []) (without k a).
Proof. intros k a F. apply Forall_forall. intros e X. apply filter_In in X as [X _]. rewrite Forall_forall in F. auto. Qed.

Lemma performs_exact : forall max limit ts s x, performs max limit ts s x -> Forall (fun y => fst y = false) ts -> valued (as_resp s) ->
  x = All (fold_left (heard max limit) ts s) /\ valued (as_resp (fold_left (heard max limit) ts s)).
Proof.
  intros max limit ts s x P. induction P as [s|short t r s s' x H P IH|t r s s' n H|short t r s H]; intros F V.
  - auto.
  - inversion F as [|? ? F1 F2]; subst. cbn [fst] in F1. subst short. cbn [fold_left].
    assert (E : s' = heard max limit s (false, t) /\ valued (as_resp s')).
    { unfold heard. cbn [snd]. inversion H; subst; try discriminate.
      - replace ((max =? 0) || (as_count s' <? max)) with false; [auto|]. symmetry. unfold open in H0. apply orb_false_iff. split; [apply Z.eqb_neq|apply Z.ltb_ge]; lia.
      - replace ((max =? 0) || (as_count s <? max)) with true by (symmetry; apply orb_true_iff; destruct H0; [left; now apply Z.eqb_eq|right; now apply Z.ltb_lt]).
        rewrite H1. split; [reflexivity|]. now apply valued_put.
      - replace ((max =? 0) || (as_count s <? max)) with true by (symmetry; apply orb_true_iff; destruct H0; [left; now apply Z.eqb_eq|right; now apply Z.ltb_lt]).
        rewrite H1. split; [reflexivity|]. apply valued_put. now apply valued_without.
      - auto.
      - auto.
      - auto. }
    destruct E as [-> V']. apply IH; auto.
  - inversion F as [|? ? F1 F2]; subst. discriminate F1.
  - inversion H; subst. exfalso. now apply (valued_field _ _ V H1).
Qed.
Lemma no_false : forall f n, ~ In false f -> nth n f true = true.
Proof. intros f n N. destruct (nth_in_or_default n f true) as [I|E]; [|exact E]. destruct (nth n f true); [reflexivity|contradiction]. Qed.
Lemma lent_all : forall f i s, ~ In false f -> lent f i s = lent [] i s.
Proof. intros f i s N. unfold lent. rewrite (no_false f i N). now rewrite (no_false [] i) by (intros []). Qed.
Lemma bakes_exact : forall a l x, bakes a l x -> Forall (fun b : baked => ~ In false (fst (fst b)) /\ ~ In false (snd (fst b))) l -> valued a ->
  x = Some (fold_left cooked l a) /\ valued (fold_left cooked l a).
Proof.
  intros a l x B. induction B as [a|a f ad c r x H B IH|a f ad c r z a' x H0 H4 AD Z B IH|a f ad c r H0 H4|a f ad c r z a' H0 H4 AD Z H5]; intros F V.
  - auto.
  - inversion F as [|? ? [F1 F2] F3]; subst. cbn [fst snd] in *. rewrite (no_false _ _ F1) in H. discriminate H.
  - inversion F as [|? ? [F1 F2] F3]; subst. cbn [fst snd] in *. cbn [fold_left]. destruct AD as [AD|[AD _]]; [|contradiction].
    assert (E : a' = cooked a (f, ad, c)). { unfold cooked. cbn [snd]. unfold as_call in *. rewrite <- !(lent_all f) by exact F1. now rewrite <- AD. }
    rewrite <- E. apply IH; [exact F3|]. rewrite E. unfold cooked. cbn [snd as_call ar_call set_cookies valued ar_header]. exact V.
  - inversion F as [|? ? [F1 F2] F3]; subst. cbn [fst snd] in *. rewrite (no_false _ _ F1) in H4. discriminate H4.
  - inversion F as [|? ? [F1 F2] F3]; subst. cbn [fst snd] in *. rewrite (no_false _ _ F1) in H5. discriminate H5.
Qed.
Lemma pulled_exact : forall p y a e, pulled p y a e -> plenty p y -> valued a -> e = (let '(z, a', n) := meant p y a in Back z a' n) /\ valued (snd (fst (meant p y a))).
Proof.
  intros p y a e P (PB & PT & PC) V. unfold meant. assert (V0 : valued (as_resp (mk_astate a 0 []))) by exact V.
  inversion P as [s n PF|PF|s PF ST|s l PF P1 P2 P3 BK|s l a' PF P1 P2 P3 BK]; subst; destruct (performs_exact _ _ _ _ _ PF PT V0) as [E VS]; try discriminate E; injection E as ->;
    set (s := fold_left (heard (p_max p) (p_limit p)) (y_told y) (mk_astate a 0 [])) in *.
  - destruct (p_performs p), (p_status p), (y_cookies y); cbn [andb]; auto. destruct ST as [X|[X|X]]; discriminate X.
  - rewrite P3 in PC. destruct (bakes_exact _ _ _ BK PC VS) as [X _]. discriminate X.
  - rewrite P1, P2, P3 in *. cbn [andb]. destruct (bakes_exact _ _ _ BK PC VS) as [X VB]. injection X as ->. unfold ends. rewrite PB. destruct (as_body s); (split; [reflexivity|exact VB]).
Qed.

(** C108. When no allocation fails and the headers that the program put have values, the responses are what [meant] says: every
    field, with the values of a name that comes again behind the old ones, the last status line, the cookies, and as much of the
    body as is allowed; NULL is never printed; only the old bodies of responses that get a body are lost. *)
Theorem C108_memory_partial : forall max ops cs s la l ys, 0 <= max -> max + all_sizes l + 2 < two64 ->
  Forall (fun x => rop_ok false max (snd x) /\ memory_ok (snd x) (fst x)) ops -> rrun rstart ops = Ret (cs, s) -> read_resps (g_mem s) (g_resps s) = Ret la ->
  Forall2 (fun x y => tells (snd x) y) l ys -> Forall story_ok ys -> Forall (fun x => pull_ok (snd x)) l ->
  Forall2 (fun x y => plenty (snd x) y) l ys -> Forall valued la ->
  exists m' rs la' lost, x_pulls (g_mem s) (g_resps s) l = Ret (fst (fst (all_meant la l ys)), (m', rs)) /\ read_resps m' rs = Ret la' /\ la' = snd (fst (all_meant la l ys)) /\ List.length lost = snd (all_meant la l ys) /\ blocks_are m' (flat_map resp_blocks rs ++ lost).
Proof.
  intros max ops cs s la l ys M0 LT F R RL T SO PO PL V.
  assert (EX : forall la l ys x, all_pulled la l ys x -> Forall2 (fun x y => plenty (snd x) y) l ys -> Forall valued la -> x = Some (all_meant la l ys)).
  { clear. intros la l ys x A. induction A as [la|la i p r y ys x E A IH|la i p r y ys a E P|la i p r y ys a z a' n E P A IH|la i p r y ys a z a' n zs l' n' E P A IH]; intros PL V.
    - reflexivity.
    - inversion PL; subst. cbn [all_meant]. rewrite E. auto.
    - inversion PL as [|? ? ? ? P1 P2]; subst. cbn [snd] in P1. assert (VA : valued a) by (rewrite Forall_forall in V; apply V; eapply nth_error_In; eauto).
      destruct (pulled_exact _ _ _ _ P P1 VA) as [X _]. destruct (meant p y a) as [[? ?] ?]. discriminate X.
    - inversion PL as [|? ? ? ? P1 P2]; subst. cbn [snd] in P1. assert (VA : valued a) by (rewrite Forall_forall in V; apply V; eapply nth_error_In; eauto).
      destruct (pulled_exact _ _ _ _ P P1 VA) as [X VM]. exfalso. assert (Y : None = Some (all_meant (set_nth la i a') r ys)); [|discriminate Y]. apply IH; [exact P2|].
      destruct (meant p y a) as [[z1 a1] n1]. injection X as -> -> ->. cbn [fst snd] in VM. clear - V VM. revert i. induction V as [|? ? ? ? IHV]; intros [|i]; cbn [set_nth]; constructor; auto.
    - inversion PL as [|? ? ? ? P1 P2]; subst. cbn [snd] in P1. assert (VA : valued a) by (rewrite Forall_forall in V; apply V; eapply nth_error_In; eauto).
      destruct (pulled_exact _ _ _ _ P P1 VA) as [X VM]. cbn [all_meant]. rewrite E. destruct (meant p y a) as [[z1 a1] n1]. injection X as -> -> ->. cbn [fst snd] in VM.
      assert (Y : Some (zs, l', n') = Some (all_meant (set_nth la i a1) r ys)).
      { apply IH; [exact P2|]. clear - V VM. revert i. induction V as [|? ? ? ? IHV]; intros [|i]; cbn [set_nth]; constructor; auto. }
      injection Y as Y. rewrite <- Y. reflexivity. }
  destruct (C108_exact_partial max ops cs s l ys M0 LT F R T SO PO) as (la0 & RL0 & [(zs & m' & rs & la' & lost & E & AL & RE & BL)|[E AL]]); rewrite RL in RL0; injection RL0 as <-.
  - pose proof (EX _ _ _ _ AL PL V) as X. injection X as X. rewrite <- X. cbn [fst snd]. exists m', rs, la', lost. auto.
  - pose proof (EX _ _ _ _ AL PL V) as X. discriminate X.
Qed.
Print Assumptions C108_memory_partial.

(** ** Examples and what is false *)
Definition crlf : str := [13; 10].
Definition nl (s : str) : str := s ++ crlf.
Definition ready (ops : list rop) (s : rprog) : Prop := exists cs, rrun rstart (map (pair []) ops) = Ret (cs, s) /\ Forall (eq U_OK) cs.
Definition simple (ev : list event) (cks : list (list bool * list bool * str)) : pull := mk_pull 0 0 ev true true (Some cks) true.
Definition sid : curl_cookie := mk_curl (bs "a.org") false (bs "/") false (bs "0") (bs "sid") (bs "1").
Ltac made := eexists; split; [vm_compute; reflexivity|repeat constructor].

(** a response with a header that comes twice, a cookie, a body in two pieces, into a response that had a body *)
Definition ex_pull : pull :=
  mk_pull 0 4 [Line [] (nl (bs "HTTP/1.1 200 OK")); Line [] (nl (bs "X: a")); Line [] (nl (bs "x: b")); Line [] (nl []); Chunk true (bs "abc"); Chunk true (bs "def")]
    true true (Some [([], [], netscape sid)]) true.
Definition ex_story : story :=
  mk_story [(false, Heard (Status (bs "HTTP/1.1 200 OK"))); (false, Heard (Field (bs "X") (bs "a"))); (false, Heard (Field (bs "x") (bs "b"))); (false, Heard Blank);
            (false, Got (bs "abc")); (false, Got (bs "def"))] (Some [([], [], sid)]).
Lemma bare_check : forall s, isspace (hd 65 s) = false -> isspace (last s 65) = false -> bare s.
Proof. intros s H L. split; intros c r E; subst s; [exact H|]. now rewrite last_last in L. Qed.
Lemma no_char : forall c s, forallb (fun x => negb (x =? c)) s = true -> ~ In c s.
Proof. intros c s H X. rewrite forallb_forall in H. apply H in X. now rewrite Z.eqb_refl in X. Qed.
Lemma heard_now : forall l t, written_as l t -> cstrb t = true -> comes (Line [] t) (false, Heard l).
Proof. intros l t W C. exact (comes_line [] l t W (proj1 (cstrb_true t) C)). Qed.
Lemma got_now : forall b, comes (Chunk true b) (false, Got b).
Proof. intros b. exact (comes_bytes true b). Qed.
Lemma field_now : forall n v, n <> [] -> forallb (fun x => negb (x =? 58)) n = true -> isspace (hd 65 n) = false -> isspace (last n 65) = false ->
  isspace (hd 65 v) = false -> isspace (last v 65) = false -> cstrb n = true -> cstrb v = true -> written_as (Field n v) (n ++ [58] ++ [32] ++ v ++ crlf).
Proof. intros. apply wa_field; auto using bare_check, no_char; try discriminate; try (apply cstrb_true; assumption); repeat constructor. Qed.
Example C108_tells : tells ex_pull ex_story /\ story_ok ex_story /\ pull_ok ex_pull.
Proof.
  split; [|split].
  - constructor; [|reflexivity]. unfold ex_pull, ex_story. cbn [p_events].
    constructor; [apply heard_now; [apply wa_status; [discriminate|apply bare_check; reflexivity|apply no_char; reflexivity|repeat constructor]|reflexivity]|].
    constructor; [apply heard_now; [apply (field_now (bs "X") (bs "a")); try reflexivity; discriminate|reflexivity]|].
    constructor; [apply heard_now; [apply (field_now (bs "x") (bs "b")); try reflexivity; discriminate|reflexivity]|].
    constructor; [apply heard_now; [apply (wa_blank crlf); repeat constructor|reflexivity]|].
    constructor; [apply got_now|]. constructor; [apply got_now|constructor].
  - unfold story_ok, ex_story. cbn [y_cookies]. constructor; [|constructor]. split; [|split; [discriminate|left; intros []]].
    split; [|apply no_char; reflexivity]. repeat constructor; try discriminate; apply no_char; reflexivity.
  - split; vm_compute; discriminate.
Qed.
Example C108_meant : exists s la, ready [RNew; RBytes 0 (bs "old")] s /\ read_resps (g_mem s) (g_resps s) = Ret la /\ Forall valued la /\ plenty ex_pull ex_story /\
  all_meant la [(0%nat, ex_pull)] [ex_story] =
    ([U_OK], [mk_aresp (Some (bs "HTTP/1.1 200 OK")) None [(bs "x", bs "a, b" ++ [0])]
                [mk_acookie (Some (bs "sid")) (Some (bs "1")) (Some (bs "0")) (Some (bs "a.org")) (Some (bs "/"))] (Some (bs "abcd")) (None, None) []], 1%nat).
Proof.
  do 2 eexists. split; [made|]. split; [vm_compute; reflexivity|]. split; [repeat constructor; discriminate|]. split; [|vm_compute; reflexivity].
  split; [reflexivity|]. split; [repeat constructor|]. repeat constructor; intros [].
Qed.

(** Refuted: when an allocation fails while a header comes, the header is missing from the response, or, when it is a header that
    had come before, its values are gone; ulfius_send_http_request answers U_OK (u_send_request.c:147-155). *)
Theorem C108_header_refuted : exists s,
  ready [RNew] s /\
  (exists m rs la, x_pulls (g_mem s) (g_resps s) [(0%nat, simple [Line [false] (nl (bs "X: a"))] [])] = Ret ([U_OK], (m, rs)) /\ read_resps m rs = Ret la /\ map ar_header la = [[]]) /\
  (exists m rs la, x_pulls (g_mem s) (g_resps s) [(0%nat, simple [Line [] (nl (bs "X: a")); Line [false] (nl (bs "X: b"))] [])] = Ret ([U_OK], (m, rs)) /\ read_resps m rs = Ret la /\
     map ar_header la = [[(bs "X", [])]]) /\
  (exists m rs la, x_pulls (g_mem s) (g_resps s) [(0%nat, simple [Line [] (nl (bs "X: a")); Line [true; false] (nl (bs "X: b"))] [])] = Ret ([U_OK], (m, rs)) /\ read_resps m rs = Ret la /\
     map ar_header la = [[]]).
Proof. eexists. split; [made|]. repeat split; do 3 eexists; (split; [vm_compute; reflexivity|]); (split; [vm_compute; reflexivity|]); reflexivity. Qed.
Print Assumptions C108_header_refuted.

(** Refuted: two allocations fail while a header comes that had come before, msprintf and the copy of the value: u_map_put takes
    the name with NULL as its value. When the header comes again, u_map_get_case gives NULL, which is printed with %s
    (u_send_request.c:150). *)
Theorem C108_null_refuted : exists s,
  ready [RNew] s /\
  x_pulls (g_mem s) (g_resps s) [(0%nat, simple [Line [] (nl (bs "X: a")); Line [false; true; false] (nl (bs "X: b")); Line [] (nl (bs "X: c"))] [])] = UB NullDeref.
Proof. eexists. split; [made|]. vm_compute. reflexivity. Qed.
Print Assumptions C108_null_refuted.

(** Refuted: when o_realloc fails for a second piece of the body, its result NULL takes the place of body_data->data and the first
    piece is never released (u_send_request.c:104-108). *)
Theorem C108_chunk_refuted : exists s m rs,
  ready [RNew] s /\ x_pulls (g_mem s) (g_resps s) [(0%nat, simple [Chunk true (bs "abc"); Chunk false (bs "def")] [])] = Ret ([U_ERROR_LIBCURL], (m, rs)) /\
  List.length (h_live (m_heap m)) = S (List.length (flat_map resp_blocks rs)).
Proof. do 3 eexists. split; [made|]. split; vm_compute; reflexivity. Qed.
Print Assumptions C108_chunk_refuted.

(** Refuted: a response that has a body is given to ulfius_send_http_request. The pointer to the new body replaces the old one,
    which is never released; when the server sends no body, the old one stays and looks like the body of the new response; and when
    there is no memory for the new body, the old one is lost too (u_send_request.c:205-213, 243-251). *)
Theorem C108_reuse_refuted : exists s,
  ready [RNew; RBytes 0 (bs "old")] s /\
  (exists m rs, x_pulls (g_mem s) (g_resps s) [(0%nat, simple [Chunk true (bs "new")] [])] = Ret ([U_OK], (m, rs)) /\ List.length (h_live (m_heap m)) = S (List.length (flat_map resp_blocks rs))) /\
  (exists m rs la, x_pulls (g_mem s) (g_resps s) [(0%nat, simple [Line [] (nl (bs "HTTP/1.1 204 No Content")); Line [] (nl [])] [])] = Ret ([U_OK], (m, rs)) /\
     read_resps m rs = Ret la /\ map ar_body la = [Some (bs "old")]) /\
  (exists m rs la, x_pulls (g_mem s) (g_resps s) [(0%nat, mk_pull 0 0 [Chunk true (bs "new")] true true (Some []) false)] = Ret ([U_ERROR_MEMORY], (m, rs)) /\
     read_resps m rs = Ret la /\ map ar_body la = [None] /\ List.length (h_live (m_heap m)) = S (List.length (flat_map resp_blocks rs))).
Proof.
  eexists. split; [made|]. split; [|split].
  - do 2 eexists. split; vm_compute; reflexivity.
  - do 3 eexists. split; [vm_compute; reflexivity|]. split; vm_compute; reflexivity.
  - do 3 eexists. split; [vm_compute; reflexivity|]. split; [vm_compute; reflexivity|]. split; vm_compute; reflexivity.
Qed.
Print Assumptions C108_reuse_refuted.

(** Refuted: when there is no memory for a copy of the line of a cookie, the response lacks the cookie; when there is none for its
    path, the cookie has no path; in both cases the answer is U_OK (u_send_request.c:736-778). *)
Theorem C108_cookie_refuted : exists s,
  ready [RNew] s /\
  (exists m rs la, x_pulls (g_mem s) (g_resps s) [(0%nat, simple [] [([false], [], netscape sid)])] = Ret ([U_OK], (m, rs)) /\ read_resps m rs = Ret la /\ map ar_cookies la = [[]]) /\
  (exists m rs la, x_pulls (g_mem s) (g_resps s) [(0%nat, simple [] [([true; true; false], [], netscape sid)])] = Ret ([U_OK], (m, rs)) /\ read_resps m rs = Ret la /\
     map ar_cookies la = [[mk_acookie (Some (bs "sid")) (Some (bs "1")) (Some (bs "0")) (Some (bs "a.org")) None]]).
Proof. eexists. split; [made|]. split; do 3 eexists; (split; [vm_compute; reflexivity|]); split; vm_compute; reflexivity. Qed.
Print Assumptions C108_cookie_refuted.

(** Refuted: when there is no memory for a copy of the name of a cookie, ulfius_add_cookie_to_response refuses it and NULL is printed
    with %s in the log; so is the value, when there is none for it and the cookie cannot be added (u_send_request.c:770-771). *)
Theorem C108_cookie_log_refuted : exists s,
  ready [RNew] s /\
  x_pulls (g_mem s) (g_resps s) [(0%nat, simple [] [([true; true; true; true; false], [], netscape sid)])] = UB NullDeref /\
  x_pulls (g_mem s) (g_resps s) [(0%nat, simple [] [([true; true; true; true; true; false], [false], netscape sid)])] = UB NullDeref.
Proof. eexists. split; [made|]. split; vm_compute; reflexivity. Qed.
Print Assumptions C108_cookie_log_refuted.

(** Refuted: two cookies, the second without a value. The variable still has the value of the first one, which was released
    (u_send_request.c:732-776); C53. *)
Theorem C108_stale_refuted : exists s,
  ready [RNew] s /\
  x_pulls (g_mem s) (g_resps s) [(0%nat, simple [] [([], [], netscape sid); ([], [], netscape (mk_curl (bs "a.org") false (bs "/") false (bs "0") (bs "other") []))])] = UB UseAfterFree.
Proof. eexists. split; [made|]. vm_compute. reflexivity. Qed.
Print Assumptions C108_stale_refuted.
