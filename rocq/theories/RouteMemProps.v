(** C103: the memory of routing, also when allocations fail. *)
From Coq Require Import String ZArith Bool List Lia Permutation Sorted.
From Verif Require Import Base BaseFacts UMapModel UMapProofs UrlModel Utf8Model RouterModel OwnModel OwnSpec OwnProofs MapMemModel MapMemSpec
  MapMemProofs MapMemPut MapMemRun MapMemSteps RespMemModel RespMemSpec RespMemProofs RespMemSteps RouteMemModel RouteMemSpec RouteMemProofs RouteMemSteps RouteMemRun.
Import ListNotations.
Open Scope Z_scope.
Open Scope list_scope.

(** the blocks of the program when the map at [i] has become [f] *)
Definition used (s : prog) (i p : nat) (f : fmap) : list nat := flat_map map_blocks (set_nth (p_maps s) i (p, f)).

Lemma requests_exact : forall order tl ends table dflt max answers ops cs0 s i j p q f init reqs,
  sorts order -> 6 <= max -> Forall (mop_ok max) ops -> mrun (start answers) ops = Ret (cs0, s) ->
  nth_error (p_maps s) i = Some (p, f) -> nth_error (p_maps s) j = Some (q, init) -> i <> j ->
  Forall (ask_ok max) reqs -> 3 * max + zlen ops + 6 < two64 ->
  exists a r, read_map (p_mem s) init = Ret a /\ s_requests (In false (m_new (p_mem s))) tl ends table dflt a reqs r /\
    match r with
    | UB k => x_requests order tl ends (p_mem s) table dflt f init reqs = UB k
    | Ret (cs, n) => exists m f' gone, x_requests order tl ends (p_mem s) table dflt f init reqs = Ret (cs, (m, f')) /\ length gone = n /\
        NoDup (used s i p f' ++ gone) /\ NoDup (h_live (m_heap m)) /\ (forall x, In x (h_live (m_heap m)) <-> In x (used s i p f' ++ gone))
    end.
Proof.
  intros order tl ends table dflt max answers ops cs0 s i j p q f init reqs HS M6 FO R Ni Nj IJ FQ LT.
  pose proof (zlen_nonneg _ ops) as ZO.
  destruct (mrun_ok max true ops max (start answers) [] (pinv_start _ _) FO ltac:(lia) ltac:(lia) ltac:(lia) (fun _ => eq_refl)) as (cs1 & s1 & l & R1 & _ & [FL O]).
  rewrite R in R1. injection R1 as <- <-.
  destruct (pick _ _ _ j q init FL Nj) as (Aj & Bj & laj & a & lbj & sk & sv & sl & ses & EJ & _ & LJ & _ & _ & _ & -> & FJ & NDJ).
  destruct (pick _ _ _ i p f FL Ni) as (A & B & la & b & lb & ik & iv & il & es & EI & _ & LI & _ & _ & _ & -> & FI & NDI).
  assert (CJ : incl (fb sk sv sl ses) (map_blocks (q, mkf sk sv sl ses))).
  { intros x X. apply cnt_in. rewrite blocks_mkf, cnt_cons. apply cnt_in in X. lia. }
  assert (IN : In (q, mkf sk sv sl ses) (A ++ B)).
  { rewrite EI in Nj. destruct (Nat.lt_trichotomy j (length A)) as [H|[H|H]]; [|subst; lia|].
    - rewrite nth_error_app1 in Nj by lia. apply in_or_app. left. eapply nth_error_In; eauto.
    - rewrite nth_error_app2 in Nj by lia. destruct (j - length A)%nat as [|d] eqn:ED; [lia|]. cbn [nth_error] in Nj. apply in_or_app. right. eapply nth_error_In; eauto. }
  assert (O1 : mowns (p_mem s) (fmap_blocks (mkf ik iv il es) ++ (p :: others A B))).
  { apply of_fb. eapply mowns_ext; [exact O|]. intros x. unfold prog_blocks. rewrite EI. apply blocks_split. }
  assert (INC : incl (fb sk sv sl ses) (p :: others A B)).
  { intros x X. right. unfold others. rewrite <- flat_map_app. apply in_flat_map. exists (q, mkf sk sv sl ses). split; [exact IN|]. apply CJ, X. }
  destruct (requests_ok (In false (m_new (p_mem s))) order tl ends table dflt (max + zlen ops) max sk sv sl ses a HS FJ NDJ ltac:(lia) ltac:(lia)
    reqs (p_mem s) (mkf ik iv il es) (p :: others A B) FQ (fun X => X)) as (r & Sr & RR); [|exact O1|exact INC|].
  { eapply (any_mrel (max + zlen ops) _ (Some b)). exists ik, iv, il, es. auto. }
  exists a, r. split.
  { eapply read_map_ok; [exact O1| |exact FJ]. intros x X. apply in_or_app. right. apply INC, X. }
  split; [exact Sr|]. destruct r as [[cs n]|k]; [|exact RR].
  destruct RR as (m & f' & gone & E & _ & Ln & O2). exists m, f', gone. split; [exact E|]. split; [exact Ln|].
  assert (O3 : owns (m_heap m) (used s i p f' ++ gone)).
  { eapply owns_ext; [exact (proj1 O2)|]. intros x. unfold used. rewrite EI, <- LI, set_nth_mid. rewrite flat_map_app. cbn [flat_map]. change (map_blocks (p, f')) with (p :: fmap_blocks f'). unfold others.
    repeat rewrite ?cnt_app, ?cnt_cons, ?cnt_nil. lia. }
  destruct (owns_spec _ _ O3) as (X & Y & Z0). auto.
Qed.

(** C103. Requests are routed one after the other: the endpoints that match are found and sorted, each is called with
    the parameters of the url, the copies are released. The map of the url and its initial contents are any two maps
    of a program. o_malloc and o_strdup answer what they want, o_realloc has memory; qsort sorts. The calls, their
    parameters, a crash and the number of blocks that are lost are those of [s_requests]; after the requests the
    blocks in use are those of the maps, each from one place, and the blocks lost. *)
Theorem C103_exact_partial : forall order tl ends table dflt max answers ops cs0 s i j p q f init reqs,
  sorts order -> 6 <= max -> Forall (mop_ok max) ops -> mrun (start answers) ops = Ret (cs0, s) ->
  nth_error (p_maps s) i = Some (p, f) -> nth_error (p_maps s) j = Some (q, init) -> i <> j ->
  Forall (ask_ok max) reqs -> 3 * max + zlen ops + 6 < two64 ->
  exists a r, read_map (p_mem s) init = Ret a /\ s_requests (In false (m_new (p_mem s))) tl ends table dflt a reqs r /\
    match r with
    | UB k => x_requests order tl ends (p_mem s) table dflt f init reqs = UB k
    | Ret (cs, n) => exists m f' gone, x_requests order tl ends (p_mem s) table dflt f init reqs = Ret (cs, (m, f')) /\ length gone = n /\
        NoDup (used s i p f' ++ gone) /\ NoDup (h_live (m_heap m)) /\ (forall x, In x (h_live (m_heap m)) <-> In x (used s i p f' ++ gone))
    end.
Proof. exact requests_exact. Qed.
Print Assumptions C103_exact_partial.

Lemma no_false_mono : forall (P : Prop) tl ends table dflt a reqs r, ~ P -> s_requests P tl ends table dflt a reqs r -> s_requests False tl ends table dflt a reqs r.
Proof.
  intros P tl ends table dflt a reqs r N H.
  assert (KP : forall A (l l' : list A), kept P l l' -> kept False l l') by (intros A l l' [X|[X _]]; [left; exact X|contradiction]).
  assert (CP : forall t t', copied P t t' -> copied False t t') by (intros t t' [X|[X _]]; [left; exact X|contradiction]).
  assert (SP : forall p u x, s_split P p u x -> s_split False p u x) by (intros p u x X; inversion X; subst; try contradiction; constructor; auto).
  assert (SC : forall e e', s_copy P e e' -> s_copy False e e') by (intros e e' (A & B & C & D); repeat split; auto; apply D).
  assert (SF : forall me uw t x, s_found P me uw t x -> s_found False me uw t x).
  { intros me uw t x X. induction X; try contradiction; eauto using s_found. }
  assert (SM : forall t me u x, s_match P t me u x -> s_match False t me u x).
  { intros t me u x X. inversion X; subst; try contradiction; eauto using s_match. }
  assert (SD : forall d l x, s_default P d l x -> s_default False d l x).
  { intros d l x X. inversion X; subst; try contradiction; eauto using s_default. }
  assert (SW : forall w x, s_word P tl w x -> s_word False tl w x) by (intros w x X; inversion X; subst; try contradiction; eauto using s_word).
  assert (SK : forall pw c uw c' uw', s_skip P tl pw c uw c' uw' -> s_skip False tl pw c uw c' uw') by (intros pw c uw c' uw' X; induction X; eauto using s_skip).
  assert (SA : forall ch fw c uw b x, s_params P tl ch fw c uw b x -> s_params False tl ch fw c uw b x).
  { intros ch fw c uw b x X. induction X; try contradiction; eauto using s_params. }
  assert (SX : forall ch u p g b x, s_parse P tl ch u p g b x -> s_parse False tl ch u p g b x).
  { intros ch u p g b x X. inversion X; subst; try contradiction. eapply sx_params; eauto. }
  assert (SR : forall i x, s_reset P i x -> s_reset False i x) by (intros i x X; inversion X; subst; try contradiction; constructor).
  assert (SL : forall ch u i l x, s_calls P tl ends ch u i l x -> s_calls False tl ends ch u i l x).
  { intros ch u i l x X. induction X; eauto using s_calls. }
  assert (SV : forall me u ch x, s_serve P tl ends table dflt me u a ch x -> s_serve False tl ends table dflt me u a ch x).
  { intros me u ch x X. inversion X; subst; eauto using s_serve. }
  induction H; eauto using s_requests.
Qed.

(** C103. When every allocation has memory and every endpoint has a method and a callback, no request crashes; a call
    for which ulfius_parse_url does not answer U_OK loses three blocks, and nothing else is lost. *)
Theorem C103_memory_partial : forall order tl ends table dflt max answers ops cs0 s i j p q f init reqs,
  sorts order -> 6 <= max -> Forall (mop_ok max) ops -> mrun (start answers) ops = Ret (cs0, s) ->
  nth_error (p_maps s) i = Some (p, f) -> nth_error (p_maps s) j = Some (q, init) -> i <> j ->
  Forall (ask_ok max) reqs -> 3 * max + zlen ops + 6 < two64 ->
  ~ In false (m_new (p_mem s)) -> (forall l, table = Some l -> Forall callable l) ->
  exists cs m f' gone, x_requests order tl ends (p_mem s) table dflt f init reqs = Ret (cs, (m, f')) /\
    length gone = (3 * failed (concat cs))%nat /\ NoDup (used s i p f' ++ gone) /\ (forall x, In x (h_live (m_heap m)) <-> In x (used s i p f' ++ gone)).
Proof.
  intros order tl ends table dflt max answers ops cs0 s i j p q f init reqs HS M6 FO R Ni Nj IJ FQ LT NF FC.
  destruct (requests_exact order tl ends table dflt max answers ops cs0 s i j p q f init reqs HS M6 FO R Ni Nj IJ FQ LT) as (a & r & _ & Sr & RR).
  apply (no_false_mono _ _ _ _ _ _ _ _ NF) in Sr.
  destruct (requests_mem _ _ _ _ _ _ _ Sr FC) as (cs & n & -> & Hn & _). destruct RR as (m & f' & gone & E & Ln & N1 & _ & L).
  exists cs, m, f', gone. split; [exact E|]. split; [congruence|]. auto.
Qed.
Print Assumptions C103_memory_partial.

(** C103. ... and when no parameter of an endpoint is without a name, nothing is lost at all. *)
Theorem C103_named_partial : forall order tl ends table dflt max answers ops cs0 s i j p q f init reqs,
  sorts order -> 6 <= max -> Forall (mop_ok max) ops -> mrun (start answers) ops = Ret (cs0, s) ->
  nth_error (p_maps s) i = Some (p, f) -> nth_error (p_maps s) j = Some (q, init) -> i <> j ->
  Forall (ask_ok max) reqs -> 3 * max + zlen ops + 6 < two64 ->
  ~ In false (m_new (p_mem s)) -> (forall l, table = Some l -> Forall callable l) ->
  (forall l, table = Some l -> Forall with_names l) -> (forall d, dflt = Some d -> with_names d) ->
  exists cs m f', x_requests order tl ends (p_mem s) table dflt f init reqs = Ret (cs, (m, f')) /\
    Forall (Forall (fun c => snd (fst c) = U_OK)) cs /\ NoDup (used s i p f') /\ (forall x, In x (h_live (m_heap m)) <-> In x (used s i p f')).
Proof.
  intros order tl ends table dflt max answers ops cs0 s i j p q f init reqs HS M6 FO R Ni Nj IJ FQ LT NF FC WT WD.
  destruct (requests_exact order tl ends table dflt max answers ops cs0 s i j p q f init reqs HS M6 FO R Ni Nj IJ FQ LT) as (a & r & _ & Sr & RR).
  apply (no_false_mono _ _ _ _ _ _ _ _ NF) in Sr.
  destruct (requests_mem _ _ _ _ _ _ _ Sr FC) as (cs & n & -> & Hn & W). specialize (W WT WD). rewrite W in Hn. destruct RR as (m & f' & gone & E & Ln & N1 & _ & L).
  destruct gone; [|cbn [length] in Ln; lia]. rewrite app_nil_r in *.
  exists cs, m, f'. split; [exact E|]. split; [|auto]. apply Forall_forall. intros c C. apply Forall_forall. intros d D.
  destruct (snd (fst d) =? U_OK) eqn:Ed; [now apply Z.eqb_eq|]. exfalso. unfold failed in W. apply length_zero_iff_nil in W.
  assert (X : In d (filter (fun c => negb (snd (fst c) =? U_OK)) (concat cs))). { apply filter_In. split; [|now rewrite Ed]. apply in_concat. eauto. }
  rewrite W in X. destruct X.
Qed.
Print Assumptions C103_named_partial.

(** ** examples *)
(** qsort, in the examples: insertion *)
Fixpoint insert (x : nat * rep) (l : list (nat * rep)) : list (nat * rep) :=
  match l with [] => [x] | y :: r => if r_prio (snd x) <=? r_prio (snd y) then x :: l else y :: insert x r end.
Definition isort (l : list (nat * rep)) : list (nat * rep) := fold_right insert [] l.
Lemma insert_perm : forall x l, Permutation (x :: l) (insert x l).
Proof. intros x. induction l as [|y l IH]; cbn [insert]; [auto|]. destruct (_ <=? _); auto. eapply perm_trans; [apply perm_swap|]. constructor. exact IH. Qed.
Example isort_sorts : sorts isort.
Proof.
  intros l. induction l as [|x l [P S]]; cbn [isort fold_right]; [split; constructor|]. fold (isort l). split.
  - eapply perm_trans; [constructor; exact P|apply insert_perm].
  - clear P. induction S as [|y r S IH F]; cbn [insert]; [repeat constructor|]. destruct (r_prio (snd x) <=? r_prio (snd y)) eqn:E.
    + apply Z.leb_le in E. constructor; [now constructor|]. constructor; [exact E|]. eapply Forall_impl; [|exact F]. intros z H. cbn beta in *. lia.
    + apply Z.leb_gt in E. constructor; [exact IH|]. eapply Permutation_Forall; [apply insert_perm|]. constructor; [lia|exact F].
Qed.

Definition ep (pr fo : option str) (prio : Z) (cb : Z) : endpoint := mk_ep (Some (bs "GET")) pr fo prio (Some cb) 0.
(** two maps: the one of the url and one with a value *)
Definition C103_ops : list mop := [New; New; Put 1 (bs "v") (Some (bs "1"))].
Definition C103_state (answers : list bool) : prog := match mrun (start (repeat true 10 ++ answers)) C103_ops with Ret (_, s) => s | UB _ => start [] end.
Definition C103_maps (s : prog) (i : nat) : fmap := match nth_error (p_maps s) i with Some (_, f) => f | None => mk_fmap None None None 0 end.
Definition lower (c : Z) : Z := if (65 <=? c) && (c <=? 90) then c + 32 else c.
(** the callback numbered 9 ends the request *)
Definition C103_run (answers grow : list bool) (table : option (list endpoint)) (dflt : option endpoint) (reqs : list ask) : outcome (list (list call) * Z) :=
  let s := C103_state answers in
  do x <- x_requests isort lower (fun cb _ => cb =? 9) (mk_mem (m_heap (p_mem s)) (m_new (p_mem s)) grow) table dflt (C103_maps s 0) (C103_maps s 1) reqs;
  Ret (fst x, zlen (h_live (m_heap (fst (snd x)))) - zlen (flat_map map_blocks (set_nth (p_maps s) 0 (match nth_error (p_maps s) 0 with Some (p, _) => p | None => 0%nat end, snd (snd x))))).

Definition C103_table : list endpoint :=
  [ep (Some (bs "/api")) (Some (bs "/:id/@id")) 2 1; ep (Some (bs "/api")) (Some (bs "/*")) 1 2; ep None (Some (bs "/x")) 0 9; empty_endpoint].
Definition get (url : string) : ask := mk_ask (bs "GET") (bs url) true.
Example C103_ex : C103_run [] [] (Some C103_table) (Some (ep None None 0 5)) [get "/api/a/b%20c"; get "/x"; get "/none"] =
  Ret ([[(2, 0, U_OK, Some [(bs "v", bs "1" ++ [0])]); (1, 0, U_OK, Some [(bs "v", bs "1" ++ [0]); (bs "id", bs "a,b c" ++ [0])])];
        [(9, 0, U_OK, Some [(bs "v", bs "1" ++ [0])])]; [(5, 0, U_OK, Some [(bs "v", bs "1" ++ [0])])]], 0).
Proof. vm_compute. reflexivity. Qed.
(** the hypotheses of the theorems hold of this example *)
Example C103_ex_hyps : mrun (start (repeat true 10)) C103_ops = Ret ([U_OK; U_OK; U_OK], C103_state []) /\ Forall (mop_ok 100) C103_ops /\
  ~ In false (m_new (p_mem (C103_state []))) /\ Forall (ask_ok 100) [get "/api/a/b%20c"; get "/x"] /\ Forall with_names C103_table /\
  Forall callable C103_table.
Proof.
  split; [vm_compute; reflexivity|]. split; [repeat constructor; vm_compute; try (intuition discriminate)|].
  split; [vm_compute; intuition discriminate|]. split; [repeat constructor; vm_compute; intuition discriminate|].
  split; [unfold C103_table; repeat constructor; try discriminate|].
  unfold C103_table. constructor; [left; split; discriminate|]. constructor; [left; split; discriminate|]. constructor; [left; split; discriminate|].
  constructor; [right; reflexivity|constructor].
Qed.

(** ** what is not true *)
Definition nameless : endpoint := ep None (Some (bs "/:")) 0 1.
Definition nameless_table : list endpoint := [nameless; empty_endpoint].
Lemma split_words : forall p u x, s_split False p u x -> x = Ret (Some (owords p ++ filter (fun w => negb (starts_with 63 w)) (owords u))).
Proof. intros p u x H. inversion H as [a b [->|[[] _]] [->|[[] _]]| | |]; subst; try contradiction. reflexivity. Qed.
Definition C103_init : amap := [(bs "v", bs "1" ++ [0])].
Lemma nameless_serve : forall ends r, s_serve False lower ends (Some nameless_table) None (bs "GET") (bs "/a") C103_init true r -> exists cs, r = Ret (cs, 3%nat).
Proof.
  intros ends r H.
  assert (FND : forall x, s_found False (bs "GET") [bs "a"] nameless_table x -> x = Ret [Some nameless]).
  { intros x X. inversion X as [|? ? E|? ? ? E M|? ? ? E M|? ? ? E M S|? ? ? E M S|? ? fw ? E M S F|? ? fw e' y E M S F SC Y|? ? ? ? E M S F B]; subst; try discriminate; try contradiction;
      apply split_words in S; try discriminate.
    - injection S as ->. vm_compute in F. discriminate.
    - apply s_copy_mem in SC. subst e'. inversion Y as [|? ? E2|? ? ? E2|? ? ? E2|? ? ? E2|? ? ? E2|? ? ? ? E2|? ? ? ? ? E2|? ? ? ? E2]; subst; try (vm_compute in E2; discriminate). reflexivity. }
  assert (MT : forall x, s_match False (Some nameless_table) (bs "GET") (bs "/a") x -> x = Ret (Some [nameless])).
  { intros x X. inversion X as [|E|l k E S|l E S|l uw k E S F|l uw y E S F L|l uw y E S F L N|l uw y z E S F L P ST]; subst; try contradiction; try discriminate;
      injection E as <-; apply split_words in S; try discriminate; injection S as ->; apply FND in F; try discriminate.
    - injection F as ->. reflexivity.
    - injection F as ->. cbn [length] in L. lia.
    - injection F as F. destruct y as [|? [|? ?]]; cbn [map length] in *; try discriminate; lia. }
  assert (PS : forall y, s_parse False lower true (bs "/a") None (Some (bs "/:")) (Some (a_copy_into C103_init [])) y -> exists b, y = Ret (U_ERROR_MEMORY, (b, 3%nat))).
  { intros y P. inversion P as [|? ? ? ? ? ? ? []|p c cur uw ? CP W SK SP]; subst; [contradiction|]. apply copied_mem in CP. subst p. inversion SK; subst.
    change (hd_error (words (bs "/a"))) with (Some (bs "a")) in W. inversion W as [|? raw U|? []]; subst. vm_compute in U. injection U as <-.
    change (owords (Some (bs "/:"))) with [[58]] in SP. change (List.tl (words (bs "/a"))) with (@nil str) in SP.
    inversion SP as [| |? ? ? ? ? ? ? T|? ? ? ? T|? ? ? ? ? ? ? T N K|? ? ? ? ? T|? ? ? ? ? T N []|? ? ? ? ? old ? ? T I1|? ? ? ? ? T I1 []|? ? ? ? ? T I1 []]; subst; try contradiction; try (vm_compute in T; discriminate);
      try (exfalso; match goal with H : _ <> [] |- _ => apply H; reflexivity end); try (eexists; reflexivity).
    exfalso. match goal with I1 : In (_, old) _ |- _ => vm_compute in I1; destruct I1 as [I1|[]]; discriminate end. }
  inversion H as [k M|r0 M D|r0 l x M D C]; subst; apply MT in M; try discriminate; injection M as ->.
  - inversion D; subst; try discriminate.
  - assert (l = [nameless]) as ->. { inversion D as [| |? ? ? [X|X]|? ? [X|X]]; subst; try discriminate; auto. }
    inversion C as [|? ? ? R|? ? ? ? R P|? ? ? ? R P K|? ? ? ? ? ? ? R P K E|? ? ? ? ? ? ? ? R P K E Y]; subst; apply reset_mem in R; try discriminate; injection R as ->; cbn [nameless ep url_prefix url_format] in P;
      destruct (PS _ P) as (b' & X); try discriminate.
    + injection X as -> -> ->. eexists. reflexivity.
    + injection X as -> -> ->. inversion Y; subst. eexists. reflexivity.
Qed.
Lemma nameless_requests : forall ends n r, s_requests False lower ends (Some nameless_table) None C103_init (repeat (get "/a") n) r -> exists cs, r = Ret (cs, (3 * n)%nat).
Proof.
  intros ends. induction n as [|n IH]; intros r H; cbn [repeat] in H; inversion H as [|? ? ? S|? ? ? ? ? S Y]; subst.
  - eexists. reflexivity.
  - destruct (nameless_serve _ _ S) as (? & X). discriminate.
  - destruct (nameless_serve _ _ S) as (? & X). injection X as -> ->. destruct (IH _ Y) as (cs2 & ->). unfold bind. cbn [fst snd]. eexists. f_equal. f_equal. lia.
Qed.

(** Refuted with memory: an endpoint with a parameter without a name (a word ":" or "@" of its format, which
    ulfius_add_endpoint accepts): u_map_put refuses the empty name, ulfius_parse_url returns U_ERROR_MEMORY without
    releasing the copies of the url and of the format nor the word (u_request.c:239-242), and ulfius_webservice_dispatcher
    logs the error and calls the callback. Every request loses three blocks, for any number of requests. *)
Theorem C103_nameless_refuted : forall n, exists cs, C103_run [] [] (Some nameless_table) None (repeat (get "/a") n) = Ret (cs, 3 * Z.of_nat n).
Proof.
  intros n.
  destruct (requests_exact isort lower (fun cb _ => cb =? 9) (Some nameless_table) None 100 (repeat true 10) C103_ops [U_OK; U_OK; U_OK] (C103_state [])
    0 1 (match nth_error (p_maps (C103_state [])) 0 with Some (p, _) => p | None => 0%nat end) (match nth_error (p_maps (C103_state [])) 1 with Some (p, _) => p | None => 0%nat end)
    (C103_maps (C103_state []) 0) (C103_maps (C103_state []) 1) (repeat (get "/a") n)) as (a & r & RA & Sr & R).
  - apply isort_sorts.
  - lia.
  - apply C103_ex_hyps.
  - apply C103_ex_hyps.
  - vm_compute. reflexivity.
  - vm_compute. reflexivity.
  - discriminate.
  - apply Forall_forall. intros x X. apply repeat_spec in X. subst x. split; [|vm_compute; discriminate]. repeat constructor; vm_compute; intuition discriminate.
  - vm_compute. reflexivity.
  - assert (a = C103_init) as ->. { vm_compute in RA. injection RA as <-. reflexivity. }
    apply no_false_mono in Sr; [|apply C103_ex_hyps]. destruct (nameless_requests _ _ _ Sr) as (cs & ->).
    destruct R as (m & f' & gone & E & Ln & ND & NL & LI). exists cs. unfold C103_run. cbv zeta.
    assert (M0 : mk_mem (m_heap (p_mem (C103_state []))) (m_new (p_mem (C103_state []))) [] = p_mem (C103_state [])) by (vm_compute; reflexivity).
    rewrite M0, E. unfold bind. cbn [fst snd]. f_equal. f_equal.
    assert (P : Permutation (h_live (m_heap m)) (used (C103_state []) 0 (match nth_error (p_maps (C103_state [])) 0 with Some (p, _) => p | None => 0%nat end) f' ++ gone)) by (apply NoDup_Permutation; auto).
    apply Permutation_length in P. rewrite app_length in P. unfold used in P. unfold zlen. lia.
Qed.
Print Assumptions C103_nameless_refuted.

(** Refuted without memory for the copy of the path, or of the format after a prefix: ulfius_split_url calls strtok_r on
    the NULL that o_strdup returned, which goes on from its saved pointer: NULL, or, after a prefix was cut, the
    released memory of the prefix (u_request.c:49-50, 66, 70-71). *)
Theorem C103_text_refuted :
  C103_run [true; true; false] [] (Some C103_table) None [get "/api/a/b"] = UB NullDeref /\
  C103_run (repeat true 9 ++ [false]) [] (Some C103_table) None [get "/api/a/b"] = UB UseAfterFree.
Proof. split; vm_compute; reflexivity. Qed.
Print Assumptions C103_text_refuted.

(** Refuted without memory for the copy of the second endpoint that matches: its NULL stays in the array that is sorted
    by qsort, and compare_endpoint_priorities reads through it (u_request.c:160-170, 184, 101-104). *)
Theorem C103_sort_refuted : C103_run (repeat true 21 ++ [false]) [] (Some C103_table) None [get "/api/a/b"] = UB NullDeref.
Proof. vm_compute. reflexivity. Qed.
Print Assumptions C103_sort_refuted.

(** Refuted without memory for the array of ulfius_endpoint_match, when there is no default endpoint: the dispatcher
    reads the first element of NULL (u_request.c:141, ulfius.c:596-617). *)
Theorem C103_array_refuted : C103_run [false] [] (Some C103_table) None [get "/x"] = UB NullDeref.
Proof. vm_compute. reflexivity. Qed.
Print Assumptions C103_array_refuted.

(** Refuted without memory for a word of the path or of a format: ulfius_split_url stops, and the words it has are
    compared as if they were all (u_request.c:58-61, 79-82). The request "/x/y", which no endpoint is for, runs the
    endpoint "/x", or the endpoint "/api/:id/@id". *)
Theorem C103_word_refuted :
  C103_run [] [] (Some C103_table) None [get "/x/y"] = Ret ([[]], 0) /\
  C103_run (repeat true 4 ++ [false]) [] (Some C103_table) None [get "/x/y"] = Ret ([[(9, 0, U_OK, Some C103_init)]], 0) /\
  C103_run (repeat true 7 ++ [false]) [] (Some C103_table) None [get "/x/y"] = Ret ([[(1, 0, U_OK, Some (C103_init ++ [(bs "id", bs "y" ++ [0])]))]], 0).
Proof. repeat split; vm_compute; reflexivity. Qed.
Print Assumptions C103_word_refuted.

(** Refuted without memory for the copy of the prefix in ulfius_parse_url: the words of the prefix are not skipped and
    the parameters take them (u_request.c:202-214); U_OK is returned. For the prefix "/api" and the format "/:id", the
    request "/api/7" is run with id = "api". *)
Theorem C103_prefix_refuted :
  C103_run [] [] (Some [ep (Some (bs "/api")) (Some (bs "/:id")) 0 1; empty_endpoint]) None [get "/api/7"] =
    Ret ([[(1, 0, U_OK, Some (C103_init ++ [(bs "id", bs "7" ++ [0])]))]], 0) /\
  exists answers, C103_run answers [] (Some [ep (Some (bs "/api")) (Some (bs "/:id")) 0 1; empty_endpoint]) None [get "/api/7"] =
    Ret ([[(1, 0, U_OK, Some (C103_init ++ [(bs "id", bs "api" ++ [0])]))]], 0).
Proof. split; [vm_compute; reflexivity|]. exists (repeat true 20 ++ [false]). vm_compute. reflexivity. Qed.
Print Assumptions C103_prefix_refuted.

(** Refuted without memory for a word of the path in ulfius_url_decode: the loop of ulfius_parse_url takes the NULL for
    the end of the path; the parameters that follow are missing and U_OK is returned (u_request.c:246). *)
Theorem C103_decode_refuted : exists answers,
  C103_run answers [] (Some [ep (Some (bs "/api")) (Some (bs "/:id")) 0 1; empty_endpoint]) None [get "/api/7"] = Ret ([[(1, 0, U_OK, Some C103_init)]], 0).
Proof. exists (repeat true 21 ++ [false]). vm_compute. reflexivity. Qed.
Print Assumptions C103_decode_refuted.

(** Refuted without memory for the copy of the format in ulfius_parse_url: the copy of the path and the word are lost
    (u_request.c:217-220), and the callback is still called. *)
Theorem C103_format_refuted :
  C103_run (repeat true 28 ++ [false]) [] (Some C103_table) None [get "/x"] = Ret ([[(9, 0, U_ERROR_MEMORY, Some C103_init)]], 2).
Proof. vm_compute. reflexivity. Qed.
Print Assumptions C103_format_refuted.

(** Refuted without memory for o_realloc: the array it could not grow is lost with its words or endpoints
    (u_request.c:52-56, 73-77, 158), and after a prefix whose array could not grow, the words of the format are
    written after the lost ones, in a new array whose first elements were never written: ulfius_url_format_match
    reads them. *)
Theorem C103_grow_refuted :
  C103_run [] [false] (Some C103_table) None [get "/x"] = Ret ([[]], 1) /\
  C103_run [] (repeat true 5 ++ [false]) (Some C103_table) None [get "/api/a/b"] = Ret ([[(2, 0, U_OK, Some C103_init)]], 3) /\
  exists grow, C103_run [] grow (Some [ep (Some (bs "/api/v1")) (Some (bs "/:id")) 0 1; empty_endpoint]) None [get "/api/v1/7"] = UB Uninit.
Proof. split; [vm_compute; reflexivity|]. split; [vm_compute; reflexivity|]. exists (repeat true 4 ++ [false]). vm_compute. reflexivity. Qed.
Print Assumptions C103_grow_refuted.

(** Refuted without memory for the map of the path: u_map_empty leaves no arrays, and u_map_copy_into writes the initial
    value through NULL (ulfius.c:638-639). *)
Theorem C103_map_refuted : exists answers, C103_run answers [] (Some C103_table) None [get "/x"] = UB NullDeref /\
  C103_run (firstn 22 answers) [] (Some C103_table) None [get "/x"] = Ret ([[(9, 0, U_OK, Some C103_init)]], 0).
Proof. exists (repeat true 22 ++ [false]). split; vm_compute; reflexivity. Qed.
Print Assumptions C103_map_refuted.
