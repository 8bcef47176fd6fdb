(** C136: the example of endpoints that come and go. *)
From Coq Require Import String ZArith Bool List Lia Sorted Permutation.
From Verif Require Import Base BaseFacts UMapModel SMap RouterModel RouterSpec RouterProofs EndpointProofs DispatchModel DispatchSpec DispatchProofs DoorModel.
From Verif Require Import RouterProps LevelSpec LevelProofs LevelProps.
From Verif Require Import InjectModel.
Import ListNotations.
Open Scope Z_scope.

(** the pages that README.md promises, after enter was pressed so many times *)
Definition promised (presses : nat) : list string :=
  match presses with
  | O => ["first"; "second"; "third"]%string
  | 1%nat => ["first"; "second"; "third"; "fourth"]%string
  | 2%nat => ["first"; "second"; "third"; "fourth"; "fifth"]%string
  | _ => ["first"; "second"; "third"; "fifth"]%string
  end.
Definition page (name : string) : answer := Queue 200 (mk_mhd (CBuffer (bs "Hello World from callback_" ++ bs name ++ bs "!")) []).
Definition no_page : answer := Queue 404 (mk_mhd (CBuffer (bs "Resource not found")) []).

Definition all_names : list (string * Z) := [("first", 1); ("second", 2); ("third", 3); ("fourth", 4); ("fifth", 5)]%string.
Definition ep_of (x : string * Z) : endpoint := inject_ep ("/" ++ fst x) (snd x).
Definition there (presses : nat) : list (string * Z) := filter (fun x => existsb (String.eqb (fst x)) (promised presses)) all_names.

Lemma table_there : forall prio ud presses, exists u, inject_table prio ud presses = Ret u /\ table_ok u (map ep_of (there presses)).
Proof.
  intros prio ud presses. destruct presses as [|[|[|k]]].
  1-3: eexists; (split; [vm_compute; reflexivity|]); (split; [repeat constructor; discriminate|split; [reflexivity|vm_compute; reflexivity]]).
  assert (E : inject_table prio ud (S (S (S k))) = inject_table prio ud 3) by (destruct k; reflexivity). rewrite E. change (there (S (S (S k)))) with (there 3).
  eexists; (split; [vm_compute; reflexivity|]); (split; [repeat constructor; discriminate|split; [reflexivity|vm_compute; reflexivity]]).
Qed.
Lemma sel_there : forall verb url x, In x all_names -> sel verb url (ep_of x) = str_caseeqb (bs "GET") verb && exactly [bs "inject"; bs (fst x)] (words url).
Proof.
  intros verb url x I. assert (E : split_url (url_prefix (ep_of x)) (url_format (ep_of x)) = [bs "inject"; bs (fst x)] /\ forallb literal [bs "inject"; bs (fst x)] = true) by (repeat (destruct I as [<-|I]; [split; vm_compute; reflexivity|]); destruct I).
  destruct E as [E L]. unfold sel. rewrite E, (exact_match _ _ L). change (http_method (ep_of x)) with (Some (bs "GET")). cbv iota. change (starts_with 42 (bs "GET")) with false. now rewrite orb_false_r.
Qed.
Lemma there_all : forall presses x, In x (there presses) -> In x all_names.
Proof. intros presses x I. apply filter_In in I. apply I. Qed.
Lemma there_names : forall presses, map fst (there presses) = promised presses.
Proof. intros [|[|[|k]]]; reflexivity. Qed.
Lemma exactly_two : forall a b ws, exactly [a; b] ws = true <-> ws = [a; b].
Proof.
  intros a b ws. split; [|intros ->; cbn [exactly]; now rewrite !str_eqb_refl]. destruct ws as [|x [|y [|z ws]]]; cbn [exactly]; try discriminate; try (rewrite !andb_false_r; discriminate).
  rewrite andb_true_r. intros H. apply andb_prop in H as [H1 H2]. apply str_eqb_eq in H1, H2. now subst.
Qed.
Lemma bs_inj : forall a b, In a (map fst all_names) -> In b (map fst all_names) -> bs a = bs b -> a = b.
Proof. intros a b IA IB E. cbn in IA, IB. repeat (destruct IA as [<-|IA]; [repeat (destruct IB as [<-|IB]; [try reflexivity; discriminate E|]); destruct IB|]). destruct IA. Qed.

(** the one endpoint for a name *)
Lemma filter_one : forall verb url l x, (forall y, In y l -> In y all_names) -> NoDup (map fst l) -> In x l -> str_caseeqb (bs "GET") verb = true -> words url = [bs "inject"; bs (fst x)] ->
  filter (sel verb url) (map ep_of l) = [ep_of x].
Proof.
  intros verb url l x. induction l as [|y l IH]; intros A N I G W; [destruct I|]. cbn [map filter]. rewrite (sel_there verb url y (A y (or_introl eq_refl))), G, W. cbn [map] in N. inversion N as [|? ? NI N']; subst.
  assert (NONE : forall l', (forall z, In z l' -> In z all_names) -> ~ In (fst x) (map fst l') -> filter (sel verb url) (map ep_of l') = []).
  { induction l' as [|z l' IH']; intros A' X; [reflexivity|]. cbn [map filter]. rewrite (sel_there verb url z (A' z (or_introl eq_refl))), G, W. destruct (exactly [bs "inject"; bs (fst z)] [bs "inject"; bs (fst x)]) eqn:E.
    - exfalso. apply exactly_two in E. injection E as E. apply X. left. apply bs_inj; [apply in_map, A'; now left|apply in_map, A; exact I|]. symmetry. now apply E.
    - cbn [andb]. apply IH'; [intros z' Z'; apply A'; now right|intros Z'; apply X; now right]. }
  destruct I as [<-|I].
  - rewrite (proj2 (exactly_two _ _ _) eq_refl). cbn [andb]. f_equal. apply NONE; [intros z Z'; apply A; now right|exact NI].
  - destruct (exactly [bs "inject"; bs (fst y)] [bs "inject"; bs (fst x)]) eqn:E.
    + exfalso. apply exactly_two in E. injection E as E. apply NI. assert (F : fst y = fst x) by (apply bs_inj; [apply in_map, A; now left|apply in_map, A; now right|symmetry; exact E]). rewrite F. now apply in_map.
    + cbn [andb]. apply IH; auto. intros z Z'. apply A. now right.
Qed.
Lemma filter_none : forall verb url l, (forall y, In y l -> In y all_names) -> (str_caseeqb (bs "GET") verb = true -> forall y, In y l -> words url <> [bs "inject"; bs (fst y)]) ->
  filter (sel verb url) (map ep_of l) = [].
Proof.
  intros verb url l. induction l as [|y l IH]; intros A H; [reflexivity|]. cbn [map filter]. rewrite (sel_there verb url y (A y (or_introl eq_refl))). destruct (str_caseeqb (bs "GET") verb) eqn:G; cbn [andb].
  - destruct (exactly [bs "inject"; bs (fst y)] (words url)) eqn:E; [exfalso; apply exactly_two in E; apply (H eq_refl y (or_introl eq_refl) E)|]. apply IH; [intros z Z'; apply A; now right|intros _ z Z'; apply H; [reflexivity|now right]].
  - apply IH; [intros z Z'; apply A; now right|intros X; discriminate X].
Qed.
Lemma text_ok : forall x ud pos m r w, In x all_names -> inject_cb (snd x) ud pos m r w = (U_CALLBACK_CONTINUE, string_body r 200 (bs "Hello World from callback_" ++ bs (fst x) ++ bs "!"), tt).
Proof. intros x ud pos m r w I. repeat (destruct I as [<-|I]; [reflexivity|]). destruct I. Qed.
Lemma sorts_one : forall qsort e, sorts qsort -> qsort [e] = [e].
Proof. intros qsort e Q. destruct (Q [e]) as [P _]. now apply Permutation_length_1_inv in P. Qed.
Lemma sorts_nil : forall qsort, sorts qsort -> qsort [] = [].
Proof. intros qsort Q. destruct (Q []) as [P _]. now apply Permutation_nil in P. Qed.

(** C136. Whatever the path looks like otherwise (slashes before, between and after the words), a page that README.md promises after so many presses of enter is answered: once, with status 200 and the text of
    its own callback and no other, and its callback alone is called. For all requests, all orders qsort may give, whatever the uninitialised fields of the endpoint to remove hold. *)
Theorem C136_page : forall prio ud presses verb tl qsort accepts handshake url initial map_url name,
  request_ok url initial -> sorts qsort -> is_get verb -> In name (promised presses) -> segs url [bs "inject"; bs name] ->
  exists res, inject prio ud presses verb tl qsort accepts handshake url initial map_url = Ret res /\
    answers res = [page name] /\ extra res = [] /\ map (fun ev => url_format (ev_ep ev)) (calls res) = [Some (bs ("/" ++ name))].
Proof.
  intros prio ud presses verb tl qsort accepts handshake url initial map_url name RQ QS G IN SG. apply segs_words in SG. apply is_get_eq in G.
  rewrite <- there_names in IN. apply in_map_iff in IN as (x & <- & IX). destruct (table_there prio ud presses) as (u & EU & T). unfold inject. rewrite EU. cbn [bind]. unfold dispatch.
  rewrite (match_table qsort u _ verb url T). cbn [bind]. rewrite (filter_one verb url (there presses) x (there_all presses)); [|rewrite there_names; destruct presses as [|[|[|k]]]; repeat constructor; cbn; intuition discriminate|exact IX|exact G|now symmetry].
  rewrite (sorts_one qsort _ QS). cbv zeta iota. assert (F : first_response None = Ret (mk_resp 200 u_map_init [] [] None None None)) by reflexivity. rewrite F. cbn [bind]. clear F.
  destruct (prepare_total tl true map_url initial url (ep_of x) RQ) as (p & E). cbn [callback_loop s_map]. rewrite E. cbn [bind]. unfold run_callback. change (callback (ep_of x)) with (Some (snd x)). cbv iota. cbn [s_pos s_resp s_world].
  rewrite (text_ok x _ _ _ _ _ (there_all _ _ IX)). cbn [bind s_resp string_body r_stream r_ws]. change (U_CALLBACK_CONTINUE =? U_CALLBACK_CONTINUE) with true.
  eexists. split; [reflexivity|]. split; [reflexivity|]. split; [reflexivity|]. reflexivity.
Qed.

(** C136. Everything else is answered 404 and calls nothing: another method, another path, a page that is not there yet, and the page that has been removed. *)
Theorem C136_no_page : forall prio ud presses verb tl qsort accepts handshake url initial map_url,
  sorts qsort -> (is_get verb -> forall name, In name (promised presses) -> ~ segs url [bs "inject"; bs name]) ->
  inject prio ud presses verb tl qsort accepts handshake url initial map_url = Ret (mk_result [no_page] [] []).
Proof.
  intros prio ud presses verb tl qsort accepts handshake url initial map_url QS H. destruct (table_there prio ud presses) as (u & EU & T). unfold inject. rewrite EU. cbn [bind]. unfold dispatch.
  rewrite (match_table qsort u _ verb url T). cbn [bind]. rewrite (filter_none verb url (there presses) (there_all presses)).
  - rewrite (sorts_nil qsort QS). reflexivity.
  - intros G y IY W. apply (H ltac:(unfold is_get; unfold str_caseeqb in G; apply str_eqb_eq in G; rewrite <- G; reflexivity) (fst y)); [rewrite <- there_names; now apply in_map|]. rewrite <- W. apply words_segs.
Qed.

(** a page before, while and after it is there *)
Example C136_ex : map (fun presses => do r <- inject 7 8 presses (bs "get") (fun b => b) isort (fun _ _ => true) (fun _ => inr (0, [])) (bs "//inject/fourth/") u_map_init u_map_init; Ret (answers r)) [0; 1; 2; 3]%nat =
  [Ret [no_page]; Ret [page "fourth"]; Ret [page "fourth"]; Ret [no_page]].
Proof. vm_compute. reflexivity. Qed.

(** the hypotheses hold for it *)
Example C136_hyps : sorts isort /\ request_ok (bs "//inject/fourth/") u_map_init /\ is_get (bs "get") /\ In "fourth"%string (promised 2) /\ segs (bs "//inject/fourth/") [bs "inject"; bs "fourth"] /\
  (forall name, In name (promised 3) -> ~ segs (bs "//inject/fourth/") [bs "inject"; bs name]).
Proof.
  split; [apply isort_sorts|].   split; [split; [repeat constructor; discriminate|exists []; split; [apply repr_init|split; [constructor|reflexivity]]]|].
  split; [reflexivity|]. split; [cbn; auto|]. split; [change [bs "inject"; bs "fourth"] with (words (bs "//inject/fourth/")); apply words_segs|].
  intros name I H. apply segs_words in H. repeat (destruct I as [<-|I]; [discriminate H|]). destruct I.
Qed.

Print Assumptions C136_page.
Print Assumptions C136_no_page.
