(** Proofs about uwsc (C116, C117). *)
From Coq Require Import String ZArith Bool List Lia.
From Verif Require Import Base BaseFacts ExportModel.
From Verif Require Import UwscModel UwscSpec.
Import ListNotations.
Open Scope Z_scope.

(** ** options *)
Lemma cut_at : forall c k v, ~ In c k -> cut c (k ++ c :: v) = (k, Some v).
Proof.
  intros c k. induction k as [|x k IH]; intros v N; cbn [app cut]; [now rewrite Z.eqb_refl|]. replace (x =? c) with false; [|symmetry; apply Z.eqb_neq; intros ->; apply N; now left].
  rewrite IH; [reflexivity|]. intros I. apply N. now right.
Qed.
Lemma cut_none : forall c s a, cut c s = (a, None) -> a = s.
Proof. intros c. induction s as [|x s IH]; intros a E; cbn [cut] in E; [now injection E as <-|]. destruct (x =? c); [discriminate|]. destruct (cut c s) as [p q]. injection E as <- ->. now rewrite (IH p). Qed.
Lemma cut_missing : forall c s, ~ In c s -> cut c s = (s, None).
Proof. intros c. induction s as [|x s IH]; intros N; cbn [cut]; [reflexivity|]. replace (x =? c) with false; [|symmetry; apply Z.eqb_neq; intros ->; apply N; now left]. rewrite IH; [reflexivity|]. intros I. apply N. now right. Qed.

Definition opt_of (i : item) : opt :=
  match i with
  | OLog v => Opt 111 (Some v) | OHeader k v => Opt 120 (Some (k ++ [58] ++ v)) | OBinary v => Opt 98 (Some v) | OText v => Opt 116 (Some v) | ONonInteractive => Opt 105 None
  | ONonListening => Opt 108 None | OFragmentation v => Opt 102 (Some v) | OProtocol v => Opt 112 (Some v) | OExtensions v => Opt 101 (Some v) | ONonSecure => Opt 115 None | OQuiet => Opt 113 None
  end.
Lemma word_opt : forall i ws, spelled i ws -> forall r, getopt (ws ++ r) = (opt_of i :: fst (getopt r), snd (getopt r)).
Proof.
  intros i ws S r. destruct (getopt r) as [l p] eqn:E. cbn [fst snd].
  inversion S; subst;
  match goal with W : _ _ _ _ _ |- _ => inversion W; subst | W : _ _ _ _ |- _ => inversion W; subst | _ => idtac end.
  all: try (cbn; rewrite E; reflexivity).
  all: try congruence.
  all: match goal with N : ?x <> [] |- _ => let a := fresh in let u := fresh in destruct x as [|a u] eqn:EX; [congruence|] end.
  all: cbn [app] in *; try rewrite EX; cbn; rewrite E; try reflexivity.
  all: cbn [opt_of]; rewrite <- EX; reflexivity.
Qed.
Lemma plain_is : forall w, plain_word w -> word_of w = Plain.
Proof. intros [|d [|e r]] P; try reflexivity. cbn [word_of]. destruct (Z.eqb_spec d 45) as [->|]; [|reflexivity]. exfalso. apply P. eauto. Qed.
Lemma getopt_items : forall items ws, Forall2 spelled items ws -> forall r, getopt (concat ws ++ r) = (map opt_of items ++ fst (getopt r), snd (getopt r)).
Proof.
  induction 1 as [|i w items ws S F IH]; intros r; cbn [concat map app]; [now destruct (getopt r)|]. rewrite <- app_assoc, (word_opt _ _ S), IH. reflexivity.
Qed.
Lemma getopt_words : forall items1 items2 ws1 ws2 url, Forall2 spelled items1 ws1 -> Forall2 spelled items2 ws2 -> plain_word url ->
  getopt (concat ws1 ++ [url] ++ concat ws2) = (map opt_of (items1 ++ items2), [url]).
Proof.
  intros items1 items2 ws1 ws2 url F1 F2 P. rewrite (getopt_items _ _ F1). cbn [app getopt]. rewrite (plain_is _ P). pose proof (getopt_items _ _ F2 []) as G. rewrite app_nil_r in G. rewrite G. cbn [getopt fst snd].
  now rewrite app_nil_r, map_app.
Qed.
Lemma apply_app : forall a b c, apply_options c (a ++ b) = match apply_options c a with inl c1 => apply_options c1 b | inr n => inr n end.
Proof. induction a as [|o a IH]; intros b c; [reflexivity|]. cbn [app apply_options]. destruct (apply_option c o); [apply IH|reflexivity]. Qed.
Lemma lastly_app : forall A (f : item -> option A) items i, lastly f (items ++ [i]) = match f i with Some v => Some v | None => lastly f items end.
Proof. intros A f items i. unfold lastly. rewrite fold_left_app. reflexivity. Qed.
Lemma lastly_none : forall A (f : item -> option A) items, (forall i, In i items -> f i = None) -> lastly f items = None.
Proof. intros A f items. induction items as [|i items IH] using rev_ind; intros H; [reflexivity|]. rewrite lastly_app, (H i) by (apply in_or_app; right; now left). apply IH. intros j J. apply H. apply in_or_app. now left. Qed.
Lemma lastly_some : forall A (f : item -> option A) items i v, In i items -> f i = Some v -> exists w, lastly f items = Some w.
Proof.
  intros A f items. induction items as [|j items IH] using rev_ind; intros i v I F; [contradiction|]. rewrite lastly_app. destruct (f j) as [x|] eqn:E; [eauto|]. apply in_app_or in I as [I|[<-|[]]]; [eauto|congruence].
Qed.
Lemma asked_app : forall f items i, asked f (items ++ [i]) = asked f items || f i.
Proof. intros f items i. unfold asked. rewrite existsb_app. cbn [existsb]. now rewrite orb_false_r. Qed.
Lemma text_none : forall items, ~ sends_text items -> u_text (meant items) = None.
Proof. intros items N. cbn [meant u_text]. apply lastly_none. intros [] I; try reflexivity. exfalso. apply N. exists v. exact I. Qed.
Lemma bin_none : forall items, ~ sends_binary items -> u_bin (meant items) = None.
Proof. intros items N. cbn [meant u_bin]. apply lastly_none. intros [] I; try reflexivity. exfalso. apply N. exists v. exact I. Qed.
Lemma text_some : forall items, sends_text items -> exists v, u_text (meant items) = Some v.
Proof. intros items (v & I). cbn [meant u_text]. eapply lastly_some; [exact I|reflexivity]. Qed.
Lemma bin_some : forall items, sends_binary items -> exists v, u_bin (meant items) = Some v.
Proof. intros items (v & I). cbn [meant u_bin]. eapply lastly_some; [exact I|reflexivity]. Qed.
(** the headers among the items have keys without ':' *)
Definition keys_ok (items : list item) : Prop := forall k v, In (OHeader k v) items -> ~ In 58 k.
Lemma spelled_keys : forall items ws, Forall2 spelled items ws -> keys_ok items.
Proof. induction 1 as [|i w items ws S F IH]; intros k v I; [contradiction|]. destruct I as [->|I]; [now inversion S|]. eapply IH; eauto. Qed.
Lemma apply_one : forall items i, keys_ok (items ++ [i]) -> ~ (sends_binary (items ++ [i]) /\ sends_text (items ++ [i])) -> apply_option (meant items) (opt_of i) = inl (meant (items ++ [i])).
Proof.
  intros items i K N. unfold meant at 2. rewrite !lastly_app, !asked_app, flat_map_app.
  destruct i as [v|k v|v|v| | |v|v|v| |]; cbn [flat_map app opt_of]; rewrite ?app_nil_r, ?orb_false_r, ?orb_true_r; try reflexivity.
  - cbn [apply_option]. change (120 =? 111) with false. change (120 =? 120) with true. cbv iota. cbn [app]. rewrite cut_at; [reflexivity|]. apply (K k v). apply in_or_app. right. now left.
  - cbn [apply_option]. change (98 =? 111) with false. change (98 =? 120) with false. change (98 =? 98) with true. cbv iota. rewrite text_none; [reflexivity|].
    intros (x & T). apply N. split; [exists v|exists x]; apply in_or_app; [right; now left|now left].
  - cbn [apply_option]. change (116 =? 111) with false. change (116 =? 120) with false. change (116 =? 98) with false. change (116 =? 116) with true. cbv iota. rewrite bin_none; [reflexivity|].
    intros (x & T). apply N. split; [exists x|exists v]; apply in_or_app; [now left|right; now left].
Qed.
Lemma apply_items : forall items, keys_ok items -> ~ (sends_binary items /\ sends_text items) -> apply_options init_config (map opt_of items) = inl (meant items).
Proof.
  induction items as [|i items IH] using rev_ind; intros K N; [reflexivity|]. rewrite map_app, apply_app, IH; [cbn [map apply_options]; now rewrite apply_one| |].
  - intros k v I. apply (K k v). apply in_or_app. now left.
  - intros [(x & B) (y & T)]. apply N. split; [exists x|exists y]; apply in_or_app; now left.
Qed.
Lemma binary_dec : forall items, sends_binary items \/ ~ sends_binary items.
Proof.
  induction items as [|i items IH]; [right; intros (v & [])|]. destruct IH as [(v & I)|N]; [left; exists v; now right|]. destruct i; try (right; intros (x & [X|X]); [discriminate|apply N; now exists x]). left. eexists. now left.
Qed.
Lemma text_dec : forall items, sends_text items \/ ~ sends_text items.
Proof.
  induction items as [|i items IH]; [right; intros (v & [])|]. destruct IH as [(v & I)|N]; [left; exists v; now right|]. destruct i; try (right; intros (x & [X|X]); [discriminate|apply N; now exists x]). left. eexists. now left.
Qed.
Lemma apply_both : forall items, keys_ok items -> sends_binary items -> sends_text items -> apply_options init_config (map opt_of items) = inr 1.
Proof.
  induction items as [|i items IH] using rev_ind; intros K (x & B) (y & T); [contradiction|]. rewrite map_app, apply_app.
  assert (K' : keys_ok items) by (intros k v I; apply (K k v); apply in_or_app; now left).
  destruct (binary_dec items) as [SB|NB]; destruct (text_dec items) as [ST|NT].
  - now rewrite IH.
  - rewrite apply_items by tauto. apply in_app_or in T as [T|[->|[]]]; [exfalso; apply NT; now exists y|]. cbn [map opt_of apply_options apply_option]. change (116 =? 111) with false. change (116 =? 120) with false. change (116 =? 98) with false. change (116 =? 116) with true. cbv iota.
    destruct (bin_some _ SB) as (z & ->). reflexivity.
  - rewrite apply_items by tauto. apply in_app_or in B as [B|[->|[]]]; [exfalso; apply NB; now exists x|]. cbn [map opt_of apply_options apply_option]. change (98 =? 111) with false. change (98 =? 120) with false. change (98 =? 98) with true. cbv iota.
    destruct (text_some _ ST) as (z & ->). reflexivity.
  - apply in_app_or in B as [B|[->|[]]]; [exfalso; apply NB; now exists x|]. apply in_app_or in T as [T|[T|[]]]; [exfalso; apply NT; now exists y|discriminate].
Qed.

(** the certificate *)
Lemma check_kept : forall o c c', apply_option c o = inl c' -> u_check c = true -> u_check c' = true \/ exists a, o = Opt 115 a.
Proof.
  intros [k a|] c c' E H; cbn [apply_option] in E; [|injection E as <-; auto].
  repeat match type of E with
  | (if ?b then _ else _) = _ => destruct b eqn:?
  | match ?x with _ => _ end = _ => destruct x eqn:?
  | inr _ = inl _ => discriminate E
  | inl _ = inl _ => injection E as <-
  end; auto. right. exists a. f_equal. now apply Z.eqb_eq.
Qed.
Lemma checks_kept : forall l c c', apply_options c l = inl c' -> u_check c = true -> u_check c' = false -> exists a, In (Opt 115 a) l.
Proof.
  induction l as [|o l IH]; intros c c' E H N; cbn [apply_options] in E; [injection E as <-; congruence|]. destruct (apply_option c o) as [c1|] eqn:E1; [|discriminate].
  destruct (check_kept _ _ _ E1 H) as [H1|(a & ->)]; [destruct (IH _ _ E H1 N) as (a & I); exists a; now right|exists a; now left].
Qed.
Lemma cluster_in : forall cs c a, In (Opt c a) (fst (cluster cs)) -> In c cs.
Proof.
  induction cs as [|x r IH]; intros c a I; cbn [cluster] in I; [contradiction|]. destruct (cluster r) as [l p]. destruct (short_kind x) as [[| |]|].
  - destruct r; cbn in I; [contradiction|]. destruct I as [I|[]]. injection I as <- _. now left.
  - cbn in I. destruct I as [I|[]]. injection I as <- _. now left.
  - cbn in I. destruct I as [I|I]; [injection I as <- _; now left|]. right. eapply IH. exact I.
  - cbn in I. destruct I as [I|I]; [discriminate|]. right. eapply IH. exact I.
Qed.
Lemma cluster_needs : forall cs c, snd (cluster cs) = Some c -> short_kind c = Some Required.
Proof.
  induction cs as [|x r IH]; intros c E; cbn [cluster] in E; [discriminate|]. destruct (cluster r) as [l p]. destruct (short_kind x) as [[| |]|] eqn:K; cbn [snd] in *; try discriminate; try now apply IH.
  destruct r; cbn [snd] in E; [|discriminate]. now injection E as <-.
Qed.
Definition abbreviates (p : str) : Prop := exists q, p ++ q = bs "non-secure" /\ (5 <= length p)%nat.
Lemma prefix_rest : forall p s, prefixb p s = true -> exists q, p ++ q = s.
Proof. induction p as [|x p IH]; intros [|y s] E; cbn [prefixb] in E; try discriminate; [now exists []|now exists (y :: s)|]. apply andb_true_iff in E as [X E]. apply Z.eqb_eq in X as ->. destruct (IH _ E) as (q & <-). now exists q. Qed.
Lemma long_115 : forall name k, long_kind name = Some (k, 115) -> k = NoArgument /\ abbreviates name.
Proof.
  intros name k E. unfold long_kind in E. destruct (find (fun x => str_eqb (fst (fst x)) name) long_options) as [x|] eqn:F.
  - apply find_some in F as [I Q]. apply str_eqb_eq in Q. injection E as E1 E2.
    cbn in I. repeat (destruct I as [<-|I]; [cbn [fst snd] in *; first [discriminate E2|rewrite <- Q; split; [now rewrite <- E1|exists []; split; [reflexivity|vm_compute; lia]]]|]). contradiction.
  - destruct (filter (fun x => prefixb name (fst (fst x))) long_options) as [|x [|y l]] eqn:G; try discriminate. injection E as E1 E2.
    assert (I : In x (filter (fun x => prefixb name (fst (fst x))) long_options)) by (rewrite G; now left). apply filter_In in I as [I P].
    assert (X : x = (bs "non-secure", NoArgument, 115)) by (cbn in I; repeat (destruct I as [<-|I]; [try discriminate; reflexivity|]); contradiction).
    subst x. cbn [fst snd] in *. split; [now rewrite <- E1|]. apply prefix_rest in P as (q & P). exists q. split; [exact P|].
    change (bs "non-secure") with [110; 111; 110; 45; 115; 101; 99; 117; 114; 101] in P.
    destruct name as [|c1 name]; [exfalso; vm_compute in G; discriminate|]. cbn [app] in P. injection P as -> P.
    destruct name as [|c2 name]; [exfalso; vm_compute in G; discriminate|]. cbn [app] in P. injection P as -> P.
    destruct name as [|c3 name]; [exfalso; vm_compute in G; discriminate|]. cbn [app] in P. injection P as -> P.
    destruct name as [|c4 name]; [exfalso; vm_compute in G; discriminate|]. cbn [app] in P. injection P as -> P.
    destruct name as [|c5 name]; [exfalso; vm_compute in G; discriminate|]. cbn [length]. lia.
Qed.
Lemma long_in : forall r a, In (Opt 115 a) (fst (long r)) -> abbreviates r.
Proof.
  intros r a I. unfold long in I. destruct (cut 61 r) as [name v] eqn:C. destruct (long_kind name) as [[k c]|] eqn:K; [|cbn in I; destruct I as [I|[]]; discriminate].
  destruct k; destruct v as [v|]; cbn in I; try contradiction; destruct I as [I|[]]; try discriminate; injection I as -> _; destruct (long_115 _ _ K) as [K1 AB]; try discriminate K1. apply cut_none in C. now subst.
Qed.
Lemma long_needs : forall r, snd (long r) <> Some 115.
Proof.
  intros r E. unfold long in E. destruct (cut 61 r) as [name v]. destruct (long_kind name) as [[k c]|] eqn:K; [|discriminate]. destruct k; destruct v; try discriminate. cbn in E. injection E as ->. destruct (long_115 _ _ K). discriminate.
Qed.
Lemma word_115 : forall w l p, word_of w = Options l p -> (exists a, In (Opt 115 a) l) -> insecure_word w.
Proof.
  intros [|d [|e r]] l p E (a & I); try discriminate. cbn [word_of] in E. destruct (Z.eqb_spec d 45) as [->|]; [|discriminate]. destruct (Z.eqb_spec e 45) as [->|NE].
  - destruct r as [|x r]; [discriminate|]. pose proof (long_in (x :: r) a) as L. destruct (long (x :: r)) as [l0 p0]. injection E as -> ->. left. destruct (L I) as (q & Q & LE). exists (x :: r), q. auto.
  - pose proof (cluster_in (e :: r) 115 a) as L. destruct (cluster (e :: r)) as [l0 p0]. injection E as -> ->. right. exists e, r. auto.
Qed.
Lemma word_needs : forall w l, word_of w <> Options l (Some 115).
Proof.
  intros [|d [|e r]] l E; try discriminate. cbn [word_of] in E. destruct (Z.eqb_spec d 45) as [->|]; [|discriminate]. destruct (Z.eqb_spec e 45) as [->|NE].
  - destruct r as [|x r]; [discriminate|]. pose proof (long_needs (x :: r)) as L. destruct (long (x :: r)) as [l0 p0]. injection E as -> ->. now apply L.
  - pose proof (cluster_needs (e :: r) 115) as L. destruct (cluster (e :: r)) as [l0 p0]. injection E as -> ->. specialize (L eq_refl). discriminate.
Qed.
Lemma getopt_115 : forall n argv a, (length argv <= n)%nat -> In (Opt 115 a) (fst (getopt argv)) -> exists w, In w argv /\ insecure_word w.
Proof.
  induction n as [|n IH]; intros argv a L I; (destruct argv as [|w r]; [contradiction|]); [cbn in L; lia|]. cbn [length] in L. cbn [getopt] in I. destruct (word_of w) as [|l [c|]|] eqn:W.
  - destruct (getopt r) as [l p] eqn:G. destruct (IH r a) as (x & X & Y); [lia|rewrite G; exact I|]. exists x. split; [now right|exact Y].
  - destruct r as [|y r].
    + cbn [fst] in I. apply in_app_or in I as [I|[I|[]]]; [|discriminate]. exists w. split; [now left|]. eapply word_115; eauto.
    + destruct (getopt r) as [l' p] eqn:G. cbn [fst] in I. apply in_app_or in I as [I|[I|I]].
      * exists w. split; [now left|]. eapply word_115; eauto.
      * injection I as -> _. exfalso. eapply word_needs; eauto.
      * destruct (IH r a) as (x & X & Y); [cbn in L; lia|rewrite G; exact I|]. exists x. split; [right; now right|exact Y].
  - destruct (getopt r) as [l' p] eqn:G. cbn [fst] in I. apply in_app_or in I as [I|I].
    + exists w. split; [now left|]. eapply word_115; eauto.
    + destruct (IH r a) as (x & X & Y); [lia|rewrite G; exact I|]. exists x. split; [now right|exact Y].
  - contradiction.
Qed.

(** ** lines *)
Lemma take_line_ok : forall n l rest, (length l < n)%nat -> Forall (fun c => 0 < c < 256 /\ c <> 10) l -> take_line n (l ++ 10 :: rest) = (l ++ [10], rest).
Proof.
  induction n as [|n IH]; intros l rest L F; [lia|]. destruct l as [|c l]; [reflexivity|]. cbn [app take_line]. inversion F as [|? ? [_ N] F']; subst. replace (c =? 10) with false by (symmetry; now apply Z.eqb_neq).
  rewrite IH; [reflexivity|cbn in L; lia|exact F'].
Qed.
Lemma text_in_ok : forall l, Forall (fun c => 0 < c < 256 /\ c <> 10) l -> text_in (l ++ [10]) = l ++ [10].
Proof. intros l F. unfold text_in. rewrite cut_missing; [reflexivity|]. intros I. apply in_app_or in I as [I|[I|[]]]; [|discriminate]. rewrite Forall_forall in F. destruct (F _ I). lia. Qed.
Lemma not_quit : forall l, ~ (exists r, l = 33 :: 113 :: r) -> prefixb (bs "!q") (l ++ [10]) = false.
Proof.
  intros [|a [|b l]] N; [reflexivity| |]; change (bs "!q") with [33; 113]; cbn [app prefixb].
  - apply andb_false_r.
  - destruct (Z.eqb_spec 33 a) as [<-|]; [|reflexivity]. destruct (Z.eqb_spec 113 b) as [<-|]; [|reflexivity]. exfalso. apply N. now exists l.
Qed.
Lemma talk_line : forall o r m l rest, line_ok l -> talk (o :: r) m ((l ++ [10]) ++ rest) =
  if o then let '(s, e, i) := talk r (l ++ [10]) rest in (Sent 1 l :: s, e, i) else ([Sent 1 l], true, rest).
Proof.
  intros o r m l rest (F & Q & L). rewrite <- app_assoc. cbn [app]. cbn [talk]. assert (NE : l ++ 10 :: rest <> []) by (destruct l; discriminate). unfold fgets. destruct (l ++ 10 :: rest) as [|x y] eqn:E; [congruence|]. rewrite <- E.
  rewrite take_line_ok by (auto; lia). rewrite text_in_ok by exact F. rewrite not_quit by exact Q. destruct (l ++ [10]) as [|a b] eqn:E2; [destruct l; discriminate|]. rewrite <- E2. rewrite removelast_last. cbn [negb andb].
  destruct o; [|reflexivity]. now destruct (talk r (l ++ [10]) rest) as [[s e] i].
Qed.
Lemma talk_lines : forall opens lines m rest, Forall line_ok lines -> (turns opens <= length lines)%nat ->
  talk opens m (typed lines ++ rest) = (map (Sent 1) (firstn (turns opens) lines), existsb negb opens, typed (skipn (turns opens) lines) ++ rest).
Proof.
  induction opens as [|o opens IH]; intros lines m rest F L; [reflexivity|]. destruct lines as [|l lines]; [destruct o; cbn in L; lia|]. inversion F as [|? ? LO F']; subst.
  unfold typed. cbn [map concat]. rewrite <- app_assoc. rewrite talk_line by exact LO. destruct o; cbn [turns firstn skipn map existsb negb orb].
  - fold (typed lines). rewrite IH; [reflexivity|exact F'|cbn in L; lia].
  - reflexivity.
Qed.
Lemma talk_quit : forall lines m text rest more, Forall line_ok lines -> Forall (fun c => 0 < c < 256 /\ c <> 10) text -> (length text <= 252)%nat ->
  talk (repeat true (length lines) ++ true :: more) m (typed lines ++ bs "!q" ++ text ++ 10 :: rest) = (map (Sent 1) lines ++ [Closing], true, rest).
Proof.
  induction lines as [|l lines IH]; intros m text rest more F T LT.
  - cbn [length repeat app map typed concat]. change (bs "!q" ++ text ++ 10 :: rest) with ((bs "!q" ++ text) ++ 10 :: rest). cbn [talk]. unfold fgets.
    assert (FQ : Forall (fun c => 0 < c < 256 /\ c <> 10) (bs "!q" ++ text)) by (cbn; constructor; [lia|]; constructor; [lia|exact T]).
    destruct ((bs "!q" ++ text) ++ 10 :: rest) as [|x y] eqn:E; [discriminate|]. rewrite <- E. rewrite take_line_ok; [|cbn; lia|exact FQ]. rewrite text_in_ok by exact FQ. reflexivity.
  - inversion F as [|? ? LO F']; subst. unfold typed. cbn [map concat length repeat app]. rewrite <- (app_assoc (l ++ [10])). rewrite talk_line by exact LO. fold (typed lines). rewrite IH; auto.
Qed.
Lemma talk_over : forall n m, prefixb (bs "!q") m = false -> talk (repeat true n) m [] = ([], false, []).
Proof. induction n as [|n IH]; intros m E; [reflexivity|]. cbn [repeat talk fgets]. rewrite E. cbn [negb andb]. now rewrite IH. Qed.
Lemma take_long : forall n l rest, Forall (fun c => 0 < c < 256 /\ c <> 10) l -> length l = n -> take_line n (l ++ rest) = (l, rest).
Proof.
  induction n as [|n IH]; intros l rest F E; destruct l as [|c l]; try discriminate; [reflexivity|]. cbn [app take_line]. inversion F as [|? ? [_ N] F']; subst. replace (c =? 10) with false by (symmetry; now apply Z.eqb_neq).
  rewrite IH; auto.
Qed.

(** ** files and messages shown *)
Lemma read_n_block : forall l r, read_n (length l) (block_of l ++ r) = Ret l.
Proof. induction l as [|c l IH]; intros r; [reflexivity|]. cbn. rewrite IH. reflexivity. Qed.
Lemma file_sent : forall alloc_ok f opcode, (forall n, alloc_ok n = true) -> regular f -> f_bytes f <> [] -> send_file alloc_ok (Some f) opcode = Ret [Sent opcode (f_bytes f)].
Proof.
  intros alloc_ok [told l] opcode AL (E & B & S) N. cbn [f_told f_bytes] in *. unfold send_file, read_file. cbn [f_told f_bytes]. rewrite AL.
  assert (LP : 0 < zlen l) by (unfold zlen; destruct l; [congruence|cbn; lia]). assert (A : add64 told 1 = told + 1) by (unfold add64; apply Z.mod_small; lia). rewrite A.
  assert (G : zfirstn (Z.min told (zlen l)) l = l) by (unfold zfirstn; apply firstn_all2; subst told; unfold zlen; lia). rewrite G.
  replace (zlen l =? 0) with false by (symmetry; apply Z.eqb_neq; lia). replace (told + 1 <? zlen l) with false by (symmetry; apply Z.ltb_ge; lia). replace (told + 1 <=? told) with false by (symmetry; apply Z.leb_gt; lia).
  cbn [orb]. unfold bind. replace (0 <? told) with true by (symmetry; apply Z.ltb_lt; lia). replace (Z.to_nat told) with (length l) by (subst told; unfold zlen; lia). rewrite read_n_block. reflexivity.
Qed.
Lemma up_to_text : forall l r, cstr l -> up_to (block_of l ++ r) (zlen l) = Ret l.
Proof.
  induction l as [|c l IH]; intros r F; [destruct r; reflexivity|]. inversion F as [|? ? C F']; subst. cbn [block_of map app up_to]. unfold zlen. cbn [length]. rewrite Nat2Z.inj_succ.
  replace (Z.succ (Z.of_nat (length l)) <=? 0) with false by (symmetry; apply Z.leb_gt; lia). replace (c =? 0) with false by (symmetry; apply Z.eqb_neq; lia).
  replace (Z.succ (Z.of_nat (length l)) - 1) with (zlen l) by (unfold zlen; lia). fold (block_of l). rewrite IH by exact F'. reflexivity.
Qed.
