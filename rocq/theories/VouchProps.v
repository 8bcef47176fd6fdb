(** Tokens that are checked at the same time with one configuration are not mixed up (C127). *)
From Coq Require Import String ZArith Bool List Lia Arith.
From Verif Require Import Base BaseFacts UMapModel UMapSpec SMap SendProps TokenModel TokenSpec TokenProofs TokenProps.
From Verif Require Import VouchModel.
Import ListNotations.
Open Scope Z_scope.

Section Desk.
Variables (verify : str -> option str -> option json) (dpop_ok : option str -> option str -> str -> Z -> option str -> str -> bool) (c : iconfig)
          (q : nat -> trequest) (r : nat -> tresponse) (lock_ok set_ok : nat -> bool) (keeps : bool).
(** what the request gets when it is the only one *)
Definition alone (i : nat) : outcome (Z * tresponse) := iddawc verify dpop_ok (Some c) (q i) (r i).
Notation go := (go verify dpop_ok c q r lock_ok set_ok keeps).
Notation day := (day verify dpop_ok c q r lock_ok set_ok keeps).
Notation judge := (judge dpop_ok c q r).
Notation verified := (verified verify c).

Definition inside (x : stage) : bool := match x with Arrived | Gone _ => false | _ => true end.
(** what thread [i] finds in the session after its own set *)
Definition own (i : nat) (t : option str) : Prop := exists a tok b, iddawc_token (i_method c) (q i) = Ret (Some (a :: tok, b)) /\ (set_ok i = true -> t = Some (a :: tok)) /\ (set_ok i = false -> keeps = false -> t = None).
Definition fair (i : nat) (a : outcome (Z * tresponse)) : Prop :=
  (lock_ok i = true -> set_ok i = true -> a = alone i) /\
  (set_ok i = true \/ keeps = false -> a = alone i \/ a = refuse (i_realm c) (r i) e_internal \/ a = judge i None).
Definition fits (s : desk) (i : nat) : Prop :=
  (k_lock s = Some i <-> inside (k_at s i) = true) /\
  match k_at s i with
  | Arrived => True
  | Inside => exists a tok b, iddawc_token (i_method c) (q i) = Ret (Some (a :: tok, b))
  | Written => own i (k_token s)
  | Judged b => exists t, own i t /\ if b : bool then k_payload s <> None /\ k_payload s = verified t else verified t = None
  | Holding x => exists t, own i t /\ x = verified t
  | Leaving a | Gone a => fair i a
  end.
Lemma judge_alone : forall i a tok b, iddawc_token (i_method c) (q i) = Ret (Some (a :: tok, b)) -> judge i (verify (a :: tok) (i_aud c)) = alone i.
Proof. intros i a tok b E. unfold VouchModel.judge, alone, iddawc. destruct (ClientModel.get_case_str _ _) as [d0|]; [|reflexivity]. cbn [bind]. destruct (u_map_count_keys_case _ _) as [n0|]; [|reflexivity]. cbn [bind]. rewrite E. reflexivity. Qed.
Lemma judge_none : forall i, (forall a tok b, iddawc_token (i_method c) (q i) <> Ret (Some (a :: tok, b))) -> judge i None = alone i.
Proof.
  intros i N. unfold VouchModel.judge, alone, iddawc. destruct (ClientModel.get_case_str _ _) as [d0|]; [|reflexivity]. cbn [bind]. destruct (u_map_count_keys_case _ _) as [n0|]; [|reflexivity]. cbn [bind].
  destruct (iddawc_token (i_method c) (q i)) as [[[[|a tok] b]|]|] eqn:E; cbn [bind]; try reflexivity. exfalso. eapply N. reflexivity.
Qed.
Lemma own_fair : forall i t, own i t -> fair i (judge i (verified t)).
Proof.
  intros i t (a & tok & b & E & T & F). split.
  - intros _ S. rewrite (T S). cbn. eapply judge_alone, E.
  - intros O. destruct (set_ok i) eqn:S; [left; rewrite (T eq_refl); cbn; eapply judge_alone, E|]. destruct O as [O|O]; [discriminate|]. rewrite (F eq_refl O). auto.
Qed.
Lemma k_at_put : forall s i x j, k_at (put s i x) j = if (j =? i)%nat then x else k_at s j.
Proof. reflexivity. Qed.
(** a step of [i] keeps what is known of the others *)
Lemma go_fits : forall s i, (forall j, fits s j) -> forall j, fits (go s i) j.
Proof.
  intros s i IH j. pose proof (IH i) as (LI & FI). pose proof (IH j) as (LJ & FJ). unfold VouchModel.go.
  (* another thread inside excludes j inside *)
  assert (OUT : j <> i -> inside (k_at s i) = true -> inside (k_at s j) = false).
  { intros N I. apply LI in I. apply not_true_is_false. intros X. apply LJ in X. congruence. }
  assert (OTHER : forall lock tok pay x, j <> i -> (k_lock s = Some j <-> lock = Some j) -> inside (k_at s j) = false -> fits (put (mk_desk lock tok pay (k_at s)) i x) j).
  { intros lock tok pay x N L X. unfold fits. rewrite k_at_put. apply Nat.eqb_neq in N. rewrite N. cbn [put k_lock k_token k_payload k_at]. split; [rewrite <- L; exact LJ|].
    destruct (k_at s j); try discriminate; exact FJ. }
  assert (SAME : forall x, j <> i -> fits (put s i x) j).
  { intros x N. unfold fits. rewrite k_at_put. apply Nat.eqb_neq in N. rewrite N. exact (conj LJ FJ). }
  destruct (k_at s i) as [| | |b|cl|a|a] eqn:A.
  - (* Arrived *) destruct (iddawc_token (i_method c) (q i)) as [[[[|x tok] b]|]|] eqn:T;
      [| |destruct (Nat.eq_dec j i) as [->|N]; [|now apply SAME]|destruct (Nat.eq_dec j i) as [->|N]; [|now apply SAME]].
    + destruct (Nat.eq_dec j i) as [->|N]; [|now apply SAME]. unfold fits. rewrite k_at_put, Nat.eqb_refl. cbn [put k_lock inside]. rewrite LI. cbn. split; [tauto|].
      unfold fair. rewrite (judge_none i) by (intros ? ? ?; rewrite T; congruence). auto.
    + destruct (lock_ok i) eqn:LK.
      * destruct (k_lock s) as [o|] eqn:KL; [exact (conj (proj1 (IH j)) (proj2 (IH j)))|]. destruct (Nat.eq_dec j i) as [->|N].
        -- unfold fits. rewrite k_at_put, Nat.eqb_refl. cbn [put k_lock inside]. split; [tauto|]. eauto.
        -- apply OTHER; auto; [split; [discriminate|intros X; injection X as X; congruence]|]. apply not_true_is_false. intros X. apply LJ in X. congruence.
      * destruct (Nat.eq_dec j i) as [->|N]; [|now apply SAME]. unfold fits. rewrite k_at_put, Nat.eqb_refl. cbn [put k_lock inside]. rewrite LI. cbn. split; [tauto|].
        split; [congruence|auto].
    + unfold fits. rewrite k_at_put, Nat.eqb_refl. cbn [put k_lock inside]. rewrite LI. cbn. split; [tauto|].
      unfold fair. rewrite (judge_none i) by (intros ? ? ?; rewrite T; congruence). auto.
    + unfold fits. rewrite k_at_put, Nat.eqb_refl. cbn [put k_lock inside]. rewrite LI. cbn. split; [tauto|].
      unfold fair. rewrite (judge_none i) by (intros ? ? ?; rewrite T; congruence). auto.
  - (* Inside *) destruct FI as (x & tok & b & T). rewrite T. destruct (Nat.eq_dec j i) as [->|N].
    + unfold fits. rewrite k_at_put, Nat.eqb_refl. cbn [put k_lock k_token inside]. split; [rewrite LI; cbn; tauto|]. exists x, tok, b. split; [exact T|]. split; [now intros ->|intros -> ->; reflexivity].
    + apply OTHER; [exact N|tauto|now apply OUT].
  - (* Written *) destruct (verified (k_token s)) as [v|] eqn:V.
    + destruct (Nat.eq_dec j i) as [->|N].
      * unfold fits. rewrite k_at_put, Nat.eqb_refl. cbn [put k_lock k_payload inside]. split; [rewrite LI; cbn; tauto|]. exists (k_token s). split; [exact FI|]. split; [discriminate|now rewrite V].
      * apply OTHER; [exact N|tauto|now apply OUT].
    + destruct (Nat.eq_dec j i) as [->|N]; [|now apply SAME]. unfold fits. rewrite k_at_put, Nat.eqb_refl. cbn [put k_lock inside]. split; [rewrite LI; cbn; tauto|]. exists (k_token s). split; [exact FI|exact V].
  - destruct FI as (t & O & F). destruct (Nat.eq_dec j i) as [->|N]; [|now apply SAME]. unfold fits. rewrite k_at_put, Nat.eqb_refl. cbn [put k_lock inside]. split; [rewrite LI; cbn; tauto|].
    exists t. split; [exact O|]. destruct b; [exact (proj2 F)|now rewrite F].
  - destruct FI as (t & O & ->). destruct (Nat.eq_dec j i) as [->|N]; [|now apply SAME]. unfold fits. rewrite k_at_put, Nat.eqb_refl. cbn [put k_lock inside]. split; [rewrite LI; cbn; tauto|]. now apply own_fair.
  - destruct (Nat.eq_dec j i) as [->|N].
    + unfold fits. rewrite k_at_put, Nat.eqb_refl. cbn [put k_lock inside]. split; [split; discriminate|exact FI].
    + apply OTHER; [exact N| |now apply OUT]. rewrite (proj2 LI eq_refl). split; [intros X; injection X as X; congruence|discriminate].
  - exact (conj LJ FJ).
Qed.
Lemma day_fits : forall sched s, (forall j, fits s j) -> forall j, fits (day sched s) j.
Proof. induction sched as [|i l IH]; intros s F; [exact F|]. cbn. apply IH. now apply go_fits. Qed.
Lemma fits0 : forall j, fits desk0 j.
Proof. intros j. split; [|exact Logic.I]. cbn. split; discriminate. Qed.

(** C127: a request whose calls of the lock and of the session succeed gets, in every schedule of any number of threads, the answer it gets alone; one whose calls fail gets it or is refused, if a failing set does not
    keep the token that was there *)
Theorem C127_own : forall sched i a, answer_of (day sched desk0) i = Some a ->
  (lock_ok i = true -> set_ok i = true -> a = alone i) /\
  (set_ok i = true \/ keeps = false -> forall r', a = Ret (0, r') -> a = alone i).
Proof.
  intros sched i a H. pose proof (day_fits sched desk0 fits0 i) as (_ & F). unfold answer_of in H. destruct (k_at (day sched desk0) i) eqn:E; try discriminate. injection H as ->. destruct F as [F1 F2].
  split; [exact F1|]. intros K r' ->. destruct (F2 K) as [X|[X|X]]; [exact X| |].
  - symmetry in X. apply refuse_inv in X. destruct X; discriminate.
  - destruct (iddawc_token (i_method c) (q i)) as [[[[|x tok] b]|]|] eqn:T.
    2:{ exfalso. symmetry in X. unfold VouchModel.judge, iddawc in X. destruct (ClientModel.get_case_str _ _); [|discriminate]. cbn [bind] in X. destruct (u_map_count_keys_case _ _); [|discriminate]. cbn [bind] in X.
        rewrite T in X. cbn [bind] in X. apply refuse_inv in X. destruct X; discriminate. }
    all: rewrite X; apply judge_none; intros ? ? ?; rewrite T; congruence.
Qed.
(** who is let in has a good token of their own, and the program is handed the content of that token *)
Theorem C127_let_in : forall sched i dh dp du r', set_ok i = true \/ keeps = false -> request_is (q i) dh dp du -> answer_of (day sched desk0) i = Some (Ret (0, r')) ->
  exists tok j, let_in verify dpop_ok c (q i) dh dp du tok j /\ p_shared r' = Some j.
Proof.
  intros sched i dh dp du r' K RQ H. destruct (C127_own sched i _ H) as (_ & A). specialize (A K r' eq_refl). symmetry in A. unfold alone in A.
  destruct (C79_decision verify dpop_ok c (q i) (r i) dh dp du 0 r' RQ A) as (_ & _ & B & _). destruct (B eq_refl) as (_ & X). exact X.
Qed.

(** a thread that runs alone from where it is, once nobody else is inside, ends *)
Definition left_to_do (x : stage) : nat := match x with Arrived => 6 | Inside => 5 | Written => 4 | Judged _ => 3 | Holding _ => 2 | Leaving _ => 1 | Gone _ => 0 end.
Lemma go_less : forall s i, (forall j, fits s j) -> k_lock s = Some i \/ k_lock s = None -> (k_at s i = Arrived -> k_lock s = None) -> (left_to_do (k_at (go s i) i) <= left_to_do (k_at s i) - 1)%nat /\ (k_lock (go s i) = Some i \/ k_lock (go s i) = None).
Proof.
  intros s i F L AR. pose proof (F i) as (LI & FI). unfold VouchModel.go. destruct (k_at s i) as [| | |b|cl|a|a] eqn:A.
  - rewrite (AR eq_refl) in *. destruct (iddawc_token _ _) as [[[[|x tok] b]|]|]; cbn [put k_at k_lock]; rewrite ?Nat.eqb_refl; cbn [left_to_do]; [| |auto with arith..]; [rewrite AR by reflexivity; split; [lia|auto]|].
    destruct (lock_ok i); cbn [put k_at k_lock]; rewrite Nat.eqb_refl; cbn [left_to_do]; split; try lia; auto.
  - destruct FI as (x & tok & b & ->). cbn [put k_at k_lock]. rewrite Nat.eqb_refl. cbn [left_to_do]. split; [lia|exact L].
  - destruct (verified _); cbn [put k_at k_lock]; rewrite Nat.eqb_refl; cbn [left_to_do]; (split; [lia|exact L]).
  - cbn [put k_at k_lock]. rewrite Nat.eqb_refl. cbn [left_to_do]. split; [lia|exact L].
  - cbn [put k_at k_lock]. rewrite Nat.eqb_refl. cbn [left_to_do]. split; [lia|exact L].
  - cbn [put k_at k_lock]. rewrite Nat.eqb_refl. cbn [left_to_do]. split; [lia|auto].
  - rewrite A. cbn [left_to_do]. split; [lia|exact L].
Qed.
Lemma finish : forall n s i, (forall j, fits s j) -> k_lock s = Some i \/ k_lock s = None -> (left_to_do (k_at s i) <= n)%nat ->
  exists a, k_at (day (repeat i n) s) i = Gone a.
Proof.
  induction n; intros s i F L M.
  - cbn. destruct (k_at s i); cbn in M; try lia. eauto.
  - cbn [repeat]. change (day (i :: repeat i n) s) with (day (repeat i n) (go s i)).
    assert (AR : k_at s i = Arrived -> k_lock s = None) by (intros A; destruct L as [L|L]; [|exact L]; apply (proj1 (F i)) in L; rewrite A in L; discriminate).
    destruct (go_less s i F L AR) as (LE & L'). apply IHn; [now apply go_fits|exact L'|lia].
Qed.
(** no request waits for ever: from every point of every schedule there is a way for each to its answer *)
Theorem C127_progress : forall sched i, exists more a, answer_of (day (sched ++ more) desk0) i = Some a.
Proof.
  intros sched i. pose proof (day_fits sched desk0 fits0) as F. set (s := day sched desk0) in *.
  assert (FR : exists m, k_lock (day m s) = Some i \/ k_lock (day m s) = None).
  { destruct (k_lock s) as [h|] eqn:L; [|exists []; auto]. destruct (Nat.eq_dec h i) as [->|N]; [exists []; auto|].
    destruct (finish 6 s h F (or_introl L)) as (a & G); [destruct (k_at s h); cbn; lia|]. exists (repeat h 6).
    right. set (t := day (repeat h 6) s) in *. pose proof (day_fits (repeat h 6) s F) as F2. fold t in F2.
    assert (X : k_lock t = Some h \/ k_lock t = None).
    { subst t. clear F2 G. assert (W : forall n s0, (forall j, fits s0 j) -> k_lock s0 = Some h \/ k_lock s0 = None -> k_lock (day (repeat h n) s0) = Some h \/ k_lock (day (repeat h n) s0) = None).
      { induction n; intros s0 F0 L0; [exact L0|]. cbn [repeat]. change (day (h :: repeat h n) s0) with (day (repeat h n) (go s0 h)). apply IHn; [now apply go_fits|].
        apply go_less; [exact F0|exact L0|]. intros A. destruct L0 as [L0|L0]; [|exact L0]. apply (proj1 (F0 h)) in L0. rewrite A in L0. discriminate. }
      apply W; auto. }
    destruct X as [X|X]; [|exact X]. apply (proj1 (F2 h)) in X. rewrite G in X. discriminate. }
  destruct FR as (m & FR). destruct (finish 6 (day m s) i (day_fits m s F) FR) as (a & G); [destruct (k_at (day m s) i); cbn; lia|].
  exists (m ++ repeat i 6), a. unfold answer_of. replace (day (sched ++ m ++ repeat i 6) desk0) with (day (repeat i 6) (day m s)); [now rewrite G|]. subst s. unfold VouchModel.day. now rewrite !fold_left_app.
Qed.
End Desk.

Definition both (a b : trequest) (i : nat) : trequest := match i with 0%nat => a | _ => b end.
Definition with_token (t : str) : trequest := mk_trequest (map_of [(bs "Authorization", Some (bs "Bearer " ++ t))]) u_map_init u_map_init (Some (bs "GET")) (Some (bs "/x")).
Definition ann : json := JObj [(bs "scope", JStr (bs "read")); (bs "sub", JStr (bs "ann"))].
Definition bob : json := JObj [(bs "scope", JStr (bs "read")); (bs "sub", JStr (bs "bob"))].
Definition known (tok : str) (aud : option str) : option json := if str_eqb tok (bs "aaa") then Some ann else if str_eqb tok (bs "bbb") then Some bob else None.
Definition got (s : desk) (i : nat) : option (Z * option json) := match answer_of s i with Some (Ret (n, x)) => Some (n, p_shared x) | _ => None end.
Definition yes (i : nat) : bool := true.
Example C127_hyps : let s := day known ex_dpop ex_icfg (both (with_token (bs "aaa")) (with_token (bs "bbb"))) (fun _ => ex_r) yes yes true [0; 1; 0; 1; 0; 0; 1; 0; 0; 1; 1; 1; 1; 1; 1]%nat desk0 in
  got s 0 = Some (0, Some ann) /\ got s 1 = Some (0, Some bob) /\
  let s := day known ex_dpop ex_icfg (both (with_token (bs "aaa")) (with_token (bs "bad"))) (fun _ => ex_r) yes yes true [0; 1; 0; 1; 0; 0; 1; 0; 0; 1; 1; 1; 1; 1; 1]%nat desk0 in
  got s 0 = Some (0, Some ann) /\ got s 1 = Some (3, None).
Proof. vm_compute. repeat split. Qed.
(** C127 depends on iddawc: the callback does not look at what i_set_str_parameter answers. If a call that fails keeps the token that was in the session, the next request is let in on the token of the one before,
    and is taken for its owner *)
Theorem C127_kept_refuted : exists set_ok sched, let s := day known ex_dpop ex_icfg (both (with_token (bs "aaa")) (with_token (bs "bad"))) (fun _ => ex_r) yes set_ok true sched desk0 in
  got s 0 = Some (0, Some ann) /\ got s 1 = Some (0, Some ann) /\ known (bs "bad") (i_aud ex_icfg) = None.
Proof. exists (fun i => (i =? 0)%nat), [0; 0; 0; 0; 0; 0; 1; 1; 1; 1; 1; 1]%nat. vm_compute. repeat split. Qed.

Print Assumptions C127_own.
Print Assumptions C127_let_in.
Print Assumptions C127_progress.
Print Assumptions C127_kept_refuted.
