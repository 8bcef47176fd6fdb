(** What a callback hands on to the next ones is released, once and with the function that belongs to it (C128). *)
From Coq Require Import ZArith Bool List Lia.
From Verif Require Import Base.
From Verif Require Import HandModel.
Import ListNotations.
Open Scope Z_scope.

(** a callback that uses ulfius_set_response_shared_data, or hands nothing on *)
Definition polite (d : deed) : Prop := match d with Profile | NoSubject => False | _ => True end.
Definition below (live : list (Z * Z)) (n : Z) : Prop := Forall (fun x => fst x < n) live.
(** the response has nothing, or one object besides those of the others *)
Definition owns (others : list (Z * Z)) (h : hand) : Prop :=
  below others (h_next h) /\
  (h_live h = others /\ h_data h = None /\ h_free h = None \/
   exists a k, h_live h = (a, k) :: others /\ below others a /\ a < h_next h /\ h_data h = Some a /\ h_free h = Some k).
Lemma filter_below : forall l a, below l a -> filter (fun y : Z * Z => negb (fst y =? a)) l = l.
Proof. induction l as [|x l IH]; intros a B; [reflexivity|]. inversion B; subst. cbn. destruct (Z.eqb_spec (fst x) a); [lia|]. cbn. f_equal. now apply IH. Qed.
Lemma below_le : forall l a b, below l a -> a <= b -> below l b.
Proof. intros l a b B L. eapply Forall_impl; [|exact B]. cbn. lia. Qed.
Lemma release_own : forall others a k, below others a -> release ((a, k) :: others) k a = Ret others.
Proof. intros others a k B. unfold release. cbn [find fst snd filter]. rewrite Z.eqb_refl. cbn [snd]. rewrite Z.eqb_refl. cbn [negb]. now rewrite filter_below. Qed.
Lemma release_old : forall others a k n m, below others a -> a < n -> release ((n, m) :: (a, k) :: others) k a = Ret ((n, m) :: others).
Proof.
  intros others a k n m B L. unfold release. cbn [find fst snd filter]. destruct (Z.eqb_spec n a); [lia|]. rewrite Z.eqb_refl. cbn [negb snd]. rewrite Z.eqb_refl. now rewrite filter_below.
Qed.
Lemma given_owns : forall others h k, owns others h -> exists h', (let (a, h) := make h k in set_shared h a (Some k)) = Ret h' /\ owns others h'.
Proof.
  intros others h k (B & [(L & D & F)|(a & m & L & BA & LT & D & F)]); unfold make, set_shared; cbn [h_live h_next h_data h_free]; rewrite D, F.
  - cbn [bind]. eexists. split; [reflexivity|]. split; [cbn [h_next]; eapply below_le; [exact B|lia]|]. right. exists (h_next h), k. cbn. rewrite L. repeat split; auto. lia.
  - rewrite L, release_old by assumption. cbn [bind]. eexists. split; [reflexivity|]. split; [cbn [h_next]; eapply below_le; [exact B|lia]|]. right. exists (h_next h), k. cbn. repeat split; auto. lia.
Qed.
Lemma deeds_own : forall l others h, Forall polite l -> owns others h -> exists h', deeds h l = Ret h' /\ owns others h'.
Proof.
  induction l as [|d l IH]; intros others h P O; [exists h; auto|]. inversion P; subst. cbn [deeds].
  assert (X : exists h1, do_deed h d = Ret h1 /\ owns others h1) by (destruct d; [apply given_owns, O|apply given_owns, O|contradiction|contradiction|exists h; auto]).
  destruct X as (h1 & E & O1). rewrite E. cbn [bind]. now apply IH.
Qed.
(** C128, partial: with callbacks that set their data with ulfius_set_response_shared_data, in any number and any order, for any number of requests, every object is released, with its own function, and nothing is
    left. Missing: the callback of oidc_resource.c, which writes the pointer itself ([C128_leak_refuted], [C128_function_refuted], [C128_first_refuted], [C128_subject_refuted]). *)
Theorem C128_released_partial : forall ls others next, below others next -> Forall (Forall polite) ls -> requests others next ls = Ret others.
Proof.
  induction ls as [|l ls IH]; intros others next B F; [reflexivity|]. inversion F; subst. cbn [requests]. unfold one_request.
  destruct (deeds_own l others (empty_hand others next)) as (h & E & O); [assumption|split; [exact B|left; auto]|]. rewrite E. cbn [bind]. destruct O as (BN & [(L & D & FR)|(a & k & L & BA & LT & D & FR)]); rewrite D, FR.
  - cbn [bind fst snd]. rewrite L. now apply IH.
  - rewrite L, release_own by assumption. cbn [bind fst snd]. now apply IH.
Qed.
Example C128_hyps : Forall (Forall polite) [[Given 7; Nothing; Token]; [Token; Given 3; Given 3]; []] /\ below [(1, 5)] 2 /\ requests [(1, 5)] 2 [[Given 7; Nothing; Token]; [Token; Given 3; Given 3]; []] = Ret [(1, 5)].
Proof. repeat split; repeat constructor. Qed.

(** C128, refuted: every request that oidc_resource.c lets in leaves its data behind; *)
Theorem C128_leak_refuted : forall n, exists left, requests [] 0 (repeat [Profile] n) = Ret left /\ length left = n.
Proof.
  intros n. assert (X : forall n live next, exists left, requests live next (repeat [Profile] n) = Ret left /\ length left = (n + length live)%nat).
  { clear n. induction n as [|n IH]; intros live next; [exists live; auto|]. cbn [repeat requests]. unfold one_request. cbn [deeds do_deed make empty_hand bind h_live h_next h_data h_free fst snd].
    destruct (IH ((next, 0) :: live) (next + 1)) as (left & E & L). exists left. split; [exact E|]. cbn in L. lia. }
  destruct (X n [] 0) as (left & E & L). exists left. split; [exact E|]. cbn in L. lia.
Qed.
(** behind a callback that handed on data of another kind, its JSON is released with the function of the other one (for example o_free), which is undefined; *)
Theorem C128_function_refuted : forall k, k <> 0 -> requests [] 0 [[Given k; Profile]] = UB BadArgument.
Proof. intros [|p|p] N; [congruence|reflexivity|reflexivity]. Qed.
(** and the data of the first callback is lost, also when the kinds are the same; *)
Theorem C128_first_refuted : requests [] 0 [[Given 0; Profile]] = Ret [(0, 0)].
Proof. reflexivity. Qed.
(** a token without "sub" loses the data of the callback before *)
Theorem C128_subject_refuted : forall k, requests [] 0 [[Given k; NoSubject]] = Ret [(0, k)].
Proof. reflexivity. Qed.

Print Assumptions C128_released_partial.
Print Assumptions C128_leak_refuted.
Print Assumptions C128_function_refuted.
Print Assumptions C128_first_refuted.
Print Assumptions C128_subject_refuted.
