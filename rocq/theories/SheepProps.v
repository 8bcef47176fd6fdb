(** C120: the sheep counter. *)
From Coq Require Import String ZArith Bool List Lia.
From Verif Require Import Base TokenModel.
From Verif Require Import SheepModel SheepSpec SheepProofs.
Import ListNotations.
Open Scope Z_scope.

(** C120. Requests served one after the other: the answers and the value left are those of a counter. *)
Theorem C120_in_turn : forall req l s, NoDup l -> (forall i, In i l -> at_ s i = Waiting) -> fits (map req l) (sheep s) ->
  exists s', interleave req (in_turn l) s = Ret s' /\ counted (map req l) (sheep s) = (map (fun i => match answer s' i with Some a => a | None => -1 end) l, sheep s') /\
    forall j, ~ In j l -> at_ s' j = at_ s j.
Proof.
  intros req. induction l as [|i l IH]; intros s ND W F; [exists s; split; [reflexivity|split; [reflexivity|auto]]|].
  cbn [map fits] in F. destruct F as [F1 F2]. inversion ND as [|? ? NI ND']; subst. destruct (turn req i s (W i (or_introl eq_refl)) F1) as (s1 & E1 & V1 & D1 & O1).
  destruct (IH s1 ND') as (s2 & E2 & C2 & O2).
  - intros j J. rewrite O1 by (intros ->; contradiction). apply W. now right.
  - rewrite V1. exact F2.
  - exists s2. split; [|split].
    + change (in_turn (i :: l)) with ([i; i; i] ++ in_turn l). rewrite interleave_app, E1. exact E2.
    + cbn [map counted]. rewrite <- V1, C2. f_equal. f_equal. unfold answer. rewrite (O2 i NI), D1. exact V1.
    + intros j NJ. rewrite O2, O1; [reflexivity|intros ->; apply NJ; now left|intros J; apply NJ; now right].
Qed.

(** C120. n additions at the same time, in any interleaving: nothing overflows below the limit, and when all have answered, every answer and the value left are between one
    and n more than before. *)
Theorem C120_adds_partial : forall req n v s, (forall j, (j < n)%nat -> req j = Add) -> v + Z.of_nat n < 2 ^ 63 -> runs req n (mk_farm v (fun _ => Waiting)) s ->
  (forall i k, (i < n)%nat -> step req i s <> Some (UB k)) /\
  (all_done n s -> (0 < n)%nat -> v + 1 <= sheep s <= v + Z.of_nat n /\ forall i a, (i < n)%nat -> answer s i = Some a -> v + 1 <= a <= v + Z.of_nat n).
Proof.
  intros req n v s A B R. pose proof (tame_runs req n v s A R) as T. pose proof (writers_range (at_ s) n) as W. split.
  - intros i k L H. unfold step in H. destruct (at_ s i) as [|x| |a] eqn:P; try (rewrite (A i L) in H); try discriminate.
    pose proof (t_loaded n v s T i x L P) as X. pose proof (writers_put (at_ s) i Stored n L) as E. rewrite P in E. cbn [wrote] in E. pose proof (writers_range (put (at_ s) i Stored) n).
    destruct (Z.eqb_spec x (2 ^ 63 - 1)); [lia|discriminate].
  - intros D N. assert (WA : writers (at_ s) n = Z.of_nat n) by (apply writers_all; intros i L; destruct (D i L) as (a & ->); reflexivity). split.
    + split; [apply T; lia|]. rewrite <- WA. apply T.
    + intros i a L E. unfold answer in E. destruct (at_ s i) as [| | |b] eqn:P; try discriminate. injection E as ->. rewrite <- WA. now apply (t_done n v s T i).
Qed.

(** C120. If nobody else moved between the read and the write of an addition, no addition would be lost. *)
Theorem C120_locked : forall req n v s, (forall j, (j < n)%nat -> req j = Add) -> runs_locked req n (mk_farm v (fun _ => Waiting)) s -> all_done n s ->
  sheep s = v + Z.of_nat n /\ forall i a, (i < n)%nat -> answer s i = Some a -> v + 1 <= a <= v + Z.of_nat n.
Proof.
  intros req n v s A R D. pose proof (exact_runs req n v s A R) as E. assert (WA : writers (at_ s) n = Z.of_nat n) by (apply writers_all; intros i L; destruct (D i L) as (a & ->); reflexivity).
  pose proof (e_val n v s E) as V. rewrite WA in V. split; [exact V|]. intros i a L H. unfold answer in H. destruct (at_ s i) as [| | |b] eqn:P; try discriminate. injection H as ->.
  rewrite <- V. now apply (e_done n v s E i).
Qed.

Definition adds (i : nat) : op := Add.
Definition lone (s : farm) (ids : list nat) : list (option Z) * Z := (map (answer s) ids, sheep s).
Ltac shown E := intros (l & I & E); vm_compute in I; repeat (destruct I as [<-|I]; [vm_compute in E; discriminate E|]); destruct I.

(** C120, refuted: two additions at the same time, both answered with 1, and there is one sheep; *)
Theorem C120_lost_refuted : exists s, interleave adds [0; 1; 0; 0; 1; 1]%nat farm0 = Ret s /\ lone s [0; 1]%nat = ([Some 1; Some 1], 1) /\ ~ explained adds [0; 1]%nat 0 s.
Proof. eexists. split; [vm_compute; reflexivity|]. split; [reflexivity|]. shown E. Qed.
(** any number of additions, one of which is held up between its read and its write while the others are served one after the other: they are answered 1, 2, 3, ..., and one
    sheep is left; *)
Theorem C120_all_lost_refuted : forall n, Z.of_nat n < 2 ^ 63 -> exists s, interleave adds (0%nat :: in_turn (seq 1 n) ++ [0; 0]%nat) farm0 = Ret s /\
  map (answer s) (seq 1 n) = map (fun k => Some (Z.of_nat k)) (seq 1 n) /\ answer s 0%nat = Some 1 /\ sheep s = 1.
Proof.
  intros n B. cbn [interleave]. unfold step at 1. cbn [at_ farm0 adds bind sheep]. set (s1 := mk_farm 0 (put (fun _ => Waiting) 0 (Loaded 0))).
  assert (F : forall k v, v + Z.of_nat k < 2 ^ 63 -> forall a, fits (map adds (seq a k)) v).
  { induction k as [|k IH]; intros v L a; [exact Logic.I|]. cbn [seq map fits]. split; [intros _; clear IH; lia|]. apply IH. change (after (adds a) v) with (v + 1). lia. }
  assert (CO : forall k a, counted (map adds (seq (S a) k)) (Z.of_nat a) = (map (fun i => Z.of_nat i) (seq (S a) k), Z.of_nat (a + k))).
  { induction k as [|k IH]; intros a; [cbn [seq map counted]; now rewrite Nat.add_0_r|]. cbn [seq map counted adds after]. replace (Z.of_nat a + 1) with (Z.of_nat (S a)) by lia.
    change (adds (S a)) with Add in *. rewrite IH. do 2 f_equal. lia. }
  destruct (C120_in_turn adds (seq 1 n) s1) as (s2 & E2 & C2 & O2).
  - apply seq_NoDup.
  - intros i I. apply in_seq in I. cbn [s1 at_]. apply put_other. lia.
  - apply F. cbn [s1 sheep]. lia.
  - rewrite interleave_app, E2. cbn [bind interleave]. assert (N0 : ~ In 0%nat (seq 1 n)) by (intros I; apply in_seq in I; lia).
    pose proof (O2 0%nat N0) as P. cbn [s1 at_] in P. rewrite put_same in P. unfold step at 1. rewrite P. change (0 =? 2 ^ 63 - 1) with false. cbn [bind]. unfold step. cbn [at_ sheep]. rewrite put_same. cbn [bind adds].
    eexists. split; [reflexivity|]. cbn [sheep]. assert (C3 := CO n 0%nat). change (Z.of_nat 0) with 0 in C3. cbn [s1 sheep] in C2. rewrite C3 in C2. injection C2 as C2 _.
    split; [|split; [unfold answer; cbn [at_]; now rewrite put_same|reflexivity]].
    apply map_ext_in. intros i I. assert (NI : i <> 0%nat) by (apply in_seq in I; lia). unfold answer. cbn [at_]. rewrite !put_other by exact NI.
    pose proof (proj1 map_ext_in_iff C2 i I) as X. cbv beta in X.
    unfold answer in X. destruct (at_ s2 i) as [| | |a]; [lia|lia|lia|congruence].
Qed.
Definition some_reset (i : nat) : op := match i with 0%nat => Add | _ => Reset end.
(** an addition that began before a reset undoes it; *)
Theorem C120_reset_refuted : exists s, interleave some_reset [0; 1; 1; 0; 0]%nat (mk_farm 5 (fun _ => Waiting)) = Ret s /\ lone s [0; 1]%nat = ([Some 6; Some 0], 6) /\
  ~ explained some_reset [0; 1]%nat 5 s.
Proof. eexists. split; [vm_compute; reflexivity|]. split; [reflexivity|]. shown E. Qed.
Definition some_start (i : nat) : op := match i with 0%nat => Start (Some (JObj [(bs "nbsheep", JInt 7)])) | _ => Add end.
(** the answer to a request with the number 7 is another number: the counter is read again for the answer; *)
Theorem C120_answer_refuted : exists s, interleave some_start [1; 0; 1; 0; 1]%nat farm0 = Ret s /\ lone s [0; 1]%nat = ([Some 1; Some 1], 1) /\ ~ explained some_start [0; 1]%nat 0 s.
Proof. eexists. split; [vm_compute; reflexivity|]. split; [reflexivity|]. shown E. Qed.
Definition some_large (i : nat) : op := match i with 0%nat => Start (Some (JObj [(bs "nbsheep", JInt 9223372036854775807)])) | _ => Add end.
(** after the number 9223372036854775807, which is a number jansson reads, the next addition is undefined *)
Theorem C120_overflow_refuted : interleave some_large (in_turn [0; 1]%nat) farm0 = UB Overflow.
Proof. reflexivity. Qed.

Definition some_ops (i : nat) : op := match i with 0%nat => Start (Some (JObj [(bs "nbsheep", JInt 40)])) | 1%nat => Add | 2%nat => Reset | 3%nat => Start (Some (JStr (bs "x"))) | _ => Add end.
(** ** cases *)
Example C120_ex_in_turn : NoDup [0; 1; 4; 2; 3]%nat /\ fits (map some_ops [0; 1; 4; 2; 3]%nat) 3 /\
  exists s, interleave some_ops (in_turn [0; 1; 4; 2; 3]%nat) (mk_farm 3 (fun _ => Waiting)) = Ret s /\ lone s [0; 1; 4; 2; 3]%nat = ([Some 40; Some 41; Some 42; Some 0; Some 0], 0).
Proof.
  split; [repeat constructor; cbn; intuition discriminate|]. split; [cbn; repeat split; intros; try discriminate; reflexivity|]. eexists. split; vm_compute; reflexivity.
Qed.
Lemma runs_interleave : forall req n s0 l s s', runs req n s0 s -> Forall (fun i => (i < n)%nat) l -> interleave req l s = Ret s' -> runs req n s0 s'.
Proof.
  intros req n s0. induction l as [|i l IH]; intros s s' R F H; [injection H as <-; exact R|]. inversion F; subst. cbn [interleave] in H.
  destruct (step req i s) as [[s1|k]|] eqn:E; cbn [bind] in H; [|discriminate|]; (eapply IH; [|eassumption|exact H]); [econstructor; eauto|exact R].
Qed.
Example C120_ex_adds : exists s, runs adds 3 (mk_farm 10 (fun _ => Waiting)) s /\ all_done 3 s /\ lone s [0; 1; 2]%nat = ([Some 12; Some 11; Some 12], 12).
Proof.
  destruct (interleave adds [0; 1; 0; 1; 1; 2; 2; 0; 2]%nat (mk_farm 10 (fun _ => Waiting))) as [s|k] eqn:E; [|vm_compute in E; discriminate E].
  exists s. split; [eapply runs_interleave; [constructor| |exact E]; repeat constructor|]. revert E. vm_compute. intros [= <-]. split; [|reflexivity].
  intros i L. destruct i as [|[|[|i]]]; [eexists; reflexivity|eexists; reflexivity|eexists; reflexivity|exfalso; lia].
Qed.

Print Assumptions C120_in_turn.
Print Assumptions C120_adds_partial.
Print Assumptions C120_locked.
Print Assumptions C120_lost_refuted.
Print Assumptions C120_all_lost_refuted.
Print Assumptions C120_reset_refuted.
Print Assumptions C120_answer_refuted.
Print Assumptions C120_overflow_refuted.
