From Coq Require Import ZArith Bool List Lia.
From Verif Require Import Base TokenModel.
From Verif Require Import SheepModel SheepSpec.
Import ListNotations.
Open Scope Z_scope.

Lemma put_same : forall f i p, put f i p i = p.
Proof. intros. unfold put. now rewrite Nat.eqb_refl. Qed.
Lemma put_other : forall f i p j, j <> i -> put f i p j = f j.
Proof. intros f i p j N. unfold put. apply Nat.eqb_neq in N. now rewrite N. Qed.

Lemma start_after : forall b v, start_value b = after (Start b) v.
Proof.
  intros [[| | | | | |l]|] v; try reflexivity. cbn [start_value after jget]. destruct (find _ l) as [[k [| | | | | |]]|]; reflexivity.
Qed.
Lemma turn : forall req i s, at_ s i = Waiting -> (req i = Add -> sheep s < 2 ^ 63 - 1) ->
  exists s', interleave req [i; i; i] s = Ret s' /\ sheep s' = after (req i) (sheep s) /\ at_ s' i = Done (after (req i) (sheep s)) /\ forall j, j <> i -> at_ s' j = at_ s j.
Proof.
  intros req i s W F. cbn [interleave]. unfold step at 1. rewrite W. destruct (req i) as [b| |] eqn:R; cbn [bind].
  - rewrite (start_after b (sheep s)). unfold step at 1. cbn [at_ sheep]. rewrite put_same, R. cbn [bind at_ sheep]. unfold step. cbn [at_ sheep]. rewrite put_same.
    eexists. split; [reflexivity|]. cbn [at_ sheep]. split; [reflexivity|]. split; [apply put_same|]. intros j N. now rewrite !put_other.
  - unfold step at 1. cbn [at_ sheep]. rewrite put_same, R. cbn [bind at_ sheep]. unfold step. cbn [at_ sheep]. rewrite put_same.
    eexists. split; [reflexivity|]. cbn [at_ sheep]. split; [reflexivity|]. split; [apply put_same|]. intros j N. now rewrite !put_other.
  - unfold step at 1. cbn [at_ sheep]. rewrite put_same. destruct (Z.eqb_spec (sheep s) (2 ^ 63 - 1)) as [E|E]; [specialize (F eq_refl); lia|]. cbn [bind]. unfold step. cbn [at_ sheep]. rewrite put_same, R. cbn [bind].
    eexists. split; [reflexivity|]. cbn [at_ sheep after]. split; [reflexivity|]. split; [apply put_same|]. intros j N. now rewrite !put_other.
Qed.
Lemma interleave_app : forall req a b s, interleave req (a ++ b) s = (do s' <- interleave req a s; interleave req b s').
Proof. intros req a b. induction a as [|i a IH]; intros s; [reflexivity|]. cbn [app interleave]. destruct (step req i s) as [[s'|k]|]; [apply IH|reflexivity|apply IH]. Qed.

(** how many of the first n threads have written *)
Definition wrote (p : pc) : bool := match p with Stored | Done _ => true | _ => false end.
Fixpoint writers (f : nat -> pc) (n : nat) : Z := match n with O => 0 | S k => (if wrote (f k) then 1 else 0) + writers f k end.
Lemma writers_put : forall f i p n, (i < n)%nat -> writers (put f i p) n = writers f n + (if wrote p then 1 else 0) - (if wrote (f i) then 1 else 0).
Proof.
  assert (G : forall f i p n, (n <= i)%nat -> writers (put f i p) n = writers f n).
  { intros f i p. induction n as [|n IH]; intros L; [reflexivity|]. cbn [writers]. rewrite IH, put_other by lia. reflexivity. }
  intros f i p. induction n as [|n IH]; intros L; [lia|]. cbn [writers]. destruct (Nat.eq_dec i n) as [->|N].
  - rewrite put_same, G by lia. lia.
  - rewrite put_other, IH by lia. lia.
Qed.
Lemma writers_range : forall f n, 0 <= writers f n <= Z.of_nat n.
Proof. intros f. induction n as [|n IH]; [cbn; lia|]. cbn [writers]. destruct (wrote (f n)); lia. Qed.
Lemma writers_all : forall f n, (forall i, (i < n)%nat -> wrote (f i) = true) -> writers f n = Z.of_nat n.
Proof. intros f. induction n as [|n IH]; intros H; [reflexivity|]. cbn [writers]. rewrite (H n) by lia. rewrite IH by (intros; apply H; lia). lia. Qed.
Lemma writers_one : forall f n i, (i < n)%nat -> wrote (f i) = true -> 1 <= writers f n.
Proof.
  intros f n i L W. pose proof (writers_put f i Waiting n L) as E. rewrite W in E. cbn [wrote] in E. pose proof (writers_range (put f i Waiting) n). lia.
Qed.
Lemma writers_none : forall f n, (forall i, f i = Waiting) -> writers f n = 0.
Proof. intros f n H. induction n as [|n IH]; [reflexivity|]. cbn [writers]. rewrite H, IH. reflexivity. Qed.

(** adds only *)
Record tame (n : nat) (v : Z) (s : farm) : Prop := {
  t_low : v <= sheep s; t_up : sheep s <= v + writers (at_ s) n; t_one : 1 <= writers (at_ s) n -> v + 1 <= sheep s;
  t_loaded : forall i x, (i < n)%nat -> at_ s i = Loaded x -> v <= x <= v + writers (at_ s) n;
  t_done : forall i a, (i < n)%nat -> at_ s i = Done a -> v + 1 <= a <= v + writers (at_ s) n }.

Lemma tame_step : forall req n v s i s', (forall j, (j < n)%nat -> req j = Add) -> tame n v s -> (i < n)%nat -> step req i s = Some (Ret s') -> tame n v s'.
Proof.
  intros req n v s i s' A T L H. unfold step in H. destruct (at_ s i) as [|x| |a] eqn:P.
  - rewrite (A i L) in H. injection H as <-. assert (E : writers (put (at_ s) i (Loaded (sheep s))) n = writers (at_ s) n) by (rewrite writers_put by exact L; rewrite P; cbn [wrote]; lia).
    constructor; cbn [sheep at_]; rewrite ?E; try apply T.
    + intros j x LJ E1. destruct (Nat.eq_dec j i) as [->|N]; [rewrite put_same in E1; injection E1 as <-; split; apply T|rewrite put_other in E1 by exact N; now apply (t_loaded n v s T j)].
    + intros j b LJ E1. destruct (Nat.eq_dec j i) as [->|N]; [rewrite put_same in E1; discriminate|rewrite put_other in E1 by exact N; now apply (t_done n v s T j)].
  - destruct (x =? 2 ^ 63 - 1); [discriminate|]. injection H as <-. assert (E : writers (put (at_ s) i Stored) n = writers (at_ s) n + 1) by (rewrite writers_put by exact L; rewrite P; cbn [wrote]; lia).
    pose proof (t_loaded n v s T i x L P) as B. constructor; cbn [sheep at_]; rewrite ?E; try lia.
    + intros j y LJ E1. destruct (Nat.eq_dec j i) as [->|N]; [rewrite put_same in E1; discriminate|rewrite put_other in E1 by exact N]. pose proof (t_loaded n v s T j y LJ E1). lia.
    + intros j b LJ E1. destruct (Nat.eq_dec j i) as [->|N]; [rewrite put_same in E1; discriminate|rewrite put_other in E1 by exact N]. pose proof (t_done n v s T j b LJ E1). lia.
  - rewrite (A i L) in H. injection H as <-. assert (E : writers (put (at_ s) i (Done (sheep s))) n = writers (at_ s) n) by (rewrite writers_put by exact L; rewrite P; cbn [wrote]; lia).
    assert (O : 1 <= writers (at_ s) n) by (apply (writers_one _ _ i L); now rewrite P).
    constructor; cbn [sheep at_]; rewrite ?E; try apply T.
    + intros j x LJ E1. destruct (Nat.eq_dec j i) as [->|N]; [rewrite put_same in E1; discriminate|rewrite put_other in E1 by exact N; now apply (t_loaded n v s T j)].
    + intros j b LJ E1. destruct (Nat.eq_dec j i) as [->|N]; [rewrite put_same in E1; injection E1 as <-; split; [now apply T|apply T]|rewrite put_other in E1 by exact N; now apply (t_done n v s T j)].
  - discriminate.
Qed.
Lemma tame_runs : forall req n v s, (forall j, (j < n)%nat -> req j = Add) -> runs req n (mk_farm v (fun _ => Waiting)) s -> tame n v s.
Proof.
  intros req n v s A R. induction R as [|s i s' R IH L H].
  - constructor; cbn [sheep at_]; rewrite ?writers_none by reflexivity; try lia; intros i x _ E; discriminate.
  - now apply (tame_step req n v s i s').
Qed.

(** nobody between the read and the write of another *)
Record exact (n : nat) (v : Z) (s : farm) : Prop := {
  e_val : sheep s = v + writers (at_ s) n;
  e_load : forall i x, (i < n)%nat -> at_ s i = Loaded x -> x = sheep s;
  e_single : forall i j, (i < n)%nat -> (j < n)%nat -> busy s i -> busy s j -> i = j;
  e_done : forall i a, (i < n)%nat -> at_ s i = Done a -> v + 1 <= a <= sheep s }.
Lemma exact_runs : forall req n v s, (forall j, (j < n)%nat -> req j = Add) -> runs_locked req n (mk_farm v (fun _ => Waiting)) s -> exact n v s.
Proof.
  intros req n v s A R. induction R as [|s i s' R IH L B H].
  - constructor; cbn [sheep at_]; [rewrite writers_none by reflexivity; lia|discriminate|intros i j _ _ [x E]; discriminate|discriminate].
  - assert (NB : forall j, j <> i -> ~ busy s j) by (intros j N X; exact (N (B j X))). unfold step in H. destruct (at_ s i) as [|x| |a] eqn:P.
    + rewrite (A i L) in H. injection H as <-. assert (E : writers (put (at_ s) i (Loaded (sheep s))) n = writers (at_ s) n) by (rewrite writers_put by exact L; rewrite P; cbn [wrote]; lia).
      constructor; cbn [sheep at_]; rewrite ?E; [apply IH| | |].
      * intros j x LJ E1. destruct (Nat.eq_dec j i) as [->|N]; [rewrite put_same in E1; congruence|rewrite put_other in E1 by exact N; destruct (NB j N); now exists x].
      * assert (U : forall j, busy (mk_farm (sheep s) (put (at_ s) i (Loaded (sheep s)))) j -> j = i).
        { intros j [x E1]. cbn [at_] in E1. destruct (Nat.eq_dec j i) as [|N]; [assumption|]. rewrite put_other in E1 by exact N. destruct (NB j N); now exists x. }
        intros j k _ _ X Y. rewrite (U j X), (U k Y). reflexivity.
      * intros j b LJ E1. destruct (Nat.eq_dec j i) as [->|N]; [rewrite put_same in E1; discriminate|rewrite put_other in E1 by exact N; now apply (e_done n v s IH j)].
    + destruct (x =? 2 ^ 63 - 1); [discriminate|]. injection H as <-. pose proof (e_load n v s IH i x L P) as EX. pose proof (e_val n v s IH) as EV.
      assert (E : writers (put (at_ s) i Stored) n = writers (at_ s) n + 1) by (rewrite writers_put by exact L; rewrite P; cbn [wrote]; lia).
      assert (U : forall j, ~ busy (mk_farm (x + 1) (put (at_ s) i Stored)) j).
      { intros j [y E1]. cbn [at_] in E1. destruct (Nat.eq_dec j i) as [->|N]; [rewrite put_same in E1; discriminate|rewrite put_other in E1 by exact N]. destruct (NB j N); now exists y. }
      constructor; cbn [sheep at_]; rewrite ?E; [lia| | |].
      * intros j y LJ E1. destruct (U j). now exists y.
      * intros j k _ _ X. destruct (U j X).
      * intros j b LJ E1. destruct (Nat.eq_dec j i) as [->|N]; [rewrite put_same in E1; discriminate|rewrite put_other in E1 by exact N]. pose proof (e_done n v s IH j b LJ E1). lia.
    + rewrite (A i L) in H. injection H as <-. assert (E : writers (put (at_ s) i (Done (sheep s))) n = writers (at_ s) n) by (rewrite writers_put by exact L; rewrite P; cbn [wrote]; lia).
      assert (O : 1 <= writers (at_ s) n) by (apply (writers_one _ _ i L); now rewrite P). pose proof (e_val n v s IH) as EV.
      constructor; cbn [sheep at_]; rewrite ?E; [exact EV| | |].
      * intros j x LJ E1. destruct (Nat.eq_dec j i) as [->|N]; [rewrite put_same in E1; discriminate|rewrite put_other in E1 by exact N; now apply (e_load n v s IH j)].
      * intros j k LJ LK [x X] [y Y]. cbn [at_] in X, Y. destruct (Nat.eq_dec j i) as [->|N]; [rewrite put_same in X; discriminate|]. rewrite put_other in X by exact N. destruct (NB j N). now exists x.
      * intros j b LJ E1. destruct (Nat.eq_dec j i) as [->|N]; [rewrite put_same in E1; injection E1 as <-; lia|rewrite put_other in E1 by exact N; now apply (e_done n v s IH j)].
    + discriminate.
Qed.
