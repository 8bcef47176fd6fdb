(** C47-C50, C62, C63: the list of active websockets under concurrency, stopping an instance, waiting for a websocket. *)
From Coq Require Import ZArith Bool List Arith Lia.
From Verif Require Import Base ConcModel ConcSpec ConcProofs.
Import ListNotations.
Open Scope nat_scope.

(** C48. As long as openings do not overlap other uses of the list, nothing is accessed outside of the list, and between the changes the
    list contains exactly the counted websockets. *)
Theorem C48_consistent_partial : forall n s, reach_quiet n s ->
  (forall t, tstep n t s <> Some (Fault ListFault)) /\ ((forall i, ~ changing (ws s i)) -> consistent n s).
Proof.
  intros n s R. destruct (reach_inv n s R) as (l & V). pose proof (reach_locks n s (quiet_reach n s R)) as K. pose proof (quiet_now n s R) as Q. split.
  - intros t H. destruct t as [i|]; cbn [tstep] in H.
    + destruct (Nat.ltb_spec i n) as [LI|]; [|discriminate]. pose proof (inv_wstep n i s l LI K Q V) as W. rewrite H in W. discriminate W.
    + pose proof (inv_sstep n s l K Q V) as W. rewrite H in W. exact W.
  - intros NC. exists l. split; [exact (v_nodup n s l V)|]. split; [exact (v_mem n s l V)|]. split; [exact (v_nb n s l V)|]. exact (table_idle _ _ (v_table n s l V) NC).
Qed.
Print Assumptions C48_consistent_partial.

Definition times (k : nat) (t : tid) : list tid := repeat t k.
Lemma schedule_reach : forall n l s s', reach n s -> schedule n l s = Some (Next s') -> reach n s'.
Proof.
  intros n. induction l as [|t l IH]; intros s s' R H; cbn [schedule] in H; [injection H as <-; exact R|].
  destruct (tstep n t s) as [[s1|k]|] eqn:E; try discriminate. apply (IH s1); [econstructor; eauto|exact H].
Qed.

(** C48, refuted: two connections opening at the same time. Both read the pointer to the list; the second o_realloc is given the block that the
    first one has released; *)
Theorem C48_realloc_race_refuted : exists s, reach 3 s /\ tstep 3 (TW 2) s = Some (Fault ListFault).
Proof.
  destruct (schedule 3 (times 9 (TW 0) ++ [TW 1; TW 2; TW 1]) init) as [[s|k]|] eqn:E; [|discriminate E|discriminate E].
  exists s. split; [eapply schedule_reach; [constructor|exact E]|]. revert E. vm_compute. intros [= <-]. reflexivity.
Qed.
Print Assumptions C48_realloc_race_refuted.

(** or both make room for one websocket, and the second is written after the end of the block; *)
Theorem C48_overflow_refuted : exists s b l, reach 2 s /\ ws s 1 = WLockedA /\ ptr s = Some b /\ heap s b = Some l /\ nb s = length l /\ tstep 2 (TW 1) s = Some (Fault ListFault).
Proof.
  destruct (schedule 2 [TW 0; TW 1; TW 1; TW 1; TW 0; TW 0; TW 0; TW 0; TW 0; TW 0; TW 1] init) as [[s|k]|] eqn:E; [|discriminate E|discriminate E].
  exists s, 1, [Some 0]. split; [eapply schedule_reach; [constructor|exact E]|]. revert E. vm_compute. intros [= <-]. repeat split; reflexivity.
Qed.
Print Assumptions C48_overflow_refuted.

(** or a websocket that is open is not in the list: the stopping thread reads an entry that was never written *)
Theorem C48_lost_entry_refuted : exists s, reach 2 s /\ ws s 0 = WOpen /\ tstep 2 TS s = Some (Fault ListFault).
Proof.
  destruct (schedule 2 [TW 1; TW 0; TW 0; TW 0; TW 0; TW 0; TW 0; TW 0; TW 0; TW 1; TW 1; TS] init) as [[s|k]|] eqn:E; [|discriminate E|discriminate E].
  exists s. split; [eapply schedule_reach; [constructor|exact E]|]. revert E. vm_compute. intros [= <-]. split; reflexivity.
Qed.
Print Assumptions C48_lost_entry_refuted.

Lemma schedule_quiet : forall n l s s', reach_quiet n s -> (forall k s1, schedule n (firstn k l) s = Some (Next s1) -> quiet s1) -> schedule n l s = Some (Next s') -> reach_quiet n s'.
Proof.
  intros n. induction l as [|t l IH]; intros s s' R Q H; cbn [schedule] in H; [injection H as <-; exact R|].
  destruct (tstep n t s) as [[s1|k]|] eqn:E; try discriminate. apply (IH s1); [|intros k s2 H2|exact H].
  - econstructor; [exact R|exact E|]. apply (Q 1). cbn [firstn schedule]. now rewrite E.
  - apply (Q (S k)). cbn [firstn schedule]. now rewrite E.
Qed.

(** ** C47 *)
(** whatever the schedule, the stopping thread only sleeps while there are websockets or somebody is about to wake it up *)
Theorem C47_no_missed_wakeup : forall n s, reach n s -> stop s = SAsleep -> 0 < nb s \/ exists i, ws s i = WDec \/ ws s i = WCLocked.
Proof. exact wake_inv. Qed.
Print Assumptions C47_no_missed_wakeup.

Definition wrank (p : wpc) : nat :=
  match p with
  | WIdle | WGone => 0 | WRead _ _ => 18 | WAlloc _ => 17 | WStored => 16 | WLockedA => 15 | WWritten => 14 | WCounted => 13 | WAdded => 12 | WOpen => 11 | WClosing => 10
  | WLockedR => 9 | WShifted => 8 | WMoved _ => 7 | WFreed => 7 | WResized => 6 | WDec => 5 | WCLocked => 4 | WBcast => 3 | WUnlocking => 2
  end.
Definition srank (p : spc) : nat :=
  match p with SInit => 10 | SLocked => 9 | SFlagged => 8 | SUnlocked => 7 | SWoken => 7 | SHave => 6 | SAsleep => 5 | SExit => 4 | SOut => 3 | SStopped => 2 | SCleaned => 1 end.
Fixpoint total (f : nat -> wpc) (n : nat) : nat := match n with O => 0 | S k => wrank (f k) + total f k end.
Definition steps_left (n : nat) (s : sys) : nat := 4 * total (ws s) n + srank (stop s).

Lemma total_upd : forall f i p n, total (upd f i p) n + (if i <? n then wrank (f i) else 0) = total f n + (if i <? n then wrank p else 0).
Proof.
  intros f i p. induction n as [|n IH]; [reflexivity|]. cbn [total]. unfold upd at 1. destruct (Nat.eqb_spec n i) as [->|N].
  - rewrite Nat.ltb_irrefl in IH. replace (i <? S i) with true by (symmetry; apply Nat.ltb_lt; lia). lia.
  - destruct (Nat.ltb_spec i n), (Nat.ltb_spec i (S n)); lia.
Qed.

Lemma step_left : forall n t s s', tstep n t s = Some (Next s') -> match t with TW i => ws s i <> WIdle | TS => True end -> steps_left n s' < steps_left n s.
Proof.
  intros n t s s' H NI. unfold steps_left. destruct t as [i|]; cbn [tstep] in H.
  - destruct (i <? n) eqn:LI; [|discriminate].
    assert (G : forall p', ws s' = upd (ws s) i p' -> wrank p' < wrank (ws s i) -> srank (stop s') <= srank (stop s) + 2 -> 4 * total (ws s') n + srank (stop s') < 4 * total (ws s) n + srank (stop s)).
    { intros p' E R1 R2. pose proof (total_upd (ws s) i p' n) as T. rewrite LI in T. rewrite E. lia. }
    unfold wstep, guard in H. destruct (ws s i) eqn:PC; cases H; try congruence; injection H as <-;
      try (match goal with R : reallocate _ _ _ = Some (_, _) |- _ => apply reallocate_same in R as (R1 & R2 & R3 & R4 & R5 & R6 & R7 & R8 & R9) end);
      (eapply G; cbn; [try rewrite R5; reflexivity|cbn; lia|try rewrite R6; try lia]).
    unfold wake. destruct (stop s); cbn; lia.
  - unfold sstep in H. destruct (stop s) eqn:PC; cases H; injection H as <-; cbn; lia.
Qed.

(** every execution in which the websockets end and no other is opened is finite, *)
Theorem C47_bounded : forall n k s s', finishing n k s s' -> k + steps_left n s' <= steps_left n s.
Proof.
  intros n k s s' F. induction F as [s|k i s s1 s' NI H F IH|k s s1 s' NS H F IH]; [lia| |].
  - pose proof (step_left n (TW i) s s1 H NI). lia.
  - pose proof (step_left n TS s s1 H I). lia.
Qed.
Print Assumptions C47_bounded.

Lemma guard_none : forall s r, guard s r = None -> r = None.
Proof. intros s [r|]; [|reflexivity]. unfold guard. destruct (freed s); discriminate. Qed.

(** and it can only end with the instance stopped *)
Theorem C47_stops_partial : forall n s, reach_quiet n s -> halted n s ->
  (stop s = SStopped \/ stop s = SCleaned) /\ nb s = 0 /\ forall i, ws s i = WIdle \/ ws s i = WGone.
Proof.
  intros n s R [HW HS]. pose proof (quiet_reach n s R) as R'. pose proof (reach_locks n s R') as K. destruct (reach_inv n s R) as (l & V).
  assert (LT : forall i, ws s i <> WIdle -> i < n).
  { intros i NI. destruct (Nat.ltb_spec i n); [assumption|]. exfalso. apply NI. now apply (k_n n s K). }
  assert (DEC : forall i, ws s i <> WDec).
  { intros i E. assert (LI : i < n) by (apply LT; rewrite E; discriminate). pose proof (HW i LI) as H. rewrite E in H. specialize (H ltac:(discriminate)). unfold wstep in H. rewrite E in H. apply guard_none in H.
    destruct (clock s) as [[j|]|] eqn:CL.
    - apply (k_c n s K) in CL. assert (NJ : ws s j <> WIdle) by (intros Q; rewrite Q in CL; discriminate). pose proof (HW j (LT j NJ) NJ) as HJ. unfold wstep in HJ.
      destruct (ws s j); try discriminate CL; apply guard_none in HJ; discriminate HJ.
    - apply (k_cs n s K) in CL. assert (NS : stop s <> SStopped) by (intros Q; rewrite Q in CL; discriminate). pose proof (HS NS) as HJ. unfold sstep in HJ.
      destruct (stop s); try discriminate CL; cases HJ; discriminate HJ.
    - discriminate H. }
  assert (NOA : forall j, alock s <> Some (TW j)).
  { intros j AL. apply (k_a n s K) in AL. assert (NJ : ws s j <> WIdle) by (intros Q; rewrite Q in AL; discriminate). pose proof (HW j (LT j NJ) NJ) as HJ. unfold wstep in HJ.
    pose proof (DEC j) as DJ. destruct (ws s j); try discriminate AL; try apply guard_none in HJ; cases HJ; try discriminate HJ; try congruence. }
  assert (NOS : alock s <> Some TS).
  { intros AL. apply (k_as n s K) in AL. assert (NS : stop s <> SStopped) by (intros Q; rewrite Q in AL; discriminate). pose proof (HS NS) as HJ. unfold sstep in HJ.
    destruct (stop s); try discriminate AL; cases HJ; discriminate HJ. }
  assert (AN : alock s = None) by (destruct (alock s) as [[j|]|]; [now destruct (NOA j)|congruence|reflexivity]).
  assert (DONE : forall i, ws s i = WIdle \/ ws s i = WGone).
  { intros i. destruct (Nat.ltb_spec i n) as [LI|LI]; [|left; now apply (k_n n s K)]. pose proof (HW i LI) as H. pose proof (DEC i) as DI. unfold wstep in H. rewrite AN in H.
    destruct (ws s i); auto; exfalso; specialize (H ltac:(discriminate)); try apply guard_none in H; cases H; try discriminate H; congruence. }
  assert (NL : l = []).
  { destruct l as [|x l]; [reflexivity|]. exfalso. assert (IN : In x (x :: l)) by (now left). apply (v_mem n s _ V) in IN as [_ C]. destruct (DONE x) as [E|E]; rewrite E in C; exact C. }
  assert (NB : nb s = 0) by (rewrite (v_nb n s l V), NL; reflexivity).
  split; [|auto].
  assert (CN : sC (stop s) = false -> clock s = None).
  { intros SC. destruct (clock s) as [[j|]|] eqn:CL; auto.
    - apply (k_c n s K) in CL. destruct (DONE j) as [E|E]; rewrite E in CL; discriminate.
    - apply (k_cs n s K) in CL. congruence. }
  assert (CD : connections_done n s = true).
  { unfold connections_done. apply forallb_forall. intros i _. destruct (DONE i) as [E|E]; rewrite E; reflexivity. }
  unfold sstep in HS. destruct (stop s) eqn:PC; auto; exfalso; specialize (HS ltac:(discriminate)).
  - rewrite AN in HS. discriminate.
  - rewrite NB in HS. discriminate.
  - discriminate.
  - rewrite CN in HS by reflexivity. discriminate.
  - rewrite NB in HS. discriminate.
  - destruct (wake_inv n s R' PC) as [P|(i & P)]; [lia|]. destruct (DONE i) as [E|E]; rewrite E in P; destruct P; discriminate.
  - rewrite CN in HS by reflexivity. discriminate.
  - discriminate.
  - rewrite CD in HS. discriminate.
Qed.
Print Assumptions C47_stops_partial.

(** C47, refuted without that condition: six websockets, of which the one that read the empty list before the others stores its pointer in the
    middle of a removal; nothing is accessed outside of the list, all the websockets end, but the entry of one of them has been replaced by a
    second copy of another: it does not find itself, the count stays at 1, and the thread that stops the instance sleeps for ever *)
Theorem C47_hang_refuted : exists s, reach 6 s /\ halted 6 s /\ stop s = SAsleep /\ nb s = 1 /\ (forall i, i < 6 -> ws s i = WGone) /\
  (forall k s', finishing 6 k (at_s s SWoken) s' -> stop s' <> SStopped).
Proof.
  destruct (schedule 6 (times 1 (TW 0) ++ times 2 (TW 1) ++ times 7 (TW 0) ++ times 8 (TW 2) ++ times 8 (TW 3) ++ times 1 (TW 0) ++ times 1 (TW 2) ++ times 1 (TW 3) ++
    times 4 (TW 0) ++ times 1 (TW 4) ++ times 5 (TW 0) ++ times 2 (TW 2) ++ times 1 (TW 4) ++ times 1 (TW 1) ++ times 2 (TW 2) ++ times 3 (TW 5) ++ times 5 (TW 2) ++
    times 2 (TW 5) ++ times 1 (TW 4) ++ times 3 (TW 5) ++ times 5 (TW 4) ++ times 5 (TW 1) ++ times 1 (TW 5) ++ times 1 (TW 4) ++ times 1 (TW 1) ++ times 3 (TW 5) ++
    times 9 (TW 3) ++ times 9 (TW 4) ++ times 9 (TW 1) ++ times 5 TS) init) as [[s|k]|] eqn:E; [|vm_compute in E; discriminate E|vm_compute in E; discriminate E].
  assert (G : forall i, i < 6 -> ws s i = WGone).
  { intros i LI. revert E. do 6 (destruct i as [|i]; [vm_compute; intros [= <-]; reflexivity|]). lia. }
  assert (A : stop s = SAsleep /\ nb s = 1 /\ clock s = None) by (revert E; vm_compute; intros [= <-]; repeat split; reflexivity). destruct A as (A1 & A2 & A3).
  exists s. split; [eapply schedule_reach; [constructor|exact E]|]. split; [split; [intros i LI _; unfold wstep; now rewrite (G i LI)|intros _; unfold sstep; now rewrite A1]|].
  split; [exact A1|]. split; [exact A2|]. split; [exact G|].
  assert (W : forall k a b, finishing 6 k a b -> (forall i, i < 6 -> ws a i = WGone) -> nb a = 1 -> stop a = SWoken \/ stop a = SHave \/ stop a = SAsleep -> stop b = SWoken \/ stop b = SHave \/ stop b = SAsleep).
  { intros k a b F. induction F as [a|k i a a1 b NI H F IH|k a a1 b NS H F IH]; intros GA NA SA; [exact SA| |].
    - cbn [tstep] in H. destruct (Nat.ltb_spec i 6) as [LI|LI]; [|discriminate]. unfold wstep in H. rewrite (GA i LI) in H. discriminate.
    - cbn [tstep] in H. unfold sstep in H. destruct SA as [SA|[SA|SA]]; rewrite SA in H.
      + destruct (clock a); [discriminate|]. injection H as <-. apply IH; cbn; auto.
      + rewrite NA in H. injection H as <-. apply IH; cbn; auto.
      + discriminate. }
  intros k s' F. assert (D := W _ _ _ F G A2 (or_introl eq_refl)). destruct D as [D|[D|D]]; rewrite D; discriminate.
Qed.
Print Assumptions C47_hang_refuted.

(** ** C49 *)
(** refuted: the thread of the last websocket decrements the count, the stopping thread sees zero, returns, and the instance is cleaned, before
    the websocket thread locks websocket_close_lock *)
Theorem C49_count_before_broadcast_refuted : exists s, reach 1 s /\ ws s 0 = WDec /\ stop s = SCleaned /\ tstep 1 (TW 0) s = Some (Fault HandlerFault).
Proof.
  destruct (schedule 1 (times 9 (TW 0) ++ times 3 TS ++ times 4 (TW 0) ++ times 5 TS) init) as [[s|k]|] eqn:E; [|discriminate E|discriminate E].
  exists s. split; [eapply schedule_reach; [constructor|exact E]|]. revert E. vm_compute. intros [= <-]. repeat split; reflexivity.
Qed.
Print Assumptions C49_count_before_broadcast_refuted.

(** refuted: a websocket opened after the stopping thread has looked at the count and before the daemon is stopped *)
Theorem C49_late_opening_refuted : exists s, reach 1 s /\ ws s 0 = WOpen /\ stop s = SCleaned /\ tstep 1 (TW 0) s = Some (Fault HandlerFault).
Proof.
  destruct (schedule 1 (times 6 TS ++ times 8 (TW 0) ++ times 2 TS) init) as [[s|k]|] eqn:E; [|discriminate E|discriminate E].
  exists s. split; [eapply schedule_reach; [constructor|exact E]|]. revert E. vm_compute. intros [= <-]. repeat split; reflexivity.
Qed.
Print Assumptions C49_late_opening_refuted.

Lemma settled_quiet : forall n s, reach_settled n s -> reach_quiet n s /\ settled s.
Proof.
  intros n s R. induction R as [|s t s' R IH H Q S|s R IH E].
  - split; [constructor|]. intros H. now destruct H.
  - split; [|exact S]. destruct IH as [IH _]. econstructor; eauto.
  - destruct IH as [IH S]. split; [now constructor|]. intros _ i. cbn. apply S. rewrite E. discriminate.
Qed.

Definition past (p : spc) : Prop := match p with SExit | SOut | SStopped | SCleaned => True | _ => False end.
Lemma past_inv : forall n s, reach_settled n s -> past (stop s) -> forall i, ~ counted (ws s i).
Proof.
  intros n s R. induction R as [|s t s' R IH H Q S|s R IH E]; [intros []| |intros []]. intros P i C.
  destruct (settled_quiet n s R) as [RQ ST]. destruct (reach_inv n s RQ) as (l & V).
  destruct t as [j|]; cbn [tstep] in H.
  - destruct (Nat.ltb_spec j n) as [LJ|]; [|discriminate].
    assert (PS : past (stop s)).
    { unfold wstep, guard in H. cases H; injection H as <-; try (match goal with R : reallocate _ _ _ = Some (_, _) |- _ => apply reallocate_same in R as (R1 & R2 & R3 & R4 & R5 & R6 & R7 & R8 & R9) end); cbn in P; try (now rewrite R6 in P); try exact P.
      unfold wake in P. destruct (stop s); auto. }
    assert (NW : in_connection (ws s j) = false) by (apply ST; intros Q2; rewrite Q2 in PS; exact PS).
    pose proof (IH PS i) as NI. pose proof (IH PS j) as NJ. unfold wstep, guard in H.
    destruct (ws s j) eqn:PC; try discriminate NW; cases H; injection H as <-; cbn in C;
      try (match goal with R : reallocate _ _ _ = Some (_, _) |- _ => apply reallocate_same in R as (R1 & R2 & R3 & R4 & R5 & R6 & R7 & R8 & R9); try rewrite R5 in C end);
      unfold upd in C; destruct (i =? j) eqn:EQ; try (now apply NI); try (exact C); apply NJ; exact I.
  - unfold sstep in H. destruct (stop s) eqn:PC; cases H; injection H as <-; cbn in P, C; try contradiction; try (now apply (IH I i)).
    (* SHave, no websocket *)
    assert (NB : length l = 0) by (rewrite <- (v_nb n s l V); match goal with G : (0 <? nb s) = false |- _ => apply Nat.ltb_ge in G; lia end).
    assert (IN : In i l). { apply (v_mem n s l V). split; [|exact C]. destruct (Nat.ltb_spec i n) as [|G]; [assumption|]. exfalso. rewrite (k_n n s (reach_locks n s (quiet_reach n s RQ)) i G) in C. exact C. }
    destruct l; [destruct IN|discriminate NB].
Qed.

(** the true part: without openings during the stop, once the stopping thread has left its loop every websocket thread is done with the list, and only the last
    instructions of the removal (broadcast and unlocking) can meet the released instance *)
Theorem C49_only_leaving_partial : forall n s, reach_settled n s -> (stop s = SOut \/ stop s = SStopped \/ stop s = SCleaned) ->
  (forall i, ws s i = WIdle \/ ws s i = WGone \/ leaving (ws s i)) /\ (forall i, tstep n (TW i) s = Some (Fault HandlerFault) -> leaving (ws s i)).
Proof.
  intros n s R ST. assert (PS : past (stop s)) by (destruct ST as [E|[E|E]]; rewrite E; exact I).
  assert (A : forall i, ws s i = WIdle \/ ws s i = WGone \/ leaving (ws s i)).
  { intros i. pose proof (past_inv n s R PS i) as NC. destruct (settled_quiet n s R) as [_ SE].
    assert (NI : in_connection (ws s i) = false) by (apply SE; intros Q; rewrite Q in PS; exact PS).
    destruct (ws s i); try discriminate NI; cbn in NC |- *; tauto. }
  split; [exact A|]. intros i H. destruct (A i) as [E|[E|E]]; [| |exact E]; cbn [tstep] in H; destruct (i <? n); try discriminate; unfold wstep in H; rewrite E in H; [|discriminate].
  destruct (settled_quiet n s R) as [RQ _]. pose proof (reach_locks n s (quiet_reach n s RQ)) as K.
  destruct (daemon s) eqn:D; [|discriminate]. apply (k_daemon n s K) in D. unfold guard in H. destruct (freed s) eqn:F; [|discriminate]. apply (k_freed n s K) in F. tauto.
Qed.
Print Assumptions C49_only_leaving_partial.

(** ** C62: the close signal *)
Theorem C62_signal_reset_refuted : exists s s' s'', reach 1 s /\ counted (ws s 0) /\ stop s = SLocked /\ tstep 1 TS s = Some (Next s') /\ flag s' 0 = true /\
  tstep 1 (TW 0) s' = Some (Next s'') /\ ws s'' 0 = WOpen /\ flag s'' 0 = false.
Proof.
  destruct (schedule 1 (times 7 (TW 0) ++ [TS]) init) as [[s|k]|] eqn:E; [|discriminate E|discriminate E].
  assert (R : reach 1 s) by (eapply schedule_reach; [constructor|exact E]). destruct (tstep 1 TS s) as [[s'|k]|] eqn:E1; [|exfalso; revert E1|exfalso; revert E1].
  2: { revert E. vm_compute. intros [= <-]. discriminate. }
  2: { revert E. vm_compute. intros [= <-]. discriminate. }
  exists s, s'. destruct (tstep 1 (TW 0) s') as [[s''|k]|] eqn:E2; [exists s''|exfalso|exfalso].
  - split; [exact R|]. revert E1 E2. revert E. vm_compute. intros [= <-]. intros [= <-]. intros [= <-]. repeat split.
  - revert E1 E2. revert E. vm_compute. intros [= <-]. intros [= <-]. discriminate.
  - revert E1 E2. revert E. vm_compute. intros [= <-]. intros [= <-]. discriminate.
Qed.
Print Assumptions C62_signal_reset_refuted.

(** the true part: every counted websocket is signalled, and the signal stays if the websocket thread had been started *)
Theorem C62_signalled_partial : forall n s s', reach_quiet n s -> stop s = SLocked -> tstep n TS s = Some (Next s') -> forall i, counted (ws s i) -> flag s' i = true.
Proof.
  intros n s s' R PC H i C. destruct (reach_inv n s R) as (l & V). pose proof (reach_locks n s (quiet_reach n s R)) as K. pose proof (quiet_now n s R) as [_ Q2].
  assert (NC : forall j, ~ changing (ws s j)).
  { intros j CJ. assert (AL : alock s = Some TS) by (apply (k_as n s K); now rewrite PC).
    assert (HJ : holdsA (ws s j) = false) by (destruct (holdsA (ws s j)) eqn:E; auto; apply (k_a n s K) in E; rewrite AL in E; congruence).
    assert (U : unlocked_add (ws s j)) by (destruct (ws s j); try discriminate HJ; try (destruct CJ; fail); exact I). now apply (Q2 j U). }
  assert (IN : In i l). { apply (v_mem n s l V). split; [|exact C]. destruct (Nat.ltb_spec i n) as [|G]; [assumption|]. exfalso. rewrite (k_n n s K i G) in C. exact C. }
  pose proof (table_idle _ _ (v_table n s l V) NC) as [[-> _]|[NE BL]]; [destruct IN|].
  cbn [tstep] in H. unfold sstep in H. rewrite PC, BL, (v_nb n s l V), entries_all in H. destruct (length l) eqn:LL; [destruct l; [congruence|discriminate LL]|].
  injection H as <-. cbn. unfold raise_flags. replace (existsb (Nat.eqb i) l) with true; [reflexivity|]. symmetry. apply existsb_exists. exists i. split; [exact IN|apply Nat.eqb_refl].
Qed.
Print Assumptions C62_signalled_partial.

Theorem C62_signal_stays_partial : forall n t s s' i, tstep n t s = Some (Next s') -> flag s i = true -> ws s i <> WAdded -> flag s' i = true.
Proof.
  intros n t s s' i H F NA. destruct t as [j|]; cbn [tstep] in H.
  - destruct (j <? n); [|discriminate]. unfold wstep, guard in H.
    destruct (ws s j) eqn:PC; cases H; injection H as <-; cbn; auto;
      try (match goal with R : reallocate _ _ _ = Some (_, _) |- _ => apply reallocate_same in R as (R1 & R2 & R3 & R4 & R5 & R6 & R7 & R8 & R9); cbn; now rewrite R7 end).
    unfold upd. destruct (Nat.eqb_spec i j) as [->|N]; [congruence|exact F].
  - unfold sstep in H. destruct (stop s) eqn:PC; cases H; injection H as <-; cbn; auto. unfold raise_flags. now destruct (existsb (Nat.eqb i) _).
Qed.
Print Assumptions C62_signal_stays_partial.

(** ** examples: two websockets opened, one closed, the instance stopped while the other one is open *)
Definition story : list tid := times 8 (TW 0) ++ times 8 (TW 1) ++ times 10 (TW 0) ++ times 5 TS ++ times 9 (TW 1) ++ times 4 TS.
Lemma quiet_story : forall k s, schedule 2 (firstn k story) init = Some (Next s) -> quiet s.
Proof.
  assert (G : forall s p q, ws s 0 = p -> ws s 1 = q -> (forall i, 2 <= i -> ws s i = WIdle) -> ~ (unlocked_add p /\ touching q) -> ~ (unlocked_add q /\ touching p) ->
    (unlocked_add p \/ unlocked_add q -> stop s <> SLocked) -> quiet s).
  { intros s p q P Q W A B C. assert (D : forall i, ws s i = WIdle \/ i = 0 \/ i = 1) by (intros [|[|i]]; auto; left; apply W; lia). split.
    - intros i j N U T. destruct (D i) as [E|[->| ->]]; [rewrite E in U; exact U| |]; (destruct (D j) as [E|[->| ->]]; [rewrite E in T; destruct T as [T|T]; [exact T|discriminate]| |]); try congruence;
        rewrite P, Q in *; tauto.
    - intros i U. apply C. destruct (D i) as [E|[->| ->]]; [rewrite E in U; destruct U|rewrite P in U; auto|rewrite Q in U; auto]. }
  intros k s H. do 50 (destruct k as [|k]; [vm_compute in H; injection H as <-; eapply G; [reflexivity|reflexivity|intros [|[|i]] LE; [lia|lia|reflexivity]| | |]; cbn; unfold touching; cbn; intuition discriminate|]).
  rewrite firstn_all2 in H by (cbn; lia). vm_compute in H; injection H as <-. eapply G; [reflexivity|reflexivity|intros [|[|i]] LE; [lia|lia|reflexivity]| | |]; cbn; unfold touching; cbn; intuition discriminate.
Qed.
Example story_ends : exists s, reach_quiet 2 s /\ stop s = SStopped /\ halted 2 s /\ nb s = 0 /\ ptr s = None.
Proof.
  destruct (schedule 2 story init) as [[s|k]|] eqn:E; [|vm_compute in E; discriminate E|vm_compute in E; discriminate E]. exists s.
  split; [eapply schedule_quiet; [constructor|exact quiet_story|exact E]|]. revert E. vm_compute. intros [= <-]. split; [reflexivity|]. split; [|auto].
  split; [|intros H; now destruct H]. intros [|[|i]] L _; [reflexivity|reflexivity|lia].
Qed.

Example C48_example : exists s, reach_quiet 2 s /\ ws s 0 = WOpen /\ ws s 1 = WOpen /\ nb s = 2 /\ block s = Some [Some 0; Some 1].
Proof.
  destruct (schedule 2 (firstn 16 story) init) as [[s|k]|] eqn:E; [|vm_compute in E; discriminate E|vm_compute in E; discriminate E]. exists s.
  split; [eapply schedule_quiet; [constructor| |exact E]|].
  - intros k s1 H. rewrite firstn_firstn in H. now apply quiet_story in H.
  - vm_compute in E. injection E as <-. repeat split.
Qed.

(** the same story, up to ulfius_clean_instance, meets the hypotheses of C49 *)
Lemma schedule_settled : forall n l s s', reach_settled n s -> (forall k s1, schedule n (firstn k l) s = Some (Next s1) -> quiet s1 /\ settled s1) -> schedule n l s = Some (Next s') -> reach_settled n s'.
Proof.
  intros n. induction l as [|t l IH]; intros s s' R Q H; cbn [schedule] in H; [injection H as <-; exact R|].
  destruct (tstep n t s) as [[s1|k]|] eqn:E; try discriminate. apply (IH s1); [|intros k s2 H2|exact H].
  - assert (QS : quiet s1 /\ settled s1) by (apply (Q 1); cbn [firstn schedule]; now rewrite E). econstructor; [exact R|exact E|apply QS|apply QS].
  - apply (Q (S k)). cbn [firstn schedule]. now rewrite E.
Qed.
Lemma story_settled : forall k s, schedule 2 (firstn k story) init = Some (Next s) -> settled s.
Proof.
  assert (G : forall s, (forall i, 2 <= i -> ws s i = WIdle) -> (stop s <> SInit -> in_connection (ws s 0) = false /\ in_connection (ws s 1) = false) -> settled s).
  { intros s W A N [|[|i]]; [apply A, N|apply A, N|]. rewrite W by lia. reflexivity. }
  intros k s H. do 50 (destruct k as [|k]; [vm_compute in H; injection H as <-; apply G; [intros [|[|i]] LE; [lia|lia|reflexivity]|cbn; intros N; try congruence; auto]|]).
  rewrite firstn_all2 in H by (cbn; lia). vm_compute in H; injection H as <-; apply G; [intros [|[|i]] LE; [lia|lia|reflexivity]|cbn; intros N; try congruence; auto].
Qed.
Example C49_example : exists s, reach_settled 2 s /\ stop s = SStopped /\ ws s 0 = WGone /\ ws s 1 = WGone.
Proof.
  destruct (schedule 2 story init) as [[s|k]|] eqn:E; [|vm_compute in E; discriminate E|vm_compute in E; discriminate E]. exists s.
  split; [eapply schedule_settled; [constructor| |exact E]|].
  - intros k s1 H. split; [now apply quiet_story in H|now apply story_settled in H].
  - vm_compute in E. injection E as <-. repeat split.
Qed.

(** ** C50, C63: waiting for the end of a client websocket *)
Definition woken_ok (s : wait) : Prop :=
  match waiter s with
  | VWait => True
  | VAwake | VHave | VRet _ | VCleared => connected s = false
  | _ => True
  end /\ (cthread s <> CRun -> connected s = false) /\ (forall st, waiter s = VRet st -> st = STATUS_CLOSE).

(** C50, without spurious wake-ups: the function returns CLOSE, and only when the connection has ended *)
Theorem C50_close_means_closed_partial : forall s, waits wait0 s -> forall st, waiter s = VRet st -> st = STATUS_CLOSE /\ connected s = false.
Proof.
  intros s W. assert (G : woken_ok s).
  { remember wait0 as s0 eqn:E0. induction W as [s|a b c W IH V]; subst.
    - split; [exact I|]. split; [intros H; now destruct H|discriminate].
    - specialize (IH eq_refl). destruct IH as (I1 & I2 & I3). destruct V; cbn in *; unfold woken_ok; cbn;
        try (destruct v; cbn in *; repeat split; intros; try discriminate; auto; try congruence; try (apply I2; discriminate); fail);
        try (repeat split; intros; try discriminate; auto; try congruence; try (apply I2; discriminate); fail). }
  intros st E. destruct G as (G1 & _ & G3). rewrite E in G1. auto.
Qed.
Print Assumptions C50_close_means_closed_partial.

(** and a waiter that sleeps before the broadcast is woken: whatever happens, when nothing can move any more it has returned and released the websocket *)
Theorem C50_woken_partial : forall s s', waiter s = VWait -> before_broadcast (cthread s) -> (slock s = None \/ slock s = Some true /\ cthread s = CLocked) ->
  (cthread s = CRun <-> connected s = true) -> (cthread s = CLocked -> slock s = Some true) ->
  waits s s' -> (forall s2, ~ vstep s' s2) -> waiter s' = VCleared.
Proof.
  intros s s' W B L C K X STUCK.
  assert (G : (waiter s' = VWait /\ before_broadcast (cthread s') /\ (cthread s' = CLocked <-> slock s' = Some true) /\ (slock s' = None \/ cthread s' = CLocked) /\ (cthread s' = CRun <-> connected s' = true)) \/
              (waiter s' = VAwake /\ ((cthread s' = CBroadcast /\ slock s' = Some true) \/ (cthread s' = CEnd /\ slock s' = None))) \/ (waiter s' = VHave /\ cthread s' = CEnd /\ slock s' = Some false) \/ (waiter s' = VRet STATUS_CLOSE /\ cthread s' = CEnd) \/ (waiter s' = VCleared /\ cthread s' = CEnd)).
  { clear STUCK. induction X as [s|a b c X IH V].
    - left. split; [exact W|]. split; [exact B|]. split; [split; [exact K|]|]; [|split; [|exact C]].
      + intros E. destruct L as [L|[_ L]]; [congruence|exact L].
      + destruct L as [L|[_ L]]; auto.
    - specialize (IH W B L C K). destruct IH as [(G1 & G2 & G3 & G4 & G5)|[(G1 & G2)|[(G1 & G2 & G3)|[(G1 & G2)|(G1 & G2)]]]]; destruct V; cbn in *; try discriminate; try contradiction; try congruence;
        try (subst v; cbn).
      all: try (left; repeat split; auto; intros; try discriminate; intuition congruence).
      all: try (right; left; split; [reflexivity|]; left; split; [reflexivity|]; apply G3; reflexivity).
      all: try (right; left; split; [reflexivity|]; right; auto; fail).
      all: try (destruct G2 as [[? ?]|[? ?]]; try discriminate; try congruence).
      all: try (right; left; split; [reflexivity|]; right; auto; fail).
      all: try (right; right; left; auto; fail).
      all: try (right; right; right; left; auto; fail).
      all: try (right; right; right; right; auto; fail). }
  destruct s' as [c p v k]. cbn in G. destruct G as [(-> & G2 & G3 & G4 & G5)|[(-> & G2)|[(-> & -> & ->)|[(-> & ->)|(-> & ->)]]]]; auto; exfalso.
  - destruct p; cbn in G2; try contradiction.
    + assert (c = true) by (now apply G5). subst c. eapply STUCK. apply c_end.
    + eapply STUCK. apply c_close.
    + destruct G4 as [->|]; [|discriminate]. eapply STUCK. apply c_lock.
    + eapply STUCK. apply c_broadcast.
  - destruct G2 as [(-> & ->)|(-> & ->)]; eapply STUCK; [apply c_unlock|apply v_relock].
  - eapply STUCK. apply v_unlock.
  - eapply STUCK. apply v_clear.
Qed.
Print Assumptions C50_woken_partial.

Example C50_example : exists s, waits wait0 s /\ waiter s = VWait /\ cthread s = CClosed /\ slock s = None.
Proof.
  exists (mk_wait false CClosed VWait None). split; [|auto].
  eapply w_step; [eapply w_step; [eapply w_step; [eapply w_step; [apply w_refl|apply v_open]|apply v_wait]|apply c_end]|apply c_close].
Qed.

(** C50, refuted: the thread ends between the test of [connected] and pthread_cond_wait; the waiter sleeps for ever *)
Theorem C50_missed_wakeup_refuted : exists s, waits wait0 s /\ waiter s = VWait /\ cthread s = CEnd /\ forall s', ~ vstep s s'.
Proof.
  exists (mk_wait false CEnd VWait None). split; [|split; [reflexivity|split; [reflexivity|]]].
  - unfold wait0. eapply w_step; [eapply w_step; [eapply w_step; [eapply w_step; [eapply w_step; [eapply w_step; [eapply w_step; [apply w_refl|apply v_open]|apply c_end]|apply c_close]|apply c_lock]|apply c_broadcast]|apply c_unlock]|apply v_wait].
  - intros s' V. inversion V.
Qed.
Print Assumptions C50_missed_wakeup_refuted.

(** refuted: after a spurious wake-up the function returns CLOSE although the websocket is open *)
Theorem C50_spurious_refuted : exists s, waits_any wait0 s /\ waiter s = VRet STATUS_CLOSE /\ connected s = true /\ cthread s = CRun.
Proof.
  exists (mk_wait true CRun (VRet STATUS_CLOSE) None). split; [|auto].
  eapply wa_step; [eapply wa_step; [eapply wa_spurious; [eapply wa_step; [eapply wa_step; [apply wa_refl|apply v_open]|apply v_wait]|apply v_spurious]|apply v_relock]|apply v_unlock].
Qed.
Print Assumptions C50_spurious_refuted.

(** C63, refuted: the loop of the thread has ended, so that the caller finds [connected] = 0 and releases the websocket, which the thread still uses *)
Theorem C63_released_in_use_refuted : exists s, waits wait0 s /\ waiter s = VCleared /\ uses_websocket (cthread s) = true.
Proof.
  exists (mk_wait false CLoopDone VCleared None). split; [|auto].
  eapply w_step; [eapply w_step; [eapply w_step; [apply w_refl|apply c_end]|apply v_closed]|apply v_clear].
Qed.
Print Assumptions C63_released_in_use_refuted.

(** the true part: a waiter that slept, without spurious wake-ups, releases the websocket after the end of the thread *)
Theorem C63_after_sleep_partial : forall s s', waiter s = VWait -> before_broadcast (cthread s) -> (cthread s = CLocked <-> slock s = Some true) -> (slock s = None \/ cthread s = CLocked) ->
  waits s s' -> waiter s' = VCleared -> uses_websocket (cthread s') = false.
Proof.
  intros s s' W B K L X.
  assert (G : (waiter s' = VWait /\ before_broadcast (cthread s') /\ (cthread s' = CLocked <-> slock s' = Some true) /\ (slock s' = None \/ cthread s' = CLocked)) \/
              (waiter s' = VAwake /\ ((cthread s' = CBroadcast /\ slock s' = Some true) \/ (cthread s' = CEnd /\ slock s' = None))) \/ ((waiter s' = VHave \/ waiter s' = VRet STATUS_CLOSE \/ waiter s' = VCleared) /\ cthread s' = CEnd)).
  { induction X as [s|a b c X IH V].
    - left. auto.
    - specialize (IH W B K L). destruct IH as [(G1 & G2 & G3 & G4)|[(G1 & G2)|(G1 & G2)]]; destruct V; cbn in *; try discriminate; try contradiction; try congruence; try (subst v; cbn).
      all: try (left; repeat split; auto; intros; try discriminate; intuition congruence).
      all: try (right; left; split; [reflexivity|]; left; split; [reflexivity|]; apply G3; reflexivity).
      all: try (destruct G2 as [[? ?]|[? ?]]; try discriminate; try congruence).
      all: try (right; left; split; [reflexivity|]; right; auto; fail).
      all: try (right; right; split; [|auto]; auto; fail).
      all: try (destruct G1 as [G1|[G1|G1]]; discriminate). }
  intros E. rewrite E in G. destruct G as [(G1 & _)|[(G1 & _)|(_ & ->)]]; [discriminate|discriminate|reflexivity].
Qed.
Print Assumptions C63_after_sleep_partial.
