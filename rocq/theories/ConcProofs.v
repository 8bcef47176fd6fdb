From Coq Require Import ZArith Bool List Arith Lia.
From Verif Require Import Base ConcModel ConcSpec.
Import ListNotations.
Open Scope nat_scope.

Lemma upd_same : forall A (f : nat -> A) i x, upd f i x i = x.
Proof. intros. unfold upd. now rewrite Nat.eqb_refl. Qed.
Lemma upd_other : forall A (f : nat -> A) i x j, j <> i -> upd f i x j = f j.
Proof. intros A f i x j H. unfold upd. apply Nat.eqb_neq in H. now rewrite H. Qed.

Ltac cases H := try discriminate H; repeat match type of H with
  | context [match ?x with _ => _ end] => let E := fresh "E" in destruct x eqn:E; try discriminate H
  end.

(** ** locks *)
Definition holdsA (p : wpc) : bool :=
  match p with WLockedA | WWritten | WCounted | WLockedR | WShifted | WMoved _ | WFreed | WResized | WDec | WCLocked | WBcast | WUnlocking => true | _ => false end.
Definition holdsC (p : wpc) : bool := match p with WCLocked | WBcast => true | _ => false end.
Definition sA (p : spc) : bool := match p with SLocked | SFlagged => true | _ => false end.
Definition sC (p : spc) : bool := match p with SHave | SExit => true | _ => false end.

Record locks (n : nat) (s : sys) : Prop := {
  k_a : forall i, holdsA (ws s i) = true <-> alock s = Some (TW i);
  k_as : sA (stop s) = true <-> alock s = Some TS;
  k_c : forall i, holdsC (ws s i) = true <-> clock s = Some (TW i);
  k_cs : sC (stop s) = true <-> clock s = Some TS;
  k_n : forall i, n <= i -> ws s i = WIdle;
  k_freed : freed s = true <-> stop s = SCleaned;
  k_daemon : daemon s = true <-> stop s <> SStopped /\ stop s <> SCleaned }.

Lemma locks_init : forall n, locks n init.
Proof. intros n. constructor; cbn; try (intros; split; (discriminate || congruence)); try (split; (discriminate || congruence)); auto. split; [intros _; split; discriminate|auto]. Qed.

(** a step of websocket thread [i] from [p] to [p'] keeps the invariant if the locks follow *)
Lemma locks_w : forall n s s' i p', locks n s -> i < n -> ws s' = upd (ws s) i p' -> freed s' = freed s -> daemon s' = daemon s ->
  (stop s' = stop s \/ stop s = SAsleep /\ stop s' = SWoken) ->
  (alock s' = alock s /\ holdsA p' = holdsA (ws s i) \/ alock s = None /\ alock s' = Some (TW i) /\ holdsA p' = true \/ holdsA (ws s i) = true /\ alock s' = None /\ holdsA p' = false) ->
  (clock s' = clock s /\ holdsC p' = holdsC (ws s i) \/ clock s = None /\ clock s' = Some (TW i) /\ holdsC p' = true \/ holdsC (ws s i) = true /\ clock s' = None /\ holdsC p' = false) ->
  locks n s'.
Proof.
  intros n s s' i p' K LI W F D ST A C.
  assert (SS : sA (stop s') = sA (stop s) /\ sC (stop s') = sC (stop s) /\ (stop s' = SCleaned <-> stop s = SCleaned) /\ (stop s' = SStopped <-> stop s = SStopped)).
  { destruct ST as [->|[E1 E2]]; [tauto|]. rewrite E1, E2. cbn. repeat split; discriminate. }
  destruct SS as (S1 & S2 & S3 & S4). constructor.
  - intros j. rewrite W. destruct (Nat.eq_dec j i) as [->|N].
    + rewrite upd_same. destruct A as [[-> ->]|[(_ & -> & ->)|(_ & -> & ->)]]; [apply (k_a n s K)|tauto|split; discriminate].
    + rewrite upd_other by assumption. rewrite (k_a n s K j). destruct A as [[-> _]|[(E & -> & _)|(E & -> & _)]].
      * tauto.
      * rewrite E. split; [discriminate|congruence].
      * apply (k_a n s K) in E. rewrite E. split; [congruence|discriminate].
  - rewrite S1, (k_as n s K). destruct A as [[-> _]|[(E & -> & _)|(E & -> & _)]].
    + tauto.
    + rewrite E. split; discriminate.
    + apply (k_a n s K) in E. rewrite E. split; discriminate.
  - intros j. rewrite W. destruct (Nat.eq_dec j i) as [->|N].
    + rewrite upd_same. destruct C as [[-> ->]|[(_ & -> & ->)|(_ & -> & ->)]]; [apply (k_c n s K)|tauto|split; discriminate].
    + rewrite upd_other by assumption. rewrite (k_c n s K j). destruct C as [[-> _]|[(E & -> & _)|(E & -> & _)]].
      * tauto.
      * rewrite E. split; [discriminate|congruence].
      * apply (k_c n s K) in E. rewrite E. split; [congruence|discriminate].
  - rewrite S2, (k_cs n s K). destruct C as [[-> _]|[(E & -> & _)|(E & -> & _)]].
    + tauto.
    + rewrite E. split; discriminate.
    + apply (k_c n s K) in E. rewrite E. split; discriminate.
  - intros j Hj. rewrite W, upd_other by lia. now apply (k_n n s K).
  - rewrite F, (k_freed n s K). symmetry. exact S3.
  - rewrite D, (k_daemon n s K). tauto.
Qed.

Lemma reallocate_same : forall s p m b s', reallocate s p m = Some (b, s') ->
  ptr s' = ptr s /\ nb s' = nb s /\ alock s' = alock s /\ clock s' = clock s /\ ws s' = ws s /\ stop s' = stop s /\ flag s' = flag s /\ freed s' = freed s /\ daemon s' = daemon s.
Proof. intros s p m b s' H. unfold reallocate in H. cases H; injection H as <- <-; repeat split. Qed.

Lemma locks_wstep : forall n i s s', i < n -> locks n s -> wstep i s = Some (Next s') -> locks n s'.
Proof.
  intros n i s s' LI K H. unfold wstep, guard in H. destruct (ws s i) eqn:PC; cases H; injection H as <-;
    try (match goal with R : reallocate _ _ _ = Some (_, _) |- _ => apply reallocate_same in R as (R1 & R2 & R3 & R4 & R5 & R6 & R7 & R8 & R9) end);
    (eapply locks_w; [exact K|exact LI|cbn; try rewrite R5; reflexivity|cbn; try rewrite R8; reflexivity|cbn; try rewrite R9; reflexivity|cbn; try rewrite R6; auto|cbn; rewrite ?PC; try rewrite R3; auto 6|cbn; rewrite ?PC; try rewrite R4; auto 6]).
  cbn. unfold wake. destruct (stop s); auto.
Qed.

Lemma locks_sstep : forall n s s', locks n s -> sstep n s = Some (Next s') -> locks n s'.
Proof.
  intros n s s' K H. pose proof (k_as n s K) as KA. pose proof (k_cs n s K) as KC. pose proof (k_freed n s K) as KF. pose proof (k_daemon n s K) as KD.
  unfold sstep in H. destruct (stop s) eqn:PC; cases H; injection H as <-; cbn in KA, KC;
    destruct (alock s) as [[ja|]|] eqn:EA; try (exfalso; intuition congruence); destruct (clock s) as [[jc|]|] eqn:EC; try (exfalso; intuition congruence);
    constructor; cbn; intros;
    try (now apply (k_n n s K));
    try (rewrite (k_a n s K)); try (rewrite (k_c n s K)); rewrite ?KF, ?KD, ?PC, ?EA, ?EC;
    try (intuition congruence).
Qed.

Lemma locks_spurious : forall n s, locks n s -> stop s = SAsleep -> locks n (at_s s SWoken).
Proof.
  intros n s K E. destruct K as [K1 K2 K3 K4 K5 K6 K7]. rewrite E in *. constructor; cbn; auto.
  - rewrite K6. split; discriminate.
  - rewrite K7. split; intros _; split; discriminate.
Qed.

Lemma reach_locks : forall n s, reach n s -> locks n s.
Proof.
  intros n s R. induction R as [|s t s' R IH H|s R IH E].
  - apply locks_init.
  - destruct t as [i|]; cbn [tstep] in H.
    + destruct (Nat.ltb_spec i n); [|discriminate]. eapply locks_wstep; eauto.
    + eapply locks_sstep; eauto.
  - now apply locks_spurious.
Qed.

Lemma quiet_reach : forall n s, reach_quiet n s -> reach n s.
Proof. intros n s R. induction R; [constructor|econstructor; eauto|now constructor]. Qed.

(** ** no missed wake-up *)
Definition will_broadcast (s : sys) : Prop := exists i, ws s i = WDec \/ ws s i = WCLocked.

Lemma wake_inv : forall n s, reach n s -> stop s = SAsleep -> 0 < nb s \/ will_broadcast s.
Proof.
  intros n s R. induction R as [|s t s' R IH H|s R IH E]; [discriminate| |discriminate]. intros AS.
  destruct t as [i|]; cbn [tstep] in H.
  - destruct (i <? n); [|discriminate].
    assert (KEEP : forall j, j <> i -> ws s j = WDec \/ ws s j = WCLocked -> ws s' j = ws s j -> will_broadcast s') by (intros j _ P Q; exists j; rewrite Q; exact P).
    unfold wstep, guard in H. destruct (ws s i) eqn:PC; cases H; injection H as <-;
      try (match goal with R : reallocate _ _ _ = Some (_, _) |- _ => apply reallocate_same in R as (R1 & R2 & R3 & R4 & R5 & R6 & R7 & R8 & R9) end);
      cbn in AS, KEEP |- *; try rewrite R6 in AS; try rewrite R2; try rewrite R5 in KEEP;
      try (destruct (IH AS) as [P|(j & P)]; [left; lia|right; destruct (Nat.eq_dec j i) as [->|NE]; [exfalso; rewrite PC in P; destruct P; discriminate|apply (KEEP j NE P); apply upd_other; exact NE]]).
    + right. exists i. cbn. rewrite upd_same. auto.
    + right. exists i. cbn. rewrite upd_same. auto.
    + exfalso. unfold wake in AS. destruct (stop s); discriminate.
  - unfold sstep in H. destruct (stop s) eqn:PC; cases H; injection H as <-; cbn in AS |- *; try discriminate AS.
    left. apply Nat.ltb_lt. assumption.
Qed.

(** ** the list, in executions where openings do not overlap other uses of the list *)
Lemma quiet_now : forall n s, reach_quiet n s -> quiet s.
Proof.
  intros n s R. induction R as [|s t s' R IH H Q|s R IH E].
  - split; cbn; intros; contradiction.
  - exact Q.
  - destruct IH as [Q1 Q2]. split; cbn; [exact Q1|]. intros i U. discriminate.
Qed.

Definition others (s : sys) (i : nat) : Prop := forall j, j <> i -> ~ changing (ws s j).
Definition clean (s : sys) (l : list nat) : Prop := l = [] /\ ptr s = None \/ l <> [] /\ block s = Some (map Some l).
Definition rm (i : nat) (l : list nat) : list nat := remove Nat.eq_dec i l.

Inductive table (s : sys) (l : list nat) : Prop :=
| t_rest : (forall i, ~ changing (ws s i)) -> clean s l -> table s l
| t_read : forall i, ws s i = WRead (ptr s) (nb s) -> others s i -> clean s l -> table s l
| t_alloc : forall i b, ws s i = WAlloc b -> others s i -> heap s b = Some (map Some l ++ [None]) -> (l <> [] -> ptr s <> None) -> table s l
| t_stored : forall i, ws s i = WStored \/ ws s i = WLockedA -> others s i -> block s = Some (map Some l ++ [None]) -> table s l
| t_written : forall i, ws s i = WWritten -> others s i -> block s = Some (map Some (l ++ [i])) -> table s l
| t_shifted : forall i x, ws s i = WShifted -> others s i -> 1 < length l -> block s = Some (map Some (rm i l) ++ [x]) -> table s l
| t_moved : forall i b, ws s i = WMoved b -> others s i -> 1 < length l -> heap s b = Some (map Some (rm i l)) -> ptr s <> None -> table s l
| t_freed : forall i, ws s i = WFreed -> others s i -> l = [i] -> ptr s <> None -> table s l
| t_resized : forall i, ws s i = WResized -> others s i -> clean s (rm i l) -> table s l.

Record inv (n : nat) (s : sys) (l : list nat) : Prop := {
  v_nodup : NoDup l;
  v_mem : forall i, In i l <-> i < n /\ counted (ws s i);
  v_nb : nb s = length l;
  v_fresh : forall b, fresh s <= b -> heap s b = None;
  v_table : table s l }.

Lemma inv_init : forall n, inv n init [].
Proof.
  intros n. constructor.
  - constructor.
  - intros i. cbn. tauto.
  - reflexivity.
  - reflexivity.
  - apply t_rest; [intros i; cbn; tauto|]. left. auto.
Qed.

(** the fields of the list unchanged, the threads as well except possibly one outside of the changes *)
Lemma table_keep : forall s s' l i p, ptr s' = ptr s -> nb s' = nb s -> heap s' = heap s -> ws s' = upd (ws s) i p -> ~ changing (ws s i) -> ~ changing p -> table s l -> table s' l.
Proof.
  intros s s' l i p E1 E2 E3 E4 N N' T.
  assert (W : forall j q, ws s j = q -> changing q -> ws s' j = q).
  { intros j q <- C. rewrite E4. apply upd_other. intros ->. contradiction. }
  assert (O : forall j, others s j -> others s' j).
  { intros j Q k Hk. rewrite E4. unfold upd. destruct (k =? i); [exact N'|]. now apply Q. }
  assert (C : forall m, clean s m -> clean s' m) by (intros m; unfold clean, block; rewrite E1, E3; auto).
  assert (B : block s' = block s) by (unfold block; now rewrite E1, E3).
  destruct T as [NC CL|j P Q CL|j b P Q H PN|j P Q H|j P Q H|j x P Q L H|j b P Q L H PN|j P Q H PN|j P Q H].
  - apply t_rest; [|auto]. intros j. rewrite E4. unfold upd. destruct (j =? i); auto.
  - apply t_read with (i := j); auto. rewrite E1, E2. apply W; [exact P|exact I].
  - apply t_alloc with (i := j) (b := b); auto; [apply W; [exact P|exact I]|now rewrite E3|now rewrite E1].
  - apply t_stored with (i := j); auto; [|now rewrite B]. destruct P as [P|P]; [left|right]; (apply W; [exact P|exact I]).
  - apply t_written with (i := j); auto; [apply W; [exact P|exact I]|now rewrite B].
  - apply t_shifted with (i := j) (x := x); auto; [apply W; [exact P|exact I]|now rewrite B].
  - apply t_moved with (i := j) (b := b); auto; [apply W; [exact P|exact I]|now rewrite E3|now rewrite E1].
  - apply t_freed with (i := j); auto; [apply W; [exact P|exact I]|now rewrite E1].
  - apply t_resized with (i := j); auto. apply W; [exact P|exact I].
Qed.

Lemma inv_keep : forall n s s' l i p, i < n -> ptr s' = ptr s -> nb s' = nb s -> heap s' = heap s -> fresh s' = fresh s -> ws s' = upd (ws s) i p ->
  ~ changing (ws s i) -> ~ changing p -> (counted p <-> counted (ws s i)) -> inv n s l -> inv n s' l.
Proof.
  intros n s s' l i p LI E1 E2 E3 E5 E4 N N' C V. destruct V as [V1 V2 V3 V4 V5]. constructor; auto.
  - intros j. rewrite V2, E4. unfold upd. destruct (j =? i) eqn:Q; [|tauto]. apply Nat.eqb_eq in Q. subst j. tauto.
  - now rewrite E2.
  - now rewrite E3, E5.
  - eapply table_keep; eauto.
Qed.

(** the stopping thread does not change the list *)
Lemma inv_stop : forall n s s' l, ptr s' = ptr s -> nb s' = nb s -> heap s' = heap s -> fresh s' = fresh s -> ws s' = ws s -> inv n s l -> inv n s' l.
Proof.
  intros n s s' l E1 E2 E3 E5 E4 V. destruct V as [V1 V2 V3 V4 V5]. constructor; auto.
  - intros j. now rewrite V2, E4.
  - now rewrite E2.
  - now rewrite E3, E5.
  - assert (B : block s' = block s) by (unfold block; now rewrite E1, E3).
    assert (C : forall m, clean s m -> clean s' m) by (intros m; unfold clean; rewrite B, E1; auto).
    assert (O : forall j, others s j -> others s' j) by (intros j; unfold others; now rewrite E4).
    destruct V5 as [NC CL|j P Q CL|j b P Q H PN|j P Q H|j P Q H|j x P Q L H|j b P Q L H PN|j P Q H PN|j P Q H].
    + apply t_rest; [now rewrite E4|auto].
    + apply t_read with (i := j); auto. now rewrite E1, E2, E4.
    + apply t_alloc with (i := j) (b := b); auto; [now rewrite E4|now rewrite E3|now rewrite E1].
    + apply t_stored with (i := j); auto; [now rewrite E4|now rewrite B].
    + apply t_written with (i := j); auto; [now rewrite E4|now rewrite B].
    + apply t_shifted with (i := j) (x := x); auto; [now rewrite E4|now rewrite B].
    + apply t_moved with (i := j) (b := b); auto; [now rewrite E4|now rewrite E3|now rewrite E1].
    + apply t_freed with (i := j); auto; [now rewrite E4|now rewrite E1].
    + apply t_resized with (i := j); auto. now rewrite E4.
Qed.

(** the case of the table is the one of the thread in the middle of a change *)
Lemma table_at : forall s l i, table s l -> changing (ws s i) -> match ws s i with
  | WRead p k => p = ptr s /\ k = nb s /\ clean s l
  | WAlloc b => heap s b = Some (map Some l ++ [None]) /\ (l <> [] -> ptr s <> None)
  | WStored | WLockedA => block s = Some (map Some l ++ [None])
  | WWritten => block s = Some (map Some (l ++ [i]))
  | WShifted => 1 < length l /\ exists x, block s = Some (map Some (rm i l) ++ [x])
  | WMoved b => 1 < length l /\ heap s b = Some (map Some (rm i l)) /\ ptr s <> None
  | WFreed => l = [i] /\ ptr s <> None
  | WResized => clean s (rm i l)
  | _ => False
  end /\ others s i.
Proof.
  intros s l i T C.
  assert (S : forall j, others s j -> j = i) by (intros j Q; destruct (Nat.eq_dec j i); auto; exfalso; eapply Q; [|exact C]; auto).
  destruct T as [NC CL|j P Q CL|j b P Q H PN|j P Q H|j P Q H|j x P Q L H|j b P Q L H PN|j P Q H PN|j P Q H];
    try (pose proof (S j Q); subst j; try (rewrite P; split; [|exact Q]; eauto 6)).
  - now apply NC in C.
  - destruct P as [P|P]; rewrite P; auto.
Qed.

Lemma table_idle : forall s l, table s l -> (forall i, ~ changing (ws s i)) -> clean s l.
Proof.
  intros s l T NC. destruct T as [_ CL|j P Q CL|j b P Q H PN|j P Q H|j P Q H|j x P Q L H|j b P Q L H PN|j P Q H PN|j P Q H]; auto; exfalso; apply (NC j).
  all: try (rewrite P; exact I). destruct P as [P|P]; rewrite P; exact I.
Qed.

Lemma resize_same : forall l k, k = length l -> resize l (k + 1) = l ++ [None].
Proof. intros l k ->. unfold resize. rewrite firstn_all2 by lia. f_equal. replace (length l + 1 - length l) with 1 by lia. reflexivity. Qed.
Lemma resize_less : forall l x k, k = length l -> resize (l ++ [x]) k = l.
Proof. intros l x k ->. unfold resize. rewrite firstn_app, firstn_all, Nat.sub_diag, app_length. cbn [firstn]. rewrite app_nil_r. replace (length l - (length l + length [x])) with 0 by (cbn; lia). apply app_nil_r. Qed.
Lemma set_nth_last : forall (l : list (option nat)) y x, set_nth (l ++ [y]) (length l) x = l ++ [x].
Proof. induction l as [|a l IH]; intros y x; [reflexivity|]. cbn [app length set_nth]. f_equal. apply IH. Qed.
Lemma entries_all : forall l, entries (map Some l) (length l) = Some l.
Proof. induction l as [|x l IH]; [reflexivity|]. cbn [map length entries]. now rewrite IH. Qed.

Lemma index_of_in : forall w l, In w l -> exists a b, l = a ++ w :: b /\ ~ In w a /\ index_of w l = Some (length a).
Proof.
  intros w l. induction l as [|x l IH]; intros H; [destruct H|]. cbn [index_of]. destruct (Nat.eqb_spec x w) as [->|N].
  - exists [], l. auto.
  - destruct H as [H|H]; [congruence|]. destruct (IH H) as (a & b & E & NI & K). exists (x :: a), b. split; [now rewrite E|]. split; [intros [|]; auto|]. now rewrite K.
Qed.

Lemma rm_mid : forall a w b, ~ In w a -> ~ In w b -> rm w (a ++ w :: b) = a ++ b.
Proof.
  intros a w b HA HB. unfold rm. rewrite remove_app. cbn [remove]. destruct (Nat.eq_dec w w); [|congruence]. rewrite !notin_remove; auto.
Qed.

Lemma shift_mid : forall (a : list nat) w b, exists x, shift (map Some (a ++ w :: b)) (length a) (length (a ++ w :: b)) = map Some (a ++ b) ++ [x].
Proof.
  intros a w b. unfold shift. assert (L : length (map Some (a ++ w :: b)) = length a + S (length b)) by (rewrite map_length, app_length; reflexivity).
  rewrite app_length. cbn [length]. replace (length a + S (length b) - 1 - length a) with (length b) by lia. replace (length a + S (length b) - 1) with (length a + length b) by lia.
  assert (F1 : firstn (length a) (map Some (a ++ w :: b)) = map Some a).
  { rewrite map_app, firstn_app, map_length, Nat.sub_diag. cbn [firstn]. rewrite app_nil_r. rewrite <- (map_length Some a) at 1. apply firstn_all. }
  assert (F2 : skipn (S (length a)) (map Some (a ++ w :: b)) = map Some b).
  { replace (a ++ w :: b) with ((a ++ [w]) ++ b) by (rewrite <- app_assoc; reflexivity). rewrite map_app, skipn_app, map_length, app_length. cbn [length].
    rewrite skipn_all2 by (rewrite map_length, app_length; cbn; lia). replace (S (length a) - (length a + 1)) with 0 by lia. reflexivity. }
  rewrite F1, F2. assert (F3 : firstn (length b) (map Some b) = map (@Some nat) b) by (rewrite <- (map_length Some b) at 1; apply firstn_all). rewrite F3.
  assert (LS : length (skipn (length a + length b) (map Some (a ++ w :: b))) = 1) by (rewrite skipn_length, L; lia).
  destruct (skipn (length a + length b) (map Some (a ++ w :: b))) as [|x [|? ?]]; cbn in LS; try lia. exists x. rewrite map_app, app_assoc. reflexivity.
Qed.

Lemma nodup_mid : forall (a : list nat) w b, NoDup (a ++ w :: b) -> ~ In w a /\ ~ In w b /\ NoDup (a ++ b).
Proof.
  intros a w b H. pose proof (NoDup_remove_1 _ _ _ H). pose proof (NoDup_remove_2 _ _ _ H) as N. rewrite in_app_iff in N. tauto.
Qed.

Lemma rm_len : forall i l, NoDup l -> In i l -> length l = S (length (rm i l)).
Proof.
  intros i l ND H. destruct (index_of_in _ _ H) as (a & b & -> & _ & _). apply nodup_mid in ND as (A & B & _). rewrite rm_mid by assumption. rewrite !app_length. cbn. lia.
Qed.
Lemma rm_nodup : forall i l, NoDup l -> NoDup (rm i l).
Proof.
  intros i l ND. destruct (in_dec Nat.eq_dec i l) as [H|H].
  - destruct (index_of_in _ _ H) as (a & b & -> & _ & _). apply nodup_mid in ND as (A & B & N). rewrite rm_mid; assumption.
  - unfold rm. now rewrite notin_remove.
Qed.
Lemma rm_in : forall i l j, In j (rm i l) <-> In j l /\ j <> i.
Proof. intros i l j. split; [apply in_remove|]. intros [A B]. now apply in_in_remove. Qed.

Lemma ptr_of_member : forall n s l i, inv n s l -> In i l -> ~ changing (ws s i) -> ptr s <> None.
Proof.
  intros n s l i V H NC. destruct V as [V1 V2 V3 V4 T]. assert (NE : l <> []) by (intros ->; destruct H).
  assert (CL : forall m, m <> [] -> clean s m -> ptr s <> None).
  { intros m N [[E _]|[_ E]]; [congruence|]. unfold block in E. destruct (ptr s); [discriminate|discriminate E]. }
  assert (BL : forall x, block s = Some x -> ptr s <> None) by (intros x E; unfold block in E; destruct (ptr s); [discriminate|discriminate E]).
  destruct T as [_ C|j P Q C|j b P Q HB PN|j P Q HB|j P Q HB|j x P Q L HB|j b P Q L HB PN|j P Q HB PN|j P Q C]; eauto.
  apply (CL (rm j l)); [|exact C]. intros E. assert (IN : In i (rm j l)) by (apply rm_in; split; [exact H|]; intros ->; rewrite P in NC; now apply NC). rewrite E in IN. destruct IN.
Qed.

(** ** one step of a websocket thread *)
Lemma no_changing : forall n s i, locks n s -> quiet s -> ws s i = WLockedR -> forall j, ~ changing (ws s j).
Proof.
  intros n s i K [Q _] PC j C. assert (AL : alock s = Some (TW i)) by (apply (k_a n s K); now rewrite PC).
  destruct (Nat.eq_dec j i) as [->|N]; [rewrite PC in C; exact C|].
  assert (HJ : holdsA (ws s j) = false) by (destruct (holdsA (ws s j)) eqn:E; auto; apply (k_a n s K) in E; rewrite AL in E; congruence).
  assert (U : unlocked_add (ws s j)) by (destruct (ws s j); try discriminate HJ; try (destruct C; fail); exact I).
  apply (Q j i N U). right. exact PC.
Qed.

Lemma heap_lt : forall n s l b x, inv n s l -> heap s b = Some x -> b <> fresh s.
Proof. intros n s l b x V H ->. rewrite (v_fresh n s l V) in H; [discriminate|lia]. Qed.

Lemma inv_wstep : forall n i s l, i < n -> locks n s -> quiet s -> inv n s l ->
  match wstep i s with
  | Some (Next s') => quiet s' -> exists l', inv n s' l'
  | Some (Fault k) => k = HandlerFault
  | None => True
  end.
Proof.
  intros n i s l LI K Q V.
  assert (OTH : forall p, quiet (at_w s i p) -> unlocked_add p -> others s i).
  { intros p [QQ _] U j N C. apply (QQ i j); [auto|cbn; now rewrite upd_same|]. left. cbn. now rewrite upd_other. }
  unfold wstep, guard. destruct (ws s i) as [|p m|b| | | | | | | | | |b| | | | | | |] eqn:PC.
  - (* WIdle *) destruct (daemon s); [|exact I]. destruct (freed s); [reflexivity|]. intros Q'. pose proof (OTH _ Q' I) as O. exists l. destruct V as [V1 V2 V3 V4 T].
    assert (NC : forall j, ~ changing (ws s j)) by (intros j C; destruct (Nat.eq_dec j i) as [->|N]; [rewrite PC in C; exact C|exact (O j N C)]).
    constructor; cbn; auto.
    + intros j. rewrite V2. unfold upd. destruct (Nat.eqb_spec j i) as [->|N]; [rewrite PC; tauto|tauto].
    + apply t_read with (i := i); cbn; [now rewrite upd_same| |exact (table_idle _ _ T NC)]. intros j N. cbn. rewrite upd_other by exact N. apply NC.
  - (* WRead *) destruct V as [V1 V2 V3 V4 T]. destruct (table_at _ _ i T) as [TT O]; [rewrite PC; exact I|]. rewrite PC in TT. destruct TT as (-> & -> & CL).
    assert (MEM : forall q s1, ws s1 = upd (ws s) i q -> (counted q <-> False) -> forall j, In j l <-> j < n /\ counted (ws s1 j)).
    { intros q s1 E C j. rewrite V2, E. unfold upd. destruct (Nat.eqb_spec j i) as [->|N]; [rewrite PC; cbn; tauto|tauto]. }
    unfold reallocate. destruct CL as [[-> E]|[NE E]].
    + rewrite E. destruct (freed s); [reflexivity|]. intros _. exists []. constructor.
      * constructor.
      * eapply MEM; [reflexivity|cbn; tauto].
      * cbn. exact V3.
      * cbn. intros b H. rewrite upd_other by lia. apply V4. lia.
      * apply t_alloc with (i := i) (b := fresh s); cbn; [now rewrite upd_same| | |congruence].
        -- intros j N. cbn. rewrite upd_other by exact N. now apply O.
        -- rewrite upd_same. rewrite V3. reflexivity.
    + unfold block in E. destruct (ptr s) as [b|] eqn:PT; [|discriminate]. rewrite E. destruct (freed s); [reflexivity|]. intros _. exists l.
      assert (BF : b <> fresh s) by (intros ->; rewrite V4 in E; [discriminate|lia]). constructor.
      * exact V1.
      * eapply MEM; [reflexivity|cbn; tauto].
      * cbn. exact V3.
      * cbn. intros b0 H. rewrite upd_other by lia. unfold upd. destruct (b0 =? b); [reflexivity|]. apply V4. lia.
      * apply t_alloc with (i := i) (b := fresh s); cbn; [now rewrite upd_same| | |congruence].
        -- intros j N. cbn. rewrite upd_other by exact N. now apply O.
        -- rewrite upd_same. f_equal. apply resize_same. now rewrite map_length.
  - (* WAlloc *) destruct (freed s); [reflexivity|]. intros _. destruct V as [V1 V2 V3 V4 T]. destruct (table_at _ _ i T) as [TT O]; [rewrite PC; exact I|]. rewrite PC in TT. destruct TT as (HB & _).
    exists l. constructor; cbn; auto.
    + intros j. rewrite V2. unfold upd. destruct (Nat.eqb_spec j i) as [->|N]; [rewrite PC; cbn; tauto|tauto].
    + apply t_stored with (i := i); cbn; [left; now rewrite upd_same| |exact HB]. intros j N. cbn. rewrite upd_other by exact N. now apply O.
  - (* WStored *) destruct (alock s); [now destruct (freed s)|]. destruct (freed s); [reflexivity|]. intros _. destruct V as [V1 V2 V3 V4 T]. destruct (table_at _ _ i T) as [TT O]; [rewrite PC; exact I|]. rewrite PC in TT.
    exists l. constructor; cbn; auto.
    + intros j. rewrite V2. unfold upd. destruct (Nat.eqb_spec j i) as [->|N]; [rewrite PC; cbn; tauto|tauto].
    + apply t_stored with (i := i); cbn; [right; now rewrite upd_same| |exact TT]. intros j N. cbn. rewrite upd_other by exact N. now apply O.
  - (* WLockedA *) destruct V as [V1 V2 V3 V4 T]. destruct (table_at _ _ i T) as [TT O]; [rewrite PC; exact I|]. rewrite PC in TT.
    unfold block in TT. destruct (ptr s) as [b|] eqn:PT; [|discriminate]. rewrite TT.
    replace (nb s <? length (map Some l ++ [None])) with true by (symmetry; apply Nat.ltb_lt; rewrite app_length, map_length; cbn; lia).
    destruct (freed s); [reflexivity|]. intros _. exists l. constructor; cbn; auto.
    + intros j. rewrite V2. unfold upd. destruct (Nat.eqb_spec j i) as [->|N]; [rewrite PC; cbn; tauto|tauto].
    + intros b0 H. unfold upd. destruct (Nat.eqb_spec b0 b) as [->|N]; [|now apply V4]. exfalso. rewrite V4 in TT by exact H. discriminate.
    + apply t_written with (i := i); cbn; [now rewrite upd_same| |].
      * intros j N. cbn. rewrite upd_other by exact N. now apply O.
      * unfold block. cbn. rewrite PT, upd_same. f_equal. rewrite V3, <- (map_length Some l), set_nth_last, map_app. reflexivity.
  - (* WWritten *) destruct (freed s); [reflexivity|]. intros _. destruct V as [V1 V2 V3 V4 T]. destruct (table_at _ _ i T) as [TT O]; [rewrite PC; exact I|]. rewrite PC in TT.
    assert (NI : ~ In i l) by (intros IN; apply V2 in IN as [_ C]; rewrite PC in C; exact C).
    exists (l ++ [i]). constructor; cbn.
    + apply NoDup_Add with (a := i) (l := l); [|auto]. rewrite <- (app_nil_r l) at 1. apply Add_app.
    + intros j. rewrite in_app_iff, V2. unfold upd. cbn [In]. destruct (Nat.eqb_spec j i) as [->|N]; [rewrite PC; cbn; tauto|]. split; [intros [H|[H|[]]]; [exact H|congruence]|auto].
    + rewrite app_length, V3. reflexivity.
    + exact V4.
    + apply t_rest.
      * intros j. cbn. unfold upd. destruct (Nat.eqb_spec j i) as [->|N]; [cbn; tauto|now apply O].
      * right. split; [now destruct l|exact TT].
  - (* WCounted *) destruct (freed s); [reflexivity|]. intros _. exists l. eapply inv_keep with (i := i) (s := s); try reflexivity; try exact V; try exact LI; rewrite ?PC; cbn; tauto.
  - (* WAdded *) intros _. exists l. eapply inv_keep with (i := i) (s := s); try reflexivity; try exact V; try exact LI; rewrite ?PC; cbn; tauto.
  - (* WOpen *) assert (IN : In i l) by (apply (v_mem n s l V); rewrite PC; split; [exact LI|exact I]).
    pose proof (ptr_of_member n s l i V IN) as PN. destruct (ptr s) as [b|]; [|exfalso; apply PN; [rewrite PC; auto|reflexivity]].
    destruct (freed s); [reflexivity|]. intros _. exists l. eapply inv_keep with (i := i) (s := s); try reflexivity; try exact V; try exact LI; rewrite ?PC; cbn; tauto.
  - (* WClosing *) destruct (alock s); [now destruct (freed s)|]. destruct (freed s); [reflexivity|]. intros _. exists l. eapply inv_keep with (i := i) (s := s); try reflexivity; try exact V; try exact LI; rewrite ?PC; cbn; tauto.
  - (* WLockedR *) pose proof (no_changing n s i K Q PC) as NC. assert (IN : In i l) by (apply (v_mem n s l V); rewrite PC; split; [exact LI|exact I]). destruct V as [V1 V2 V3 V4 T].
    pose proof (table_idle _ _ T NC) as CL. destruct CL as [[-> _]|[NE BL]]; [destruct IN|].
    destruct (nb s) as [|k] eqn:NB; [destruct l; [congruence|discriminate V3]|]. unfold block in BL. destruct (ptr s) as [b|] eqn:PT; [|discriminate]. rewrite BL, V3, entries_all.
    destruct (index_of_in i l IN) as (x & y & EL & NX & IX). rewrite IX. pose proof V1 as V1'. rewrite EL in V1'. apply nodup_mid in V1' as (_ & NY & _).
    assert (MEM : forall q, counted q -> forall j, In j l <-> j < n /\ counted (upd (ws s) i q j)).
    { intros q C j. rewrite V2. unfold upd. destruct (Nat.eqb_spec j i) as [->|N]; [rewrite PC; cbn; tauto|tauto]. }
    assert (FR : forall v b0, fresh s <= b0 -> upd (heap s) b v b0 = None).
    { intros v b0 H. unfold upd. destruct (Nat.eqb_spec b0 b) as [->|N]; [|now apply V4]. exfalso. rewrite V4 in BL by exact H. discriminate. }
    assert (OO : forall s1 q, ws s1 = upd (ws s) i q -> others s1 i).
    { intros s1 q E j N. rewrite E, upd_other by exact N. apply NC. }
    destruct (Nat.ltb_spec 1 (length l)) as [G|G]; (destruct (freed s); [reflexivity|]); intros _; exists l.
    + constructor; cbn.
      * exact V1.
      * apply MEM. exact I.
      * now rewrite NB.
      * apply FR.
      * destruct (shift_mid x i y) as (z & SH). apply t_shifted with (i := i) (x := z); cbn; [now rewrite upd_same|now apply OO with (q := WShifted)|exact G|].
        unfold block. cbn. rewrite PT, upd_same. rewrite EL at 1 2. rewrite SH. rewrite EL, rm_mid by assumption. reflexivity.
    + constructor; cbn.
      * exact V1.
      * apply MEM. exact I.
      * now rewrite NB.
      * apply FR.
      * apply t_freed with (i := i); cbn; [now rewrite upd_same|now apply OO with (q := WFreed)| |congruence].
        rewrite EL in G |- *. rewrite app_length in G. cbn [length] in G. destruct x; [|cbn [length] in G; lia]. destruct y; [reflexivity|cbn [length] in G; lia].
  - (* WShifted *) destruct V as [V1 V2 V3 V4 T]. destruct (table_at _ _ i T) as [TT O]; [rewrite PC; exact I|]. rewrite PC in TT. destruct TT as (G & x & BL).
    assert (IN : In i l) by (apply V2; rewrite PC; split; [exact LI|exact I]). pose proof (rm_len i l V1 IN) as RL.
    unfold block in BL. unfold reallocate. destruct (ptr s) as [b|] eqn:PT; [|discriminate]. rewrite BL. destruct (freed s); [reflexivity|]. intros _. exists l.
    assert (BF : b <> fresh s) by (intros ->; rewrite V4 in BL; [discriminate|lia]). constructor; cbn.
    + exact V1.
    + intros j. rewrite V2. unfold upd. destruct (Nat.eqb_spec j i) as [->|N]; [rewrite PC; cbn; tauto|tauto].
    + exact V3.
    + intros b0 H. rewrite upd_other by lia. unfold upd. destruct (b0 =? b); [reflexivity|]. apply V4. lia.
    + apply t_moved with (i := i) (b := fresh s); cbn; [now rewrite upd_same| |exact G| |congruence].
      * intros j N. cbn. rewrite upd_other by exact N. now apply O.
      * rewrite upd_same. f_equal. apply resize_less. rewrite map_length. lia.
  - (* WMoved *) destruct (freed s); [reflexivity|]. intros _. destruct V as [V1 V2 V3 V4 T]. destruct (table_at _ _ i T) as [TT O]; [rewrite PC; exact I|]. rewrite PC in TT. destruct TT as (G & HB & _).
    assert (IN : In i l) by (apply V2; rewrite PC; split; [exact LI|exact I]). pose proof (rm_len i l V1 IN) as RL.
    exists l. constructor; cbn; auto.
    + intros j. rewrite V2. unfold upd. destruct (Nat.eqb_spec j i) as [->|N]; [rewrite PC; cbn; tauto|tauto].
    + apply t_resized with (i := i); cbn; [now rewrite upd_same| |].
      * intros j N. cbn. rewrite upd_other by exact N. now apply O.
      * right. split; [|exact HB]. intros E. rewrite E in RL. cbn in RL. lia.
  - (* WFreed *) destruct (freed s); [reflexivity|]. intros _. destruct V as [V1 V2 V3 V4 T]. destruct (table_at _ _ i T) as [TT O]; [rewrite PC; exact I|]. rewrite PC in TT. destruct TT as (-> & _).
    exists [i]. constructor; cbn; auto.
    + intros j. specialize (V2 j). cbn in V2. rewrite V2. unfold upd. destruct (Nat.eqb_spec j i) as [->|N]; [rewrite PC; cbn; tauto|tauto].
    + apply t_resized with (i := i); cbn; [now rewrite upd_same| |].
      * intros j N. cbn. rewrite upd_other by exact N. now apply O.
      * left. split; [|reflexivity]. cbn. destruct (Nat.eq_dec i i); congruence.
  - (* WResized *) destruct (freed s); [reflexivity|]. intros _. destruct V as [V1 V2 V3 V4 T]. destruct (table_at _ _ i T) as [TT O]; [rewrite PC; exact I|]. rewrite PC in TT.
    assert (IN : In i l) by (apply V2; rewrite PC; split; [exact LI|exact I]). pose proof (rm_len i l V1 IN) as RL.
    exists (rm i l). constructor; cbn.
    + now apply rm_nodup.
    + intros j. rewrite rm_in, V2. unfold upd. destruct (Nat.eqb_spec j i) as [->|N]; [cbn; tauto|tauto].
    + lia.
    + exact V4.
    + apply t_rest; [|exact TT]. intros j. cbn. unfold upd. destruct (Nat.eqb_spec j i) as [->|N]; [cbn; tauto|now apply O].
  - (* WDec *) destruct (clock s); [now destruct (freed s)|]. destruct (freed s); [reflexivity|]. intros _. exists l. eapply inv_keep with (i := i) (s := s); try reflexivity; try exact V; try exact LI; rewrite ?PC; cbn; tauto.
  - (* WCLocked *) destruct (freed s); [reflexivity|]. intros _. exists l. eapply inv_keep with (i := i) (s := s); try reflexivity; try exact V; try exact LI; rewrite ?PC; cbn; tauto.
  - (* WBcast *) destruct (freed s); [reflexivity|]. intros _. exists l. eapply inv_keep with (i := i) (s := s); try reflexivity; try exact V; try exact LI; rewrite ?PC; cbn; tauto.
  - (* WUnlocking *) destruct (freed s); [reflexivity|]. intros _. exists l. eapply inv_keep with (i := i) (s := s); try reflexivity; try exact V; try exact LI; rewrite ?PC; cbn; tauto.
  - exact I.
Qed.

Lemma inv_sstep : forall n s l, locks n s -> quiet s -> inv n s l ->
  match sstep n s with
  | Some (Next s') => inv n s' l
  | Some (Fault k) => False
  | None => True
  end.
Proof.
  intros n s l K Q V. assert (ST : forall s', ptr s' = ptr s -> nb s' = nb s -> heap s' = heap s -> fresh s' = fresh s -> ws s' = ws s -> inv n s' l).
  { intros. now apply inv_stop with (s := s). }
  unfold sstep. destruct (stop s) eqn:PC; try exact I;
    [destruct (alock s); [exact I|apply ST; reflexivity]| |apply ST; reflexivity|destruct (clock s); [exact I|apply ST; reflexivity]|destruct (0 <? nb s); apply ST; reflexivity
    |destruct (clock s); [exact I|apply ST; reflexivity]|apply ST; reflexivity|destruct (connections_done n s); [apply ST; reflexivity|exact I]|apply ST; reflexivity].
  destruct (nb s) as [|n0] eqn:NB0; [apply ST; cbn; auto|].
  (* SLocked, some websockets *)
  assert (NC : forall j, ~ changing (ws s j)).
  { intros j C. assert (AL : alock s = Some TS) by (apply (k_as n s K); now rewrite PC).
    assert (HJ : holdsA (ws s j) = false) by (destruct (holdsA (ws s j)) eqn:E; auto; apply (k_a n s K) in E; rewrite AL in E; congruence).
    assert (U : unlocked_add (ws s j)) by (destruct (ws s j); try discriminate HJ; try (destruct C; fail); exact I).
    destruct Q as [_ Q2]. now apply (Q2 j U). }
  pose proof (table_idle _ _ (v_table n s l V) NC) as CL. pose proof (v_nb n s l V) as NB. destruct CL as [[-> _]|[NE BL]]; [cbn in NB; congruence|].
  rewrite BL. replace (S n0) with (length l) by congruence. rewrite entries_all. apply inv_stop with (s := s); auto.
Qed.

Lemma reach_inv : forall n s, reach_quiet n s -> exists l, inv n s l.
Proof.
  intros n s R. induction R as [|s t s' R IH H Q|s R IH E].
  - exists []. apply inv_init.
  - destruct IH as (l & V). pose proof (reach_locks n s (quiet_reach n s R)) as K. pose proof (quiet_now n s R) as QS.
    destruct t as [i|]; cbn [tstep] in H.
    + destruct (Nat.ltb_spec i n) as [LI|]; [|discriminate]. pose proof (inv_wstep n i s l LI K QS V) as W. rewrite H in W. now apply W.
    + pose proof (inv_sstep n s l K QS V) as W. rewrite H in W. eauto.
  - destruct IH as (l & V). exists l. apply inv_stop with (s := s); auto.
Qed.
