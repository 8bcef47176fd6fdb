(** C106: ulfius_websocket_wait_close with a timeout. *)
From Coq Require Import ZArith Bool List Lia.
From Verif Require Import Base ConcModel WaitModel.
Import ListNotations.
Open Scope Z_scope.

(** C106. The time at which the wait ends is the time of the call and the timeout, and pthread_cond_timedwait accepts it (the part
    in nanoseconds is below one second). *)
Theorem C106_deadline : forall sec nsec timeout, 0 <= nsec < 1000000000 -> 0 <= timeout < 4294967296 ->
  nanos (deadline sec nsec timeout) = sec * 1000000000 + nsec + timeout * 1000000 /\ 0 <= snd (deadline sec nsec timeout) < 1000000000.
Proof.
  intros sec nsec t N T. unfold deadline, nanos.
  rewrite Z.quot_div_nonneg, !Z.rem_mod_nonneg by lia.
  pose proof (Z.div_mod t 1000 ltac:(lia)) as D. pose proof (Z.mod_pos_bound t 1000 ltac:(lia)) as B.
  set (q := t / 1000) in *. set (r := t mod 1000) in *. clearbody q r.
  destruct (999999999 <? nsec + r * 1000000) eqn:E; cbn [fst snd].
  - apply Z.ltb_lt in E. rewrite Z.rem_mod_nonneg by lia.
    assert (M : (nsec + r * 1000000) mod 1000000000 = nsec + r * 1000000 - 1000000000).
    { symmetry. apply (Z.mod_unique_pos _ _ 1); lia. }
    rewrite M. lia.
  - apply Z.ltb_ge in E. lia.
Qed.
Print Assumptions C106_deadline.

(** what holds in every state of a run that began at [now]; [sp]: also when there are spurious wake-ups *)
Definition finished (p : cpc) : bool := match p with CBroadcast | CEnd => true | _ => false end.
Definition holds (p : cpc) : bool := match p with CLocked | CBroadcast => true | _ => false end.
Definition has (v : tpc) : bool := match v with THave _ => true | _ => false end.
Definition winv (sp : bool) (timeout now : Z) (s : timed) : Prop :=
  now <= t_now s /\ t_connected s = match t_thread s with CRun => true | _ => false end /\
  holds (t_thread s) && has (t_waiter s) = false /\
  t_lock s = (if holds (t_thread s) then Some true else if has (t_waiter s) then Some false else None) /\
  match t_waiter s with
  | TReady l | TWait l => now + timeout * 1000000 <= l <= t_now s + timeout * 1000000
  | TAwake b | THave b | TTest b => if b then now + timeout * 1000000 <= t_now s else sp = true \/ finished (t_thread s) = true
  | TRet c => (c = STATUS_OPEN /\ now + timeout * 1000000 <= t_now s) \/ (c = STATUS_CLOSE /\ (sp = true \/ t_connected s = false))
  | _ => True
  end.
Lemma clocked : forall n timeout, 0 <= n -> 0 <= timeout < 4294967296 -> nanos (deadline (n / 1000000000) (n mod 1000000000) timeout) = n + timeout * 1000000.
Proof.
  intros n t N T. destruct (C106_deadline (n / 1000000000) (n mod 1000000000) t) as [E _]; [apply Z.mod_pos_bound; lia|exact T|]. rewrite E.
  pose proof (Z.div_mod n 1000000000 ltac:(lia)). lia.
Qed.
Definition anystep (timeout : Z) (s s' : timed) : Prop := wstep timeout s s' \/ wspurious s s'.
Lemma winv_step : forall sp timeout now s s', 0 <= now -> 0 <= timeout < 4294967296 -> winv sp timeout now s ->
  wstep timeout s s' \/ (sp = true /\ wspurious s s') -> winv sp timeout now s'.
Proof.
  intros sp timeout now s s' NN T (N & C & B & K & W) [St|[SP St]]; destruct St; unfold winv; cbn [t_now t_connected t_thread t_waiter t_lock holds has finished] in *;
    try subst c; try (destruct v); try (destruct p); repeat match goal with x : bool |- context [if ?y then _ else _] => constr_eq x y; destruct x end; cbn [holds has finished andb] in *; try discriminate; try rewrite clocked by lia;
    repeat match goal with |- _ /\ _ => split end; try reflexivity; try lia; try tauto; try (intuition (try discriminate; lia)).
  all: destruct b; cbn [andb]; intuition (try discriminate; lia).
Qed.
Lemma winv_steps : forall sp timeout now (step : timed -> timed -> Prop) s, 0 <= now -> 0 <= timeout < 4294967296 ->
  (forall a b, step a b -> wstep timeout a b \/ (sp = true /\ wspurious a b)) -> wsteps step (timed0 now) s -> winv sp timeout now s.
Proof.
  intros sp timeout now step s N T A R. remember (timed0 now) as s0 eqn:E. induction R as [s|s s' s'' R IH X].
  - subst. unfold winv, timed0. cbn. repeat split; auto; lia.
  - eapply winv_step; [exact N|exact T|apply IH; exact E|apply A; exact X].
Qed.

(** C106. The answer "open" only comes once the timeout is over, also with spurious wake-ups. *)
Theorem C106_open : forall timeout now s, 0 <= now -> 0 <= timeout < 4294967296 -> wsteps (anystep timeout) (timed0 now) s ->
  t_waiter s = TRet STATUS_OPEN -> now + timeout * 1000000 <= t_now s.
Proof.
  intros timeout now s N T R E. destruct (winv_steps true timeout now (anystep timeout) s N T) as (_ & _ & _ & _ & W); [intros a b [X|X]; auto|exact R|].
  rewrite E in W. destruct W as [[_ W]|[W _]]; [exact W|discriminate W].
Qed.
Print Assumptions C106_open.
(** C106. ... and at that moment the websocket is still open. *)
Theorem C106_still_open : forall timeout s s', wstep timeout s s' \/ wspurious s s' -> t_waiter s <> TRet STATUS_OPEN -> t_waiter s' = TRet STATUS_OPEN -> t_connected s' = true.
Proof.
  intros timeout s s' [St|St] D E; destruct St; cbn [t_now t_connected t_thread t_waiter t_lock] in *; try discriminate; try contradiction.
  - destruct v; discriminate || contradiction.
  - destruct b, c; try reflexivity; discriminate E.
Qed.
Print Assumptions C106_still_open.

(** C106. Partial: pthread_cond_timedwait does not return 0 without a broadcast (POSIX allows it to). Then the answer "closed"
    only comes when the websocket is closed, and the answer is one of the two. *)
Theorem C106_closed_partial : forall timeout now s c, 0 <= now -> 0 <= timeout < 4294967296 -> wsteps (wstep timeout) (timed0 now) s ->
  t_waiter s = TRet c -> (c = STATUS_OPEN \/ c = STATUS_CLOSE) /\ (c = STATUS_CLOSE -> t_connected s = false).
Proof.
  intros timeout now s c N T R E. destruct (winv_steps false timeout now (wstep timeout) s N T) as (_ & _ & _ & _ & W); [intros a b X; auto|exact R|].
  rewrite E in W. destruct W as [[-> _]|[-> [W|W]]]; [split; [auto|discriminate]|discriminate W|auto].
Qed.
Print Assumptions C106_closed_partial.

(** C106. Wherever the two threads are, the wait can return within the timeout: no wake-up that is missed makes it sleep for ever
    (without a timeout it can, C50_missed_wakeup_refuted). *)
Lemma more : forall (step : timed -> timed -> Prop) a b c, wsteps step a b -> wsteps step b c -> wsteps step a c.
Proof. intros step a b c AB BC. induction BC as [|x y z X IH Y]; [exact AB|]. eapply ws_more; [apply IH; exact AB|exact Y]. Qed.
Lemma one : forall (step : timed -> timed -> Prop) a b c, step a b -> wsteps step b c -> wsteps step a c.
Proof. intros step a b c AB BC. eapply more; [|exact BC]. eapply ws_more; [apply ws_refl|exact AB]. Qed.
Lemma ticks : forall timeout k n c p v l, wsteps (wstep timeout) (mk_timed n c p v l) (mk_timed (n + Z.of_nat k) c p v l).
Proof.
  intros timeout k. induction k as [|k IH]; intros n c p v l; [rewrite Z.add_0_r; apply ws_refl|].
  rewrite Nat2Z.inj_succ, <- Z.add_1_r, Z.add_assoc. eapply ws_more; [apply IH|constructor].
Qed.
Lemma until : forall timeout l n c p v k, n <= l -> wsteps (wstep timeout) (mk_timed n c p v k) (mk_timed l c p v k).
Proof. intros timeout l n c p v k LE. pose proof (ticks timeout (Z.to_nat (l - n)) n c p v k) as X. rewrite Z2Nat.id in X by lia. replace (n + (l - n)) with l in X by lia. exact X. Qed.
(** the thread gives its lock back *)
Lemma free_lock : forall timeout s sp now, winv sp timeout now s -> holds (t_thread s) = true ->
  exists s', wsteps (wstep timeout) s s' /\ t_now s' = t_now s /\ t_thread s' = CEnd /\ has (t_waiter s') = false.
Proof.
  intros timeout [n c p v k] sp now (N & C & B & K & W) H. cbn [t_now t_connected t_thread t_waiter t_lock] in *. rewrite H in B. cbn [andb] in B. destruct p; try discriminate H.
  - eexists. split; [eapply one; [apply w_broadcast|]; eapply one; [apply w_unlock|apply ws_refl]|]. cbn. repeat split. destruct v; auto.
  - eexists. split; [eapply one; [apply w_unlock|apply ws_refl]|]. cbn. auto.
Qed.
Lemma finish : forall timeout s sp now, 0 <= timeout < 4294967296 -> 0 <= now -> winv sp timeout now s -> holds (t_thread s) = false ->
  exists s' c, wsteps (wstep timeout) s s' /\ t_waiter s' = TRet c /\ t_now s' <= t_now s + timeout * 1000000.
Proof.
  intros timeout [n c p v k] sp now T NN (N & C & B & K & W) H. cbn [t_now t_connected t_thread t_waiter t_lock] in *. rewrite H in K. clear B.
  assert (A : forall b m, m <= n + timeout * 1000000 -> exists s' d, wsteps (wstep timeout) (mk_timed m c p (TAwake b) None) s' /\ t_waiter s' = TRet d /\ t_now s' <= n + timeout * 1000000).
  { intros b m M. do 2 eexists. split; [eapply one; [apply w_relock|]; eapply one; [apply w_release|]; eapply one; [apply w_return|apply ws_refl]|]. cbn. split; [reflexivity|exact M]. }
  assert (L : forall l m, m <= n + timeout * 1000000 -> l <= n + timeout * 1000000 -> exists s' d, wsteps (wstep timeout) (mk_timed m c p (TWait l) None) s' /\ t_waiter s' = TRet d /\ t_now s' <= n + timeout * 1000000).
  { intros l m M E. destruct (A true (Z.max m l) ltac:(lia)) as (s' & d & R & X). exists s', d. split; [|exact X].
    eapply more; [apply (until timeout (Z.max m l)); lia|]. eapply one; [apply w_late; lia|exact R]. }
  destruct v; cbn [has] in K; try subst k.
  - destruct c.
    + destruct (L (n + timeout * 1000000) n ltac:(lia) ltac:(lia)) as (s' & d & R & X). exists s', d. split; [|exact X].
      eapply one; [apply w_open|]. eapply one; [apply w_clock|]. rewrite clocked by lia. eapply one; [apply w_wait|exact R].
    + do 2 eexists. split; [eapply one; [apply w_shut|apply ws_refl]|]. cbn. split; [reflexivity|lia].
  - destruct (L (n + timeout * 1000000) n ltac:(lia) ltac:(lia)) as (s' & d & R & X). exists s', d. split; [|exact X].
    eapply one; [apply w_clock|]. rewrite clocked by lia. eapply one; [apply w_wait|exact R].
  - destruct (L limit n ltac:(lia) ltac:(lia)) as (s' & d & R & X). exists s', d. split; [|exact X]. eapply one; [apply w_wait|exact R].
  - apply L; lia.
  - apply A; lia.
  - do 2 eexists. split; [eapply one; [apply w_release|]; eapply one; [apply w_return|apply ws_refl]|]. cbn. split; [reflexivity|lia].
  - do 2 eexists. split; [eapply one; [apply w_return|apply ws_refl]|]. cbn. split; [reflexivity|lia].
  - do 2 eexists. split; [apply ws_refl|]. cbn. split; [reflexivity|lia].
Qed.
Theorem C106_returns : forall timeout now s, 0 <= now -> 0 <= timeout < 4294967296 -> wsteps (anystep timeout) (timed0 now) s ->
  exists s' c, wsteps (wstep timeout) s s' /\ t_waiter s' = TRet c /\ t_now s' <= t_now s + timeout * 1000000.
Proof.
  intros timeout now s N T R. pose proof (winv_steps true timeout now (anystep timeout) s N T ltac:(intros a b [X|X]; auto) R) as I.
  destruct (holds (t_thread s)) eqn:H; [|eapply finish; eauto].
  destruct (free_lock _ _ _ _ I H) as (s1 & R1 & E1 & P1 & _). assert (I1 : winv true timeout now s1).
  { clear - R1 I N T. induction R1 as [s|s s' s'' R IH X]; [exact I|]. eapply winv_step; [exact N|exact T|apply IH; exact I|left; exact X]. }
  destruct (finish _ _ _ _ T N I1 ltac:(rewrite P1; reflexivity)) as (s2 & c & R2 & E2 & L2). exists s2, c. split; [eapply more; eauto|]. split; [exact E2|lia].
Qed.
Print Assumptions C106_returns.

(** C106, refuted: after a spurious wake-up, at once, the answer is "closed" although the websocket is open, u_websocket.c:2333-2335:
    when pthread_cond_timedwait does not return ETIMEDOUT, connected is not looked at, and the wait is not resumed. *)
Theorem C106_spurious_refuted : forall timeout now, exists s, wsteps (anystep timeout) (timed0 now) s /\
  t_waiter s = TRet STATUS_CLOSE /\ t_connected s = true /\ t_now s = now.
Proof.
  intros timeout now. eexists. split.
  - unfold timed0. eapply one; [left; apply w_open|]. eapply one; [left; apply w_clock|]. eapply one; [left; apply w_wait|]. eapply one; [right; apply w_spurious|].
    eapply one; [left; apply w_relock|]. eapply one; [left; apply w_release|]. eapply one; [left; apply w_return|]. apply ws_refl.
  - cbn. auto.
Qed.
Print Assumptions C106_spurious_refuted.

(** C106, refuted: connected is tested before the lock is taken, u_websocket.c:2323,2331. When the websocket closes in between, nobody
    wakes the waiter any more: it sleeps for the whole timeout although the websocket is closed, then it answers "closed". *)
Definition asleep (l : Z) (s : timed) : Prop := t_thread s = CEnd /\
  match t_waiter s with TReady m | TWait m => m = l | TAwake b | THave b | TTest b => b = true /\ l <= t_now s | TRet _ => l <= t_now s | _ => False end.
Lemma asleep_steps : forall timeout l s s', asleep l s -> wsteps (wstep timeout) s s' -> asleep l s'.
Proof.
  intros timeout l s s' A R. induction R as [s|s x y R IH St]; [exact A|]. destruct (IH A) as [P W]. clear A R IH.
  destruct St; unfold asleep; cbn [t_now t_connected t_thread t_waiter t_lock] in *; try discriminate P; try contradiction W; (split; [exact P|]).
  all: try (destruct v); try contradiction; intuition (try congruence; lia).
Qed.
Theorem C106_missed_refuted : forall timeout now, 0 <= now -> 0 <= timeout < 4294967296 -> exists s, wsteps (wstep timeout) (timed0 now) s /\
  t_connected s = false /\ t_now s = now /\
  forall s' c, wsteps (wstep timeout) s s' -> t_waiter s' = TRet c -> now + timeout * 1000000 <= t_now s'.
Proof.
  intros timeout now N T. exists (mk_timed now false CEnd (TReady (now + timeout * 1000000)) None). split.
  - unfold timed0. eapply one; [apply w_open|]. eapply one; [apply w_clock|]. rewrite clocked by lia. eapply one; [apply w_end|]. eapply one; [apply w_close|].
    eapply one; [apply w_lock|]. eapply one; [apply w_broadcast|]. eapply one; [apply w_unlock|]. apply ws_refl.
  - split; [reflexivity|]. split; [reflexivity|]. intros s' c R E.
    assert (A : asleep (now + timeout * 1000000) s') by (eapply asleep_steps; [|exact R]; split; reflexivity). destruct A as [_ W]. rewrite E in W. exact W.
Qed.
Print Assumptions C106_missed_refuted.

(** runs that meet the hypotheses: the websocket stays open for the whole second and a half; it is closed meanwhile *)
Example C106_ex_open : exists s, wsteps (wstep 1500) (timed0 1700000000900000000) s /\ t_waiter s = TRet STATUS_OPEN /\ t_now s = 1700000002400000000.
Proof.
  eexists. split.
  - unfold timed0. eapply one; [apply w_open|]. eapply one; [apply w_clock|]. rewrite clocked by lia. eapply one; [apply w_wait|].
    eapply more; [apply (until 1500 1700000002400000000); lia|]. eapply one; [apply w_late; lia|].
    eapply one; [apply w_relock|]. eapply one; [apply w_release|]. eapply one; [apply w_return|]. apply ws_refl.
  - cbn. auto.
Qed.
Example C106_ex_closed : exists s, wsteps (wstep 1500) (timed0 7) s /\ t_waiter s = TRet STATUS_CLOSE /\ t_connected s = false /\ t_now s = 7.
Proof.
  eexists. split.
  - unfold timed0. eapply one; [apply w_open|]. eapply one; [apply w_clock|]. eapply one; [apply w_wait|]. eapply one; [apply w_end|]. eapply one; [apply w_close|].
    eapply one; [apply w_lock|]. eapply one; [apply w_broadcast|]. eapply one; [apply w_unlock|].
    eapply one; [apply w_relock|]. eapply one; [apply w_release|]. eapply one; [apply w_return|]. apply ws_refl.
  - cbn. auto.
Qed.
Example C106_ex_deadline : deadline 10 900000000 1500 = (12, 400000000) /\ deadline 10 5 999 = (10, 999000005).
Proof. split; reflexivity. Qed.
