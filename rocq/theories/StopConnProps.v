(** C49: what MHD_stop_daemon waits for, in every execution. *)
From Coq Require Import Bool List Arith Lia.
From Verif Require Import ConcModel ConcSpec ConcProofs.
Import ListNotations.

(** the thread of the connection is between the first line of the opening (u_websocket.c:1426) and the start of the websocket's own thread *)
Definition opening (p : wpc) : Prop := match p with WRead _ _ | WAlloc _ | WStored | WLockedA | WWritten | WCounted | WAdded => True | _ => False end.

(** a step of a websocket thread: only its own place changes, and it enters the opening only from the start, while the daemon runs *)
Lemma wstep_place : forall i s s', wstep i s = Some (Next s') -> (forall j, j <> i -> ws s' j = ws s j) /\ daemon s' = daemon s /\ (opening (ws s' i) -> opening (ws s i) \/ daemon s = true).
Proof.
  intros i s s' H. assert (G : forall r, guard s r = Some (Next s') -> r = Some (Next s')) by (intros r; unfold guard; destruct (freed s); [destruct r; discriminate|auto]).
  assert (U : forall f p, upd f i p i = p :> wpc) by (intros; unfold upd; now rewrite Nat.eqb_refl).
  assert (V : forall f p j, j <> i -> upd f i p j = f j :> wpc) by (intros f p j N; unfold upd; apply Nat.eqb_neq in N; now rewrite N).
  assert (RA : forall p n b x, reallocate s p n = Some (b, x) -> ws x = ws s /\ daemon x = daemon s).
  { intros p n b x E. destruct (reallocate_same _ _ _ _ _ E) as (_ & _ & _ & _ & W & _ & _ & _ & D). now split. }
  unfold wstep in H. destruct (ws s i) eqn:P; try discriminate H; try (destruct (daemon s) eqn:DA; [|discriminate H]); try apply G in H;
    repeat match goal with
    | H : match ?x with _ => _ end = Some (Next _) |- _ => let E := fresh "E" in destruct x eqn:E; try discriminate H
    end;
    injection H as <-; cbn [at_w at_s set_ptr set_nb set_heap set_alock set_clock set_flag ws daemon];
    repeat match goal with E : reallocate s _ _ = Some (_, _) |- _ => destruct (RA _ _ _ _ E) as (-> & ->); clear E end;
    (split; [intros j N; now apply V|]); (split; [try reflexivity; try assumption|]); rewrite ?U; cbn [opening]; auto.
Qed.

Lemma after_stop : forall n s, reach n s -> daemon s = false -> forall i, ~ opening (ws s i).
Proof.
  intros n s R. induction R as [|s t s' R IH H|s R IH S]; [discriminate| |exact IH].
  destruct t as [i|]; cbn [tstep] in H.
  - destruct (i <? n); [|discriminate]. destruct (wstep_place i s s' H) as (O & D & W). intros DF j. rewrite D in DF. destruct (Nat.eq_dec j i) as [->|N].
    + intros X. destruct (W X) as [Y|Y]; [exact (IH DF i Y)|congruence].
    + rewrite (O j N). now apply IH.
  - unfold sstep in H.
    destruct (stop s) eqn:P; try discriminate H;
    repeat match goal with
    | H : match ?x with _ => _ end = Some (Next _) |- _ => let E := fresh "E" in destruct x eqn:E; try discriminate H
    end; injection H as <-; cbn [at_s set_ptr set_nb set_heap set_alock set_clock set_flag ws daemon]; try exact IH.
    intros _ i X. match goal with E : connections_done n s = true |- _ => unfold connections_done in E; rewrite forallb_forall in E; rename E into C end.
    destruct (Nat.ltb_spec i n) as [L|L].
    + specialize (C i). rewrite in_seq in C. specialize (C ltac:(lia)). destruct (ws s i); try discriminate C; exact X.
    + rewrite (k_n n s (reach_locks n s R) i L) in X. exact X.
Qed.

(** C49. In every execution, with openings at any time: once ulfius_stop_framework has returned no connection is in the middle of an opening, and whatever meets the released
    instance is the own thread of a websocket. *)
Theorem C49_connections_partial : forall n s, reach n s -> stop s = SStopped \/ stop s = SCleaned ->
  (forall i, ~ opening (ws s i)) /\ (forall i, tstep n (TW i) s = Some (Fault HandlerFault) -> ws s i <> WIdle /\ ~ opening (ws s i) /\ stop s = SCleaned).
Proof.
  intros n s R S. pose proof (reach_locks n s R) as K. assert (D : daemon s = false).
  { destruct (daemon s) eqn:D; [|reflexivity]. apply (k_daemon n s K) in D. destruct S as [S|S]; tauto. }
  pose proof (after_stop n s R D) as A. split; [exact A|]. intros i H. split; [|split; [apply A|]].
  - intros W. cbn [tstep] in H. destruct (i <? n); [|discriminate]. unfold wstep in H. rewrite W, D in H. discriminate.
  - destruct S as [S|S]; [|exact S]. exfalso. assert (F : freed s = false) by (destruct (freed s) eqn:F; [apply (k_freed n s K) in F; congruence|reflexivity]).
    cbn [tstep] in H. destruct (i <? n); [|discriminate]. unfold wstep, guard in H. rewrite F in H.
    destruct (ws s i); repeat match goal with H : match ?x with _ => _ end = Some (Fault _) |- _ => destruct x; try discriminate H end; discriminate H.
Qed.
Print Assumptions C49_connections_partial.

(** the same websocket, opened late, is waited for: MHD_stop_daemon does not return while it is being opened, and does once it is open *)
Example C49_ex_connections : (exists s, schedule 1 (repeat TS 6 ++ repeat (TW 0) 4) init = Some (Next s) /\ opening (ws s 0) /\ stop s = SOut /\ tstep 1 TS s = None) /\
  (exists s, schedule 1 (repeat TS 6 ++ repeat (TW 0) 8 ++ [TS]) init = Some (Next s) /\ ws s 0 = WOpen /\ stop s = SStopped).
Proof. split; eexists; (split; [vm_compute; reflexivity|]); vm_compute; auto. Qed.
