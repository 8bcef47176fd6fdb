(** What the shared list of active websockets should satisfy, for any number [n] of websockets. *)
From Coq Require Import ZArith Bool List Arith.
From Verif Require Import Base ConcModel.
Import ListNotations.
Open Scope nat_scope.

(** all executions, with spurious wake-ups of the stopping thread *)
Inductive reach (n : nat) : sys -> Prop :=
| r_init : reach n init
| r_step : forall s t s', reach n s -> tstep n t s = Some (Next s') -> reach n s'
| r_spurious : forall s, reach n s -> stop s = SAsleep -> reach n (at_s s SWoken).

(** the part of the opening done without the lock *)
Definition unlocked_add (p : wpc) : Prop := match p with WRead _ _ | WAlloc _ | WStored => True | _ => False end.
(** in the middle of a change of the list *)
Definition changing (p : wpc) : Prop :=
  match p with WRead _ _ | WAlloc _ | WStored | WLockedA | WWritten | WShifted | WMoved _ | WFreed | WResized => True | _ => False end.
(** using the list *)
Definition touching (p : wpc) : Prop := changing p \/ p = WLockedR.

(** nobody else uses the list during the unlocked part of an opening *)
Definition quiet (s : sys) : Prop :=
  (forall i j, i <> j -> unlocked_add (ws s i) -> ~ touching (ws s j)) /\
  (forall i, unlocked_add (ws s i) -> stop s <> SLocked).

(** executions in which openings do not overlap other uses of the list *)
Inductive reach_quiet (n : nat) : sys -> Prop :=
| q_init : reach_quiet n init
| q_step : forall s t s', reach_quiet n s -> tstep n t s = Some (Next s') -> quiet s' -> reach_quiet n s'
| q_spurious : forall s, reach_quiet n s -> stop s = SAsleep -> reach_quiet n (at_s s SWoken).

(** the websocket is counted *)
Definition counted (p : wpc) : Prop :=
  match p with WCounted | WAdded | WOpen | WClosing | WLockedR | WShifted | WMoved _ | WFreed | WResized => True | _ => False end.

(** the list contains exactly the counted websockets, each once, the count is right and the block has that size *)
Definition consistent (n : nat) (s : sys) : Prop :=
  exists l, NoDup l /\ (forall i, In i l <-> i < n /\ counted (ws s i)) /\ nb s = length l /\
    (l = [] /\ ptr s = None \/ l <> [] /\ block s = Some (map Some l)).

(** a websocket thread that has removed its entry but has not finished with the instance *)
Definition leaving (p : wpc) : Prop := match p with WDec | WCLocked | WBcast | WUnlocking => True | _ => False end.

(** all that can move has moved: only new openings, or ulfius_clean_instance, could still happen *)
Definition halted (n : nat) (s : sys) : Prop :=
  (forall i, i < n -> ws s i <> WIdle -> wstep i s = None) /\ (stop s <> SStopped -> sstep n s = None).

(** executions of k steps without new openings, spurious wake-ups and cleaning *)
Inductive finishing (n : nat) : nat -> sys -> sys -> Prop :=
| f_nil : forall s, finishing n 0 s s
| f_w : forall k i s s1 s', ws s i <> WIdle -> tstep n (TW i) s = Some (Next s1) -> finishing n k s1 s' -> finishing n (S k) s s'
| f_s : forall k s s1 s', stop s <> SStopped -> tstep n TS s = Some (Next s1) -> finishing n k s1 s' -> finishing n (S k) s s'.

(** executions in which no websocket is being opened while the instance is being stopped *)
Definition settled (s : sys) : Prop := stop s <> SInit -> forall i, in_connection (ws s i) = false.
Inductive reach_settled (n : nat) : sys -> Prop :=
| e_init : reach_settled n init
| e_step : forall s t s', reach_settled n s -> tstep n t s = Some (Next s') -> quiet s' -> settled s' -> reach_settled n s'
| e_spurious : forall s, reach_settled n s -> stop s = SAsleep -> reach_settled n (at_s s SWoken).

(** ** waiting for the end of a client websocket *)
Inductive waits : wait -> wait -> Prop :=
| w_refl : forall s, waits s s
| w_step : forall a b c, waits a b -> vstep b c -> waits a c.
Inductive waits_any : wait -> wait -> Prop :=
| wa_refl : forall s, waits_any s s
| wa_step : forall a b c, waits_any a b -> vstep b c -> waits_any a c
| wa_spurious : forall a b c, waits_any a b -> vspurious b c -> waits_any a c.
Definition before_broadcast (p : cpc) : Prop := match p with CRun | CLoopDone | CClosed | CLocked => True | _ => False end.
