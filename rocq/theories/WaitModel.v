(** ulfius_websocket_wait_close with a timeout, /repo/src/u_websocket.c:2318-2348, beside the thread of
    the websocket (660-817, as in ConcModel) and the clock. Memory is sequentially consistent. *)
From Coq Require Import ZArith Bool List.
From Verif Require Import Base ConcModel.
Import ListNotations.
Open Scope Z_scope.

(** 2325-2331 the time at which the wait ends. [sec], [nsec]: what clock_gettime gives; time_t and long
    hold 64 bits and the sums fit. *)
Definition deadline (sec nsec timeout : Z) : Z * Z :=
  let s := sec + Z.quot timeout 1000 in
  let n := nsec + Z.rem timeout 1000 * 1000000 in
  if 999999999 <? n then (s + 1, Z.rem n 1000000000) else (s, n).
(** a struct timespec in nanoseconds *)
Definition nanos (t : Z * Z) : Z := fst t * 1000000000 + snd t.

(** include/ulfius.h: U_WEBSOCKET_STATUS_OPEN and U_WEBSOCKET_STATUS_CLOSE *)
Definition STATUS_OPEN := 0%Z.
(** 2324: before the test of connected; 2325: before the clock is read; 2332: before the lock; in
    pthread_cond_timedwait; woken, with its result (true: ETIMEDOUT), before having the lock; 2334 with the
    lock; 2335; returned *)
Inductive tpc := TStart | TOpen | TReady (limit : Z) | TWait (limit : Z) | TAwake (late : bool) | THave (late : bool) | TTest (late : bool) | TRet (status : Z).
Record timed := mk_timed { t_now : Z; t_connected : bool; t_thread : cpc; t_waiter : tpc; t_lock : option bool }.

Section Wait.
Variable timeout : Z.
Inductive wstep : timed -> timed -> Prop :=
| w_tick : forall n c p v k, wstep (mk_timed n c p v k) (mk_timed (n + 1) c p v k)
(* the thread, as ConcModel.vstep *)
| w_end : forall n v k, wstep (mk_timed n true CRun v k) (mk_timed n false CLoopDone v k)
| w_close : forall n c v k, wstep (mk_timed n c CLoopDone v k) (mk_timed n false CClosed v k)
| w_lock : forall n c v, wstep (mk_timed n c CClosed v None) (mk_timed n c CLocked v (Some true))
| w_broadcast : forall n c v k, wstep (mk_timed n c CLocked v k) (mk_timed n c CBroadcast (match v with TWait _ => TAwake false | _ => v end) k)
| w_unlock : forall n c v k, wstep (mk_timed n c CBroadcast v k) (mk_timed n c CEnd v None)
(* the waiter *)
| w_open : forall n p k, wstep (mk_timed n true p TStart k) (mk_timed n true p TOpen k)
| w_shut : forall n p k, wstep (mk_timed n false p TStart k) (mk_timed n false p (TRet STATUS_CLOSE) k)
| w_clock : forall n c p k, wstep (mk_timed n c p TOpen k)
    (mk_timed n c p (TReady (nanos (deadline (Z.div n 1000000000) (Z.modulo n 1000000000) timeout))) k)
| w_wait : forall n c p l, wstep (mk_timed n c p (TReady l) None) (mk_timed n c p (TWait l) None)
| w_late : forall n c p l k, l <= n -> wstep (mk_timed n c p (TWait l) k) (mk_timed n c p (TAwake true) k)
| w_relock : forall n c p b, wstep (mk_timed n c p (TAwake b) None) (mk_timed n c p (THave b) (Some false))
| w_release : forall n c p b k, wstep (mk_timed n c p (THave b) k) (mk_timed n c p (TTest b) None)
| w_return : forall n c p b k, wstep (mk_timed n c p (TTest b) k) (mk_timed n c p (TRet (if b && c then STATUS_OPEN else STATUS_CLOSE)) k).
(** pthread_cond_timedwait may return 0 without a broadcast *)
Inductive wspurious : timed -> timed -> Prop :=
| w_spurious : forall n c p l k, wspurious (mk_timed n c p (TWait l) k) (mk_timed n c p (TAwake false) k).
Inductive wsteps (step : timed -> timed -> Prop) : timed -> timed -> Prop :=
| ws_refl : forall s, wsteps step s s
| ws_more : forall s s' s'', wsteps step s s' -> step s' s'' -> wsteps step s s''.
End Wait.
Definition timed0 (now : Z) : timed := mk_timed now true CRun TStart None.
