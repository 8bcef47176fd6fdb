(** The list of active websockets of an instance, shared by the threads of the connections and the thread that stops the
    instance: ulfius_instance_add_websocket_active, ulfius_instance_remove_websocket_active (src/u_websocket.c:1417-1482),
    ulfius_start_websocket_cb (1217-1219), ulfius_stop_framework (src/ulfius.c:1322-1343), ulfius_clean_instance
    (src/ulfius.c:1645-1670). Threads interleave between the steps given here; memory is sequentially consistent. *)
From Coq Require Import ZArith Bool List Arith.
From Verif Require Import Base.
Import ListNotations.
Open Scope nat_scope.

(** ListFault: an access to the list outside of its block or after its release; HandlerFault: an access to the released websocket_handler *)
Inductive fault := ListFault | HandlerFault.
Inductive tid := TW (i : nat) | TS.

(** where the thread of websocket i is *)
Inductive wpc :=
| WIdle                              (* not opened yet *)
| WRead (p : option nat) (n : nat)   (* 1422: arguments of o_realloc read, before the call *)
| WAlloc (b : nat)                   (* 1422: o_realloc returned, before the assignment *)
| WStored                            (* 1423: before pthread_mutex_lock(websocket_active_lock) *)
| WLockedA                           (* 1428 *)
| WWritten                           (* 1429: before nb_websocket_active++ *)
| WCounted                           (* 1430: before unlocking *)
| WAdded                             (* added, before ulfius_start_websocket_cb *)
| WOpen                              (* the websocket thread runs *)
| WClosing                           (* 1448 passed, before locking *)
| WLockedR                           (* 1454 *)
| WShifted                           (* 1460: before o_realloc *)
| WMoved (b : nat)                   (* 1460: o_realloc returned, before the assignment *)
| WFreed                             (* 1466: after o_free, before = NULL *)
| WResized                           (* 1469: before nb_websocket_active-- *)
| WDec                               (* 1470: before locking websocket_close_lock *)
| WCLocked                           (* 1471: before the broadcast *)
| WBcast                             (* 1472: before unlocking websocket_close_lock *)
| WUnlocking                         (* 1476: before unlocking websocket_active_lock *)
| WGone.                             (* done with the instance *)

(** where the thread that stops the instance is *)
Inductive spc :=
| SInit                              (* ulfius.c:1327 before locking websocket_active_lock *)
| SLocked                            (* 1330 *)
| SFlagged                           (* 1333 before unlocking *)
| SUnlocked                          (* 1335 before locking websocket_close_lock *)
| SHave                              (* 1336 the lock is held, before the test *)
| SAsleep                            (* 1337 in pthread_cond_wait *)
| SWoken                             (* 1337 woken, before having the lock again *)
| SExit                              (* 1339 before unlocking *)
| SOut                               (* 1341 before MHD_stop_daemon *)
| SStopped                           (* ulfius_stop_framework has returned *)
| SCleaned.                          (* ulfius_clean_instance: handler destroyed and released *)

(** ptr: websocket_active; heap: the blocks, None when released or never allocated; an entry of a block is a websocket or uninitialised *)
Record sys := mk_sys {
  ptr : option nat; nb : nat; heap : nat -> option (list (option nat)); fresh : nat;
  alock : option tid; clock : option tid; ws : nat -> wpc; stop : spc;
  flag : nat -> bool; freed : bool; daemon : bool }.

Definition upd {A} (f : nat -> A) (i : nat) (x : A) : nat -> A := fun j => if j =? i then x else f j.

Definition init : sys := mk_sys None 0 (fun _ => None) 0 None None (fun _ => WIdle) SInit (fun _ => false) false true.

(** setters *)
Definition at_w (s : sys) (i : nat) (p : wpc) : sys := mk_sys (ptr s) (nb s) (heap s) (fresh s) (alock s) (clock s) (upd (ws s) i p) (stop s) (flag s) (freed s) (daemon s).
Definition at_s (s : sys) (p : spc) : sys := mk_sys (ptr s) (nb s) (heap s) (fresh s) (alock s) (clock s) (ws s) p (flag s) (freed s) (daemon s).
Definition set_ptr (s : sys) (p : option nat) : sys := mk_sys p (nb s) (heap s) (fresh s) (alock s) (clock s) (ws s) (stop s) (flag s) (freed s) (daemon s).
Definition set_nb (s : sys) (n : nat) : sys := mk_sys (ptr s) n (heap s) (fresh s) (alock s) (clock s) (ws s) (stop s) (flag s) (freed s) (daemon s).
Definition set_heap (s : sys) (h : nat -> option (list (option nat))) (f : nat) : sys := mk_sys (ptr s) (nb s) h f (alock s) (clock s) (ws s) (stop s) (flag s) (freed s) (daemon s).
Definition set_alock (s : sys) (o : option tid) : sys := mk_sys (ptr s) (nb s) (heap s) (fresh s) o (clock s) (ws s) (stop s) (flag s) (freed s) (daemon s).
Definition set_clock (s : sys) (o : option tid) : sys := mk_sys (ptr s) (nb s) (heap s) (fresh s) (alock s) o (ws s) (stop s) (flag s) (freed s) (daemon s).
Definition set_flag (s : sys) (f : nat -> bool) : sys := mk_sys (ptr s) (nb s) (heap s) (fresh s) (alock s) (clock s) (ws s) (stop s) f (freed s) (daemon s).

Inductive res := Next (s : sys) | Fault (k : fault).

(** o_realloc(p, n * sizeof(pointer)): always moves the block *)
Definition resize (l : list (option nat)) (n : nat) : list (option nat) := firstn n l ++ repeat None (n - length l).
Definition reallocate (s : sys) (p : option nat) (n : nat) : option (nat * sys) :=
  match p with
  | None => Some (fresh s, set_heap s (upd (heap s) (fresh s) (Some (repeat None n))) (S (fresh s)))
  | Some b =>
      match heap s b with
      | None => None
      | Some l => Some (fresh s, set_heap s (upd (upd (heap s) b None) (fresh s) (Some (resize l n))) (S (fresh s)))
      end
  end.

(** the first nb entries of the list, all of them initialised *)
Fixpoint entries (l : list (option nat)) (n : nat) : option (list nat) :=
  match n, l with
  | O, _ => Some []
  | S k, Some w :: r => match entries r k with Some e => Some (w :: e) | None => None end
  | S _, _ => None
  end.
Definition block (s : sys) : option (list (option nat)) := match ptr s with Some b => heap s b | None => None end.

(** 1454-1459: position of the websocket *)
Fixpoint index_of (w : nat) (l : list nat) : option nat :=
  match l with
  | [] => None
  | x :: r => if x =? w then Some 0 else match index_of w r with Some k => Some (S k) | None => None end
  end.
(** 1457-1459: the entries after position k of the first n moved down by one; the last one stays *)
Definition shift (l : list (option nat)) (k n : nat) : list (option nat) :=
  firstn k l ++ firstn (n - 1 - k) (skipn (S k) l) ++ skipn (n - 1) l.

Definition wake (p : spc) : spc := match p with SAsleep => SWoken | _ => p end.

(** a step that uses the handler *)
Definition guard (s : sys) (r : option res) : option res := if freed s then match r with None => None | Some _ => Some (Fault HandlerFault) end else r.

(** one step of the thread of websocket i; None: it cannot go on now *)
Definition wstep (i : nat) (s : sys) : option res :=
  let next s' p := Some (Next (at_w s' i p)) in
  match ws s i with
  | WIdle => if daemon s then guard s (next s (WRead (ptr s) (nb s))) else None
  | WRead p n => guard s (match reallocate s p (n + 1) with None => Some (Fault ListFault) | Some (b, s') => next s' (WAlloc b) end)
  | WAlloc b => guard s (next (set_ptr s (Some b)) WStored)
  | WStored => guard s (match alock s with None => next (set_alock s (Some (TW i))) WLockedA | Some _ => None end)
  | WLockedA =>
      guard s (match ptr s with
               | None => Some (Fault ListFault)
               | Some b =>
                   match heap s b with
                   | Some l => if nb s <? length l then next (set_heap s (upd (heap s) b (Some (set_nth l (nb s) (Some i)))) (fresh s)) WWritten else Some (Fault ListFault)
                   | None => Some (Fault ListFault)
                   end
               end)
  | WWritten => guard s (next (set_nb s (nb s + 1)) WCounted)
  | WCounted => guard s (next (set_alock s None) WAdded)
  | WAdded => next (set_flag s (upd (flag s) i false)) WOpen
  | WOpen => guard s (match ptr s with None => next s WGone | Some _ => next s WClosing end)
  | WClosing => guard s (match alock s with None => next (set_alock s (Some (TW i))) WLockedR | Some _ => None end)
  | WLockedR =>
      guard s (match nb s with
               | O => next s WUnlocking
               | _ =>
                   match ptr s with
                   | None => Some (Fault ListFault)
                   | Some b =>
                       match heap s b with
                       | None => Some (Fault ListFault)
                       | Some l =>
                           match entries l (nb s) with
                           | None => Some (Fault ListFault)
                           | Some e =>
                               match index_of i e with
                               | None => next s WUnlocking
                               | Some k =>
                                   if 1 <? nb s then next (set_heap s (upd (heap s) b (Some (shift l k (nb s)))) (fresh s)) WShifted
                                   else next (set_heap s (upd (heap s) b None) (fresh s)) WFreed
                               end
                           end
                       end
                   end
               end)
  | WShifted => guard s (match reallocate s (ptr s) (nb s - 1) with None => Some (Fault ListFault) | Some (b, s') => next s' (WMoved b) end)
  | WMoved b => guard s (next (set_ptr s (Some b)) WResized)
  | WFreed => guard s (next (set_ptr s None) WResized)
  | WResized => guard s (next (set_nb s (nb s - 1)) WDec)
  | WDec => guard s (match clock s with None => next (set_clock s (Some (TW i))) WCLocked | Some _ => None end)
  | WCLocked => guard s (next (at_s s (wake (stop s))) WBcast)
  | WBcast => guard s (next (set_clock s None) WUnlocking)
  | WUnlocking => guard s (next (set_alock s None) WGone)
  | WGone => None
  end.

(** MHD_stop_daemon waits for the threads of the connections, which run the dispatcher and ulfius_start_websocket_cb; it does not wait for
    the threads of the websockets. [n]: number of websockets. *)
Definition in_connection (p : wpc) : bool :=
  match p with WRead _ _ | WAlloc _ | WStored | WLockedA | WWritten | WCounted | WAdded => true | _ => false end.
Definition connections_done (n : nat) (s : sys) : bool := forallb (fun i => negb (in_connection (ws s i))) (seq 0 n).

(** 1330-1332 close_flag = 1 for all the entries *)
Definition raise_flags (f : nat -> bool) (e : list nat) : nat -> bool := fun i => if existsb (Nat.eqb i) e then true else f i.

Definition sstep (n : nat) (s : sys) : option res :=
  let next s' p := Some (Next (at_s s' p)) in
  match stop s with
  | SInit => match alock s with None => next (set_alock s (Some TS)) SLocked | Some _ => None end
  | SLocked =>
      match nb s with
      | O => next s SFlagged
      | _ =>
          match block s with
          | None => Some (Fault ListFault)
          | Some l => match entries l (nb s) with None => Some (Fault ListFault) | Some e => next (set_flag s (raise_flags (flag s) e)) SFlagged end
          end
      end
  | SFlagged => next (set_alock s None) SUnlocked
  | SUnlocked => match clock s with None => next (set_clock s (Some TS)) SHave | Some _ => None end
  | SHave => if 0 <? nb s then next (set_clock s None) SAsleep else next s SExit
  | SAsleep => None
  | SWoken => match clock s with None => next (set_clock s (Some TS)) SHave | Some _ => None end
  | SExit => next (set_clock s None) SOut
  | SOut => if connections_done n s then Some (Next (mk_sys (ptr s) (nb s) (heap s) (fresh s) (alock s) (clock s) (ws s) SStopped (flag s) (freed s) false)) else None
  | SStopped => Some (Next (mk_sys (ptr s) (nb s) (heap s) (fresh s) (alock s) (clock s) (ws s) SCleaned (flag s) true (daemon s)))
  | SCleaned => None
  end.

Definition tstep (n : nat) (t : tid) (s : sys) : option res :=
  match t with TW i => if i <? n then wstep i s else None | TS => sstep n s end.

(** an execution given by the threads that move; None if a thread could not *)
Fixpoint schedule (n : nat) (l : list tid) (s : sys) : option res :=
  match l with
  | [] => Some (Next s)
  | t :: r => match tstep n t s with Some (Next s') => schedule n r s' | x => x end
  end.

(** ** ulfius_websocket_wait_close without timeout (src/u_websocket.c:2318-2348) and the end of ulfius_thread_websocket for a client (660-817)
    [connected] is cleared by the loop (or by ulfius_close_websocket); the callbacks and ulfius_close_websocket come after. *)
Inductive cpc := CRun | CLoopDone | CClosed | CLocked | CBroadcast | CEnd.
Inductive vpc := VStart | VSawOpen | VWait | VAwake | VHave | VRet (status : Z) | VCleared.
Record wait := mk_wait { connected : bool; cthread : cpc; waiter : vpc; slock : option bool }.
Definition wait0 : wait := mk_wait true CRun VStart None.
Definition STATUS_CLOSE := 1%Z.

Inductive vstep : wait -> wait -> Prop :=
(* the thread: connected = 0 in its loop, then onclose callback and ulfius_close_websocket, then 804-807 *)
| c_end : forall v k, vstep (mk_wait true CRun v k) (mk_wait false CLoopDone v k)
| c_close : forall c v k, vstep (mk_wait c CLoopDone v k) (mk_wait false CClosed v k)
| c_lock : forall c v, vstep (mk_wait c CClosed v None) (mk_wait c CLocked v (Some true))
| c_broadcast : forall c v k, vstep (mk_wait c CLocked v k) (mk_wait c CBroadcast (match v with VWait => VAwake | _ => v end) k)
| c_unlock : forall c v k, vstep (mk_wait c CBroadcast v k) (mk_wait c CEnd v None)
(* the waiter *)
| v_open : forall p k, vstep (mk_wait true p VStart k) (mk_wait true p VSawOpen k)
| v_closed : forall p k, vstep (mk_wait false p VStart k) (mk_wait false p (VRet STATUS_CLOSE) k)
| v_wait : forall c p, vstep (mk_wait c p VSawOpen None) (mk_wait c p VWait None)   (* locks, and unlocks in pthread_cond_wait *)
| v_relock : forall c p, vstep (mk_wait c p VAwake None) (mk_wait c p VHave (Some false))
| v_unlock : forall c p k, vstep (mk_wait c p VHave k) (mk_wait c p (VRet STATUS_CLOSE) None)
(* ulfius_websocket_client_connection_close 2793, ulfius_websocket_client_connection_wait_close 2831-2833: ulfius_clear_websocket releases the websocket *)
| v_clear : forall c p k, vstep (mk_wait c p (VRet STATUS_CLOSE) k) (mk_wait c p VCleared k).
(** the thread still has to use the websocket or its manager *)
Definition uses_websocket (p : cpc) : bool := match p with CEnd => false | _ => true end.
(** pthread_cond_wait may return without a broadcast *)
Inductive vspurious : wait -> wait -> Prop :=
| v_spurious : forall c p k, vspurious (mk_wait c p VWait k) (mk_wait c p VAwake k).
