(** The locks and the shared variables of websockets and of the list of an instance: the threads of the library and of a program as sequences of takings and releases of mutexes and of accesses.
    /repo/src/u_websocket.c and /repo/src/ulfius.c, lines with each definition.
    Simplifications: pthread_mutex_lock does not fail; a test of a value is a choice, so that a thread may do more here than in the code; waiting for a condition gives the mutex back and takes it again at some time
    (whether it is woken is in C47, C50, C106), waiting for a socket and for the end of a thread takes no mutex; the functions of an extension only touch the context of the extension; the memory of a websocket stays valid. *)
From Coq Require Import ZArith Bool List.
Import ListNotations.
Open Scope Z_scope.

(** the mutexes: read_lock, write_lock, status_lock of websocket [w] (1775-1778), websocket_active_lock, websocket_close_lock of the instance (ulfius.c:1727-1737), those of the program *)
Inductive lock := LRead (w : nat) | LWrite (w : nat) | LStatus (w : nat) | LActive | LClose | LUser (n : nat).
(** PTHREAD_MUTEX_RECURSIVE: 1773-1775, ulfius.c:1725-1727; those of the program are not *)
Definition recursive (l : lock) : bool := match l with LRead _ | LWrite _ | LActive => true | LStatus _ | LClose | LUser _ => false end.
(** connected, close_flag, ping_sent, keep_messages, message_list_incoming, message_list_outcoming of websocket [w], the order of the bytes written to its socket and read from it, the context of its
    extensions for sending and receiving; nb_websocket_active, the array websocket_active; variables of the program *)
Inductive var := Connected (w : nat) | CloseFlag (w : nat) | PingSent (w : nat) | Keep (w : nat) | InList (w : nat) | OutList (w : nat) | Wire (w : nat) | Input (w : nat) | Deflate (w : nat) | Inflate (w : nat) | Count | Active | VUser (n : nat).
Lemma lock_eq_dec : forall a b : lock, {a = b} + {a <> b}.
Proof. decide equality; decide equality. Defined.

(** what a function may do: accesses, sequences, alternatives, loops, a part between pthread_mutex_lock and pthread_mutex_unlock *)
Inductive code := Skip | Rd (v : var) | Wr (v : var) | Seq (a b : code) | Alt (a b : code) | Loop (a : code) | Sync (l : lock) (a : code).
Notation "a ;; b" := (Seq a b) (at level 60, right associativity).
Definition Maybe (a : code) : code := Alt Skip a.

(** ** The functions of the library *)
(** 96-134 is_websocket_data_available, is_websocket_write_available *)
Definition available (w : nat) : code := Maybe (Wr (Connected w)).
(** 164-190 ulfius_websocket_send_frame *)
Definition send_frame (w : nat) : code := Loop (available w ;; Maybe (Wr (Wire w))).
(** 338-399 ulfius_send_websocket_message_managed *)
Definition managed (w : nat) : code := Sync (LWrite w) (Maybe (Loop (send_frame w) ;; Rd (Keep w) ;; Maybe (Wr (OutList w)))).
(** 437-565 ulfius_read_incoming_message, with 136-159 read_data_from_socket *)
Definition read_message (w : nat) : code := Sync (LRead w) (Loop (available w ;; Maybe (Wr (Input w)) ;; Rd (Connected w))).
(** 1493-1587 ulfius_websocket_send_fragmented_message with the opcode CLOSE (1507-1538) *)
Definition send_close (w : nat) : code :=
  Rd (Connected w) ;;
  Maybe (managed w ;;
         Loop (Maybe (available w ;; read_message w ;; Maybe (Wr (Connected w)) ;; Rd (Keep w) ;; Maybe (Wr (InList w))) ;; Rd (Connected w)) ;;
         Wr (Connected w)).
(** with the opcode PONG or PING: 1539-1541, 1573 *)
Definition send_control (w : nat) : code := Rd (Connected w) ;; Maybe (Maybe (Rd (PingSent w)) ;; Maybe (managed w)).
(** with the opcode TEXT or BINARY: the extensions first, 1551-1571 *)
Definition send_data (w : nat) : code := Rd (Connected w) ;; Maybe (Loop (Wr (Deflate w)) ;; Maybe (managed w)).
(** 1445-1482 ulfius_instance_remove_websocket_active; the array is looked at first *)
Definition remove_active : code :=
  Rd Active ;; Maybe (Sync LActive (Loop (Rd Count ;; Rd Active) ;; Maybe (Rd Count ;; Loop (Wr Active) ;; Wr Count ;; Sync LClose Skip))).
(** 1420-1439 ulfius_instance_add_websocket_active, in a thread of libmicrohttpd: the array grows before the mutex is taken *)
Definition add_active : code := Rd Count ;; Wr Active ;; Maybe (Sync LActive (Wr Active ;; Rd Count ;; Wr Count)).
(** ulfius.c:1322-1339 ulfius_stop_framework, with the websockets in the list *)
Definition stop (ws : list nat) : code :=
  Sync LActive (Rd Count ;; fold_right (fun w c => Rd Active ;; Wr (CloseFlag w) ;; c) Skip ws) ;;
  Sync LClose (Rd Count) ;; Loop (Sync LClose (Rd Count)).

(** what a program may call: the three kinds of messages; 2289-2297 ulfius_websocket_send_close_signal; 2304-2310 ulfius_websocket_status; 2318-2350 ulfius_websocket_wait_close;
    1640-1657 ulfius_websocket_pop_first_message of one list or the other; keep_messages set by a program; ulfius_stop_framework *)
Inductive api := AClose (w : nat) | AControl (w : nat) | AData (w : nat) | ASignal (w : nat) | AStatus (w : nat) | AWait (w : nat) | APopIn (w : nat) | APopOut (w : nat) | AKeep (w : nat) | AStop (ws : list nat).
Definition call (a : api) : code :=
  match a with
  | AClose w => send_close w
  | AControl w => send_control w
  | AData w => send_data w
  | ASignal w => Wr (CloseFlag w)
  | AStatus w => Rd (Connected w)
  | AWait w => Rd (Connected w) ;; Maybe (Sync (LStatus w) Skip ;; Sync (LStatus w) Skip ;; Maybe (Rd (Connected w)))
  | APopIn w => Wr (InList w)
  | APopOut w => Wr (OutList w)
  | AKeep w => Wr (Keep w)
  | AStop ws => stop ws
  end.
(** what a program does in its threads and callbacks: its variables, its mutexes, calls of the library *)
Inductive ucode := USkip | UAccess (write : bool) (n : nat) | USeq (a b : ucode) | UAlt (a b : ucode) | ULoop (a : ucode) | USync (n : nat) (a : ucode) | UCall (a : api).
Fixpoint program (u : ucode) : code :=
  match u with
  | USkip => Skip
  | UAccess write n => if write then Wr (VUser n) else Rd (VUser n)
  | USeq a b => program a ;; program b
  | UAlt a b => Alt (program a) (program b)
  | ULoop a => Loop (program a)
  | USync n a => Sync (LUser n) (program a)
  | UCall a => call a
  end.
(** 660-817 ulfius_thread_websocket; the message callback, the close callback; a client or a server *)
Definition socket_thread (w : nat) (message close : ucode) (client : bool) : code :=
  Maybe (Wr (Connected w)) ;;
  Loop (Rd (Connected w) ;;
        Rd (CloseFlag w) ;;
        Alt (send_close w ;; Wr (Connected w))                                                           (* 675-679 *)
            (available w ;;
             Maybe (read_message w ;;
                    Alt (Maybe (managed w))                                                              (* 684-691 *)
                   (Alt (Sync (LWrite w) (Maybe (send_control w) ;; Maybe (Wr (Connected w))))           (* 692-706 *)
                   (Alt (Rd (PingSent w) ;; Maybe (Wr (PingSent w)))                                     (* 707-710 *)
                        (Loop (Wr (Inflate w)) ;; Maybe (program message) ;; Rd (Keep w) ;; Maybe (Wr (InList w))))) ;;   (* 711-783 *)
                    Maybe (Wr (Connected w))))) ;;
  Rd (Connected w) ;;
  program close ;;
  Wr (Connected w) ;;                                                                                    (* 1396-1411 *)
  if client then Sync (LStatus w) Skip else remove_active.                                               (* 806-813 *)
(** 571-587 ulfius_thread_websocket_manager_run *)
Definition manager_thread (w : nat) (manager : ucode) : code := program manager ;; Rd (Connected w) ;; Maybe (Sync (LRead w) (Wr (CloseFlag w))).

(** the threads: of a websocket, of its manager callback, of the program, of libmicrohttpd with a callback of an endpoint that may open a websocket *)
Inductive role := RSocket (w : nat) (message close : ucode) (client : bool) | RManager (w : nat) (manager : ucode) | RProgram (u : ucode) | RDispatch (callback : ucode).
Definition code_of (r : role) : code :=
  match r with
  | RSocket w m c client => socket_thread w m c client
  | RManager w u => manager_thread w u
  | RProgram u => program u
  | RDispatch u => program u ;; Maybe add_active
  end.

(** ** The steps of the threads *)
Inductive ev := Acq (l : lock) | Rel (l : lock) | ERd (v : var) | EWr (v : var).
(** the choices made on the way: at a sequence, at an alternative, the rounds of a loop. One that does not fit stands for the first alternative and no round. *)
Inductive choice := CNone | CPair (a b : choice) | CRight (a : choice) | CTimes (l : list choice).
Fixpoint path (c : code) (x : choice) : list ev :=
  match c with
  | Skip => []
  | Rd v => [ERd v]
  | Wr v => [EWr v]
  | Seq a b => match x with CPair p q => path a p ++ path b q | _ => path a CNone ++ path b CNone end
  | Alt a b => match x with CRight y => path b y | _ => path a x end
  | Loop a => match x with CTimes l => flat_map (path a) l | _ => [] end
  | Sync l a => Acq l :: path a x ++ [Rel l]
  end.

(** a thread: the mutexes it has, the last one first, and what it will do *)
Definition thread := (list lock * list ev)%type.
Definition begin_ (r : role) (x : choice) : thread := ([], path (code_of r) x).
Definition has (l : lock) (t : thread) : bool := existsb (fun h => if lock_eq_dec h l then true else false) (fst t).
Fixpoint remove_one (l : lock) (held : list lock) : list lock := match held with [] => [] | h :: r => if lock_eq_dec h l then r else h :: remove_one l r end.
Definition others (i : nat) (s : list thread) : list thread := firstn i s ++ skipn (S i) s.
Definition set_nth (i : nat) (t : thread) (s : list thread) : list thread := firstn i s ++ t :: skipn (S i) s.
(** thread [i] makes a step; None: it has ended, or waits for a mutex of another thread, or for ever for its own *)
Definition step (s : list thread) (i : nat) : option (list thread) :=
  match nth_error s i with
  | Some (held, e :: r) =>
      match e with
      | Acq l => if existsb (has l) (others i s) || (negb (recursive l) && has l (held, [])) then None else Some (set_nth i (l :: held, r) s)
      | Rel l => Some (set_nth i (remove_one l held, r) s)
      | ERd _ | EWr _ => Some (set_nth i (held, r) s)
      end
  | _ => None
  end.
Fixpoint steps (s : list thread) (is : list nat) : option (list thread) :=
  match is with [] => Some s | i :: r => match step s i with Some s1 => steps s1 r | None => None end end.
