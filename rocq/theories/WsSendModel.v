(** Model of sending on a websocket (src/u_websocket.c:116-189, 338-399) and of the lists of kept
    messages (src/u_websocket.c:1284-1311, 1640-1657, 1702-1713). *)
From Coq Require Import ZArith Bool List.
From Verif Require Import Base WsFrameModel.
Import ListNotations.
Open Scope Z_scope.

(** ** sending *)

(** what is_websocket_write_available finds (u_websocket.c:116-135): writable, nothing within the time
    limit, poll error or hang-up *)
Inductive wpoll := WReady | WIdle | WGone.
(** one round: what poll says, and what send returns (None is a negative value). A round after the end
    of a schedule is a failing one. *)
Record wev := mk_wev { e_poll : wpoll; e_ret : option Z }.

Section Send.
(** websocket_manager->type == U_WEBSOCKET_SERVER; a client does not poll *)
Variable server : bool.
(** does an allocation of that size succeed *)
Variable alloc_ok : Z -> bool.

(** u_websocket.c:164-189 ulfius_websocket_send_frame: the pieces given to send that it accepted, what
    is left of the schedule, connected. send accepts at most what it is given. *)
Fixpoint send_frame (evs : list wev) (conn : bool) (rest : buf) : list buf * list wev * bool :=
  match rest with
  | [] => ([], evs, conn)
  | _ =>
      match evs with
      | [] => ([], [], conn)
      | e :: r =>
          match (if server then e_poll e else WReady) with
          | WIdle => ([], r, conn)
          | WGone => ([], r, false)
          | WReady =>
              match e_ret e with
              | None => ([], r, conn)
              | Some n =>
                  let '(cs, evs', conn') := send_frame r conn (zskipn n rest) in
                  (zfirstn n rest :: cs, evs', conn')
              end
          end
      end
  end.

(** u_websocket.c:356-373 the loop over the fragments of a message with data: result, pieces sent (per
    frame), schedule, connected, message. ulfius_build_frame fails when its allocation fails. *)
Fixpoint send_loop (fuel : nat) (evs : list wev) (conn : bool) (m : wmsg) (fragment off : Z) : outcome (Z * list (list buf) * list wev * bool * wmsg) :=
  match fuel with
  | O => Ret (U_OK, [], evs, conn, m)
  | S fuel =>
      let dlen := zlen (m_data m) in
      if off <? dlen then
        let left := dlen - off in
        let cur := if fragment =? 0 then (if dlen <? left then dlen else left)
                   else (if fragment <? left then fragment else left) in
        do f <- build_frame m off cur;
        if alloc_ok (zlen f) then
          let '(cs, evs, conn) := send_frame evs conn f in
          do r <- send_loop fuel evs conn (set_opcode m OP_CONTINUE) fragment (off + cur);
          let '(ret, css, evs, conn, m) := r in
          Ret (ret, cs :: css, evs, conn, m)
        else Ret (U_ERROR_MEMORY, [], evs, conn, m)
      else Ret (U_OK, [], evs, conn, m)
  end.

(** u_websocket.c:338-399 ulfius_send_websocket_message_managed; [locked]: pthread_mutex_lock succeeds. The
    message as it is stored in the list of outgoing messages. *)
Definition send_managed (locked : bool) (evs : list wev) (conn : bool) (msg : option wmsg) (fragment : Z)
  : outcome (Z * list (list buf) * list wev * bool * option wmsg) :=
  if locked then
    match msg with
    | None => Ret (U_ERROR, [], evs, conn, None)
    | Some m =>
        if zlen (m_data m) =? 0 then
          do f <- build_frame m 0 0;
          if alloc_ok (zlen f) then
            let '(cs, evs, conn) := send_frame evs conn f in Ret (U_OK, [cs], evs, conn, Some m)
          else Ret (U_OK, [], evs, conn, Some m)
        else
          do r <- send_loop (length (m_data m)) evs conn m fragment 0;
          let '(ret, css, evs, conn, m) := r in Ret (ret, css, evs, conn, Some m)
    end
  else Ret (U_OK, [], evs, conn, None).
End Send.

(** ** several threads sending on one connection

    u_websocket.c:348-397: the lock, the frames of the message, pieces of the current frame one after the
    other until it is sent or given up, the unlock. Threads and messages of a thread are numbered. *)
Inductive sender := Away | Sending (frames : list buf).
Record world := mk_world {
  lock : option nat;
  senders : nat -> sender * nat;
  started : list (nat * nat * list buf);
  log : list (nat * nat * buf)
}.
Definition set_sender (s : nat -> sender * nat) (t : nat) (x : sender * nat) : nat -> sender * nat :=
  fun u => if Nat.eqb u t then x else s u.

Inductive sstep : world -> world -> Prop :=
| ss_lock : forall w t k frames, lock w = None -> senders w t = (Away, k) ->
    sstep w (mk_world (Some t) (set_sender (senders w) t (Sending frames, k)) (started w ++ [(t, k, frames)]) (log w))
| ss_piece : forall w t k f frames n, senders w t = (Sending (f :: frames), k) ->
    sstep w (mk_world (lock w) (set_sender (senders w) t (Sending (zskipn n f :: frames), k)) (started w) (log w ++ [(t, k, zfirstn n f)]))
| ss_next : forall w t k f frames, senders w t = (Sending (f :: frames), k) ->
    sstep w (mk_world (lock w) (set_sender (senders w) t (Sending frames, k)) (started w) (log w))
| ss_unlock : forall w t k, senders w t = (Sending [], k) ->
    sstep w (mk_world None (set_sender (senders w) t (Away, S k)) (started w) (log w)).

Inductive ssteps : world -> world -> Prop :=
| ss_refl : forall w, ssteps w w
| ss_more : forall w w' w'', ssteps w w' -> sstep w' w'' -> ssteps w w''.
Definition nobody : world := mk_world None (fun _ => (Away, 0%nat)) [] [].

(** ** message lists *)

(** include/ulfius.h:1672-1675 struct _websocket_message_list: len, and the block of pointers (None: a slot
    never written). A message pointer is a number. *)
Record mlist := mk_mlist { ml_len : nat; ml_list : option (list (option Z)) }.
Definition init_mlist : mlist := mk_mlist 0 None.

(** o_realloc of the block to [n] slots; NULL behaves as an empty block *)
Definition resize (b : option (list (option Z))) (n : nat) : list (option Z) :=
  let l := match b with Some l => l | None => [] end in
  firstn n l ++ repeat None (n - length l).

(** u_websocket.c:1298-1311 ulfius_push_websocket_message with non-NULL arguments, in three steps: the
    reallocation, the store, len++ *)
Definition push1 (ok : bool) (l : mlist) : mlist :=
  mk_mlist (ml_len l) (if ok then Some (resize (ml_list l) (S (ml_len l))) else None).
Definition push2 (l : mlist) (m : Z) : outcome mlist :=
  match ml_list l with
  | None => UB NullDeref
  | Some b => do b' <- aset b (ml_len l) (Some m); Ret (mk_mlist (ml_len l) (Some b'))
  end.
Definition push3 (l : mlist) : mlist := mk_mlist (S (ml_len l)) (ml_list l).
Definition push (ok : bool) (l : mlist) (m : Z) : outcome (Z * mlist) :=
  let l := push1 ok l in
  match ml_list l with
  | None => Ret (U_ERROR_MEMORY, l)
  | Some _ => do l <- push2 l m; Ret (U_OK, push3 l)
  end.

(** u_websocket.c:1644-1647 the shift: [n] slots from slot [i] on. Copying a slot never written is not
    an error here; returning one is. *)
Fixpoint shift (n i : nat) (b : list (option Z)) : outcome (list (option Z)) :=
  match n with
  | O => Ret b
  | S n => do x <- aget b (S i); do b <- aset b i x; shift n (S i) b
  end.

(** u_websocket.c:1640-1657 ulfius_websocket_pop_first_message, in four steps: reading the first slot,
    the shift, shrinking or freeing the block, len-- *)
Definition pop1 (l : mlist) : outcome (option Z) :=
  match ml_len l with
  | O => Ret None
  | _ => match ml_list l with
         | None => UB NullDeref
         | Some b => do x <- aget b 0; match x with Some m => Ret (Some m) | None => UB Uninit end
         end
  end.
Definition pop2 (l : mlist) : outcome mlist :=
  match ml_list l with
  | None => if Nat.eqb (ml_len l - 1) 0 then Ret l else UB NullDeref
  | Some b => do b <- shift (ml_len l - 1) 0 b; Ret (mk_mlist (ml_len l) (Some b))
  end.
Definition pop3 (ok : bool) (l : mlist) : mlist :=
  mk_mlist (ml_len l) (if (1 <? ml_len l)%nat then (if ok then Some (resize (ml_list l) (ml_len l - 1)) else None) else None).
Definition pop4 (l : mlist) : mlist := mk_mlist (ml_len l - 1) (ml_list l).
Definition pop (ok : bool) (l : mlist) : outcome (option Z * mlist) :=
  do m <- pop1 l;
  match m with
  | None => Ret (None, l)
  | Some m => do l <- pop2 l; Ret (Some m, pop4 (pop3 ok l))
  end.

(** u_websocket.c:1702-1713 ulfius_clear_websocket_message_list: every message is freed, the block is freed
    and set to NULL, len is left as it is *)
Definition clear_list (l : mlist) : outcome mlist :=
  match ml_len l, ml_list l with
  | O, _ => Ret (mk_mlist 0 None)
  | _, None => UB NullDeref
  | n, Some b => if forallb (fun x => match x with Some _ => true | None => false end) (firstn n b) && (n <=? length b)%nat
                 then Ret (mk_mlist n None) else UB Uninit
  end.

(** a program using a list: results of the calls, in order *)
Inductive lop := LPush (m : Z) | LPop.
Fixpoint lrun (l : mlist) (ops : list lop) : outcome (list (option Z) * mlist) :=
  match ops with
  | [] => Ret ([], l)
  | LPush m :: r => do x <- push true l m; lrun (snd x) r
  | LPop :: r => do x <- pop true l; do y <- lrun (snd x) r; Ret (fst x :: fst y, snd y)
  end.

(** one thread that pushes [m] while another one pops: the steps in the order of a schedule (true: the
    popping thread moves) *)
Record race := mk_race { r_list : mlist; r_pop : nat; r_push : nat; r_got : option Z }.
Definition race_step (m : Z) (s : race) (who : bool) : outcome race :=
  let '(mk_race l p q g) := s in
  if who then
    match p with
    | 0 => do x <- pop1 l; match x with None => Ret (mk_race l 4 q None) | Some v => Ret (mk_race l 1 q (Some v)) end
    | 1 => do l <- pop2 l; Ret (mk_race l 2 q g)
    | 2 => Ret (mk_race (pop3 true l) 3 q g)
    | 3 => Ret (mk_race (pop4 l) 4 q g)
    | _ => Ret s
    end%nat
  else
    match q with
    | 0 => Ret (mk_race (push1 true l) p 1 g)
    | 1 => do l <- push2 l m; Ret (mk_race l p 2 g)
    | 2 => Ret (mk_race (push3 l) p 3 g)
    | _ => Ret s
    end%nat.
Fixpoint race_run (m : Z) (s : race) (sch : list bool) : outcome race :=
  match sch with [] => Ret s | w :: r => do s <- race_step m s w; race_run m s r end.
