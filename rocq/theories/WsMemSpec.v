(** Specification vocabulary for the memory of websockets (C99): a program that uses any number of
    websockets, what its calls and the frames of the peers mean, and the blocks in use. *)
From Coq Require Import ZArith Bool List.
From Verif Require Import Base OwnModel MapMemModel MapMemSpec RespMemModel RespMemSpec WsMemModel.
Import ListNotations.
Open Scope Z_scope.

(** ** The program. Websockets and the messages it took from the lists are named by their position;
    names that do not exist are ignored. *)
Inductive wop :=
| WNew (server locks : bool)
| WExtension (i : nat) (name : str) (rsv : Z) (f : nat)
| WEnable (i k : nat)
| WConnect (i : nat)
| WKeep (i : nat) (incoming outcoming : bool)
| WSend (i : nat) (op : Z) (data : list Z) (frag : Z)
| WFrame (i : nat) (f : frame)
| WClose (i : nat) (l : list (option frame))
| WPop (i : nat) (incoming : bool)
| WClear (j : nat)
| WRelease (i : nat).

(** a websocket: its block, the structure, its side, message_previous of its thread, and whether the
    thread runs *)
Record wsrec := mk_wsrec { v_block : nat; v_ws : hws; v_server : bool; v_prev : ptr hmsg; v_runs : bool }.
Record wprog := mk_wprog { y_mem : mem; y_wss : list wsrec; y_msgs : list (ptr hmsg) }.

(** the manager of a websocket, reached through the two pointers *)
Definition the_man (m : mem) (v : wsrec) : outcome (nat * hman) :=
  do _ <- h_use (m_heap m) (v_block v); do p <- x_member (v_ws v); x_deref m p.
Definition put_man (v : wsrec) (p : nat) (g : hman) : wsrec := mk_wsrec (v_block v) (Some (Some (p, g))) (v_server v) (v_prev v) (v_runs v).
(** a call on the manager of websocket [i] *)
Definition on_man (s : wprog) (i : nat) (call : mem -> hman -> outcome (Z * (mem * hman))) : outcome (Z * wprog) :=
  match nth_error (y_wss s) i with
  | None => Ret (U_ERROR_PARAMS, s)
  | Some v =>
      do x <- the_man (y_mem s) v;
      do y <- call (y_mem s) (snd x);
      let '(c, (m, g)) := y in Ret (c, mk_wprog m (set_nth (y_wss s) i (put_man v (fst x) g)) (y_msgs s))
  end.
(** u_websocket.c:797-812 the loop of the thread is over: message_previous is released, and the
    websocket too on the side of the server *)
Definition end_thread (m : mem) (v : wsrec) (p : nat) (g : hman) (prev : ptr hmsg) : outcome (mem * option wsrec) :=
  do m1 <- x_clear_msg m prev;
  let v1 := mk_wsrec (v_block v) (Some (Some (p, connect g false))) (v_server v) None false in
  if v_server v then do m2 <- x_clear_ws m1 (v_block v) (v_ws v1); Ret (m2, None) else Ret (m1, Some v1).
Definition place {A} (l : list A) (i : nat) (x : option A) : list A := match x with Some v => set_nth l i v | None => drop i l end.
(** websocket [v] is closed: u_websocket.c:676-680 or a call of the program *)
Definition close_step (m : mem) (v : wsrec) (l : list (option frame)) : outcome (mem * option wsrec) :=
  do x <- the_man m v;
  do y <- x_close m (snd x) l;
  end_thread (fst (snd y)) v (fst x) (snd (snd y)) (v_prev v).

Section Program.
Variable E : env.
Definition wstep (s : wprog) (o : wop) : outcome (Z * wprog) :=
  match o with
  | WNew server locks =>
      do x <- x_new_ws (y_mem s) locks;
      match snd x with
      | None => Ret (U_ERROR_MEMORY, mk_wprog (fst x) (y_wss s) (y_msgs s))
      | Some (p, w) => Ret (U_OK, mk_wprog (fst x) (y_wss s ++ [mk_wsrec p w server None false]) (y_msgs s))
      end
  | WExtension i name rsv f => on_man s i (fun m g => x_add_wext m g name rsv f)
  | WEnable i k => on_man s i (fun m g => x_enable m g k)
  | WConnect i =>
      match nth_error (y_wss s) i with
      | None => Ret (U_ERROR_PARAMS, s)
      | Some v =>
          do x <- the_man (y_mem s) v;
          if v_runs v then Ret (U_ERROR_PARAMS, s)
          else Ret (U_OK, mk_wprog (y_mem s) (set_nth (y_wss s) i (mk_wsrec (v_block v) (Some (Some (fst x, connect (snd x) true))) (v_server v) (v_prev v) true)) (y_msgs s))
      end
  | WKeep i a b => on_man s i (fun m g => Ret (U_OK, (m, with_keep g a b)))
  | WSend i op data frag =>
      if op =? OP_CLOSE then
        match nth_error (y_wss s) i with
        | None => Ret (U_ERROR_PARAMS, s)
        | Some v =>
            if v_runs v then do y <- close_step (y_mem s) v []; Ret (U_OK, mk_wprog (fst y) (place (y_wss s) i (snd y)) (y_msgs s))
            else Ret (U_ERROR_PARAMS, s)
        end
      else on_man s i (fun m g => x_send E m g op data frag)
  | WFrame i f =>
      match nth_error (y_wss s) i with
      | None => Ret (U_ERROR_PARAMS, s)
      | Some v =>
          if v_runs v then
            do x <- the_man (y_mem s) v;
            do y <- x_frame E (y_mem s) (snd x) (v_prev v) f;
            let '(m, (g, (prev, go))) := y in
            if go then
              Ret (U_OK, mk_wprog m (set_nth (y_wss s) i (mk_wsrec (v_block v) (Some (Some (fst x, g))) (v_server v) prev true)) (y_msgs s))
            else do z <- end_thread m v (fst x) g prev; Ret (U_OK, mk_wprog (fst z) (place (y_wss s) i (snd z)) (y_msgs s))
          else Ret (U_ERROR_PARAMS, s)
      end
  | WClose i l =>
      match nth_error (y_wss s) i with
      | None => Ret (U_ERROR_PARAMS, s)
      | Some v =>
          if v_runs v then do y <- close_step (y_mem s) v l; Ret (U_OK, mk_wprog (fst y) (place (y_wss s) i (snd y)) (y_msgs s))
          else Ret (U_ERROR_PARAMS, s)
      end
  | WPop i incoming =>
      match nth_error (y_wss s) i with
      | None => Ret (U_ERROR_PARAMS, s)
      | Some v =>
          do x <- the_man (y_mem s) v;
          do l <- x_member (if incoming then g_in (snd x) else g_out (snd x));
          do y <- x_pop (y_mem s) l;
          let '(q, (m, l1)) := y in
          let g := if incoming then with_in (snd x) l1 else with_out (snd x) l1 in
          Ret (if is_null q then U_ERROR_NOT_FOUND else U_OK,
               mk_wprog m (set_nth (y_wss s) i (put_man v (fst x) g)) (y_msgs s ++ match q with Some _ => [q] | None => [] end))
      end
  | WClear j =>
      match nth_error (y_msgs s) j with
      | None => Ret (U_ERROR_PARAMS, s)
      | Some q => do m <- x_clear_msg (y_mem s) q; Ret (U_OK, mk_wprog m (y_wss s) (drop j (y_msgs s)))
      end
  | WRelease i =>
      match nth_error (y_wss s) i with
      | None => Ret (U_ERROR_PARAMS, s)
      | Some v =>
          do y <- (if v_runs v then close_step (y_mem s) v [] else Ret (y_mem s, Some v));
          do m <- (match snd y with None => Ret (fst y) | Some v1 => x_clear_ws (fst y) (v_block v1) (v_ws v1) end);
          Ret (U_OK, mk_wprog m (drop i (y_wss s)) (y_msgs s))
      end
  end.
(** a run: each call comes with what o_malloc and o_strdup answer while it runs; o_realloc has
    memory. The results of the calls are collected. *)
Definition w_answers (s : wprog) (answers : list bool) : wprog := mk_wprog (mk_mem (m_heap (y_mem s)) answers []) (y_wss s) (y_msgs s).
Fixpoint wrun (s : wprog) (l : list (list bool * wop)) : outcome (list Z * wprog) :=
  match l with
  | [] => Ret ([], s)
  | (answers, o) :: r => do x <- wstep (w_answers s answers) o; do y <- wrun (snd x) r; Ret (fst x :: fst y, snd y)
  end.
End Program.
Definition wstart : wprog := mk_wprog (mk_mem (mk_heap 0 []) [] []) [] [].

(** ** What the calls mean, without memory *)
(** a message: its opcode and its data *)
Definition amsg := (Z * list Z)%type.
Record aext := mk_aext { ae_name : option str; ae_rsv : Z; ae_fun : nat; ae_on : bool }.
(** the start of a message that comes in fragments *)
Record apart := mk_apart { ap_op : Z; ap_rsv : Z; ap_data : list Z }.
Record aws := mk_aws {
  a_server : bool;
  a_runs : bool;
  a_in : list amsg;
  a_out : list amsg;
  a_keep_in : bool;
  a_keep_out : bool;
  a_exts : list aext;
  a_part : option apart
}.
Definition new_ws (server : bool) : aws := mk_aws server false [] [] true true [] None.
Definition put_runs a b := mk_aws (a_server a) b (a_in a) (a_out a) (a_keep_in a) (a_keep_out a) (a_exts a) (a_part a).
Definition put_in a l := mk_aws (a_server a) (a_runs a) l (a_out a) (a_keep_in a) (a_keep_out a) (a_exts a) (a_part a).
Definition put_out a l := mk_aws (a_server a) (a_runs a) (a_in a) l (a_keep_in a) (a_keep_out a) (a_exts a) (a_part a).
Definition put_keep a i o := mk_aws (a_server a) (a_runs a) (a_in a) (a_out a) i o (a_exts a) (a_part a).
Definition put_exts a l := mk_aws (a_server a) (a_runs a) (a_in a) (a_out a) (a_keep_in a) (a_keep_out a) l (a_part a).
Definition put_part a p := mk_aws (a_server a) (a_runs a) (a_in a) (a_out a) (a_keep_in a) (a_keep_out a) (a_exts a) p.
Definition keep_incoming a q := if a_keep_in a then put_in a (a_in a ++ [q]) else a.
Definition keep_outcoming a q := if a_keep_out a then put_out a (a_out a ++ [q]) else a.
(** the bits that the extensions in use may set *)
Definition bits (l : list aext) : Z := fold_right (fun e b => if ae_on e then Z.lor (ae_rsv e) b else b) 0 l.

Section Meaning.
Variable E : env.
(** the data on its way out through the extensions in use, with the bits; the data on its way in *)
Fixpoint go_out (l : list aext) (d : list Z) (rsv : Z) : option (list Z * Z) :=
  match l with
  | [] => Some (d, rsv)
  | e :: r =>
      if ae_on e then match f_out E (ae_fun e) d with Some u => go_out r u (Z.lor rsv (ae_rsv e)) | None => None end
      else go_out r d rsv
  end.
Fixpoint go_in (l : list aext) (rsv : Z) (d : list Z) : option (list Z) :=
  match l with
  | [] => Some d
  | e :: r =>
      match go_in r rsv d with
      | Some t => if ae_on e && negb (Z.land rsv (ae_rsv e) =? 0) then f_in E (ae_fun e) t else Some t
      | None => None
      end
  end.
Definition sendable (op : Z) : bool := existsb (Z.eqb op) [1; 2; 8; 9; 10].
(** a message that was sent is kept with opcode 0 if it has data *)
Definition sent (op : Z) (d : list Z) : amsg := (match d with [] => op | _ => 0 end, d).
Definition through (a : aws) (op : Z) (d : list Z) : option (list Z) :=
  if (op =? 1) || (op =? 2) then match go_out (a_exts a) d 0 with Some x => Some (fst x) | None => None end else Some d.
Definition a_send (a : aws) (op : Z) (d : list Z) : Z * aws :=
  if a_runs a then
    match through a op d with
    | None => (U_ERROR, a)
    | Some u => if sendable op then (U_OK, keep_outcoming a (sent op u)) else (U_ERROR, a)
    end
  else (U_ERROR_PARAMS, a).
(** a complete message: kept, or the end of the thread *)
Definition a_complete (a : aws) (op rsv : Z) (d : list Z) : option aws :=
  match go_in (a_exts a) rsv d with
  | Some u =>
      if ((rsv =? 0) || negb (Z.land (bits (a_exts a)) rsv =? 0)) && (negb (op =? 1) || match u with [] => true | _ => false end || f_utf8 E u)
      then Some (keep_incoming a (op, u)) else None
  | None => None
  end.
(** a frame: the websocket after it, and whether the thread goes on *)
Definition a_frame (a : aws) (f : frame) : aws * bool :=
  match fr_cut f with
  | BeforeData => (a, false)
  | c =>
      if match c, fr_data f with InData, _ :: _ => true | _, _ => false end then (a, false)
      else
        let op := fr_op f in
        let d := fr_data f in
        if (op =? 8) && fr_fin f then (if zlen d <=? 125 then keep_outcoming a (8, []) else a, false)
        else if (op =? 9) && fr_fin f then
          if zlen d <=? 125 then (snd (a_send a 10 d), true) else (a, false)
        else if (op =? 10) && fr_fin f then (a, true)
        else if (op =? 0) || (op =? 1) || (op =? 2) then
          match a_part a with
          | None =>
              if op =? 0 then (a, false)
              else if fr_fin f then match a_complete a op (fr_rsv f) d with Some a' => (a', true) | None => (a, false) end
              else (put_part a (Some (mk_apart op (fr_rsv f) d)), true)
          | Some p =>
              if op =? 0 then
                let p' := mk_apart (ap_op p) (ap_rsv p) (ap_data p ++ d) in
                if fr_fin f then
                  match a_complete (put_part a None) (ap_op p) (ap_rsv p) (ap_data p') with Some a' => (a', true) | None => (a, false) end
                else (put_part a (Some p'), true)
              else (a, false)
          end
        else (a, false)
  end.
(** the thread has ended *)
Definition ended (a : aws) : option aws := if a_server a then None else Some (put_part (put_runs a false) None).
(** the messages read while waiting for the end *)
Fixpoint awaited (l : list (option frame)) : list amsg :=
  match l with
  | [] => []
  | None :: r => awaited r
  | Some f :: r =>
      match fr_cut f, fr_data f with
      | BeforeData, _ | InData, _ :: _ => []
      | _, d => (fr_op f, d) :: (if fr_op f =? 8 then [] else awaited r)
      end
  end.
Definition a_close (a : aws) (l : list (option frame)) : aws := fold_left keep_incoming (awaited (firstn 11 l)) (keep_outcoming a (8, [])).

(** the state of the program: websockets, and messages taken from the lists *)
Definition astate := (list aws * list amsg)%type.
Definition w_target (o : wop) : nat :=
  match o with
  | WNew _ _ | WClear _ => 0
  | WExtension i _ _ _ | WEnable i _ | WConnect i | WKeep i _ _ | WSend i _ _ _ | WFrame i _ | WClose i _ | WPop i _ | WRelease i => i
  end%nat.
(** what a call means for one websocket: None when the websocket is gone *)
Definition aw_call (a : aws) (o : wop) : Z * (option aws * list amsg) :=
  let ok c a := (c, (Some a, [])) in
  match o with
  | WExtension _ name rsv f => ok U_OK (put_exts a (a_exts a ++ [mk_aext (Some name) rsv f false]))
  | WEnable _ k =>
      match nth_error (a_exts a) k with
      | None => ok U_ERROR_PARAMS a
      | Some e => if ae_on e then ok U_ERROR a else ok U_OK (put_exts a (set_nth (a_exts a) k (mk_aext (ae_name e) (ae_rsv e) (ae_fun e) true)))
      end
  | WConnect _ => if a_runs a then ok U_ERROR_PARAMS a else ok U_OK (put_runs a true)
  | WKeep _ i o => ok U_OK (put_keep a i o)
  | WSend _ op d _ =>
      if op =? 8 then if a_runs a then (U_OK, (ended (a_close a []), [])) else ok U_ERROR_PARAMS a
      else let x := a_send a op d in ok (fst x) (snd x)
  | WFrame _ f =>
      if a_runs a then let x := a_frame a f in (U_OK, (if snd x then Some (fst x) else ended (fst x), []))
      else ok U_ERROR_PARAMS a
  | WClose _ l => if a_runs a then (U_OK, (ended (a_close a l), [])) else ok U_ERROR_PARAMS a
  | WPop _ incoming =>
      match (if incoming then a_in a else a_out a) with
      | [] => ok U_ERROR_NOT_FOUND a
      | q :: r => (U_OK, (Some (if incoming then put_in a r else put_out a r), [q]))
      end
  | WRelease _ => (U_OK, (None, []))
  | _ => ok U_ERROR_PARAMS a
  end.
Definition aw_step (s : astate) (o : wop) : Z * astate :=
  match o with
  | WNew server _ => (U_OK, (fst s ++ [new_ws server], snd s))
  | WClear j => match nth_error (snd s) j with None => (U_ERROR_PARAMS, s) | Some _ => (U_OK, (fst s, drop j (snd s))) end
  | _ =>
      match nth_error (fst s) (w_target o) with
      | None => (U_ERROR_PARAMS, s)
      | Some a => let x := aw_call a o in (fst x, (place (fst s) (w_target o) (fst (snd x)), snd s ++ snd (snd x)))
      end
  end.
(** what is left when an allocation failed during the call, and the number of blocks lost *)
Inductive aw_fail (a : aws) : wop -> Z -> option aws -> nat -> Prop :=
| short_ext : forall i name rsv f, aw_fail a (WExtension i name rsv f) U_ERROR_MEMORY (Some a) 0
| short_ext_name : forall i name rsv f, aw_fail a (WExtension i name rsv f) U_OK (Some (put_exts a (a_exts a ++ [mk_aext None rsv f false]))) 0
| short_ext_list : forall i name rsv f n, a_exts a = [] -> (1 <= n <= 2)%nat -> aw_fail a (WExtension i name rsv f) U_ERROR_MEMORY (Some a) n
| short_enable : forall i k, aw_fail a (WEnable i k) U_ERROR (Some a) 0
| short_send : forall i op d frag c, c = U_ERROR \/ c = U_ERROR_MEMORY -> aw_fail a (WSend i op d frag) c (Some a) 0
| short_send_part : forall i op d frag op' u, a_runs a = true -> through a op d = Some u -> sendable op = true -> op' = op \/ op' = 0 ->
    aw_fail a (WSend i op d frag) U_ERROR_MEMORY (Some (keep_outcoming a (op', u))) 0
| short_send_close : forall i d frag, a_runs a = true -> aw_fail a (WSend i 8 d frag) U_OK (ended a) 0
| short_frame : forall i f, a_runs a = true -> aw_fail a (WFrame i f) U_OK (ended a) 0
| short_pong : forall i f op', a_runs a = true -> fr_op f = 9 -> op' = 10 \/ op' = 0 -> aw_fail a (WFrame i f) U_OK (ended (keep_outcoming a (op', fr_data f))) 0
| short_close : forall i l, a_runs a = true -> aw_fail a (WClose i l) U_OK (ended a) 0
| short_await : forall i l n, a_runs a = true ->
    aw_fail a (WClose i l) U_OK (ended (fold_left keep_incoming (firstn n (awaited (firstn 11 l))) (keep_outcoming a (8, [])))) 0.
Definition aw_step_fail (s : astate) (o : wop) (c : Z) (s' : astate) (lost : nat) : Prop :=
  match o with
  | WNew _ _ => c = U_ERROR_MEMORY /\ s' = s /\ lost = 0%nat
  | _ => exists a x, nth_error (fst s) (w_target o) = Some a /\ aw_fail a o c x lost /\ s' = (place (fst s) (w_target o) x, snd s)
  end.
(** a run; a call may fail only if an allocation failed while it ran. The last number is that of
    the blocks lost. *)
Inductive aw_means : astate -> list (list bool * wop) -> list Z -> astate -> nat -> Prop :=
| wm_nil : forall s, aw_means s [] [] s 0
| wm_ok : forall s answers o r cs s' n, aw_means (snd (aw_step s o)) r cs s' n ->
    aw_means s ((answers, o) :: r) (fst (aw_step s o) :: cs) s' n
| wm_fail : forall s answers o r c cs s1 s' k n, In false answers -> aw_step_fail s o c s1 k -> aw_means s1 r cs s' n ->
    aw_means s ((answers, o) :: r) (c :: cs) s' (k + n).
End Meaning.

(** ** What the memory shows, read through the pointers *)
Definition read_data (m : mem) (p : ptr (list Z)) (n : Z) : outcome (list Z) :=
  match p with None => Ret [] | Some _ => do x <- x_deref m p; Ret (zfirstn n (snd x)) end.
Definition read_msg (m : mem) (q : ptr hmsg) : outcome amsg :=
  do x <- x_deref m q; do d <- read_data m (b_data (snd x)) (b_len (snd x)); Ret (b_op (snd x), d).
Fixpoint read_msgs (m : mem) (l : list (ptr hmsg)) : outcome (list amsg) :=
  match l with [] => Ret [] | q :: r => do a <- read_msg m q; do b <- read_msgs m r; Ret (a :: b) end.
(** the messages at the places below [l_len] *)
Definition read_list (m : mem) (l : ptr hlist) : outcome (list amsg) :=
  do x <- x_deref m l;
  match l_len (snd x) with
  | O => Ret []
  | n => do a <- x_deref m (l_arr (snd x)); if (length (snd a) <? n)%nat then UB OutOfBounds else read_msgs m (firstn n (snd a))
  end.
Fixpoint read_wexts (m : mem) (l : list (ptr wext)) : outcome (list aext) :=
  match l with
  | [] => Ret []
  | e :: r => do x <- x_deref m e; do n <- read_text m (x_client (snd x)); do b <- read_wexts m r;
              Ret (mk_aext n (x_rsv (snd x)) (x_fun (snd x)) (x_on (snd x)) :: b)
  end.
Definition read_part (m : mem) (q : ptr hmsg) : outcome (option apart) :=
  match q with
  | None => Ret None
  | Some _ => do x <- x_deref m q; do d <- read_data m (b_data (snd x)) (b_len (snd x)); Ret (Some (mk_apart (b_op (snd x)) (b_rsv (snd x)) d))
  end.
Definition read_ws (m : mem) (v : wsrec) : outcome aws :=
  do x <- the_man m v;
  let g := snd x in
  do i <- x_member (g_in g); do li <- read_list m i;
  do o <- x_member (g_out g); do lo <- read_list m o;
  do e <- x_member (g_exts g); do es <- x_elements m e; do le <- read_wexts m es;
  do p <- read_part m (v_prev v);
  Ret (mk_aws (v_server v) (g_connected g) li lo (g_keep_in g) (g_keep_out g) le p).
Fixpoint read_wss (m : mem) (l : list wsrec) : outcome (list aws) :=
  match l with [] => Ret [] | v :: r => do a <- read_ws m v; do b <- read_wss m r; Ret (a :: b) end.
Definition read_wprog (s : wprog) : outcome astate :=
  do l <- read_wss (y_mem s) (y_wss s); do q <- read_msgs (y_mem s) (y_msgs s); Ret (l, q).

(** ** The blocks reachable from the program *)
Definition msg_blocks (q : ptr hmsg) : list nat := match q with Some (i, b) => i :: ptr_blocks (b_data b) | None => [] end.
Definition mlist_blocks (l : ptr hlist) : list nat :=
  match l with
  | None => []
  | Some (i, h) => i :: match l_arr h with None => [] | Some (j, a) => j :: flat_map msg_blocks a end
  end.
Definition wext_blocks (e : ptr wext) : list nat :=
  match e with Some (i, x) => i :: ptr_blocks (x_server x) ++ ptr_blocks (x_client x) ++ of_member ptr_blocks (x_context x) | None => [] end.
Definition wexts_blocks (l : wexts) : list nat :=
  match l with
  | None => []
  | Some (i, a) => i :: match a with None => [] | Some (j, es) => j :: flat_map wext_blocks es end
  end.
Definition man_blocks (p : ptr hman) : list nat :=
  match p with None => [] | Some (i, g) => i :: of_member mlist_blocks (g_in g) ++ of_member mlist_blocks (g_out g) ++ of_member wexts_blocks (g_exts g) end.
Definition ws_blocks (v : wsrec) : list nat := v_block v :: of_member man_blocks (v_ws v) ++ msg_blocks (v_prev v).
Definition wprog_blocks (s : wprog) : list nat := flat_map ws_blocks (y_wss s) ++ flat_map msg_blocks (y_msgs s).

(** what is asked of the program: pthread can make the locks *)
Definition wop_ok (o : wop) : Prop :=
  match o with WNew _ locks => locks = true | WSend _ _ _ frag => 0 <= frag | _ => True end.
(** and of the memory: where a call may fail. A new websocket: not the list of incoming messages
    (the third allocation); a frame: not the message, and not its data (the third) unless the buffer
    for reading it fails; waiting for the end of a connection: not after the close message was sent,
    if frames with data are read; the other calls: anywhere. *)
Definition frame_memory (f : frame) (answers : list bool) : Prop :=
  nth 0 answers true = true /\ (fr_data f = [] \/ fr_cut f <> Whole \/ nth 1 answers true = false \/ nth 2 answers true = true).
Definition w_memory_ok (o : wop) (answers : list bool) : Prop :=
  match o with
  | WNew _ _ => nth 0 answers true = false \/ nth 1 answers true = false \/ nth 2 answers true = true
  | WFrame _ f => frame_memory f answers
  | WClose _ l => ~ In false (skipn 2 answers) \/ Forall (fun x => match x with Some f => fr_data f = [] | None => True end) l
  | _ => True
  end.
(** a call that adds no extension *)
Definition no_extension (o : wop) : Prop := match o with WExtension _ _ _ _ => False | _ => True end.
