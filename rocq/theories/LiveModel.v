(** Endpoints that are added and removed while requests are served (/repo/API.md:180: "Ulfius allows adding and removing new endpoints during
    the instance execution"). The program's thread runs /repo/src/ulfius.c:1426-1464 ulfius_add_endpoint, 1483-1535 ulfius_remove_endpoint and
    1602-1623 ulfius_set_default_endpoint; the threads of libmicrohttpd run 457 and 592-610 of ulfius_webservice_dispatcher with
    /repo/src/u_request.c:139-189 ulfius_endpoint_match. No lock is taken by any of them.
    Simplifications: the steps of the threads are taken one after the other (the memory is sequentially consistent); one thread of the program
    makes the changes; a request reads a slot of the array with its texts in one step; there is memory; the copies that a request makes
    are values (OwnModel and RouteMemModel have their blocks), and so are the texts that ulfius_remove_endpoint cuts; the default endpoint of
    932-937 is left out. *)
From Coq Require Import ZArith Bool List.
From Verif Require Import Base UMapModel RouterModel OwnModel.
Import ListNotations.
Open Scope Z_scope.

(** the members of struct _u_instance that are shared: endpoint_list with its slots, nb_endpoints, default_endpoint with callback_function
    and user_data; [None] in a slot or in a member is memory that was never written *)
Record shared := mk_shared { t_list : option (nat * list (option hep)); t_nb : nat; t_default : option (nat * (option Z * option Z)) }.

(** what the program asks for *)
Inductive change := Add (e : endpoint) | Drop (t : endpoint) | Fall (cb data : Z).
(** where the program's thread is. [Begin]: the function is called. [Grown]: 1433-1446 the array has its new size, 1447 is next; [Filled]: the
    copy is made, 1452 is next. [Seek]: 1492, i = n-1 is next; [Hole]: 1505-1507 the texts of slot [k] are released; [Short]: 1508-1510 the following
    slots are moved. [Blank]: 1606-1615 default_endpoint points to a block; [Half]: callback_function is written, user_data is next. *)
Inductive task :=
| Idle | Begin (o : change)
| Grown (e : endpoint) | Filled (e : endpoint)
| Seek (t : endpoint) (n : nat) | Hole (t : endpoint) (k : nat) | Short (t : endpoint) (k : nat)
| Blank (cb data : Z) | Half (cb data : Z).
(** where a request is. [Arrived]: 457 is next; [Looking]: the pointer that was read at 457, the index in the loop of ulfius_endpoint_match, and
    the endpoints found; [Asking]: 595, nothing was found; [Fetching] and [Copying]: ulfius_copy_endpoint of the default endpoint (599) reads
    callback_function, then user_data; [Running]: the endpoints whose callbacks are called *)
Inductive stage :=
| Arrived | Looking (p : option nat) (i : nat) (found : list endpoint)
| Asking | Fetching | Copying (cb : Z) | Running (l : list endpoint).
(** a request with its method and its path *)
Record call := mk_call { c_method : str; c_url : str; c_stage : stage }.
Record live := mk_live { l_heap : heap; l_shared : shared; l_task : task; l_calls : list call }.

(** o_realloc, which may leave the block where it is *)
Definition resized (h : heap) (i : nat) (moves : bool) : outcome (nat * heap) :=
  if moves then h_realloc h i else do _ <- h_use h i; Ret (i, h).
Definition with_list (u : shared) (l : option (nat * list (option hep))) (n : nat) : shared := mk_shared l n (t_default u).
Definition slot_at (h : heap) (u : shared) (b i : nat) : outcome hep :=
  do _ <- h_use h b;
  match t_list u with
  | Some (b', arr) => if (b =? b')%nat then h_at h b arr i else UB UseAfterFree
  | None => UB UseAfterFree
  end.
Definition set_slot (h : heap) (u : shared) (i : nat) (x : hep) : outcome shared :=
  match t_list u with
  | None => UB NullDeref
  | Some (b, arr) => do _ <- h_use h b; do arr1 <- aset arr i (Some x); Ret (with_list u (Some (b, arr1)) (t_nb u))
  end.

(** the next step of the program's thread; [moves]: whether o_realloc moves the block *)
Definition work (h : heap) (u : shared) (k : task) (moves : bool) : outcome (heap * (shared * task)) :=
  match k with
  | Idle => Ret (h, (u, Idle))
  | Begin (Add e) =>
      if is_valid_endpoint e false then
        match t_list u with
        | None => let '(i, h1) := h_malloc h in Ret (h1, (with_list u (Some (i, [None; None])) 1, Grown e))
        | Some (i, arr) =>
            do x <- resized h i moves;
            Ret (snd x, (with_list u (Some (fst x, arealloc arr (S (t_nb u) + 1) None)) (S (t_nb u)), Grown e))
        end
      else Ret (h, (u, Idle))
  | Grown e => let '(c, h1) := e_copy h e in do u1 <- set_slot h1 u (t_nb u - 1) c; Ret (h1, (u1, Filled e))
  | Filled _ => let '(z, h1) := e_copy h empty_endpoint in do u1 <- set_slot h1 u (t_nb u) z; Ret (h1, (u1, Idle))
  | Begin (Drop t) => Ret (h, (u, if negb (equals_endpoints t empty_endpoint) && is_valid_endpoint t true then Seek t (t_nb u) else Idle))
  | Seek t O => Ret (h, (u, Idle))
  | Seek t (S k) =>
      match t_list u with
      | None => UB NullDeref
      | Some (i, arr) =>
          do x <- h_at h i arr k; do e <- e_read h x;
          if ostr_eqb (http_method e) (http_method t) && ostr_eqb (otrim (url_prefix e)) (otrim (url_prefix t))
             && ostr_eqb (otrim (url_format e)) (otrim (url_format t))
          then do h1 <- t_free h (h_method x); do h2 <- t_free h1 (h_prefix x); do h3 <- t_free h2 (h_format x); Ret (h3, (u, Hole t k))
          else Ret (h, (u, Seek t k))
      end
  | Hole t k =>
      match t_list u with
      | None => UB NullDeref
      | Some (i, arr) => do _ <- h_use h i; do a <- h_shift arr k (t_nb u - k); Ret (h, (with_list u (Some (i, a)) (t_nb u), Short t k))
      end
  | Short t k =>
      match t_list u with
      | None => UB NullDeref
      | Some (i, arr) => do x <- resized h i moves; Ret (snd x, (with_list u (Some (fst x, firstn (t_nb u) arr)) (t_nb u - 1), Seek t k))
      end
  | Begin (Fall cb d) =>
      match t_default u with
      | Some _ => Ret (h, (u, Blank cb d))
      | None => let '(i, h1) := h_malloc h in Ret (h1, (mk_shared (t_list u) (t_nb u) (Some (i, (None, None))), Blank cb d))
      end
  | Blank cb d =>
      match t_default u with
      | None => UB NullDeref
      | Some (i, (_, old)) => do _ <- h_use h i; Ret (h, (mk_shared (t_list u) (t_nb u) (Some (i, (Some cb, old))), Half cb d))
      end
  | Half cb d =>
      match t_default u with
      | None => UB NullDeref
      | Some (i, (c, _)) => do _ <- h_use h i; Ret (h, (mk_shared (t_list u) (t_nb u) (Some (i, (c, Some d))), Idle))
      end
  end.

Section Requests.
(** libc qsort on the endpoints found *)
Variable qsort : list endpoint -> list endpoint.

(** the end of ulfius_endpoint_match *)
Definition chosen (found : list endpoint) : stage := match qsort found with [] => Asking | l => Running l end.
Definition written {A} (x : option A) : outcome A := match x with Some v => Ret v | None => UB Uninit end.
(** the next step of a request *)
Definition advance (h : heap) (u : shared) (c : call) : outcome stage :=
  match c_stage c with
  | Arrived => Ret (Looking (match t_list u with Some (i, _) => Some i | None => None end) 0 [])
  | Looking None _ found => Ret (chosen found)
  | Looking (Some b) i found =>
      do x <- slot_at h u b i; do e <- e_read h x;
      if equals_endpoints e empty_endpoint then Ret (chosen found)
      else
        do mm <- method_match e (c_method c);
        Ret (Looking (Some b) (S i)
               (if mm && url_format_match (split_url (Some (c_url c)) None) (split_url (url_prefix e) (url_format e)) then found ++ [e] else found))
  | Asking =>
      match t_default u with
      | None => Ret (Running [])
      | Some (i, (cb, _)) => do _ <- h_use h i; do _ <- written cb; Ret Fetching
      end
  | Fetching => match t_default u with None => UB NullDeref | Some (i, (cb, _)) => do _ <- h_use h i; do v <- written cb; Ret (Copying v) end
  | Copying cb =>
      match t_default u with
      | None => UB NullDeref
      | Some (i, (_, d)) => do _ <- h_use h i; do v <- written d; Ret (Running [mk_ep None None None 0 (Some cb) v])
      end
  | Running l => Ret (Running l)
  end.

(** [Come]: a request arrives; [Step]: the next step of a request; [Order]: the program calls a function, when the call before has returned;
    [Work]: the next step of the program's thread *)
Inductive action := Come (method url : str) | Step (r : nat) | Order (o : change) | Work (moves : bool).
Definition act (s : live) (a : action) : outcome live :=
  match a with
  | Come m url => Ret (mk_live (l_heap s) (l_shared s) (l_task s) (l_calls s ++ [mk_call m url Arrived]))
  | Step r =>
      match nth_error (l_calls s) r with
      | None => Ret s
      | Some c => do g <- advance (l_heap s) (l_shared s) c;
                  Ret (mk_live (l_heap s) (l_shared s) (l_task s) (set_nth (l_calls s) r (mk_call (c_method c) (c_url c) g)))
      end
  | Order o => Ret (match l_task s with Idle => mk_live (l_heap s) (l_shared s) (Begin o) (l_calls s) | _ => s end)
  | Work moves => do x <- work (l_heap s) (l_shared s) (l_task s) moves; Ret (mk_live (fst x) (fst (snd x)) (snd (snd x)) (l_calls s))
  end.
Fixpoint run (s : live) (l : list action) : outcome live :=
  match l with [] => Ret s | a :: r => do s1 <- act s a; run s1 r end.
End Requests.
Definition opened : live := mk_live (mk_heap 0 []) (mk_shared None 0 None) Idle [].
