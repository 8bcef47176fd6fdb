(** The life of an instance with failing allocations: /repo/src/ulfius.c 1357-1372, 1400-1464, 1483-1535, 1602-1623, 1645-1672 and 1674-1747:
    ulfius_copy_endpoint, ulfius_clean_endpoint_list, ulfius_add_endpoint, ulfius_remove_endpoint, ulfius_set_default_endpoint,
    ulfius_clean_instance and internal_ulfius_init_instance; the default headers are set with u_map_put (MapMemModel).
    Every text, array and structure is a block of the heap, and an allocation may fail; OwnModel describes the table when nothing fails,
    LifeModel the other fields. Simplifications: a mutex, a condition and the attributes of a mutex count as blocks between their
    pthread_*_init and their pthread_*_destroy; pthread_mutexattr_init and the destroy functions succeed; the parameters of the init
    functions are right (C81); the instance is not running. *)
From Coq Require Import String ZArith Bool List.
From Verif Require Import Base UMapModel RouterModel OwnModel MapMemModel RespMemModel RecvMemModel.
Import ListNotations.
Open Scope Z_scope.

(** include/ulfius.h 2161-2168 struct _websocket_handler: pthread_init, which o_malloc leaves as it is, and what has been initialised *)
Record handler := mk_handler { w_ready : member bool; w_active : option nat; w_close : option nat; w_cond : option nat }.
(** the fields of struct _u_instance that point to memory, and nb_endpoints *)
Record minst := mk_minst { i_realm : ptr str; i_table : ptr (list (option hep)); i_nb : nat; i_default : ptr endpoint; i_headers : ptr fmap; i_socket : ptr handler }.

(** pthread_mutex_init, pthread_cond_init: whether it succeeds is given *)
Definition x_lock (m : mem) (ok : bool) : option nat * mem :=
  if ok then (Some (h_next (m_heap m)), mk_mem (snd (h_malloc (m_heap m))) (m_new m) (m_grow m)) else (None, m).
(** pthread_mutex_destroy, pthread_cond_destroy; the object must have been initialised *)
Definition x_unlock (m : mem) (l : option nat) : outcome mem := match l with None => UB BadArgument | Some _ => x_free m l end.

(** ulfius.c:1357-1372 ulfius_copy_endpoint *)
Definition ep_value (c : hep) : endpoint :=
  mk_ep (match h_method c with Some (_, s) => Some s | None => None end) (match h_prefix c with Some (_, s) => Some s | None => None end)
        (match h_format c with Some (_, s) => Some s | None => None end) (h_prio c) (h_cb c) (h_data c).
Definition x_copy_ep (m : mem) (e : endpoint) : Z * (mem * hep) :=
  let '(a, m1) := x_strdup m (http_method e) in
  let '(b, m2) := x_strdup m1 (url_prefix e) in
  let '(c, m3) := x_strdup m2 (url_format e) in
  let x := mk_hep a b c (priority e) (callback e) (user_data e) in
  (if is_valid_endpoint (ep_value x) false then U_OK else U_ERROR_MEMORY, (m3, x)).

(** 1426-1464 ulfius_add_endpoint: the number of endpoints grows before o_realloc; when the copy fails, the array has no last endpoint *)
Definition with_table (u : minst) (t : ptr (list (option hep))) (n : nat) : minst := mk_minst (i_realm u) t n (i_default u) (i_headers u) (i_socket u).
Definition x_fill (m : mem) (u : minst) (i : nat) (arr : list (option hep)) (n : nat) (e : endpoint) : outcome (Z * (mem * minst)) :=
  let '(z, (m1, c)) := x_copy_ep m e in
  do arr1 <- aset arr (n - 1) (Some c);
  if negb (z =? U_OK) then Ret (z, (m1, with_table u (Some (i, arr1)) n))
  else
    let '(_, (m2, l)) := x_copy_ep m1 empty_endpoint in
    do arr2 <- aset arr1 n (Some l);
    Ret (U_OK, (m2, with_table u (Some (i, arr2)) n)).
Definition x_add (m : mem) (u : minst) (e : endpoint) : outcome (Z * (mem * minst)) :=
  if is_valid_endpoint e false then
    match i_table u with
    | None =>
        match x_malloc m with
        | (None, m1) => Ret (U_ERROR_MEMORY, (m1, u))
        | (Some i, m1) => x_fill m1 u i [None; None] 1 e
        end
    | Some (i, arr) =>
        do x <- x_realloc m (Some i);
        match x with
        | (None, m1) => Ret (U_ERROR_MEMORY, (m1, with_table u None (S (i_nb u))))
        | (Some j, m1) => x_fill m1 u j (arealloc arr (S (i_nb u) + 1) None) (S (i_nb u)) e
        end
    end
  else Ret (U_ERROR_PARAMS, (m, u)).

(** reading a text or NULL *)
Definition x_str (m : mem) (p : ptr str) : outcome (option str) := match p with None => Ret None | Some _ => do x <- x_deref m p; Ret (Some (snd x)) end.
(** orcania trimcharacter of a copy *)
Definition x_trim (p : ptr str) : option str := match p with None => None | Some (_, s) => Some (trimc 47 s) end.
(** 1492-1523 the loop of ulfius_remove_endpoint, [n] = i+1. [tp], [tf] are the copies of the texts to be found, cut. *)
Fixpoint x_remove_loop (m : mem) (u : minst) (method tp tf : option str) (n : nat) (found : bool) : outcome ((Z * bool) * (mem * minst)) :=
  match n with
  | O => Ret ((U_OK, found), (m, u))
  | S k =>
      do arr <- x_deref m (i_table u); do s <- aget (snd arr) k;
      match s with
      | None => UB Uninit
      | Some x =>
          do vm <- x_str m (h_method x); do vp <- x_str m (h_prefix x); do vf <- x_str m (h_format x);
          let '(cp, m1) := x_strdup m vp in
          let '(cf, m2) := x_strdup m1 vf in
          if ostr_eqb vm method && ostr_eqb (x_trim cp) tp && ostr_eqb (x_trim cf) tf then
            do m3 <- x_free m2 (addr (h_method x)); do m4 <- x_free m3 (addr (h_prefix x)); do m5 <- x_free m4 (addr (h_format x));
            do a <- h_shift (snd arr) k (i_nb u - k);
            do r <- x_realloc m5 (Some (fst arr));
            do m6 <- x_free (snd r) (addr cp); do m7 <- x_free m6 (addr cf);
            match fst r with
            | None => Ret ((U_ERROR_MEMORY, true), (m7, with_table u None (i_nb u - 1)))
            | Some j => x_remove_loop m7 (with_table u (Some (j, firstn (i_nb u) a)) (i_nb u - 1)) method tp tf k true
            end
          else
            do m3 <- x_free m2 (addr cp); do m4 <- x_free m3 (addr cf);
            x_remove_loop m4 u method tp tf k found
      end
  end.
(** 1483-1535 ulfius_remove_endpoint; [t] is in memory of the program *)
Definition x_remove (m : mem) (u : minst) (t : endpoint) : outcome (Z * (mem * minst)) :=
  if negb (equals_endpoints t empty_endpoint) && is_valid_endpoint t true then
    let '(tp, m1) := x_strdup m (url_prefix t) in
    let '(tf, m2) := x_strdup m1 (url_format t) in
    do r <- x_remove_loop m2 u (http_method t) (x_trim tp) (x_trim tf) (i_nb u) false;
    let '((z, found), (m3, u1)) := r in
    do m4 <- x_free m3 (addr tp); do m5 <- x_free m4 (addr tf);
    Ret (if found : bool then z else U_ERROR_NOT_FOUND, (m5, u1))
  else Ret (U_ERROR_PARAMS, (m, u)).

(** 1602-1623 ulfius_set_default_endpoint, the callback not NULL *)
Definition x_set_default (m : mem) (u : minst) (cb data : Z) : outcome (Z * (mem * minst)) :=
  let d := mk_ep None None None 0 (Some cb) data in
  let set p m := (U_OK, (m, mk_minst (i_realm u) (i_table u) (i_nb u) p (i_headers u) (i_socket u))) in
  match i_default u with
  | Some _ => do x <- x_deref m (i_default u); Ret (set (Some (fst x, d)) m)
  | None => match x_malloc m with (None, m1) => Ret (U_ERROR_MEMORY, (m1, u)) | (Some i, m1) => Ret (set (Some (i, d)) m1) end
  end.
(** u_map_put(instance.default_headers, key, value), as the examples do; u_map_put(NULL) is U_ERROR_PARAMS *)
Definition x_set_header (m : mem) (u : minst) (key value : str) : outcome (Z * (mem * minst)) :=
  match i_headers u with
  | None => Ret (U_ERROR_PARAMS, (m, u))
  | Some _ =>
      do f <- x_deref m (i_headers u);
      do x <- x_put m (snd f) (Some key) (Some value);
      Ret (fst x, (fst (snd x), mk_minst (i_realm u) (i_table u) (i_nb u) (i_default u) (Some (fst f, snd (snd x))) (i_socket u)))
  end.

(** 1415-1424 ulfius_clean_endpoint_list: up to the first endpoint without a method *)
Fixpoint x_clean_slots (m : mem) (arr : list (option hep)) : outcome mem :=
  match arr with
  | [] => UB OutOfBounds
  | None :: _ => UB Uninit
  | Some e :: r =>
      match h_method e with
      | None => Ret m
      | Some _ => do m1 <- x_free m (addr (h_method e)); do m2 <- x_free m1 (addr (h_prefix e)); do m3 <- x_free m2 (addr (h_format e)); x_clean_slots m3 r
      end
  end.
Definition x_clean_table (m : mem) (t : ptr (list (option hep))) : outcome mem :=
  match t with None => Ret m | Some _ => do x <- x_deref m t; do m1 <- x_clean_slots m (snd x); x_free m1 (Some (fst x)) end.
(** 1656-1669 the handler: nothing is destroyed unless everything was initialised *)
Definition x_clean_socket (m : mem) (s : ptr handler) : outcome mem :=
  match s with
  | None => Ret m
  | Some _ =>
      do x <- x_deref m s;
      do b <- x_member (w_ready (snd x));
      do m1 <- (if b : bool then do m1 <- x_unlock m (w_close (snd x)); do m2 <- x_unlock m1 (w_cond (snd x)); x_unlock m2 (w_active (snd x)) else Ret m);
      x_free m1 (Some (fst x))
  end.
(** 1645-1672 ulfius_clean_instance; nb_endpoints stays *)
Definition x_clean_inst (m : mem) (u : minst) : outcome (mem * minst) :=
  do m1 <- x_clean_table m (i_table u);
  do m2 <- (match i_headers u with None => Ret m1 | Some _ => do f <- x_deref m1 (i_headers u); x_clean_full m1 (fst f) (snd f) end);
  do m3 <- x_free m2 (addr (i_realm u));
  do m4 <- x_free m3 (addr (i_default u));
  do m5 <- x_clean_socket m4 (i_socket u);
  Ret (m5, mk_minst None None (i_nb u) None None None).

(** whether the two mutexes and the condition can be initialised *)
Record locks := mk_locks { k_active : bool; k_close : bool; k_cond : bool }.
(** 1674-1747 internal_ulfius_init_instance: the result of o_strdup and of u_map_init is not looked at *)
Definition x_init_inst (m : mem) (realm : option str) (k : locks) : outcome (Z * (mem * minst)) :=
  let '(r, m1) := x_strdup m realm in
  let failed z m u := do x <- x_clean_inst m u; Ret (z, x) in
  match x_malloc m1 with
  | (None, m2) => failed U_ERROR_MEMORY m2 (mk_minst r None 0 None None None)
  | (Some h, m2) =>
      do f <- x_init m2;
      let '(_, (m3, f)) := f in
      let inst s := mk_minst r None 0 None (Some (h, f)) s in
      match x_malloc m3 with
      | (None, m4) => failed U_ERROR_MEMORY m4 (inst None)
      | (Some w, m4) =>
          let '(attr, m5) := x_lock m4 true in
          match x_lock m5 (k_active k) with
          | (None, m6) => failed U_ERROR m6 (inst (Some (w, mk_handler None None None None)))
          | (Some la, m6) =>
              do m7 <- x_unlock m6 attr;
              match x_lock m7 (k_close k) with
              | (None, m8) => failed U_ERROR_MEMORY m8 (inst (Some (w, mk_handler (Some false) (Some la) None None)))
              | (Some lc, m8) =>
                  match x_lock m8 (k_cond k) with
                  | (None, m9) => failed U_ERROR_MEMORY m9 (inst (Some (w, mk_handler (Some false) (Some la) (Some lc) None)))
                  | (Some lo, m9) => Ret (U_OK, (m9, inst (Some (w, mk_handler (Some true) (Some la) (Some lc) (Some lo)))))
                  end
              end
          end
      end
  end.
