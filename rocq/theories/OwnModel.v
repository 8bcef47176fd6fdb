(** The endpoint table and the copies of endpoints made for a request, with the memory blocks that
    hold them: /repo/src/ulfius.c 1357-1535, 1602-1623, 1645-1655, 591-609, 1062-1066 and
    /repo/src/u_request.c 139-189. RouterModel describes the values; here every text, every array
    and every structure is a block of the heap, allocated and released one by one.
    Allocation succeeds. *)
From Coq Require Import ZArith Bool List.
From Verif Require Import Base UMapModel RouterModel.
Import ListNotations.
Open Scope Z_scope.

(** The heap: the blocks in use and the name of the next one. A name is never given twice, so a
    pointer to a released block is recognised for ever. *)
Record heap := mk_heap { h_next : nat; h_live : list nat }.
Definition is_live (h : heap) (i : nat) : bool := existsb (Nat.eqb i) (h_live h).
(** o_malloc *)
Definition h_malloc (h : heap) : nat * heap := (h_next h, mk_heap (Datatypes.S (h_next h)) (h_next h :: h_live h)).
(** o_free of a pointer which is not NULL *)
Definition h_free (h : heap) (i : nat) : outcome heap :=
  if is_live h i then Ret (mk_heap (h_next h) (remove Nat.eq_dec i (h_live h))) else UB DoubleFree.
(** o_realloc of a pointer which is not NULL: the block is taken to move *)
Definition h_realloc (h : heap) (i : nat) : outcome (nat * heap) :=
  do h1 <- h_free h i; Ret (h_malloc h1).
(** access to a block *)
Definition h_use (h : heap) (i : nat) : outcome unit := if is_live h i then Ret tt else UB UseAfterFree.

(** a char * which is NULL or points to a block of its own *)
Definition text := option (nat * str).
Definition t_read (h : heap) (t : text) : outcome (option str) :=
  match t with None => Ret None | Some (i, s) => do _ <- h_use h i; Ret (Some s) end.
(** orcania o_strdup: NULL gives NULL *)
Definition t_strdup (h : heap) (s : option str) : text * heap :=
  match s with None => (None, h) | Some s => (Some (h_next h, s), snd (h_malloc h)) end.
(** o_free of a char * *)
Definition t_free (h : heap) (t : text) : outcome heap :=
  match t with None => Ret h | Some (i, _) => h_free h i end.

(** struct _u_endpoint *)
Record hep := mk_hep { h_method : text; h_prefix : text; h_format : text; h_prio : Z; h_cb : option Z; h_data : Z }.
(** an endpoint as a reader sees it *)
Definition e_read (h : heap) (e : hep) : outcome endpoint :=
  do m <- t_read h (h_method e); do p <- t_read h (h_prefix e); do f <- t_read h (h_format e);
  Ret (mk_ep m p f (h_prio e) (h_cb e) (h_data e)).
(** ulfius.c:1357-1372 ulfius_copy_endpoint: the texts are duplicated, the rest is copied. The
    source may be in memory of the program, so its value is given. *)
Definition e_copy (h : heap) (e : endpoint) : hep * heap :=
  let '(m, h1) := t_strdup h (http_method e) in
  let '(p, h2) := t_strdup h1 (url_prefix e) in
  let '(f, h3) := t_strdup h2 (url_format e) in
  (mk_hep m p f (priority e) (callback e) (user_data e), h3).
(** ulfius.c:1400-1410 ulfius_clean_endpoint: the texts are released; the pointers are set to NULL *)
Definition e_clean (h : heap) (e : hep) : outcome (heap * hep) :=
  do h1 <- t_free h (h_method e); do h2 <- t_free h1 (h_prefix e); do h3 <- t_free h2 (h_format e);
  Ret (h3, mk_hep None None None (h_prio e) (h_cb e) (h_data e)).

(** the fields of struct _u_instance used here: the block of the array and its slots ([None] is
    memory never written), the number of endpoints, the block of the default endpoint *)
Record hinst := mk_hinst { h_list : option (nat * list (option hep)); h_nb : nat; h_default : option (nat * endpoint) }.

(** ulfius.c:1426-1464 ulfius_add_endpoint *)
Definition h_add (h : heap) (u : hinst) (e : endpoint) : outcome (Z * (heap * hinst)) :=
  if is_valid_endpoint e false then
    do s <- (match h_list u with
             | None => let '(i, h1) := h_malloc h in Ret (h1, (i, ([None; None], 1%nat)))
             | Some (i, arr) =>
                 do x <- h_realloc h i;
                 Ret (snd x, (fst x, (arealloc arr (Datatypes.S (h_nb u) + 1) None, Datatypes.S (h_nb u))))
             end);
    let '(h1, (i, (arr, n))) := s in
    let '(c, h2) := e_copy h1 e in
    do arr1 <- aset arr (n - 1) (Some c);
    let '(z, h3) := e_copy h2 empty_endpoint in
    do arr2 <- aset arr1 n (Some z);
    Ret (U_OK, (h3, mk_hinst (Some (i, arr2)) n (h_default u)))
  else Ret (U_ERROR_PARAMS, (h, u)).

(** ulfius.c:1466-1481 ulfius_add_endpoint_list *)
Fixpoint h_add_list (h : heap) (u : hinst) (l : list (option endpoint)) : outcome (Z * (heap * hinst)) :=
  match l with
  | [] => UB OutOfBounds
  | None :: _ => Ret (U_OK, (h, u))
  | Some e :: r =>
      if equals_endpoints e empty_endpoint then Ret (U_OK, (h, u))
      else do x <- h_add h u e;
           if fst x =? U_OK then h_add_list (fst (snd x)) (snd (snd x)) r else Ret x
  end.

(** a slot of the array *)
Definition h_at (h : heap) (i : nat) (arr : list (option hep)) (k : nat) : outcome hep :=
  do _ <- h_use h i; do s <- aget arr k; match s with Some e => Ret e | None => UB Uninit end.

(** ulfius.c:1508-1510 the loop that moves the following endpoints *)
Fixpoint h_shift (arr : list (option hep)) (i n : nat) : outcome (list (option hep)) :=
  match n with
  | O => Ret arr
  | Datatypes.S n' => do x <- aget arr (i + 1); do a <- aset arr i x; h_shift a (Datatypes.S i) n'
  end.

(** ulfius.c:1492-1523 the loop of ulfius_remove_endpoint, [n] = i+1: the copies to be trimmed, the
    comparison, the release of the texts, the move, the realloc, the release of the copies *)
Fixpoint h_remove_loop (h : heap) (i : nat) (arr : list (option hep)) (nb : nat) (t : endpoint) (n : nat) (found : bool)
  : outcome (bool * (heap * (nat * (list (option hep) * nat)))) :=
  match n with
  | O => Ret (found, (h, (i, (arr, nb))))
  | Datatypes.S k =>
      do x <- h_at h i arr k;
      do e <- e_read h x;
      let '(cp, h1) := t_strdup h (url_prefix e) in
      let '(cf, h2) := t_strdup h1 (url_format e) in
      if ostr_eqb (http_method e) (http_method t) && ostr_eqb (otrim (url_prefix e)) (otrim (url_prefix t))
         && ostr_eqb (otrim (url_format e)) (otrim (url_format t))
      then
        do h3 <- t_free h2 (h_method x); do h4 <- t_free h3 (h_prefix x); do h5 <- t_free h4 (h_format x);
        do a <- h_shift arr k (nb - k);
        do r <- h_realloc h5 i;
        do h6 <- t_free (snd r) cp; do h7 <- t_free h6 cf;
        h_remove_loop h7 (fst r) (firstn nb a) (nb - 1) t k true
      else
        do h3 <- t_free h2 cp; do h4 <- t_free h3 cf;
        h_remove_loop h4 i arr nb t k found
  end.

(** ulfius.c:1483-1535 ulfius_remove_endpoint *)
Definition h_remove (h : heap) (u : hinst) (t : endpoint) : outcome (Z * (heap * hinst)) :=
  if negb (equals_endpoints t empty_endpoint) && is_valid_endpoint t true then
    let '(tp, h1) := t_strdup h (url_prefix t) in
    let '(tf, h2) := t_strdup h1 (url_format t) in
    do r <- (match h_list u with
             | None => if (h_nb u =? 0)%nat then Ret (false, (h2, u)) else UB NullDeref
             | Some (i, arr) =>
                 do r <- h_remove_loop h2 i arr (h_nb u) t (h_nb u) false;
                 let '(found, (h3, (i1, (a, n)))) := r in
                 Ret (found, (h3, mk_hinst (Some (i1, a)) n (h_default u)))
             end);
    let '(found, (h3, u1)) := r in
    do h4 <- t_free h3 tp; do h5 <- t_free h4 tf;
    Ret (if found : bool then U_OK else U_ERROR_NOT_FOUND, (h5, u1))
  else Ret (U_ERROR_PARAMS, (h, u)).

(** ulfius.c:1602-1623 ulfius_set_default_endpoint, callback not NULL *)
Definition h_set_default (h : heap) (u : hinst) (cb data : Z) : heap * hinst :=
  let d := mk_ep None None None 0 (Some cb) data in
  match h_default u with
  | Some (i, _) => (h, mk_hinst (h_list u) (h_nb u) (Some (i, d)))
  | None => let '(i, h1) := h_malloc h in (h1, mk_hinst (h_list u) (h_nb u) (Some (i, d)))
  end.

(** ulfius.c:1415-1424 ulfius_clean_endpoint_list: up to the first endpoint without a method *)
Fixpoint h_clean_slots (h : heap) (arr : list (option hep)) : outcome heap :=
  match arr with
  | [] => UB OutOfBounds
  | None :: _ => UB Uninit
  | Some e :: r =>
      match h_method e with
      | None => Ret h
      | Some _ => do x <- e_clean h e; h_clean_slots (fst x) r
      end
  end.
(** ulfius.c:1645-1655 the part of ulfius_clean_instance *)
Definition h_clean (h : heap) (u : hinst) : outcome (heap * hinst) :=
  do h1 <- (match h_list u with
            | None => Ret h
            | Some (i, arr) => do _ <- h_use h i; do h1 <- h_clean_slots h arr; h_free h1 i
            end);
  do h2 <- (match h_default u with None => Ret h1 | Some (i, _) => h_free h1 i end);
  Ret (h2, mk_hinst None (h_nb u) None).

(** the list of endpoints of one request: its array and, for each endpoint, the block of the
    structure and the copy *)
Definition copies := (nat * list (nat * hep))%type.

(** u_request.c:151-177 the loop of ulfius_endpoint_match: the array of pointers grows by one for
    each endpoint selected. The arrays of words made by ulfius_split_url are not modelled. *)
Fixpoint h_match_loop (h : heap) (arr : list (option hep)) (method : str) (uw : list str) (acc : copies)
  : outcome (heap * copies) :=
  match arr with
  | [] => UB OutOfBounds
  | None :: _ => UB Uninit
  | Some x :: r =>
      do e <- e_read h x;
      if equals_endpoints e empty_endpoint then Ret (h, acc)
      else
        do mm <- method_match e method;
        if mm && url_format_match uw (split_url (url_prefix e) (url_format e)) then
          do a <- h_realloc h (fst acc);
          let '(i, h1) := h_malloc (snd a) in
          let '(c, h2) := e_copy h1 e in
          h_match_loop h2 r method uw (fst a, snd acc ++ [(i, c)])
        else h_match_loop h r method uw acc
  end.

Section Request.
(** libc qsort on the array of pointers: a parameter *)
Variable order : list (nat * hep) -> list (nat * hep).

(** u_request.c:139-189 ulfius_endpoint_match, then ulfius.c:591-609: without a match, the default
    endpoint if there is one *)
Definition h_match (h : heap) (u : hinst) (method url : str) : outcome (heap * copies) :=
  let '(a, h1) := h_malloc h in
  do r <- (match h_list u with
           | None => Ret (h1, (a, []))
           | Some (i, arr) => do _ <- h_use h1 i; h_match_loop h1 arr method (split_url (Some url) None) (a, [])
           end);
  let '(h2, (b, l)) := r in
  match order l, h_default u with
  | [], Some (d, e) =>
      do x <- h_realloc h2 b;
      do _ <- h_use (snd x) d;
      let '(i, h3) := h_malloc (snd x) in
      let '(c, h4) := e_copy h3 e in
      Ret (h4, (fst x, [(i, c)]))
  | l', _ => Ret (h2, (b, l'))
  end.
End Request.

(** ulfius.c:1062-1065 each copy is cleaned and its structure released *)
Fixpoint h_release_list (h : heap) (l : list (nat * hep)) : outcome heap :=
  match l with
  | [] => Ret h
  | (i, c) :: r => do _ <- h_use h i; do x <- e_clean h c; do h1 <- h_free (fst x) i; h_release_list h1 r
  end.
(** ulfius.c:1062-1066 *)
Definition h_release (h : heap) (q : copies) : outcome heap :=
  do _ <- h_use h (fst q); do h1 <- h_release_list h (snd q); h_free h1 (fst q).

(** a request reads the endpoints it selected (callback_function, user_data, url_prefix,
    url_format, ulfius.c:636-660) *)
Fixpoint read_copies (h : heap) (l : list (nat * hep)) : outcome (list endpoint) :=
  match l with
  | [] => Ret []
  | (i, c) :: r => do _ <- h_use h i; do e <- e_read h c; do t <- read_copies h r; Ret (e :: t)
  end.

(** the size of struct _u_endpoint and of a pointer to it on a 64-bit machine: three pointers to
    texts, an unsigned int with its padding, two more pointers *)
Definition sizeof_endpoint := 48.
Definition sizeof_pointer := 8.

(** ulfius.c:1379-1394 ulfius_duplicate_endpoint_list with the sizes of the blocks: element [i] is
    written at bytes [i*48, i*48+48) of a block of (i+1)*8 bytes. [k] counts the elements
    already copied. *)
Fixpoint duplicate_loop (elem ptr : Z) (l : list endpoint) (k : nat) (acc : list endpoint) : outcome (list endpoint) :=
  match l with
  | [] => UB OutOfBounds
  | e :: r =>
      match http_method e with
      | None => Ret acc
      | Some _ =>
          let size := (Z.of_nat k + 1) * ptr in
          if size <? Z.of_nat k * elem + elem then UB OutOfBounds
          else duplicate_loop elem ptr r (Datatypes.S k) (acc ++ [e])
      end
  end.
Definition duplicate_endpoint_list (l : list endpoint) : outcome (list endpoint) :=
  duplicate_loop sizeof_endpoint sizeof_pointer l 0%nat [].
