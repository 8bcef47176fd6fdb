(** The memory of a u_map, /repo/src/u_map.c: every key, every value, the three arrays and the
    structure are blocks of the heap, allocated and released one by one, and an allocation may
    fail. UMapModel describes the values when nothing fails.
    Simplification: the key and the value given to a function are in memory of the caller that the
    function does not change. The removals by value are not treated (they find an index and call
    u_map_remove_at, as the removals by key do). *)
From Coq Require Import ZArith Bool List.
From Verif Require Import Base UMapModel OwnModel.
Import ListNotations.
Open Scope Z_scope.

(** The heap, and what the coming allocations answer: [m_new] for o_malloc and o_strdup, [m_grow]
    for o_realloc; [false] is NULL, and after the end of the list there is always memory. *)
Record mem := mk_mem { m_heap : heap; m_new : list bool; m_grow : list bool }.
Definition next_answer (l : list bool) : bool * list bool := match l with [] => (true, []) | b :: r => (b, r) end.
(** o_malloc, and o_strdup of a text which is not NULL *)
Definition x_malloc (m : mem) : option nat * mem :=
  let '(b, r) := next_answer (m_new m) in
  if b then (Some (h_next (m_heap m)), mk_mem (snd (h_malloc (m_heap m))) r (m_grow m))
  else (None, mk_mem (m_heap m) r (m_grow m)).
(** o_free *)
Definition x_free (m : mem) (p : option nat) : outcome mem :=
  match p with None => Ret m | Some i => do h <- h_free (m_heap m) i; Ret (mk_mem h (m_new m) (m_grow m)) end.
(** o_realloc: when it fails the old block stays *)
Definition x_realloc (m : mem) (p : option nat) : outcome (option nat * mem) :=
  let '(b, r) := next_answer (m_grow m) in
  if b then
    do h <- (match p with None => Ret (m_heap m) | Some i => h_free (m_heap m) i end);
    Ret (Some (h_next h), mk_mem (snd (h_malloc h)) (m_new m) r)
  else
    do _ <- (match p with None => Ret tt | Some i => h_use (m_heap m) i end);
    Ret (None, mk_mem (m_heap m) (m_new m) r).

(** a pointer to a block, with what the block holds *)
Definition ptr (A : Type) := option (nat * A).
Definition addr {A} (p : ptr A) : option nat := match p with Some (i, _) => Some i | None => None end.
Definition x_deref {A} (m : mem) (p : ptr A) : outcome (nat * A) :=
  match p with None => UB NullDeref | Some (i, a) => do _ <- h_use (m_heap m) i; Ret (i, a) end.
(** a pointer to a block that may have moved, with its new contents *)
Definition at_block {A} (i : option nat) (a : A) : ptr A := match i with Some i => Some (i, a) | None => None end.

(** struct _u_map, include/ulfius.h:204-209 *)
Record fmap := mk_fmap {
  f_keys : ptr (list (ptr str));
  f_values : ptr (list (ptr buf));
  f_lengths : ptr (list Z);
  f_nb : nat
}.

(** u_map.c:32-68 u_map_init *)
Definition x_init (m : mem) : outcome (Z * (mem * fmap)) :=
  match x_malloc m with
  | (None, m1) => Ret (U_ERROR_MEMORY, (m1, mk_fmap None None None 0))
  | (Some k, m1) =>
      match x_malloc m1 with
      | (None, m2) => do m3 <- x_free m2 (Some k); Ret (U_ERROR_MEMORY, (m3, mk_fmap None None None 0))
      | (Some v, m2) =>
          match x_malloc m2 with
          | (None, m3) =>
              do m4 <- x_free m3 (Some k); do m5 <- x_free m4 (Some v);
              Ret (U_ERROR_MEMORY, (m5, mk_fmap None None None 0))
          | (Some l, m3) => Ret (U_OK, (m3, mk_fmap (Some (k, [None])) (Some (v, [None])) (Some (l, [0])) 0))
          end
      end
  end.

(** u_map.c:73-76 the loop of u_map_clean, [n] iterations from [i] *)
Fixpoint x_clean_loop (m : mem) (f : fmap) (i n : nat) : outcome mem :=
  match n with
  | O => Ret m
  | Datatypes.S n' =>
      do ks <- x_deref m (f_keys f); do k <- aget (snd ks) i; do m1 <- x_free m (addr k);
      do vs <- x_deref m1 (f_values f); do v <- aget (snd vs) i; do m2 <- x_free m1 (addr v);
      x_clean_loop m2 f (Datatypes.S i) n'
  end.
(** u_map.c:70-87 u_map_clean: the count of values is not reset *)
Definition x_clean (m : mem) (f : fmap) : outcome (mem * fmap) :=
  do m1 <- x_clean_loop m f 0 (f_nb f);
  do m2 <- x_free m1 (addr (f_keys f)); do m3 <- x_free m2 (addr (f_values f)); do m4 <- x_free m3 (addr (f_lengths f));
  Ret (m4, mk_fmap None None None (f_nb f)).
(** u_map.c:89-96 u_map_clean_full; [p] is the block of the structure *)
Definition x_clean_full (m : mem) (p : nat) (f : fmap) : outcome mem :=
  do x <- x_clean m f; x_free (fst x) (Some p).
(** u_map.c:528-535 u_map_empty *)
Definition x_empty (m : mem) (f : fmap) : outcome (Z * (mem * fmap)) :=
  do x <- x_clean m f; x_init (fst x).

(** o_strcmp(keys[i], key) == 0 and its like: the key is read through its pointer *)
Definition x_key_is (m : mem) (t : str -> bool) (k : ptr str) : outcome bool :=
  match k with None => Ret false | Some _ => do x <- x_deref m k; Ret (t (snd x)) end.
(** u_map.c:161-162 the search by index, [n] iterations from [i] *)
Fixpoint x_scan (m : mem) (f : fmap) (t : str -> bool) (i n : nat) : outcome (option nat) :=
  match n with
  | O => Ret None
  | Datatypes.S n' =>
      do ks <- x_deref m (f_keys f); do k <- aget (snd ks) i; do b <- x_key_is m t k;
      if b : bool then Ret (Some i) else x_scan m f t (Datatypes.S i) n'
  end.
(** u_map.c:380 and others, the search up to the NULL at the end *)
Fixpoint x_scan_null (m : mem) (ks : list (ptr str)) (t : str -> bool) (i : nat) : outcome (option nat) :=
  match ks with
  | [] => UB OutOfBounds
  | None :: _ => Ret None
  | k :: r => do b <- x_key_is m t k; if b : bool then Ret (Some i) else x_scan_null m r t (Datatypes.S i)
  end.
(** u_map.c:208 *)
Fixpoint x_null_index (ks : list (ptr str)) (i : nat) : outcome nat :=
  match ks with [] => UB OutOfBounds | None :: _ => Ret i | Some _ :: r => x_null_index r (Datatypes.S i) end.

(** o_strdup("") *)
Definition x_strdup_empty (m : mem) : ptr buf * mem := let '(p, m1) := x_malloc m in (at_block p (cblock []), m1).

(** u_map.c:164-183 the key exists at index [i] *)
Definition x_update (m : mem) (f : fmap) (i : nat) (value : option buf) (offset length : Z) : outcome (Z * (mem * fmap)) :=
  let total := add64 offset length in
  do ls <- x_deref m (f_lengths f); do li <- aget (snd ls) i;
  do vs <- x_deref m (f_values f); do v <- aget (snd vs) i;
  do g <- (if li <? total then
             do x <- x_realloc m (addr v);
             Ret (at_block (fst x) (realloc (match v with Some (_, b) => b | None => [] end) (add64 total 1)), snd x)
           else Ret (v, m));
  let '(v1, m1) := g in
  if (li <? total) && match v1 with None => true | Some _ => false end then
    do a <- aset (snd vs) i None;
    Ret (U_ERROR_MEMORY, (m1, mk_fmap (f_keys f) (Some (fst vs, a)) (f_lengths f) (f_nb f)))
  else
    match value with
    | Some w =>
        do x <- x_deref m1 v1;
        do b <- memcpy (snd x) offset w length;
        if li <? total then
          do b1 <- store b (offset + length) 0;
          do a <- aset (snd vs) i (Some (fst x, b1));
          do l <- aset (snd ls) i total;
          Ret (U_OK, (m1, mk_fmap (f_keys f) (Some (fst vs, a)) (Some (fst ls, l)) (f_nb f)))
        else
          do a <- aset (snd vs) i (Some (fst x, b));
          Ret (U_OK, (m1, mk_fmap (f_keys f) (Some (fst vs, a)) (f_lengths f) (f_nb f)))
    | None =>
        do m2 <- x_free m1 (addr v1);
        let '(e, m3) := x_strdup_empty m2 in
        do a <- aset (snd vs) i e;
        do l <- aset (snd ls) i 0;
        Ret (U_OK, (m3, mk_fmap (f_keys f) (Some (fst vs, a)) (Some (fst ls, l)) (f_nb f)))
    end.

(** u_map.c:207-240 both copies are made; [k], [v] are their blocks. The arrays grow one after the
    other; what was done before a failure stays. *)
Definition x_append (m : mem) (f : fmap) (k : nat * str) (v : ptr buf) (total : Z) : outcome (Z * (mem * fmap)) :=
  do ks <- x_deref m (f_keys f);
  do i <- x_null_index (snd ks) 0;
  do r1 <- x_realloc m (Some (fst ks));
  let '(p1, m1) := r1 in
  match p1 with
  | None =>
      do m2 <- x_free m1 (Some (fst k)); do m3 <- x_free m2 (addr v);
      Ret (U_ERROR_MEMORY, (m3, mk_fmap None (f_values f) (f_lengths f) (f_nb f)))
  | Some p1 =>
      do a1 <- aset (arealloc (snd ks) (i + 2) None) i (Some k); do a2 <- aset a1 (i + 1) None;
      do r2 <- x_realloc m1 (addr (f_values f));
      let '(p2, m2) := r2 in
      match p2 with
      | None =>
          do m3 <- x_free m2 (Some (fst k)); do m4 <- x_free m3 (addr v);
          Ret (U_ERROR_MEMORY, (m4, mk_fmap (Some (p1, a2)) None (f_lengths f) (f_nb f)))
      | Some p2 =>
          let old := match f_values f with Some (_, a) => a | None => [] end in
          do b1 <- aset (arealloc old (i + 2) None) i v; do b2 <- aset b1 (i + 1) None;
          do r3 <- x_realloc m2 (addr (f_lengths f));
          let '(p3, m3) := r3 in
          match p3 with
          | None =>
              do m4 <- x_free m3 (Some (fst k)); do m5 <- x_free m4 (addr v);
              Ret (U_ERROR_MEMORY, (m5, mk_fmap (Some (p1, a2)) (Some (p2, b2)) None (f_nb f)))
          | Some p3 =>
              let old := match f_lengths f with Some (_, a) => a | None => [] end in
              do c1 <- aset (arealloc old (i + 2) 0) i total; do c2 <- aset c1 (i + 1) 0;
              Ret (U_OK, (m3, mk_fmap (Some (p1, a2)) (Some (p2, b2)) (Some (p3, c2)) (Datatypes.S (f_nb f))))
          end
      end
  end.

(** u_map.c:156-244 u_map_put_binary *)
Definition x_put_binary (m : mem) (f : fmap) (key : option str) (value : option buf) (offset length : Z)
  : outcome (Z * (mem * fmap)) :=
  match key with
  | None => Ret (U_ERROR_PARAMS, (m, f))
  | Some k =>
      let total := add64 offset length in
      if match k with [] => true | _ => false end || negb (add64 total 1 <=? SIZE_MAX)
      then Ret (U_ERROR_PARAMS, (m, f))
      else
        do r <- x_scan m f (fun x => str_eqb x k) 0 (f_nb f);
        match r with
        | Some i => x_update m f i value offset length
        | None =>
            do vs <- x_deref m (f_values f); do vend <- aget (snd vs) (f_nb f);
            match vend with
            | Some _ => Ret (U_OK, (m, f))
            | None =>
                match x_malloc m with
                | (None, m1) => Ret (U_ERROR_MEMORY, (m1, f))
                | (Some dk, m1) =>
                    match value with
                    | Some w =>
                        match x_malloc m1 with
                        | (None, m2) => do m3 <- x_free m2 (Some dk); Ret (U_ERROR_MEMORY, (m3, f))
                        | (Some dv, m2) =>
                            do b <- memcpy (malloc (add64 total 1)) offset w length;
                            do b1 <- store b (offset + length) 0;
                            x_append m2 f (dk, k) (Some (dv, b1)) total
                        end
                    | None => let '(e, m2) := x_strdup_empty m1 in x_append m2 f (dk, k) e total
                    end
                end
            end
        end
  end.
(** u_map.c:148-154 u_map_put *)
Definition x_put (m : mem) (f : fmap) (key : option str) (value : option str) : outcome (Z * (mem * fmap)) :=
  match value with
  | Some v => x_put_binary m f key (Some (cblock v)) 0 (zlen v + 1)
  | None => x_put_binary m f key None 0 0
  end.

(** u_map.c:342-375 u_map_remove_at *)
Definition x_remove_at (m : mem) (f : fmap) (index : Z) : outcome (Z * (mem * fmap)) :=
  if index <? 0 then Ret (U_ERROR_PARAMS, (m, f))
  else if Z.of_nat (f_nb f) <=? index then Ret (U_ERROR_NOT_FOUND, (m, f))
  else
    let i := Z.to_nat index in
    let n := (f_nb f - i)%nat in
    do ks <- x_deref m (f_keys f); do k <- aget (snd ks) i; do m1 <- x_free m (addr k);
    do vs <- x_deref m1 (f_values f); do v <- aget (snd vs) i; do m2 <- x_free m1 (addr v);
    do ls <- x_deref m2 (f_lengths f);
    do a <- shift_loop (snd ks) i n; do b <- shift_loop (snd vs) i n; do c <- shift_loop (snd ls) i n;
    do r1 <- x_realloc m2 (Some (fst ks));
    let '(p1, m3) := r1 in
    match p1 with
    | None => Ret (U_ERROR_MEMORY, (m3, mk_fmap None (Some (fst vs, b)) (Some (fst ls, c)) (f_nb f)))
    | Some p1 =>
        do r2 <- x_realloc m3 (Some (fst vs));
        let '(p2, m4) := r2 in
        match p2 with
        | None => Ret (U_ERROR_MEMORY, (m4, mk_fmap (Some (p1, firstn (f_nb f) a)) None (Some (fst ls, c)) (f_nb f)))
        | Some p2 =>
            do r3 <- x_realloc m4 (Some (fst ls));
            let '(p3, m5) := r3 in
            match p3 with
            | None =>
                Ret (U_ERROR_MEMORY, (m5, mk_fmap (Some (p1, firstn (f_nb f) a)) (Some (p2, firstn (f_nb f) b)) None (f_nb f)))
            | Some p3 =>
                Ret (U_OK, (m5, mk_fmap (Some (p1, firstn (f_nb f) a)) (Some (p2, firstn (f_nb f) b))
                                        (Some (p3, firstn (f_nb f) c)) (f_nb f - 1)))
            end
        end
    end.

(** u_map.c:246-290 u_map_remove_from_key and u_map_remove_from_key_case, [n] = i+1 *)
Fixpoint x_remove_loop (m : mem) (f : fmap) (t : str -> bool) (n : nat) (found : bool) : outcome (Z * (mem * fmap)) :=
  match n with
  | O => Ret (if found then U_OK else U_ERROR_NOT_FOUND, (m, f))
  | Datatypes.S i =>
      do ks <- x_deref m (f_keys f); do k <- aget (snd ks) i; do b <- x_key_is m t k;
      if b : bool then
        do x <- x_remove_at m f (Z.of_nat i);
        if fst x =? U_OK then x_remove_loop (fst (snd x)) (snd (snd x)) t i true else Ret x
      else x_remove_loop m f t i found
  end.
Definition x_remove_key (m : mem) (f : fmap) (t : str -> bool) : outcome (Z * (mem * fmap)) :=
  x_remove_loop m f t (f_nb f) false.

(** u_map.c:377-393 u_map_get: the block pointed to *)
Definition x_get (m : mem) (f : fmap) (key : str) : outcome (ptr buf) :=
  do ks <- x_deref m (f_keys f);
  do r <- x_scan_null m (snd ks) (fun x => str_eqb x key) 0;
  match r with
  | None => Ret None
  | Some i =>
      do ls <- x_deref m (f_lengths f); do li <- aget (snd ls) i;
      if 0 <? li then do vs <- x_deref m (f_values f); aget (snd vs) i else Ret None
  end.
(** u_map.c:433-445 u_map_get_length *)
Definition x_get_length (m : mem) (f : fmap) (key : str) : outcome Z :=
  do ks <- x_deref m (f_keys f);
  do r <- x_scan_null m (snd ks) (fun x => str_eqb x key) 0;
  match r with
  | None => Ret (-1)
  | Some i => do ls <- x_deref m (f_lengths f); aget (snd ls) i
  end.

(** reading what a char * points to *)
Definition x_block (m : mem) (p : ptr buf) : outcome (option buf) :=
  match p with None => Ret None | Some _ => do x <- x_deref m p; Ret (Some (snd x)) end.

(** u_map.c:475-484 the loop of u_map_copy; [ks] is the rest of source->keys *)
Fixpoint x_copy_loop (m : mem) (src : fmap) (p : nat) (f : fmap) (ks : list (ptr str)) (i : nat)
  : outcome (mem * option (nat * fmap)) :=
  match ks with
  | [] => UB OutOfBounds
  | None :: _ => Ret (m, Some (p, f))
  | k :: r =>
      do x <- x_deref m k;
      do v <- x_get m src (snd x);
      do b <- x_block m v;
      do ls <- x_deref m (f_lengths src); do li <- aget (snd ls) i;
      do q <- x_put_binary m f (Some (snd x)) b 0 li;
      let '(c, (m1, f1)) := q in
      if c =? U_OK then x_copy_loop m1 src p f1 r (Datatypes.S i)
      else do m2 <- x_clean_full m1 p f1; Ret (m2, None)
  end.
(** u_map.c:461-487 u_map_copy *)
Definition x_copy (m : mem) (src : fmap) : outcome (mem * option (nat * fmap)) :=
  match x_malloc m with
  | (None, m1) => Ret (m1, None)
  | (Some p, m1) =>
      do q <- x_init m1;
      let '(c, (m2, f)) := q in
      if c =? U_OK then
        match f_keys src with
        | None => Ret (m2, Some (p, f))
        | Some _ => do ks <- x_deref m2 (f_keys src); x_copy_loop m2 src p f (snd ks) 0
        end
      else do m3 <- x_free m2 (Some p); Ret (m3, None)
  end.

(** u_map.c:489-505 u_map_copy_into, dest and source different *)
Fixpoint x_copy_into_loop (m : mem) (f src : fmap) (ks : list (ptr str)) : outcome (Z * (mem * fmap)) :=
  match ks with
  | [] => UB OutOfBounds
  | None :: _ => Ret (U_OK, (m, f))
  | k :: r =>
      do x <- x_deref m k;
      do v <- x_get m src (snd x);
      do b <- x_block m v;
      do s <- deref_cstr b;
      do q <- x_put m f (Some (snd x)) s;
      if fst q =? U_OK then x_copy_into_loop (fst (snd q)) (snd (snd q)) src r else Ret q
  end.
Definition x_copy_into (m : mem) (f src : fmap) : outcome (Z * (mem * fmap)) :=
  match f_keys src with
  | None => Ret (U_OK, (m, f))
  | Some _ => do ks <- x_deref m (f_keys src); x_copy_into_loop m f src (snd ks)
  end.
