(** Model of /repo/src/u_map.c: the three parallel arrays of struct _u_map.
    Simplifications common to the file: allocations succeed; [nb_values] (int) does not
    overflow; the u_map pointer itself is not NULL (every function returns an error code
    or 0/NULL at once when it is). Every array or block access is bounds-checked and
    yields [UB OutOfBounds] when outside. *)
From Coq Require Import ZArith Bool List.
From Verif Require Import Base.
Import ListNotations.
Open Scope Z_scope.

(** include/ulfius.h:204-209 struct _u_map *)
Record umap := mk_umap {
  keys : list (option str);
  values : list (option buf);
  lengths : list Z;
  nb_values : nat
}.

(** u_map.c:32-68 u_map_init: arrays of one NULL element *)
Definition u_map_init : umap := mk_umap [None] [None] [0] 0.

(** u_map.c:161-162 for (i=0; i < nb_values; i++) if (0 == o_strcmp(keys[i], key)):
    [n] iterations left starting at [i]; result = index of the first hit *)
Fixpoint scan_nb (m : umap) (key : str) (i n : nat) : outcome (option nat) :=
  match n with
  | O => Ret None
  | S n' =>
      do ko <- aget (keys m) i;
      if ostr_eqb ko (Some key) then Ret (Some i) else scan_nb m key (S i) n'
  end.

(** u_map.c:123,380,398,... for (i=0; keys[i] != NULL; i++) if (p(keys[i])): walk on the array
    from index [i] *)
Fixpoint scan_null (ks : list (option str)) (p : str -> bool) (i : nat) : outcome (option nat) :=
  match ks with
  | [] => UB OutOfBounds
  | None :: _ => Ret None
  | Some k :: r => if p k then Ret (Some i) else scan_null r p (S i)
  end.

(** u_map.c:208 for (i = 0; keys[i] != NULL; i++); *)
Fixpoint null_index (ks : list (option str)) (i : nat) : outcome nat :=
  match ks with
  | [] => UB OutOfBounds
  | None :: _ => Ret i
  | Some _ :: r => null_index r (S i)
  end.

(** array realloc to [n] elements; the contents of a grown part is given by [d]. The C code
    writes every new slot before reading it (u_map.c:216-217,226-227,236-237). *)
Definition arealloc {A} (l : list A) (n : nat) (d : A) : list A :=
  firstn n l ++ repeat d (n - length l).

(** u_map.c:156-244 u_map_put_binary. [value] is the memory block the caller passes, [length]
    the byte count; offset and length are unsigned 64 bit and every sum of them wraps. *)
Definition u_map_put_binary (m : umap) (key : option str) (value : option buf) (offset length : Z)
  : outcome (Z * umap) :=
  match key with
  | None => Ret (U_ERROR_PARAMS, m)
  | Some k =>
      let total := add64 offset length in
      if match k with [] => true | _ => false end || negb (add64 total 1 <=? SIZE_MAX)
      then Ret (U_ERROR_PARAMS, m)
      else
        do r <- scan_nb m k 0 (nb_values m);
        match r with
        | Some i =>
            do li <- aget (lengths m) i;
            do bo <- aget (values m) i;
            let bo1 := if li <? total
                       then Some (realloc (match bo with Some b => b | None => [] end) (add64 total 1))
                       else bo in
            match value with
            | Some v =>
                match bo1 with
                | None => UB NullDeref
                | Some b1 =>
                    do b2 <- memcpy b1 offset v length;
                    if li <? total then
                      do b3 <- store b2 (offset + length) 0;
                      do vs <- aset (values m) i (Some b3);
                      do ls <- aset (lengths m) i total;
                      Ret (U_OK, mk_umap (keys m) vs ls (nb_values m))
                    else
                      do vs <- aset (values m) i (Some b2);
                      Ret (U_OK, mk_umap (keys m) vs (lengths m) (nb_values m))
                end
            | None =>
                do vs <- aset (values m) i (Some (cblock []));
                do ls <- aset (lengths m) i 0;
                Ret (U_OK, mk_umap (keys m) vs ls (nb_values m))
            end
        | None =>
            do vend <- aget (values m) (nb_values m);
            match vend with
            | Some _ => Ret (U_OK, m)
            | None =>
                do dup_value <- match value with
                                | Some v =>
                                    do b <- memcpy (malloc (add64 total 1)) offset v length;
                                    store b (offset + length) 0
                                | None => Ret (cblock [])
                                end;
                do i <- null_index (keys m) 0;
                do ks <- aset (arealloc (keys m) (i + 2) None) i (Some k);
                do ks2 <- aset ks (i + 1) None;
                do vs <- aset (arealloc (values m) (i + 2) None) i (Some dup_value);
                do vs2 <- aset vs (i + 1) None;
                do ls <- aset (arealloc (lengths m) (i + 2) 0) i total;
                do ls2 <- aset ls (i + 1) 0;
                Ret (U_OK, mk_umap ks2 vs2 ls2 (S (nb_values m)))
            end
        end
  end.

(** u_map.c:148-154 u_map_put *)
Definition u_map_put (m : umap) (key : option str) (value : option str) : outcome (Z * umap) :=
  match value with
  | Some v => u_map_put_binary m key (Some (cblock v)) 0 (zlen v + 1)
  | None => u_map_put_binary m key None 0 0
  end.

(** u_map.c:350-354 the shift loop of u_map_remove_at on one array: [n] iterations from [i] *)
Fixpoint shift_loop {A} (l : list A) (i n : nat) : outcome (list A) :=
  match n with
  | O => Ret l
  | S n' =>
      do x <- aget l (i + 1);
      do l' <- aset l i x;
      shift_loop l' (S i) n'
  end.

(** u_map.c:342-375 u_map_remove_at: the three arrays are shifted then cut to nb_values elements *)
Definition u_map_remove_at (m : umap) (index : Z) : outcome (Z * umap) :=
  if index <? 0 then Ret (U_ERROR_PARAMS, m)
  else if Z.of_nat (nb_values m) <=? index then Ret (U_ERROR_NOT_FOUND, m)
  else
    let i := Z.to_nat index in
    let n := (nb_values m - i)%nat in
    do _k <- aget (keys m) i;
    do _v <- aget (values m) i;
    do ks <- shift_loop (keys m) i n;
    do vs <- shift_loop (values m) i n;
    do ls <- shift_loop (lengths m) i n;
    Ret (U_OK, mk_umap (firstn (nb_values m) ks) (firstn (nb_values m) vs) (firstn (nb_values m) ls)
                       (nb_values m - 1)).

(** u_map.c:246-340: the common loop of the four u_map_remove_from_* functions,
    for (i = nb_values-1; i >= 0; i--) if (test(i)) { found = 1; u_map_remove_at(i); }
    [n] is i+1. *)
Fixpoint remove_loop (test : umap -> nat -> outcome bool) (m : umap) (n : nat) (found : bool)
  : outcome (Z * umap) :=
  match n with
  | O => Ret (if found then U_OK else U_ERROR_NOT_FOUND, m)
  | S i =>
      do hit <- test m i;
      if hit then
        do rm <- u_map_remove_at m (Z.of_nat i);
        let '(res, m') := rm in
        if res =? U_OK then remove_loop test m' i true else Ret (res, m')
      else remove_loop test m i found
  end.

(** u_map.c:253 o_strcmp(keys[i], key) == 0 *)
Definition test_key (key : str) (m : umap) (i : nat) : outcome bool :=
  do ko <- aget (keys m) i; Ret (ostr_eqb ko (Some key)).
(** u_map.c:276 o_strcasecmp(keys[i], key) == 0 *)
Definition test_key_case (key : str) (m : umap) (i : nat) : outcome bool :=
  do ko <- aget (keys m) i;
  Ret (match ko with Some k => str_caseeqb k key | None => false end).
(** u_map.c:303 memcmp(values[i], value, length) == 0 *)
Definition test_value (value : buf) (length : Z) (m : umap) (i : nat) : outcome bool :=
  do vo <- aget (values m) i;
  match vo with Some b => memcmp_eq b value length | None => UB NullDeref end.
(** u_map.c:326 o_strcasecmp(values[i], value) == 0 *)
Definition test_value_case (value : str) (m : umap) (i : nat) : outcome bool :=
  do vo <- aget (values m) i;
  match vo with Some b => strcasecmp_block b value | None => Ret false end.

(** u_map.c:246-267 *)
Definition u_map_remove_from_key (m : umap) (key : option str) : outcome (Z * umap) :=
  match key with
  | None => Ret (U_ERROR_PARAMS, m)
  | Some k => remove_loop (test_key k) m (nb_values m) false
  end.
(** u_map.c:269-290 *)
Definition u_map_remove_from_key_case (m : umap) (key : option str) : outcome (Z * umap) :=
  match key with
  | None => Ret (U_ERROR_PARAMS, m)
  | Some k => remove_loop (test_key_case k) m (nb_values m) false
  end.
(** u_map.c:296-317 *)
Definition u_map_remove_from_value_binary (m : umap) (value : option buf) (length : Z)
  : outcome (Z * umap) :=
  match value with
  | None => Ret (U_ERROR_PARAMS, m)
  | Some v => remove_loop (test_value v length) m (nb_values m) false
  end.
(** u_map.c:292-294 *)
Definition u_map_remove_from_value (m : umap) (value : option str) : outcome (Z * umap) :=
  match value with
  | None => Ret (U_ERROR_PARAMS, m)
  | Some v => u_map_remove_from_value_binary m (Some (cblock v)) (zlen v)
  end.
(** u_map.c:319-340 *)
Definition u_map_remove_from_value_case (m : umap) (value : option str) : outcome (Z * umap) :=
  match value with
  | None => Ret (U_ERROR_PARAMS, m)
  | Some v => remove_loop (test_value_case v) m (nb_values m) false
  end.

(** u_map.c:120-130 u_map_has_key *)
Definition u_map_has_key (m : umap) (key : option str) : outcome bool :=
  match key with
  | None => Ret false
  | Some k => do r <- scan_null (keys m) (fun x => str_eqb x k) 0;
              Ret (match r with Some _ => true | None => false end)
  end.
(** u_map.c:395-405 u_map_has_key_case *)
Definition u_map_has_key_case (m : umap) (key : option str) : outcome bool :=
  match key with
  | None => Ret false
  | Some k => do r <- scan_null (keys m) (fun x => str_caseeqb x k) 0;
              Ret (match r with Some _ => true | None => false end)
  end.

(** u_map.c:136-146 u_map_has_value_binary: for (i=0; values[i] != NULL; i++) *)
Fixpoint has_value_go (vs : list (option buf)) (value : buf) (length : Z) : outcome bool :=
  match vs with
  | [] => UB OutOfBounds
  | None :: _ => Ret false
  | Some b :: r => do hit <- memcmp_eq b value length;
                   if hit then Ret true else has_value_go r value length
  end.
Definition u_map_has_value_binary (m : umap) (value : option buf) (length : Z) : outcome bool :=
  match value with
  | None => Ret false
  | Some v => has_value_go (values m) v length
  end.
(** u_map.c:132-134 u_map_has_value *)
Definition u_map_has_value (m : umap) (value : option str) : outcome bool :=
  match value with
  | None => Ret false
  | Some v => u_map_has_value_binary m (Some (cblock v)) (zlen v)
  end.
(** u_map.c:407-417 u_map_has_value_case *)
Fixpoint has_value_case_go (vs : list (option buf)) (value : str) : outcome bool :=
  match vs with
  | [] => UB OutOfBounds
  | None :: _ => Ret false
  | Some b :: r => do hit <- strcasecmp_block b value;
                   if hit then Ret true else has_value_case_go r value
  end.
Definition u_map_has_value_case (m : umap) (value : option str) : outcome bool :=
  match value with
  | None => Ret false
  | Some v => has_value_case_go (values m) v
  end.

(** u_map.c:377-393 u_map_get: the block pointed to, NULL when absent or of length 0 *)
Definition u_map_get (m : umap) (key : option str) : outcome (option buf) :=
  match key with
  | None => Ret None
  | Some k =>
      do r <- scan_null (keys m) (fun x => str_eqb x k) 0;
      match r with
      | None => Ret None
      | Some i => do li <- aget (lengths m) i;
                  if 0 <? li then aget (values m) i else Ret None
      end
  end.
(** u_map.c:419-431 u_map_get_case *)
Definition u_map_get_case (m : umap) (key : option str) : outcome (option buf) :=
  match key with
  | None => Ret None
  | Some k =>
      do r <- scan_null (keys m) (fun x => str_caseeqb x k) 0;
      match r with None => Ret None | Some i => aget (values m) i end
  end.
(** u_map.c:433-445 u_map_get_length *)
Definition u_map_get_length (m : umap) (key : option str) : outcome Z :=
  match key with
  | None => Ret (-1)
  | Some k =>
      do r <- scan_null (keys m) (fun x => str_eqb x k) 0;
      match r with None => Ret (-1) | Some i => aget (lengths m) i end
  end.
(** u_map.c:447-459 u_map_get_case_length *)
Definition u_map_get_case_length (m : umap) (key : option str) : outcome Z :=
  match key with
  | None => Ret (-1)
  | Some k =>
      do r <- scan_null (keys m) (fun x => str_caseeqb x k) 0;
      match r with None => Ret (-1) | Some i => aget (lengths m) i end
  end.

(** the C string a caller reads through a returned pointer *)
Definition deref_cstr (p : option buf) : outcome (option str) :=
  match p with None => Ret None | Some b => do s <- read_cstr b; Ret (Some s) end.

(** u_map.c:475-484 the loop of u_map_copy: [ks] is the rest of source->keys, [i] the index *)
Fixpoint copy_loop (source copy : umap) (ks : list (option str)) (i : nat) : outcome (option umap) :=
  match ks with
  | [] => UB OutOfBounds
  | None :: _ => Ret (Some copy)
  | Some k :: r =>
      do v <- u_map_get source (Some k);
      do li <- aget (lengths source) i;
      do p <- u_map_put_binary copy (Some k) v 0 li;
      if fst p =? U_OK then copy_loop source (snd p) r (S i) else Ret None
  end.
(** u_map.c:461-487 u_map_copy *)
Definition u_map_copy (source : umap) : outcome (option umap) :=
  copy_loop source u_map_init (keys source) 0.

(** u_map.c:489-505 u_map_copy_into: u_map_put reads the C string u_map_get points to *)
Fixpoint copy_into_loop (dest source : umap) (ks : list (option str)) : outcome (Z * umap) :=
  match ks with
  | [] => UB OutOfBounds
  | None :: _ => Ret (U_OK, dest)
  | Some k :: r =>
      do v <- u_map_get source (Some k);
      do s <- deref_cstr v;
      do p <- u_map_put dest (Some k) s;
      if fst p =? U_OK then copy_into_loop (snd p) source r else Ret p
  end.
Definition u_map_copy_into (dest source : umap) : outcome (Z * umap) :=
  copy_into_loop dest source (keys source).

(** u_map.c:507-514 u_map_count *)
Definition u_map_count (m : umap) : Z := Z.of_nat (nb_values m).

(** u_map.c:516-526 u_map_count_keys_case *)
Fixpoint count_case_go (ks : list (option str)) (key : str) (count : Z) : outcome Z :=
  match ks with
  | [] => UB OutOfBounds
  | None :: _ => Ret count
  | Some k :: r => count_case_go r key (if str_caseeqb k key then count + 1 else count)
  end.
Definition u_map_count_keys_case (m : umap) (key : option str) : outcome Z :=
  match key with None => Ret 0 | Some k => count_case_go (keys m) k 0 end.

(** u_map.c:528-535 u_map_empty: clean then init *)
Definition u_map_empty (m : umap) : umap := u_map_init.
