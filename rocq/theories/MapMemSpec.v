(** Specification vocabulary for the memory of maps (C96): a program that uses any number of maps,
    what its calls mean, and the blocks in use. *)
From Coq Require Import ZArith Bool List.
From Verif Require Import Base OwnModel MapMemModel.
Import ListNotations.
Open Scope Z_scope.

(** ** The program. Maps are named by their position; names that do not exist are ignored.
    [PutAt]: u_map_put_binary of [b] at offset [off], or at the end of the value when it is shorter
    (so that no byte of a value is left unwritten). After a failed [Empty] the program can only
    release the map, and does. *)
Inductive mop :=
| New
| Put (i : nat) (k : str) (v : option str)
| PutAt (i : nat) (k : str) (b : list Z) (off : Z)
| RemoveAt (i : nat) (index : Z)
| RemoveKey (i : nat) (fold_case : bool) (k : str)
| Empty (i : nat)
| Copy (i : nat)
| CopyInto (dest source : nat)
| Release (i : nat).

Record prog := mk_prog { p_mem : mem; p_maps : list (nat * fmap) }.
Definition set_map (l : list (nat * fmap)) (i : nat) (p : nat) (f : fmap) := set_nth l i (p, f).
Definition drop {A} (i : nat) (l : list A) : list A := firstn i l ++ skipn (S i) l.
Definition matches (fold_case : bool) (k x : str) : bool := if fold_case then str_caseeqb x k else str_eqb x k.

(** a call on map [i]: the structure is read and written through its pointer *)
Definition on_map (s : prog) (i : nat) (call : mem -> fmap -> outcome (Z * (mem * fmap))) : outcome (Z * prog) :=
  match nth_error (p_maps s) i with
  | None => Ret (U_ERROR_PARAMS, s)
  | Some (p, f) =>
      do _ <- h_use (m_heap (p_mem s)) p;
      do x <- call (p_mem s) f;
      let '(c, (m, f1)) := x in Ret (c, mk_prog m (set_map (p_maps s) i p f1))
  end.
Definition mstep (s : prog) (o : mop) : outcome (Z * prog) :=
  match o with
  | New =>
      match x_malloc (p_mem s) with
      | (None, m) => Ret (U_ERROR_MEMORY, mk_prog m (p_maps s))
      | (Some p, m) =>
          do x <- x_init m;
          let '(c, (m1, f)) := x in
          if c =? U_OK then Ret (U_OK, mk_prog m1 (p_maps s ++ [(p, f)]))
          else do m2 <- x_free m1 (Some p); Ret (c, mk_prog m2 (p_maps s))
      end
  | Put i k v => on_map s i (fun m f => x_put m f (Some k) v)
  | PutAt i k b off =>
      on_map s i (fun m f => do n <- x_get_length m f k;
                             x_put_binary m f (Some k) (Some (block_of b)) (Z.min off (Z.max 0 n)) (zlen b))
  | RemoveAt i index => on_map s i (fun m f => x_remove_at m f index)
  | RemoveKey i fc k => on_map s i (fun m f => x_remove_key m f (matches fc k))
  | Empty i =>
      match nth_error (p_maps s) i with
      | None => Ret (U_ERROR_PARAMS, s)
      | Some (p, f) =>
          do _ <- h_use (m_heap (p_mem s)) p;
          do x <- x_empty (p_mem s) f;
          let '(c, (m, f1)) := x in
          if c =? U_OK then Ret (U_OK, mk_prog m (set_map (p_maps s) i p f1))
          else do m1 <- x_clean_full m p f1; Ret (c, mk_prog m1 (drop i (p_maps s)))
      end
  | Copy i =>
      match nth_error (p_maps s) i with
      | None => Ret (U_ERROR_PARAMS, s)
      | Some (p, f) =>
          do _ <- h_use (m_heap (p_mem s)) p;
          do x <- x_copy (p_mem s) f;
          match snd x with
          | None => Ret (U_ERROR_MEMORY, mk_prog (fst x) (p_maps s))
          | Some q => Ret (U_OK, mk_prog (fst x) (p_maps s ++ [q]))
          end
      end
  | CopyInto i j =>
      match nth_error (p_maps s) j with
      | None => Ret (U_ERROR_PARAMS, s)
      | Some (p, src) => do _ <- h_use (m_heap (p_mem s)) p; on_map s i (fun m f => x_copy_into m f src)
      end
  | Release i =>
      match nth_error (p_maps s) i with
      | None => Ret (U_ERROR_PARAMS, s)
      | Some (p, f) =>
          do _ <- h_use (m_heap (p_mem s)) p;
          do m <- x_clean_full (p_mem s) p f; Ret (U_OK, mk_prog m (drop i (p_maps s)))
      end
  end.
(** a run, with the results of the calls *)
Fixpoint mrun (s : prog) (l : list mop) : outcome (list Z * prog) :=
  match l with
  | [] => Ret ([], s)
  | o :: r => do x <- mstep s o; do y <- mrun (snd x) r; Ret (fst x :: fst y, snd y)
  end.
(** [answers]: what o_malloc and o_strdup answer *)
Definition start (answers : list bool) : prog := mk_prog (mk_mem (mk_heap 0 []) answers []) [].

(** ** What the calls mean, without memory: a map is an ordered list of names and values *)
Definition amap := list (str * list Z).
(** [b] written over the bytes of [old] from [off] on *)
Definition overlay (old b : list Z) (off : Z) : list Z :=
  let at_ := Z.min off (zlen old) in zfirstn at_ old ++ b ++ zskipn (at_ + zlen b) old.
Fixpoint a_change (k : str) (g : list Z -> list Z) (m : amap) : amap :=
  match m with
  | [] => [(k, g [])]
  | (x, v) :: r => if str_eqb x k then (x, g v) :: r else (x, v) :: a_change k g r
  end.
(** u_map_put of a C string: its bytes and the NUL over the old value; of NULL: no value *)
Definition a_put (k : str) (v : option str) (m : amap) : amap :=
  a_change k (fun old => match v with Some s => overlay old (s ++ [0]) 0 | None => [] end) m.
(** the C string at the beginning of a value *)
Fixpoint text_of (b : list Z) : str := match b with [] => [] | c :: r => if c =? 0 then [] else c :: text_of r end.
Definition a_text (v : list Z) : option str := match v with [] => None | _ => Some (text_of v) end.
Definition a_copy_into (src dst : amap) : amap := fold_left (fun d e => a_put (fst e) (a_text (snd e)) d) src dst.

Definition acall (l : list amap) (i : nat) (g : amap -> Z * amap) : Z * list amap :=
  match nth_error l i with None => (U_ERROR_PARAMS, l) | Some m => (fst (g m), set_nth l i (snd (g m))) end.
Definition a_remove_at (index : Z) (m : amap) : Z * amap :=
  if index <? 0 then (U_ERROR_PARAMS, m)
  else if zlen m <=? index then (U_ERROR_NOT_FOUND, m)
  else (U_OK, drop (Z.to_nat index) m).
Definition a_remove_key (t : str -> bool) (m : amap) : Z * amap :=
  (if existsb (fun e => t (fst e)) m then U_OK else U_ERROR_NOT_FOUND, filter (fun e => negb (t (fst e))) m).
(** the result and the maps after a call for which there is memory *)
Definition astep (l : list amap) (o : mop) : Z * list amap :=
  match o with
  | New => (U_OK, l ++ [[]])
  | Put i k v => acall l i (fun m => match k with [] => (U_ERROR_PARAMS, m) | _ => (U_OK, a_put k v m) end)
  | PutAt i k b off =>
      acall l i (fun m => match k with [] => (U_ERROR_PARAMS, m) | _ => (U_OK, a_change k (fun old => overlay old b off) m) end)
  | RemoveAt i index => acall l i (a_remove_at index)
  | RemoveKey i fc k => acall l i (a_remove_key (matches fc k))
  | Empty i => acall l i (fun _ => (U_OK, []))
  | Copy i => match nth_error l i with None => (U_ERROR_PARAMS, l) | Some m => (U_OK, l ++ [m]) end
  | CopyInto i j =>
      match nth_error l j with None => (U_ERROR_PARAMS, l) | Some src => acall l i (fun m => (U_OK, a_copy_into src m)) end
  | Release i => match nth_error l i with None => (U_ERROR_PARAMS, l) | Some _ => (U_OK, drop i l) end
  end.
(** the maps after a call for which there is not: nothing has changed, except that u_map_empty has
    released its map and u_map_copy_into has copied some of the first values *)
Definition afail (l : list amap) (o : mop) (l' : list amap) : Prop :=
  match o with
  | Empty i => l' = drop i l
  | CopyInto i j =>
      exists src d n, nth_error l j = Some src /\ nth_error l i = Some d /\ l' = set_nth l i (a_copy_into (firstn n src) d)
  | _ => l' = l
  end.
Inductive ameans (short : bool) : list amap -> list mop -> list Z -> list amap -> Prop :=
| am_nil : forall l, ameans short l [] [] l
| am_ok : forall l o r cs l', ameans short (snd (astep l o)) r cs l' -> ameans short l (o :: r) (fst (astep l o) :: cs) l'
| am_fail : forall l o r cs l1 l', short = true -> afail l o l1 -> ameans short l1 r cs l' ->
    ameans short l (o :: r) (U_ERROR_MEMORY :: cs) l'.

(** ** What the memory shows: names, lengths and bytes read through the pointers *)
Fixpoint read_bytes (b : buf) (n : nat) : outcome (list Z) :=
  match n, b with
  | O, _ => Ret []
  | S n', Some c :: r => do x <- read_bytes r n'; Ret (c :: x)
  | S _, None :: _ => UB Uninit
  | S _, [] => UB OutOfBounds
  end.
Fixpoint read_entries (m : mem) (ks : list (ptr str)) (vs : list (ptr buf)) (ls : list Z) : outcome amap :=
  match ks, vs, ls with
  | None :: _, _, _ => Ret []
  | k :: ks', v :: vs', n :: ls' =>
      do x <- x_deref m k;
      do b <- (if n =? 0 then Ret [] else do y <- x_deref m v; read_bytes (snd y) (Z.to_nat n));
      do r <- read_entries m ks' vs' ls';
      Ret ((snd x, b) :: r)
  | _, _, _ => UB OutOfBounds
  end.
Definition read_map (m : mem) (f : fmap) : outcome amap :=
  do ks <- x_deref m (f_keys f); do vs <- x_deref m (f_values f); do ls <- x_deref m (f_lengths f);
  read_entries m (snd ks) (snd vs) (snd ls).
Fixpoint read_maps (m : mem) (l : list (nat * fmap)) : outcome (list amap) :=
  match l with
  | [] => Ret []
  | (p, f) :: r => do _ <- h_use (m_heap m) p; do x <- read_map m f; do y <- read_maps m r; Ret (x :: y)
  end.

(** ** The blocks reachable from the maps *)
Definition ptr_blocks {A} (p : ptr A) : list nat := match p with Some (i, _) => [i] | None => [] end.
Definition array_blocks {A} (p : ptr (list (ptr A))) : list nat :=
  match p with Some (i, a) => i :: flat_map ptr_blocks a | None => [] end.
Definition map_blocks (x : nat * fmap) : list nat :=
  fst x :: array_blocks (f_keys (snd x)) ++ array_blocks (f_values (snd x)) ++ ptr_blocks (f_lengths (snd x)).
Definition prog_blocks (s : prog) : list nat := flat_map map_blocks (p_maps s).

(** what is asked of the program: texts and values that fit ([max] bytes), values with at least one
    byte, and a map not copied into itself *)
Definition mop_ok (max : Z) (o : mop) : Prop :=
  match o with
  | Put _ _ (Some v) => cstr v /\ zlen v + 1 <= max
  | PutAt _ _ b off => b <> [] /\ bytes b /\ 0 <= off /\ off + zlen b <= max
  | CopyInto i j => i <> j
  | _ => True
  end.
