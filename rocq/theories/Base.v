(** Shared vocabulary of the model: bytes, C strings, memory blocks, outcomes.
    No proofs in this file. *)
From Coq Require Import String Ascii ZArith Bool List.
Import ListNotations.
Open Scope Z_scope.

(** A C string is the list of its bytes without the terminator. A byte is a [Z] in 0..255.
    A NULL pointer is [None] of an option type. *)
Definition str := list Z.

(** "is a C string": bytes 1..255 *)
Definition cstr (s : str) : Prop := Forall (fun b => 0 < b < 256) s.
Definition bytes (s : list Z) : Prop := Forall (fun b => 0 <= b < 256) s.

Definition cstrb (s : str) : bool := forallb (fun b => (0 <? b) && (b <? 256)) s.

(** literal syntax for examples *)
Fixpoint bs (s : string) : str :=
  match s with
  | EmptyString => []
  | String c r => Z.of_N (N_of_ascii c) :: bs r
  end.

Fixpoint str_eqb (a b : str) : bool :=
  match a, b with
  | [], [] => true
  | x :: a', y :: b' => (x =? y) && str_eqb a' b'
  | _, _ => false
  end.

(** ASCII tolower: the C locale behaviour of strcasecmp *)
Definition lower (c : Z) : Z := if (65 <=? c) && (c <=? 90) then c + 32 else c.
Definition lowers (s : str) : str := map lower s.

(** o_strcasecmp(a,b) == 0 for two non-NULL strings *)
Definition str_caseeqb (a b : str) : bool := str_eqb (lowers a) (lowers b).

(** o_strcmp(a,b) == 0 with orcania's NULL convention: NULL equals only NULL *)
Definition ostr_eqb (a b : option str) : bool :=
  match a, b with
  | None, None => true
  | Some x, Some y => str_eqb x y
  | _, _ => false
  end.

Fixpoint prefixb (p s : list Z) : bool :=
  match p, s with
  | [], _ => true
  | x :: p', y :: s' => (x =? y) && prefixb p' s'
  | _ :: _, [] => false
  end.

(** strstr(h, n) != NULL *)
Fixpoint containsb (h n : list Z) : bool :=
  prefixb n h || match h with [] => false | _ :: h' => containsb h' n end.

(** Outcome of a C computation. [UB] is a computation with undefined behaviour (or, for
    [Uninit], one whose result depends on indeterminate bytes, for [Endless], one that does not end).
    [BadArgument]: a variable argument read with another type than it was passed with. *)
Inductive ub_kind := OutOfBounds | Uninit | UseAfterFree | DoubleFree | NullDeref | ShiftNegative | Endless | Overflow | BadArgument.

Inductive outcome (A : Type) :=
| Ret (a : A)
| UB (k : ub_kind).
Arguments Ret {A} _.
Arguments UB {A} _.

Definition bind {A B} (x : outcome A) (f : A -> outcome B) : outcome B :=
  match x with Ret a => f a | UB k => UB k end.

Notation "'do' x <- e ; f" := (bind e (fun x => f)) (at level 200, x pattern, e at level 100, f at level 200).

(** size_t / uint64_t *)
Definition two64 : Z := 18446744073709551616.
Definition SIZE_MAX : Z := two64 - 1.
Definition add64 (a b : Z) : Z := (a + b) mod two64.

(** A memory block: its bytes, [None] = never written. Its allocated size is its length. *)
Definition buf := list (option Z).

Definition zlen {A} (l : list A) : Z := Z.of_nat (length l).

Definition block_of (l : list Z) : buf := map Some l.

(** the block holding a C string, with its terminator *)
Definition cblock (s : str) : buf := block_of (s ++ [0]).

Definition zfirstn {A} (n : Z) (l : list A) := firstn (Z.to_nat n) l.
Definition zskipn {A} (n : Z) (l : list A) := skipn (Z.to_nat n) l.

(** memcpy(dst+off, src, len) *)
Definition memcpy (dst : buf) (off : Z) (src : buf) (len : Z) : outcome buf :=
  if (0 <=? off) && (0 <=? len) && (off + len <=? zlen dst) && (len <=? zlen src)
  then Ret (zfirstn off dst ++ zfirstn len src ++ zskipn (off + len) dst)
  else UB OutOfBounds.

(** dst[off] = c *)
Definition store (dst : buf) (off : Z) (c : Z) : outcome buf := memcpy dst off [Some c] 1.

(** malloc: fresh uninitialised block *)
Definition malloc (n : Z) : buf := repeat None (Z.to_nat n).

(** realloc: keeps the common prefix *)
Definition realloc (b : buf) (n : Z) : buf :=
  zfirstn n b ++ repeat None (Z.to_nat n - length b)%nat.

(** array element access *)
Definition aget {A} (l : list A) (i : nat) : outcome A :=
  match nth_error l i with Some a => Ret a | None => UB OutOfBounds end.

Fixpoint set_nth {A} (l : list A) (i : nat) (x : A) : list A :=
  match l, i with
  | [], _ => []
  | _ :: r, O => x :: r
  | y :: r, S j => y :: set_nth r j x
  end.

Definition aset {A} (l : list A) (i : nat) (x : A) : outcome (list A) :=
  if (i <? length l)%nat then Ret (set_nth l i x) else UB OutOfBounds.

(** reading a C string out of a block, up to the terminator *)
Fixpoint read_cstr (b : buf) : outcome str :=
  match b with
  | [] => UB OutOfBounds
  | None :: _ => UB Uninit
  | Some c :: r => if c =? 0 then Ret [] else do s <- read_cstr r; Ret (c :: s)
  end.

(** memcmp(b, v, n) == 0: both blocks must have n bytes (C 7.24.1); the comparison must not
    depend on an uninitialised byte *)
Fixpoint memcmp_go (b v : buf) : outcome bool :=
  match b, v with
  | Some x :: b', Some y :: v' => if x =? y then memcmp_go b' v' else Ret false
  | [], _ => Ret true
  | _, [] => Ret true
  | _, _ => UB Uninit
  end.
Definition memcmp_eq (b v : buf) (n : Z) : outcome bool :=
  if (n <=? zlen b) && (n <=? zlen v) then memcmp_go (zfirstn n b) (zfirstn n v)
  else UB OutOfBounds.

(** o_strcasecmp(b, s) == 0 where b points to a block read byte by byte *)
Fixpoint strcasecmp_block (b : buf) (s : str) : outcome bool :=
  match b with
  | [] => UB OutOfBounds
  | None :: _ => UB Uninit
  | Some c :: r =>
      match s with
      | [] => Ret (c =? 0)
      | x :: s' => if (c =? 0) then Ret false
                   else if lower c =? lower x then strcasecmp_block r s' else Ret false
      end
  end.

(** return codes, include/ulfius.h:110-117 *)
Definition U_OK := 0.
Definition U_ERROR := 1.
Definition U_ERROR_MEMORY := 2.
Definition U_ERROR_PARAMS := 3.
Definition U_ERROR_LIBMHD := 4.
Definition U_ERROR_LIBCURL := 5.
Definition U_ERROR_NOT_FOUND := 6.
Definition U_ERROR_DISCONNECTED := 7.
