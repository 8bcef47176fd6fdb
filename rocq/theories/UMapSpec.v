(** Specification vocabulary for u_map: abstract dictionaries, the layout of the arrays,
    histories of calls. *)
From Coq Require Import ZArith Bool List.
From Verif Require Import Base UMapModel.
Import ListNotations.
Open Scope Z_scope.

(** ** Dictionaries of C strings (C01, C09)
    [d k = None]: k absent; [Some None]: present with value NULL; [Some (Some v)]: value v.
    Does not mention the model. *)
Definition dict := str -> option (option str).
Definition d_empty : dict := fun _ => None.
Definition d_set (d : dict) (k : str) (v : option str) : dict :=
  fun x => if str_eqb x k then Some v else d x.
Definition d_remove (d : dict) (k : str) : dict :=
  fun x => if str_eqb x k then None else d x.

(** the calls of C01 *)
Inductive dop :=
| DPut (k : str) (v : option str)
| DRemove (k : str)
| DEmpty.

(** what they mean for a dictionary; putting under the empty key is refused *)
Definition d_step (d : dict) (o : dop) : dict :=
  match o with
  | DPut [] _ => d
  | DPut k v => d_set d k v
  | DRemove k => d_remove d k
  | DEmpty => d_empty
  end.
Definition d_run (ops : list dop) : dict := fold_left d_step ops d_empty.

(** a value argument is NULL or a C string small enough to exist in memory *)
Definition ovalue_ok (v : option str) : Prop :=
  match v with None => True | Some s => cstr s /\ zlen s + 2 < two64 end.
Definition dop_ok (o : dop) : Prop :=
  match o with DPut _ v => ovalue_ok v | _ => True end.

(** the same calls on the C structure *)
Definition m_step (m : umap) (o : dop) : outcome umap :=
  match o with
  | DPut k v => do p <- u_map_put m (Some k) v; Ret (snd p)
  | DRemove k => do p <- u_map_remove_from_key m (Some k); Ret (snd p)
  | DEmpty => Ret (u_map_empty m)
  end.
Fixpoint m_run (ops : list dop) (m : umap) : outcome umap :=
  match ops with
  | [] => Ret m
  | o :: r => do m' <- m_step m o; m_run r m'
  end.

(** ** Layout (C05, C06, C08): the three arrays are parallel and NULL-terminated *)
Record entry := mk_entry { ek : str; eb : buf; el : Z }.

Definition layout (m : umap) (es : list entry) : Prop :=
  keys m = map (fun e => Some (ek e)) es ++ [None] /\
  values m = map (fun e => Some (eb e)) es ++ [None] /\
  lengths m = map el es ++ [0] /\
  nb_values m = length es.

(** the bytes of a value *)
Definition evalue (e : entry) : buf := zfirstn (el e) (eb e).

(** every block holds its value and a terminating NUL, and nothing else *)
Definition entry_ok (e : entry) : Prop :=
  ek e <> [] /\ 0 <= el e /\ el e + 1 < two64 /\ eb e = evalue e ++ [Some 0] /\ zlen (eb e) = el e + 1.

Definition entries_ok (es : list entry) : Prop :=
  Forall entry_ok es /\ NoDup (map ek es).

Definition written (b : buf) : Prop := Forall (fun o => o <> None) b.
Definition entries_written (es : list entry) : Prop := Forall (fun e => written (eb e)) es.

(** ** Histories of all calls that change a map
    [put_binary_ok]: the caller's block has [len] bytes, the sum of offset, length and 1 does
    not wrap, and a NULL value comes with offset and length 0. *)
Definition put_binary_ok (v : option buf) (off len : Z) : Prop :=
  0 <= off /\ 0 <= len /\ off + len + 1 < two64 /\
  match v with Some b => len <= zlen b | None => off + len = 0 end.

(** no gap: the offset is not beyond the current end and the caller's bytes are initialised *)
Definition no_gap (m : umap) (k : option str) (v : option buf) (off len : Z) : Prop :=
  (exists l, u_map_get_length m k = Ret l /\ off <= Z.max 0 l) /\
  match v with Some b => written (zfirstn len b) | None => True end.

(** the C strings stored in [m] are small enough for one more byte (always so in practice) *)
Definition sizes_ok (m : umap) : Prop := Forall (fun l => l + 2 < two64) (lengths m).

(** [reachable false]: maps built by any history of admissible calls without gaps;
    [reachable true]: gaps (never-written bytes inside a value) allowed. *)
Inductive reachable (gaps : bool) : umap -> Prop :=
| r_init : reachable gaps u_map_init
| r_put : forall m k v c m', reachable gaps m -> ovalue_ok v ->
    u_map_put m k v = Ret (c, m') -> reachable gaps m'
| r_put_binary : forall m k v off len c m', reachable gaps m -> put_binary_ok v off len ->
    (gaps = false -> no_gap m k v off len) ->
    u_map_put_binary m k v off len = Ret (c, m') -> reachable gaps m'
| r_remove_at : forall m i c m', reachable gaps m ->
    u_map_remove_at m i = Ret (c, m') -> reachable gaps m'
| r_remove_key : forall m k c m', reachable gaps m ->
    u_map_remove_from_key m k = Ret (c, m') -> reachable gaps m'
| r_remove_key_case : forall m k c m', reachable gaps m ->
    u_map_remove_from_key_case m k = Ret (c, m') -> reachable gaps m'
| r_remove_value : forall m v len c m', reachable gaps m ->
    u_map_remove_from_value_binary m v len = Ret (c, m') -> reachable gaps m'
| r_remove_value_case : forall m v c m', reachable gaps m ->
    u_map_remove_from_value_case m v = Ret (c, m') -> reachable gaps m'
| r_empty : forall m, reachable gaps m -> reachable gaps (u_map_empty m)
| r_copy : forall m m', reachable gaps m -> u_map_copy m = Ret (Some m') -> reachable gaps m'
| r_copy_into : forall d s c d', reachable gaps d -> reachable gaps s -> sizes_ok s ->
    u_map_copy_into d s = Ret (c, d') -> reachable gaps d'.

(** memory-safe outcomes: nothing outside a block is touched *)
Definition in_bounds {A} (o : outcome A) : Prop :=
  match o with Ret _ => True | UB Uninit => True | UB _ => False end.
Definition defined {A} (o : outcome A) : Prop :=
  match o with Ret _ => True | UB _ => False end.
