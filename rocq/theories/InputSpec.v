(** What the request structure should contain (C18, C26, C27). *)
From Coq Require Import ZArith Bool List.
From Verif Require Import Base UMapModel UMapSpec Utf8Spec.
Import ListNotations.
Open Scope Z_scope.

(** a pair that is not left out *)
Definition pair_kept (check : bool) (k : str) (v : option str) : Prop :=
  check = false \/ (utf8_text k /\ match v with Some s => utf8_text s | None => True end).

(** [vals check pairs k l]: the values sent for [k], in order; no value counts as empty *)
Inductive vals (check : bool) : list (option str * option str) -> str -> list str -> Prop :=
| v_nil : forall k, vals check [] k []
| v_take : forall k v r l, pair_kept check k v -> vals check r k l ->
    vals check ((Some k, v) :: r) k (match v with Some s => s | None => [] end :: l)
| v_drop : forall k v r l, ~ pair_kept check k v -> vals check r k l -> vals check ((Some k, v) :: r) k l
| v_other : forall k k' v r l, k' <> k -> vals check r k l -> vals check ((Some k', v) :: r) k l.

(** pairs libmicrohttpd may deliver: keys are non-empty C strings, values C strings or NULL *)
Definition pair_ok (p : option str * option str) : Prop :=
  (exists k, fst p = Some k /\ cstr k /\ k <> []) /\ match snd p with Some v => cstr v | None => True end.
Definition pairs_weight (l : list (option str * option str)) : Z :=
  fold_right (fun p n => match snd p with Some v => zlen v | None => 0 end + 1 + n) 0 l.

(** the part of a value that a size limit lets through; 0 = no limit *)
Definition limited (max : Z) (v : list Z) : list Z := if max =? 0 then v else zfirstn max v.

(** [m] holds the bytes [v] under [k]; absent counts as empty *)
Definition holds (m : umap) (k : str) (v : list Z) : Prop :=
  exists es, layout m es /\
  match find (fun e => str_eqb (ek e) k) es with
  | Some e => eb e = block_of v ++ [Some 0] /\ el e = zlen v
  | None => v = []
  end.

(** a repeated parameter is joined with a comma, unless there is nothing yet *)
Definition appended (old v : list Z) : list Z := match old with [] => v | _ => old ++ [44] ++ v end.

(** how libmicrohttpd splits a value: non-empty pieces, or one empty piece for an empty value *)
Definition split_of (v : list Z) (pieces : list (list Z)) : Prop :=
  concat pieces = v /\ pieces <> [] /\ (Forall (fun p => p <> []) pieces \/ pieces = [[]]).

(** what a form, given as (name, value) pairs, leaves under [k] *)
Fixpoint form_value (max : Z) (old : list Z) (form : list (str * list Z)) (k : str) : list Z :=
  match form with
  | [] => old
  | (n, v) :: r => form_value max (if str_eqb n k then appended old (limited max v) else old) r k
  end.
Definition form_weight (form : list (str * list Z)) : Z := fold_right (fun p n => zlen (snd p) + 1 + n) 0 form.

(** [params] is the form split in pieces, without file names *)
Definition form_split (form : list (str * list Z)) (params : list (str * option str * list (list Z))) : Prop :=
  Forall2 (fun p q => exists pieces, q = (fst p, None, pieces) /\ fst p <> [] /\ split_of (snd p) pieces) form params.
