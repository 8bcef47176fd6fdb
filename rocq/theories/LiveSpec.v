(** Specification vocabulary for endpoints that are added and removed while requests are served (C114). *)
From Coq Require Import ZArith Bool List.
From Verif Require Import Base RouterModel RouterSpec OwnModel OwnSpec.
From Verif Require Import LiveModel.
Import ListNotations.
Open Scope Z_scope.

(** ** What it means: a change is made at once, a request is given its endpoints at once *)
Record meaning := mk_meaning { m_table : list endpoint; m_default : option endpoint; m_order : option change; m_calls : list (str * str * option (list endpoint)) }.
Inductive makes : list endpoint -> option endpoint -> change -> list endpoint -> option endpoint -> Prop :=
| mk_add : forall es d e es', eop_means es (EAdd e) es' -> makes es d (Add e) es' d
| mk_drop : forall es d t es', eop_means es (ERemove t) es' -> makes es d (Drop t) es' d
| mk_fall : forall es d cb x, makes es d (Fall cb x) es (Some (mk_ep None None None 0 (Some cb) x)).
Inductive a_act : meaning -> action -> meaning -> Prop :=
| aa_come : forall es d o q m u, a_act (mk_meaning es d o q) (Come m u) (mk_meaning es d o (q ++ [(m, u, None)]))
| aa_wait : forall s r, a_act s (Step r) s
| aa_given : forall es d o q r m u l, nth_error q r = Some (m, u, None) -> given es d m u l ->
    a_act (mk_meaning es d o q) (Step r) (mk_meaning es d o (set_nth q r (m, u, Some l)))
| aa_order : forall es d o q, a_act (mk_meaning es d None q) (Order o) (mk_meaning es d (Some o) q)
| aa_busy : forall es d o o' q, a_act (mk_meaning es d (Some o) q) (Order o') (mk_meaning es d (Some o) q)
| aa_work : forall s moves, a_act s (Work moves) s
| aa_made : forall es d o es' d' q moves, makes es d o es' d' -> a_act (mk_meaning es d (Some o) q) (Work moves) (mk_meaning es' d' None q).
Inductive a_run : meaning -> list action -> meaning -> Prop :=
| ar_nil : forall s, a_run s [] s
| ar_cons : forall s a s1 l s2, a_act s a s1 -> a_run s1 l s2 -> a_run s (a :: l) s2.

(** a request as it is seen from outside *)
Definition answer (c : call) : str * str * option (list endpoint) := (c_method c, c_url c, match c_stage c with Running l => Some l | _ => None end).

(** ** Executions in which the table does not change while a request looks at it *)
Definition looking (g : stage) : bool := match g with Arrived | Running _ => false | _ => true end.
Definition changing (k : task) : bool := match k with Idle | Begin _ => false | _ => true end.
Definition apart (s : live) (a : action) : Prop :=
  match a with
  | Work _ => l_task s <> Idle -> forall c, In c (l_calls s) -> looking (c_stage c) = false
  | Step r => match nth_error (l_calls s) r with Some c => c_stage c = Arrived -> changing (l_task s) = false | None => True end
  | _ => True
  end.
Fixpoint apart_all (qsort : list endpoint -> list endpoint) (s : live) (l : list action) : Prop :=
  match l with
  | [] => True
  | a :: r => apart s a /\ match act qsort s a with Ret s1 => apart_all qsort s1 r | UB _ => True end
  end.

(** an endpoint that is added is not the empty one, which ends the table (C19) *)
Definition action_ok (a : action) : Prop := match a with Order (Add e) => not_empty_ep e | _ => True end.

(** what the instance holds *)
Definition shared_blocks (u : shared) : list nat :=
  match t_list u with Some (i, arr) => i :: flat_map slot_blocks arr | None => [] end ++ match t_default u with Some (i, _) => [i] | None => [] end.
(** the table as a reader finds it *)
Definition shown (s : live) : outcome (list endpoint) :=
  match t_list (l_shared s) with None => Ret [] | Some (i, arr) => do _ <- h_use (l_heap s) i; read_slots (l_heap s) arr end.
