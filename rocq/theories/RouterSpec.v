(** Specification vocabulary for routing: path segments, patterns, selected endpoints, values
    of path parameters. *)
From Coq Require Import ZArith Bool List Sorted Permutation.
From Verif Require Import Base RouterModel SMap.
Import ListNotations.
Open Scope Z_scope.

(** [segs s ws]: [ws] are the non-empty '/'-separated segments of the path [s] *)
Inductive segs : str -> list str -> Prop :=
| segs_nil : segs [] []
| segs_slash : forall s ws, segs s ws -> segs (47 :: s) ws
| segs_word : forall w s ws, w <> [] -> ~ In 47 w -> (s = [] \/ exists r, s = 47 :: r) ->
    segs s ws -> segs (w ++ s) (w :: ws).

Definition osegs (o : option str) (ws : list str) : Prop :=
  match o with Some s => segs s ws | None => ws = [] end.

(** segments of a pattern that start with '?' are not part of it *)
Inductive drop_query : list str -> list str -> Prop :=
| dq_nil : drop_query [] []
| dq_skip : forall w r o, drop_query r o -> drop_query ((63 :: w) :: r) o
| dq_keep : forall w r o, (forall x, w <> 63 :: x) -> drop_query r o -> drop_query (w :: r) (w :: o).

(** the pattern of an endpoint: segments of the prefix, then those of the format *)
Definition pattern (e : endpoint) (p : list str) : Prop :=
  exists a b c, osegs (url_prefix e) a /\ osegs (url_format e) b /\ drop_query b c /\ p = a ++ c.

Inductive pmatch : list str -> list str -> Prop :=
| pm_end : pmatch [] []
| pm_star : forall x u, pmatch [42 :: x] u
| pm_param : forall c n p w u, c = 64 \/ c = 58 -> pmatch p u -> pmatch ((c :: n) :: p) (w :: u)
| pm_lit : forall w p u, pmatch p u -> pmatch (w :: p) (w :: u).

(** endpoint [e] is meant to answer [method] [url] *)
Definition selected (method url : str) (e : endpoint) : Prop :=
  (exists m, http_method e = Some m /\ (lowers m = lowers method \/ exists x, m = 42 :: x)) /\
  exists p u, pattern e p /\ segs url u /\ pmatch p u.

(** a registered endpoint: not the terminating empty one, method set *)
Definition registered (e : endpoint) : Prop := http_method e <> None.

(** what is assumed of qsort *)
Definition sorts (qsort : list endpoint -> list endpoint) : Prop :=
  forall l, Permutation l (qsort l) /\ StronglySorted prio_le (qsort l).

(** values bound to [name]: the texts of the url segments facing '@name' or ':name' *)
Section Values.
Variable text : str -> str.
Variable ok : str -> bool.
Fixpoint bound (name : str) (fw uw : list str) : list str :=
  match fw, uw with
  | f :: fr, u :: ur =>
      if (str_eqb f (64 :: name) || str_eqb f (58 :: name)) && ok (text u)
      then text u :: bound name fr ur else bound name fr ur
  | _, _ => []
  end.
End Values.

Fixpoint join (l : list str) : str :=
  match l with
  | [] => []
  | [x] => x
  | x :: r => x ++ [44] ++ join r
  end.
(** comma-joined; absent if there is no value *)
Definition joined (l : list str) : option (option str) :=
  match l with [] => None | _ => Some (Some (join l)) end.
Definition old_values (o : option (option str)) : list str :=
  match o with Some (Some v) => [v] | _ => [] end.

(** the endpoint table invariant (C19): the registered endpoints, then one empty endpoint *)
Definition table_ok (u : instance) (es : list endpoint) : Prop :=
  Forall registered es /\ nb_endpoints u = length es /\
  match endpoint_list u with
  | Some arr => arr = map Some es ++ [Some empty_endpoint]
  | None => es = []
  end.

(** [trims s t]: [t] is [s] without its leading and trailing slashes *)
Definition trims (s t : str) : Prop :=
  exists a b, s = a ++ t ++ b /\ Forall (eq 47) a /\ Forall (eq 47) b /\
    (forall r, t <> 47 :: r) /\ (forall r, t <> r ++ [47]).
Definition otrims (s t : option str) : Prop :=
  match s, t with Some x, Some y => trims x y | None, None => True | _, _ => False end.

(** same method, same prefix and format up to leading and trailing slashes *)
Definition same_route (t e : endpoint) : Prop :=
  http_method e = http_method t /\
  (exists p, otrims (url_prefix e) p /\ otrims (url_prefix t) p) /\
  (exists f, otrims (url_format e) f /\ otrims (url_format t) f).

(** histories of table operations (C19) *)
Inductive eop := EAdd (e : endpoint) | EAddList (l : list endpoint) | ERemove (t : endpoint).

Definition eop_step (u : instance) (o : eop) : outcome (Z * instance) :=
  match o with
  | EAdd e => add_endpoint u e
  | EAddList l => add_endpoint_list u (map Some l ++ [Some empty_endpoint])
  | ERemove t => remove_endpoint u t
  end.
Fixpoint eop_run (u : instance) (ops : list eop) : outcome instance :=
  match ops with
  | [] => Ret u
  | o :: r => do x <- eop_step u o; eop_run (snd x) r
  end.

(** an endpoint the user may register: method, callback and a path given *)
Definition complete (e : endpoint) : Prop :=
  http_method e <> None /\ callback e <> None /\ (url_prefix e <> None \/ url_format e <> None).

(** what the operations mean for the list of registered endpoints *)
Inductive eop_means : list endpoint -> eop -> list endpoint -> Prop :=
| em_add : forall es e, complete e -> eop_means es (EAdd e) (es ++ [e])
| em_add_bad : forall es e, ~ complete e -> eop_means es (EAdd e) es
| em_add_list : forall es a b, Forall complete a -> (b = [] \/ exists x r, b = x :: r /\ ~ complete x) ->
    eop_means es (EAddList (a ++ b)) (es ++ a)
| em_remove_bad : forall es t,
    http_method t = None \/ (url_prefix t = None /\ url_format t = None) -> eop_means es (ERemove t) es
| em_remove : forall es t es' (p : endpoint -> bool),
    ~ (http_method t = None \/ (url_prefix t = None /\ url_format t = None)) ->
    (forall e, p e = true <-> same_route t e) -> es' = filter (fun e => negb (p e)) es ->
    eop_means es (ERemove t) es'.

Inductive eops_mean : list endpoint -> list eop -> list endpoint -> Prop :=
| ems_nil : forall es, eops_mean es [] es
| ems_cons : forall es o es1 r es2, eop_means es o es1 -> eops_mean es1 r es2 -> eops_mean es (o :: r) es2.

(** [o] never passes the empty endpoint where an endpoint is expected *)
Definition not_empty_ep (e : endpoint) : Prop :=
  http_method e <> None \/ url_prefix e <> None \/ url_format e <> None.
Definition eop_ok (o : eop) : Prop :=
  match o with EAdd e => not_empty_ep e | EAddList l => Forall not_empty_ep l | ERemove _ => True end.
