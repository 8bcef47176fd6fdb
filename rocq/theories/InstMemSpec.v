(** Specification vocabulary for the life of an instance with failing allocations (C113): a program that initialises an instance, changes its
    endpoints, its default endpoint and its default headers, and cleans it; what its calls mean, and what the memory shows. *)
From Coq Require Import String ZArith Bool List.
From Verif Require Import Base RouterModel RouterSpec OwnModel OwnSpec MapMemModel MapMemSpec RespMemModel InstMemModel.
Import ListNotations.
Open Scope Z_scope.

(** ** The program. Every call has its own answers to o_malloc and o_strdup: [o_new] in order, and apart [o_table], the answer to the
    allocation of the array of endpoints, which is asked for only when there is none. o_realloc succeeds. *)
Inductive iop := IAdd (e : endpoint) | IRemove (t : endpoint) | IDefault (cb data : Z) | IHeader (key value : str).
Record order := mk_order { o_op : iop; o_table : bool; o_new : list bool }.
Record life := mk_life { l_realm : option str; l_locks : locks; l_new : list bool; l_orders : list order }.

(** what an instance holds; [n_array]: the array of endpoints exists; [n_headers] is None when the map has no arrays *)
Record imean := mk_imean { n_realm : option str; n_array : bool; n_table : list endpoint; n_default : option endpoint; n_headers : option amap }.

Definition asked (m : mem) (l : list bool) : mem := mk_mem (m_heap m) l [].
Definition icall (m : mem) (u : minst) (o : order) : outcome (Z * (mem * minst)) :=
  match o_op o with
  | IAdd e => x_add (asked m (match i_table u with None => o_table o :: o_new o | Some _ => o_new o end)) u e
  | IRemove t => x_remove (asked m (o_new o)) u t
  | IDefault cb d => x_set_default (asked m (o_new o)) u cb d
  | IHeader k v => x_set_header (asked m (o_new o)) u k v
  end.
(** ** What the memory shows, every text being read through its pointer *)
Definition view (m : mem) (u : minst) : outcome imean :=
  do r <- x_str m (i_realm u);
  do es <- (match i_table u with None => Ret [] | Some _ => do x <- x_deref m (i_table u); read_slots (m_heap m) (snd x) end);
  do d <- (match i_default u with None => Ret None | Some _ => do x <- x_deref m (i_default u); Ret (Some (snd x)) end);
  do f <- x_deref m (i_headers u);
  do a <- (match f_keys (snd f) with None => Ret None | Some _ => do a <- read_map m (snd f); Ret (Some a) end);
  Ret (mk_imean r (match i_table u with None => false | Some _ => true end) es d a).
(** the calls, each with its result and what the instance holds after it *)
Fixpoint iruns (m : mem) (u : minst) (l : list order) : outcome (list (Z * imean) * (mem * minst)) :=
  match l with
  | [] => Ret ([], (m, u))
  | o :: r =>
      do x <- icall m u o; do v <- view (fst (snd x)) (snd (snd x));
      do y <- iruns (fst (snd x)) (snd (snd x)) r; Ret ((fst x, v) :: fst y, snd y)
  end.
(** a life: when the initialisation fails the program gives up; otherwise its last call is ulfius_clean_instance *)
Definition lrun (m : mem) (l : life) : outcome ((Z * list (Z * imean)) * mem) :=
  do x <- x_init_inst (asked m (l_new l)) (l_realm l) (l_locks l);
  let '(z, (m1, u)) := x in
  if z =? U_OK then
    do v <- view m1 u;
    do y <- iruns m1 u (l_orders l);
    do c <- x_clean_inst (fst (snd y)) (snd (snd y));
    Ret ((U_OK, (U_OK, v) :: fst y), fst c)
  else Ret ((z, []), m1).
Fixpoint lruns (m : mem) (l : list life) : outcome (list (Z * list (Z * imean)) * mem) :=
  match l with [] => Ret ([], m) | x :: r => do a <- lrun m x; do b <- lruns (snd a) r; Ret (fst a :: fst b, snd b) end.

(** ** What the calls mean, without memory *)
(** a text that is copied, and the answers that are left *)
Definition kept (t : option str) (l : list bool) : option str * list bool :=
  match t with None => (None, l) | Some s => (if hd true l then Some s else None, tl l) end.
(** the endpoint as it can be copied: the texts without memory are NULL *)
Definition copied (e : endpoint) (l : list bool) : endpoint :=
  let a := kept (http_method e) l in let b := kept (url_prefix e) (snd a) in let c := kept (url_format e) (snd b) in
  mk_ep (fst a) (fst b) (fst c) (priority e) (callback e) (user_data e).
(** [es'] is [es] without some endpoints that may go, and without those that must go *)
Inductive drops (may must : endpoint -> Prop) : list endpoint -> list endpoint -> Prop :=
| dr_nil : drops may must [] []
| dr_keep : forall e es es', ~ must e -> drops may must es es' -> drops may must (e :: es) (e :: es')
| dr_drop : forall e es es', may e -> drops may must es es' -> drops may must (e :: es) es'.
Definition set_table (s : imean) (es : list endpoint) : imean := mk_imean (n_realm s) true es (n_default s) (n_headers s).
Definition removable (t : endpoint) : Prop := http_method t <> None /\ (url_prefix t <> None \/ url_format t <> None).
Inductive imeans (s : imean) : order -> Z * imean -> Prop :=
| im_add : forall e b l, complete e -> n_array s = true \/ b = true -> imeans s (mk_order (IAdd e) b l) (U_OK, set_table s (n_table s ++ [copied e l]))
| im_add_short : forall e l, complete e -> n_array s = false -> imeans s (mk_order (IAdd e) false l) (U_ERROR_MEMORY, s)
| im_add_bad : forall e b l, ~ complete e -> imeans s (mk_order (IAdd e) b l) (U_ERROR_PARAMS, s)
| im_remove_bad : forall t b l, ~ removable t -> imeans s (mk_order (IRemove t) b l) (U_ERROR_PARAMS, s)
| im_remove : forall t b l es', removable t ->
    drops (fun e => same_route t e \/ (In false l /\ http_method e = http_method t)) (fun e => same_route t e /\ ~ In false l) (n_table s) es' ->
    imeans s (mk_order (IRemove t) b l)
      (if (List.length es' <? List.length (n_table s))%nat then U_OK else U_ERROR_NOT_FOUND, mk_imean (n_realm s) (n_array s) es' (n_default s) (n_headers s))
| im_default : forall cb d b l, n_default s <> None \/ hd true l = true ->
    imeans s (mk_order (IDefault cb d) b l) (U_OK, mk_imean (n_realm s) (n_array s) (n_table s) (Some (mk_ep None None None 0 (Some cb) d)) (n_headers s))
| im_default_short : forall cb d b l, n_default s = None -> hd true l = false -> imeans s (mk_order (IDefault cb d) b l) (U_ERROR_MEMORY, s)
| im_header : forall k v b l a, k <> [] -> n_headers s = Some a ->
    imeans s (mk_order (IHeader k v) b l) (U_OK, mk_imean (n_realm s) (n_array s) (n_table s) (n_default s) (Some (a_put k (Some v) a)))
| im_header_short : forall k v b l, k <> [] -> In false l -> imeans s (mk_order (IHeader k v) b l) (U_ERROR_MEMORY, s)
| im_header_bad : forall v b l, imeans s (mk_order (IHeader [] v) b l) (U_ERROR_PARAMS, s).
Inductive imeans_all : imean -> list order -> list (Z * imean) -> Prop :=
| ima_nil : forall s, imeans_all s [] []
| ima_cons : forall s o z s1 r l, imeans s o (z, s1) -> imeans_all s1 r l -> imeans_all s (o :: r) ((z, s1) :: l).
Definition locked (k : locks) : Prop := k_active k = true /\ k_close k = true /\ k_cond k = true.
Inductive lmeans (l : life) : Z * list (Z * imean) -> Prop :=
| lm_ok : forall h r, locked (l_locks l) -> h = Some [] \/ (h = None /\ In false (l_new l)) ->
    imeans_all (mk_imean (fst (kept (l_realm l) (l_new l))) false [] None h) (l_orders l) r ->
    lmeans l (U_OK, (U_OK, mk_imean (fst (kept (l_realm l) (l_new l))) false [] None h) :: r)
| lm_failed : In false (l_new l) \/ ~ locked (l_locks l) -> lmeans l (U_ERROR_MEMORY, []).

(** ** What is asked of the program and of the system. The texts fit; the empty endpoint is not added; of an endpoint that is added, the
    method can be copied and so can the prefix or the format; the headers are set only if the map could be initialised; the first mutex can be. *)
Definition order_ok (max : Z) (o : order) : Prop :=
  match o_op o with
  | IAdd e => not_empty_ep e /\ (complete e -> complete (copied e (o_new o)))
  | IHeader _ v => cstr v /\ zlen v + 1 <= max
  | _ => True
  end.
Definition is_header (o : iop) : Prop := match o with IHeader _ _ => True | _ => False end.
Definition life_ok (max : Z) (l : life) : Prop :=
  k_active (l_locks l) = true /\ Forall (order_ok max) (l_orders l) /\
  (In false (l_new l) -> Forall (fun o => ~ is_header (o_op o)) (l_orders l)).
(** the locks that stay initialised: those of a life in which one cannot be *)
Definition stuck (k : locks) : nat := if k_close k then if k_cond k then 0 else 2 else 1.
Definition start_mem : mem := mk_mem (mk_heap 0 []) [] [].
