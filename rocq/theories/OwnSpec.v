(** Specification vocabulary for the memory of endpoints: a server that changes its table while
    requests are served, what each request sees, and the blocks in use. *)
From Coq Require Import ZArith Bool List Sorted Permutation.
From Verif Require Import Base RouterModel RouterSpec OwnModel.
Import ListNotations.
Open Scope Z_scope.

(** what happens to a server: the table is changed, the default endpoint is set, a request begins
    (its endpoints are selected and copied), the [i]-th request being served ends *)
Inductive hop := Table (o : eop) | Default (cb data : Z) | Begin (method url : str) | End (i : nat).

Record server := mk_server { s_heap : heap; s_inst : hinst; s_open : list copies }.
Definition new_server : server := mk_server (mk_heap 0 []) (mk_hinst None 0 None) [].

Definition remove_nth {A} (i : nat) (l : list A) : list A := firstn i l ++ skipn (Datatypes.S i) l.

Section Run.
Variable order : list (nat * hep) -> list (nat * hep).
Definition hstep (s : server) (o : hop) : outcome server :=
  match o with
  | Table (EAdd e) =>
      do x <- h_add (s_heap s) (s_inst s) e; Ret (mk_server (fst (snd x)) (snd (snd x)) (s_open s))
  | Table (EAddList l) =>
      do x <- h_add_list (s_heap s) (s_inst s) (map Some l ++ [Some empty_endpoint]);
      Ret (mk_server (fst (snd x)) (snd (snd x)) (s_open s))
  | Table (ERemove t) =>
      do x <- h_remove (s_heap s) (s_inst s) t; Ret (mk_server (fst (snd x)) (snd (snd x)) (s_open s))
  | Default cb d =>
      let '(h, u) := h_set_default (s_heap s) (s_inst s) cb d in Ret (mk_server h u (s_open s))
  | Begin m u =>
      do x <- h_match order (s_heap s) (s_inst s) m u; Ret (mk_server (fst x) (s_inst s) (s_open s ++ [snd x]))
  | End i =>
      match nth_error (s_open s) i with
      | None => Ret s
      | Some q => do h <- h_release (s_heap s) q; Ret (mk_server h (s_inst s) (remove_nth i (s_open s)))
      end
  end.
Fixpoint hrun (s : server) (l : list hop) : outcome server :=
  match l with [] => Ret s | o :: r => do s1 <- hstep s o; hrun s1 r end.
End Run.

(** the end of the server: ulfius_clean_instance once every request is over *)
Definition shut (s : server) : outcome server :=
  do x <- h_clean (s_heap s) (s_inst s); Ret (mk_server (fst x) (snd x) (s_open s)).

(** ** What all of this means, without memory *)
Record meaning := mk_meaning { m_table : list endpoint; m_default : option endpoint; m_open : list (list endpoint) }.

(** the endpoints a request is given: those selected by method and path, by priority; the default
    endpoint alone when there is none *)
Definition given (es : list endpoint) (d : option endpoint) (method url : str) (l : list endpoint) : Prop :=
  exists p l0, (forall e, p e = true <-> selected method url e) /\
    Permutation (filter p es) l0 /\ StronglySorted prio_le l0 /\
    l = match l0, d with [], Some e => [e] | _, _ => l0 end.

Inductive hmeans : meaning -> hop -> meaning -> Prop :=
| hm_table : forall es d q o es', eop_means es o es' -> hmeans (mk_meaning es d q) (Table o) (mk_meaning es' d q)
| hm_default : forall es d q cb x,
    hmeans (mk_meaning es d q) (Default cb x) (mk_meaning es (Some (mk_ep None None None 0 (Some cb) x)) q)
| hm_begin : forall es d q m u l, given es d m u l ->
    hmeans (mk_meaning es d q) (Begin m u) (mk_meaning es d (q ++ [l]))
| hm_end : forall es d q i, hmeans (mk_meaning es d q) (End i) (mk_meaning es d (remove_nth i q)).
Inductive hmeans_all : meaning -> list hop -> meaning -> Prop :=
| hma_nil : forall m, hmeans_all m [] m
| hma_cons : forall m o m1 r m2, hmeans m o m1 -> hmeans_all m1 r m2 -> hmeans_all m (o :: r) m2.

(** ** What the memory shows: every text is read through its pointer *)
Fixpoint read_slots (h : heap) (arr : list (option hep)) : outcome (list endpoint) :=
  match arr with
  | [] => UB OutOfBounds
  | None :: _ => UB Uninit
  | Some x :: r =>
      do e <- e_read h x;
      if equals_endpoints e empty_endpoint then Ret []
      else do t <- read_slots h r; Ret (e :: t)
  end.
Definition read_table (h : heap) (u : hinst) : outcome (list endpoint) :=
  match h_list u with None => Ret [] | Some (i, arr) => do _ <- h_use h i; read_slots h arr end.
Definition read_default (h : heap) (u : hinst) : outcome (option endpoint) :=
  match h_default u with None => Ret None | Some (i, e) => do _ <- h_use h i; Ret (Some e) end.
Fixpoint read_open (h : heap) (l : list copies) : outcome (list (list endpoint)) :=
  match l with
  | [] => Ret []
  | (i, c) :: r => do _ <- h_use h i; do x <- read_copies h c; do t <- read_open h r; Ret (x :: t)
  end.
Definition read_server (s : server) : outcome meaning :=
  do es <- read_table (s_heap s) (s_inst s); do d <- read_default (s_heap s) (s_inst s);
  do q <- read_open (s_heap s) (s_open s); Ret (mk_meaning es d q).

(** ** The blocks reachable from the structures of the server *)
Definition text_blocks (t : text) : list nat := match t with Some (i, _) => [i] | None => [] end.
Definition ep_blocks (e : hep) : list nat := text_blocks (h_method e) ++ text_blocks (h_prefix e) ++ text_blocks (h_format e).
Definition slot_blocks (o : option hep) : list nat := match o with Some e => ep_blocks e | None => [] end.
Definition table_blocks (u : hinst) : list nat :=
  match h_list u with Some (i, arr) => i :: flat_map slot_blocks arr | None => [] end.
Definition default_blocks (u : hinst) : list nat := match h_default u with Some (i, _) => [i] | None => [] end.
Definition copies_blocks (q : copies) : list nat := fst q :: flat_map (fun x => fst x :: ep_blocks (snd x)) (snd q).
Definition reachable (s : server) : list nat :=
  table_blocks (s_inst s) ++ default_blocks (s_inst s) ++ flat_map copies_blocks (s_open s).

Definition hop_ok (o : hop) : Prop := match o with Table o => eop_ok o | _ => True end.

(** what is assumed of qsort on the pointers *)
Definition orders (order : list (nat * hep) -> list (nat * hep)) : Prop :=
  forall l, Permutation l (order l) /\ StronglySorted (fun a b => h_prio (snd a) <= h_prio (snd b)) (order l).
