(** C114: endpoints may be added and removed during the execution of the instance. *)
From Coq Require Import String ZArith Bool List Lia.
From Verif Require Import Base UMapModel RouterModel RouterSpec RouterProps OwnModel OwnSpec OwnProofs.
From Verif Require Import LiveModel LiveSpec LiveProofs.
Import ListNotations.
Open Scope Z_scope.

(** C114, partial. In every interleaving in which the table is not changed while a request looks at it, nothing goes wrong, every request is
    given its endpoints as if the changes were made at once, and the instance holds its table and nothing else.
    Missing: the interleavings in which a change meets a request in the table; the theorems below show what happens then. *)
Theorem C114_apart_partial : forall qsort acts, sorts qsort -> Forall action_ok acts -> apart_all qsort opened acts ->
  exists s g, run qsort opened acts = Ret s /\ a_run (mk_meaning [] None None []) acts g /\ m_calls g = map answer (l_calls s) /\
    (m_order g = None <-> l_task s = Idle) /\
    (l_task s = Idle -> shown s = Ret (m_table g) /\ NoDup (shared_blocks (l_shared s)) /\
       (forall x, In x (h_live (l_heap s)) <-> In x (shared_blocks (l_shared s)))).
Proof.
  intros qsort acts S OK AP. destruct (run_ok qsort S acts opened _ inv_opened OK AP) as (s & g & E & A & I). exists s, g.
  split; [exact E|]. split; [exact A|]. split; [apply I|]. split; [now apply inv_order|now apply inv_idle].
Qed.
Print Assumptions C114_apart_partial.

(** C114, partial. In these interleavings a change that was begun comes to its end when no request looks, and a request is answered when no change is
    under way, both within a number of steps that the size of the table gives. *)
Theorem C114_ends_partial : forall qsort acts s, sorts qsort -> Forall action_ok acts -> apart_all qsort opened acts -> run qsort opened acts = Ret s ->
  (forall bs, (forall c, In c (l_calls s) -> looking (c_stage c) = false) -> (3 * t_nb (l_shared s) + 3 <= length bs)%nat ->
     exists s', run qsort s (map Work bs) = Ret s' /\ l_task s' = Idle /\ l_calls s' = l_calls s) /\
  (forall r c n, changing (l_task s) = false -> nth_error (l_calls s) r = Some c -> (t_nb (l_shared s) + 5 <= n)%nat ->
     exists s' l, run qsort s (repeat (Step r) n) = Ret s' /\ nth_error (l_calls s') r = Some (mk_call (c_method c) (c_url c) (Running l)) /\
       l_shared s' = l_shared s /\ l_heap s' = l_heap s /\ l_task s' = l_task s).
Proof.
  intros qsort acts s S OK AP R. destruct (run_ok qsort S acts opened _ inv_opened OK AP) as (s0 & g & E & A & I). rewrite R in E. injection E as <-. split.
  - intros b AW L. apply (change_ends qsort S b s g I); [now apply Forall_forall|]. destruct I as (_ & _ & _ & _ & [(CH & _)|(B & _)]).
    + destruct (l_task s); try discriminate; cbn [left_of]; lia.
    + pose proof (busy_left _ _ _ _ _ B). lia.
  - intros r c n CH EN L. apply (request_ends qsort S n s g r c I CH EN). destruct (c_stage c); cbn [steps_of]; lia.
Qed.
Print Assumptions C114_ends_partial.

Definition ep (m p f : string) (cb : Z) : endpoint := mk_ep (Some (bs m)) (Some (bs p)) (Some (bs f)) 0 (Some cb) 0.
Definition works (n : nat) : list action := repeat (Work true) n.
Definition added (e : endpoint) : list action := Order (Add e) :: works 3.
Definition ea := ep "GET" "api" "/a" 1.
Definition eb := ep "GET" "api" "/b" 2.
Definition ec := ep "*" "api" "/:x" 3.
Definition get (u : string) : action := Come (bs "GET") (bs u).

Definition ex_acts : list action :=
  [get "/api/a"] ++ added ea ++ added ec ++ repeat (Step 0) 7 ++ [get "/api/b"; Step 1] ++ repeat (Step 1) 5 ++ [Order (Drop ea); Work false; Work false; Work false; get "/api/a"; Work false; Work false; Work false]
  ++ repeat (Step 2) 4 ++ [get "/x"; Order (Fall 9 4)] ++ works 3 ++ repeat (Step 3) 7.
Example C114_ex : sorts isort /\ Forall action_ok ex_acts /\ apart_all isort opened ex_acts /\
  match run isort opened ex_acts with
  | Ret s => map answer (l_calls s) = [(bs "GET", bs "/api/a", Some [ea; ec]); (bs "GET", bs "/api/b", Some [ec]); (bs "GET", bs "/api/a", Some [ec]); (bs "GET", bs "/x", Some [mk_ep None None None 0 (Some 9) 4])] /\
      shown s = Ret [ec] /\ l_task s = Idle /\ length (h_live (l_heap s)) = 5%nat
  | UB _ => False end.
Proof.
  split; [apply isort_sorts|]. split; [repeat (constructor; try exact Logic.I; try (left; discriminate))|]. split.
  - apply apart_all_dec. vm_compute. reflexivity.
  - vm_compute. repeat split; reflexivity.
Qed.

(** ** Changes that meet a request *)
Definition two : list action := added ea ++ added eb.

(** An endpoint is added while a request looks at the table: o_realloc moves the array, and the request reads the array that was released. *)
Theorem C114_moved_refuted : exists acts s c, Forall action_ok acts /\ run isort opened acts = Ret s /\ l_calls s = [c] /\ shown s = Ret [ea; eb] /\ l_task s = Begin (Add ec) /\
  run isort s [Work true; Step 0] = UB UseAfterFree.
Proof.
  exists (two ++ [get "/api/b"; Step 0; Step 0; Order (Add ec)]). do 2 eexists. split; [repeat (constructor; try exact Logic.I; try (left; discriminate))|].
  split; [vm_compute; reflexivity|]. split; [reflexivity|]. repeat split; vm_compute; reflexivity.
Qed.
Print Assumptions C114_moved_refuted.

(** An endpoint is added and the array stays where it is: its new last slot is not written yet when the request comes to it, since the terminating
    slot is overwritten first. *)
Theorem C114_unwritten_refuted : exists acts s c, Forall action_ok acts /\ run isort opened acts = Ret s /\ l_calls s = [c] /\ shown s = Ret [ea; eb] /\ l_task s = Begin (Add ec) /\
  run isort s [Work false; Work false; Step 0; Step 0; Step 0] = UB Uninit.
Proof.
  exists (two ++ [get "/api/b"; Step 0; Step 0; Order (Add ec)]). do 2 eexists. split; [repeat (constructor; try exact Logic.I; try (left; discriminate))|].
  split; [vm_compute; reflexivity|]. split; [reflexivity|]. repeat split; vm_compute; reflexivity.
Qed.
Print Assumptions C114_unwritten_refuted.

(** An endpoint is removed while a request looks at the table: its texts are released before its slot is overwritten, and the request reads them. *)
Theorem C114_released_refuted : exists acts s c, Forall action_ok acts /\ run isort opened acts = Ret s /\ l_calls s = [c] /\ shown s = Ret [ea; eb] /\ l_task s = Begin (Drop ea) /\
  run isort s [Work false; Work false; Work false; Step 0] = UB UseAfterFree.
Proof.
  exists (two ++ [get "/api/b"; Step 0; Order (Drop ea)]). do 2 eexists. split; [repeat (constructor; try exact Logic.I; try (left; discriminate))|].
  split; [vm_compute; reflexivity|]. split; [reflexivity|]. repeat split; vm_compute; reflexivity.
Qed.
Print Assumptions C114_released_refuted.

(** Even when no memory is misused: while one endpoint is removed, a request for another endpoint, which is in the table before and after, is told
    that there is none, because the slots move towards the start of the array under the request. *)
Theorem C114_missed_refuted : exists acts s more s' l, Forall action_ok acts /\ run isort opened acts = Ret s /\ shown s = Ret [ea; eb] /\ l_task s = Begin (Drop ea) /\
  run isort s more = Ret s' /\ (forall o, ~ In (Order o) more) /\ shown s' = Ret [eb] /\ l_task s' = Idle /\
  map answer (l_calls s') = [(bs "GET", bs "/api/b", Some l)] /\
  ~ given [ea; eb] None (bs "GET") (bs "/api/b") l /\ ~ given [eb] None (bs "GET") (bs "/api/b") l.
Proof.
  exists (two ++ [get "/api/b"; Step 0; Step 0; Order (Drop ea)]), (match run isort opened (two ++ [get "/api/b"; Step 0; Step 0; Order (Drop ea)]) with Ret s => s | UB _ => opened end),
    ([Work false; Work false; Work false; Work false; Step 0; Step 0; Work false; Work false]). do 2 eexists.
  split; [repeat (constructor; try exact Logic.I; try (left; discriminate))|].
  split; [vm_compute; reflexivity|]. split; [vm_compute; reflexivity|]. split; [vm_compute; reflexivity|]. split; [vm_compute; reflexivity|].
  split; [intros o H; repeat (destruct H as [H|H]; [discriminate|]); exact H|]. split; [vm_compute; reflexivity|]. split; [vm_compute; reflexivity|]. split; [vm_compute; reflexivity|].
  assert (SB : selected (bs "GET") (bs "/api/b") eb) by (apply RouterProofs.sel_selected; vm_compute; reflexivity).
  split; intros (p & l0 & H & P & _ & E); apply H in SB; (assert (X : l0 = []) by (destruct l0; [reflexivity|discriminate E])); subst l0;
    apply Permutation.Permutation_sym, Permutation.Permutation_nil in P; cbn [filter] in P; rewrite SB in P; [destruct (p ea)|]; discriminate.
Qed.
Print Assumptions C114_missed_refuted.

(** The default endpoint is changed while a request copies it: the request gets the new function with the data of the old one. *)
Theorem C114_mixed_refuted : exists acts s c more s', Forall action_ok acts /\ run isort opened acts = Ret s /\ l_calls s = [c] /\
  t_default (l_shared s) = Some (0%nat, (Some 1, Some 11)) /\ l_task s = Begin (Fall 2 22) /\
  run isort s more = Ret s' /\ l_task s' = Idle /\ t_default (l_shared s') = Some (0%nat, (Some 2, Some 22)) /\
  map answer (l_calls s') = [(bs "GET", bs "/x", Some [mk_ep None None None 0 (Some 2) 11])].
Proof.
  exists ([Order (Fall 1 11)] ++ works 3 ++ [get "/x"; Step 0; Step 0; Step 0; Order (Fall 2 22)]). do 2 eexists. exists ([Work true; Work true; Step 0; Step 0; Work true]). eexists.
  split; [repeat (constructor; try exact Logic.I)|]. split; [vm_compute; reflexivity|]. split; [reflexivity|]. repeat split; vm_compute; reflexivity.
Qed.
Print Assumptions C114_mixed_refuted.

(** The default endpoint is set for the first time while a request looks for it: the block is in place before its members are written. *)
Theorem C114_default_refuted : exists acts s c, Forall action_ok acts /\ run isort opened acts = Ret s /\ l_calls s = [c] /\ t_default (l_shared s) = None /\ l_task s = Begin (Fall 2 22) /\
  run isort s [Work true; Step 0] = UB Uninit.
Proof.
  exists ([get "/x"; Step 0; Step 0; Order (Fall 2 22)]). do 2 eexists. split; [repeat (constructor; try exact Logic.I)|].
  split; [vm_compute; reflexivity|]. split; [reflexivity|]. repeat split; vm_compute; reflexivity.
Qed.
Print Assumptions C114_default_refuted.
