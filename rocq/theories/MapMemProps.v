(** C96: the memory of maps, also when allocations fail. *)
From Coq Require Import String ZArith Bool List Lia Permutation.
From Verif Require Import Base BaseFacts OwnModel OwnSpec OwnProofs MapMemModel MapMemSpec MapMemProofs MapMemSteps.
Import ListNotations.
Open Scope Z_scope.

Lemma short_start : forall answers, short (p_mem (start answers)) -> existsb negb answers = true.
Proof. intros answers H. apply existsb_exists. exists false. split; [exact H|reflexivity]. Qed.

(** C96. A program makes, fills, changes, empties, copies and releases maps, any number at a time;
    o_malloc and o_strdup answer what they want, o_realloc has memory. No block is used after its
    release or released twice, no byte is read before it is written. A call does what it means, or
    it answers U_ERROR_MEMORY, only if an allocation failed, and leaves the maps as they were
    (u_map_copy_into may have copied the first values; u_map_empty leaves a map that can only be
    released). At the end the maps show what the calls mean, and the blocks in use are exactly
    those reachable from the maps, each from one place only. *)
Theorem C96_exact_partial : forall max answers ops, 0 <= max -> Forall (mop_ok max) ops -> max + zlen ops + 1 < two64 ->
  exists cs s l, mrun (start answers) ops = Ret (cs, s) /\ ameans (existsb negb answers) [] ops cs l /\
    read_maps (p_mem s) (p_maps s) = Ret l /\
    NoDup (prog_blocks s) /\ NoDup (h_live (m_heap (p_mem s))) /\
    (forall x, In x (h_live (m_heap (p_mem s))) <-> In x (prog_blocks s)).
Proof.
  intros max answers ops M0 F LT.
  destruct (mrun_ok max _ ops max (start answers) [] (pinv_start _ _) F ltac:(lia) M0 LT (short_start answers)) as (cs & s & l & R & M & [FL O]).
  exists cs, s, l. split; [exact R|]. split; [exact M|]. split; [eapply read_maps_ok; [exact O|apply incl_refl|exact FL]|].
  destruct (owns_spec _ _ (proj1 O)) as (A & B & C). auto.
Qed.
Print Assumptions C96_exact_partial.

(** C96. When every allocation has memory, every call does what it means. *)
Theorem C96_memory_partial : forall max ops, 0 <= max -> Forall (mop_ok max) ops -> max + zlen ops + 1 < two64 ->
  exists cs s, mrun (start []) ops = Ret (cs, s) /\
    cs = snd (fold_left (fun x o => (snd (astep (fst x) o), snd x ++ [fst (astep (fst x) o)])) ops ([], [])) /\
    read_maps (p_mem s) (p_maps s) = Ret (fold_left (fun l o => snd (astep l o)) ops []).
Proof.
  intros max ops M0 F LT. destruct (C96_exact_partial max [] ops M0 F LT) as (cs & s & l & R & M & D & _).
  exists cs, s. split; [exact R|]. cbn [existsb] in M.
  assert (G : forall a ops cs l, ameans false a ops cs l -> forall c0,
    c0 ++ cs = snd (fold_left (fun x o => (snd (astep (fst x) o), snd x ++ [fst (astep (fst x) o)])) ops (a, c0)) /\
    l = fold_left (fun l o => snd (astep l o)) ops a).
  { clear. intros a ops cs l M. induction M as [a|a o r cs l M IH|a o r cs l1 l S A M IH]; intros c0; cbn [fold_left fst snd].
    - rewrite app_nil_r. auto.
    - destruct (IH (c0 ++ [fst (astep a o)])) as [E1 E2]. rewrite <- app_assoc in E1. cbn [app] in E1. split; [exact E1|exact E2].
    - discriminate. }
  destruct (G _ _ _ _ M []) as [E1 E2]. cbn [app] in E1. rewrite D, <- E2. auto.
Qed.
Print Assumptions C96_memory_partial.

(** C96. Releasing the maps leaves no block, whatever was done before and whatever failed. *)
Theorem C96_released_partial : forall max answers ops cs s, 0 <= max -> Forall (mop_ok max) ops -> max + zlen ops + 1 < two64 ->
  mrun (start answers) ops = Ret (cs, s) ->
  exists cs' s', mrun s (repeat (Release 0) (List.length (p_maps s))) = Ret (cs', s') /\ Forall (eq U_OK) cs' /\ h_live (m_heap (p_mem s')) = [].
Proof.
  intros max answers ops cs s M0 F LT R.
  destruct (mrun_ok max _ ops max (start answers) [] (pinv_start _ _) F ltac:(lia) M0 LT (short_start answers)) as (cs1 & s1 & l & R1 & M & P).
  rewrite R in R1. injection R1 as <- <-.
  destruct (release_all _ _ _ _ P eq_refl) as (cs' & s' & R' & _ & O & FC). exists cs', s'. split; [exact R'|]. split; [exact FC|].
  destruct (owns_spec _ _ (proj1 O)) as (A & _ & _). destruct (h_live (m_heap (p_mem s'))) as [|x r]; auto. exfalso. apply (A x). now left.
Qed.
Print Assumptions C96_released_partial.

(** a map with two values, one of them changed and one written over; a copy; a copy into a third
    map with one of the values; the first map released *)
Definition C96_ops : list mop :=
  [New; Put 0 (bs "a") (Some (bs "one")); PutAt 0 (bs "b") [1; 2; 3; 4] 0; PutAt 0 (bs "b") [9; 9] 1; Put 0 (bs "a") (Some (bs "longer"));
   Copy 0; New; Put 2 (bs "b") None; CopyInto 2 0; RemoveKey 0 true (bs "A"); Release 0].
Example C96_ex_ok : Forall (mop_ok 100) C96_ops.
Proof. repeat constructor; unfold mop_ok; try (split; [|split]); try discriminate; try (vm_compute; intuition discriminate); try (repeat constructor; vm_compute; reflexivity). Qed.
Example C96_ex : exists s, mrun (start []) C96_ops = Ret (repeat U_OK 11, s) /\
  read_maps (p_mem s) (p_maps s) = Ret [[(bs "a", bs "longer" ++ [0]); (bs "b", [1; 9; 9; 4])]; [(bs "b", [1; 9; 9; 4; 0]); (bs "a", bs "longer" ++ [0])]].
Proof. eexists. vm_compute. split; reflexivity. Qed.
(** the fifth allocation fails: the first value is not put, the others are *)
Example C96_ex_fail : exists s, mrun (start [true; true; true; true; true; false]) C96_ops = Ret (U_OK :: U_ERROR_MEMORY :: repeat U_OK 9, s).
Proof. eexists. vm_compute. reflexivity. Qed.

(** [s] after the calls [ops], with the answers of o_realloc *)
Definition start_grow (grow : list bool) : prog := mk_prog (mk_mem (mk_heap 0 []) [] grow) [].

(** Refuted when o_realloc may fail: u_map_put on a new key stores the NULL of the failed o_realloc
    in the map; the array is lost, and u_map_clean_full (or u_map_put again) on this map, which has
    one value, reads through the NULL pointer. *)
Theorem C96_grow_refuted : exists s,
  mrun (start_grow [true; true; true; false]) [New; Put 0 (bs "a") (Some (bs "1")); Put 0 (bs "b") (Some (bs "2"))] = Ret ([U_OK; U_OK; U_ERROR_MEMORY], s) /\
  mstep s (Release 0) = UB NullDeref /\ mstep s (Put 0 (bs "c") None) = UB NullDeref /\
  exists x, In x (h_live (m_heap (p_mem s))) /\ ~ In x (prog_blocks s).
Proof.
  eexists. split; [vm_compute; reflexivity|]. split; [vm_compute; reflexivity|]. split; [vm_compute; reflexivity|].
  exists 6%nat. vm_compute. intuition discriminate.
Qed.
Print Assumptions C96_grow_refuted.

(** Refuted when o_realloc may fail: u_map_put of a longer value on an existing key loses the old
    value, which is never released. *)
Theorem C96_longer_refuted : exists s s',
  mrun (start_grow [true; true; true; false]) [New; Put 0 (bs "a") (Some (bs "1")); Put 0 (bs "a") (Some (bs "22"))] = Ret ([U_OK; U_OK; U_ERROR_MEMORY], s) /\
  mstep s (Release 0) = Ret (U_OK, s') /\ p_maps s' = [] /\ h_live (m_heap (p_mem s')) <> [].
Proof.
  eexists. eexists. split; [vm_compute; reflexivity|]. split; [vm_compute; reflexivity|]. split; [reflexivity|]. vm_compute. discriminate.
Qed.
Print Assumptions C96_longer_refuted.

(** Refuted when o_realloc may fail: when the array of values cannot grow, u_map_put releases the
    new key but leaves it in the array of keys; u_map_get_length then reads it after its release
    (and u_map_has_key and u_map_get do the same). *)
Theorem C96_second_refuted : exists s,
  mrun (start_grow [true; false]) [New; Put 0 (bs "a") (Some (bs "1"))] = Ret ([U_OK; U_ERROR_MEMORY], s) /\
  mstep s (PutAt 0 (bs "a") [1] 0) = UB UseAfterFree.
Proof. eexists. split; [vm_compute; reflexivity|]. vm_compute. reflexivity. Qed.
Print Assumptions C96_second_refuted.

(** Refuted when o_realloc may fail: u_map_copy of a map of two values, when the array of keys of
    the copy cannot grow for the second one, releases the incomplete copy through the NULL pointer. *)
Theorem C96_copy_refuted : exists s,
  mrun (start_grow [true; true; true; true; true; true; true; true; true; false])
    [New; Put 0 (bs "a") (Some (bs "1")); Put 0 (bs "b") (Some (bs "2"))] = Ret ([U_OK; U_OK; U_OK], s) /\
  mstep s (Copy 0) = UB NullDeref.
Proof. eexists. split; [vm_compute; reflexivity|]. vm_compute. reflexivity. Qed.
Print Assumptions C96_copy_refuted.
