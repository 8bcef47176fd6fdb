(** C01-C10: theorems about u_map (src/u_map.c). *)
From Coq Require Import String ZArith Bool List Lia.
From Verif Require Import Base BaseFacts UMapModel UMapSpec UMapProofs UMapReach.
Import ListNotations.
Open Scope Z_scope.

(** C01. Any history of put / remove / empty runs without undefined behaviour and leaves a
    map whose reads are those of the abstract dictionary. *)
Theorem C01_map_is_dictionary : forall ops, Forall dop_ok ops ->
  exists m, m_run ops u_map_init = Ret m /\
    forall k,
      u_map_has_key m (Some k) = Ret (match d_run ops k with Some _ => true | None => false end) /\
      (do p <- u_map_get m (Some k); deref_cstr p)
        = Ret (match d_run ops k with Some ov => ov | None => None end).
Proof. exact C01_lemma. Qed.
Print Assumptions C01_map_is_dictionary.

(** C01, one string put on any map reachable with any calls (binary values included). *)
Theorem C01_put_get_other : forall g m k v, reachable g m -> k <> [] -> ovalue_ok v ->
  exists m', u_map_put m (Some k) v = Ret (U_OK, m') /\
    u_map_has_key m' (Some k) = Ret true /\
    (do p <- u_map_get m' (Some k); deref_cstr p) = Ret v /\
    (forall k', k' <> k -> u_map_get m' (Some k') = u_map_get m (Some k') /\
                           u_map_has_key m' (Some k') = u_map_has_key m (Some k') /\
                           u_map_get_length m' (Some k') = u_map_get_length m (Some k')).
Proof. exact C01_step_lemma. Qed.
Print Assumptions C01_put_get_other.

Definition ex_ops : list dop :=
  [DPut (bs "k") (Some (bs "a long value")); DPut (bs "k") (Some (bs "x")); DPut (bs "n") None;
   DPut [] (Some (bs "ignored")); DPut (bs "gone") (Some (bs "1")); DRemove (bs "gone")].
Example C01_ex_hyp : Forall dop_ok ex_ops.
Proof.
  repeat constructor; simpl; try (unfold cstr; repeat constructor; lia);
    try (vm_compute; reflexivity).
Qed.
Example C01_ex_dict : d_run ex_ops (bs "k") = Some (Some (bs "x")) /\ d_run ex_ops (bs "n") = Some None /\
  d_run ex_ops (bs "gone") = None.
Proof. vm_compute. auto. Qed.
Example C01_ex_run : exists m, m_run ex_ops u_map_init = Ret m /\
  (do p <- u_map_get m (Some (bs "k")); deref_cstr p) = Ret (Some (bs "x")) /\ u_map_count m = 2.
Proof. eexists. split; [vm_compute; reflexivity|]. vm_compute. auto. Qed.

(** C02. On every reachable map, calls with admissible arguments stay inside their blocks.
    [defined]: no undefined behaviour at all; [in_bounds]: at most a dependence on bytes never
    written (values with gaps). *)
Theorem C02_calls_stay_in_bounds_partial : forall m, reachable true m ->
  (forall k v off len, put_binary_ok v off len -> defined (u_map_put_binary m k v off len)) /\
  (forall k v, ovalue_ok v -> defined (u_map_put m k v)) /\
  (forall i, defined (u_map_remove_at m i)) /\
  (forall k, defined (u_map_remove_from_key m k) /\ defined (u_map_remove_from_key_case m k) /\
             defined (u_map_has_key m k) /\ defined (u_map_has_key_case m k) /\
             defined (u_map_get m k) /\ defined (u_map_get_case m k) /\
             defined (u_map_get_length m k) /\ defined (u_map_get_case_length m k) /\
             defined (u_map_count_keys_case m k)) /\
  (forall v len, probe_fits m v len -> in_bounds (u_map_has_value_binary m v len) /\
                                       in_bounds (u_map_remove_from_value_binary m v len)) /\
  (forall v, in_bounds (u_map_has_value_case m v) /\ in_bounds (u_map_remove_from_value_case m v)) /\
  defined (u_map_copy m) /\
  (forall s, reachable true s -> sizes_ok s -> in_bounds (u_map_copy_into m s)).
Proof. exact C02_lemma. Qed.
Print Assumptions C02_calls_stay_in_bounds_partial.

(** C02, histories without gaps: no dependence on uninitialised bytes either. *)
Theorem C02_no_uninitialised_read_partial : forall m, reachable false m ->
  (forall v len, written v -> probe_fits m (Some v) len ->
     defined (u_map_has_value_binary m (Some v) len) /\ defined (u_map_remove_from_value_binary m (Some v) len)) /\
  (forall v, defined (u_map_has_value_case m v) /\ defined (u_map_remove_from_value_case m v)) /\
  (forall d, reachable false d -> sizes_ok m -> defined (u_map_copy_into d m)) /\
  (forall k, defined (do p <- u_map_get m (Some k); deref_cstr p)).
Proof. exact C02_init_lemma. Qed.
Print Assumptions C02_no_uninitialised_read_partial.

(** C02 refuted in general, three ways. A NULL value with a non-zero length leaves a one byte
    block recorded as longer; the next put writes past it. *)
Theorem C02_null_value_overflow_refuted :
  exists k m1 m2, u_map_put_binary u_map_init k None 0 5 = Ret (U_OK, m1) /\
    m2 = u_map_put m1 k (Some (bs "ab")) /\ m2 = UB OutOfBounds.
Proof. exists (Some (bs "k")). eexists. eexists. split; [vm_compute; reflexivity|]. split; [|vm_compute; reflexivity]. reflexivity. Qed.
Print Assumptions C02_null_value_overflow_refuted.

(** The guard (offset+length+1) <= SIZE_MAX can never fail on 64 bit, so a wrapping offset
    writes outside the block. *)
Theorem C02_offset_wrap_refuted :
  exists k v off len, 0 <= off < two64 /\ 0 <= len < two64 /\ zlen v = len /\
    u_map_put_binary u_map_init (Some k) (Some v) off len = UB OutOfBounds.
Proof. exists (bs "k"), [Some 65], SIZE_MAX, 1. vm_compute. repeat split; discriminate. Qed.
Print Assumptions C02_offset_wrap_refuted.

(** A probe longer than a stored value makes memcmp read past the stored block. *)
Theorem C02_long_probe_refuted :
  exists k v p m, u_map_put u_map_init (Some k) (Some v) = Ret (U_OK, m) /\
    u_map_has_value m (Some p) = UB OutOfBounds /\
    u_map_remove_from_value m (Some p) = UB OutOfBounds.
Proof. exists (bs "k"), (bs "a"), (bs "abcdef"). eexists. split; [vm_compute; reflexivity|]. vm_compute. auto. Qed.
Print Assumptions C02_long_probe_refuted.

Definition ex_m1 : umap :=
  match m_run [DPut (bs "Key") (Some (bs "abcd")); DPut (bs "other") (Some (bs "x"))] u_map_init with
  | Ret m => m | UB _ => u_map_init end.
Example ex_m1_reachable : forall g, reachable g ex_m1.
Proof.
  intro g.
  eapply r_put with (m := match u_map_put u_map_init (Some (bs "Key")) (Some (bs "abcd")) with Ret (_, m) => m | _ => u_map_init end)
    (k := Some (bs "other")) (v := Some (bs "x")) (c := U_OK).
  - eapply r_put with (k := Some (bs "Key")) (v := Some (bs "abcd")) (c := U_OK); [apply r_init| |vm_compute; reflexivity].
    split; [unfold cstr; simpl; repeat constructor; lia|vm_compute; reflexivity].
  - split; [unfold cstr; simpl; repeat constructor; lia|vm_compute; reflexivity].
  - vm_compute; reflexivity.
Qed.
(** a map with a binary value containing NUL bytes and a gap *)
Definition ex_m2 : umap :=
  match u_map_put_binary ex_m1 (Some (bs "bin")) (Some (block_of [1;0;2])) 4 3 with Ret (_, m) => m | _ => u_map_init end.
Example ex_m2_reachable : reachable true ex_m2.
Proof.
  eapply r_put_binary with (m := ex_m1) (k := Some (bs "bin")) (v := Some (block_of [1;0;2])) (off := 4) (len := 3) (c := U_OK).
  - apply ex_m1_reachable.
  - vm_compute. repeat split; discriminate.
  - discriminate.
  - vm_compute. reflexivity.
Qed.
Example C02_ex_probe : probe_fits ex_m1 (Some (cblock (bs "ab"))) 2.
Proof. vm_compute. split; [discriminate|]. intros bo [H|[H|[H|[]]]]; inversion H; discriminate. Qed.

(** C03 *)
Theorem C03_chunks_reassemble : forall g m k chunks, reachable g m -> k <> [] -> chunks <> [] ->
  u_map_has_key m (Some k) = Ret false ->
  zlen (concat chunks) + 1 < two64 ->
  exists m', put_chunks m k 0 chunks = Ret m' /\
    u_map_get_length m' (Some k) = Ret (zlen (concat chunks)) /\
    (concat chunks <> [] ->
       u_map_get m' (Some k) = Ret (Some (concat chunks ++ [Some 0]))).
Proof. exact C03_lemma. Qed.
Print Assumptions C03_chunks_reassemble.
Example C03_ex : exists m', put_chunks ex_m1 (bs "b") 0 [block_of [1;0]; []; block_of [3]] = Ret m' /\
  u_map_has_key ex_m1 (Some (bs "b")) = Ret false /\
  u_map_get m' (Some (bs "b")) = Ret (Some (block_of [1;0;3;0])).
Proof. eexists. split; [vm_compute; reflexivity|]. vm_compute. auto. Qed.

(** C04 refuted: a shorter value keeps the old length and the old tail; a copy carries it over. *)
Theorem C04_put_replaces_refuted :
  exists k v1 v2 m1 m2 m3, u_map_put u_map_init (Some k) (Some v1) = Ret (U_OK, m1) /\
    u_map_put m1 (Some k) (Some v2) = Ret (U_OK, m2) /\
    u_map_get_length m2 (Some k) <> Ret (zlen v2 + 1) /\
    u_map_copy m2 = Ret (Some m3) /\
    u_map_get m3 (Some k) = Ret (Some (block_of (v2 ++ [0] ++ [114; 101; 116; 0; 0]))).
Proof.
  exists (bs "k"), (bs "secret"), (bs "ab"). do 3 eexists.
  split; [vm_compute; reflexivity|]. split; [vm_compute; reflexivity|]. split; [vm_compute; discriminate|].
  split; vm_compute; reflexivity.
Qed.
Print Assumptions C04_put_replaces_refuted.

(** C04 holds when the new value is at least as long as the stored one. *)
Theorem C04_put_replaces_partial : forall g m k v len, reachable g m -> k <> [] ->
  0 <= len -> len + 1 < two64 -> len <= zlen v ->
  (forall l, u_map_get_length m (Some k) = Ret l -> l <= len) ->
  exists m', u_map_put_binary m (Some k) (Some v) 0 len = Ret (U_OK, m') /\
    u_map_get_length m' (Some k) = Ret len /\
    (0 < len -> u_map_get m' (Some k) = Ret (Some (zfirstn len v ++ [Some 0]))).
Proof. exact C04_partial_lemma. Qed.
Print Assumptions C04_put_replaces_partial.
Example C04_ex : exists l, u_map_get_length ex_m1 (Some (bs "Key")) = Ret l /\ l <= 6.
Proof. exists 5. vm_compute. split; [reflexivity|discriminate]. Qed.

(** C05 *)
Theorem C05_remove_from_key_exact : forall g m es k, reachable g m -> layout m es ->
  exists m', u_map_remove_from_key m (Some k) =
      Ret (if existsb (fun e => str_eqb (ek e) k) es then U_OK else U_ERROR_NOT_FOUND, m') /\
    layout m' (filter (fun e => negb (str_eqb (ek e) k)) es).
Proof. intros g m es k _. exact (remove_key_layout m es k). Qed.
Print Assumptions C05_remove_from_key_exact.

Theorem C05_remove_from_key_case_exact : forall g m es k, reachable g m -> layout m es ->
  exists m', u_map_remove_from_key_case m (Some k) =
      Ret (if existsb (fun e => str_caseeqb (ek e) k) es then U_OK else U_ERROR_NOT_FOUND, m') /\
    layout m' (filter (fun e => negb (str_caseeqb (ek e) k)) es).
Proof. intros g m es k _. exact (remove_key_case_layout m es k). Qed.
Print Assumptions C05_remove_from_key_case_exact.

Theorem C05_remove_at_exact : forall m es i, layout m es -> 0 <= i < zlen es ->
  exists m', u_map_remove_at m i = Ret (U_OK, m') /\ layout m' (zfirstn i es ++ zskipn (i + 1) es).
Proof. exact remove_at_firstn_skipn. Qed.
Print Assumptions C05_remove_at_exact.

Theorem C05_remove_at_out_of_range : forall m es i, layout m es ->
  (i < 0 -> u_map_remove_at m i = Ret (U_ERROR_PARAMS, m)) /\
  (zlen es <= i -> u_map_remove_at m i = Ret (U_ERROR_NOT_FOUND, m)).
Proof. exact remove_at_out. Qed.
Print Assumptions C05_remove_at_out_of_range.

(** every reachable map has a layout, so the hypothesis above is met *)
Example C05_ex : exists es, layout ex_m1 es /\ map ek es = [bs "Key"; bs "other"] /\
  exists m', u_map_remove_from_key_case ex_m1 (Some (bs "KEY")) = Ret (U_OK, m') /\ u_map_count m' = 1.
Proof.
  exists [mk_entry (bs "Key") (cblock (bs "abcd") ++ [Some 0]) 5; mk_entry (bs "other") (cblock (bs "x") ++ [Some 0]) 2].
  vm_compute. split; [auto|]. split; [reflexivity|]. eexists. split; reflexivity.
Qed.

(** C06 *)
Theorem C06_keys_unique_and_counted : forall g m, reachable g m ->
  exists ks vs ls,
    keys m = map Some ks ++ [None] /\ values m = map Some vs ++ [None] /\ lengths m = ls ++ [0] /\
    length vs = length ks /\ length ls = length ks /\
    NoDup ks /\ ~ In [] ks /\ u_map_count m = Z.of_nat (length ks).
Proof.
  intros g m R. destruct (reachable_good g m R) as (es & (K & V & L & N) & (F & ND) & _).
  exists (map ek es), (map eb es), (map el es). rewrite !map_map, !map_length.
  repeat split; auto.
  - intro I. apply in_map_iff in I as (e & E & I). rewrite Forall_forall in F. apply (proj1 (F e I) E).
  - unfold u_map_count. now rewrite N.
Qed.
Print Assumptions C06_keys_unique_and_counted.
Example C06_ex : keys ex_m2 = map Some [bs "Key"; bs "other"; bs "bin"] ++ [None].
Proof. reflexivity. Qed.

(** C07 *)
Theorem C07_case_lookups_agree : forall g m es k, reachable g m -> layout m es ->
  u_map_has_key_case m (Some k) = Ret (existsb (fun e => str_caseeqb (ek e) k) es) /\
  u_map_count_keys_case m (Some k) = Ret (zlen (filter (fun e => str_caseeqb (ek e) k) es)) /\
  u_map_get_case m (Some k) = Ret (match find (fun e => str_caseeqb (ek e) k) es with Some e => Some (eb e) | None => None end) /\
  u_map_get_case_length m (Some k) = Ret (match find (fun e => str_caseeqb (ek e) k) es with Some e => el e | None => -1 end) /\
  (u_map_has_key_case m (Some k) = Ret true <-> exists n, u_map_count_keys_case m (Some k) = Ret n /\ 0 < n) /\
  (u_map_has_key_case m (Some k) = Ret true <-> exists b, u_map_get_case m (Some k) = Ret (Some b)) /\
  (u_map_has_key m (Some k) = Ret true -> u_map_has_key_case m (Some k) = Ret true).
Proof. exact C07_lemma. Qed.
Print Assumptions C07_case_lookups_agree.
Example C07_ex : u_map_has_key ex_m1 (Some (bs "kEY")) = Ret false /\ u_map_has_key_case ex_m1 (Some (bs "kEY")) = Ret true /\
  u_map_get_case ex_m1 (Some (bs "kEY")) = Ret (Some (cblock (bs "abcd") ++ [Some 0])).
Proof. vm_compute. auto. Qed.

(** C08. The copy has the same keys, blocks and lengths; blocks of the copy are allocated by
    its own u_map_put_binary calls (a fresh list value in the model). *)
Theorem C08_copy_exact : forall g m es, reachable g m -> layout m es ->
  exists m', u_map_copy m = Ret (Some m') /\ layout m' es.
Proof.
  intros g m es R L. destruct (reachable_good g m R) as (es' & L' & OK & _).
  rewrite (layout_unique _ _ _ L L') in *. exact (copy_layout m es L OK).
Qed.
Print Assumptions C08_copy_exact.
Example C08_ex : u_map_copy ex_m2 = Ret (Some ex_m2) /\
  u_map_get ex_m2 (Some (bs "bin")) = Ret (Some [None; None; None; None; Some 1; Some 0; Some 2; Some 0]).
Proof. vm_compute. auto. Qed.

(** C09 *)
Theorem C09_copy_into_overlays : forall dst src ds ss,
  reachable false dst -> reachable false src -> sizes_ok src ->
  layout dst ds -> layout src ss ->
  exists m' es', u_map_copy_into dst src = Ret (U_OK, m') /\ layout m' es' /\
    (forall k, In k (map ek ss) ->
       (do p <- u_map_get m' (Some k); deref_cstr p) = (do p <- u_map_get src (Some k); deref_cstr p) /\
       u_map_has_key m' (Some k) = Ret true) /\
    (forall k, ~ In k (map ek ss) ->
       u_map_get m' (Some k) = u_map_get dst (Some k) /\
       u_map_get_length m' (Some k) = u_map_get_length dst (Some k) /\
       u_map_has_key m' (Some k) = u_map_has_key dst (Some k)) /\
    map ek es' = map ek ds ++ filter (fun k => negb (existsb (str_eqb k) (map ek ds))) (map ek ss).
Proof. exact C09_lemma. Qed.
Print Assumptions C09_copy_into_overlays.
Example C09_ex : sizes_ok ex_m1 /\ exists m', u_map_copy_into ex_m1 ex_m1 = Ret (U_OK, m') /\ m' = ex_m1.
Proof. split; [unfold sizes_ok; change (lengths ex_m1) with [5; 2; 0]; repeat (apply Forall_cons; [reflexivity|]); apply Forall_nil|]. eexists. split; vm_compute; reflexivity. Qed.

(** C10 refuted: the search is a prefix search. *)
Theorem C10_has_value_equality_refuted :
  exists m v, reachable false m /\ cstr v /\
    (forall k s, (do p <- u_map_get m (Some k); deref_cstr p) = Ret (Some s) -> s <> v) /\
    u_map_has_value m (Some v) = Ret true /\
    exists m', u_map_remove_from_value m (Some v) = Ret (U_OK, m') /\ u_map_count m' < u_map_count m.
Proof.
  exists ex_m1, (bs "ab"). split; [apply ex_m1_reachable|]. split; [unfold cstr; simpl; repeat constructor; lia|].
  split; [|split; [vm_compute; reflexivity|eexists; split; vm_compute; reflexivity]].
  intros k s. unfold u_map_get. change (keys ex_m1) with [Some (bs "Key"); Some (bs "other"); None]. cbn [scan_null].
  destruct (str_eqb (bs "Key") k); [vm_compute; intros H; inversion H; subst; intro C; discriminate C|].
  destruct (str_eqb (bs "other") k); vm_compute; intros H; inversion H; subst; intro C; discriminate C.
Qed.
Print Assumptions C10_has_value_equality_refuted.

(** C10, what is true: an entry is found iff the probe is a prefix of its value bytes (for
    probes not longer than any stored block). *)
Theorem C10_has_value_is_prefix_search_partial : forall m es v, reachable false m -> layout m es -> cstr v ->
  (forall e, In e es -> zlen v <= el e + 1) ->
  u_map_has_value m (Some v) = Ret (existsb (fun e => prefixb v (raw (evalue e))) es) /\
  exists c m', u_map_remove_from_value m (Some v) = Ret (c, m') /\
     layout m' (filter (fun e => negb (prefixb v (raw (evalue e)))) es) /\
     c = (if existsb (fun e => prefixb v (raw (evalue e))) es then U_OK else U_ERROR_NOT_FOUND).
Proof. exact C10_characterisation_lemma. Qed.
Print Assumptions C10_has_value_is_prefix_search_partial.
Example C10_ex : exists es, layout ex_m1 es /\ (forall e, In e es -> zlen (bs "x") <= el e + 1) /\
  u_map_has_value ex_m1 (Some (bs "x")) = Ret true.
Proof.
  exists [mk_entry (bs "Key") (cblock (bs "abcd") ++ [Some 0]) 5; mk_entry (bs "other") (cblock (bs "x") ++ [Some 0]) 2].
  vm_compute. split; [auto|]. split; [|reflexivity]. intros e [<-|[<-|[]]]; vm_compute; discriminate.
Qed.
