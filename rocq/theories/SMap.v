(** The view of a u_map that holds C strings: an ordered dictionary, and the proof that the
    array-level operations of UMapModel act on it as expected. Used by the models of the code
    that calls u_map. *)
From Coq Require Import ZArith Bool List Lia.
From Verif Require Import Base BaseFacts UMapModel UMapSpec UMapProofs UMapReach.
Import ListNotations.
Open Scope Z_scope.

(** key, value; [None] is a NULL value. Keys are in insertion order. *)
Definition smap := list (str * option str).

Definition sfind (k : str) (d : smap) : option (str * option str) := find (fun p => str_eqb (fst p) k) d.
(** [None]: absent *)
Definition sget (d : smap) (k : str) : option (option str) :=
  match sfind k d with Some p => Some (snd p) | None => None end.
Definition shas (d : smap) (k : str) : bool := existsb (fun p => str_eqb (fst p) k) d.
Fixpoint sput (k : str) (v : option str) (d : smap) : smap :=
  match d with
  | [] => [(k, v)]
  | p :: r => if str_eqb (fst p) k then (fst p, v) :: r else p :: sput k v r
  end.
(** what u_map_get returns, read as a C string: NULL for absent and for NULL values *)
Definition sval (d : smap) (k : str) : option str := match sget d k with Some v => v | None => None end.

Definition scopy_into (dst src : smap) : smap := fold_left (fun d p => sput (fst p) (snd p) d) src dst.

(** read access as the callers do it: u_map_get then use as a C string *)
Definition get_str (m : umap) (k : str) : outcome (option str) := do p <- u_map_get m (Some k); deref_cstr p.

Definition entry_view (e : entry) (p : str * option str) : Prop := ek e = fst p /\ e_cstr e = Ret (snd p).

(** the array structure [m] holds the dictionary [d] *)
Definition repr (m : umap) (d : smap) : Prop :=
  exists es, layout m es /\ entries_ok es /\ entries_written es /\ Forall2 entry_view es d /\
             Forall (fun p => ovalue_ok (snd p)) d.

(** total size of the texts in a dictionary, with separators *)
Definition osize (v : option str) : Z := match v with Some s => zlen s + 1 | None => 0 end.
Definition sweight (d : smap) : Z := fold_right (fun p n => osize (snd p) + n) 0 d.

Definition no_null (d : smap) : Prop := Forall (fun p => snd p <> None) d.
Definition texts_ok (d : smap) : Prop := Forall (fun p => match snd p with Some s => cstr s | None => True end) d.

Lemma repr_init : repr u_map_init [].
Proof. exists []. repeat split; constructor. Qed.

Lemma repr_find : forall es d k, Forall2 entry_view es d ->
  match find (key_is k) es, sfind k d with
  | Some e, Some p => entry_view e p
  | None, None => True
  | _, _ => False
  end.
Proof.
  induction 1 as [|e p es d V F IH]; simpl; auto.
  destruct V as [V1 V2]. unfold key_is at 1. unfold sfind. simpl. rewrite V1.
  destruct (str_eqb (fst p) k); [split; auto|]. exact IH.
Qed.

Lemma repr_has : forall m d k, repr m d -> u_map_has_key m (Some k) = Ret (shas d k).
Proof.
  intros m d k (es & L & _ & _ & F & _). rewrite (has_key_layout m es k L). f_equal. unfold shas.
  rewrite !existsb_find. pose proof (repr_find es d k F) as H. unfold sfind in H.
  destruct (find (key_is k) es), (find (fun p => str_eqb (fst p) k) d); tauto.
Qed.

Lemma repr_get : forall m d k, repr m d -> get_str m k = Ret (sval d k).
Proof.
  intros m d k (es & L & _ & _ & F & _). unfold get_str. rewrite (get_layout m es k L). unfold bind at 1.
  pose proof (repr_find es d k F) as H. unfold sval, sget.
  destruct (find (key_is k) es) as [e|], (sfind k d) as [p|]; try tauto.
  destruct H as [_ H]. exact H.
Qed.

Lemma repr_put_empty : forall m v, u_map_put m (Some []) v = Ret (U_ERROR_PARAMS, m).
Proof. intros. rewrite u_map_put_unfold. apply put_binary_badkey. auto. Qed.

Lemma repr_put : forall m d (k : str) v, repr m d -> k <> [] -> ovalue_ok v ->
  exists m', u_map_put m (Some k) v = Ret (U_OK, m') /\ repr m' (sput k v d).
Proof.
  intros m d k v (es & L & OK & W & F & T) K V. rewrite u_map_put_unfold.
  destruct (put_binary_layout m es k (ov_block v) 0 (ov_len v) L OK K (put_as_binary_ok v V)) as (m2 & R2 & L2).
  exists m2. split; auto. exists (e_put k (ov_block v) 0 (ov_len v) es). split; auto. split; [|split; [|split]].
  - apply e_put_ok; auto. apply put_as_binary_ok; auto.
  - apply e_put_written; auto using put_as_binary_ok.
    + apply (put_no_gap m es (Some k) v L).
    + lia.
  - assert (NZ : match v with Some s => Forall (fun c => c <> 0) s | None => True end).
    { destruct v; auto. apply cstr_nz. apply V. }
    clear L L2 R2 m m2 W T. destruct OK as [OK _]. induction F as [|e p es d EV F IH]; simpl.
    + constructor; [|constructor]. split; [destruct v; reflexivity|].
      destruct (e_cstr_after_put k v [] ltac:(split; constructor) NZ) as (e' & Fe & Ce). simpl in Fe.
      replace (key_is k (e_new k (ov_block v) 0 (ov_len v))) with true in Fe
        by (unfold key_is; destruct v; simpl; now rewrite str_eqb_refl). inversion Fe. subst. exact Ce.
    + inversion OK; subst. destruct EV as [E1 E2]. rewrite <- E1. destruct (str_eqb (ek e) k) eqn:E.
      * constructor; auto. split; [apply e_upd_key|]. apply str_eqb_eq in E.
        destruct (e_cstr_after_put k v [e] ltac:(split; [constructor; [assumption|constructor]|constructor; [simpl; tauto|constructor]]) NZ) as (e' & Fe & Ce).
        simpl in Fe. rewrite E, str_eqb_refl in Fe. simpl in Fe.
        replace (key_is k (e_upd (ov_block v) 0 (ov_len v) e)) with true in Fe
          by (unfold key_is; now rewrite e_upd_key, E, str_eqb_refl). inversion Fe; subst. exact Ce.
      * constructor; auto. split; auto.
  - clear F. induction T as [|p d P T IH]; simpl.
    + constructor; auto.
    + destruct (str_eqb (fst p) k); constructor; auto.
Qed.

Lemma repr_ovalues : forall m d, repr m d -> Forall (fun p => ovalue_ok (snd p)) d.
Proof. intros m d (es & _ & _ & _ & _ & T). exact T. Qed.

Lemma repr_keys : forall m d, repr m d -> keys m = map (fun p => Some (fst p)) d ++ [None].
Proof.
  intros m d (es & (K & _) & _ & _ & F & _). rewrite K. f_equal. clear K m.
  induction F as [|e p es d V F IH]; simpl; auto. destruct V as [V _]. rewrite V. f_equal. exact IH.
Qed.

Lemma repr_nodup : forall m d, repr m d -> NoDup (map fst d) /\ ~ In [] (map fst d).
Proof.
  intros m d (es & _ & (E & N) & _ & F & _).
  assert (X : map fst d = map ek es).
  { clear - F. induction F as [|e p es d V F IH]; simpl; auto. destruct V as [V _]. now rewrite V, IH. }
  rewrite X. split; auto. intro I. apply in_map_iff in I as (e & Q & I). rewrite Forall_forall in E.
  exact (proj1 (E e I) Q).
Qed.

Lemma sval_self : forall a p b, NoDup (map fst (a ++ p :: b)) -> sval (a ++ p :: b) (fst p) = snd p.
Proof.
  intros a p b N. unfold sval, sget, sfind. rewrite find_app.
  replace (find (fun q => str_eqb (fst q) (fst p)) a) with (@None (str * option str)).
  - simpl. now rewrite str_eqb_refl.
  - symmetry. apply find_miss. intros q I. apply str_eqb_neq. intros E.
    rewrite map_app in N. simpl in N. apply NoDup_remove_2 in N. apply N. apply in_or_app. left.
    rewrite <- E. now apply in_map.
Qed.

Lemma repr_copy_into : forall m s d src, repr m d -> repr s src ->
  exists m', u_map_copy_into m s = Ret (U_OK, m') /\ repr m' (scopy_into d src).
Proof.
  intros m s d src R S. unfold u_map_copy_into. rewrite (repr_keys s src S).
  destruct (repr_nodup _ _ S) as [N NE]. pose proof (repr_ovalues _ _ S) as OV.
  assert (G : forall post pre m d, src = pre ++ post -> repr m d ->
    exists m', copy_into_loop m s (map (fun p => Some (fst p)) post ++ [None]) = Ret (U_OK, m') /\
      repr m' (scopy_into d post)).
  { clear m d R. induction post as [|p post IH]; intros pre m d E R.
    - simpl. eauto.
    - cbn [map app copy_into_loop].
      assert (GV : get_str s (fst p) = Ret (snd p)).
      { rewrite (repr_get s src _ S). f_equal. rewrite E. apply sval_self. now rewrite <- E. }
      unfold get_str in GV. destruct (u_map_get s (Some (fst p))) as [o|]; [|discriminate].
      unfold bind in GV. unfold bind at 1. rewrite GV. unfold bind at 1.
      assert (Ip : In p src) by (rewrite E; apply in_or_app; right; left; auto).
      destruct (repr_put m d (fst p) (snd p) R) as (m1 & P & R1).
      + intros Q. apply NE. rewrite <- Q. now apply in_map.
      + rewrite Forall_forall in OV. auto.
      + rewrite P. unfold bind at 1. cbn [fst snd]. change (U_OK =? U_OK) with true. cbv iota.
        apply (IH (pre ++ [p]) m1 _); auto. now rewrite <- app_assoc. }
  destruct (G src [] m d eq_refl R) as (m' & C & R'). eauto.
Qed.

(** facts about the dictionary itself *)
Lemma sget_sput_same : forall k v d, sget (sput k v d) k = Some v.
Proof.
  intros k v d. unfold sget, sfind. induction d as [|p d IH]; simpl.
  - now rewrite str_eqb_refl.
  - destruct (str_eqb (fst p) k) eqn:E; simpl; rewrite E; auto.
Qed.

Lemma sget_sput_other : forall k x v d, x <> k -> sget (sput k v d) x = sget d x.
Proof.
  intros k x v d N. unfold sget, sfind. induction d as [|p d IH]; simpl.
  - replace (str_eqb k x) with false; auto. symmetry. apply str_eqb_neq. congruence.
  - destruct (str_eqb (fst p) k) eqn:E; simpl.
    + apply str_eqb_eq in E. replace (str_eqb (fst p) x) with false; auto.
      symmetry. apply str_eqb_neq. congruence.
    + destruct (str_eqb (fst p) x); auto.
Qed.

Lemma shas_sget : forall d k, shas d k = match sget d k with Some _ => true | None => false end.
Proof. intros. unfold shas, sget, sfind. rewrite existsb_find. destruct (find _ d); auto. Qed.

Lemma sweight_nonneg : forall d, 0 <= sweight d.
Proof.
  induction d as [|p d IH]; simpl; [lia|]. unfold osize. destruct (snd p); [pose proof (zlen_nonneg _ s)|]; lia.
Qed.

Lemma sweight_get : forall d k s, sget d k = Some (Some s) -> zlen s + 1 <= sweight d.
Proof.
  induction d as [|p d IH]; intros k s; unfold sget, sfind; simpl; [discriminate|].
  destruct (str_eqb (fst p) k) eqn:E.
  - intros H; injection H as H. rewrite H. cbn [osize]. pose proof (sweight_nonneg d). lia.
  - intros H. specialize (IH k s H). unfold osize. destruct (snd p) as [t|]; [pose proof (zlen_nonneg _ t)|]; lia.
Qed.

Lemma sweight_sput : forall d k v, sweight (sput k v d) =
  sweight d + osize v - match sget d k with Some o => osize o | None => 0 end.
Proof.
  induction d as [|p d IH]; intros k v; unfold sget, sfind; simpl; [lia|].
  destruct (str_eqb (fst p) k) eqn:E; simpl; [lia|]. rewrite IH. unfold sget, sfind. lia.
Qed.

Lemma no_null_sput : forall d k v, no_null d -> v <> None -> no_null (sput k v d).
Proof.
  induction d as [|p d IH]; intros k v N V; simpl.
  - constructor; auto.
  - inversion N; subst. destruct (str_eqb (fst p) k); constructor; auto. apply IH; auto.
Qed.

Lemma no_null_sget : forall d k, no_null d -> sget d k <> Some None.
Proof.
  intros d k N. unfold sget, sfind. destruct (find _ d) as [p|] eqn:F; [|discriminate].
  apply find_some in F as [I _]. unfold no_null in N. rewrite Forall_forall in N. specialize (N p I). congruence.
Qed.
