(** C10, continued: the search of a value without regard to case is a search of whole values. *)
From Coq Require Import String ZArith Bool List Lia.
From Verif Require Import Base BaseFacts UMapModel UMapSpec UMapProofs UMapReach UMapProps.
Import ListNotations.
Open Scope Z_scope.

(** the text that stands in the entry, up to its first NUL, is [v] but for the case *)
Definition same_text (v : str) (e : entry) : Prop := exists t, read_cstr (eb e) = Ret t /\ lowers t = lowers v.

Lemma block_compare : forall b v, written b -> cstr v -> exists r t, strcasecmp_block (b ++ [Some 0]) v = Ret r /\ read_cstr (b ++ [Some 0]) = Ret t /\ (r = true <-> lowers t = lowers v).
Proof.
  induction b as [|o b IH]; intros v W C.
  - cbn [app strcasecmp_block read_cstr]. destruct v as [|x v]; eexists; exists []; (split; [reflexivity|]); (split; [reflexivity|]); split; (reflexivity || discriminate || (intros; discriminate)).
  - inversion W as [|? ? N W']; subst. destruct o as [c|]; [|congruence]. cbn [app strcasecmp_block read_cstr]. destruct (Z.eqb_spec c 0) as [->|NZ].
    + destruct v as [|x v]; eexists; exists []; (split; [reflexivity|]); (split; [reflexivity|]); split; (reflexivity || discriminate || (intros; discriminate)).
    + destruct (IH (tl v) W') as (r & t & E & R & S); [destruct v; [constructor|inversion C; assumption]|]. rewrite R. cbn [bind].
      destruct v as [|x v]; [eexists; exists (c :: t); split; [reflexivity|]; split; [reflexivity|]; split; intros; discriminate|]. cbn [tl] in *.
      destruct (Z.eqb_spec (lower c) (lower x)) as [L|L].
      * exists r, (c :: t). split; [exact E|]. split; [reflexivity|]. rewrite S. unfold lowers. cbn [map]. rewrite L. split; [intros ->; reflexivity|intros [= H]; exact H].
      * exists false, (c :: t). split; [reflexivity|]. split; [reflexivity|]. split; [discriminate|]. unfold lowers. cbn [map]. intros [= H _]. contradiction.
Qed.
Lemma entries_of : forall m es, reachable false m -> layout m es -> Forall (fun e => exists w, written w /\ eb e = w ++ [Some 0]) es.
Proof.
  intros m es R L. destruct (reachable_good _ _ R) as (es' & L' & (OK & _) & W). specialize (W eq_refl). rewrite (layout_unique _ _ _ L L') in *.
  unfold entries_written in W. rewrite Forall_forall in *. intros e I. destruct (OK e I) as (_ & _ & _ & K & _). specialize (W e I). rewrite K in W. apply Forall_app in W as [W _]. exists (evalue e). split; [exact W|exact K].
Qed.

(** C10. For every map and every text: u_map_has_value_case answers whether an entry has this text but for the case, and u_map_remove_from_value_case removes the entries that have it,
    keeps the others in their order, and says whether there was one. *)
Theorem C10_case_exact : forall m es v, reachable false m -> layout m es -> cstr v ->
  exists found c m', u_map_has_value_case m (Some v) = Ret found /\ (found = true <-> exists e, In e es /\ same_text v e) /\
    u_map_remove_from_value_case m (Some v) = Ret (c, m') /\ c = (if found then U_OK else U_ERROR_NOT_FOUND) /\
    exists es' keep, layout m' es' /\ es' = filter keep es /\ forall e, In e es -> (keep e = false <-> same_text v e).
Proof.
  intros m es v R L C. pose proof (entries_of m es R L) as F.
  assert (A : forall e, In e es -> exists r, strcasecmp_block (eb e) v = Ret r /\ (r = true <-> same_text v e)).
  { intros e I. rewrite Forall_forall in F. destruct (F e I) as (w & W & E). destruct (block_compare w v W C) as (r & t & B & RD & S). exists r. rewrite E. split; [exact B|]. rewrite S. unfold same_text. rewrite E. split; [intros H; eauto|].
    intros (t' & RT & H). congruence. }
  destruct (remove_value_case_layout m es v L) as (m' & RM & LM). { intros e IN. destruct (A e IN) as (r & E & _). rewrite E. exact I. }
  set (q := tpb (fun e => strcasecmp_block (eb e) v)) in *.
  assert (Q : forall e, In e es -> (q e = true <-> same_text v e)). { intros e I. destruct (A e I) as (r & E & S). unfold q, tpb. rewrite E. destruct r; tauto. }
  exists (existsb q es), (if existsb q es then U_OK else U_ERROR_NOT_FOUND), m'. split.
  - unfold u_map_has_value_case. destruct L as (_ & V & _). rewrite V. clear - A. subst q. induction es as [|e es IH]; [reflexivity|]. cbn [map app has_value_case_go existsb].
    destruct (A e (or_introl eq_refl)) as (r & E & _). unfold tpb at 1. rewrite E. cbn [bind]. destruct r; [reflexivity|]. apply IH. intros; apply A; now right.
  - split; [|split; [exact RM|split; [reflexivity|]]].
    + rewrite existsb_exists. split; intros (e & I & H); exists e; (split; [exact I|]); now apply (Q e I).
    + exists (filter (fun e => negb (q e)) es), (fun e => negb (q e)). split; [exact LM|]. split; [reflexivity|]. intros e I. rewrite negb_false_iff. now apply Q.
Qed.
Print Assumptions C10_case_exact.

(** two entries with one text in two cases, one with a longer text *)
Definition c10_m : umap := match (do a <- u_map_put u_map_init (Some (bs "a")) (Some (bs "Yes")); do b <- u_map_put (snd a) (Some (bs "b")) (Some (bs "yes!")); u_map_put (snd b) (Some (bs "c")) (Some (bs "YES"))) with Ret x => snd x | UB _ => u_map_init end.
Example C10_case_ex : u_map_count c10_m = 3 /\ u_map_has_value_case c10_m (Some (bs "yEs")) = Ret true /\ u_map_has_value_case c10_m (Some (bs "ye")) = Ret false /\
  exists m', u_map_remove_from_value_case c10_m (Some (bs "yes")) = Ret (0, m') /\ keys m' = [Some (bs "b"); None].
Proof. split; [vm_compute; reflexivity|]. split; [vm_compute; reflexivity|]. split; [vm_compute; reflexivity|]. eexists. split; vm_compute; reflexivity. Qed.
Example C10_case_hyps : reachable false ex_m1 /\ (exists es, layout ex_m1 es /\ same_text (bs "X") (nth 1 es (mk_entry [] [] 0))) /\ u_map_has_value_case ex_m1 (Some (bs "X")) = Ret true.
Proof.
  split; [apply ex_m1_reachable|]. split; [|vm_compute; reflexivity].
  exists [mk_entry (bs "Key") (cblock (bs "abcd") ++ [Some 0]) 5; mk_entry (bs "other") (cblock (bs "x") ++ [Some 0]) 2]. split; [vm_compute; auto|]. exists (bs "x"). split; vm_compute; reflexivity.
Qed.
