(** Facts about the text functions of StrModel. *)
From Coq Require Import String ZArith Bool List Lia.
From Verif Require Import Base BaseFacts StrModel NegoModel NegoSpec.
Import ListNotations.
Open Scope Z_scope.

Lemma isspace_spec : forall c, isspace c = true <-> space c.
Proof.
  intros c. unfold isspace, space. rewrite orb_true_iff, andb_true_iff, Z.eqb_eq, !Z.leb_le. tauto.
Qed.
Lemma isspace_false : forall c, isspace c = false <-> ~ space c.
Proof. intros c. rewrite <- isspace_spec. destruct (isspace c); split; congruence. Qed.

Lemma lstrip_spaces : forall a s, Forall space a -> lstrip (a ++ s) = lstrip s.
Proof. induction 1 as [|c a H _ IH]; cbn [app lstrip]; auto. apply isspace_spec in H. now rewrite H. Qed.

Lemma lstrip_ok : forall s, exists a, s = a ++ lstrip s /\ Forall space a /\ (forall c r, lstrip s = c :: r -> ~ space c).
Proof.
  induction s as [|c s IH]; cbn [lstrip].
  - exists []. split; auto. split; [constructor|discriminate].
  - destruct (isspace c) eqn:E.
    + destruct IH as (a & H1 & H2 & H3). exists (c :: a). split; [cbn; now rewrite <- H1|]. split; [constructor; auto; now apply isspace_spec|exact H3].
    + exists []. split; auto. split; [constructor|]. intros c' r H. injection H as <- _. now apply isspace_false.
Qed.

Lemma rstrip_ok : forall s, exists b, s = rstrip s ++ b /\ Forall space b /\ (forall r c, rstrip s = r ++ [c] -> ~ space c).
Proof.
  intros s. unfold rstrip. destruct (lstrip_ok (rev s)) as (a & H1 & H2 & H3). exists (rev a). split; [|split].
  - rewrite <- rev_app_distr, <- H1. now rewrite rev_involutive.
  - now apply Forall_rev.
  - intros r c H. apply (f_equal (@rev _)) in H. rewrite rev_involutive, rev_app_distr in H. cbn in H. eauto.
Qed.

Lemma trim_trimmed : forall s, trimmed s (trim s).
Proof.
  intros s. unfold trim. destruct (lstrip_ok s) as (a & A1 & A2 & A3). destruct (rstrip_ok (lstrip s)) as (b & B1 & B2 & B3).
  exists a, b. split; [now rewrite <- B1|]. split; auto. split; auto. split; auto.
  intros c r H. apply (A3 c (r ++ b)). now rewrite B1, H.
Qed.

Lemma trimmed_trim : forall s t, trimmed s t -> t = trim s.
Proof.
  intros s t (a & b & -> & A & B & H1 & H2). unfold trim. rewrite lstrip_spaces by auto.
  destruct (rev_case _ t) as [->|(r & c & ->)].
  - cbn [app]. rewrite <- (app_nil_r b). rewrite lstrip_spaces by auto. reflexivity.
  - assert (N : ~ space c) by (eapply H2; reflexivity).
    assert (L : lstrip ((r ++ [c]) ++ b) = (r ++ [c]) ++ b).
    { destruct r as [|x r]; cbn [app lstrip].
      - apply isspace_false in N. now rewrite N.
      - specialize (H1 x (r ++ [c]) eq_refl). apply isspace_false in H1. now rewrite H1. }
    rewrite L. unfold rstrip. rewrite !rev_app_distr. rewrite lstrip_spaces by (now apply Forall_rev).
    cbn [rev app lstrip]. apply isspace_false in N. rewrite N. cbn [rev]. now rewrite rev_involutive.
Qed.

Lemma trimmed_iff : forall s t, trimmed s t <-> t = trim s.
Proof. intros. split; [apply trimmed_trim|intros ->; apply trim_trimmed]. Qed.

Lemma trim_incl : forall s c, In c (trim s) -> In c s.
Proof.
  intros s c I. destruct (trim_trimmed s) as (a & b & H & _). rewrite H. apply in_app_iff. right. apply in_app_iff. now left.
Qed.

Lemma trim_idem : forall s, trim (trim s) = trim s.
Proof.
  intros s. symmetry. apply trimmed_trim. destruct (trim_trimmed s) as (a & b & _ & _ & _ & H1 & H2).
  exists [], []. rewrite app_nil_r. repeat (split; auto).
Qed.

Lemma trim_left_trim : forall s, trim (trim_left s) = trim s.
Proof.
  intros s. unfold trim_left. destruct (forallb isspace s) eqn:F; auto.
  destruct (trim_trimmed s) as (a' & b' & E3 & A' & B' & T1 & T2).
  assert (X : rstrip s = a' ++ trim s).
  { unfold rstrip. rewrite E3 at 1. rewrite !rev_app_distr, <- app_assoc, lstrip_spaces by (now apply Forall_rev).
    destruct (rev_case _ (trim s)) as [N|(r & c & N)].
    - exfalso. rewrite N in E3. cbn in E3. rewrite E3 in F. rewrite forallb_app in F.
      assert (G : forall l, Forall space l -> forallb isspace l = true).
      { induction 1; cbn; auto. apply isspace_spec in H. now rewrite H. }
      now rewrite !G in F.
    - assert (NS : ~ space c) by (eapply T2; exact N). apply isspace_false in NS. rewrite N. rewrite rev_app_distr. cbn [rev app lstrip]. rewrite NS.
      cbn [rev]. rewrite rev_app_distr, !rev_involutive. now rewrite <- app_assoc. }
  symmetry. apply trimmed_trim. rewrite X. exists a', []. rewrite app_nil_r. repeat (split; auto).
Qed.

(** ** Lists *)
Lemma split_nonempty : forall sep s, split_string sep s <> [].
Proof.
  intros sep s. destruct s as [|c s]; [discriminate|]. cbn. destruct (c =? sep); [discriminate|].
  destruct (split_string sep s); discriminate.
Qed.

Lemma join_cons : forall sep x l, l <> [] -> join sep (x :: l) = x ++ sep ++ join sep l.
Proof. intros sep x l H. destruct l; [congruence|reflexivity]. Qed.

Lemma split_items : forall sep s, items sep s (split_string sep s).
Proof.
  intros sep s. split; [apply split_nonempty|]. induction s as [|c s [IH1 IH2]].
  - split; [constructor; auto|reflexivity].
  - cbn [split_string]. destruct (c =? sep) eqn:E.
    + apply Z.eqb_eq in E. subst c. split; [constructor; auto|]. rewrite join_cons by apply split_nonempty. cbn [app]. now f_equal.
    + apply Z.eqb_neq in E. destruct (split_string sep s) as [|h t] eqn:S; [now apply split_nonempty in S|].
      inversion IH1 as [|? ? I1 I2]; subst. split.
      * constructor; auto. intros [H|H]; [congruence|contradiction].
      * destruct t; [cbn in *; now f_equal|]. rewrite join_cons in * by discriminate. cbn [app]. now f_equal.
Qed.

Lemma split_nosep : forall sep s, ~ In sep s -> split_string sep s = [s].
Proof.
  induction s as [|c s IH]; intros N; auto. cbn [split_string]. destruct (c =? sep) eqn:E.
  - apply Z.eqb_eq in E. subst. exfalso. apply N. now left.
  - rewrite IH by (intros I; apply N; now right). reflexivity.
Qed.

Lemma split_app : forall sep a b, ~ In sep a -> split_string sep (a ++ sep :: b) = a :: split_string sep b.
Proof.
  induction a as [|c a IH]; intros b N; cbn [app split_string].
  - now rewrite Z.eqb_refl.
  - destruct (c =? sep) eqn:E.
    + apply Z.eqb_eq in E. subst. exfalso. apply N. now left.
    + rewrite IH by (intros I; apply N; now right). reflexivity.
Qed.

Lemma items_split : forall sep s l, items sep s l -> l = split_string sep s.
Proof.
  intros sep s l (N & F & ->). induction l as [|x l IH]; [congruence|]. inversion F; subst. destruct l as [|y l].
  - cbn [join]. now rewrite split_nosep.
  - rewrite join_cons by discriminate. cbn [app]. rewrite split_app by auto. f_equal. apply IH; auto. discriminate.
Qed.

Lemma items_iff : forall sep s l, items sep s l <-> l = split_string sep s.
Proof. intros. split; [apply items_split|intros ->; apply split_items]. Qed.

Lemma value_of_iff : forall sep s v, value_of sep s v <-> exists x, In x (split_string sep s) /\ v = trim x.
Proof.
  intros sep s v. split.
  - intros (l & x & I & J & T). apply items_split in I. subst l. apply trimmed_trim in T. eauto.
  - intros (x & J & ->). exists (split_string sep s), x. split; [apply split_items|]. split; auto. apply trim_trimmed.
Qed.

Lemma has_trimmed_iff : forall sep m x, has_trimmed (split_string sep m) x = true <-> value_of sep m (trim x).
Proof.
  intros sep m x. rewrite value_of_iff. unfold has_trimmed. rewrite existsb_exists. split; intros (y & I & E); exists y; split; auto.
  - symmetry. now apply str_eqb_eq.
  - apply str_eqb_eq. now symmetry.
Qed.

Lemma join_app : forall sep l x, l <> [] -> join sep (l ++ [x]) = join sep l ++ sep ++ x.
Proof.
  induction l as [|y l IH]; intros x N; [congruence|]. destruct l as [|z l]; [reflexivity|].
  change ((y :: z :: l) ++ [x]) with (y :: ((z :: l) ++ [x])). rewrite !join_cons by discriminate. rewrite IH by discriminate.
  now rewrite <- !app_assoc.
Qed.
