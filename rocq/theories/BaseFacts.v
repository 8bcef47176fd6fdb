(** General lemmas about the vocabulary of Base.v and about lists. *)
From Coq Require Import ZArith Bool List Lia.
From Verif Require Import Base.
Import ListNotations.
Open Scope Z_scope.

Lemma str_eqb_eq : forall a b, str_eqb a b = true <-> a = b.
Proof.
  induction a as [|x a IH]; destruct b as [|y b]; simpl; split; intro H; try congruence; try discriminate.
  - apply andb_true_iff in H as [H1 H2]. apply Z.eqb_eq in H1. apply IH in H2. congruence.
  - inversion H; subst. rewrite Z.eqb_refl. simpl. now apply IH.
Qed.

Lemma str_eqb_refl : forall a, str_eqb a a = true.
Proof. intro a. now apply str_eqb_eq. Qed.

Lemma str_eqb_neq : forall a b, str_eqb a b = false <-> a <> b.
Proof.
  intros a b. destruct (str_eqb a b) eqn:E.
  - apply str_eqb_eq in E. split; [discriminate|congruence].
  - split; [|auto]. intros _ C. apply str_eqb_eq in C. congruence.
Qed.

Lemma str_eqb_sym : forall a b, str_eqb a b = str_eqb b a.
Proof.
  intros a b. destruct (str_eqb b a) eqn:E.
  - apply str_eqb_eq in E; subst; apply str_eqb_refl.
  - apply str_eqb_neq in E. apply str_eqb_neq. congruence.
Qed.

Lemma str_eq_dec : forall a b : str, {a = b} + {a <> b}.
Proof. apply list_eq_dec. apply Z.eq_dec. Qed.

Lemma str_caseeqb_refl : forall a, str_caseeqb a a = true.
Proof. intro. apply str_eqb_refl. Qed.

Lemma lower_idem : forall c, lower (lower c) = lower c.
Proof.
  intro c. unfold lower.
  destruct ((65 <=? c) && (c <=? 90)) eqn:E; [|now rewrite E].
  apply andb_true_iff in E as [E1 E2]. apply Z.leb_le in E1, E2.
  destruct ((65 <=? c + 32) && (c + 32 <=? 90)) eqn:F; [|reflexivity].
  apply andb_true_iff in F as [F1 F2]. apply Z.leb_le in F1, F2. lia.
Qed.

Lemma lower_0 : forall c, lower c = 0 <-> c = 0.
Proof.
  intro c. unfold lower.
  destruct ((65 <=? c) && (c <=? 90)) eqn:E; [|tauto].
  apply andb_true_iff in E as [E1 E2]. apply Z.leb_le in E1, E2. lia.
Qed.

Lemma prefixb_true : forall p s, prefixb p s = true <-> exists r, s = p ++ r.
Proof.
  induction p as [|x p IH]; intros s; simpl.
  - split; eauto.
  - destruct s as [|y s].
    + split; [discriminate|]. intros [r H]; discriminate.
    + rewrite andb_true_iff, Z.eqb_eq, IH. split.
      * intros [-> [r ->]]. eauto.
      * intros [r H]. inversion H; subst. eauto.
Qed.

Lemma containsb_true : forall h n, containsb h n = true <-> exists a b, h = a ++ n ++ b.
Proof.
  induction h as [|x h IH]; intros n; simpl.
  - rewrite orb_false_r, prefixb_true. split.
    + intros [r H]. exists [], r. auto.
    + intros (a & b & H). destruct a; [|discriminate]. exists b. auto.
  - rewrite orb_true_iff, prefixb_true, IH. split.
    + intros [[r H]|(a & b & H)].
      * exists [], r. auto.
      * exists (x :: a), b. simpl. now rewrite H.
    + intros (a & b & H). destruct a as [|y a].
      * left. exists b. auto.
      * right. inversion H; subst. eauto.
Qed.

Lemma cstrb_true : forall s, cstrb s = true <-> cstr s.
Proof.
  intros s. unfold cstrb, cstr. rewrite forallb_forall, Forall_forall.
  split; intros H x I; specialize (H x I); rewrite ?andb_true_iff, ?Z.ltb_lt in *; tauto.
Qed.

Lemma zlen_nonneg : forall A (l : list A), 0 <= zlen l.
Proof. intros; unfold zlen; lia. Qed.

Lemma zlen_app : forall A (a b : list A), zlen (a ++ b) = zlen a + zlen b.
Proof. intros; unfold zlen; rewrite app_length; lia. Qed.

Lemma zlen_cons : forall A (x : A) b, zlen (x :: b) = 1 + zlen b.
Proof. intros; unfold zlen; simpl length; lia. Qed.

Lemma zlen_map : forall A B (f : A -> B) l, zlen (map f l) = zlen l.
Proof. intros; unfold zlen; now rewrite map_length. Qed.

Lemma zlen_zfirstn : forall A (l : list A) n, 0 <= n <= zlen l -> zlen (zfirstn n l) = n.
Proof. intros; unfold zlen, zfirstn in *; rewrite firstn_length; lia. Qed.

Lemma zlen_zskipn : forall A (l : list A) n, 0 <= n <= zlen l -> zlen (zskipn n l) = zlen l - n.
Proof. intros; unfold zlen, zskipn in *; rewrite skipn_length; lia. Qed.

Lemma zlen_0 : forall A (l : list A), zlen l = 0 -> l = [].
Proof. intros A [|x l]; unfold zlen; simpl; [auto|lia]. Qed.

Lemma zfirstn_0 : forall A (l : list A), zfirstn 0 l = [].
Proof. reflexivity. Qed.

Lemma zfirstn_all : forall A (l : list A), zfirstn (zlen l) l = l.
Proof. intros; unfold zfirstn, zlen; rewrite Nat2Z.id; apply firstn_all. Qed.

Lemma zfirstn_app_exact : forall A (a b : list A) n, n = zlen a -> zfirstn n (a ++ b) = a.
Proof.
  intros; subst. unfold zfirstn, zlen. rewrite Nat2Z.id.
  rewrite firstn_app, Nat.sub_diag, firstn_all. simpl. apply app_nil_r.
Qed.

Lemma zskipn_app_exact : forall A (a b : list A) n, n = zlen a -> zskipn n (a ++ b) = b.
Proof.
  intros; subst. unfold zskipn, zlen. rewrite Nat2Z.id.
  rewrite skipn_app, Nat.sub_diag, skipn_all. reflexivity.
Qed.

Lemma zfirstn_zskipn : forall A (l : list A) n, zfirstn n l ++ zskipn n l = l.
Proof. intros; apply firstn_skipn. Qed.

Lemma memcpy_ok : forall dst off src len,
  0 <= off -> 0 <= len -> off + len <= zlen dst -> len <= zlen src ->
  memcpy dst off src len = Ret (zfirstn off dst ++ zfirstn len src ++ zskipn (off + len) dst).
Proof.
  intros. unfold memcpy.
  replace (0 <=? off) with true by (symmetry; apply Z.leb_le; lia).
  replace (0 <=? len) with true by (symmetry; apply Z.leb_le; lia).
  replace (off + len <=? zlen dst) with true by (symmetry; apply Z.leb_le; lia).
  replace (len <=? zlen src) with true by (symmetry; apply Z.leb_le; lia).
  reflexivity.
Qed.

Lemma nth_error_length_app : forall A (a : list A) x b, nth_error (a ++ x :: b) (length a) = Some x.
Proof. intros. rewrite nth_error_app2, Nat.sub_diag; auto. Qed.

Lemma aget_mid : forall A (a : list A) x b, aget (a ++ x :: b) (length a) = Ret x.
Proof. intros. unfold aget. now rewrite nth_error_length_app. Qed.

Lemma set_nth_mid : forall A (a : list A) x b y, set_nth (a ++ x :: b) (length a) y = a ++ y :: b.
Proof. induction a as [|z a IH]; intros; simpl; [auto|now rewrite IH]. Qed.

Lemma set_nth_length : forall A (l : list A) i y, length (set_nth l i y) = length l.
Proof. induction l; destruct i; simpl; intros; auto. Qed.

Lemma aset_mid : forall A (a : list A) x b y, aset (a ++ x :: b) (length a) y = Ret (a ++ y :: b).
Proof.
  intros. unfold aset.
  replace (length a <? length (a ++ x :: b))%nat with true
    by (symmetry; apply Nat.ltb_lt; rewrite app_length; simpl; lia).
  now rewrite set_nth_mid.
Qed.

Lemma read_cstr_block : forall s rest, cstr s -> read_cstr (block_of s ++ Some 0 :: rest) = Ret s.
Proof.
  induction s as [|c s IH]; intros rest H; simpl; [reflexivity|].
  inversion H; subst. replace (c =? 0) with false by (symmetry; apply Z.eqb_neq; lia).
  fold (block_of s). rewrite IH by assumption. reflexivity.
Qed.

Lemma cblock_split : forall s, cblock s = block_of s ++ [Some 0].
Proof. intros; unfold cblock, block_of; now rewrite map_app. Qed.

Lemma zlen_cblock : forall s, zlen (cblock s) = zlen s + 1.
Proof. intros; unfold cblock, block_of; rewrite zlen_map, zlen_app; reflexivity. Qed.

Lemma add64_small : forall a b, 0 <= a + b < two64 -> add64 a b = a + b.
Proof. intros; unfold add64; apply Z.mod_small; auto. Qed.

Lemma find_app : forall A (p : A -> bool) a b,
  find p (a ++ b) = match find p a with Some x => Some x | None => find p b end.
Proof. induction a as [|x a IH]; intros; simpl; [auto|]. destruct (p x); auto. Qed.

Lemma filter_all : forall A (p : A -> bool) l, (forall x, In x l -> p x = true) -> filter p l = l.
Proof.
  induction l as [|x l IH]; intros H; simpl; auto.
  rewrite (H x) by (left; auto). f_equal. apply IH. intros; apply H; right; auto.
Qed.

Lemma NoDup_map_filter : forall A B (f : A -> B) p l, NoDup (map f l) -> NoDup (map f (filter p l)).
Proof.
  induction l as [|x l IH]; intros H; simpl in *; auto.
  inversion H; subst. destruct (p x); simpl; auto.
  constructor; auto. rewrite in_map_iff in *. intros (y & E & I). apply H2. exists y.
  apply filter_In in I. tauto.
Qed.

Lemma rev_case : forall A (l : list A), l = [] \/ exists l' x, l = l' ++ [x].
Proof.
  intros A l. destruct l as [|a l]; auto. right. destruct (@exists_last A (a :: l)) as (l' & x & E); [discriminate|]. eauto.
Qed.
