(** printf("%d") / printf("%zu"): decimal text of an integer, and its reading back. *)
From Coq Require Import ZArith Bool List Lia.
From Verif Require Import Base BaseFacts.
Import ListNotations.
Open Scope Z_scope.

Fixpoint dec_go (fuel : nat) (n : Z) (acc : str) : str :=
  match fuel with
  | O => acc
  | S f => let acc' := (48 + n mod 10) :: acc in if n <? 10 then acc' else dec_go f (n / 10) acc'
  end.
(** decimal text of n >= 0 *)
Definition udec (n : Z) : str := dec_go (S (Z.to_nat (Z.log2 n))) n [].
(** decimal text of any integer *)
Definition sdec (n : Z) : str := if n <? 0 then 45 :: udec (- n) else udec n.

Definition digit (c : Z) : Prop := 48 <= c <= 57.
Definition dec_value (s : str) : Z := fold_left (fun a c => 10 * a + (c - 48)) s 0.

Lemma fold_dec : forall s a, fold_left (fun a c => 10 * a + (c - 48)) s a = a * 10 ^ zlen s + dec_value s.
Proof.
  unfold dec_value. induction s as [|c s IH]; intros a.
  - simpl. unfold zlen. simpl. lia.
  - cbn [fold_left]. rewrite IH. rewrite (IH (10 * 0 + (c - 48))). rewrite zlen_cons.
    pose proof (zlen_nonneg _ s). rewrite Z.pow_add_r by lia. lia.
Qed.

Lemma dec_value_cons : forall c s, dec_value (c :: s) = (c - 48) * 10 ^ zlen s + dec_value s.
Proof. intros. unfold dec_value at 1. cbn [fold_left]. rewrite fold_dec. lia. Qed.

Lemma dec_go_ok : forall fuel n acc, 0 <= n < 2 ^ Z.of_nat fuel -> (0 < fuel)%nat -> Forall digit acc ->
  Forall digit (dec_go fuel n acc) /\ dec_value (dec_go fuel n acc) = n * 10 ^ zlen acc + dec_value acc /\
  dec_go fuel n acc <> [].
Proof.
  induction fuel as [|f IH]; intros n acc N F D; [lia|]. cbn [dec_go].
  pose proof (Z.mod_pos_bound n 10 ltac:(lia)) as M. pose proof (Z.div_mod n 10 ltac:(lia)) as DM.
  assert (D' : Forall digit ((48 + n mod 10) :: acc)) by (constructor; auto; unfold digit; lia).
  destruct (n <? 10) eqn:E.
  - apply Z.ltb_lt in E. split; auto. split; [|discriminate]. rewrite dec_value_cons.
    rewrite Z.mod_small by lia. lia.
  - apply Z.ltb_ge in E. replace (2 ^ Z.of_nat (S f)) with (2 * 2 ^ Z.of_nat f) in N
      by (rewrite Nat2Z.inj_succ, Z.pow_succ_r by lia; lia).
    assert (f <> 0%nat) by (intro; subst f; simpl in N; lia).
    destruct (IH (n / 10) ((48 + n mod 10) :: acc)) as (A & B & C); auto; [|lia|].
    + split; [apply Z.div_pos; lia|]. apply Z.div_lt_upper_bound; lia.
    + split; auto. split; auto. rewrite B, dec_value_cons, zlen_cons. pose proof (zlen_nonneg _ acc).
      rewrite Z.pow_add_r by lia. change (10 ^ 1) with 10. replace (48 + n mod 10 - 48) with (n mod 10) by lia.
      set (p := 10 ^ zlen acc) in *. transitivity ((10 * (n / 10) + n mod 10) * p + dec_value acc); [ring|]. rewrite <- DM. reflexivity.
Qed.

Lemma udec_ok : forall n, 0 <= n -> Forall digit (udec n) /\ dec_value (udec n) = n /\ udec n <> [].
Proof.
  intros n N. unfold udec.
  destruct (dec_go_ok (S (Z.to_nat (Z.log2 n))) n []) as (A & B & C); [|lia|constructor|].
  - split; auto. rewrite Nat2Z.inj_succ, Z2Nat.id by apply Z.log2_nonneg.
    destruct (Z.eq_dec n 0) as [->|]; [reflexivity|]. now apply Z.log2_spec; lia.
  - split; auto. split; auto. rewrite B. change (zlen (@nil Z)) with 0. change (10 ^ 0) with 1. unfold dec_value. simpl. lia.
Qed.

Lemma udec_cstr : forall n, 0 <= n -> cstr (udec n).
Proof. intros n N. destruct (udec_ok n N) as [D _]. eapply Forall_impl; [|exact D]. unfold digit. intros; simpl in *; lia. Qed.

Lemma udec_inj : forall a b, 0 <= a -> 0 <= b -> udec a = udec b -> a = b.
Proof. intros a b A B E. destruct (udec_ok a A) as (_ & <- & _). destruct (udec_ok b B) as (_ & <- & _). now rewrite E. Qed.
