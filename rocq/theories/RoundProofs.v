(** Proofs about answers and requests on the wire. *)
From Coq Require Import String ZArith Bool List Lia.
From Verif Require Import Base BaseFacts StrModel ClientSpec RoundSpec.
Import ListNotations.
Open Scope Z_scope.

Lemma lines_of_line : forall l r, ~ In 10 l -> lines_of (l ++ 10 :: r) = (l ++ [10]) :: lines_of r.
Proof.
  induction l as [|c l IH]; intros r N; cbn [app lines_of]; [reflexivity|]. destruct (Z.eqb_spec c 10) as [->|_]; [exfalso; apply N; left; reflexivity|].
  rewrite IH by (intros I; apply N; right; exact I). reflexivity.
Qed.
Lemma lines_of_head : forall status fs, ~ In 10 status -> Forall field_ok fs -> lines_of (head_text status fs) = (status ++ [13; 10]) :: map field_line fs ++ [[13; 10]].
Proof.
  intros status fs NS F. unfold head_text. replace (status ++ [13; 10] ++ flat_map field_line fs ++ [13; 10]) with ((status ++ [13]) ++ 10 :: flat_map field_line fs ++ [13; 10]) by (rewrite <- app_assoc; reflexivity).
  rewrite lines_of_line; [|intros I; apply in_app_or in I as [I|[I|[]]]; [tauto|discriminate]]. rewrite <- app_assoc. cbn [app]. f_equal.
  induction F as [|f fs (_ & _ & _ & N1 & _ & _ & N2 & _) F IH]; [reflexivity|]. cbn [flat_map map app]. rewrite <- app_assoc. unfold field_line at 1.
  replace ((fst f ++ 58 :: 32 :: snd f ++ [13; 10]) ++ flat_map field_line fs ++ [13; 10]) with ((fst f ++ 58 :: 32 :: snd f ++ [13]) ++ 10 :: flat_map field_line fs ++ [13; 10])
    by (rewrite <- !app_assoc; cbn [app]; rewrite <- !app_assoc; reflexivity).
  rewrite lines_of_line.
  - rewrite IH. f_equal. unfold field_line. rewrite <- app_assoc. cbn [app]. rewrite <- app_assoc. reflexivity.
  - intros I. apply in_app_or in I as [I|[I|[I|I]]]; try tauto; try discriminate. apply in_app_or in I as [I|[I|[]]]; [tauto|discriminate].
Qed.
Lemma head_written : forall status fs, status_ok status -> Forall field_ok fs ->
  Forall2 written_as (Status status :: map (fun f => Field (fst f) (snd f)) fs ++ [Blank]) ((status ++ [13; 10]) :: map field_line fs ++ [[13; 10]]).
Proof.
  intros status fs (NE & B & C & _) F. assert (CRLF : spaces [13; 10]) by (repeat constructor). constructor; [now apply wa_status|]. apply Forall2_app; [|constructor; [now apply wa_blank|constructor]].
  induction F as [|f fs (N1 & B1 & C1 & _ & S1 & B2 & _ & S2) F IH]; [constructor|]. cbn [map]. constructor; [|exact IH]. unfold field_line.
  change (fst f ++ 58 :: 32 :: snd f ++ [13; 10]) with (fst f ++ [58] ++ [32] ++ snd f ++ [13; 10]). apply wa_field; auto; [repeat constructor|discriminate].
Qed.
Lemma fields_of_head : forall status fs, fields_of (Status status :: map (fun f => Field (fst f) (snd f)) fs ++ [Blank]) = fs.
Proof. intros status fs. cbn [fields_of]. induction fs as [|[k v] fs IH]; [reflexivity|]. cbn [map app fields_of fst snd]. now rewrite IH. Qed.
Lemma last_status_head : forall status fs, last_status (Status status :: map (fun f => Field (fst f) (snd f)) fs ++ [Blank]) = Some status.
Proof. intros status fs. cbn [last_status]. replace (last_status (map (fun f => Field (fst f) (snd f)) fs ++ [Blank])) with (@None str); [reflexivity|]. induction fs as [|f fs IH]; [reflexivity|]. cbn [map app last_status]. now rewrite <- IH. Qed.

Lemma mixed_in : forall A (a b c : list A) x, mixed a b c -> In x c <-> In x a \/ In x b.
Proof. intros A a b c x M. induction M as [|y a b c M IH|y a b c M IH]; cbn [In]; [tauto| |]; rewrite IH; tauto. Qed.
Lemma mixed_filter : forall A (p : A -> bool) a b c, mixed a b c -> (forall x, In x b -> p x = false) -> filter p c = filter p a.
Proof.
  intros A p a b c M. induction M as [|y a b c M IH|y a b c M IH]; intros N; cbn [filter]; [reflexivity| |].
  - rewrite IH by exact N. reflexivity.
  - rewrite (N y (or_introl eq_refl)). apply IH. intros x I. apply N. right. exact I.
Qed.
(** the only field with its name *)
Lemma values_single : forall fs a k (v : str) b, fs = a ++ (k, v) :: b -> (forall f, In f (a ++ b) -> lowers (fst f) <> lowers k) -> values_of k fs = [v].
Proof.
  intros fs a k v b -> N. unfold values_of. rewrite filter_app. cbn [filter fst]. rewrite str_eqb_refl.
  assert (Z : forall l, (forall f, In f l -> lowers (fst f) <> lowers k) -> filter (fun p : str * str => str_eqb (lowers (fst p)) (lowers k)) l = []).
  { induction l as [|f l IH]; intros H; [reflexivity|]. cbn [filter]. replace (str_eqb (lowers (fst f)) (lowers k)) with false by (symmetry; apply str_eqb_neq, H; left; reflexivity). apply IH. intros g I. apply H. right. exact I. }
  rewrite (Z a), (Z b); [reflexivity| |]; intros f I; apply N, in_or_app; auto.
Qed.
