(** Proofs about the splitting of paths and queries. *)
From Coq Require Import String ZArith Bool List Lia.
From Verif Require Import Base BaseFacts UMapProofs CopyProofs StrModel YuarelModel YuarelSpec YuarelProofs QueryModel QuerySpec.
Import ListNotations.
Open Scope Z_scope.

Fixpoint pieces (c : Z) (s : str) : list str :=
  match s with
  | [] => [[]]
  | x :: r => if x =? c then [] :: pieces c r else match pieces c r with h :: t => (x :: h) :: t | [] => [[x]] end
  end.
Lemma pieces_app : forall c a r, ~ In c a -> pieces c (a ++ c :: r) = a :: pieces c r.
Proof.
  intros c a r N. induction a as [|x a IH]; cbn [app pieces]; [now rewrite Z.eqb_refl|]. destruct (Z.eqb_spec x c); [subst; exfalso; apply N; now left|].
  rewrite IH; [reflexivity|]. intros I. apply N. now right.
Qed.
Lemma pieces_one : forall c a, ~ In c a -> pieces c a = [a].
Proof. intros c a N. induction a as [|x a IH]; cbn [pieces]; [reflexivity|]. destruct (Z.eqb_spec x c); [subst; exfalso; apply N; now left|]. rewrite IH; [reflexivity|]. intros I. apply N. now right. Qed.
Lemma pieces_unique : forall d s l, pieces_of d s l -> l = pieces d s.
Proof.
  intros d s l (N & J & F). subst s. induction l as [|x l IH]; [congruence|]. inversion F as [|? ? X F']; subst. destruct l as [|y l]; [cbn [join]; now rewrite pieces_one|].
  cbn [join]. rewrite pieces_app by exact X. f_equal. apply IH; [discriminate|exact F'].
Qed.
Lemma pieces_nonempty : forall c s, pieces c s <> [].
Proof. intros c [|x s]; cbn [pieces]; [discriminate|]. destruct (x =? c); [discriminate|]. destruct (pieces c s); discriminate. Qed.
Lemma join_pieces : forall c s, join c (pieces c s) = s.
Proof.
  induction s as [|x s IH]; [reflexivity|]. cbn [pieces]. pose proof (pieces_nonempty c s) as N. destruct (Z.eqb_spec x c) as [->|].
  - destruct (pieces c s) as [|y l]; [congruence|]. cbn [join app]. now rewrite <- IH.
  - destruct (pieces c s) as [|y l]; [congruence|]. destruct l as [|z l]; cbn [join app] in *; now rewrite <- IH.
Qed.
Lemma pieces_of_pieces : forall c s, pieces_of c s (pieces c s).
Proof.
  intros c s. split; [apply pieces_nonempty|]. split; [apply join_pieces|]. induction s as [|x s IH]; cbn [pieces]; [constructor; [intros []|constructor]|].
  destruct (Z.eqb_spec x c); [constructor; [intros []|exact IH]|]. destruct (pieces c s) as [|y l]; [constructor; [intros [|[]]; congruence|constructor]|].
  inversion IH as [|? ? Y L]; subst. constructor; [intros [|I]; [congruence|now apply Y]|exact L].
Qed.
Lemma skipn_pieces : forall c a r, ~ In c a -> filter filled (pieces c (a ++ c :: r)) = (if filled a then [a] else []) ++ filter filled (pieces c r).
Proof. intros c a r N. rewrite pieces_app by exact N. cbn [filter]. now destruct (filled a). Qed.

(** ** the path *)
Lemma skip_holds : forall s b o c, holds b o s -> c <> 0 -> exists n s', s = repeat c n ++ s' /\ hd 0 s' <> c /\ skip b (Z.of_nat o) c = Ret (Z.of_nat (o + n)) /\ filter filled (pieces c s) = filter filled (pieces c s').
Proof.
  intros s b o c H C. unfold skip, zskipn. rewrite Nat2Z.id. revert o H. induction s as [|x s IH]; intros o H.
  - exists 0%nat, []. rewrite (holds_skipn_nil _ _ H). cbn [skip_go repeat app hd]. destruct (Z.eqb_spec 0 c); [congruence|]. rewrite Nat.add_0_r. auto.
  - rewrite (holds_skipn _ _ _ _ H). cbn [skip_go]. destruct (Z.eqb_spec x c) as [->|N].
    + destruct (IH (S o) (holds_cons _ _ _ _ H)) as (n & s' & -> & A & B & F). exists (S n), s'. split; [reflexivity|]. split; [exact A|]. replace (Z.of_nat o + 1) with (Z.of_nat (S o)) by lia. rewrite B.
      split; [do 2 f_equal; lia|]. rewrite <- F. change (repeat c n ++ s') with ([] ++ repeat c n ++ s') at 1. cbn [pieces app]. rewrite Z.eqb_refl. reflexivity.
    + exists 0%nat, (x :: s). cbn [repeat app hd]. rewrite Nat.add_0_r. auto.
Qed.
(** what stays in the array and in the text *)
Definition kept {A} (l l' : list A) (i n : nat) : Prop := length l' = length l /\ forall j, (j < i \/ i + n <= j)%nat -> nth_error l' j = nth_error l j.
Definition before (b b' : buf) (o : nat) : Prop := forall o' s', holds b o' s' -> (o' + length s' < o)%nat -> holds b' o' s'.
Lemma aset_ok : forall {A} (l : list A) i x, (i < length l)%nat -> aset l i x = Ret (set_nth l i x).
Proof. intros A l i x L. unfold aset. apply Nat.ltb_lt in L. now rewrite L. Qed.
Lemma set_nth_length : forall {A} (l : list A) i x, length (set_nth l i x) = length l.
Proof. induction l as [|y l IH]; intros [|i] x; cbn; auto. Qed.
Lemma split_loop_ok : forall fuel b o s parts i max, holds b o s -> (length s < fuel)%nat -> (i < max)%nat -> (max <= length parts)%nat ->
  let n := Nat.min (length (filter filled (pieces 47 s))) (max - i) in
  exists b' parts', split_loop fuel b (Z.of_nat o) parts i (Z.of_nat max) = Ret (Z.of_nat (i + n), b', parts') /\ kept parts parts' i n /\ before b b' o /\
    forall j x, (j < n)%nat -> nth_error (filter filled (pieces 47 s)) j = Some x -> exists p, nth_error parts' (i + j) = Some (Some (Z.of_nat p)) /\ holds b' p x.
Proof.
  induction fuel as [|fuel IH]; intros b o s parts i max H F L M n; [lia|]. subst n. cbn [split_loop].
  destruct (skip_holds s b o 47 H ltac:(lia)) as (k & s' & -> & N & SK & FE). rewrite SK. cbn [bind]. rewrite FE. clear SK FE.
  apply holds_tail in H. rewrite repeat_length in H. rewrite (load_holds _ _ _ H). cbn [bind].
  destruct s' as [|x s'].
  { cbn [hd pieces filter filled length Nat.min]. rewrite Z.eqb_refl. exists b, parts. rewrite Nat.add_0_r. split; [reflexivity|]. split; [split; auto|]. split; [intros ? ? HH _; exact HH|]. intros j y J. lia. }
  cbn [hd] in *. destruct (Z.eqb_spec x 0); [subst; destruct H as [Q _]; exfalso; apply Q; now left|]. rewrite aset_ok by lia. cbn [bind].
  destruct (strchr_holds _ b (o + k) 47 H) as [->|]; [|lia]. cbn [bind]. destruct (cut 47 (x :: s')) as [a [r|]] eqn:CU; cbn [found].
  - apply cut_found in CU as [E NA]. rewrite E in *. destruct (holds_split _ _ _ _ _ H) as (ST & HA & HR). rewrite ST. cbn [bind].
    assert (FA : filled a = true). { destruct a as [|y a]; [cbn in E; congruence|reflexivity]. }
    rewrite skipn_pieces by exact NA. rewrite FA. cbn [app length]. set (rest := filter filled (pieces 47 r)) in *.
    destruct (Z.ltb_spec (Z.of_nat (S i)) (Z.of_nat max)) as [LT|GE].
    + rewrite app_length, repeat_length, app_length in F. cbn [length] in F.
      destruct (IH (set_nth b (o + k + length a) (Some 0)) (o + k + length a + 1)%nat r (set_nth parts i (Some (Z.of_nat (o + k)))) (S i) max HR ltac:(lia) ltac:(lia) ltac:(rewrite set_nth_length; lia)) as (b' & parts' & R & (KL & KN) & BE & EN).
      fold rest in R, EN, KN. replace (Z.of_nat (o + k + length a) + 1) with (Z.of_nat (o + k + length a + 1)) by lia. rewrite R. exists b', parts'. rewrite set_nth_length in KL.
      replace (Nat.min (S (length rest)) (max - i))%nat with (S (Nat.min (length rest) (max - S i)))%nat by lia. split; [do 2 f_equal; f_equal; lia|].
      split; [split; [exact KL|]; intros j J; rewrite KN by lia; apply set_nth_other; lia|]. split.
      * intros o' s1 HH D. apply BE; [|lia]. apply holds_other; [exact HH|lia].
      * intros [|j] y J Y; cbn [nth_error] in Y.
        -- injection Y as <-. exists (o + k)%nat. rewrite Nat.add_0_r. split; [rewrite KN by lia; apply set_nth_same; lia|]. apply BE; [exact HA|lia].
        -- destruct (EN j y ltac:(lia) Y) as (p & P & HP). exists p. rewrite Nat.add_succ_r. split; [exact P|exact HP].
    + exists (set_nth b (o + k + length a) (Some 0)), (set_nth parts i (Some (Z.of_nat (o + k)))). replace (Nat.min (S (length rest)) (max - i))%nat with 1%nat by lia.
      split; [do 2 f_equal; f_equal; lia|]. split; [split; [apply set_nth_length|]; intros j J; apply set_nth_other; lia|]. split.
      * intros o' s1 HH D. apply holds_other; [exact HH|lia].
      * intros [|j] y J Y; [|lia]. cbn [nth_error] in Y. injection Y as <-. exists (o + k)%nat. rewrite Nat.add_0_r. split; [apply set_nth_same; lia|exact HA].
  - apply cut_none in CU as [E NA]. rewrite pieces_one by exact NA. cbn [filter filled length]. replace (Nat.min 1 (max - i)) with 1%nat by lia.
    exists b, (set_nth parts i (Some (Z.of_nat (o + k)))). split; [do 2 f_equal; f_equal; lia|]. split; [split; [apply set_nth_length|]; intros j J; apply set_nth_other; lia|].
    split; [intros ? ? HH _; exact HH|]. intros [|j] y J Y; [|lia]. cbn [nth_error] in Y. injection Y as <-. exists (o + k)%nat. rewrite Nat.add_0_r. split; [apply set_nth_same; lia|exact H].
Qed.

(** ** the query *)
Definition value_at (b : buf) (vp : option Z) (val : option str) (lim : nat) : Prop :=
  match vp, val with Some z, Some v => exists q, z = Z.of_nat q /\ holds b q v /\ (q + length v < lim)%nat | None, None => True | _, _ => False end.
Definition entry (b : buf) (p : param) (x : str) (lim : nat) : Prop :=
  exists o key vp val, p = (Some (Z.of_nat o), Some vp) /\ binds x key val /\ holds b o key /\ (o + length key < lim)%nat /\ value_at b vp val lim.
Lemma entry_before : forall b b' p x lim, entry b p x lim -> before b b' lim -> entry b' p x lim.
Proof.
  intros b b' p x lim (o & key & vp & val & -> & B & H & L & V) BE. exists o, key, vp, val. split; [reflexivity|]. split; [exact B|]. split; [now apply BE|]. split; [exact L|].
  destruct vp as [z|], val as [v|]; cbn in *; auto. destruct V as (q & -> & HV & LV). exists q. split; [reflexivity|]. split; [now apply BE|exact LV].
Qed.
Lemma entry_mono : forall b p x lim lim', entry b p x lim -> (lim <= lim')%nat -> entry b p x lim'.
Proof.
  intros b p x lim lim' (o & key & vp & val & -> & B & H & L & V) M. exists o, key, vp, val. split; [reflexivity|]. split; [exact B|]. split; [exact H|]. split; [lia|].
  destruct vp as [z|], val as [v|]; cbn in *; auto. destruct V as (q & -> & HV & LV). exists q. split; [reflexivity|]. split; [exact HV|lia].
Qed.
Lemma split_param_ok : forall b params j o v x, nth_error params j = Some (Some (Z.of_nat o), v) -> holds b o x ->
  exists b' p, split_param b params j = Ret (b', set_nth params j p) /\ entry b' p x (o + length x + 1) /\
    (forall o' s', holds b o' s' -> (o' + length s' < o \/ o + length x < o')%nat -> holds b' o' s').
Proof.
  intros b params j o v x N H. assert (J : (j < length params)%nat) by (apply nth_error_Some; congruence). unfold split_param, aget. rewrite N. cbn [bind fst].
  destruct (strchr_holds _ b o 61 H) as [->|]; [|lia]. cbn [bind]. destruct (cut 61 x) as [a [r|]] eqn:CU; cbn [found].
  - apply cut_found in CU as [-> NA]. destruct (holds_split _ _ _ _ _ H) as (ST & HA & HR). rewrite ST. cbn [bind]. rewrite aset_ok by exact J. cbn [bind]. rewrite app_length. cbn [length].
    do 2 eexists. split; [reflexivity|]. split.
    + exists o, a, (Some (Z.of_nat (o + length a) + 1)), (Some r). split; [reflexivity|]. split; [split; [exact NA|reflexivity]|]. split; [exact HA|]. split; [lia|].
      exists (o + length a + 1)%nat. split; [lia|]. split; [exact HR|lia].
    + intros o' s' HH D. apply holds_other; [exact HH|lia].
  - apply cut_none in CU as [<- NA]. rewrite aset_ok by exact J. cbn [bind]. do 2 eexists. split; [reflexivity|]. split; [|auto].
    exists o, x, None, None. split; [reflexivity|]. split; [split; [exact NA|reflexivity]|]. split; [exact H|]. split; [lia|exact I].
Qed.
Lemma at_most_one : forall d l, l <> [] -> at_most d 1 l = [join d l].
Proof. intros d [|x l] N; [congruence|reflexivity]. Qed.
Lemma at_most_single : forall d m x, (1 <= m)%nat -> at_most d m [x] = [x].
Proof. intros d [|[|m]] x M; [lia|reflexivity|]. unfold at_most. cbn [Nat.sub]. cbn [firstn skipn]. rewrite firstn_nil, skipn_nil. reflexivity. Qed.
Lemma at_most_cons : forall d m x l, (1 <= m)%nat -> at_most d (S m) (x :: l) = x :: at_most d m l.
Proof. intros d m x l M. unfold at_most. replace (S m - 1)%nat with (S (m - 1)) by lia. reflexivity. Qed.
Lemma at_most_length : forall d m l, (1 <= m)%nat -> l <> [] -> length (at_most d m l) = Nat.min (length l) m.
Proof.
  intros d m l M N. unfold at_most. rewrite app_length, firstn_length. destruct (skipn (m - 1) l) eqn:E.
  - assert (length (skipn (m - 1) l) = 0)%nat by now rewrite E. rewrite skipn_length in *. cbn [length]. lia.
  - assert (length (skipn (m - 1) l) <> 0)%nat by now rewrite E. rewrite skipn_length in *. cbn [length]. lia.
Qed.
Lemma query_loop_ok : forall fuel b o s d params i max v, d <> 0 -> holds b o s -> (length s < fuel)%nat -> (1 <= i <= max)%nat -> (max <= length params)%nat ->
  nth_error params (i - 1) = Some (Some (Z.of_nat o), v) ->
  let l := at_most d (max - (i - 1)) (pieces d s) in
  exists b' params', query_loop fuel b (Z.of_nat o) d params i (Z.of_nat max) = Ret (Z.of_nat (i - 1 + length l), b', params') /\ kept params params' (i - 1) (length l) /\ before b b' o /\
    forall j x, nth_error l j = Some x -> exists p, nth_error params' (i - 1 + j) = Some p /\ entry b' p x (o + length s + 1).
Proof.
  induction fuel as [|fuel IH]; intros b o s d params i max v D H F L M N l; [lia|]. subst l. cbn [query_loop].
  assert (LASTC : forall t, t = s -> exists b' params', (do (b0, params0) <- split_param b params (i - 1); Ret (Z.of_nat i, b0, params0)) = Ret (Z.of_nat (i - 1 + length [t]), b', params') /\
    kept params params' (i - 1) (length [t]) /\ before b b' o /\ forall j x, nth_error [t] j = Some x -> exists p, nth_error params' (i - 1 + j) = Some p /\ entry b' p x (o + length s + 1)).
  { intros t ->. destruct (split_param_ok b params (i - 1) o v s N H) as (b' & p & SP & EN & OT). rewrite SP. cbn [bind length]. exists b', (set_nth params (i - 1) p). split; [do 2 f_equal; f_equal; lia|].
    split; [split; [apply set_nth_length|]; intros j J; apply set_nth_other; lia|]. split; [intros o' s' HH DD; apply OT; [exact HH|lia]|].
    intros [|j] x X; cbn [nth_error] in X; [|destruct j; discriminate]. injection X as <-. exists p. rewrite Nat.add_0_r. split; [apply set_nth_same; lia|exact EN]. }
  destruct (Z.ltb_spec (Z.of_nat i) (Z.of_nat max)) as [LT|GE].
  - destruct (strchr_holds _ b o d H) as [->|]; [|congruence]. cbn [bind]. destruct (cut d s) as [a [r|]] eqn:CU; cbn [found].
    + apply cut_found in CU as [-> NA]. destruct (holds_split _ _ _ _ _ H) as (ST & HA & HR). rewrite ST. cbn [bind]. rewrite aset_ok by (lia). cbn [bind].
      set (b1 := set_nth b (o + length a) (Some 0)) in *. set (params1 := set_nth params i (Some (Z.of_nat (o + length a) + 1), Some None)).
      assert (N1 : nth_error params1 (i - 1) = Some (Some (Z.of_nat o), v)) by (unfold params1; rewrite set_nth_other by lia; exact N).
      destruct (split_param_ok b1 params1 (i - 1) o v a N1 HA) as (b2 & p & SP & EN & OT). rewrite SP. cbn [bind].
      rewrite app_length in *. cbn [length] in *.
      assert (N2 : nth_error (set_nth params1 (i - 1) p) (S i - 1) = Some (Some (Z.of_nat (o + length a + 1)), Some None)).
      { rewrite set_nth_other by lia. replace (S i - 1)%nat with i by lia. unfold params1. rewrite set_nth_same by (lia). do 3 f_equal. lia. }
      assert (PL : length (set_nth params1 (i - 1) p) = length params) by (unfold params1; now rewrite !set_nth_length).
      replace (Z.of_nat (o + length a) + 1) with (Z.of_nat (o + length a + 1)) by lia.
      destruct (IH b2 (o + length a + 1)%nat r d (set_nth params1 (i - 1) p) (S i) max (Some None) D) as (b' & params' & R & (KL & KN) & BE & EE); [apply OT; [exact HR|lia]|lia|lia|lia|exact N2|].
      rewrite R. exists b', params'. rewrite pieces_app by exact NA. replace (max - (i - 1))%nat with (S (max - (S i - 1))) by lia. rewrite at_most_cons by lia. cbn [length].
      set (rest := at_most d (max - (S i - 1)) (pieces d r)) in *.
      assert (R1 : (1 <= length rest)%nat). { unfold rest. rewrite at_most_length; [|lia|apply pieces_nonempty]. pose proof (pieces_nonempty d r). destruct (pieces d r); [congruence|]. cbn [length]. lia. }
      split; [do 2 f_equal; f_equal; lia|]. split; [split; [lia|]; intros j J; rewrite KN by lia; rewrite set_nth_other by lia; unfold params1; apply set_nth_other; lia|]. split.
      * intros o' s' HH DD. apply BE; [|lia]. apply OT; [|lia]. apply holds_other; [exact HH|lia].
      * intros [|j] x X; cbn [nth_error] in X.
        -- injection X as <-. exists p. rewrite Nat.add_0_r. split; [rewrite KN by lia; apply set_nth_same; unfold params1; rewrite set_nth_length; lia|]. eapply entry_mono; [eapply entry_before; [exact EN|exact BE]|lia].
        -- destruct (EE j x X) as (q & Q & EQ). exists q. replace (i - 1 + S j)%nat with (S i - 1 + j)%nat by lia. split; [exact Q|]. eapply entry_mono; [exact EQ|lia].
    + apply cut_none in CU as [<- NA]. rewrite pieces_one by exact NA. rewrite at_most_single by lia. now apply LASTC.
  - cbn [bind]. replace (max - (i - 1))%nat with 1%nat by lia. rewrite at_most_one by apply pieces_nonempty. rewrite join_pieces. now apply LASTC.
Qed.
