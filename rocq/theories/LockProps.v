(** C131, C132: the mutexes of the library never block each other; which variables they protect and which not. *)
From Coq Require Import ZArith Bool List Lia.
From Verif Require Import LockModel.
Import ListNotations.
Open Scope Z_scope.

(** ** The notions *)
(** a program takes its mutexes in an order: a mutex is taken only while those the thread already has have greater numbers *)
Fixpoint tidy (held : list nat) (u : ucode) : Prop :=
  match u with
  | USkip | UAccess _ _ | UCall _ => True
  | USeq a b | UAlt a b => tidy held a /\ tidy held b
  | ULoop a => tidy held a
  | USync n a => Forall (fun m => (n < m)%nat) held /\ tidy (n :: held) a
  end.
Definition tidy_role (r : role) : Prop := match r with RSocket _ m c _ => tidy [] m /\ tidy [] c | RManager _ u | RProgram u | RDispatch u => tidy [] u end.
(** the program accesses its variable [n] only while it has its mutex [g n], and does not take messages out of the list of sent messages of the websockets of [out] *)
Fixpoint careful (g : nat -> option nat) (out : nat -> bool) (held : list nat) (u : ucode) : Prop :=
  match u with
  | USkip => True
  | UAccess _ n => match g n with Some m => In m held | None => True end
  | USeq a b | UAlt a b => careful g out held a /\ careful g out held b
  | ULoop a => careful g out held a
  | USync n a => careful g out (n :: held) a
  | UCall (APopOut w) => out w = false
  | UCall _ => True
  end.
Definition careful_role g out (r : role) : Prop := match r with RSocket _ m c _ => careful g out [] m /\ careful g out [] c | RManager _ u | RProgram u | RDispatch u => careful g out [] u end.
(** the mutex that protects a variable *)
Definition guard (g : nat -> option nat) (out : nat -> bool) (v : var) : option lock :=
  match v with
  | Wire w => Some (LWrite w)
  | Input w => Some (LRead w)
  | OutList w => if out w then Some (LWrite w) else None
  | VUser n => match g n with Some m => Some (LUser m) | None => None end
  | _ => None
  end.
(** threads, each with the choices it will make, and a state some of their steps lead to *)
Definition start (l : list (role * choice)) : list thread := map (fun p => begin_ (fst p) (snd p)) l.
Definition touches (v : var) (e : ev) : Prop := e = ERd v \/ e = EWr v.
(** what is done, by which thread, in a schedule *)
Definition next (s : list thread) (i : nat) : list (nat * ev) := match nth_error s i with Some (_, e :: _) => [(i, e)] | _ => [] end.
Fixpoint trace (s : list thread) (is : list nat) : list (nat * ev) :=
  match is with [] => [] | i :: r => match step s i with Some s1 => next s i ++ trace s1 r | None => [] end end.
(** two threads are about to access a variable, one of them to change it *)
Definition race (v : var) (s : list thread) : Prop :=
  exists i j hi hj ei ej ri rj, i <> j /\ nth_error s i = Some (hi, ei :: ri) /\ nth_error s j = Some (hj, ej :: rj) /\ ei = EWr v /\ touches v ej.

(** ** Lists of threads *)
Lemma nth_set : forall (s : list thread) i t j, (i < length s)%nat -> nth_error (set_nth i t s) j = if Nat.eq_dec j i then Some t else nth_error s j.
Proof.
  unfold set_nth. induction s as [|a s IH]; intros i t j L; [cbn in L; lia|].
  destruct i as [|i].
  - cbn [firstn skipn app]. destruct j; cbn [nth_error]; destruct (Nat.eq_dec _ 0); try lia; reflexivity.
  - cbn [firstn app]. change (skipn (S (S i)) (a :: s)) with (skipn (S i) s). destruct j; cbn [nth_error]; [destruct (Nat.eq_dec 0 (S i)); [lia|reflexivity]|].
    cbn [length] in L. rewrite IH by lia. destruct (Nat.eq_dec j i), (Nat.eq_dec (S j) (S i)); try lia; reflexivity.
Qed.
Lemma has_in : forall l t, has l t = true <-> In l (fst t).
Proof.
  intros l t. unfold has. rewrite existsb_exists. split.
  - intros (h & H & E). destruct (lock_eq_dec h l); [subst; exact H|discriminate].
  - intro H. exists l. split; [exact H|]. destruct (lock_eq_dec l l); congruence.
Qed.
Lemma others_in : forall (s : list thread) i t, In t (others i s) -> exists j, j <> i /\ nth_error s j = Some t.
Proof.
  unfold others. induction s as [|a s IH]; intros i t H.
  - destruct i; destruct H.
  - destruct i as [|i].
    + cbn [firstn skipn app] in H. destruct (In_nth_error _ _ H) as (j & E). exists (S j). split; [lia|exact E].
    + cbn [firstn app] in H. change (skipn (S (S i)) (a :: s)) with (skipn (S i) s) in H. destruct H as [H|H]; [subst a; exists O; split; [lia|reflexivity]|].
      destruct (IH i t H) as (j & N & E). exists (S j). split; [lia|exact E].
Qed.
Lemma in_others : forall (s : list thread) i j t, j <> i -> nth_error s j = Some t -> In t (others i s).
Proof.
  unfold others. induction s as [|a s IH]; intros i j t N E; [destruct j; discriminate|].
  destruct i as [|i].
  - destruct j; [lia|]. cbn [nth_error] in E. cbn [firstn skipn app]. exact (nth_error_In _ _ E).
  - cbn [firstn app]. change (skipn (S (S i)) (a :: s)) with (skipn (S i) s). destruct j; cbn [nth_error] in E; [injection E as E; left; exact E|]. right. apply (IH i j t); [lia|exact E].
Qed.
Lemma taken_others : forall s i l, existsb (has l) (others i s) = true <-> exists j t, j <> i /\ nth_error s j = Some t /\ In l (fst t).
Proof.
  intros s i l. rewrite existsb_exists. split.
  - intros (t & H & E). destruct (others_in s i t H) as (j & N & F). exists j, t. split; [exact N|]. split; [exact F|]. apply has_in. exact E.
  - intros (j & t & N & F & H). exists t. split; [exact (in_others s i j t N F)|]. apply has_in. exact H.
Qed.

(** ** What every way through a function does *)
Section Check.
Variable strict : bool.
Variable G : var -> option lock.
Definition rank (l : lock) : Z := match l with LUser n => - 1 - Z.of_nat n | LClose => 2 | _ => 1 end.
Definition ordered (held : list lock) (l : lock) : Prop := (recursive l = true /\ In l held) \/ Forall (fun h => rank h < rank l) held.
Definition guarded (held : list lock) (v : var) : Prop := forall l, G v = Some l -> In l held.
Fixpoint checked (held : list lock) (c : code) : Prop :=
  match c with
  | Skip => True
  | Rd v | Wr v => guarded held v
  | Seq a b | Alt a b => checked held a /\ checked held b
  | Loop a => checked held a
  | Sync l a => (strict = true -> ordered held l) /\ checked (l :: held) a
  end.
Fixpoint good (held : list lock) (es : list ev) : Prop :=
  match es with
  | [] => held = []
  | Acq l :: r => (strict = true -> ordered held l) /\ good (l :: held) r
  | Rel l :: r => exists h, held = l :: h /\ good h r
  | ERd v :: r | EWr v :: r => guarded held v /\ good held r
  end.
Lemma path_good : forall c held x r, checked held c -> good held r -> good held (path c x ++ r).
Proof.
  induction c as [|v|v|a IHa b IHb|a IHa b IHb|a IHa|l a IHa]; intros held x r C H; cbn [path app]; cbn [checked] in C.
  - exact H.
  - cbn [good]. auto.
  - cbn [good]. auto.
  - destruct C as [Ca Cb]. destruct x; rewrite <- app_assoc; auto.
  - destruct C as [Ca Cb]. destruct x; auto.
  - destruct x as [| | |l]; cbn [app]; try exact H. induction l as [|y l IH]; cbn [flat_map app]; [exact H|]. rewrite <- app_assoc. apply IHa; [exact C|exact IH].
  - destruct C as [O C]. cbn [good]. split; [exact O|]. rewrite <- app_assoc. apply IHa; [exact C|]. cbn [app good]. exists held. auto.
Qed.

Definition ok (s : list thread) : Prop :=
  (forall i h r, nth_error s i = Some (h, r) -> good h r) /\
  (forall i j t u l, nth_error s i = Some t -> nth_error s j = Some u -> In l (fst t) -> In l (fst u) -> i = j).

Lemma ok_start : forall l, Forall (fun p => checked [] (code_of (fst p))) l -> ok (start l).
Proof.
  intros l F. unfold start. split.
  - intros i h r E. rewrite nth_error_map in E. destruct (nth_error l i) as [[ro x]|] eqn:N; cbn [option_map] in E; [|discriminate]. injection E as E1 E2. subst h r.
    apply nth_error_In in N. rewrite Forall_forall in F. specialize (F _ N). cbn [fst snd] in *. rewrite <- (app_nil_r (path _ _)). apply path_good; [exact F|reflexivity].
  - intros i j t u k E1 E2 I1 I2. rewrite nth_error_map in E1. destruct (nth_error l i); cbn [option_map] in E1; [|discriminate]. injection E1 as E1. subst t. destruct I1.
Qed.

(** a step changes one thread *)
Lemma step_inv : forall s i s1, step s i = Some s1 -> exists h e r h1, nth_error s i = Some (h, e :: r) /\ nth_error s1 i = Some (h1, r) /\ (forall j, j <> i -> nth_error s1 j = nth_error s j) /\ length s1 = length s /\
  match e with Acq l => h1 = l :: h /\ (forall j t, j <> i -> nth_error s j = Some t -> ~ In l (fst t)) | Rel l => h1 = remove_one l h | _ => h1 = h end.
Proof.
  intros s i s1 E. unfold step in E. destruct (nth_error s i) as [[h [|e r]]|] eqn:N; try discriminate.
  assert (L : (i < length s)%nat) by (apply nth_error_Some; congruence).
  assert (X : forall t, length (set_nth i t s) = length s).
  { intro t. unfold set_nth. rewrite app_length. cbn [length]. rewrite firstn_length, skipn_length. lia. }
  destruct e as [l|l|v|v].
  - destruct (existsb (has l) (others i s) || (negb (recursive l) && has l (h, []))) eqn:B; [discriminate|]. injection E as E. subst s1. apply orb_false_iff in B. destruct B as [B _].
    exists h, (Acq l), r, (l :: h). rewrite nth_set by exact L. destruct (Nat.eq_dec i i); [|lia]. repeat split; auto.
    + intros j NE. rewrite nth_set by exact L. destruct (Nat.eq_dec j i); [lia|reflexivity].
    + intros j t NE NJ I1. assert (existsb (has l) (others i s) = true) by (apply taken_others; eauto). congruence.
  - injection E as E. subst s1. exists h, (Rel l), r, (remove_one l h). rewrite nth_set by exact L. destruct (Nat.eq_dec i i); [|lia]. repeat split; auto. intros j NE. rewrite nth_set by exact L. destruct (Nat.eq_dec j i); [lia|reflexivity].
  - injection E as E. subst s1. exists h, (ERd v), r, h. rewrite nth_set by exact L. destruct (Nat.eq_dec i i); [|lia]. repeat split; auto. intros j NE. rewrite nth_set by exact L. destruct (Nat.eq_dec j i); [lia|reflexivity].
  - injection E as E. subst s1. exists h, (EWr v), r, h. rewrite nth_set by exact L. destruct (Nat.eq_dec i i); [|lia]. repeat split; auto. intros j NE. rewrite nth_set by exact L. destruct (Nat.eq_dec j i); [lia|reflexivity].
Qed.
Lemma remove_one_in : forall l h x, In x (remove_one l h) -> In x h.
Proof. intros l h. induction h as [|a h IH]; intros x H; [exact H|]. cbn [remove_one] in H. destruct (lock_eq_dec a l); [right; exact H|]. destruct H as [H|H]; [left; exact H|right; auto]. Qed.
Lemma remove_one_other : forall l h x, In x h -> x <> l -> In x (remove_one l h).
Proof. intros l h. induction h as [|a h IH]; intros x H N; [exact H|]. cbn [remove_one]. destruct (lock_eq_dec a l); destruct H as [H|H]; subst; auto; [congruence|left; reflexivity|right; auto]. Qed.

Lemma ok_step : forall s i s1, ok s -> step s i = Some s1 -> ok s1.
Proof.
  intros s i s1 [GD EX] E. destruct (step_inv s i s1 E) as (h & e & r & h1 & N & N1 & OT & _ & C). pose proof (GD i h (e :: r) N) as GI. split.
  - intros j hj rj NJ. destruct (Nat.eq_dec j i) as [->|NE]; [|rewrite OT in NJ by exact NE; eauto].
    rewrite N1 in NJ. injection NJ as A B. subst hj rj. destruct e as [l|l|v|v]; cbn [good] in GI.
    + destruct C as [C _]. subst h1. exact (proj2 GI).
    + subst h1. destruct GI as (h2 & A & B). subst h. cbn [remove_one]. destruct (lock_eq_dec l l); [exact B|congruence].
    + subst h1. exact (proj2 GI).
    + subst h1. exact (proj2 GI).
  - assert (K : forall j u l, j <> i -> nth_error s1 j = Some u -> In l (fst u) -> In l h1 -> False).
    { intros j u l NE NJ I1 I2. rewrite OT in NJ by exact NE.
      assert (D : forall k, In k h -> In k (fst u) -> False) by (intros k J1 J2; apply NE; exact (EX j i u (h, e :: r) k NJ N J2 J1)).
      destruct e as [k|k|v|v]; [|subst h1; apply remove_one_in in I2; eauto|subst h1; eauto|subst h1; eauto].
      destruct C as [C F]. subst h1. destruct I2 as [I2|I2]; [subst k; exact (F j u NE NJ I1)|eauto]. }
    intros j k t u l NJ NK I1 I2. destruct (Nat.eq_dec j i) as [->|NE].
    + destruct (Nat.eq_dec k i) as [->|NE2]; [reflexivity|]. rewrite N1 in NJ. injection NJ as NJ. subst t. destruct (K k u l NE2 NK I2 I1).
    + destruct (Nat.eq_dec k i) as [->|NE2]; [rewrite N1 in NK; injection NK as NK; subst u; destruct (K j t l NE NJ I1 I2)|].
      rewrite OT in NJ, NK by assumption. eauto.
Qed.
Lemma ok_steps : forall is s s1, ok s -> steps s is = Some s1 -> ok s1.
Proof.
  induction is as [|i is IH]; intros s s1 K E; cbn [steps] in E; [injection E as E; subst; exact K|].
  destruct (step s i) as [s2|] eqn:F; [|discriminate]. exact (IH s2 s1 (ok_step s i s2 K F) E).
Qed.

(** ** Going on *)
Hypothesis STRICT : strict = true.
Lemma rank_top : forall l, rank l <= 2.
Proof. intros []; cbn [rank]; lia. Qed.
Lemma awaited : forall s, ok s -> forall n i h l r, nth_error s i = Some (h, Acq l :: r) -> (Z.to_nat (3 - rank l) <= n)%nat -> exists j s1, step s j = Some s1.
Proof.
  intros s [GD EX]. induction n as [|n IH]; intros i h l r N L; [pose proof (rank_top l); lia|].
  destruct (step s i) as [s1|] eqn:E; [eauto|].
  destruct (GD i h _ N) as [OD _]. specialize (OD STRICT). unfold step in E. rewrite N in E.
  destruct (existsb (has l) (others i s) || (negb (recursive l) && has l (h, []))) eqn:B; [|discriminate]. apply orb_true_iff in B. destruct B as [B|B].
  - apply taken_others in B. destruct B as (j & [hj rj] & NE & NJ & I1). cbn [fst] in I1. pose proof (GD j hj rj NJ) as GJ. clear E.
    destruct rj as [|[k|k|v|v] rj]; [cbn [good] in GJ; subst hj; destruct I1| | | |].
    + destruct GJ as [GJ _]. specialize (GJ STRICT). destruct GJ as [[RE OW]|UP].
      * exists j. unfold step. rewrite NJ. destruct (existsb (has k) (others j s)) eqn:B.
        { apply taken_others in B. destruct B as (m & t & NM & NT & I2). exfalso. apply NM. exact (EX m j t (hj, Acq k :: rj) k NT NJ I2 OW). }
        rewrite RE. cbn [negb andb orb]. eauto.
      * rewrite Forall_forall in UP. specialize (UP l I1). apply (IH j hj k rj NJ). lia.
    + exists j. unfold step. rewrite NJ. eauto.
    + exists j. unfold step. rewrite NJ. eauto.
    + exists j. unfold step. rewrite NJ. eauto.
  - exfalso. apply andb_true_iff in B. destruct B as [B1 B2]. apply has_in in B2. cbn [fst] in B2. destruct OD as [[RE _]|UP]; [rewrite RE in B1; discriminate|].
    rewrite Forall_forall in UP. specialize (UP l B2). lia.
Qed.
Fixpoint left (s : list thread) : nat := match s with [] => O | t :: r => (length (snd t) + left r)%nat end.
Lemma left_step : forall s i s1, step s i = Some s1 -> left s = S (left s1).
Proof.
  assert (X : forall s i h e r t, nth_error s i = Some (h, e :: r) -> snd t = r -> left s = S (left (set_nth i t s))).
  { unfold set_nth. induction s as [|a s IH]; intros i h e r t N T; [destruct i; discriminate|]. destruct i as [|i].
    - cbn [nth_error] in N. injection N as N. subst a. cbn [firstn skipn app left snd length]. rewrite T. lia.
    - cbn [nth_error] in N. change (firstn (S i) (a :: s)) with (a :: firstn i s). change (skipn (S (S i)) (a :: s)) with (skipn (S i) s). rewrite <- app_comm_cons. pose proof (IH i h e r t N T) as Q. cbn [left]. rewrite Q. apply Nat.add_succ_r. }
  intros s i s1 E. unfold step in E. destruct (nth_error s i) as [[h [|e r]]|] eqn:N; try discriminate.
  destruct e; [destruct (_ || _); [discriminate|]|..]; injection E as E; subst s1; apply (X s i h _ r _ N); reflexivity.
Qed.
Lemma left_zero : forall s, left s = O -> Forall (fun t => snd t = []) s.
Proof. induction s as [|[h r] s IH]; intro E; [constructor|]. cbn [left snd] in E. constructor; [destruct r; [reflexivity|cbn [length] in E; lia]|apply IH; lia]. Qed.
Lemma left_some : forall s, left s <> O -> exists i h e r, nth_error s i = Some (h, e :: r).
Proof.
  induction s as [|[h r] s IH]; intro E; [cbn [left] in E; lia|]. cbn [left snd] in E. destruct r as [|e r].
  - destruct IH as (i & h1 & e & r & N); [cbn [length] in E; lia|]. exists (S i), h1, e, r. exact N.
  - exists O, h, e, r. reflexivity.
Qed.
Lemma goes_on : forall s, ok s -> left s <> O -> exists i s1, step s i = Some s1.
Proof.
  intros s K L. destruct (left_some s L) as (i & h & e & r & N). destruct e as [l|l|v|v]; [exact (awaited s K _ i h l r N (le_n _))|..]; exists i; unfold step; rewrite N; eauto.
Qed.
Lemma ends : forall n s, ok s -> left s = n -> exists is s1, steps s is = Some s1 /\ Forall (fun t => t = ([], [])) s1.
Proof.
  induction n as [|n IH]; intros s K L.
  - exists [], s. split; [reflexivity|]. pose proof (left_zero s L) as F. destruct K as [GD _]. rewrite Forall_forall in *. intros [h r] I1. specialize (F _ I1). cbn [snd] in F. subst r.
    apply In_nth_error in I1. destruct I1 as (i & N). pose proof (GD i h [] N) as X. cbn [good] in X. subst h. reflexivity.
  - destruct (goes_on s K) as (i & s1 & E); [lia|]. pose proof (left_step s i s1 E). destruct (IH s1 (ok_step s i s1 K E)) as (is & s2 & F & A); [lia|].
    exists (i :: is), s2. cbn [steps]. rewrite E. auto.
Qed.
End Check.

(** ** The functions of the library and of a program *)
Definition user_only (held : list lock) : Prop := Forall (fun l => exists n, l = LUser n) held.
Lemma user_rank : forall held l, user_only held -> 1 <= rank l -> Forall (fun h => rank h < rank l) held.
Proof. intros held l U R. eapply Forall_impl; [|exact U]. intros h (n & ->). cbn [rank]. lia. Qed.
Definition roles_ok strict G r := checked strict G [] (code_of r).
Section Library.
Variable strict : bool.
Variable g : nat -> option nat.
Variable out : nat -> bool.
Notation chkd := (checked strict (guard g out)).
Ltac ord := let S := fresh in intro S; clear S; solve [right; repeat (constructor; [cbn [rank]; lia|]); first [constructor | apply user_rank; [assumption|cbn [rank]; lia]] | left; split; [reflexivity|cbn [In]; auto]].
Ltac grd := let l := fresh "l" in let E := fresh "E" in intros l E; cbn [guard] in E; solve [discriminate E | injection E as E; subst l; cbn [In]; auto | destruct (out _); [injection E as E; subst l; cbn [In]; auto|discriminate E]].
Ltac chk := repeat match goal with |- _ /\ _ => split | |- True => exact Logic.I | |- guarded _ _ _ => grd | |- _ = true -> _ => ord end.
Lemma checked_managed : forall w held, user_only held -> chkd held (managed w) /\ chkd (LWrite w :: held) (managed w).
Proof. intros w held U. unfold managed, Maybe, send_frame, available. cbn [checked Maybe available send_frame]. chk. Qed.
Lemma checked_read : forall w held, user_only held -> chkd held (read_message w).
Proof. intros w held U. unfold read_message, Maybe, available. cbn [checked Maybe available send_frame]. chk. Qed.
Lemma checked_close : forall w held, user_only held -> chkd held (send_close w).
Proof.
  intros w held U. pose proof (checked_managed w held U) as [M _]. pose proof (checked_read w held U) as R. unfold send_close, Maybe, available. cbn [checked Maybe available send_frame]. chk; assumption.
Qed.
Lemma checked_control : forall w held, user_only held -> chkd held (send_control w) /\ chkd (LWrite w :: held) (send_control w).
Proof. intros w held U. pose proof (checked_managed w held U) as [M N]. unfold send_control, Maybe. cbn [checked Maybe available send_frame]. chk; assumption. Qed.
Lemma checked_data : forall w held, user_only held -> chkd held (send_data w).
Proof. intros w held U. pose proof (checked_managed w held U) as [M N]. unfold send_data, Maybe. cbn [checked Maybe available send_frame]. chk; assumption. Qed.
Lemma checked_stop : forall ws held, user_only held -> chkd held (stop ws).
Proof.
  intros ws held U. unfold stop. cbn [checked Maybe available send_frame]. chk. induction ws as [|w ws IH]; cbn [fold_right checked]; [exact Logic.I|]. chk. exact IH.
Qed.
Lemma checked_call : forall a held, user_only held -> (forall w, a = APopOut w -> out w = false) -> chkd held (call a).
Proof.
  intros a held U P. destruct a as [w|w|w|w|w|w|w|w|w|ws]; unfold call, Maybe; [apply checked_close; exact U|apply checked_control; exact U|apply checked_data; exact U|..|apply checked_stop; exact U]; cbn [checked Maybe]; try solve [chk].
  intros l E. cbn [guard] in E. rewrite (P w eq_refl) in E. discriminate.
Qed.
Lemma users : forall hs, user_only (map LUser hs).
Proof. intro hs. apply Forall_forall. intros l I1. apply in_map_iff in I1. destruct I1 as (n & E & _). eauto. Qed.
Lemma checked_program : forall u hs, (strict = true -> tidy hs u) -> careful g out hs u -> chkd (map LUser hs) (program u).
Proof.
  induction u as [|wr n|a IHa b IHb|a IHa b IHb|a IHa|n a IHa|a]; intros hs T C; cbn [program].
  - exact Logic.I.
  - cbn [careful] in C. destruct wr; cbn [checked]; intros l E; cbn [guard] in E; destruct (g n) as [m|]; try discriminate; injection E as E; subst l; apply in_map; exact C.
  - destruct C as [Ca Cb]. cbn [checked]. split; [apply IHa|apply IHb]; auto; intro S; apply (T S).
  - destruct C as [Ca Cb]. cbn [checked]. split; [apply IHa|apply IHb]; auto; intro S; apply (T S).
  - cbn [checked]. apply IHa; auto.
  - cbn [checked]. split.
    + intro S. destruct (T S) as [F _]. right. apply Forall_forall. intros l I1. apply in_map_iff in I1. destruct I1 as (m & E & I1). subst l. rewrite Forall_forall in F. specialize (F m I1). cbn [rank]. lia.
    + change (LUser n :: map LUser hs) with (map LUser (n :: hs)). apply IHa; [intro S; apply (T S)|exact C].
  - apply checked_call; [apply users|]. intros w E. subst a. exact C.
Qed.
Lemma nil_users : user_only [].
Proof. constructor. Qed.
Lemma checked_remove : chkd [] remove_active.
Proof. unfold remove_active, Maybe. cbn [checked Maybe available send_frame]. chk. Qed.
Lemma checked_role : forall r, (strict = true -> tidy_role r) -> careful_role g out r -> chkd [] (code_of r).
Proof.
  intros [w m c client|w u|u|u] T C; cbn [code_of].
  - pose proof (checked_close w [] nil_users) as CL. pose proof (checked_read w [] nil_users) as RD. pose proof (checked_managed w [] nil_users) as [MA _]. pose proof (checked_control w [] nil_users) as [_ CO].
    pose proof (checked_program m [] (fun S => proj1 (T S)) (proj1 C)) as PM. pose proof (checked_program c [] (fun S => proj2 (T S)) (proj2 C)) as PC. cbn [map] in PM, PC.
    pose proof checked_remove as RM. pose proof nil_users as NU.
    unfold socket_thread, Maybe, available. destruct client; cbn [checked Maybe available send_frame]; chk; assumption.
  - pose proof (checked_program u [] T C) as PM. cbn [map] in PM. pose proof nil_users as NU. unfold manager_thread, Maybe. cbn [checked Maybe available send_frame]. chk. exact PM.
  - exact (checked_program u [] T C).
  - pose proof (checked_program u [] T C) as PM. cbn [map] in PM. pose proof nil_users as NU. unfold add_active, Maybe. cbn [checked Maybe available send_frame]. chk. exact PM.
Qed.
End Library.

(** ** C131 *)
(** C131: any number of threads of websockets, of managers, of the program and of libmicrohttpd, with any callbacks, as long as the program takes its own mutexes in an order: whatever the schedule has done so
    far, it can be continued so that every thread comes to its end, and then no mutex is taken. A program may have mutexes of its own while it calls the library, because the library has none of its
    mutexes while it calls a callback. *)
Theorem C131_no_deadlock : forall l, Forall (fun p => tidy_role (fst p)) l -> forall is s, steps (start l) is = Some s ->
  exists js s1, steps s js = Some s1 /\ Forall (fun t => t = ([], [])) s1.
Proof.
  intros l T is s E. apply (ends true (guard (fun _ => None) (fun _ => false)) eq_refl (left s) s); [|reflexivity]. refine (ok_steps _ _ is (start l) s _ E). apply ok_start.
  eapply Forall_impl; [|exact T]. intros [r x] H. cbn [fst] in *. apply checked_role; [auto|].
  assert (X : forall u hs, careful (fun _ => None) (fun _ => false) hs u) by (induction u as [| | | | | |a]; intro hs; cbn [careful]; auto; destruct a; auto).
  destruct r; cbn [careful_role]; auto.
Qed.
(** and no schedule is longer than what the threads have to do, so that every schedule that only stops when no thread can go on is of that kind *)
Theorem C131_no_stuck : forall l, Forall (fun p => tidy_role (fst p)) l -> forall is s, steps (start l) is = Some s ->
  (forall i, step s i = None) -> Forall (fun t => t = ([], [])) s.
Proof.
  intros l T is s E ST. destruct (C131_no_deadlock l T is s E) as (js & s1 & F & A). destruct js as [|j js]; [injection F as F; subst; exact A|]. cbn [steps] in F. rewrite ST in F. discriminate.
Qed.

(** ** C132 *)
Lemma guards : forall g out l, Forall (fun p => careful_role g out (fst p)) l -> forall is s, steps (start l) is = Some s -> ok false (guard g out) s.
Proof.
  intros g out l C is s E. refine (ok_steps _ _ is (start l) s _ E). apply ok_start. eapply Forall_impl; [|exact C]. intros [r x] H. cbn [fst] in *. apply checked_role; [discriminate|exact H].
Qed.
Lemma holds_access : forall g out s i h e r v k, ok false (guard g out) s -> nth_error s i = Some (h, e :: r) -> touches v e -> guard g out v = Some k -> In k h.
Proof. intros g out s i h e r v k [GD _] N T E. specialize (GD i h _ N). destruct T; subst e; cbn [good] in GD; destruct GD as [GD _]; exact (GD k E). Qed.
Definition owns (s : list thread) (i : nat) (k : lock) : Prop := exists t, nth_error s i = Some t /\ In k (fst t).
Lemma gains : forall s i s1 j k, step s i = Some s1 -> owns s1 j k -> owns s j k \/ next s i = [(j, Acq k)].
Proof.
  intros s i s1 j k E (t & N & I1). destruct (step_inv s i s1 E) as (h & e & r & h1 & NI & N1 & OT & _ & C). unfold next. rewrite NI.
  destruct (Nat.eq_dec j i) as [->|NE]; [|rewrite OT in N by exact NE; left; exists t; auto].
  rewrite N1 in N. injection N as N. subst t. cbn [fst] in I1.
  destruct e as [l|l|v|v].
  - destruct C as [C _]. subst h1. destruct I1 as [I1|I1]; [subst l; right; reflexivity|left; eexists; split; [exact NI|exact I1]].
  - subst h1. apply remove_one_in in I1. left. eexists. split; [exact NI|exact I1].
  - subst h1. left. eexists. split; [exact NI|exact I1].
  - subst h1. left. eexists. split; [exact NI|exact I1].
Qed.
Lemma loses : forall s i s1 j k, step s i = Some s1 -> owns s j k -> owns s1 j k \/ next s i = [(j, Rel k)] /\ i = j.
Proof.
  intros s i s1 j k E (t & N & I1). destruct (step_inv s i s1 E) as (h & e & r & h1 & NI & N1 & OT & _ & C). unfold next. rewrite NI.
  destruct (Nat.eq_dec j i) as [->|NE]; [|left; exists t; rewrite OT by exact NE; auto].
  rewrite NI in N. injection N as N. subst t. cbn [fst] in I1.
  destruct e as [l|l|v|v].
  - destruct C as [C _]. subst h1. left. eexists. split; [exact N1|right; exact I1].
  - destruct (lock_eq_dec k l) as [->|NL]; [right; auto|]. subst h1. left. eexists. split; [exact N1|]. apply remove_one_other; assumption.
  - subst h1. left. eexists. split; [exact N1|exact I1].
  - subst h1. left. eexists. split; [exact N1|exact I1].
Qed.
Lemma acquired : forall is s s1 j k, steps s is = Some s1 -> ~ owns s j k -> owns s1 j k -> exists b c, trace s is = b ++ (j, Acq k) :: c.
Proof.
  induction is as [|i is IH]; intros s s1 j k E NO OW; cbn [steps] in E; [injection E as E; subst; contradiction|].
  cbn [trace]. destruct (step s i) as [s2|] eqn:F; [|discriminate].
  destruct (next s i) as [|[m e] [|]] eqn:X; [| |]; unfold next in X; destruct (nth_error s i) as [[h [|e0 r0]]|] eqn:N; try discriminate.
  - unfold step in F. rewrite N in F. discriminate.
  - unfold step in F. rewrite N in F. discriminate.
  - injection X as X1 X2. subst m e0. cbn [app].
    assert (Y : next s i = [(i, e)]) by (unfold next; rewrite N; reflexivity).
    assert (D : owns s2 j k \/ ~ owns s2 j k).
    { destruct (nth_error s2 j) as [t|] eqn:M; [|right; intros (t & A & _); congruence]. destruct (in_dec lock_eq_dec k (fst t)) as [I1|I1]; [left; exists t; auto|right; intros (u & A & B); congruence]. }
    destruct D as [D|D].
    + destruct (gains s i s2 j k F D) as [G1|G1]; [contradiction|]. rewrite Y in G1. injection G1 as G1 G2. subst i e. exists [], (trace s2 is). reflexivity.
    + destruct (IH s2 s1 j k E D OW) as (b & c & T). exists ((i, e) :: b), c. rewrite T. reflexivity.
Qed.
Lemma handed_over : forall S0 G is s s1 i j k, ok S0 G s -> steps s is = Some s1 -> i <> j -> owns s i k -> owns s1 j k -> exists a b c, trace s is = a ++ (i, Rel k) :: b ++ (j, Acq k) :: c.
Proof.
  intros S0 G. induction is as [|m is IH]; intros s s1 i j k K E NE OI OJ.
  - cbn [steps] in E. injection E as E. subst s1. exfalso. destruct OI as (t & N1 & I1), OJ as (u & N2 & I2). apply NE. exact (proj2 K i j t u k N1 N2 I1 I2).
  - cbn [steps] in E. cbn [trace]. destruct (step s m) as [s2|] eqn:F; [|discriminate].
    destruct (loses s m s2 i k F OI) as [L|[L M]].
    + destruct (IH s2 s1 i j k (ok_step _ _ s m s2 K F) E NE L OJ) as (a & b & c & T). exists (next s m ++ a), b, c. rewrite T, <- app_assoc. reflexivity.
    + subst m. rewrite L. cbn [app].
      assert (NO : ~ owns s2 j k).
      { intros OW. destruct (gains s i s2 j k F OW) as [G1|G1]; [|rewrite L in G1; discriminate G1]. destruct OI as (t & N1 & I1), G1 as (u & N2 & I2). apply NE. exact (proj2 K i j t u k N1 N2 I1 I2). }
      destruct (acquired is s2 s1 j k E NO OJ) as (b & c & T). exists [], b, c. rewrite T. reflexivity.
Qed.

(** C132, the part that holds: whatever the threads and callbacks, the bytes written to the socket of a websocket, the bytes read from it, its list of sent messages if the program does not take messages out of
    it, and the variables of the program that it always accesses with one mutex, are protected: between an access by one thread and an access by another thread the first one has released the mutex and
    then the second one has taken it. So no frame is written into another one, and the reader of an answer to CLOSE and the thread of the websocket do not share out a frame between them. *)
Theorem C132_protected_partial : forall g out l, Forall (fun p => careful_role g out (fst p)) l -> forall is s i his ei ri v k js s1 j hjs ej rj,
  steps (start l) is = Some s -> nth_error s i = Some (his, ei :: ri) -> touches v ei -> guard g out v = Some k ->
  steps s js = Some s1 -> nth_error s1 j = Some (hjs, ej :: rj) -> touches v ej -> i <> j ->
  exists a b c, trace s js = a ++ (i, Rel k) :: b ++ (j, Acq k) :: c.
Proof.
  intros g out l C is s i his ei ri v k js s1 j hjs ej rj E N T GU E1 N1 T1 NE.
  pose proof (guards g out l C is s E) as K. pose proof (ok_steps _ _ js s s1 K E1) as K1.
  apply (handed_over false (guard g out) js s s1 i j k K E1 NE).
  - eexists. split; [exact N|]. exact (holds_access g out s i his ei ri v k K N T GU).
  - eexists. split; [exact N1|]. exact (holds_access g out s1 j hjs ej rj v k K1 N1 T1 GU).
Qed.
Theorem C132_no_race_partial : forall g out l, Forall (fun p => careful_role g out (fst p)) l -> forall is s v, steps (start l) is = Some s -> guard g out v <> None -> ~ race v s.
Proof.
  intros g out l C is s v E GU (i & j & hi & hj & ei & ej & ri & rj & NE & N1 & N2 & T1 & T2). destruct (guard g out v) as [k|] eqn:Q; [|congruence].
  destruct (C132_protected_partial g out l C is s i hi ei ri v k [] s j hj ej rj E N1 (or_intror T1) Q eq_refl N2 T2 NE) as (a & b & c & X). destruct a; discriminate X.
Qed.

(** the context of the extensions for received messages is used by one thread only *)
Fixpoint mentions (v : var) (c : code) : Prop :=
  match c with Skip => False | Rd u | Wr u => u = v | Seq a b | Alt a b => mentions v a \/ mentions v b | Loop a | Sync _ a => mentions v a end.
Lemma path_mentions : forall v c x e, In e (path c x) -> touches v e -> mentions v c.
Proof.
  intro v. induction c as [|u|u|a IHa b IHb|a IHa b IHb|a IHa|l a IHa]; intros x e I1 T; cbn [path] in I1; cbn [mentions].
  - destruct I1.
  - destruct I1 as [<-|[]]. destruct T as [T|T]; congruence.
  - destruct I1 as [<-|[]]. destruct T as [T|T]; congruence.
  - destruct x; apply in_app_or in I1; destruct I1; eauto.
  - destruct x; eauto.
  - destruct x as [| | |l]; try destruct I1. apply in_flat_map in I1. destruct I1 as (y & _ & I1). eauto.
  - destruct I1 as [<-|I1]; [destruct T; discriminate|]. apply in_app_or in I1. destruct I1 as [I1|[<-|[]]]; [eauto|destruct T; discriminate].
Qed.
Ltac none := cbn [mentions managed send_frame available read_message send_close send_control send_data remove_active add_active Maybe call]; intuition discriminate.
Lemma stop_inflate : forall w ws, ~ mentions (Inflate w) (stop ws).
Proof.
  intros w ws. assert (X : ~ mentions (Inflate w) (fold_right (fun u c => Rd Active ;; Wr (CloseFlag u) ;; c) Skip ws)) by (induction ws as [|u ws IH]; cbn [fold_right mentions]; [auto|intuition discriminate]).
  unfold stop. cbn [mentions]. intuition discriminate.
Qed.
Lemma program_inflate : forall w u, ~ mentions (Inflate w) (program u).
Proof.
  intros w. induction u as [|wr n|a IHa b IHb|a IHa b IHb|a IHa|n a IHa|a]; cbn [program mentions]; try tauto; [destruct wr; none|].
  destruct a as [u|u|u|u|u|u|u|u|u|ws]; try none. apply stop_inflate.
Qed.
Lemma role_inflate : forall w r, mentions (Inflate w) (code_of r) -> exists m c k, r = RSocket w m c k.
Proof.
  intros w [u m c client|u p|p|p] M; cbn [code_of] in M.
  - exists m, c, client. f_equal. revert M. unfold socket_thread. pose proof (program_inflate w m). pose proof (program_inflate w c).
    destruct client; cbn [mentions managed send_frame available read_message send_close send_control send_data remove_active Maybe]; intro M; repeat match goal with H : _ \/ _ |- _ => destruct H as [H|H] end; try discriminate; try contradiction; congruence.
  - revert M. unfold manager_thread. pose proof (program_inflate w p). none.
  - destruct (program_inflate w p M).
  - revert M. pose proof (program_inflate w p). none.
Qed.
Lemma suffix_steps : forall is s s1 i h r, steps s is = Some s1 -> nth_error s1 i = Some (h, r) -> exists h0 p, nth_error s i = Some (h0, p ++ r).
Proof.
  induction is as [|m is IH]; intros s s1 i h r E N; cbn [steps] in E; [injection E as E; subst; exists h, []; exact N|].
  destruct (step s m) as [s2|] eqn:F; [|discriminate]. destruct (IH s2 s1 i h r E N) as (h0 & p & N2). destruct (step_inv s m s2 F) as (hm & e & rm & h1 & NM & N1 & OT & _).
  destruct (Nat.eq_dec i m) as [->|NE]; [|rewrite OT in N2 by exact NE; eauto]. rewrite N1 in N2. injection N2 as A B. subst. exists hm, (e :: p). exact NM.
Qed.
Theorem C132_received_partial : forall l w, (forall i j m c k x m2 c2 k2 x2, nth_error l i = Some (RSocket w m c k, x) -> nth_error l j = Some (RSocket w m2 c2 k2, x2) -> i = j) ->
  forall is s, steps (start l) is = Some s -> ~ race (Inflate w) s.
Proof.
  intros l w U is s E (i & j & hi & hj & ei & ej & ri & rj & NE & N1 & N2 & T1 & T2).
  assert (X : forall i h e r, nth_error s i = Some (h, e :: r) -> touches (Inflate w) e -> exists m c k x, nth_error l i = Some (RSocket w m c k, x)).
  { intros n h e r N T. destruct (suffix_steps is (start l) s n h (e :: r) E N) as (h0 & p & N0). unfold start in N0. rewrite nth_error_map in N0. destruct (nth_error l n) as [[ro x]|]; cbn [option_map] in N0; [|discriminate].
    injection N0 as _ N0. cbn [fst snd] in N0. assert (I1 : In e (path (code_of ro) x)) by (rewrite N0; apply in_or_app; right; left; reflexivity).
    destruct (role_inflate w ro (path_mentions _ _ _ _ I1 T)) as (m & c & k & ->). eauto 6. }
  destruct (X i hi ei ri N1 (or_intror T1)) as (m & c & k & x & A). destruct (X j hj ej rj N2 T2) as (m2 & c2 & k2 & x2 & B). apply NE. exact (U i j m c k x m2 c2 k2 x2 A B).
Qed.

(** ** The variables that are not protected *)
Definition rc : choice := CPair CNone (CPair (CTimes [CNone]) CNone).
(** C132, refuted for connected: the thread of a websocket reads it at the head of its loop (674) while the manager callback, which has sent CLOSE, sets it (1538); *)
Theorem C132_connected_refuted : exists l is s, Forall (fun p => careful_role (fun _ => None) (fun _ => false) (fst p)) l /\ steps (start l) is = Some s /\ race (Connected 0) s.
Proof.
  exists [(RSocket 0 USkip USkip false, rc); (RManager 0 (UCall (AClose 0)), CPair (CPair CNone (CRight CNone)) CNone)], [1%nat; 1%nat; 1%nat]. eexists.
  split; [repeat constructor|]. split; [vm_compute; reflexivity|]. exists 1%nat, 0%nat. repeat eexists; try (vm_compute; reflexivity); [discriminate|]. left. reflexivity.
Qed.
(** for close_flag: 675 reads it, the thread of the manager sets it, with read_lock, which the reader does not have (581), as ulfius_websocket_send_close_signal does without a mutex (2292); *)
Theorem C132_flag_refuted : exists l is s, steps (start l) is = Some s /\ race (CloseFlag 0) s.
Proof.
  exists [(RSocket 0 USkip USkip false, rc); (RManager 0 USkip, CPair CNone (CPair CNone (CRight CNone)))], [0%nat; 1%nat; 1%nat]. eexists.
  split; [vm_compute; reflexivity|]. exists 1%nat, 0%nat. repeat eexists; try (vm_compute; reflexivity); [discriminate|]. left. reflexivity.
Qed.
(** for keep_messages, which a program sets while messages are sent; *)
Theorem C132_keep_refuted : exists l is s, steps (start l) is = Some s /\ race (Keep 0) s.
Proof.
  exists [(RProgram (UCall (AKeep 0)), CNone); (RManager 0 (UCall (AData 0)), CPair (CPair CNone (CRight (CPair CNone (CRight (CRight CNone))))) CNone)], [1%nat; 1%nat]. eexists.
  split; [vm_compute; reflexivity|]. exists 0%nat, 1%nat. repeat eexists; try (vm_compute; reflexivity); [discriminate|]. left. reflexivity.
Qed.
(** two paths through the code of the library *)
Definition kept : choice := CPair CNone (CPair CNone (CRight (CPair CNone (CRight (CPair CNone (CPair (CRight (CRight (CRight (CPair CNone (CPair CNone (CPair CNone (CRight CNone))))))) CNone)))))).
Definition waiting : choice := CPair CNone (CRight (CPair CNone (CPair (CTimes [CPair (CRight (CPair CNone (CPair CNone (CPair CNone (CPair CNone (CRight CNone)))))) CNone]) CNone))).
(** for the list of received messages, with no more than the two threads the library itself makes: the thread of the websocket puts a message into it (735) while the manager callback, which has sent CLOSE,
    puts there a message it read while waiting for the answer (1523); both reallocate the list. *)
Theorem C132_received_refuted : exists l is s, Forall (fun p => careful_role (fun _ => None) (fun _ => true) (fst p)) l /\ steps (start l) is = Some s /\ race (InList 0) s.
Proof.
  exists [(RSocket 0 USkip USkip false, CPair CNone (CPair (CTimes [kept]) CNone)); (RManager 0 (UCall (AClose 0)), CPair waiting CNone)], ([0; 0; 0; 0; 0] ++ [1; 1; 1; 1; 1; 1])%nat. eexists.
  split; [repeat constructor|]. split; [vm_compute; reflexivity|]. exists 0%nat, 1%nat. repeat eexists; try (vm_compute; reflexivity); [discriminate|]. right. reflexivity.
Qed.
(** for the list of sent messages when a program takes messages out of it with ulfius_websocket_pop_first_message, which takes no mutex; *)
Theorem C132_sent_refuted : exists l is s, steps (start l) is = Some s /\ race (OutList 0) s.
Proof.
  exists [(RProgram (UCall (APopOut 0)), CNone); (RManager 0 (UCall (AData 0)), CPair (CPair CNone (CRight (CPair CNone (CRight (CRight (CPair CNone (CPair CNone (CRight CNone)))))))) CNone)], [1%nat; 1%nat; 1%nat]. eexists.
  split; [vm_compute; reflexivity|]. exists 0%nat, 1%nat. repeat eexists; try (vm_compute; reflexivity); [discriminate|]. right. reflexivity.
Qed.
(** for the context of the extensions for messages to send: the message callback and the manager callback send at the same time, and 1551-1571 takes no mutex (see C115_inside_refuted for what is sent then); *)
Theorem C132_deflate_refuted : exists l is s, Forall (fun p => careful_role (fun _ => None) (fun _ => true) (fst p)) l /\ steps (start l) is = Some s /\ race (Deflate 0) s.
Proof.
  exists [(RProgram (UCall (AData 0)), CPair CNone (CRight (CPair (CTimes [CNone]) CNone))); (RManager 0 (UCall (AData 0)), CPair (CPair CNone (CRight (CPair (CTimes [CNone]) CNone))) CNone)], [0%nat; 1%nat]. eexists.
  split; [repeat constructor|]. split; [vm_compute; reflexivity|]. exists 0%nat, 1%nat. repeat eexists; try (vm_compute; reflexivity); [discriminate|]. right. reflexivity.
Qed.
(** for nb_websocket_active: ulfius_stop_framework reads it with websocket_close_lock (ulfius.c:1336), the thread of a websocket changes it with websocket_active_lock (1469); *)
Theorem C132_count_refuted : exists l is s, Forall (fun p => careful_role (fun _ => None) (fun _ => true) (fst p)) l /\ steps (start l) is = Some s /\ race Count s.
Proof.
  exists [(RSocket 0 USkip USkip false, CPair CNone (CPair CNone (CPair CNone (CPair CNone (CPair CNone (CPair CNone (CRight (CPair (CTimes [CNone]) (CRight CNone)))))))));
          (RProgram (UCall (AStop [0%nat])), CPair CNone CNone)], ([1; 1; 1; 1; 1; 1] ++ [0; 0; 0; 0; 0; 0; 0])%nat. eexists.
  split; [repeat constructor|]. split; [vm_compute; reflexivity|]. exists 0%nat, 1%nat. repeat eexists; try (vm_compute; reflexivity); [discriminate|]. left. reflexivity.
Qed.
(** for the array of the websockets: two threads of libmicrohttpd that open websockets reallocate it at the same time, before they take the mutex (1422; what comes of it is in C48_realloc_race_refuted). *)
Theorem C132_array_refuted : exists l is s, steps (start l) is = Some s /\ race Active s.
Proof.
  exists [(RDispatch USkip, CPair CNone (CRight CNone)); (RDispatch USkip, CPair CNone (CRight CNone))], [0%nat; 1%nat]. eexists.
  split; [vm_compute; reflexivity|]. exists 0%nat, 1%nat. repeat eexists; try (vm_compute; reflexivity); [discriminate|]. right. reflexivity.
Qed.

(** ** Examples *)
(** a message callback that has mutex 1 of the program and sends a message, a manager callback that has mutex 2 and then 1 and sends to the same websocket *)
Definition u_message : ucode := USync 1 (USeq (UAccess true 0) (UCall (AData 0))).
Definition u_manager : ucode := USync 2 (USeq (USync 1 (USeq (UAccess true 0) (UCall (AControl 0)))) (UCall (ASignal 0))).
Definition u_received : choice := CPair CNone (CPair CNone (CRight (CPair CNone (CRight (CPair CNone (CPair (CRight (CRight (CRight (CPair CNone (CPair (CRight (CPair CNone (CPair CNone (CRight (CPair CNone (CRight CNone)))))) CNone))))) CNone)))))).
Definition u_threads : list (role * choice) :=
  [(RSocket 0 u_message USkip false, CPair CNone (CPair (CTimes [u_received]) CNone)); (RManager 0 u_manager, CPair (CPair (CPair CNone (CPair CNone (CRight (CPair CNone (CRight CNone))))) CNone) CNone)].
Example C131_hyps : Forall (fun p => tidy_role (fst p)) u_threads /\ Forall (fun p => careful_role (fun _ => Some 1%nat) (fun _ => true) (fst p)) u_threads.
Proof. split; repeat constructor. Qed.
(** the thread of the websocket has mutex 1 and write_lock, the manager waits for mutex 1 *)
Example C131_ex : exists s, steps (start u_threads) [0; 0; 0; 0; 0; 0; 0; 0; 1]%nat = Some s /\ map fst s = [[LWrite 0; LUser 1]; [LUser 2]] /\ step s 1 = None /\ step s 0 <> None.
Proof. eexists. repeat split; vm_compute; try reflexivity. discriminate. Qed.
(** without an order two threads of a program wait for each other, so the hypothesis is needed *)
Example C131_order_ex : exists s, steps (start [(RProgram (USync 1 (USync 2 USkip)), CNone); (RProgram (USync 2 (USync 1 USkip)), CNone)]) [0; 1]%nat = Some s /\ forall i, step s i = None.
Proof. eexists. split; [vm_compute; reflexivity|]. intro i. destruct i as [|[|i]]; [vm_compute; reflexivity..|]. unfold step. cbn [nth_error]. destruct i; reflexivity. Qed.
(** C132: the message callback is about to access variable 0; later the manager callback is *)
Example C132_ex : exists s s1 r r1, steps (start u_threads) [0; 0; 0; 0; 0]%nat = Some s /\ nth_error s 0 = Some ([LUser 1], EWr (VUser 0) :: r) /\
  steps s [0; 0; 0; 0; 0; 1; 0; 1]%nat = Some s1 /\ nth_error s1 1 = Some ([LUser 1; LUser 2], EWr (VUser 0) :: r1) /\ guard (fun _ => Some 1%nat) (fun _ => true) (VUser 0) = Some (LUser 1).
Proof. do 4 eexists. repeat split; vm_compute; reflexivity. Qed.
(** C132_received_partial: the thread of the websocket is about to inflate what it has received, with no mutex *)
Example C132_received_ex : exists s r, steps (start [(RSocket 0 USkip USkip false, CPair CNone (CPair (CTimes [CPair CNone (CPair CNone (CRight (CPair CNone (CRight (CPair CNone (CPair (CRight (CRight (CRight (CPair (CTimes [CNone]) CNone)))) CNone))))))]) CNone))]) [0; 0; 0; 0]%nat = Some s /\
  nth_error s 0 = Some ([], EWr (Inflate 0) :: r).
Proof. do 2 eexists. split; vm_compute; reflexivity. Qed.

Print Assumptions C131_no_deadlock.
Print Assumptions C131_no_stuck.
Print Assumptions C132_protected_partial.
Print Assumptions C132_no_race_partial.
Print Assumptions C132_received_partial.
Print Assumptions C132_connected_refuted.
Print Assumptions C132_flag_refuted.
Print Assumptions C132_keep_refuted.
Print Assumptions C132_received_refuted.
Print Assumptions C132_sent_refuted.
Print Assumptions C132_deflate_refuted.
Print Assumptions C132_count_refuted.
Print Assumptions C132_array_refuted.
