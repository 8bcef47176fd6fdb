(** Proofs about the memory of requests that come in (C105): the maps. *)
From Coq Require Import String ZArith Bool List Lia.
From Verif Require Import Base BaseFacts UMapModel UMapProofs Utf8Model OwnModel OwnSpec OwnProofs MapMemModel MapMemSpec MapMemProofs MapMemPut MapMemRun MapMemSteps
  RespMemModel RespMemSpec RespMemProofs RespMemSteps ReqMemModel ReqMemSpec ReqMemProofs ReqMemCalls ReqMemCopy ReqMemSteps RecvMemModel RecvMemSpec.
Import ListNotations.
Open Scope Z_scope.

Lemma again_owns : forall m ids s, mowns m ids -> grows s -> mowns (again m s) ids.
Proof. intros m ids [n w] [O G] E. unfold grows in E. cbn in E. subst w. split; [exact O|reflexivity]. Qed.
Lemma again_short : forall m s, short (again m s) -> In false (fst s).
Proof. intros m s H. exact H. Qed.

Lemma a_value_hit : forall k ap old aq, (forall x, In x ap -> str_eqb (fst x) k = false) -> a_value k (ap ++ (k, old) :: aq) = old.
Proof.
  intros k ap old aq N. induction ap as [|[x v] ap IH]; cbn [app a_value]; [now rewrite str_eqb_refl|].
  pose proof (N (x, v) (or_introl eq_refl)) as Nx. cbn [fst] in Nx. rewrite Nx. apply IH. intros y Y. apply N. now right.
Qed.
Lemma a_value_miss : forall k a, (forall x, In x a -> str_eqb (fst x) k = false) -> a_value k a = [].
Proof.
  intros k a N. induction a as [|[x v] a IH]; cbn [a_value]; auto.
  pose proof (N (x, v) (or_introl eq_refl)) as Nx. cbn [fst] in Nx. rewrite Nx. apply IH. intros y Y. apply N. now right.
Qed.
Lemma a_value_len : forall N es a k, Forall2 (erel N) es a -> 0 <= N -> zlen (a_value k a) <= N.
Proof.
  intros N es a k F N0. induction F as [|e [x v] es a R F IH]; cbn [a_value]; [exact N0|].
  destruct (str_eqb x k); [apply R|exact IH].
Qed.
Lemma block_text : forall m ids p b, mowns m ids -> In p ids -> x_text m (Some (p, block_of (b ++ [0]))) = Ret (Some (text_of b)).
Proof.
  intros m ids p b O I. unfold x_text, x_block. rewrite (x_deref_ok _ m p _ ids O I). unfold bind. cbn [snd deref_cstr].
  rewrite (MapMemSteps.read_text b []). reflexivity.
Qed.
Lemma get_value : forall N m ids ik iv il es a k, mowns m ids -> incl (fb ik iv il es) ids -> Forall2 (erel N) es a ->
  exists p, x_get m (mkf ik iv il es) k = Ret p /\ x_text m p = Ret (a_text (a_value k a)) /\ (p = None <-> a_value k a = []).
Proof.
  intros N m ids ik iv il es a k O C F.
  destruct (rel_split N k es a F) as [(p & e & q & ap & old & aq & -> & -> & Fp & Fe & Fq & H & P1 & P2)|[P1 P2]].
  - rewrite (x_get_ok m ids ik iv il p e q k O C P1 H). rewrite a_value_hit by exact P2. eexists. split; [reflexivity|].
    destruct Fe as (_ & _ & [HL V] & _). cbn [snd] in *. rewrite HL. destruct old as [|z old].
    + change (0 <? zlen []) with false. cbn iota. split; [reflexivity|]. tauto.
    + replace (0 <? zlen (z :: old)) with true by (symmetry; apply Z.ltb_lt; apply zlen_pos; discriminate).
      destruct (hv e) as [[i x]|] eqn:EV; [|discriminate V]. subst x. split; [|split; discriminate].
      apply (block_text m ids i (z :: old) O). apply C. unfold fb. right. right. right. apply in_flat_map. exists e. split; [apply in_or_app; right; now left|].
      unfold eblocks. rewrite EV. right. now left.
  - rewrite a_value_miss by exact P2. exists None. split; [|split; [reflexivity|tauto]].
    unfold x_get. cbn [mkf f_keys]. rewrite (x_deref_ok _ m ik _ ids O) by (apply C; now left). unfold bind at 1. cbn [snd].
    rewrite (x_scan_null_miss m ids _ es 0); auto. intros x X. apply C. unfold fb. right. right. now right.
Qed.
Lemma utf8_nil : utf8_valid [] = true. Proof. reflexivity. Qed.
Lemma text_small : forall b t, a_text b = Some t -> zlen t <= zlen b.
Proof. intros b t E. destruct b as [|c b]; [discriminate|]. injection E as <-. exact (text_len (c :: b)). Qed.

(** ** one pair *)
Definition pair_case (check : bool) (m : mem) (a : amap) (k v : option str) (z : Z) (a' : amap) : Prop :=
  match k with
  | None => z = MHD_NO /\ a' = a
  | Some k =>
      (z = MHD_YES /\ accepted check [k; given v] = false /\ a' = a) \/
      (accepted check [k; given v] = true /\
        ((z = MHD_YES /\ k <> [] /\ a' = add_value k (given v) a) \/
         (z = MHD_NO /\ k = [] /\ a' = a) \/
         (z = MHD_NO /\ short m /\ a' = a) \/
         (z = MHD_YES /\ short m /\ a_text (a_value k a) <> None /\ a' = a_put k None a)))
  end.
Definition filled (N : Z) (P : Z -> amap -> Prop) (fr : list nat) (r : outcome (Z * (mem * fmap))) : Prop :=
  exists z m' ik iv il es a', r = Ret (z, (m', mkf ik iv il es)) /\ mowns m' (fb ik iv il es ++ fr) /\ Forall2 (erel N) es a' /\ NoDup (map fst a') /\ P z a'.

Lemma fill_pair_ok : forall check N m ik iv il es a k v fr, mowns m (fb ik iv il es ++ fr) -> Forall2 (erel N) es a -> NoDup (map fst a) -> 0 <= N ->
  N + (zlen (given v) + 2) + 1 < two64 -> filled (N + (zlen (given v) + 2)) (pair_case check m a k v) fr (x_fill_pair check m (mkf ik iv il es) k v).
Proof.
  intros check N m ik iv il es a k v fr O F ND N0 LT. pose proof (zlen_nonneg _ (given v)) as GV.
  assert (FM : Forall2 (erel (N + (zlen (given v) + 2))) es a) by (eapply erel_all; [|exact F]; lia).
  unfold x_fill_pair. destruct k as [k|]; [|do 7 eexists; split; [reflexivity|]; split; [exact O|]; split; [exact FM|]; split; [exact ND|]; split; reflexivity].
  replace (negb check || (utf8_valid k && match v with Some s => utf8_valid s | None => true end)) with (accepted check [k; given v]).
  2:{ unfold accepted. cbn [forallb]. rewrite andb_true_r. destruct v; reflexivity. }
  destruct (accepted check [k; given v]) eqn:AC.
  2:{ do 7 eexists; split; [reflexivity|]; split; [exact O|]; split; [exact FM|]; split; [exact ND|]. left. auto. }
  change (match v with Some s => s | None => [] end) with (given v). cbv zeta.
  destruct (get_value N m _ ik iv il es a k O (incl_appl _ (incl_refl _)) F) as (p & -> & XT & PN). unfold bind at 1. rewrite XT. unfold bind at 1. clear p XT PN.
  assert (AV : add_value k (given v) a = a_put k (Some (match a_text (a_value k a) with Some t => t ++ [44] ++ given v | None => given v end)) a) by reflexivity.
  pose proof (a_value_len N es a k F N0) as VL.
  destruct (a_text (a_value k a)) as [t|] eqn:ET.
  - pose proof (text_small _ _ ET) as TS.
    destruct (x_malloc_ok _ _ O) as (tmp & m1 & -> & L1 & CASE).
    assert (O1 : mowns m1 (fb ik iv il es ++ (ptr_blocks (at_block tmp tt) ++ fr))).
    { destruct CASE as [(i & -> & O1)|(-> & _ & O1)]; cbn [at_block ptr_blocks]; mowns_by O1. }
    assert (K : k <> []).
    { intros ->. clear - F ET. revert ET. induction F as [|e [x w] es a R F IH]; cbn [a_value]; [discriminate|]. destruct R as (_ & R & _). cbn [fst] in R.
      destruct x; [congruence|]. exact IH. }
    destruct (put_call N (N + (zlen (given v) + 2)) m1 ik iv il es a k (match tmp with Some _ => Some (t ++ [44] ++ given v) | None => None end) _ O1 F ND)
      as (c & m2 & ik2 & iv2 & il2 & es2 & a2 & EP & L2 & O2 & F2 & ND2 & C2); [|lia|lia|lia|].
    { intros s Es. destruct tmp; [|discriminate]. injection Es as <-. rewrite zlen_app. change ([44] ++ given v) with (44 :: given v). rewrite zlen_cons. lia. }
    match goal with |- context [x_put ?a1 ?b1 ?c1 ?d1] => match type of EP with _ = ?r => replace (x_put a1 b1 c1 d1) with r by (symmetry; exact EP) end end.
    unfold bind at 2.
    assert (O2' : mowns m2 (ptr_blocks (at_block tmp tt) ++ (fb ik2 iv2 il2 es2 ++ fr))) by mowns_by O2.
    destruct (x_free_ptr _ _ _ _ O2') as (m3 & E3 & O3 & L3). assert (AD : addr (at_block tmp tt) = tmp) by (destruct tmp; reflexivity). rewrite AD in E3. rewrite E3.
    unfold bind at 2. unfold bind at 1. cbn [fst snd].
    exists (if c =? U_OK then MHD_YES else MHD_NO), m3, ik2, iv2, il2, es2, a2. split; [reflexivity|]. split; [exact O3|]. split; [exact F2|]. split; [exact ND2|].
    right. split; [exact AC|]. rewrite ET. unfold put_meaning in C2. destruct k as [|b k]; [congruence|].
    destruct C2 as [E|(-> & S2 & ->)].
    + injection E as -> ->. change (U_OK =? U_OK) with true. cbn iota. destruct CASE as [(i & -> & _)|(-> & S1 & _)].
      * left. split; [reflexivity|]. split; [discriminate|]. rewrite AV. reflexivity.
      * right. right. right. split; [reflexivity|]. split; [exact S1|]. split; [discriminate|]. reflexivity.
    + right. right. left. split; [reflexivity|]. split; [now apply L1|reflexivity].
  - destruct (put_call N (N + (zlen (given v) + 2)) m ik iv il es a k (Some (given v)) _ O F ND)
      as (c & m2 & ik2 & iv2 & il2 & es2 & a2 & -> & L2 & O2 & F2 & ND2 & C2); [|lia|lia|lia|].
    { intros s Es. injection Es as <-. lia. }
    unfold bind. cbn [fst snd].
    exists (if c =? U_OK then MHD_YES else MHD_NO), m2, ik2, iv2, il2, es2, a2. split; [reflexivity|]. split; [exact O2|]. split; [exact F2|]. split; [exact ND2|].
    right. split; [exact AC|]. unfold put_meaning in C2. destruct C2 as [E|(-> & S2 & ->)].
    + destruct k as [|b k]; injection E as -> ->.
      * right. left. auto.
      * left. split; [reflexivity|]. split; [discriminate|]. rewrite AV. reflexivity.
    + right. right. left. auto.
Qed.

Lemma zsum_nonneg : forall A (f : A -> Z) l, (forall x, 0 <= f x) -> 0 <= zsum (map f l).
Proof. intros A f l H. induction l as [|x l IH]; cbn [map zsum fold_right]; [lia|]. specialize (H x). unfold zsum in IH. lia. Qed.
Lemma pair_size_nonneg : forall x, 0 <= pair_size x.
Proof. intros x. unfold pair_size. pose proof (zlen_nonneg _ (given (snd (snd x)))). lia. Qed.
Lemma filled_mono : forall N N' P fr r, N <= N' -> filled N P fr r -> filled N' P fr r.
Proof.
  intros N N' P fr r L (z & m & ik & iv & il & es & a & E & O & F & ND & H). exists z, m, ik, iv, il, es, a. split; [exact E|]. split; [exact O|].
  split; [eapply erel_all; eauto|]. auto.
Qed.
Lemma fill_all_ok : forall check l N m ik iv il es a fr, mowns m (fb ik iv il es ++ fr) -> Forall2 (erel N) es a -> NoDup (map fst a) -> 0 <= N ->
  N + zsum (map pair_size l) + 1 < two64 -> Forall (fun x : pair_in => grows (fst x)) l ->
  filled (N + zsum (map pair_size l)) (fun _ a' => collects check a l a') fr (x_fill_all check m (mkf ik iv il es) l).
Proof.
  intros check l. induction l as [|[s [k v]] l IH]; intros N m ik iv il es a fr O F ND N0 LT G; cbn [x_fill_all].
  - exists MHD_YES, m, ik, iv, il, es, a. split; [reflexivity|]. split; [exact O|]. split; [eapply erel_all; [|exact F]; cbn; lia|]. split; [exact ND|]. constructor.
  - inversion G as [|? ? G1 G2]; subst. cbn [fst] in G1. cbn [map zsum fold_right] in LT |- *. fold (zsum (map pair_size l)) in LT |- *. unfold pair_size at 1 in LT. unfold pair_size at 1. cbn [snd] in LT |- *.
    pose proof (zsum_nonneg _ pair_size l pair_size_nonneg) as SN. pose proof (zlen_nonneg _ (given v)) as GV.
    destruct (fill_pair_ok check N (again m s) ik iv il es a k v fr (again_owns _ _ _ O G1) F ND N0) as (z & m1 & ik1 & iv1 & il1 & es1 & a1 & -> & O1 & F1 & ND1 & C); [lia|].
    unfold bind at 1. cbn [fst snd].
    assert (STOP : z = MHD_NO -> collects check a ((s, (k, v)) :: l) a1 -> filled (N + (zlen (given v) + 2 + zsum (map pair_size l))) (fun _ a' => collects check a ((s, (k, v)) :: l) a') fr
       (if z =? MHD_YES then x_fill_all check m1 (mkf ik1 iv1 il1 es1) l else Ret (z, (m1, mkf ik1 iv1 il1 es1)))).
    { intros -> CO. change (MHD_NO =? MHD_YES) with false. cbn iota. exists MHD_NO, m1, ik1, iv1, il1, es1, a1. split; [reflexivity|]. split; [exact O1|].
      split; [eapply erel_all; [|exact F1]; lia|]. split; [exact ND1|exact CO]. }
    assert (GO : z = MHD_YES -> (forall a', collects check a1 l a' -> collects check a ((s, (k, v)) :: l) a') -> filled (N + (zlen (given v) + 2 + zsum (map pair_size l))) (fun _ a' => collects check a ((s, (k, v)) :: l) a') fr
       (if z =? MHD_YES then x_fill_all check m1 (mkf ik1 iv1 il1 es1) l else Ret (z, (m1, mkf ik1 iv1 il1 es1)))).
    { intros -> CO. change (MHD_YES =? MHD_YES) with true. cbn iota.
      destruct (IH (N + (zlen (given v) + 2)) m1 ik1 iv1 il1 es1 a1 fr O1 F1 ND1) as (z & m2 & ik2 & iv2 & il2 & es2 & a2 & -> & O2 & F2 & ND2 & C2); [lia|lia|exact G2|].
      exists z, m2, ik2, iv2, il2, es2, a2. split; [reflexivity|]. split; [exact O2|]. split; [eapply erel_all; [|exact F2]; lia|]. split; [exact ND2|auto]. }
    destruct k as [k|]; cbn [pair_case] in C.
    + destruct C as [(-> & AC & ->)|(AC & [(-> & K & ->)|[(-> & -> & ->)|[(-> & SH & ->)|(-> & SH & T & ->)]]])].
      * apply GO; [reflexivity|]. intros. now apply co_refused.
      * apply GO; [reflexivity|]. intros. now apply co_added.
      * apply STOP; [reflexivity|]. apply co_nameless. auto.
      * apply STOP; [reflexivity|]. now apply co_cut.
      * apply GO; [reflexivity|]. intros. now apply co_lost.
    + destruct C as [-> ->]. apply STOP; [reflexivity|]. apply co_nameless. auto.
Qed.
