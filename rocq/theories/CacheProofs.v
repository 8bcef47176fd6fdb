(** Proofs about requests that share a cache of compressed files (C102). *)
From Coq Require Import ZArith Bool List Lia.
From Verif Require Import Base BaseFacts UMapModel UMapProofs OwnModel OwnSpec OwnProofs MapMemModel MapMemSpec MapMemProofs MapMemPut MapMemRun MapMemSteps HandMemSteps ReqMemProofs ReqMemCopy CacheModel CacheSpec.
Import ListNotations.
Open Scope Z_scope.

(** ** what a thread knows *)
Definition before (es : list hent) (i : nat) (name : str) : Prop :=
  (i <= length es)%nat /\ forall x, In x (firstn i es) -> str_eqb (snd (hk x)) name = false.
Definition value_of (N : Z) (es : list hent) (a : amap) (name : str) (v : ptr buf) (n : Z) : Prop :=
  exists e b, In e es /\ In (name, b) a /\ erel N e (name, b) /\ v = hv e /\ n = hl e.
Definition knows (N : Z) (es : list hent) (a : amap) (name : str) (u : use) : Prop :=
  match u with Has => True | Get => In name (map fst a) | Len v => exists n, value_of N es a name v n end.
Definition pos (N : Z) (f : fmap) (es : list hent) (a : amap) (name : str) (ph : phase) : Prop :=
  match ph with
  | Load u i => before es i name /\ knows N es a name u
  | Test u i p => before es i name /\ knows N es a name u /\ p = f_keys f
  | Take v n => value_of N es a name v n
  | _ => True
  end.
Definition inv (N : Z) (s : site) (g : aweb) : Prop :=
  exists ik iv il es, w_cache s = mkf ik iv il es /\ Forall2 (erel N) es (g_cache g) /\ NoDup (map fst (g_cache g)) /\
    mowns (w_mem s) (fb ik iv il es ++ []) /\ ~ short (w_mem s) /\ (forall x, In x (g_cache g) -> snd x <> []) /\
    g_files g = w_files s /\ g_reqs g = requests s /\
    Forall (fun x => fst x <> [] /\ pos N (w_cache s) es (g_cache g) (fst x) (snd x)) (w_threads s).

Lemma in_split_rel : forall N es a name, Forall2 (erel N) es a -> NoDup (map fst a) -> In name (map fst a) ->
  exists p e q ap b aq, es = p ++ e :: q /\ a = ap ++ (name, b) :: aq /\ length p = length ap /\ erel N e (name, b) /\ Forall2 (erel N) p ap.
Proof.
  intros N es a name F ND I. apply in_map_iff in I. destruct I as ([k b] & E & I). cbn [fst] in E. subst k.
  apply in_split in I. destruct I as (ap & aq & ->). apply Forall2_app_inv_r in F. destruct F as (p & r & F1 & F2 & ->).
  inversion F2 as [|e x q aq' R F3 Q1 Q2]; subst. exists p, e, q, ap, b, aq. repeat split; auto; try apply R. eapply f2_length; eauto.
Qed.
Lemma split_at : forall A (l : list A) i, (i < length l)%nat -> exists p e q, l = p ++ e :: q /\ length p = i.
Proof.
  intros A l i L. destruct (nth_error l i) as [e|] eqn:E.
  - destruct (nth_error_split _ _ E) as (p & q & -> & X). eauto.
  - apply nth_error_None in E. lia.
Qed.
Lemma rel_at : forall N p e q a, Forall2 (erel N) (p ++ e :: q) a -> exists b, In (snd (hk e), b) a /\ erel N e (snd (hk e), b).
Proof.
  intros N p e q a F. apply Forall2_app_inv_l in F. destruct F as (x & y & _ & F & ->). inversion F as [|? [k b] ? ? R]; subst.
  destruct R as (E & R). cbn [fst] in E. subst k. exists b. split; [apply in_or_app; right; now left|]. split; auto.
Qed.
Lemma none_here : forall N es a name, Forall2 (erel N) es a -> (forall x, In x es -> str_eqb (snd (hk x)) name = false) -> ~ In name (map fst a).
Proof.
  intros N es a name F P I. rewrite <- (keys_rel N es a F) in I. unfold keys_of in I. apply in_map_iff in I. destruct I as (x & E & I).
  specialize (P x I). rewrite E, str_eqb_refl in P. discriminate.
Qed.
Lemma take_ok : forall N m ids es a name v n, mowns m ids -> incl (flat_map eblocks es) ids -> (forall x, In x a -> snd x <> []) -> value_of N es a name v n ->
  exists b, In (name, b) a /\ take m v n = Ret (Some b).
Proof.
  intros N m ids es a name v n O C NE (e & b & I & Ib & R & -> & ->). exists b. split; auto.
  destruct R as (_ & _ & (L & V) & _). cbn [snd] in *. specialize (NE _ Ib). cbn [snd] in NE. pose proof (zlen_pos _ _ NE).
  destruct (hv e) as [[i w]|] eqn:E; [|congruence]. unfold take. rewrite L. replace (zlen b <=? 0) with false by (symmetry; apply Z.leb_gt; lia).
  rewrite (x_deref_ok _ m i w ids); auto.
  2:{ apply C. apply (eb_in e es I). unfold eblocks. rewrite E. right. now left. }
  unfold bind at 1. cbn [snd]. rewrite V. unfold zlen. rewrite Nat2Z.id, read_bytes_ok. reflexivity.
Qed.
Lemma overlay_nonempty : forall old z, z <> [] -> overlay old z 0 <> [].
Proof. intros old z Z E. apply Z. unfold overlay in E. apply app_eq_nil in E. destruct E as [_ E]. now apply app_eq_nil in E. Qed.
Lemma change_in : forall k g a x, In x (a_change k g a) -> In x a \/ exists old, x = (k, g old).
Proof.
  intros k g a. induction a as [|[y w] r IH]; intros x I; cbn [a_change] in I.
  - destruct I as [<-|[]]. eauto.
  - destruct (str_eqb y k) eqn:E.
    + destruct I as [<-|I]; [|left; now right]. apply str_eqb_eq in E. subst y. eauto.
    + destruct I as [<-|I]; [left; now left|]. destruct (IH _ I) as [J|J]; auto. left. now right.
Qed.
Lemma change_has : forall k g a, In k (map fst (a_change k g a)).
Proof.
  intros k g a. induction a as [|[y w] r IH]; cbn [a_change]; [now left|].
  destruct (str_eqb y k) eqn:E; [apply str_eqb_eq in E; subst; now left|now right].
Qed.
(** a thread that is not looking anything up does not mind what the cache is *)
Lemma pos_free : forall N f es a f' es' a' name ph, looking ph = false -> pos N f es a name ph -> pos N f' es' a' name ph.
Proof.
  intros N f es a f' es' a' name [u i|u i p|v n| |b] L P; try discriminate; try exact Logic.I.
  destruct u; try discriminate. destruct i; try discriminate. split; [|exact Logic.I]. split; [apply Nat.le_0_l|]. intros x [].
Qed.

(** ** one step of a thread *)
Section Steps.
Variable zip : list Z -> option (list Z).
Variable N : Z.
Hypothesis ZOK : zip_ok zip N.
Hypothesis SMALL : N + 1 < two64.

Lemma seen_set : forall l t name ph, map (fun x : str * phase => (fst x, seen (snd x))) (set_nth l t (name, ph)) =
  set_nth (map (fun x : str * phase => (fst x, seen (snd x))) l) t (name, seen ph).
Proof. induction l as [|x l IH]; intros [|t] name ph; cbn [set_nth map]; auto. f_equal. apply IH. Qed.
Lemma seen_nth : forall l t name ph, nth_error l t = Some (name, ph) ->
  nth_error (map (fun x : str * phase => (fst x, seen (snd x))) l) t = Some (name, seen ph).
Proof. intros l t name ph E. now rewrite (map_nth_error _ _ _ E). Qed.
Lemma set_same : forall A (l : list A) t x, nth_error l t = Some x -> set_nth l t x = l.
Proof. induction l as [|y l IH]; intros [|t] x E; cbn in *; try discriminate; [now inversion E|f_equal; auto]. Qed.
Lemma aweb_eta : forall g, mk_aweb (g_cache g) (g_files g) (g_reqs g) = g.
Proof. now intros []. Qed.

(** a step that leaves the cache as it is *)
Lemma still : forall s g t name ph ph', inv N s g -> nth_error (w_threads s) t = Some (name, ph) ->
  (forall es ik iv il, w_cache s = mkf ik iv il es -> Forall2 (erel N) es (g_cache g) -> pos N (w_cache s) es (g_cache g) name ph') ->
  inv N (mk_site (w_mem s) (w_cache s) (w_files s) (set_nth (w_threads s) t (name, ph')))
        (mk_aweb (g_cache g) (g_files g) (set_nth (g_reqs g) t (name, seen ph'))).
Proof.
  intros s g t name ph ph' (ik & iv & il & es & EF & F & ND & O & SH0 & NE & FS & RS & TS) E P.
  exists ik, iv, il, es. cbn [w_cache w_mem w_files w_threads g_cache g_files g_reqs]. repeat (split; [assumption|]).
  split; [rewrite RS; unfold requests; cbn [w_threads]; now rewrite seen_set|].
  apply forall_set; auto. cbn [fst snd]. split; [exact (proj1 (forall_nth _ _ _ _ _ TS E))|eauto].
Qed.

(** the search goes on, or ends *)
Lemma test_ok : forall s g t name u i p, inv N s g -> nth_error (w_threads s) t = Some (name, Test u i p) ->
  exists ph', go zip s name (Test u i p) = Ret (w_mem s, (w_cache s, ph')) /\
    (forall es ik iv il, w_cache s = mkf ik iv il es -> Forall2 (erel N) es (g_cache g) -> pos N (w_cache s) es (g_cache g) name ph') /\
    (seen ph' = Waiting \/ (seen ph' = Missed /\ ~ In name (map fst (g_cache g)))).
Proof.
  intros s g t name u i p (ik & iv & il & es & EF & F & ND & O & SH0 & NE & FS & RS & TS) E.
  destruct (forall_nth _ _ _ _ _ TS E) as [Nn P]. cbn [fst snd pos] in Nn, P. destruct P as ((Bi & Bn) & K & ->).
  assert (IC : incl (fb ik iv il es) (fb ik iv il es ++ [])) by (intros x X; apply in_or_app; now left).
  cbn [go]. rewrite EF. cbn [mkf f_keys]. rewrite (x_deref_ok _ _ ik _ _ O) by (apply IC; now left). unfold bind at 1. cbn [snd].
  assert (SAME : forall ph', pos N (w_cache s) es (g_cache g) name ph' ->
    forall es' ik' iv' il', mkf ik iv il es = mkf ik' iv' il' es' -> Forall2 (erel N) es' (g_cache g) -> pos N (mkf ik iv il es) es' (g_cache g) name ph').
  { intros ph' P' es' ik' iv' il' EQ F'. rewrite EF in P'. unfold mkf in EQ. injection EQ as -> KE -> VE -> LE _.
    assert (es' = es) as ->; [|exact P']. apply app_inj_tail in KE. apply app_inj_tail in VE. apply app_inj_tail in LE.
    destruct KE as [KE _]. destruct VE as [VE _]. destruct LE as [LE _]. clear - KE VE LE. revert es' KE VE LE.
    induction es as [|[k v n] es IH]; intros [|[k' v' n'] es'] KE VE LE; cbn in *; try discriminate; auto.
    injection KE as -> KE. injection VE as -> VE. injection LE as -> LE. f_equal. now apply IH. }
  destruct (Nat.eq_dec i (length es)) as [->|Ne].
  - replace (length es) with (length (map (fun e => Some (hk e)) es)) by apply map_length.
    change (@None (nat * str)) with (@None (nat * str)). rewrite aget_mid. unfold bind at 1.
    assert (NI : ~ In name (map fst (g_cache g))).
    { eapply none_here; [exact F|]. rewrite firstn_all in Bn. exact Bn. }
    exists (absent u). split; [reflexivity|]. destruct u as [| |v]; cbn [absent seen] in *.
    + split; [apply SAME; exact Logic.I|]. right. auto.
    + contradiction.
    + destruct K as (n & e & b & I1 & I2 & _). exfalso. apply NI. apply in_map_iff. exists (name, b). auto.
  - destruct (split_at _ es i ltac:(lia)) as (p1 & e & q & -> & L1). subst i. rewrite (aget_map _ _ (fun e => Some (hk e))). unfold bind at 1.
    assert (Ie : In e (p1 ++ e :: q)) by (apply in_or_app; right; now left).
    assert (IK : In (fst (hk e)) (fb ik iv il (p1 ++ e :: q) ++ [])).
    { apply IC. unfold fb. right. right. right. apply hk_in. auto. }
    rewrite (x_key_ok _ _ _ _ O IK). unfold bind at 1. rewrite firstn_app, firstn_all, Nat.sub_diag, firstn_O, app_nil_r in Bn.
    destruct (str_eqb (snd (hk e)) name) eqn:EQ.
    + apply str_eqb_eq in EQ. destruct (rel_at _ _ _ _ _ F) as (b & Ib & Rb). rewrite EQ in Ib, Rb.
      assert (B0 : forall u', knows N (p1 ++ e :: q) (g_cache g) name u' -> pos N (w_cache s) (p1 ++ e :: q) (g_cache g) name (Load u' 0)).
      { intros u' K'. split; auto. split; [lia|]. intros x []. }
      assert (V : value_of N (p1 ++ e :: q) (g_cache g) name (hv e) (hl e)) by (exists e, b; auto).
      destruct u as [| |v]; cbn [present].
      * unfold bind. exists (Load Get 0). split; [reflexivity|]. split; [|now left]. apply SAME, B0. apply in_map_iff. exists (name, b). auto.
      * cbn [mkf f_lengths f_values]. rewrite (x_deref_ok _ _ il _ _ O) by (apply IC; right; right; now left). unfold bind at 2. cbn [snd].
        rewrite (aget_map _ _ hl). unfold bind at 2.
        assert (LP : 0 < hl e). { destruct Rb as (_ & _ & (-> & _) & _). apply zlen_pos. apply (NE _ Ib). }
        replace (0 <? hl e) with true by (symmetry; apply Z.ltb_lt; lia).
        rewrite (x_deref_ok _ _ iv _ _ O) by (apply IC; right; now left). unfold bind at 2. cbn [snd].
        rewrite (aget_map _ _ hv). unfold bind. exists (Load (Len (hv e)) 0). split; [reflexivity|]. split; [|now left]. apply SAME, B0. exists (hl e). exact V.
      * cbn [mkf f_lengths f_values]. rewrite (x_deref_ok _ _ il _ _ O) by (apply IC; right; right; now left). unfold bind at 2. cbn [snd].
        rewrite (aget_map _ _ hl). unfold bind. exists (Take v (hl e)). split; [reflexivity|]. split; [|now left]. apply SAME.
        destruct K as (n & e2 & b2 & I2 & Ib2 & R2 & -> & ->). cbn [pos].
        assert (e2 = e) as ->; [|exact V].
        assert (KN : NoDup (map (fun e => snd (hk e)) (p1 ++ e :: q))).
        { fold (keys_of (p1 ++ e :: q)). rewrite (keys_rel N _ _ F). exact ND. }
        apply in_split in I2. destruct I2 as (p2 & q2 & S2). 
        destruct R2 as (E2 & _). cbn [fst] in E2. rewrite <- EQ in E2.
        assert (I2 : In e2 (p1 ++ e :: q)) by (rewrite S2; apply in_or_app; right; now left).
        clear - KN I2 Ie E2. induction (p1 ++ e :: q) as [|x l IH]; [destruct Ie|]. cbn [map] in KN. inversion KN as [|? ? X Y]; subst.
        destruct I2 as [->|I2], Ie as [->|Ie]; auto.
        -- exfalso. apply X. rewrite E2. apply in_map_iff. eauto.
        -- exfalso. apply X. rewrite <- E2. apply in_map_iff. eauto.
    + exists (Load u (S (length p1))). split; [reflexivity|]. split; [|now left]. apply SAME. split; auto. split; [rewrite app_length; cbn; lia|].
      intros x X. replace (p1 ++ e :: q) with ((p1 ++ [e]) ++ q) in X by now rewrite <- app_assoc.
      replace (S (length p1)) with (length (p1 ++ [e])) in X by (rewrite app_length; cbn; lia).
      rewrite firstn_app, firstn_all, Nat.sub_diag, firstn_O, app_nil_r in X. apply in_app_or in X. destruct X as [X|[<-|[]]]; auto.
Qed.

Lemma step_ok : forall s g a, inv N s g -> quiet_step s a -> action_ok a ->
  exists s1 g1, act zip s a = Ret s1 /\ a_act zip g a g1 /\ inv N s1 g1.
Proof.
  intros s g a I Q A. destruct a as [t|name|fs].
  - cbn [act quiet_step] in *. destruct (nth_error (w_threads s) t) as [[name ph]|] eqn:E.
    2:{ exists s, g. split; [reflexivity|]. split; [constructor|exact I]. }
    pose proof I as (ik & iv & il & es & EF & F & ND & O & SH0 & NE & FS & RS & TS).
    destruct (forall_nth _ _ _ _ _ TS E) as [Nn P]. cbn [fst snd] in Nn, P.
    assert (ER : nth_error (g_reqs g) t = Some (name, seen ph)) by (rewrite RS; unfold requests; now apply seen_nth).
    assert (IDLE : set_nth (g_reqs g) t (name, seen ph) = g_reqs g) by now apply set_same.
    destruct ph as [u i|u i p|v n| |b]; cbn [seen] in ER, IDLE.
    + cbn [go]. unfold bind. eexists _, _. split; [reflexivity|]. split; [|eapply still; [exact I|exact E|]].
      * cbn [seen]. rewrite IDLE, aweb_eta. constructor.
      * intros es' ik' iv' il' EF' F'. cbn [pos] in *.
        assert (P' : pos N (w_cache s) es' (g_cache g) name (Load u i)).
        { rewrite EF in EF'. unfold mkf in EF'. injection EF' as _ KE _ VE _ LE _. apply app_inj_tail in KE. apply app_inj_tail in VE. apply app_inj_tail in LE.
          assert (es' = es) as ->; [|exact P].
          destruct KE as [KE _]. destruct VE as [VE _]. destruct LE as [LE _]. clear - KE VE LE. revert es' KE VE LE.
          induction es as [|[k v n] es IH]; intros [|[k' v' n'] es'] KE VE LE; cbn in *; try discriminate; auto.
          injection KE as -> KE. injection VE as -> VE. injection LE as -> LE. f_equal. now apply IH. }
        cbn [pos] in P'. tauto.
    + destruct (test_ok s g t name u i p I E) as (ph' & -> & P' & C). unfold bind. eexists _, _. split; [reflexivity|].
      split; [|eapply still; [exact I|exact E|exact P']]. destruct C as [->|[-> NI]].
      * rewrite IDLE, aweb_eta. constructor.
      * now constructor.
    + destruct (take_ok N (w_mem s) (fb ik iv il es ++ []) es (g_cache g) name v n O) as (b & Ib & T); auto.
      { intros x X. apply in_or_app. left. unfold fb. right. right. now right. }
      cbn [go]. rewrite T. unfold bind. eexists _, _. split; [reflexivity|]. split; [|eapply still; [exact I|exact E|intros; exact Logic.I]].
      cbn [seen]. now constructor.
    + cbn [go]. destruct (w_files s name) as [c|] eqn:W.
      2:{ unfold bind. eexists _, _. split; [reflexivity|]. split; [|eapply still; [exact I|exact E|intros; exact Logic.I]].
          cbn [seen]. constructor; auto. rewrite FS, W. discriminate. }
      destruct c as [|c0 c].
      { unfold bind. eexists _, _. split; [reflexivity|]. split; [|eapply still; [exact I|exact E|intros; exact Logic.I]].
        cbn [seen]. constructor; auto. rewrite FS, W. intros c H. injection H as <-. now left. }
      destruct (zip (c0 :: c)) as [z|] eqn:Z.
      2:{ unfold bind. eexists _, _. split; [reflexivity|]. split; [|eapply still; [exact I|exact E|intros; exact Logic.I]].
          cbn [seen]. constructor; auto. rewrite FS, W. intros c' H. injection H as <-. now right. }
      destruct (ZOK _ _ Z) as [Zn Zl]. pose proof (zlen_pos _ _ Zn). rewrite EF.
      assert (VG : vgiven (Some (block_of z)) 0 (zlen z) (fun old => overlay old z 0)).
      { replace (block_of z) with (block_of (z ++ [])) by now rewrite app_nil_r. apply (vg_some z [] 0); [exact Zn|lia]. }
      assert (O1 : off_ok name 0 (g_cache g)) by (intros p old q _; apply zlen_nonneg).
      assert (O2 : new_off_ok name 0 (g_cache g)) by (intros _; reflexivity).
      destruct (put_binary_call N N _ ik iv il es (g_cache g) name _ 0 (zlen z) _ [] O F ND VG O1 O2 ltac:(lia) ltac:(lia) ltac:(lia))
        as (rc & m1 & ik1 & iv1 & il1 & es1 & a1 & PE & [L1 L1'] & OW & F1 & ND1 & M).
      rewrite PE. unfold bind at 2.
      assert (M' : a1 = stored name z (g_cache g)).
      { destruct M as [M|(_ & SH & _)]; [|contradiction]. unfold put_meaning in M. destruct name; [contradiction|]. now injection M as _ ->. }
      clear M. pose proof (change_has name (fun old => overlay old z 0) (g_cache g)) as CH. fold (stored name z (g_cache g)) in CH. rewrite <- M' in CH.
      assert (NE1 : forall x, In x a1 -> snd x <> []).
      { intros x X. rewrite M' in X. destruct (change_in _ _ _ _ X) as [Y|(old & ->)]; auto. now apply overlay_nonempty. }
      destruct (in_split_rel _ _ _ _ F1 ND1 CH) as (p & e & q & ap & b & aq & -> & EA & _ & Re & Fp).
      rewrite EA in ND1. destruct (nodup_split N p e ap name b aq Fp Re ND1) as (NP & _ & NQ & _). rewrite <- EA in ND1.
      assert (IC : incl (fb ik1 iv1 il1 (p ++ e :: q)) (fb ik1 iv1 il1 (p ++ e :: q) ++ [])) by (intros x X; apply in_or_app; now left).
      rewrite (x_get_ok _ _ _ _ _ _ _ _ name OW IC NP NQ). unfold bind at 2.
      rewrite (x_get_length_hit _ _ _ _ _ _ _ _ name OW IC NP NQ). unfold bind at 2.
      assert (Ib : In (name, b) a1) by (rewrite EA; apply in_or_app; right; now left).
      assert (LP : 0 < hl e). { destruct Re as (_ & _ & (-> & _) & _). apply zlen_pos. apply (NE1 _ Ib). }
      replace (0 <? hl e) with true by (symmetry; apply Z.ltb_lt; lia).
      destruct (take_ok N m1 _ (p ++ e :: q) a1 name (hv e) (hl e) OW) as (b' & Ib' & T); auto.
      { intros x X. apply in_or_app. left. unfold fb. right. right. now right. }
      { exists e, b. repeat split; auto; try apply Re. apply in_or_app. right. now left. }
      rewrite T. unfold bind. eexists _, (mk_aweb a1 (g_files g) (set_nth (g_reqs g) t (name, Answered (Some b')))). split; [reflexivity|]. split.
      * rewrite M'. rewrite M' in Ib'. apply (aa_store zip g t name (c0 :: c) z b'); auto; [rewrite FS; exact W|discriminate].
      * exists ik1, iv1, il1, (p ++ e :: q). cbn [w_cache w_mem w_files w_threads g_cache g_files g_reqs].
        split; [reflexivity|]. split; [exact F1|]. split; [exact ND1|]. split; [exact OW|]. split; [tauto|]. split; [exact NE1|]. split; [exact FS|]. split; [rewrite RS; unfold requests; cbn [w_threads]; now rewrite seen_set|].
        apply forall_set; [|split; [exact Nn|exact Logic.I]]. rewrite Forall_forall in *. intros x X. destruct (TS x X) as [X1 X2]. split; auto.
        eapply pos_free; [apply Q; exact X|exact X2].
    + cbn [go]. unfold bind. eexists _, _. split; [reflexivity|]. split; [|eapply still; [exact I|exact E|intros; exact Logic.I]].
      cbn [seen]. rewrite IDLE, aweb_eta. constructor.
  - eexists _, _. split; [reflexivity|]. split; [apply aa_ask|].
    destruct I as (ik & iv & il & es & EF & F & ND & O & SH0 & NE & FS & RS & TS).
    exists ik, iv, il, es. cbn [w_cache w_mem w_files w_threads g_cache g_files g_reqs]. repeat (split; [assumption|]).
    split; [rewrite RS; unfold requests; cbn [w_threads]; now rewrite map_app|]. apply Forall_app. split; auto. constructor; [|constructor].
    split; [exact A|]. cbn [fst snd pos]. split; [|exact Logic.I]. split; [lia|]. intros x [].
  - eexists _, _. split; [reflexivity|]. split; [apply aa_write|].
    destruct I as (ik & iv & il & es & EF & F & ND & O & SH0 & NE & FS & RS & TS).
    exists ik, iv, il, es. cbn [w_cache w_mem w_files w_threads g_cache g_files g_reqs]. repeat (split; [assumption|]).
    split; [reflexivity|]. split; [exact RS|exact TS].
Qed.

Lemma run_ok : forall l s g, inv N s g -> quiet zip s l -> Forall action_ok l ->
  exists s1 g1, serve_all zip s l = Ret s1 /\ a_serves zip g l g1 /\ inv N s1 g1.
Proof.
  induction l as [|a l IH]; intros s g I Q A; cbn [serve_all quiet] in *.
  - exists s, g. split; [reflexivity|]. split; [constructor|exact I].
  - inversion A as [|? ? A1 A2]; subst. destruct Q as [Q1 Q2]. destruct (step_ok s g a I Q1 A1) as (s1 & g1 & E & M & I1). rewrite E in *.
    destruct (IH s1 g1 I1 Q2 A2) as (s2 & g2 & E2 & M2 & I2). exists s2, g2. unfold bind. split; [exact E2|]. split; [econstructor; eauto|exact I2].
Qed.
Lemma open_ok : forall fs, exists s0, opened_site fs = Ret s0 /\ inv N s0 (mk_aweb [] fs []).
Proof.
  intros fs. unfold opened_site. assert (O : mowns (mk_mem (mk_heap 0 []) [] []) []) by (split; [repeat split; auto|reflexivity]).
  destruct (x_init_ok _ _ O) as (c & m & f & -> & [L _] & [(_ & ik & iv & il & -> & O1)|(_ & S & _)]); [|destruct S].
  unfold bind. eexists. split; [reflexivity|]. exists ik, iv, il, []. cbn [fst snd w_cache w_mem w_files w_threads g_cache g_files g_reqs].
  split; [reflexivity|]. split; [constructor|]. split; [constructor|]. split; [exact O1|]. split; [intros X; apply L in X; destruct X|].
  split; [intros x []|]. split; [reflexivity|]. split; [reflexivity|constructor].
Qed.
End Steps.

(** ** files that do not change *)
Lemma overlay_same : forall z, overlay z z 0 = z.
Proof.
  intros z. unfold overlay. pose proof (zlen_nonneg _ z). replace (Z.min 0 (zlen z)) with 0 by lia.
  rewrite zskipn_all by lia. rewrite app_nil_r. reflexivity.
Qed.
Definition right_now (zip : list Z -> option (list Z)) (fs : str -> option (list Z)) (g : aweb) : Prop :=
  g_files g = fs /\ (forall k v, In (k, v) (g_cache g) -> served zip fs k = Some v) /\
  (forall k b, In (k, Answered b) (g_reqs g) -> b = served zip fs k).
Lemma in_set : forall A (l : list A) t x y, In y (set_nth l t x) -> y = x \/ In y l.
Proof.
  intros A l. induction l as [|z l IH]; intros [|t] x y I; cbn [set_nth] in I; auto; destruct I as [<-|I]; auto.
  - right. now right.
  - right. now left.
  - destruct (IH t x y I); auto. right. now right.
Qed.
Lemma stored_served : forall zip fs a name c z k v, fs name = Some c -> c <> [] -> zip c = Some z ->
  (forall k v, In (k, v) a -> served zip fs k = Some v) -> In (k, v) (stored name z a) -> served zip fs k = Some v.
Proof.
  intros zip fs a name c z k v F C Z H I.
  assert (S : served zip fs name = Some z) by (unfold served; rewrite F; destruct c; [congruence|auto]).
  unfold stored in I. induction a as [|[y w] r IH]; cbn [a_change] in I.
  - destruct I as [I|[]]. injection I as <- <-. rewrite S. f_equal. unfold overlay. cbn. rewrite zskipn_all by (pose proof (zlen_nonneg _ z); cbn; lia). now rewrite app_nil_r.
  - destruct (str_eqb y name) eqn:E.
    + destruct I as [I|I]; [|apply H; now right]. injection I as <- <-. apply str_eqb_eq in E. subst y.
      assert (Some w = Some z) as W by (rewrite <- S; symmetry; apply H; now left). injection W as ->. now rewrite overlay_same.
    + destruct I as [I|I]; [apply H; now left|]. apply IH; auto. intros k' v' I'. apply H. now right.
Qed.
Lemma right_step : forall zip fs g a g1, right_now zip fs g -> is_write a = false -> a_act zip g a g1 -> right_now zip fs g1.
Proof.
  intros zip fs g a g1 (F & C & R) W A. inversion A; subst; try discriminate.
  - repeat split; auto.
  - repeat split; cbn [g_files g_cache g_reqs]; auto. intros k b I. destruct (in_set _ _ _ _ _ I) as [X|X]; [|auto]. injection X as -> ->. symmetry. now apply C.
  - repeat split; cbn [g_files g_cache g_reqs]; auto. intros k b I. destruct (in_set _ _ _ _ _ I) as [X|X]; [discriminate|auto].
  - assert (C1 : forall k b, In (k, b) (stored name z (g_cache g)) -> served zip (g_files g) k = Some b) by (intros; eapply stored_served; eauto).
    repeat split; cbn [g_files g_cache g_reqs]; auto. intros k b I. destruct (in_set _ _ _ _ _ I) as [X|X]; [|auto]. injection X as -> ->. symmetry. now apply C1.
  - repeat split; cbn [g_files g_cache g_reqs]; auto. intros k b I. destruct (in_set _ _ _ _ _ I) as [X|X]; [|auto]. injection X as -> ->.
    unfold served. destruct (g_files g name) as [[|c r]|] eqn:E; auto. destruct (H0 _ eq_refl) as [X|X]; [discriminate|congruence].
  - repeat split; cbn [g_files g_cache g_reqs]; auto. intros k b I. apply in_app_or in I. destruct I as [I|[I|[]]]; [auto|discriminate].
Qed.
Lemma right_run : forall zip fs l g g1, a_serves zip g l g1 -> right_now zip fs g -> forallb (fun a => negb (is_write a)) l = true -> right_now zip fs g1.
Proof.
  intros zip fs l. induction l as [|a l IH]; intros g g1 S R W; inversion S; subst; auto. cbn [forallb] in W. apply andb_prop in W. destruct W as [W1 W2].
  eapply IH; eauto. eapply right_step; eauto. now destruct (is_write a).
Qed.
