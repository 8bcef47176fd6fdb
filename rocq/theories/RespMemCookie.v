(** Proofs about the memory of responses (C97): adding a cookie. *)
From Coq Require Import ZArith Bool List Lia.
From Verif Require Import Base BaseFacts UMapModel UMapProofs OwnModel OwnSpec OwnProofs MapMemModel MapMemSpec MapMemProofs MapMemPut MapMemRun MapMemSteps
  RespMemModel RespMemSpec RespMemProofs RespMemCalls.
Import ListNotations.
Open Scope Z_scope.

Definition value_of (v : option str) : str := match v with Some s => s | None => [] end.
Definition filled (value e d p : option str) (nv ne nd np : ptr str) (sh : Prop) : Prop :=
  ptext ne = e /\ ptext nd = d /\ ptext np = p /\ (ptext nv = Some (value_of value) \/ (nv = None /\ value = None /\ sh)).
Lemma not_missing : forall s p, missing s p = false -> forall sh : Prop, (ptext p = s \/ (p = None /\ sh /\ s <> None)) -> ptext p = s.
Proof. intros s p M sh [E|(-> & _ & N)]; auto. destruct s; [discriminate|contradiction]. Qed.
Lemma fill4 : forall m value e d p ids, mowns m ids -> exists nv m1 ne m2 nd m3 np m4,
  x_strdup m (Some (value_of value)) = (nv, m1) /\ x_strdup m1 e = (ne, m2) /\ x_strdup m2 d = (nd, m3) /\ x_strdup m3 p = (np, m4) /\
  later m m4 /\ mowns m4 (ptr_blocks nv ++ ptr_blocks ne ++ ptr_blocks nd ++ ptr_blocks np ++ ids) /\
  (if missing value nv || missing e ne || missing d nd || missing p np then short m else filled value e d p nv ne nd np (short m)).
Proof.
  intros m value e d p ids O.
  destruct (x_strdup_ok m (Some (value_of value)) ids O) as (nv & m1 & -> & L1 & O1 & T1).
  destruct (x_strdup_ok m1 e _ O1) as (ne & m2 & E2 & L2 & O2 & T2).
  destruct (x_strdup_ok m2 d _ O2) as (nd & m3 & E3 & L3 & O3 & T3).
  destruct (x_strdup_ok m3 p _ O3) as (np & m4 & E4 & L4 & O4 & T4).
  exists nv, m1, ne, m2, nd, m3, np, m4. split; [reflexivity|]. split; [exact E2|]. split; [exact E3|]. split; [exact E4|].
  split; [chain|]. split; [mowns_by O4|].
  assert (G : forall s (q : ptr str) (sh : Prop), (ptext q = s \/ (q = None /\ sh /\ s <> None)) -> missing s q = true -> sh).
  { intros s q sh [E|(_ & H & _)] M; auto. rewrite (missing_text _ _ E) in M. discriminate. }
  destruct (missing value nv) eqn:M1; [cbn [orb]|].
  { destruct T1 as [T1|(_ & S1 & _)]; auto. exfalso. destruct value as [v|]; [|discriminate]. cbn [value_of] in T1. now rewrite (missing_text _ _ T1) in M1. }
  destruct (missing e ne) eqn:M2; [cbn [orb]; apply L1; eapply G; eauto|].
  destruct (missing d nd) eqn:M3; [cbn [orb]; apply L1, L2; eapply G; eauto|].
  destruct (missing p np) eqn:M4; [cbn [orb]; apply L1, L2, L3; eapply G; eauto|]. cbn [orb].
  split; [eapply not_missing; eauto|]. split; [eapply not_missing; eauto|]. split; [eapply not_missing; eauto|].
  destruct T1 as [T1|(-> & S1 & _)]; auto. right. split; auto. split; auto. destruct value; [discriminate|auto].
Qed.

Lemma find_ok : forall key m ids i extra suf pre, mowns m ids -> In i ids -> incl (flat_map cookie_blocks suf) ids ->
  (exists a c b, suf = a ++ c :: b /\ forallb (fun x => negb (has_key key (vcookie x))) a = true /\ has_key key (vcookie c) = true /\
    x_find_cookie m (Some (i, pre ++ suf ++ extra)) key (length pre) (length suf) = Ret (Some (length pre + length a)%nat)) \/
  (forallb (fun x => negb (has_key key (vcookie x))) suf = true /\ x_find_cookie m (Some (i, pre ++ suf ++ extra)) key (length pre) (length suf) = Ret None).
Proof.
  intros key m ids i extra. induction suf as [|c suf IH]; intros pre O I C.
  - right. auto.
  - cbn [length x_find_cookie app forallb]. rewrite (x_deref_ok _ m i _ _ O I). unfold bind at 1. unfold bind at 3. cbn [snd]. rewrite !aget_app. unfold bind at 1. unfold bind at 2.
    assert (E : x_key_is m (fun x => str_eqb x key) (k_key c) = Ret (has_key key (vcookie c))).
    { unfold has_key, vcookie. cbn [ac_key]. destruct (k_key c) as [[j s]|] eqn:K; [|reflexivity]. cbn [x_key_is ptext].
      rewrite (x_deref_ok _ m j s ids O); [reflexivity|]. apply C. cbn [flat_map]. apply in_or_app. left. unfold cookie_blocks. rewrite K. now left. }
    rewrite E. unfold bind at 1. unfold bind at 1. destruct (has_key key (vcookie c)) eqn:H.
    + left. exists [], c, suf. cbn [app forallb length]. rewrite Nat.add_0_r. auto.
    + cbn [negb andb].
      destruct (IH (pre ++ [c]) O I) as [(a & c1 & b & -> & N & H1 & R)|(N & R)]; [intros x X; apply C; cbn [flat_map]; apply in_or_app; auto| |];
        rewrite <- app_assoc in R; cbn [app] in R; rewrite app_length in R; cbn [length] in R; replace (length pre + 1)%nat with (S (length pre)) in R by lia.
      * left. exists (c :: a), c1, b. split; [reflexivity|]. cbn [forallb]. rewrite H. split; [exact N|]. split; [exact H1|]. rewrite R. f_equal. f_equal. cbn [length]. lia.
      * right. auto.
Qed.
Lemma put_hit : forall k n a c b, forallb (fun x => negb (has_key k (vcookie x))) a = true -> has_key k (vcookie c) = true ->
  put_cookie k n (map vcookie (a ++ c :: b)) = map vcookie a ++ n :: map vcookie b.
Proof.
  intros k n. induction a as [|x a IH]; intros c b N H; cbn [app map put_cookie].
  - now rewrite H.
  - cbn [forallb] in N. apply andb_true_iff in N as [N1 N2]. apply negb_true_iff in N1. rewrite N1. f_equal. now apply IH.
Qed.
Lemma put_miss : forall k n a, forallb (fun x => negb (has_key k (vcookie x))) a = true -> put_cookie k n (map vcookie a) = map vcookie a ++ [n].
Proof.
  intros k n. induction a as [|x a IH]; intros N; cbn [app map put_cookie]; [reflexivity|].
  cbn [forallb] in N. apply andb_true_iff in N as [N1 N2]. apply negb_true_iff in N1. rewrite N1. f_equal. now apply IH.
Qed.
Lemma aset_app : forall A (a : list A) x b y, aset (a ++ x :: b) (length a) y = Ret (a ++ y :: b).
Proof. intros A a x b y. pose proof (aset_map A A (fun z => z) a x b [] y) as H. rewrite !map_id, app_nil_r in H. rewrite app_nil_r in H. exact H. Qed.
Lemma set_same : forall a, set_cookies a (ar_cookies a) = a.
Proof. now destruct a. Qed.
Lemma whole_filled : forall value e d p nv ne nd np sh k, (value <> None /\ e <> None /\ d <> None /\ p <> None) -> filled value e d p nv ne nd np sh -> whole (mk_hcookie k nv ne nd np).
Proof.
  intros value e d p nv ne nd np sh k (Hv & He & Hd & Hp) (Te & Td & Tp & Tv). left. cbn.
  assert (G : forall (q : ptr str) s, ptext q = s -> s <> None -> q <> None) by (intros [[iq sq]|] s E N; [discriminate|cbn in E; congruence]).
  split; [|split; [eapply G; eauto|split; eapply G; eauto]]. destruct Tv as [Tv|(_ & E & _)]; [eapply G; eauto; discriminate|contradiction].
Qed.

Lemma cookie_call : forall dups N max m r a fr i k v e d p, rinv dups N r a -> mowns m (inner r ++ fr) -> rop_ok dups max (RCookie i k v e d p) -> memory_ok (RCookie i k v e d p) (m_new m) ->
  rcall dups N m a fr (RCookie i k v e d p) (x_add_cookie m r k v e d p).
Proof.
  intros dups N max m r a fr i k v e d p I O OK MO. openr I. unfold x_add_cookie. members. unfold bind at 1. unfold bind at 1.
  pose proof (r_cookies _ _ _ _ _ _ _ _ _ _ _ _ _ F) as (cs & extra & EN & EC & W & CK).
  set (rest := ptr_blocks pr ++ (ih :: fb ik iv il es) ++ ptr_blocks rl ++ ptr_blocks bd ++ (iw :: ptr_blocks wp ++ ptr_blocks we ++ pl :: exb ex) ++ fr).
  assert (FITS : forall ck' nb' l', cok dups ck' nb' l' -> rinv dups N (mkr pr ih ik iv il es rl ck' nb' bd ln iw wp we pl ex) (set_cookies a l')).
  { intros ck' nb' l' CO. do 16 eexists. split; [reflexivity|]. destruct F; constructor; auto. }
  assert (OWN : forall m' ck' nb', mowns m' (ckb ck' ++ rest) -> mowns m' (inner (mkr pr ih ik iv il es rl ck' nb' bd ln iw wp we pl ex) ++ fr)).
  { intros m' ck' nb' O'. eapply mowns_ext; [exact O'|]. intros x. rewrite !cnt_app, inner_mkr. unfold rest, rb. repeat rewrite ?cnt_app, ?cnt_cons. lia. }
  assert (O0 : mowns m (ckb ck ++ rest)).
  { eapply mowns_ext; [exact O|]. intros x. rewrite !cnt_app, inner_mkr. unfold rest, rb. repeat rewrite ?cnt_app, ?cnt_cons. lia. }
  assert (MEAN : forall nv ne nd np nk, ptext nk = Some k -> filled v e d p nv ne nd np (short m) ->
     (U_OK, set_cookies a (put_cookie k (vcookie (mk_hcookie nk nv ne nd np)) (ar_cookies a))) = ar_call a (RCookie i k v e d p) \/
     (short m /\ ar_fail a (RCookie i k v e d p) U_OK (set_cookies a (put_cookie k (vcookie (mk_hcookie nk nv ne nd np)) (ar_cookies a))))).
  { intros nv ne nd np nk TK (Te & Td & Tp & Tv). unfold vcookie. cbn [k_key k_value k_expires k_domain k_path]. rewrite TK, Te, Td, Tp.
    destruct Tv as [Tv|(-> & -> & SH)]; [left; rewrite Tv; reflexivity|right; split; auto; apply fail_cookie_value]. }
  fold (value_of v).
  (* the search *)
  assert (NEW : x_find_cookie m ck k 0 nb = Ret None -> forallb (fun x => negb (has_key k (vcookie x))) cs = true ->
    rcall dups N m a fr (RCookie i k v e d p)
      (do g <- (match nb with O => Ret (x_malloc m) | S _ => x_realloc m (addr ck) end);
       let '(pa, m0) := g in
       match pa with
       | None => Ret (U_ERROR_MEMORY, (m0, with_cookies (mkr pr ih ik iv il es rl ck nb bd ln iw wp we pl ex) None nb))
       | Some pa =>
         let old := match nb with O => [] | S _ => match ck with Some (_, l) => firstn nb l | None => [] end end in
         let '(nk, m1) := x_strdup m0 (Some k) in
         let '(nv, m2) := x_strdup m1 (Some (value_of v)) in let '(ne, m3) := x_strdup m2 e in
         let '(nd, m4) := x_strdup m3 d in let '(np, m5) := x_strdup m4 p in
         let c1 := mk_hcookie nk nv ne nd np in
         if is_null nk || missing v nv || missing e ne || missing d nd || missing p np then
           do x <- x_clean_cookie m5 c1;
           Ret (U_ERROR_MEMORY, (fst x, with_cookies (mkr pr ih ik iv il es rl ck nb bd ln iw wp we pl ex) (Some (pa, old ++ [snd x])) nb))
         else Ret (U_OK, (m5, with_cookies (mkr pr ih ik iv il es rl ck nb bd ln iw wp we pl ex) (Some (pa, old ++ [c1])) (S nb)))
       end)).
  { intros _ NK.
    assert (G : (exists m0, (match nb with O => Ret (x_malloc m) | S _ => x_realloc m (addr ck) end) = Ret (None, m0) /\ short m /\ nb = 0%nat /\ cs = [] /\ later m m0 /\ mowns m0 rest) \/
                (exists pa m0, (match nb with O => Ret (x_malloc m) | S _ => x_realloc m (addr ck) end) = Ret (Some pa, m0) /\ (cs = [] -> ~ short m) /\ later m m0 /\
                   mowns m0 (pa :: flat_map cookie_blocks cs ++ rest) /\ match nb with O => [] | S _ => match ck with Some (_, l) => firstn nb l | None => [] end end = cs)).
    { destruct ck as [[j arr]|].
      - destruct CK as (-> & CN & FE). destruct nb as [|nb]; [destruct cs; [contradiction|discriminate]|]. right.
        destruct (x_realloc_ok _ m (Some (j, cs ++ extra)) (flat_map cookie_blocks cs ++ rest)) as (pa & m0 & -> & O1 & L1).
        { eapply mowns_ext; [exact O0|]. intros x. cbn [ckb ptr_blocks]. rewrite flat_map_app, (null_blocks _ FE). repeat rewrite ?cnt_app, ?cnt_cons, ?cnt_nil. lia. }
        exists pa, m0. split; [reflexivity|]. split; [now intros|]. split; [exact L1|]. split; [exact O1|].
        rewrite EN, firstn_app, Nat.sub_diag, firstn_all. cbn. now rewrite app_nil_r.
      - subst cs. cbn in EN. subst nb. cbn [ckb app] in O0. destruct (x_malloc_ok _ _ O0) as (q & m0 & E0 & L1 & [(pa & -> & O1)|(-> & S1 & O1)]).
        + right. exists pa, m0. rewrite E0. split; [reflexivity|]. split.
          * intros _ SH. cbn [memory_ok] in MO. destruct MO as [MO|MO]; [contradiction|]. unfold x_malloc in E0. destruct (m_new m) as [|b z]; [discriminate|].
            cbn in MO. subst b. cbn in E0. discriminate.
          * split; [exact L1|]. split; [exact O1|reflexivity].
        + left. exists m0. rewrite E0. auto 10. }
    destruct G as [(m0 & -> & SH & -> & EC0 & L0 & O1)|(pa & m0 & -> & NS & L0 & O1 & EO)].
    - unfold bind at 1. do 2 eexists. exists (mkr pr ih ik iv il es rl None 0%nat bd ln iw wp we pl ex), a. split; [reflexivity|]. split; [exact L0|].
      split; [|split; [apply OWN; exact O1|right; split; [exact SH|apply fail_cookie_new]]].
      rewrite <- (set_same a). apply FITS. exists [], []. rewrite <- EC, EC0. auto.
    - unfold bind at 1. cbv zeta. rewrite EO.
      destruct (x_strdup_ok m0 (Some k) _ O1) as (nk & m1 & -> & L1 & O2 & TK).
      destruct (fill4 m1 v e d p _ O2) as (nv & m2 & ne & m3 & nd & m4 & np & m5 & -> & -> & -> & -> & L5 & O5 & CASE).
      destruct (is_null nk || missing v nv || missing e ne || missing d nd || missing p np) eqn:MI.
      + assert (SH : short m).
        { destruct (is_null nk) eqn:K.
          - destruct TK as [TK|(_ & SK & _)]; [destruct nk; discriminate|]. now apply L0.
          - cbn [orb] in MI. rewrite MI in CASE. now apply L0, L1. }
        destruct (x_clean_cookie_ok m5 (mk_hcookie nk nv ne nd np) (pa :: flat_map cookie_blocks cs ++ rest)) as (m6 & -> & O6 & L6); [cby O5|].
        unfold bind at 1. cbn [fst snd]. do 2 eexists. exists (mkr pr ih ik iv il es rl (Some (pa, cs ++ [null_cookie])) nb bd ln iw wp we pl ex), a.
        split; [reflexivity|]. split; [chain|]. split; [|split; [apply OWN; cbn [ckb]; cby O6|right; split; [exact SH|apply fail_cookie_new]]].
        rewrite <- (set_same a). apply FITS. exists cs, [null_cookie]. split; [exact EN|]. split; [exact EC|]. split; [exact W|]. split; [reflexivity|]. split; [|repeat constructor].
        intros Z. now apply NS.
      + apply orb_false_iff in MI as [MI M4]. apply orb_false_iff in MI as [MI M3]. apply orb_false_iff in MI as [MI M2]. apply orb_false_iff in MI as [MK M1].
        rewrite M1, M2, M3, M4 in CASE. cbn [orb] in CASE.
        assert (TK' : ptext nk = Some k) by (destruct TK as [TK|(-> & _)]; [exact TK|discriminate]).
        assert (CASE' : filled v e d p nv ne nd np (short m)).
        { destruct CASE as (A & B & C & [D|(D1 & D2 & D3)]); (split; [exact A|split; [exact B|split; [exact C|]]]); [left; exact D|right]. split; [exact D1|]. split; [exact D2|]. now apply L0, L1. }
        do 2 eexists. exists (mkr pr ih ik iv il es rl (Some (pa, cs ++ [mk_hcookie nk nv ne nd np])) (S nb) bd ln iw wp we pl ex), (set_cookies a (put_cookie k (vcookie (mk_hcookie nk nv ne nd np)) (ar_cookies a))).
        split; [reflexivity|]. split; [chain|]. split; [|split; [apply OWN; cbn [ckb]; cby O5|now apply MEAN]].
        apply FITS. rewrite <- EC, put_miss by exact NK. exists (cs ++ [mk_hcookie nk nv ne nd np]), []. rewrite app_length, map_app. cbn [length map]. split; [lia|]. split; [reflexivity|].
        split; [intros D; apply Forall_app; split; [now apply W|]; constructor; [|constructor]; eapply whole_filled; [|exact CASE']; now apply OK|].
        split; [now rewrite app_nil_r|]. split; [now destruct cs|constructor]. }
  destruct ck as [[j arr]|].
  2:{ subst cs. cbn in EN. subst nb. cbn [x_find_cookie]. unfold bind at 1. apply NEW; reflexivity. }
  destruct CK as (-> & CN & FE).
  assert (IJ : In j (ckb (Some (j, cs ++ extra)) ++ rest)) by now left.
  destruct (find_ok k m _ j extra cs [] O0 IJ) as [(ca & c & cb & ECS & NK & HK & R)|(NK & R)].
  { intros x X. apply in_or_app. left. right. rewrite flat_map_app. apply in_or_app. auto. }
  - cbn [app length Nat.add] in R. rewrite EN. rewrite R. unfold bind at 1.
    rewrite (x_deref_ok _ m j _ _ O0 IJ). unfold bind at 1. cbn [fst snd].
    assert (EA : cs ++ extra = ca ++ c :: (cb ++ extra)) by (rewrite ECS; now rewrite <- app_assoc).
    rewrite EA in *. rewrite aget_app. unfold bind at 1.
    assert (O1 : mowns m (ptr_blocks (k_value c) ++ (ptr_blocks (k_expires c) ++ (ptr_blocks (k_domain c) ++ (ptr_blocks (k_path c) ++
       (ptr_blocks (k_key c) ++ j :: flat_map cookie_blocks ca ++ flat_map cookie_blocks (cb ++ extra) ++ rest)))))).
    { eapply mowns_ext; [exact O0|]. intros x. cbn [ckb]. rewrite flat_map_app. cbn [flat_map]. unfold cookie_blocks at 2. repeat rewrite ?cnt_app, ?cnt_cons. lia. }
    destruct (x_free_ptr _ _ _ _ O1) as (m1 & -> & O2 & L1). unfold bind at 1.
    destruct (x_free_ptr _ _ _ _ O2) as (m2 & -> & O3 & L2). unfold bind at 1.
    destruct (x_free_ptr _ _ _ _ O3) as (m3 & -> & O4 & L3). unfold bind at 1.
    destruct (x_free_ptr _ _ _ _ O4) as (m4 & -> & O5 & L4). unfold bind at 1.
    assert (LL : later m m4) by chain.
    destruct (fill4 m4 v e d p _ O5) as (nv & m5 & ne & m6 & nd & m7 & np & m8 & -> & -> & -> & -> & L8 & O8 & CASE).
    assert (TK : ptext (k_key c) = Some k).
    { unfold has_key, vcookie in HK. cbn [ac_key] in HK. destruct (ptext (k_key c)); [|discriminate]. apply str_eqb_eq in HK. now subst. }
    destruct (missing v nv || missing e ne || missing d nd || missing p np) eqn:MI.
    + destruct (x_clean_cookie_ok m8 (mk_hcookie (k_key c) nv ne nd np) (j :: flat_map cookie_blocks ca ++ flat_map cookie_blocks (cb ++ extra) ++ rest)) as (m9 & -> & O9 & L9); [cby O8|].
      unfold bind at 1. cbn [fst snd]. rewrite aset_app. unfold bind at 1.
      do 2 eexists. exists (mkr pr ih ik iv il es rl (Some (j, ca ++ null_cookie :: cb ++ extra)) nb bd ln iw wp we pl ex), (set_cookies a (put_cookie k no_cookie (ar_cookies a))).
      split; [rewrite <- EN; reflexivity|]. split; [chain|].
      split; [|split; [apply OWN; cbn [ckb]; eapply mowns_ext; [exact O9|]; intros x; rewrite !flat_map_app; cbn [flat_map]; rewrite ?flat_map_app; change (cookie_blocks null_cookie) with (@nil nat); repeat rewrite ?cnt_app, ?cnt_cons, ?cnt_nil; lia|right; split; [now apply LL|apply fail_cookie_old]]].
      apply FITS. rewrite <- EC, ECS, put_hit by assumption. exists (ca ++ null_cookie :: cb), extra. split; [rewrite EN, ECS, !app_length; reflexivity|].
      split; [rewrite map_app; reflexivity|]. split; [|split; [now rewrite <- app_assoc|split; [now destruct ca|exact FE]]].
      intros D. specialize (W D). rewrite ECS in W. apply Forall_app in W as [W1 W2]. inversion W2; subst. apply Forall_app. split; auto. constructor; auto. right. reflexivity.
    + rewrite aset_app. unfold bind at 1.
      assert (CASE' : filled v e d p nv ne nd np (short m)).
      { destruct CASE as (A & B & C & [D|(D1 & D2 & D3)]); (split; [exact A|split; [exact B|split; [exact C|]]]); [left; exact D|right]. split; [exact D1|]. split; [exact D2|]. now apply LL. }
      do 2 eexists. exists (mkr pr ih ik iv il es rl (Some (j, ca ++ mk_hcookie (k_key c) nv ne nd np :: cb ++ extra)) nb bd ln iw wp we pl ex),
        (set_cookies a (put_cookie k (vcookie (mk_hcookie (k_key c) nv ne nd np)) (ar_cookies a))).
      split; [rewrite <- EN; reflexivity|]. split; [chain|].
      split; [|split; [apply OWN; cbn [ckb]; cby O8|now apply MEAN]].
      apply FITS. rewrite <- EC, ECS, put_hit by assumption. exists (ca ++ mk_hcookie (k_key c) nv ne nd np :: cb), extra. split; [rewrite EN, ECS, !app_length; reflexivity|].
      split; [rewrite map_app; reflexivity|]. split; [|split; [now rewrite <- app_assoc|split; [now destruct ca|exact FE]]].
      intros D. specialize (W D). rewrite ECS in W. apply Forall_app in W as [W1 W2]. inversion W2; subst. apply Forall_app. split; auto. constructor; auto.
      eapply whole_filled; [|exact CASE']. now apply OK.
  - cbn [app length] in R. rewrite <- EN in R. rewrite R. unfold bind at 1. now apply NEW.
Qed.
