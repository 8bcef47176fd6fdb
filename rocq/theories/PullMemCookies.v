(** Lemmas for C108: the cookies of a response that is received. *)
From Coq Require Import String ZArith Bool List Lia.
From Verif Require Import Base BaseFacts UMapModel StrModel StrProofs ClientModel ClientSpec ClientProofs ClientCookieProofs OwnModel OwnProofs MapMemModel MapMemSpec MapMemProofs
  RespMemModel RespMemSpec RespMemProofs RespMemCalls RespMemCookie RecvMemModel RecvMemProofs PullMemModel PullMemSpec PullMemProofs.
Import ListNotations.
Open Scope Z_scope.

(** o_strdup with a given answer *)
Lemma strdup_exact : forall m t ids, mowns m ids -> exists p m', x_strdup m (Some t) = (p, m') /\ m_new m' = tl (m_new m) /\ mowns m' (ptr_blocks p ++ ids) /\
  ptext p = (if hd true (m_new m) then Some t else None).
Proof.
  intros m t ids O. destruct (x_malloc_ok _ _ O) as (p & m' & E & L & C). cbn [x_strdup]. rewrite E. unfold x_malloc in E.
  destruct (m_new m) as [|b w] eqn:W; cbn [next_answer hd tl] in *.
  - injection E as <- <-. destruct C as [(i & Ei & C)|(Ei & _)]; [injection Ei as <-|discriminate Ei]. do 2 eexists. split; [reflexivity|]. split; [reflexivity|]. split; [exact C|reflexivity].
  - destruct b; injection E as <- <-.
    + destruct C as [(i & Ei & C)|(Ei & _)]; [injection Ei as <-|discriminate Ei]. do 2 eexists. split; [reflexivity|]. split; [reflexivity|]. split; [exact C|reflexivity].
    + destruct C as [(i & Ei & C)|(_ & _ & C)]; [discriminate Ei|]. do 2 eexists. split; [reflexivity|]. split; [reflexivity|]. split; [exact C|reflexivity].
Qed.
Lemma nth_tl : forall (l : list bool) n, nth (S n) l true = nth n (tl l) true.
Proof. intros [|b l] n; [destruct n; reflexivity|reflexivity]. Qed.
Lemma nth_hd : forall (l : list bool), nth 0 l true = hd true l.
Proof. intros [|b l]; reflexivity. Qed.

(** the parts of a line *)
Lemma fields_exact : forall f m v c ids, mowns m ids -> m_new m = tl f -> curl_ok c -> c_value c <> [] ->
  exists vd vp ve vk vv m', x_fields (S (length (netscape c))) m v 0 (netscape c) = (mk_cvars vk vv ve vd vp, m') /\
    mowns m' (ptr_blocks vk ++ ptr_blocks vv ++ ptr_blocks vd ++ ptr_blocks vp ++ ptr_blocks ve ++ ids) /\
    ptext vd = lent f 1 (c_domain c) /\ ptext vp = lent f 2 (c_path c) /\ ptext ve = lent f 3 (c_expires c) /\ ptext vk = lent f 4 (c_name c) /\ ptext vv = lent f 5 (c_value c).
Proof.
  intros f m v c ids O W [F V] NV. pose proof (Forall_inv F) as [D1 D2]. apply Forall_inv_tail in F. pose proof (Forall_inv F) as [P1 P2]. apply Forall_inv_tail in F. pose proof (Forall_inv F) as [E1 E2].
  apply Forall_inv_tail in F. pose proof (Forall_inv F) as [N1 N2]. clear F.
  assert (L : exists k, S (length (netscape c)) = (8 + k)%nat).
  { exists (S (length (netscape c)) - 8)%nat. unfold netscape. rewrite !app_length. cbn [length]. destruct (c_domain c); [congruence|]. destruct (c_path c); [congruence|]. cbn [length]. lia. }
  destruct L as (k & ->). unfold netscape. cbn [Nat.add x_fields].
  assert (YN : forall b, yes_no b <> [] /\ no_tab (yes_no b)). { intros []; (split; [discriminate|]); unfold no_tab, yes_no; cbn; intuition discriminate. }
  unfold lent. rewrite !nth_tl, !nth_hd.
  cbn [app]. rewrite (strtok_app tab (c_domain c) 9 _ D1 (no_tab_tokens _ D2) eq_refl). cbn [x_field].
  destruct (strdup_exact m (c_domain c) ids O) as (vd & m1 & -> & W1 & O1 & T1).
  rewrite (strtok_app tab (yes_no (c_tailmatch c)) 9 _ (proj1 (YN _)) (no_tab_tokens _ (proj2 (YN _))) eq_refl). cbn [x_field].
  rewrite (strtok_app tab (c_path c) 9 _ P1 (no_tab_tokens _ P2) eq_refl). cbn [x_field].
  destruct (strdup_exact m1 (c_path c) _ O1) as (vp & m2 & -> & W2 & O2 & T2).
  rewrite (strtok_app tab (yes_no (c_secure c)) 9 _ (proj1 (YN _)) (no_tab_tokens _ (proj2 (YN _))) eq_refl). cbn [x_field].
  rewrite (strtok_app tab (c_expires c) 9 _ E1 (no_tab_tokens _ E2) eq_refl). cbn [x_field].
  destruct (strdup_exact m2 (c_expires c) _ O2) as (ve & m3 & -> & W3 & O3 & T3).
  rewrite (strtok_app tab (c_name c) 9 _ N1 (no_tab_tokens _ N2) eq_refl). cbn [x_field].
  destruct (strdup_exact m3 (c_name c) _ O3) as (vk & m4 & -> & W4 & O4 & T4).
  rewrite (strtok_all tab (c_value c) NV (no_tab_tokens _ V)). cbn [x_field v_key v_value v_expires v_domain v_path].
  destruct (strdup_exact m4 (c_value c) _ O4) as (vv & m5 & -> & W5 & O5 & T5).
  exists vd, vp, ve, vk, vv, m5. split; [destruct k; reflexivity|]. split; [mowns_by O5|].
  rewrite W4, W3, W2, W1, W in T5. rewrite W3, W2, W1, W in T4. rewrite W2, W1, W in T3. rewrite W1, W in T2. rewrite W in T1. auto.
Qed.

Lemma x_arg_ok : forall m ids p, mowns m ids -> incl (ptr_blocks p) ids -> x_arg m p = Ret (ptext p).
Proof. intros m ids [[i t]|] O C; [|reflexivity]. unfold x_arg. rewrite (x_deref_ok _ m i t ids O) by (apply C; now left). reflexivity. Qed.
Lemma x_printed_ok : forall m ids p, mowns m ids -> incl (ptr_blocks p) ids -> x_printed m p = match ptext p with Some _ => Ret tt | None => UB NullDeref end.
Proof. intros m ids [[i t]|] O C; [|reflexivity]. unfold x_printed. rewrite (x_deref_ok _ m i t ids O) by (apply C; now left). reflexivity. Qed.

Lemma one_cookie : forall N m r v a fr f ad c, rinv false N r a -> mowns m (inner r ++ fr) -> baked_ok (f, ad, c) ->
  (nth 0 f true = false /\ exists m', x_cookie m r v (f, ad, netscape c) = Ret (m', r, v) /\ mowns m' (inner r ++ fr)) \/
  (nth 0 f true = true /\ nth 4 f true = true /\ exists m' r' v' z a', x_cookie m r v (f, ad, netscape c) = Ret (m', r', v') /\ rinv false N r' a' /\ mowns m' (inner r' ++ fr) /\
     added ad a (as_call f c) z a' /\ (z = U_OK \/ nth 5 f true = true)) \/
  (x_cookie m r v (f, ad, netscape c) = UB NullDeref /\ forall rest, bakes a ((f, ad, c) :: rest) None).
Proof.
  intros N m r v a fr f ad c I O (OK & NV & MO). cbn [fst snd] in OK, NV, MO. unfold x_cookie.
  assert (OA : mowns (again m (f, [])) (inner r ++ fr)) by (apply again_owns; [exact O|reflexivity]).
  destruct (strdup_exact _ (netscape c) _ OA) as (dup & m1 & -> & W1 & O1 & T1). cbn [again m_new fst] in W1, T1. rewrite nth_hd.
  destruct dup as [[id dt]|].
  2:{ left. destruct (hd true f); [discriminate T1|]. split; [reflexivity|]. exists m1. split; [reflexivity|exact O1]. }
  right. assert (H0 : hd true f = true) by (destruct (hd true f); [reflexivity|discriminate T1]). rewrite H0.
  assert (N0 : nth 0 f true = true) by (rewrite nth_hd; exact H0).
  destruct (fields_exact f m1 v c _ O1 W1 OK NV) as (vd & vp & ve & vk & vv & m2 & EF & O2 & TD & TP & TE & TK & TV).
  match goal with |- context [x_fields ?n m1 v 0 ?t] => replace (x_fields n m1 v 0 t) with (mk_cvars vk vv ve vd vp, m2) by (symmetry; exact EF) end.
  cbn [v_key v_value v_expires v_domain v_path]. cbn [ptr_blocks app] in O2.
  set (FR := ptr_blocks vk ++ ptr_blocks vv ++ ptr_blocks vd ++ ptr_blocks vp ++ ptr_blocks ve ++ [id] ++ fr).
  assert (O3 : mowns m2 (inner r ++ FR)) by (unfold FR; mowns_by O2).
  assert (CK : forall m0 r0, mowns m0 (inner r0 ++ FR) -> forall p, In p [vk; vv; vd; vp; ve] -> x_arg m0 p = Ret (ptext p) /\ x_printed m0 p = match ptext p with Some _ => Ret tt | None => UB NullDeref end).
  { intros m0 r0 O0 p IP. assert (C : incl (ptr_blocks p) (inner r0 ++ FR)).
    { apply incl_appr. unfold FR. cbn [In] in IP. destruct IP as [<-|[<-|[<-|[<-|[<-|[]]]]]]; intros x X; rewrite !in_app_iff; auto 8. }
    split; [apply (x_arg_ok m0 _ p O0 C)|apply (x_printed_ok m0 _ p O0 C)]. }
  assert (FREE : forall m3 r0, mowns m3 (inner r0 ++ FR) -> exists m9, mowns m9 (inner r0 ++ fr) /\ forall B (g : mem -> outcome B),
     (do m4 <- x_free m3 (addr vk); do m5 <- x_free m4 (addr vv); do m6 <- x_free m5 (addr vd); do m7 <- x_free m6 (addr vp); do m8 <- x_free m7 (addr ve);
      do m9 <- x_free m8 (addr (Some (id, dt))); g m9) = g m9).
  { intros m3 r0 O0.
    destruct (x_free_ptr _ m3 vk (ptr_blocks vv ++ ptr_blocks vd ++ ptr_blocks vp ++ ptr_blocks ve ++ [id] ++ inner r0 ++ fr)) as (m4 & F4 & O4 & _); [unfold FR in O0; mowns_by O0|].
    destruct (x_free_ptr _ m4 vv _ O4) as (m5 & F5 & O5 & _). destruct (x_free_ptr _ m5 vd _ O5) as (m6 & F6 & O6 & _). destruct (x_free_ptr _ m6 vp _ O6) as (m7 & F7 & O7 & _).
    destruct (x_free_ptr _ m7 ve _ O7) as (m8 & F8 & O8 & _). destruct (x_free_ptr _ m8 (Some (id, dt)) _ O8) as (m9 & F9 & O9 & _).
    exists m9. split; [exact O9|]. intros B g. rewrite F4. cbn [bind]. rewrite F5. cbn [bind]. rewrite F6. cbn [bind]. rewrite F7. cbn [bind]. rewrite F8. cbn [bind]. rewrite F9. reflexivity. }
  rewrite (proj1 (CK m2 r O3 vk ltac:(cbn; auto))). cbn [bind]. unfold lent in TK. destruct (nth 4 f true) eqn:N4.
  2:{ right. rewrite TK. cbn [bind]. change (U_ERROR_PARAMS =? U_OK) with false. cbn iota. rewrite (proj2 (CK m2 r O3 vk ltac:(cbn; auto))), TK. split; [reflexivity|]. intros rest. now apply bk_no_name. }
  rewrite TK. rewrite (proj1 (CK m2 r O3 vv ltac:(cbn; auto))), (proj1 (CK m2 r O3 ve ltac:(cbn; auto 8))), (proj1 (CK m2 r O3 vd ltac:(cbn; auto 8))), (proj1 (CK m2 r O3 vp ltac:(cbn; auto 8))). cbn [bind].
  rewrite TV, TE, TD, TP.
  assert (O4 : mowns (again m2 (ad, [])) (inner r ++ FR)) by (apply again_owns; [exact O3|reflexivity]).
  destruct (cookie_call false N 0 (again m2 (ad, [])) r a FR 0 (c_name c) (lent f 5 (c_value c)) (lent f 3 (c_expires c)) (lent f 1 (c_domain c)) (lent f 2 (c_path c)) I O4) as (z & m3 & r' & a' & EX & L & I' & O' & CASE); [cbn; discriminate|exact MO|].
  match goal with |- context [x_add_cookie ?q1 ?q2 ?q3 ?q4 ?q5 ?q6 ?q7] => replace (x_add_cookie q1 q2 q3 q4 q5 q6 q7) with (Ret (z, (m3, r'))) by (symmetry; exact EX) end. cbn [bind].
  assert (AD : added ad a (as_call f c) z a') by exact CASE.
  destruct (FREE m3 r' O') as (m9 & O9 & FG).
  destruct (z =? U_OK) eqn:ZE.
  - left. split; [reflexivity|]. split; [reflexivity|]. cbn [bind]. rewrite FG. do 5 eexists. split; [reflexivity|]. split; [exact I'|]. split; [exact O9|]. split; [exact AD|]. left. now apply Z.eqb_eq.
  - rewrite (proj2 (CK m3 r' O' vk ltac:(cbn; auto))), TK. cbn [bind]. rewrite (proj2 (CK m3 r' O' vv ltac:(cbn; auto))), TV. unfold lent at 1. destruct (nth 5 f true) eqn:N5.
    + left. split; [reflexivity|]. split; [reflexivity|]. unfold lent. rewrite ?N5. cbn [bind]. rewrite FG. do 5 eexists. split; [reflexivity|]. split; [exact I'|]. split; [exact O9|]. split; [exact AD|]. now right.
    + right. unfold lent. rewrite ?N5. cbn [bind]. split; [reflexivity|]. intros rest. eapply bk_no_value; eauto. now apply Z.eqb_neq.
Qed.

Lemma cookies_ok : forall N fr cs m r v a, rinv false N r a -> mowns m (inner r ++ fr) -> Forall baked_ok cs ->
  (exists m' r' a', x_cookies m r v (map (fun b => (fst b, netscape (snd b))) cs) = Ret (m', r') /\ bakes a cs (Some a') /\ rinv false N r' a' /\ mowns m' (inner r' ++ fr)) \/
  (x_cookies m r v (map (fun b => (fst b, netscape (snd b))) cs) = UB NullDeref /\ bakes a cs None).
Proof.
  intros N fr cs. induction cs as [|[[f ad] c] cs IH]; intros m r v a I O F.
  - left. exists m, r, a. split; [reflexivity|]. split; [constructor|]. auto.
  - cbn [map x_cookies fst snd]. pose proof (Forall_inv F) as OK. apply Forall_inv_tail in F.
    destruct (one_cookie N m r v a fr f ad c I O OK) as [(H0 & m1 & -> & O1)|[(H0 & H4 & m1 & r1 & v1 & z & a1 & -> & I1 & O1 & AD & ZC)|[-> B]]]; cbn [bind].
    + destruct (IH m1 r v a I O1 F) as [(m2 & r2 & a2 & E & B & I2 & O2)|[E B]]; [left|right].
      * exists m2, r2, a2. split; [exact E|]. split; [now apply bk_skip|]. auto.
      * split; [exact E|]. now apply bk_skip.
    + destruct (IH m1 r1 v1 a1 I1 O1 F) as [(m2 & r2 & a2 & E & B & I2 & O2)|[E B]]; [left|right].
      * exists m2, r2, a2. split; [exact E|]. split; [eapply bk_add; eauto|]. auto.
      * split; [exact E|]. eapply bk_add; eauto.
    + right. split; [reflexivity|]. apply B.
Qed.
