(** Lemmas for C108: a response that is received, and the responses of a program. *)
From Coq Require Import String ZArith Bool List Lia.
From Verif Require Import Base BaseFacts UMapModel UMapProofs StrModel ClientSpec ClientProofs OwnModel OwnProofs MapMemModel MapMemSpec MapMemProofs MapMemSteps MapMemRun
  MapMemPut RespMemModel RespMemSpec RespMemProofs RespMemCalls RespMemSteps RecvMemModel RecvMemProofs PullMemModel PullMemSpec PullMemProofs PullMemCookies.
Import ListNotations.
Open Scope Z_scope.

Lemma set_body_ok : forall N r a m fr bd ln b, rinv false N r a -> mowns m (inner r ++ ptr_blocks bd ++ fr) -> brel bd ln b ->
  exists lost, length lost = had_body a /\ rinv false N (with_body r bd ln) (set_body a b) /\ mowns m (inner (with_body r bd ln) ++ lost ++ fr).
Proof.
  intros N r a m fr bd ln b I O B. destruct I as (pr & ih & ik & iv & il & es & rl & ck & nb & bd0 & ln0 & iw & wp & we & pl & ex & -> & F).
  exists (ptr_blocks bd0). split; [|split].
  - pose proof (r_body _ _ _ _ _ _ _ _ _ _ _ _ _ F) as B0. unfold brel in B0. unfold had_body. destruct bd0 as [[i x]|]; [destruct B0 as [_ ->]|rewrite B0]; reflexivity.
  - exists pr, ih, ik, iv, il, es, rl, ck, nb, bd, ln, iw, wp, we, pl, ex. split; [reflexivity|]. destruct F; constructor; auto.
  - change (with_body (mkr pr ih ik iv il es rl ck nb bd0 ln0 iw wp we pl ex) bd ln) with (mkr pr ih ik iv il es rl ck nb bd ln iw wp we pl ex).
    rby O.
Qed.
Lemma brel_all : forall j b, brel (Some (j, b)) (zlen b) (Some b).
Proof. intros j b. cbn [brel]. pose proof (zlen_nonneg _ b). split; [lia|]. unfold zfirstn, zlen. now rewrite Nat2Z.id, firstn_all. Qed.
Lemma has_len : forall N r a, rinv false N r a -> exists l, x_member (q_len r) = Ret l.
Proof. intros N r a I. openr I. exists ln. reflexivity. Qed.
Lemma sizes_pos : forall l, 0 <= sizes l.
Proof. induction l as [|e l IH]; cbn [sizes]; [lia|]. assert (0 <= size e) by (destruct e; apply zlen_nonneg). lia. Qed.

Lemma one_pull : forall N m r a fr p y, rinv false N r a -> mowns m (inner r ++ fr) -> tells p y -> story_ok y -> pull_ok p -> 0 <= N -> N + sizes (p_events p) + 2 < two64 ->
  (exists z m' r' a' lost, x_pull m r p = Ret (z, (m', r')) /\ pulled p y a (Back z a' (length lost)) /\ rinv false (N + sizes (p_events p)) r' a' /\ mowns m' (inner r' ++ lost ++ fr)) \/
  (x_pull m r p = UB NullDeref /\ pulled p y a Printed).
Proof.
  intros N m r a fr p y I O T SO [_ L0] N0 NT. unfold x_pull. inversion T as [p0 l ck F CK E1 E2]. subst p0 y. cbn [y_told y_cookies] in *. unfold story_ok in SO. cbn [y_cookies] in SO.
  pose proof (sizes_pos (p_events p)) as SP.
  assert (PI : pinv (p_limit p) N (mk_puller m r 0 None 0) (mk_astate a 0 []) fr).
  { split; [exact I|]. split; [exact O|]. cbn. unfold kept, zfirstn. rewrite firstn_nil. destruct (p_limit p =? 0); repeat split; lia. }
  destruct (perform_ok (p_max p) (p_limit p) fr (p_events p) l N _ _ PI F L0 N0 NT) as [(s & b & -> & PF & PS)|[(s & b & n & lost & -> & PF & LN & IS & OS)|[-> PF]]]; cbn [bind fst snd].
  3:{ right. split; [reflexivity|]. now apply pl_null. }
  2:{ left. unfold x_received. cbn [andb negb bind]. change (U_ERROR_LIBCURL =? U_OK) with false. cbn iota.
      destruct (x_free_ptr _ (u_mem s) (u_data s) (inner (u_resp s) ++ lost ++ fr)) as (m2 & -> & O2 & _); [mowns_by OS|]. cbn [bind].
      exists U_ERROR_LIBCURL, m2, (u_resp s), (as_resp b), lost. split; [reflexivity|]. split; [rewrite LN; now apply pl_stopped|]. auto. }
  destruct PS as (IS & OS & _ & _ & ES & SB & _ & DT). set (N1 := N + sizes (p_events p)) in *.
  assert (STOP : (p_performs p = false \/ p_status p = false \/ ck = None) -> x_received (u_mem s) (u_resp s) p true = Ret (U_ERROR_LIBCURL, (u_mem s, u_resp s))).
  { unfold x_received. intros [->|[->| ->]]; [reflexivity|now destruct (p_performs p)|]. destruct (p_cookies p); [contradiction|]. destruct (p_performs p), (p_status p); reflexivity. }
  assert (DEC : (p_performs p = false \/ p_status p = false \/ ck = None) \/ (p_performs p = true /\ p_status p = true /\ exists cs, ck = Some cs)).
  { destruct (p_performs p), (p_status p), ck; eauto 8. }
  destruct DEC as [ST|(P1 & P2 & cs & ->)].
  - left. rewrite (STOP ST). cbn [bind]. change (U_ERROR_LIBCURL =? U_OK) with false. cbn iota.
    destruct (x_free_ptr _ (u_mem s) (u_data s) (inner (u_resp s) ++ fr)) as (m2 & -> & O2 & _); [mowns_by OS|]. cbn [bind].
    exists U_ERROR_LIBCURL, m2, (u_resp s), (as_resp b), []. split; [reflexivity|]. split; [now apply pl_curl|]. auto.
  - destruct (p_cookies p) as [ts|] eqn:PC; [|contradiction]. unfold x_received. rewrite P1, P2, PC. cbn [andb negb]. subst ts.
    destruct (cookies_ok N1 (ptr_blocks (u_data s) ++ fr) cs (u_mem s) (u_resp s) cvars0 (as_resp b) IS OS SO) as [(m1 & r1 & a1 & E & BK & I1 & O1)|[E BK]].
    2:{ right. match goal with |- context [x_cookies ?q1 ?q2 ?q3 ?q4] => replace (x_cookies q1 q2 q3 q4) with (@UB (mem * hresp) NullDeref) by (symmetry; exact E) end. cbn [bind]. split; [reflexivity|]. exact (pl_cookie p (mk_story l (Some cs)) a b cs PF P1 P2 eq_refl BK). }
    left. match goal with |- context [x_cookies ?q1 ?q2 ?q3 ?q4] => replace (x_cookies q1 q2 q3 q4) with (Ret (m1, r1)) by (symmetry; exact E) end. cbn [bind]. change (U_OK =? U_OK) with true. cbn iota.
    pose proof (pl_ends p (mk_story l (Some cs)) a b cs a1 PF P1 P2 eq_refl BK) as PE. unfold ends in PE.
    destruct (u_data s) as [[i d]|] eqn:UD.
    + destruct DT as [-> NB]. assert (LB : 0 < zlen (as_body b)) by (apply zlen_pos; exact NB). rewrite ES. replace (zlen (as_body b) =? 0) with false by (symmetry; apply Z.eqb_neq; lia). cbn [negb].
      assert (PE' : pulled p (mk_story l (Some cs)) a (if p_body p then Back U_OK (set_body a1 (Some (as_body b))) (had_body a1) else Back U_ERROR_MEMORY (set_body a1 None) (had_body a1))) by (destruct (as_body b); [congruence|exact PE]).
      clear PE. assert (OA : mowns (again m1 ([p_body p], [])) (inner r1 ++ i :: fr)) by (apply again_owns; [exact O1|reflexivity]).
      unfold x_malloc, again. cbn [m_new next_answer fst snd m_heap m_grow]. destruct (x_malloc_ok _ _ OA) as (q & m2 & EM & _ & OM). unfold x_malloc, again in EM. cbn [m_new next_answer fst snd m_heap m_grow] in EM.
      destruct (p_body p).
      * injection EM as <- <-. destruct OM as [(j & EJ & OM)|(EJ & _)]; [|discriminate EJ]. injection EJ as <-.
        set (j := h_next (m_heap m1)) in *. set (m2 := mk_mem _ _ _) in *.
        rewrite (x_deref_ok buf m2 i (block_of (as_body b) ++ [Some 0]) _ OM) by (right; apply in_or_app; right; now left). cbn [bind snd].
        assert (RB : read_bytes (block_of (as_body b) ++ [Some 0]) (Z.to_nat (zlen (as_body b))) = Ret (as_body b)).
        { unfold zlen. rewrite Nat2Z.id. change [Some 0] with (block_of [0]). rewrite <- block_of_app. apply read_bytes_ok. }
        rewrite RB. cbn [bind].
        destruct (x_free_ok m2 i (inner r1 ++ j :: fr)) as (m3 & -> & O3 & _); [mowns_by OM|]. cbn [bind].
        destruct (set_body_ok N1 r1 a1 m3 fr (Some (j, as_body b)) (zlen (as_body b)) (Some (as_body b)) I1 O3 (brel_all j _)) as (lost & LL & I3 & O4).
        exists U_OK, m3, (with_body r1 (Some (j, as_body b)) (zlen (as_body b))), (set_body a1 (Some (as_body b))), lost. split; [reflexivity|]. rewrite LL. auto.
      * injection EM as <- <-. destruct OM as [(j & EJ & OM)|(_ & _ & OM)]; [discriminate EJ|]. set (m2 := mk_mem _ _ _) in *.
        destruct (has_len _ _ _ I1) as (ln & HL). rewrite HL. cbn [bind].
        destruct (x_free_ok m2 i (inner r1 ++ fr)) as (m3 & -> & O3 & _); [mowns_by OM|]. cbn [bind].
        destruct (set_body_ok N1 r1 a1 m3 fr None ln None I1 O3 eq_refl) as (lost & LL & I3 & O4).
        exists U_ERROR_MEMORY, m3, (with_body r1 None ln), (set_body a1 None), lost. split; [reflexivity|]. rewrite LL. auto.
    + rewrite DT in PE. exists U_OK, m1, r1, a1, []. auto.
Qed.

(** ** the responses of a program *)
Lemma pulls_ok : forall l ys N m rs la fr, Forall2 (rlinked false N) rs la -> mowns m (flat_map resp_blocks rs ++ fr) -> Forall2 (fun x y => tells (snd x) y) l ys -> Forall story_ok ys ->
  Forall (fun x => pull_ok (snd x)) l -> 0 <= N -> N + all_sizes l + 2 < two64 ->
  (exists zs m' rs' la' lost, x_pulls m rs l = Ret (zs, (m', rs')) /\ all_pulled la l ys (Some (zs, la', length lost)) /\ Forall2 (rlinked false (N + all_sizes l)) rs' la' /\
     mowns m' (flat_map resp_blocks rs' ++ lost ++ fr) /\ map fst rs' = map fst rs) \/
  (x_pulls m rs l = UB NullDeref /\ all_pulled la l ys None).
Proof.
  induction l as [|[i p] l IH]; intros ys N m rs la fr F O T SO PO N0 NT; inversion T as [|? y ? ys' T1 T2]; subst; cbn [x_pulls].
  - left. exists [], m, rs, la, []. split; [reflexivity|]. split; [constructor|]. cbn [all_sizes fold_right]. rewrite Z.add_0_r. auto.
  - cbn [all_sizes fold_right snd] in NT. fold (all_sizes l) in NT. cbn [all_sizes fold_right snd]. fold (all_sizes l).
    pose proof (sizes_pos (p_events p)) as SP. assert (AP : 0 <= all_sizes l).
    { clear. induction l as [|x l IH]; cbn [all_sizes fold_right]; [lia|]. fold (all_sizes l). pose proof (sizes_pos (p_events (snd x))). lia. }
    inversion SO as [|? ? S1 S2]; subst. inversion PO as [|? ? P1 P2]; subst. cbn [snd] in *.
    destruct (nth_error rs i) as [[id r]|] eqn:E.
    + destruct (rpick false N _ _ i id r F E) as (A & B & la1 & a & lb & ER & EL & LA & LB & FA & FB & I).
      assert (EN : nth_error la i = Some a) by (rewrite EL, <- LB; apply nth_mid).
      assert (O1 : mowns m (inner r ++ (id :: flat_map resp_blocks A ++ flat_map resp_blocks B ++ fr))).
      { eapply mowns_ext; [exact O|]. intros x. rewrite cnt_app, ER, rblocks_split. repeat rewrite ?cnt_app, ?cnt_cons. lia. }
      rewrite (use_ok _ _ _ (proj1 O1)) by (apply in_or_app; right; now left). cbn [bind].
      destruct (one_pull N m r a _ p y I O1 T1 S1 P1 N0 ltac:(lia)) as [(z & m1 & r1 & a1 & lost & -> & PL & I1 & O2)|[-> PL]]; cbn [bind].
      2:{ right. split; [reflexivity|]. eapply ap_null; eauto. }
      assert (SR : set_nth rs i (id, r1) = A ++ (id, r1) :: B) by (rewrite ER, <- LA; apply set_nth_mid).
      assert (SL : set_nth la i a1 = la1 ++ a1 :: lb) by (rewrite EL, <- LB; apply set_nth_mid).
      assert (MONO : forall N' X lX, N <= N' -> Forall2 (rlinked false N) X lX -> Forall2 (rlinked false N') X lX).
      { intros N' X lX LE FX. induction FX as [|? ? ? ? R1 ? IHX]; constructor; [eapply rinv_mono; [exact LE|exact R1]|exact IHX]. }
      destruct (IH ys' (N + sizes (p_events p)) m1 (set_nth rs i (id, r1)) (set_nth la i a1) (lost ++ fr)) as [(zs & m2 & rs2 & la2 & lost2 & -> & AP2 & F2 & O3 & IDS)|[-> AP2]]; auto; try lia.
      { rewrite SR, SL. apply Forall2_app; [|constructor]; [apply MONO; [lia|exact FA]|exact I1|apply MONO; [lia|exact FB]]. }
      { rewrite SR. eapply mowns_ext; [exact O2|]. intros x. rewrite !cnt_app, rblocks_split. repeat rewrite ?cnt_app, ?cnt_cons. lia. }
      * left. cbn [bind fst snd]. exists (z :: zs), m2, rs2, la2, (lost ++ lost2). split; [reflexivity|]. split; [rewrite app_length; eapply ap_back; eauto|]. rewrite Z.add_assoc. split; [exact F2|].
        split; [mowns_by O3|]. rewrite IDS, SR, ER, !map_app. reflexivity.
      * right. split; [reflexivity|]. eapply ap_null_later; eauto.
    + destruct (IH ys' N m rs la fr) as [(zs & m2 & rs2 & la2 & lost2 & -> & AP2 & F2 & O3 & IDS)|[-> AP2]]; auto; try lia.
      * left. exists zs, m2, rs2, la2, lost2. split; [reflexivity|]. split; [apply ap_skip; [eapply rpick_none; eauto|exact AP2]|]. split; [|auto].
        clear - F2 SP. induction F2 as [|? ? ? ? R1 ? IHX]; constructor; [eapply rinv_mono; [|exact R1]; lia|exact IHX].
      * right. split; [reflexivity|]. apply ap_skip; [eapply rpick_none; eauto|exact AP2].
Qed.
