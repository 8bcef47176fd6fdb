(** Proofs about the memory of websockets (C99): receiving, the end of a connection. *)
From Coq Require Import ZArith Bool List Lia.
From Verif Require Import Base BaseFacts UMapModel UMapProofs OwnModel OwnSpec OwnProofs MapMemModel MapMemSpec MapMemProofs MapMemPut MapMemRun MapMemSteps
  RespMemModel RespMemSpec RespMemProofs WsMemModel WsMemSpec WsMemProofs WsMemCalls.
Import ListNotations.
Open Scope Z_scope.

(** ** a frame is read *)
Definition broken (f : frame) : bool := match fr_cut f, fr_data f with BeforeData, _ => true | InData, _ :: _ => true | _, _ => false end.
(** message [q] is frame [f] *)
Definition is_frame (q : nat * hmsg) (f : frame) : Prop :=
  b_op (snd q) = fr_op f /\ b_rsv (snd q) = fr_rsv f /\ b_fin (snd q) = Some (fr_fin f) /\ dat (snd q) = fr_data f /\ fits (snd q).
Lemma x_read_ok : forall m f ids, mowns m ids -> (fr_data f = [] \/ fr_cut f <> Whole \/ nth 1 (m_new m) true = false \/ nth 2 (m_new m) true = true) ->
  exists c m' r, x_read m f = Ret (c, (m', r)) /\ later m m' /\ mowns m' (msg_blocks r ++ ids) /\
    ((c = U_OK /\ broken f = false /\ exists q, r = Some q /\ is_frame q f) \/
     (c = U_ERROR /\ r = None /\ (broken f = true \/ short m)) \/
     (c = U_OK /\ r = None /\ short m /\ nth 0 (m_new m) true = false)).
Proof.
  intros m f ids W MO. unfold x_read.
  destruct (x_malloc_ok _ _ W) as (p & m1 & E1 & L1 & [(i & -> & W1)|(-> & S1 & W1)]); rewrite E1; destruct (malloc_tl _ _ _ E1) as [T1 N1].
  2:{ do 3 eexists. split; [reflexivity|]. split; [exact L1|]. split; [exact W1|]. right. right. split; [reflexivity|]. split; [reflexivity|]. split; [exact S1|]. now apply N1. }
  cbv zeta.
  assert (FAIL : forall m2, mowns m2 (i :: ids) -> later m m2 -> (broken f = true \/ short m) ->
     exists c m' r, (do m3 <- x_clear_msg m2 (Some (i, mk_hmsg (fr_op f) (fr_rsv f) (Some (fr_fin f)) None 0)); Ret (U_ERROR, (m3, @None (nat * hmsg)))) = Ret (c, (m', r)) /\ later m m' /\ mowns m' (msg_blocks r ++ ids) /\
    ((c = U_OK /\ broken f = false /\ exists q, r = Some q /\ is_frame q f) \/
     (c = U_ERROR /\ r = None /\ (broken f = true \/ short m)) \/
     (c = U_OK /\ r = None /\ short m /\ nth 0 (m_new m) true = false))).
  { intros m2 W2 L2 B. destruct (x_clear_msg_ok m2 (Some (i, mk_hmsg (fr_op f) (fr_rsv f) (Some (fr_fin f)) None 0)) ids W2) as (m3 & -> & W3 & L3).
    exists U_ERROR, m3, None. split; [reflexivity|]. split; [chain|]. split; [exact W3|]. right. left. auto. }
  assert (REST : fr_cut f <> BeforeData -> exists c m' r, (if zlen (fr_data f) =? 0 then Ret (U_OK, (m1, Some (i, mk_hmsg (fr_op f) (fr_rsv f) (Some (fr_fin f)) None 0)))
      else match x_malloc m1 with
           | (None, m2) => do m3 <- x_clear_msg m2 (Some (i, mk_hmsg (fr_op f) (fr_rsv f) (Some (fr_fin f)) None 0)); Ret (U_ERROR, (m3, @None (nat * hmsg)))
           | (Some b, m2) =>
                match fr_cut f with
                | InData => do m3 <- x_free m2 (Some b); do m4 <- x_clear_msg m3 (Some (i, mk_hmsg (fr_op f) (fr_rsv f) (Some (fr_fin f)) None 0)); Ret (U_ERROR, (m4, @None (nat * hmsg)))
                | _ =>
                    match x_malloc m2 with
                    | (None, m3) => UB NullDeref
                    | (Some d, m3) => do m4 <- x_free m3 (Some b); Ret (U_OK, (m4, Some (i, mk_hmsg (fr_op f) (fr_rsv f) (Some (fr_fin f)) (Some (d, fr_data f)) (zlen (fr_data f)))))
                    end
                end
           end) = Ret (c, (m', r)) /\ later m m' /\ mowns m' (msg_blocks r ++ ids) /\
    ((c = U_OK /\ broken f = false /\ exists q, r = Some q /\ is_frame q f) \/
     (c = U_ERROR /\ r = None /\ (broken f = true \/ short m)) \/
     (c = U_OK /\ r = None /\ short m /\ nth 0 (m_new m) true = false))).
  { intros NB. rewrite zlen_nil. destruct (fr_data f) as [|z d] eqn:DF.
    - do 3 eexists. split; [reflexivity|]. split; [exact L1|]. split; [exact W1|]. left. split; [reflexivity|]. split; [unfold broken; rewrite DF; destruct (fr_cut f); [reflexivity|now elim NB|reflexivity]|].
      eexists. split; [reflexivity|]. unfold is_frame. cbn. rewrite DF. repeat split; reflexivity.
    - destruct (x_malloc_ok _ _ W1) as (p & m2 & E2 & L2 & [(b & -> & W2)|(-> & S2 & W2)]); rewrite E2; destruct (malloc_tl _ _ _ E2) as [T2 N2].
      2:{ apply FAIL; [exact W2|chain|right; now apply L1]. }
      destruct (fr_cut f) eqn:CF; [|now elim NB|].
      + destruct (x_malloc_ok _ _ W2) as (p & m3 & E3 & L3 & [(dd & -> & W3)|(-> & S3 & W3)]); rewrite E3; destruct (malloc_tl _ _ _ E3) as [T3 N3].
        2:{ exfalso. destruct N2 as [_ N2]. destruct N3 as [N3 _]. specialize (N3 eq_refl). rewrite T2, nth_tl, T1, nth_tl in N3. rewrite T1, nth_tl in N2.
            destruct MO as [MO|[MO|[MO|MO]]]; [discriminate|now elim MO|specialize (N2 MO); discriminate|congruence]. }
        assert (W3' : mowns m3 (b :: dd :: i :: ids)) by mowns_by W3.
        destruct (x_free_ok _ _ _ W3') as (m4 & -> & W4 & L4 & _). unfold bind. do 3 eexists. split; [reflexivity|]. split; [chain|]. split; [cbn [msg_blocks b_data ptr_blocks app]; mowns_by W4|].
        left. split; [reflexivity|]. split; [unfold broken; now rewrite CF|]. eexists. split; [reflexivity|]. unfold is_frame. cbn. rewrite DF. repeat split; reflexivity.
      + destruct (x_free_ok _ _ _ W2) as (m3 & -> & W3 & L3 & _). unfold bind at 1. apply FAIL; [exact W3|chain|]. left. unfold broken. now rewrite CF, DF. }
  destruct (fr_cut f) eqn:CF; [apply REST; discriminate|apply FAIL; [exact W1|exact L1|left; unfold broken; now rewrite CF]|apply REST; discriminate].
Qed.

(** ** fragments *)
Definition part_op (op : Z) : Prop := op = 1 \/ op = 2.
(** message_previous *)
Definition prel (prev : ptr hmsg) (p : option apart) : Prop :=
  match prev, p with
  | None, None => True
  | Some q, Some ap => b_op (snd q) = ap_op ap /\ part_op (ap_op ap) /\ b_rsv (snd q) = ap_rsv ap /\ b_fin (snd q) = Some false /\ dat (snd q) = ap_data ap /\ fits (snd q)
  | _, _ => False
  end.
Lemma x_merge_ok : forall m p ap q f ids, prel (Some p) (Some ap) -> is_frame q f -> mowns m (mb p ++ mb q ++ ids) ->
  exists c m' p', x_merge m p q = Ret (c, (m', p')) /\ later m m' /\ mowns m' (mb p' ++ mb q ++ ids) /\
    if fr_op f =? 0 then c = U_OK /\ b_op (snd p') = ap_op ap /\ b_rsv (snd p') = ap_rsv ap /\ b_fin (snd p') = Some (fr_fin f) /\ dat (snd p') = ap_data ap ++ fr_data f /\ fits (snd p')
    else c = U_ERROR_PARAMS /\ p' = p.
Proof.
  intros m [ip p] ap [iq q] f ids (P1 & P2 & P3 & P4 & P5 & P6) (Q1 & Q2 & Q3 & Q4 & Q5) W. cbn [snd] in *. unfold x_merge. cbn [fst snd].
  rewrite (use_ok _ _ ip (proj1 W)) by now left. unfold bind at 1. rewrite (use_ok _ _ iq (proj1 W)) by (apply in_or_app; right; now left). unfold bind at 1.
  rewrite P4, Q3. cbn [x_member]. unfold bind at 1. unfold bind at 1. cbn [negb andb].
  assert (OP : (b_op p =? OP_TEXT) || (b_op p =? OP_BINARY) = true) by (rewrite P1; destruct P2 as [-> | ->]; reflexivity). rewrite OP, Q1. cbn [andb]. unfold OP_CONTINUE.
  destruct (fr_op f =? 0).
  2:{ do 3 eexists. split; [reflexivity|]. split; [eapply later_refl; eauto|]. split; [exact W|]. auto. }
  cbv zeta. cbn [orb]. unfold fits in Q5. rewrite Q5, zlen_nil, Q4. destruct (fr_data f) as [|z d] eqn:DF.
  - do 3 eexists. split; [reflexivity|]. split; [eapply later_refl; eauto|]. split; [exact W|]. cbn [snd b_op b_rsv b_fin b_data]. split; [reflexivity|]. split; [exact P1|]. split; [exact P3|]. split; [reflexivity|].
    rewrite app_nil_r. split; [exact P5|exact P6].
  - unfold mb in W at 1. cbn [msg_blocks] in W.
    assert (W0 : mowns m (ptr_blocks (b_data p) ++ (ip :: mb (iq, q) ++ ids))) by mowns_by W.
    destruct (x_realloc_ok _ _ _ _ W0) as (j & m1 & -> & W1 & L1). unfold bind at 1. cbn iota beta.
    destruct (b_data q) as [[dq xq]|] eqn:BQ.
    2:{ unfold dat in Q4. rewrite BQ in Q4. discriminate Q4. }
    rewrite (x_deref_ok _ m1 dq xq _ W1) by (right; right; unfold mb; cbn [msg_blocks]; rewrite BQ; right; now left). unfold bind. cbn [snd].
    do 3 eexists. split; [reflexivity|]. split; [exact L1|]. split; [unfold mb at 1; cbn [msg_blocks b_data ptr_blocks app]; mowns_by W1|]. cbn [snd b_op b_rsv b_fin].
    assert (DP : zfirstn (b_len p) (match b_data p with Some (_, a) => a | None => [] end) = ap_data ap).
    { unfold fits in P6. rewrite P6. change (match b_data p with Some (_, a) => a | None => [] end) with (dat p). now rewrite zfirstn_all. }
    assert (DQ : xq = z :: d) by (unfold dat in Q4; rewrite BQ in Q4; exact Q4).
    split; [reflexivity|]. split; [exact P1|]. split; [exact P3|]. split; [reflexivity|]. unfold dat, fits. cbn [b_data b_len]. rewrite DP, DQ.
    split; [reflexivity|]. unfold dat. cbn [b_data]. unfold fits in P6. rewrite P6, P5. unfold zlen. rewrite app_length, Nat2Z.inj_add. reflexivity.
Qed.

(** ** the extensions on the way in *)
Lemma go_in_last : forall E l e rsv d, go_in E (l ++ [e]) rsv d =
  match (if ae_on e && negb (Z.land rsv (ae_rsv e) =? 0) then f_in E (ae_fun e) d else Some d) with Some t => go_in E l rsv t | None => None end.
Proof.
  intros E l e rsv d. induction l as [|x l IH]; cbn [app go_in].
  - destruct (ae_on e && negb (Z.land rsv (ae_rsv e) =? 0)); [destruct (f_in E (ae_fun e) d); reflexivity|reflexivity].
  - rewrite IH. destruct (if ae_on e && negb (Z.land rsv (ae_rsv e) =? 0) then f_in E (ae_fun e) d else Some d); reflexivity.
Qed.
Lemma x_in_ok : forall E rsv es al, Forall2 xrel es al -> forall m d ids, mowns m (ptr_blocks d ++ ids) -> incl (map fst es) ids ->
  exists c m' d', x_in E m (map Some es) rsv d = Ret (c, (m', d')) /\ later m m' /\ mowns m' (ptr_blocks d' ++ ids) /\
    ((c = U_OK /\ go_in E (rev al) rsv (dtext d) = Some (dtext d')) \/ (c <> U_OK /\ (go_in E (rev al) rsv (dtext d) = None \/ short m))).
Proof.
  intros E rsv es al F. induction F as [|[i e] a es al X F IH]; intros m d ids W C; cbn [map x_in rev].
  - do 3 eexists. split; [reflexivity|]. split; [eapply later_refl; eauto|]. split; [exact W|]. now left.
  - assert (C' : incl (map fst es) ids) by (intros z Z; apply C; now right). rewrite go_in_last.
    rewrite (x_deref_ok _ m i e _ W) by (apply in_or_app; right; apply C; now left). unfold bind at 1. cbn [snd].
    destruct X as (_ & _ & X3 & X4 & X5 & _). cbn [snd] in X3, X4, X5. rewrite X3, X5. destruct (ae_on a && negb (Z.land rsv (ae_rsv a) =? 0)); [|apply IH; assumption].
    rewrite (dread m d _ W) by (apply incl_appl, incl_refl). unfold bind at 1. rewrite X4. destruct (f_in E (ae_fun a) (dtext d)) as [u|].
    2:{ do 3 eexists. split; [reflexivity|]. split; [eapply later_refl; eauto|]. split; [exact W|]. right. split; [discriminate|now left]. }
    destruct (x_malloc_ok _ _ W) as (p & m1 & -> & L1 & [(o & -> & W1)|(-> & S1 & W1)]).
    2:{ do 3 eexists. split; [reflexivity|]. split; [exact L1|]. split; [exact W1|]. right. split; [discriminate|auto]. }
    assert (W1' : mowns m1 (ptr_blocks d ++ (o :: ids))) by mowns_by W1.
    destruct (x_free_ptr _ _ _ _ W1') as (m2 & -> & W2 & L2). unfold bind at 1. rewrite zlen_nil.
    assert (LL2 : later m m2) by chain.
    destruct u as [|z u].
    + destruct (x_free_ok _ _ _ W2) as (m3 & -> & W3 & L3 & _). unfold bind at 1.
      destruct (IH m3 None ids W3 C') as (c & m5 & d' & -> & L5 & W5 & K). do 3 eexists. split; [reflexivity|]. split; [chain|]. split; [exact W5|].
      cbn [dtext] in K. destruct K as [K|(NC & [K|SH])]; auto. right. split; [exact NC|]. right. now apply LL2, L3.
    + destruct (x_malloc_ok _ _ W2) as (p & m3 & -> & L3 & [(j & -> & W3)|(-> & S3 & W3)]).
      * assert (W3' : mowns m3 (o :: j :: ids)) by mowns_by W3.
        destruct (x_free_ok _ _ _ W3') as (m4 & -> & W4 & L4 & _). unfold bind at 1.
        destruct (IH m4 (Some (j, z :: u)) ids W4 C') as (c & m5 & d' & -> & L5 & W5 & K). do 3 eexists. split; [reflexivity|]. split; [chain|]. split; [exact W5|].
        cbn [dtext] in K. destruct K as [K|(NC & [K|SH])]; auto. right. split; [exact NC|]. right. now apply LL2, L3, L4.
      * destruct (x_free_ok _ _ _ W3) as (m4 & -> & W4 & L4 & _). do 3 eexists. split; [reflexivity|]. split; [chain|]. split; [exact W4|]. right. split; [discriminate|right; now apply LL2].
Qed.
Lemma f2_rev : forall A B (R : A -> B -> Prop) a b, Forall2 R a b -> Forall2 R (rev a) (rev b).
Proof. intros A B R a b F. induction F; cbn [rev]; [constructor|]. apply f2_app; [assumption|]. repeat constructor. assumption. Qed.

Lemma nonempty : forall A B (l : list A) (u v : B), l <> [] -> match l with [] => u | _ :: _ => v end = v.
Proof. intros A B [|x l] u v H; [now elim H|reflexivity]. Qed.
Lemma x_apply_ok : forall E m g a q ids, ginv g a -> fits (snd q) -> mowns m (mb q ++ gb g ++ ids) ->
  exists c m' d n, x_apply E m g q = Ret (c, (m', (fst q, mk_hmsg (b_op (snd q)) (b_rsv (snd q)) (b_fin (snd q)) d n))) /\ later m m' /\ n = zlen (dtext d) /\
    mowns m' (fst q :: ptr_blocks d ++ gb g ++ ids) /\
    ((c = U_OK /\ go_in E (a_exts a) (b_rsv (snd q)) (dat (snd q)) = Some (dtext d)) \/ (c <> U_OK /\ (go_in E (a_exts a) (b_rsv (snd q)) (dat (snd q)) = None \/ short m))).
Proof.
  intros E m g a [iq q] ids I FI W. unfold mb in W. cbn [msg_blocks fst snd] in *. unfold x_apply. cbn [fst snd].
  assert (W0 : mowns m (gb g ++ (iq :: ptr_blocks (b_data q) ++ ids))) by mowns_by W.
  destruct (man_elements _ _ _ _ I W0) as (es & RE & F & CI).
  destruct (x_member (g_exts g)) as [l0|] eqn:XM; [|discriminate RE]. change (x_elements m l0 = Ret (map Some es)) in RE. unfold bind at 1. go RE.
  assert (D : es = [] \/ es <> []) by (destruct es; [now left|right; discriminate]). destruct D as [-> |NE].
  - assert (EA : a_exts a = []) by (inversion F; reflexivity). cbn [map]. exists U_OK, m, (b_data q), (b_len q). split; [destruct q; reflexivity|]. split; [eapply later_refl; eauto|]. split; [exact FI|]. split; [exact W|]. left. rewrite EA. now split.
  - rewrite nonempty by (intros X; apply NE; now apply map_eq_nil in X).
    rewrite (use_ok _ _ iq (proj1 W)) by now left. unfold bind at 1.
    assert (G : exists m1 d, (if b_len q =? 0 then Ret (m, Some None) else match x_malloc m with (None, m1) => Ret (m1, None)
         | (Some i, m1) => do t <- x_deref m1 (b_data q); Ret (m1, Some (Some (i, zfirstn (b_len q) (snd t)))) end) = Ret (m1, d) /\ later m m1 /\
         match d with None => short m /\ mowns m1 (iq :: ptr_blocks (b_data q) ++ gb g ++ ids) | Some d0 => dtext d0 = dat q /\ mowns m1 (ptr_blocks d0 ++ (iq :: ptr_blocks (b_data q) ++ gb g ++ ids)) end).
    { unfold fits in FI. rewrite FI, zlen_nil. destruct (dat q) as [|z d] eqn:DQ.
      - do 2 eexists. split; [reflexivity|]. split; [eapply later_refl; eauto|]. split; [reflexivity|exact W].
      - destruct (x_malloc_ok _ _ W) as (p & m1 & -> & L1 & [(i & -> & W1)|(-> & S1 & W1)]).
        + unfold dat in DQ. destruct (b_data q) as [[dq xq]|]; [|discriminate]. cbn [ptr_blocks app] in *. rewrite (x_deref_ok _ m1 dq xq _ W1) by (right; right; now left). unfold bind. cbn [snd]. rewrite DQ, zfirstn_all.
          do 2 eexists. split; [reflexivity|]. split; [exact L1|]. split; [reflexivity|exact W1].
        + do 2 eexists. split; [reflexivity|]. split; [exact L1|]. auto. }
    destruct G as (m1 & d & R & L1 & K). go R. cbn [fst snd]. destruct d as [d0|].
    2:{ destruct K as [SH W1]. exists U_ERROR_MEMORY, m1, (b_data q), (b_len q). split; [destruct q; reflexivity|]. split; [exact L1|]. split; [exact FI|]. split; [exact W1|]. right. split; [discriminate|now right]. }
    destruct K as [DT W1].
    assert (RV : rev (map Some es) = map Some (rev es)) by (symmetry; apply map_rev).
    destruct (x_in_ok E (b_rsv q) (rev es) (rev (a_exts a)) (f2_rev _ _ _ _ _ F) m1 d0 _ W1) as (c & m2 & d1 & R2 & L2 & W2 & K).
    { intros z Z. right. apply in_or_app. right. apply in_or_app. left. apply CI. rewrite map_rev in Z. now apply in_rev. }
    match type of R2 with x_in _ _ ?l _ _ = _ => match goal with |- context [x_in E m1 ?l' _ _] => assert (EL : l' = l) by exact RV; rewrite EL end end.
    go R2. cbn iota beta.
    assert (W2' : mowns m2 (ptr_blocks (b_data q) ++ (iq :: ptr_blocks d1 ++ gb g ++ ids))) by mowns_by W2.
    destruct (x_free_ptr _ _ _ _ W2') as (m3 & -> & W3 & L3). unfold bind. exists c, m3, d1, (match d1 with Some (_, t) => zlen t | None => 0 end). split; [reflexivity|]. split; [chain|].
    split; [destruct d1 as [[]|]; reflexivity|]. split; [exact W3|]. rewrite rev_involutive, DT in K. destruct K as [K|(NC & [K|SH])]; auto. right. split; [exact NC|]. right. now apply L1.
Qed.

(** ** a complete message *)
Lemma x_complete_ok : forall E m g a q ids, ginv g a -> fits (snd q) -> mowns m (mb q ++ gb g ++ ids) ->
  exists m' g' r a', x_complete E m g q = Ret (m', (g', r)) /\ later m m' /\ ginv g' a' /\ mowns m' (msg_blocks r ++ gb g' ++ ids) /\
    (a_complete E a (b_op (snd q)) (b_rsv (snd q)) (dat (snd q)) = Some a' \/
     (a' = put_runs a false /\ (a_complete E a (b_op (snd q)) (b_rsv (snd q)) (dat (snd q)) = None \/ short m))).
Proof.
  intros E m g a q ids I FI W. unfold x_complete.
  destruct (x_apply_ok E m g a q ids I FI W) as (c & m1 & d & n & -> & L1 & NL & W1 & K). unfold bind at 1. cbn iota beta.
  set (q1 := (fst q, mk_hmsg (b_op (snd q)) (b_rsv (snd q)) (b_fin (snd q)) d n)).
  assert (BQ : msg_blocks (Some q1) = fst q :: ptr_blocks d) by reflexivity.
  assert (STOP : forall x, x = None \/ short m -> exists m' g' r a', Ret (m1, (connect g false, Some q1)) = Ret (m', (g', r)) /\ later m m' /\ ginv g' a' /\ mowns m' (msg_blocks r ++ gb g' ++ ids) /\ (x = Some a' \/ (a' = put_runs a false /\ (x = None \/ short m)))).
  { intros x NX. exists m1, (connect g false), (Some q1), (put_runs a false). split; [reflexivity|]. split; [exact L1|]. split; [now apply ginv_connect|]. split; [exact W1|]. auto. }
  assert (EXP : g_expected g = bits (a_exts a)) by (destruct I as (li & lo & ex & es & -> & _); reflexivity).
  destruct (c =? U_OK) eqn:CC.
  2:{ apply STOP. apply Z.eqb_neq in CC. destruct K as [(-> & _)|(_ & [K|K])]; [now elim CC| |now right]. left. unfold a_complete. now rewrite K. }
  apply Z.eqb_eq in CC. subst c. destruct K as [(_ & K)|(NC & _)]; [|now elim NC]. unfold a_complete. rewrite K. cbn [q1 snd b_rsv b_op b_len b_data]. rewrite EXP.
  destruct ((b_rsv (snd q) =? 0) || negb (Z.land (bits (a_exts a)) (b_rsv (snd q)) =? 0)); cbn [andb]; [|apply STOP; now left].
  rewrite (dread_n m1 d n _ W1) by (auto; apply incl_tl, incl_appl, incl_refl). unfold bind at 1.
  assert (ZN : (n =? 0) = match dtext d with [] => true | _ => false end) by (rewrite NL; apply zlen_nil). rewrite ZN. unfold OP_TEXT.
  destruct (negb (b_op (snd q) =? 1) || match dtext d with [] => true | _ => false end || f_utf8 E (dtext d)); [|apply STOP; now left].
  rewrite (proj1 (ginv_keeps _ _ I)). unfold keep_incoming. destruct (a_keep_in a).
  - assert (MQ : mrel q1 (b_op (snd q), dtext d)) by (split; [reflexivity|exact NL]).
    assert (W2 : mowns m1 (gb g ++ mb q1 ++ ids)) by (unfold mb; rewrite BQ; mowns_by W1).
    destruct (keep_in_ok _ _ _ _ _ _ I MQ W2) as (m3 & l' & R3 & I3 & W4 & L3).
    destruct (x_member (g_in g)) as [l0|] eqn:XM; [|discriminate R3]. unfold bind in R3 at 1. unfold bind at 1. rewrite R3. unfold bind at 1. cbn iota beta. change (U_OK =? U_OK) with true. cbn iota.
    do 4 eexists. split; [reflexivity|]. split; [chain|]. split; [exact I3|]. split; [exact W4|]. now left.
  - assert (W2 : mowns m1 (msg_blocks (Some q1) ++ (gb g ++ ids))) by (rewrite BQ; exact W1).
    destruct (x_clear_msg_ok _ _ _ W2) as (m3 & -> & W4 & L3). unfold bind. do 4 eexists. split; [reflexivity|]. split; [chain|]. split; [exact I|]. split; [exact W4|]. now left.
Qed.

(** ** one turn of the loop *)
Definition stopped (E : env) (m : mem) (a : aws) (f : frame) (a' : aws) : Prop :=
  a_frame E a f = (a', false) \/ (short m /\ (a' = a \/ (fr_op f = 9 /\ exists op', (op' = 10 \/ op' = 0) /\ a' = keep_outcoming a (op', fr_data f)))).
Definition turned (E : env) (m : mem) (a : aws) (f : frame) (g : hman) (prev : ptr hmsg) (go : bool) : Prop :=
  if go then exists a', ginv g a' /\ prel prev (a_part a') /\ a_frame E a f = (a', true)
  else exists a', ginv (connect g false) (put_runs a' false) /\ stopped E m a f a'.
Lemma a_frame_whole : forall E a f, broken f = false -> a_frame E a f =
  (let op := fr_op f in let d := fr_data f in
   if (op =? 8) && fr_fin f then (if zlen d <=? 125 then keep_outcoming a (8, []) else a, false)
   else if (op =? 9) && fr_fin f then if zlen d <=? 125 then (snd (a_send E a 10 d), true) else (a, false)
   else if (op =? 10) && fr_fin f then (a, true)
   else if (op =? 0) || (op =? 1) || (op =? 2) then
     match a_part a with
     | None => if op =? 0 then (a, false)
               else if fr_fin f then match a_complete E a op (fr_rsv f) d with Some a' => (a', true) | None => (a, false) end
               else (put_part a (Some (mk_apart op (fr_rsv f) d)), true)
     | Some p => if op =? 0 then
                   if fr_fin f then match a_complete E (put_part a None) (ap_op p) (ap_rsv p) (ap_data p ++ d) with Some a' => (a', true) | None => (a, false) end
                   else (put_part a (Some (mk_apart (ap_op p) (ap_rsv p) (ap_data p ++ d))), true)
                 else (a, false)
     end
   else (a, false)).
Proof. intros E a f B. unfold a_frame, broken in *. destruct (fr_cut f); [reflexivity|discriminate|]. destruct (fr_data f); [reflexivity|discriminate]. Qed.
Lemma a_frame_broken : forall E a f, broken f = true -> a_frame E a f = (a, false).
Proof. intros E a f B. unfold a_frame, broken in *. destruct (fr_cut f); [discriminate|reflexivity|]. destruct (fr_data f); [discriminate|reflexivity]. Qed.
Lemma complete_kept : forall E a op rsv d a', a_complete E a op rsv d = Some a' -> a_part a' = a_part a /\ a_runs a' = a_runs a /\ a_server a' = a_server a.
Proof.
  intros E a op rsv d a' H. unfold a_complete in H. destruct (go_in E (a_exts a) rsv d); [|discriminate]. match goal with H : (if ?c then _ else _) = _ |- _ => destruct c; [|discriminate] end.
  injection H as <-. unfold keep_incoming. destruct (a_keep_in a); auto.
Qed.
Lemma ginv_part : forall g a p, ginv g a -> ginv g (put_part a p).
Proof. intros g a p H. exact H. Qed.
Lemma ginv_off : forall g a, ginv g a -> ginv (connect g false) (put_runs a false).
Proof. intros. now apply ginv_connect. Qed.

Lemma x_turn_ok : forall E m g a prev q f ids, ginv g a -> a_runs a = true -> prel prev (a_part a) -> broken f = false -> is_frame q f ->
  mowns m (mb q ++ msg_blocks prev ++ gb g ++ ids) ->
  exists m' g' prev' rest go0, x_turn E m g prev q = Ret (m', (g', (prev', (rest, go0)))) /\ later m m' /\ mowns m' (msg_blocks rest ++ msg_blocks prev' ++ gb g' ++ ids) /\
    turned E m a f g' prev' (g_connected g' && go0).
Proof.
  intros E m g a prev q f ids I RN P B FR W. destruct FR as (Q1 & Q2 & Q3 & Q4 & Q5). unfold x_turn.
  assert (CON : g_connected g = true) by (rewrite (ginv_connected _ _ I); exact RN).
  rewrite (use_ok _ _ (fst q) (proj1 W)) by (destruct q; now left). unfold bind at 1. rewrite Q3. cbn [x_member]. unfold bind at 1. cbv zeta.
  pose proof (a_frame_whole E a f B) as AF. cbv zeta in AF. unfold OP_CLOSE, OP_PING, OP_PONG, OP_TEXT, OP_BINARY, OP_CONTINUE in *. rewrite Q1 in *. unfold fits in Q5. rewrite Q4 in Q5.
  assert (STOP : forall (c : bool), a_frame E a f = (a, false) -> exists m' g' prev' rest go0, Ret (m, (connect g false, (prev, (Some q, true)))) = Ret (m', (g', (prev', (rest, go0)))) /\ later m m' /\ mowns m' (msg_blocks rest ++ msg_blocks prev' ++ gb g' ++ ids) /\ turned E m a f g' prev' (g_connected g' && go0)).
  { intros c H. do 5 eexists. split; [reflexivity|]. split; [eapply later_refl; eauto|]. split; [exact W|]. cbn [g_connected connect andb turned]. exists a. split; [exact (ginv_off _ _ I)|]. left. exact H. }
  destruct ((fr_op f =? 8) && fr_fin f).
  { rewrite Q5. destruct (zlen (fr_data f) <=? 125).
    - assert (W0 : mowns m (gb g ++ (mb q ++ msg_blocks prev ++ ids))) by mowns_by W.
      destruct (x_send_managed_ok m g a 8 0 [] 0 _ I (Z.le_refl 0) W0) as (c & m1 & g1 & a1 & -> & L1 & I1 & W1 & K). unfold bind. cbn [fst snd].
      do 5 eexists. split; [reflexivity|]. split; [exact L1|]. split; [rewrite gb_connect; unfold mb in W1; mowns_by W1|]. cbn [g_connected connect andb turned].
      destruct K as [(-> & _ & ->)|[(-> & -> & [SE|SH])|(_ & _ & _ & ND & _)]]; [|discriminate SE| |now elim ND].
      + exists (keep_outcoming a (8, [])). split; [|left; exact AF]. exact (ginv_off _ _ I1).
      + exists a. split; [exact (ginv_off _ _ I1)|]. right. split; [exact SH|now left].
    - unfold bind. cbn [fst snd]. apply (STOP true). exact AF. }
  destruct ((fr_op f =? 9) && fr_fin f) eqn:PING.
  { apply andb_true_iff in PING as [PING _]. apply Z.eqb_eq in PING. rewrite Q5. destruct (zlen (fr_data f) <=? 125); [|apply (STOP true); exact AF].
    rewrite (dread_n m (b_data (snd q)) _ _ W).
    2:{ intros z Z. destruct q as [iq q]. cbn [snd] in Z. right. apply in_or_app. now left. }
    2:{ now rewrite <- dtext_dat, Q4. }
    unfold bind at 1. rewrite <- dtext_dat, Q4.
    assert (W0 : mowns m (gb g ++ (mb q ++ msg_blocks prev ++ ids))) by mowns_by W.
    destruct (x_send_ok E m g a 10 (fr_data f) 0 _ I (Z.le_refl 0) W0) as (c & m1 & g1 & a1 & -> & L1 & I1 & W1 & K). unfold bind. cbn iota beta.
    do 5 eexists. split; [reflexivity|]. split; [exact L1|]. split; [destruct (c =? U_OK); rewrite ?gb_connect; unfold mb in W1; mowns_by W1|]. rewrite andb_true_r.
    destruct K as [K|[(SH & -> & C)|(SH & -> & _ & _ & u & op' & TH & OP & ->)]].
    - unfold a_send in *. rewrite RN in *. cbn [through sendable existsb] in *. change ((10 =? 1) || (10 =? 2)) with false in *. cbn iota in *. injection K as -> ->. change (U_OK =? U_OK) with true. cbn iota.
      change (existsb (Z.eqb 10) [1; 2; 8; 9; 10]) with true in *.
      assert (C1 : g_connected g1 = true) by (rewrite (ginv_connected _ _ I1); unfold keep_outcoming; destruct (a_keep_out a); exact RN). rewrite C1. cbn [turned]. eexists. split; [exact I1|]. split; [|exact AF].
      unfold keep_outcoming. destruct (a_keep_out a); exact P.
    - assert (CC : (c =? U_OK) = false) by (destruct C as [-> | ->]; reflexivity). rewrite CC. cbn [g_connected connect turned]. exists a. split; [exact (ginv_off _ _ I1)|]. right. split; [exact SH|now left].
    - change (U_ERROR_MEMORY =? U_OK) with false. cbn [g_connected connect turned]. injection TH as <-. eexists. split; [exact (ginv_off _ _ I1)|]. right. split; [exact SH|]. right. split; [exact PING|]. eauto. }
  destruct ((fr_op f =? 10) && fr_fin f).
  { do 5 eexists. split; [reflexivity|]. split; [eapply later_refl; eauto|]. split; [exact W|]. rewrite CON. cbn [andb turned]. exists a. auto. }
  assert (OPS : ((fr_op f =? 1) || (fr_op f =? 2) || (fr_op f =? 0)) = ((fr_op f =? 0) || (fr_op f =? 1) || (fr_op f =? 2))) by (destruct (fr_op f =? 0), (fr_op f =? 1), (fr_op f =? 2); reflexivity).
  rewrite OPS. destruct ((fr_op f =? 0) || (fr_op f =? 1) || (fr_op f =? 2)) eqn:OPK; [|apply (STOP true); exact AF].
  (* what a complete message leads to *)
  assert (COMP : forall m2 q2 a2 fr, ginv g a2 -> a_runs a2 = true -> a_part a2 = None -> put_runs a2 false = put_runs (put_part a None) false -> fits (snd q2) -> mowns m2 (mb q2 ++ gb g ++ ids) -> later m m2 ->
     fr = (match a_complete E a2 (b_op (snd q2)) (b_rsv (snd q2)) (dat (snd q2)) with Some a' => (a', true) | None => (a, false) end) -> a_frame E a f = fr ->
     exists m' g' prev' rest go0, (do y <- x_complete E m2 g q2; Ret (fst y, (fst (snd y), (@None (nat * hmsg), (snd (snd y), true))))) = Ret (m', (g', (prev', (rest, go0)))) /\ later m m' /\
       mowns m' (msg_blocks rest ++ msg_blocks prev' ++ gb g' ++ ids) /\ turned E m a f g' prev' (g_connected g' && go0)).
  { intros m2 q2 a2 fr I2 R2 P2 SAME F2 W2 L2 -> AF2. destruct (x_complete_ok E m2 g a2 q2 ids I2 F2 W2) as (m3 & g3 & r & a3 & -> & L3 & I3 & W3 & K). unfold bind. cbn [fst snd].
    exists m3, g3, None, r, true. split; [reflexivity|]. split; [chain|]. split; [exact W3|]. rewrite andb_true_r. rewrite (ginv_connected _ _ I3).
    destruct K as [K|(-> & K)].
    - rewrite K in AF2. destruct (complete_kept _ _ _ _ _ _ K) as (K1 & K2 & _). rewrite K2, R2. cbn [turned]. exists a3. split; [exact I3|]. split; [rewrite K1, P2; exact Logic.I|exact AF2].
    - cbn [put_runs a_runs turned]. exists a. split.
      + apply ginv_off in I3. change (put_runs (put_runs a2 false) false) with (put_runs a2 false) in I3. rewrite SAME in I3. exact I3.
      + destruct K as [K|SH]; [left; now rewrite K in AF2|right; split; [now apply L2|now left]]. }
  destruct (a_part a) as [ap|] eqn:AP; destruct prev as [p|]; try (now elim P).
  - assert (W0 : mowns m (mb p ++ mb q ++ (gb g ++ ids))) by (change (msg_blocks (Some p)) with (mb p) in W; mowns_by W).
    assert (FQ : is_frame q f) by (unfold is_frame, fits; rewrite Q4; auto).
    destruct (x_merge_ok m p ap q f _ P FQ W0) as (c & m1 & p1 & R1 & L1 & W1 & K).
    destruct (fr_op f =? 0) eqn:OP0.
    + destruct K as (-> & K1 & K2 & K3 & K4 & K5). destruct (fr_fin f).
      * rewrite R1. unfold bind at 1. cbn iota beta. change (U_OK =? U_OK) with true. cbn iota.
        assert (W2 : mowns m1 (msg_blocks (Some q) ++ (mb p1 ++ gb g ++ ids))) by (change (msg_blocks (Some q)) with (mb q); mowns_by W1).
        destruct (x_clear_msg_ok _ _ _ W2) as (m2 & -> & W3 & L2). unfold bind at 1.
        eapply (COMP m2 p1 (put_part a None)); [exact (ginv_part _ _ None I)|exact RN|reflexivity|reflexivity|exact K5|exact W3|chain|rewrite K1, K2, K4; reflexivity|exact AF].
      * rewrite R1. unfold bind. cbn iota beta. change (U_OK =? U_OK) with true. cbn iota. do 5 eexists. split; [reflexivity|]. split; [exact L1|]. split; [change (msg_blocks (Some q)) with (mb q); change (msg_blocks (Some p1)) with (mb p1); mowns_by W1|].
        rewrite CON. cbn [andb turned]. eexists. split; [|split; [|exact AF]]; [exact (ginv_part _ _ _ I)|].
        cbn [prel put_part a_part]. destruct P as (_ & P2 & _). cbn [ap_op ap_rsv ap_data]. auto 10.
    + destruct K as (-> & ->). destruct (fr_fin f).
      * rewrite R1. unfold bind. cbn iota beta. change (U_ERROR_PARAMS =? U_OK) with false. cbn iota. do 5 eexists. split; [reflexivity|]. split; [exact L1|]. split; [change (msg_blocks (Some q)) with (mb q); change (msg_blocks (Some p)) with (mb p); mowns_by W1|].
        rewrite andb_false_r. cbn [turned]. exists a. split; [exact (ginv_off _ _ I)|]. left. exact AF.
      * rewrite R1. unfold bind. cbn iota beta. change (U_ERROR_PARAMS =? U_OK) with false. cbn iota. do 5 eexists. split; [reflexivity|]. split; [exact L1|]. split; [rewrite gb_connect; change (msg_blocks (Some q)) with (mb q); change (msg_blocks (Some p)) with (mb p); mowns_by W1|].
        cbn [g_connected connect andb turned]. exists a. split; [exact (ginv_off _ _ I)|]. left. exact AF.
  - destruct (fr_fin f).
    + destruct (fr_op f =? 0) eqn:OP0; [apply (STOP true); exact AF|].
      eapply (COMP m q a); [exact I|exact RN|exact AP| |unfold fits; rewrite Q4; exact Q5|exact W|eapply later_refl; eauto|rewrite Q1, Q2, Q4; reflexivity|exact AF].
      destruct a. cbn in AP. subst. reflexivity.
    + destruct (fr_op f =? 0) eqn:OP0; [apply (STOP true); exact AF|].
      do 5 eexists. split; [reflexivity|]. split; [eapply later_refl; eauto|]. split; [exact W|]. rewrite CON. cbn [andb turned]. eexists. split; [|split; [|exact AF]]; [exact (ginv_part _ _ _ I)|].
      cbn [prel put_part a_part ap_op ap_rsv ap_data]. cbn [orb] in OPK. unfold part_op, fits. rewrite Q4. apply orb_true_iff in OPK. rewrite !Z.eqb_eq in OPK. rewrite Q3. auto 10.
Qed.
Lemma x_frame_ok : forall E m g a prev f ids, ginv g a -> a_runs a = true -> prel prev (a_part a) -> frame_memory f (m_new m) -> mowns m (msg_blocks prev ++ gb g ++ ids) ->
  exists m' g' prev' go, x_frame E m g prev f = Ret (m', (g', (prev', go))) /\ later m m' /\ mowns m' (msg_blocks prev' ++ gb g' ++ ids) /\ turned E m a f g' prev' go.
Proof.
  intros E m g a prev f ids I RN P [MO1 MO2] W. unfold x_frame.
  destruct (x_read_ok m f _ W MO2) as (c & m1 & r & -> & L1 & W1 & K). unfold bind at 1. cbn iota beta.
  destruct K as [(-> & B & q & -> & FQ)|[(-> & -> & K)|(_ & _ & _ & K)]]; [| |congruence].
  - change (U_OK =? U_OK) with true. cbn iota.
    destruct (x_turn_ok E m1 g a prev q f ids I RN P B FQ W1) as (m2 & g2 & prev2 & rest & go0 & -> & L2 & W2 & T). unfold bind at 1. cbn iota beta.
    destruct (x_clear_msg_ok _ _ _ W2) as (m3 & -> & W3 & L3). unfold bind. do 4 eexists. split; [reflexivity|]. split; [chain|]. split; [exact W3|].
    unfold turned in *. destruct (g_connected g2 && go0); [exact T|]. destruct T as (a' & T1 & T2). exists a'. split; [exact T1|]. destruct T2 as [T2|(SH & T2)]; [now left|right]. split; [now apply L1|exact T2].
  - change (U_ERROR =? U_OK) with false. cbn iota. do 4 eexists. split; [reflexivity|]. split; [exact L1|]. split; [exact W1|]. cbn [turned]. exists a. split; [exact (ginv_off _ _ I)|].
    destruct K as [K|SH]; [left; now apply a_frame_broken|right; split; [exact SH|now left]].
Qed.

(** ** the end of a connection *)
Definition no_data (x : option frame) : Prop := match x with Some f => fr_data f = [] | None => True end.
Lemma awaited_whole : forall f r, broken f = false -> awaited (Some f :: r) = (fr_op f, fr_data f) :: (if fr_op f =? 8 then [] else awaited r).
Proof. intros f r B. cbn [awaited]. unfold broken in B. destruct (fr_cut f); [reflexivity|discriminate|]. destruct (fr_data f); [reflexivity|discriminate]. Qed.
Lemma awaited_broken : forall f r, broken f = true -> awaited (Some f :: r) = [].
Proof. intros f r B. cbn [awaited]. unfold broken in B. destruct (fr_cut f); [discriminate|reflexivity|]. destruct (fr_data f); [discriminate|reflexivity]. Qed.
Lemma ready_nth : forall n (l : list bool), ~ In false l -> nth n l true = true.
Proof. induction n as [|n IH]; intros [|[] l] H; cbn; try reflexivity. - exfalso. apply H. now left. - apply IH. intros X. apply H. now right. - exfalso. apply H. now left. Qed.
Lemma x_await_ok : forall l m g a ids, ginv g a -> mowns m (gb g ++ ids) -> (~ short m \/ Forall no_data l) ->
  exists m' g' k, x_await m g l = Ret (m', g') /\ later m m' /\ ginv g' (fold_left keep_incoming k a) /\ mowns m' (gb g' ++ ids) /\ (k = awaited l \/ (short m /\ exists n, k = firstn n (awaited l))).
Proof.
  induction l as [|[f|] l IH]; intros m g a ids I W MO; cbn [x_await].
  - exists m, g, []. split; [reflexivity|]. split; [eapply later_refl; eauto|]. split; [exact I|]. split; [exact W|]. now left.
  - assert (MO1 : fr_data f = [] \/ fr_cut f <> Whole \/ nth 1 (m_new m) true = false \/ nth 2 (m_new m) true = true).
    { destruct MO as [MO|MO]; [do 3 right; now apply ready_nth|left; inversion MO; assumption]. }
    destruct (x_read_ok m f _ W MO1) as (c & m1 & r & -> & L1 & W1 & K). unfold bind at 1. cbn iota beta. cbv zeta.
    destruct r as [q|].
    + destruct K as [(-> & B & q0 & EQ & FQ)|[(_ & EQ & _)|(_ & EQ & _)]]; [|discriminate EQ|discriminate EQ]. injection EQ as <-.
      destruct FQ as (Q1 & Q2 & Q3 & Q4 & Q5).
      assert (G : exists m2 g2, (if g_keep_in g then do i <- x_member (g_in g); do z <- x_push m1 i (Some q); Ret (fst (snd z), with_in g (snd (snd z))) else do m2 <- x_clear_msg m1 (Some q); Ret (m2, g)) = Ret (m2, g2) /\
          later m m2 /\ ginv g2 (keep_incoming a (fr_op f, fr_data f)) /\ mowns m2 (gb g2 ++ ids)).
      { rewrite (proj1 (ginv_keeps _ _ I)). unfold keep_incoming. destruct (a_keep_in a).
        - assert (MQ : mrel q (fr_op f, fr_data f)) by (split; [now rewrite Q1, Q4|exact Q5]).
          assert (W2 : mowns m1 (gb g ++ mb q ++ ids)) by (unfold mb; mowns_by W1).
          destruct (keep_in_ok _ _ _ _ _ _ I MQ W2) as (m3 & l' & R3 & I3 & W4 & L3).
          destruct (x_member (g_in g)) as [l0|] eqn:XM; [|discriminate R3]. unfold bind in R3 at 1. unfold bind at 1. rewrite R3. unfold bind. cbn [fst snd]. do 2 eexists. split; [reflexivity|]. split; [chain|]. auto.
        - destruct (x_clear_msg_ok _ _ _ W1) as (m3 & -> & W4 & L3). unfold bind. do 2 eexists. split; [reflexivity|]. split; [chain|]. auto. }
      destruct G as (m2 & g2 & R2 & L2 & I2 & W2). go R2. cbn [fst snd]. destruct q as [iq q]. cbn [snd] in Q1. rewrite Q1. change (U_OK =? U_OK) with true. cbn [negb orb]. unfold OP_CLOSE.
      rewrite (awaited_whole f l B). destruct (fr_op f =? 8).
      * exists m2, g2, [(fr_op f, fr_data f)]. split; [reflexivity|]. split; [exact L2|]. split; [exact I2|]. split; [exact W2|]. now left.
      * destruct (IH m2 g2 _ ids I2 W2) as (m3 & g3 & k & -> & L3 & I3 & W3 & K). { destruct MO as [MO|MO]; [left; intros X; apply MO; now apply L2|right; now inversion MO]. }
        exists m3, g3, ((fr_op f, fr_data f) :: k). split; [reflexivity|]. split; [chain|]. split; [exact I3|]. split; [exact W3|].
        destruct K as [-> |(SH & n & ->)]; [now left|right]. split; [now apply L2|]. exists (S n). reflexivity.
    + assert (NN : exists m2 g2, (if g_keep_in g then do i <- x_member (g_in g); do z <- x_push m1 i None; Ret (fst (snd z), with_in g (snd (snd z))) else do m2 <- x_clear_msg m1 None; Ret (m2, g)) = Ret (m2, g2) /\ m2 = m1 /\ g2 = g).
      { destruct I as (li & lo & ex & es & -> & Li & _). cbn [g_keep_in g_in x_member]. destruct (a_keep_in a).
        - unfold bind at 1. unfold x_push. rewrite orb_true_r. unfold bind. cbn [fst snd]. do 2 eexists. split; [reflexivity|]. split; reflexivity.
        - do 2 eexists. split; [reflexivity|]. split; reflexivity. }
      destruct NN as (m2 & g2 & R2 & -> & ->). go R2. exists m1, g, []. split; [reflexivity|]. split; [exact L1|]. split; [exact I|]. split; [exact W1|].
      destruct K as [(_ & _ & q & EQ & _)|[(_ & _ & [B|SH])|(_ & _ & SH & _)]]; [discriminate EQ| | |].
      * left. now rewrite awaited_broken.
      * right. split; [exact SH|]. now exists O.
      * right. split; [exact SH|]. now exists O.
  - apply IH; [exact I|exact W|]. destruct MO as [MO|MO]; [now left|right; now inversion MO].
Qed.
Lemma bind_ret : forall A B (e : outcome A) (k : A -> outcome B) y, bind e k = Ret y -> exists x, e = Ret x /\ k x = Ret y.
Proof. intros A B [x|u] k y H; [eauto|discriminate]. Qed.
Lemma x_free_new : forall m p m', x_free m p = Ret m' -> m_new m' = m_new m.
Proof. intros m [i|] m' H; cbn [x_free] in H; [|injection H as <-; reflexivity]. apply bind_ret in H as (h & _ & H). injection H as <-. reflexivity. Qed.
Lemma x_realloc_new : forall m p r m', x_realloc m p = Ret (r, m') -> m_new m' = m_new m.
Proof.
  intros m p r m' H. unfold x_realloc in H. destruct (next_answer (m_grow m)) as [[] z]; apply bind_ret in H as (h & _ & H); injection H as <- <-; reflexivity.
Qed.
Lemma x_clear_new : forall m q m', x_clear_msg m q = Ret m' -> m_new m' = m_new m.
Proof.
  intros m [x|] m' H; cbn [x_clear_msg] in H; [|injection H as <-; reflexivity]. apply bind_ret in H as (y & _ & H). apply bind_ret in H as (m1 & H1 & H). rewrite (x_free_new _ _ _ H). eapply x_free_new; eauto.
Qed.
Lemma x_push_new : forall m l q c m' l', x_push m l q = Ret (c, (m', l')) -> m_new m' = m_new m.
Proof.
  intros m l q c m' l' H. unfold x_push in H. destruct (is_null l || is_null q); [injection H as _ <- _; reflexivity|]. apply bind_ret in H as (y & _ & H). apply bind_ret in H as ([r m1] & H1 & H).
  apply x_realloc_new in H1. cbv zeta in H. destruct r as [i|]; [apply bind_ret in H as (z & _ & H)|]; injection H as _ <- _; exact H1.
Qed.
(** the allocations of a close message *)
Lemma close_new : forall m g m' g', x_send_managed m g OP_CLOSE 0 [] 0 = Ret (U_OK, (m', g')) -> m_new m' = skipn 2 (m_new m).
Proof.
  intros m g m' g' H. unfold x_send_managed in H. apply bind_ret in H as ([m1 r] & H1 & H). cbn [fst snd] in H.
  unfold x_build in H1. change ((OP_CLOSE =? OP_TEXT) || (OP_CLOSE =? OP_BINARY) || (OP_CLOSE =? OP_CLOSE) || (OP_CLOSE =? OP_PING) || (OP_CLOSE =? OP_PONG)) with true in H1. cbn iota in H1.
  destruct (x_malloc m) as [p m2] eqn:E1. destruct (malloc_tl _ _ _ E1) as [T1 _]. destruct p as [i|].
  2:{ injection H1 as <- <-. discriminate H. }
  change (zlen [] =? 0) with true in *. cbn iota in H1. injection H1 as <- <-. cbn iota in H. apply bind_ret in H as ([c [m3 q1]] & H2 & H). cbn iota beta in H.
  assert (T3 : m_new m3 = tl (m_new m2)).
  { destruct (x_malloc m2) as [p m4] eqn:E2. destruct (malloc_tl _ _ _ E2) as [T2 _]. destruct p as [j|]; [apply bind_ret in H2 as (m5 & H3 & H2); apply x_free_new in H3|]; injection H2 as _ <- _; congruence. }
  assert (T4 : m_new m' = m_new m3).
  { destruct (g_keep_out g).
    - apply bind_ret in H as (l & _ & H). apply bind_ret in H as ([z1 [z2 z3]] & H3 & H). injection H as _ <- _. cbn [fst snd]. eapply x_push_new; eauto.
    - apply bind_ret in H as (m5 & H3 & H). injection H as _ <- _. eapply x_clear_new; eauto. }
  rewrite T4, T3, T1. destruct (m_new m) as [|x [|y z]]; reflexivity.
Qed.
Lemma x_close_ok : forall m g a l ids, ginv g a -> a_runs a = true -> mowns m (gb g ++ ids) -> (~ In false (skipn 2 (m_new m)) \/ Forall no_data l) ->
  exists c m' g' a', x_close m g l = Ret (c, (m', g')) /\ later m m' /\ ginv g' (put_runs a' false) /\ mowns m' (gb g' ++ ids) /\
    (a' = a_close a l \/ (short m /\ (a' = a \/ exists n, a' = fold_left keep_incoming (firstn n (awaited (firstn 11 l))) (keep_outcoming a (8, []))))).
Proof.
  intros m g a l ids I RN W MO. unfold x_close. rewrite (ginv_connected _ _ I), RN.
  destruct (x_send_managed_ok m g a OP_CLOSE 0 [] 0 _ I (Z.le_refl 0) W) as (c & m1 & g1 & a1 & R & L1 & I1 & W1 & K). pose proof R as R0. rewrite R. unfold bind at 1. cbn iota beta.
  destruct K as [(-> & _ & ->)|[(-> & -> & [SE|SH])|(_ & _ & _ & ND & _)]]; [|discriminate SE| |now elim ND].
  - change (U_OK =? U_OK) with true. cbn iota. change (S MAX_CLOSE_TRY) with 11%nat.
    destruct (x_await_ok (firstn 11 l) m1 g1 _ ids I1 W1) as (m2 & g2 & k & -> & L2 & I2 & W2 & K).
    { destruct MO as [MO|MO]; [left; unfold short; rewrite (close_new _ _ _ _ R0); exact MO|right]. apply Forall_forall. intros x X. rewrite Forall_forall in MO. apply MO.
      rewrite <- (firstn_skipn 11 l). apply in_or_app. now left. }
    unfold bind. cbn [fst snd]. do 4 eexists. split; [reflexivity|]. split; [chain|]. split; [exact (ginv_off _ _ I2)|]. split; [exact W2|].
    destruct K as [-> |(SH & n & ->)]; [now left|right]. split; [now apply L1|]. right. exists n. reflexivity.
  - change (U_ERROR =? U_OK) with false. cbn iota. unfold bind. cbn [fst snd]. exists U_OK, m1, (connect g1 false), a. split; [reflexivity|]. split; [exact L1|]. split; [exact (ginv_off _ _ I1)|]. split; [exact W1|]. right. auto.
Qed.
