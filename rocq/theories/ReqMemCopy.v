(** Proofs about the memory of requests (C98): new requests and duplicates. *)
From Coq Require Import ZArith Bool List Lia.
From Verif Require Import Base BaseFacts UMapModel UMapProofs OwnModel OwnSpec OwnProofs MapMemModel MapMemSpec MapMemProofs MapMemPut MapMemRun MapMemSteps
  RespMemModel RespMemSpec RespMemProofs RespMemSteps ReqMemModel ReqMemSpec ReqMemProofs ReqMemCalls.
Import ListNotations.
Open Scope Z_scope.

(** ** the next allocations have memory *)
Definition ready (n : nat) (m : mem) : Prop := ~ In false (firstn n (m_new m)).
Lemma malloc_ready : forall n m ids, mowns m ids -> ready (Datatypes.S n) m -> exists i m', x_malloc m = (Some i, m') /\ later m m' /\ ready n m' /\ mowns m' (i :: ids).
Proof.
  intros n m ids O R. destruct (x_malloc_ok _ _ O) as (p & m' & E & L & [(i & -> & O1)|(-> & _ & _)]).
  - exists i, m'. split; [exact E|]. split; [exact L|]. split; [|exact O1]. unfold ready in *. rewrite (malloc_left _ _ _ E).
    destruct (m_new m) as [|b z]; cbn [firstn tl] in *; [now rewrite firstn_nil|]. intros X. apply R. now right.
  - exfalso. unfold x_malloc in E. unfold ready in R. destruct (m_new m) as [|[] z]; cbn in E; try discriminate. apply R. now left.
Qed.
Lemma init_ready : forall n m ids, mowns m ids -> ready (3 + n) m -> exists m' ik iv il, x_init m = Ret (U_OK, (m', mkf ik iv il [])) /\ later m m' /\ ready n m' /\ mowns m' (fb ik iv il [] ++ ids).
Proof.
  intros n m ids O R. unfold x_init.
  destruct (malloc_ready _ _ _ O R) as (k & m1 & -> & L1 & R1 & O1).
  destruct (malloc_ready _ _ _ O1 R1) as (v & m2 & -> & L2 & R2 & O2).
  destruct (malloc_ready _ _ _ O2 R2) as (l & m3 & -> & L3 & R3 & O3).
  exists m3, k, v, l. split; [reflexivity|]. split; [chain|]. split; [exact R3|]. unfold fb. cbn [flat_map app]. mowns_by O3.
Qed.
Lemma init_maps_ready : forall ps n m ids, mowns m (ps ++ ids) -> ready (3 * length ps + n) m ->
  exists m' fs, x_init_maps m ps = Ret (m', map (fun x => Some (Some x)) fs) /\ later m m' /\ ready n m' /\ mowns m' (mb fs ++ ids) /\
    length fs = length ps /\ Forall (fun x => exists ik iv il, snd x = mkf ik iv il []) fs.
Proof.
  induction ps as [|p ps IH]; intros n m ids O R; cbn [x_init_maps].
  - exists m, []. split; [reflexivity|]. split; [eapply later_refl; eauto|]. split; [exact R|]. split; [exact O|]. split; [reflexivity|constructor].
  - cbn [length] in R. replace (3 * Datatypes.S (length ps) + n)%nat with (3 + (3 * length ps + n))%nat in R by lia.
    destruct (init_ready _ _ _ O R) as (m1 & ik & iv & il & -> & L1 & R1 & O1). unfold bind at 1. cbn [fst snd].
    assert (O2 : mowns m1 (ps ++ (p :: fb ik iv il [] ++ ids))) by mowns_by O1.
    destruct (IH n m1 _ O2 R1) as (m2 & fs & -> & L2 & R2 & O3 & LF & FF). unfold bind at 1. cbn [fst snd].
    exists m2, ((p, mkf ik iv il []) :: fs). split; [reflexivity|]. split; [chain|]. split; [exact R2|]. split.
    { eapply mowns_ext; [exact O3|]. intros x. unfold mb. cbn [flat_map]. repeat rewrite cnt_app. rewrite blocks_mkf. repeat rewrite ?cnt_app, ?cnt_cons. lia. }
    split; [cbn [length]; lia|]. constructor; [|exact FF]. cbn [snd]. eauto.
Qed.
Definition none11 : list (ptr str) := repeat None 11.
Lemma init_req_ok : forall n m ids, mowns m ids -> ready (16 + n) m ->
  exists m' fs, x_init_req m raw_req = Ret (U_OK, (m', mkq none11 None fs None 0 None)) /\ later m m' /\ ready n m' /\ mowns m' (mb fs ++ ids) /\
    length fs = 4%nat /\ Forall (fun x => exists ik iv il, snd x = mkf ik iv il []) fs.
Proof.
  intros n m ids O R. unfold x_init_req.
  destruct (malloc_ready _ _ _ O R) as (i1 & m1 & -> & L1 & R1 & O1).
  destruct (malloc_ready _ _ _ O1 R1) as (i2 & m2 & -> & L2 & R2 & O2).
  destruct (malloc_ready _ _ _ O2 R2) as (i3 & m3 & -> & L3 & R3 & O3).
  destruct (malloc_ready _ _ _ O3 R3) as (i4 & m4 & -> & L4 & R4 & O4).
  destruct (init_maps_ready [i1; i2; i3; i4] n m4 ids) as (m5 & fs & -> & L5 & R5 & O5 & LF & FF); [mowns_by O4|exact R4|].
  unfold bind at 1. cbn [fst snd]. exists m5, fs. split; [reflexivity|]. split; [chain|]. split; [exact R5|]. split; [exact O5|]. split; [exact LF|exact FF].
Qed.
Lemma fresh_fit : forall dups N fs, 0 <= N -> length fs = 4%nat -> Forall (fun x : nat * fmap => exists ik iv il, snd x = mkf ik iv il []) fs -> qfit dups N none11 None fs None 0 None new_req.
Proof.
  intros dups N fs N0 LF FF. constructor; try reflexivity; [exact LF| |split; reflexivity].
  destruct fs as [|x0 [|x1 [|x2 [|x3 [|x4 fs]]]]]; try discriminate LF. cbn [new_req aq_maps repeat].
  assert (G : forall x : nat * fmap, (exists ik iv il, snd x = mkf ik iv il []) -> mrel N x []) by (intros x (ik & iv & il & E); exists ik, iv, il, []; split; [exact E|split; constructor]).
  inversion FF as [|? ? A0 F1]; subst. inversion F1 as [|? ? A1 F2]; subst. inversion F2 as [|? ? A2 F3]; subst. inversion F3 as [|? ? A3 F4]; subst.
  repeat constructor; auto.
Qed.
Lemma fresh_sound : forall fs : list (nat * fmap), Forall (fun x => exists ik iv il, snd x = mkf ik iv il []) fs -> Forall (fun x => sound (snd x)) fs.
Proof. intros fs F. eapply Forall_impl; [|exact F]. intros x (ik & iv & il & E). left. eauto. Qed.

(** ** copying texts *)
Definition copied (m : mem) (p q : ptr str) : Prop := ptext q = ptext p \/ (q = None /\ short m /\ p <> None).
Lemma copied_later : forall m m' p q, later m m' -> copied m' p q -> copied m p q.
Proof. intros m m' p q L [E|(E & S1 & N)]; [now left|]. right. split; auto. split; auto. now apply L. Qed.
Lemma nth_set_other : forall A (l : list A) i k x, i <> k -> nth_error (set_nth l i x) k = nth_error l k.
Proof. intros A l. induction l as [|y l IH]; intros [|i] [|k] x E; try reflexivity; try contradiction. cbn [set_nth nth_error]. apply IH. congruence. Qed.
Lemma copy_texts_ok : forall ss ks m ds ids, mowns m (tb ds ++ ids) -> incl (tb ss) ids -> length ds = length ss -> NoDup ks ->
  Forall (fun k => nth_error ds k = Some None) ks ->
  exists m' ds', x_copy_texts m (map Some ds) (map Some ss) ks = Ret (m', map Some ds') /\ later m m' /\ mowns m' (tb ds' ++ ids) /\ length ds' = length ds /\
    (forall k, ~ In k ks -> nth_error ds' k = nth_error ds k) /\
    (forall k, In k ks -> exists p q, nth_error ss k = Some p /\ nth_error ds' k = Some q /\ copied m p q).
Proof.
  intros ss. induction ks as [|k ks IH]; intros m ds ids O C LD ND F; cbn [x_copy_texts].
  - exists m, ds. split; [reflexivity|]. split; [eapply later_refl; eauto|]. split; [exact O|]. split; [reflexivity|]. split; [auto|]. intros k [].
  - inversion F as [|? ? FK FS]; subst. inversion ND as [|? ? NK NS]; subst.
    assert (KL : (k < length ss)%nat) by (rewrite <- LD; apply nth_error_Some; rewrite FK; discriminate).
    pose proof (x_at_nth _ ss k) as XA. destruct (nth_error ss k) as [p|] eqn:EN; [|apply nth_error_None in EN; lia]. rewrite XA. unfold bind at 1.
    assert (CP : incl (ptr_blocks p) (tb ds ++ ids)).
    { intros x X. apply in_or_app. right. apply C. unfold tb. apply in_flat_map. exists p. split; [eapply nth_error_In; eauto|exact X]. }
    destruct (x_dup_ok m p _ O CP) as (q & m1 & -> & L1 & O1 & T). unfold bind at 1. cbn [fst snd].
    assert (E : set_nth (map Some ds) k (Some q) = map Some (set_nth ds k q)) by apply (set_nth_map _ _ Some).
    match goal with |- context [x_copy_texts m1 ?d _ _] => replace d with (map Some (set_nth ds k q)) by (symmetry; exact E) end.
    assert (O2 : mowns m1 (tb (set_nth ds k q) ++ ids)).
    { eapply mowns_ext; [exact O1|]. intros x. pose proof (tb_set ds k q None x FK) as TB. cbn [ptr_blocks] in TB. rewrite cnt_nil in TB. repeat rewrite cnt_app. lia. }
    destruct (IH m1 (set_nth ds k q) ids O2 C) as (m2 & ds' & R & L2 & O3 & LD' & OTH & COP); auto.
    { now rewrite set_nth_length. }
    { rewrite Forall_forall in FS |- *. intros j J. rewrite nth_set_other; [now apply FS|]. intros ->. contradiction. }
    exists m2, ds'. split; [exact R|]. split; [chain|]. split; [exact O3|]. split; [now rewrite LD', set_nth_length|]. split.
    + intros j J. rewrite OTH by (intros X; apply J; now right). apply nth_set_other. intros ->. apply J. now left.
    + intros j [->|J].
      * exists p, q. split; [exact EN|]. split; [|exact T]. rewrite OTH by exact NK. eapply set_nth_some; eauto.
      * destruct (COP j J) as (p' & q' & A & B & CC). exists p', q'. split; [exact A|]. split; [exact B|]. eapply copied_later; eauto.
Qed.
Lemma copied_all : forall m ss ds, length ds = length ss -> (forall k, (k < length ss)%nat -> exists p q, nth_error ss k = Some p /\ nth_error ds k = Some q /\ copied m p q) ->
  map ptext ds = map ptext ss \/ (short m /\ some_missing (map ptext ss) (map ptext ds)).
Proof.
  intros m. induction ss as [|s ss IH]; intros [|d ds] L H; try discriminate; [now left|]. cbn [length] in *.
  destruct (H 0%nat) as (p & q & A & B & C); [lia|]. cbn in A, B. injection A as <-. injection B as <-.
  destruct (IH ds) as [E|(S1 & MS)]; [lia|intros k K; apply (H (Datatypes.S k)); lia| |].
  - destruct C as [C|(-> & S1 & _)]; [left; cbn [map]; congruence|right]. split; [exact S1|]. cbn [map]. constructor; [now right|]. rewrite E.
    clear. unfold some_missing. induction (map ptext ss); constructor; auto.
  - right. split; [exact S1|]. cbn [map]. constructor; [|exact MS]. destruct C as [C|(-> & _ & _)]; [left; exact C|right; reflexivity].
Qed.

(** ** copying maps *)
Lemma copy_map_ok : forall N m p f q g a ids, sound f -> mrel N (q, g) a -> 0 <= N -> N + 2 < two64 -> mowns m (map_blocks (p, f) ++ ids) -> incl (map_blocks (q, g)) ids ->
  exists c m' f', x_copy_map m (Some (p, f)) (Some (q, g)) = Ret (c, (m', Some (p, f'))) /\ later m m' /\ mowns m' (map_blocks (p, f') ++ ids) /\ sound f' /\
    ((c = U_OK /\ mrel (N + 1) (p, f') (a_copy_into a [])) \/ (c <> U_OK /\ short m)).
Proof.
  intros N m p f q g a ids SF (sk & sv & sl & ses & EG & FR & ND) N0 NT O C. cbn [snd] in EG. subst g. unfold x_copy_map.
  rewrite (x_deref_ok _ m p _ _ O) by (now left). unfold bind at 1. cbn [fst snd].
  destruct (clean_sound m p f ids SF O) as (m1 & f1 & -> & O1 & L1). unfold bind at 1. cbn [fst].
  destruct (x_init_ok _ _ O1) as (c & m2 & f2 & -> & L2 & CASE). unfold bind at 1.
  destruct CASE as [(-> & ik & iv & il & -> & O2)|(-> & S2 & -> & O2)].
  - change (U_OK =? U_OK) with true. cbn iota.
    assert (CS : incl (q :: fb sk sv sl ses) ids).
    { intros x X. apply C. assert (H : (0 < cnt (q :: fb sk sv sl ses) x)%nat) by (unfold cnt; now apply count_occ_In). rewrite <- blocks_mkf in H. unfold cnt in H. now apply count_occ_In in H. }
    rewrite (x_deref_ok _ m2 q _ _ O2) by (apply in_or_app; right; right; apply CS; now left). unfold bind at 1. cbn [snd].
    destruct (x_copy_into_ok N m2 sk sv sl ses a ik iv il [] [] (p :: ids) O2) as (c & m3 & ik1 & iv1 & il1 & es1 & d1 & -> & L3 & O3 & F3 & ND3 & CASE); auto; try lia.
    { intros x X. right. apply CS. now right. } { constructor. }
    unfold bind at 1. exists (if c =? U_OK then U_OK else U_ERROR), m3, (mkf ik1 iv1 il1 es1). split; [reflexivity|]. split; [chain|].
    split; [eapply mowns_ext; [exact O3|]; intros x; rewrite !cnt_app, blocks_mkf; repeat rewrite ?cnt_app, ?cnt_cons; lia|]. split; [left; eauto|].
    destruct CASE as [(-> & ->)|(-> & S3 & _)].
    + left. split; [reflexivity|]. exists ik1, iv1, il1, es1. auto.
    + right. split; [discriminate|]. now apply L1, L2.
  - change (U_ERROR_MEMORY =? U_OK) with false. cbn iota. do 3 eexists. split; [reflexivity|]. split; [chain|]. split; [exact O2|]. split; [now right|].
    right. split; [discriminate|now apply L1].
Qed.
Lemma copy_maps_stop : forall ret m fs gs, ret <> U_OK -> x_copy_maps m ret fs gs = Ret (ret, (m, fs)).
Proof. intros ret m fs gs N. destruct fs; [reflexivity|]. destruct gs; [reflexivity|]. cbn [x_copy_maps]. apply Z.eqb_neq in N. now rewrite N. Qed.
Lemma copy_maps_ok : forall N gs a fs m ids, Forall (fun x => sound (snd x)) fs -> Forall2 (mrel N) gs a -> length fs = length gs -> 0 <= N -> N + 2 < two64 ->
  mowns m (mb fs ++ ids) -> incl (mb gs) ids ->
  exists c m' fs', x_copy_maps m U_OK (map (fun x => Some (Some x)) fs) (map (fun x => Some (Some x)) gs) = Ret (c, (m', map (fun x => Some (Some x)) fs')) /\ later m m' /\
    mowns m' (mb fs' ++ ids) /\ Forall (fun x => sound (snd x)) fs' /\ length fs' = length fs /\
    ((c = U_OK /\ Forall2 (mrel (N + 1)) fs' (map (fun h => a_copy_into h []) a)) \/ (c <> U_OK /\ short m)).
Proof.
  intros N gs a fs m ids SF FG. revert fs m ids SF. induction FG as [|[q g] a gs l R FG IH]; intros [|[p f] fs] m ids SF LF N0 NT O C; try discriminate LF.
  - exists U_OK, m, []. split; [reflexivity|]. split; [eapply later_refl; eauto|]. split; [exact O|]. split; [constructor|]. split; [reflexivity|]. left. split; [reflexivity|constructor].
  - cbn [map x_copy_maps x_member]. change (U_OK =? U_OK) with true. cbn iota. unfold bind at 1. unfold bind at 1. inversion SF as [|? ? S0 SS]; subst.
    assert (O0 : mowns m (map_blocks (p, f) ++ (mb fs ++ ids))) by (unfold mb in O; cbn [flat_map] in O; rewrite <- app_assoc in O; exact O).
    assert (C0 : incl (map_blocks (q, g)) (mb fs ++ ids)) by (intros x X; apply in_or_app; right; apply C; unfold mb; cbn [flat_map]; apply in_or_app; auto).
    destruct (copy_map_ok N m p f q g a _ S0 R N0 NT O0 C0) as (c & m1 & f1 & -> & L1 & O1 & S1 & CASE). unfold bind at 1. cbn [fst snd].
    destruct CASE as [(-> & R1)|(NC & SH)].
    + assert (O2 : mowns m1 (mb fs ++ (map_blocks (p, f1) ++ ids))) by mowns_by O1.
      destruct (IH fs m1 (map_blocks (p, f1) ++ ids) SS) as (c & m2 & fs' & -> & L2 & O3 & SS' & LF' & CASE); auto.
      { intros x X. apply in_or_app. right. apply C. unfold mb. cbn [flat_map]. apply in_or_app. auto. }
      unfold bind at 1. cbn [fst snd]. exists c, m2, ((p, f1) :: fs'). split; [reflexivity|]. split; [chain|].
      split; [eapply mowns_ext; [exact O3|]; intros x; unfold mb; cbn [flat_map]; repeat rewrite cnt_app; lia|].
      split; [constructor; auto|]. split; [cbn [length]; lia|]. destruct CASE as [(-> & F)|(NC & SH)]; [left|right].
      * split; [reflexivity|]. constructor; auto.
      * split; [exact NC|now apply L1].
    + rewrite copy_maps_stop by exact NC. unfold bind at 1. cbn [fst snd]. exists c, m1, ((p, f1) :: fs). split; [reflexivity|]. split; [exact L1|].
      split; [eapply mowns_ext; [exact O1|]; intros x; unfold mb; cbn [flat_map]; repeat rewrite cnt_app; lia|].
      split; [constructor; auto|]. split; [reflexivity|]. right. auto.
Qed.

(** ** copying the certificate *)
Lemma export_ok : forall m i pem ids, mowns m ids -> In i ids -> exists m' t, x_export_cert m (Some (i, Some pem)) = Ret (m', t) /\ later m m' /\ mowns m' (ptr_blocks t ++ ids) /\
  (ptext t = Some pem \/ (t = None /\ short m)).
Proof.
  intros m i pem ids O I. cbn [x_export_cert]. rewrite (x_deref_ok _ m i _ _ O I). unfold bind at 1. cbn [snd].
  destruct (x_strdup_ok m (Some pem) ids O) as (g & m1 & -> & L1 & O1 & T1). destruct g as [[j s]|].
  2:{ do 2 eexists. split; [reflexivity|]. split; [exact L1|]. split; [exact O1|]. right. split; auto. destruct T1 as [T1|(_ & S1 & _)]; [discriminate|exact S1]. }
  destruct (x_dup_ok m1 (Some (j, s)) _ O1) as (t & m2 & -> & L2 & O2 & T2); [intros x X; apply in_or_app; auto|]. unfold bind at 1. cbn [fst snd].
  assert (O3 : mowns m2 (ptr_blocks (Some (j, s)) ++ (ptr_blocks t ++ ids))) by mowns_by O2.
  destruct (x_free_ptr _ _ _ _ O3) as (m3 & -> & O4 & L3). unfold bind at 1. do 2 eexists. split; [reflexivity|]. split; [chain|]. split; [exact O4|].
  destruct T1 as [T1|(X & _)]; [|discriminate]. destruct T2 as [T2|(-> & S2 & _)]; [left; rewrite T2; exact T1|right]. split; auto. now apply L1.
Qed.
Lemma copy_cert_ok : forall m s ids, mowns m ids -> incl (ptr_blocks s) ids ->
  exists c m' n gone, x_copy_cert m None s = Ret (c, (m', n)) /\ later m m' /\ mowns m' (ptr_blocks n ++ gone ++ ids) /\
    ((c = U_OK /\ pval n = pval s /\ pval s <> Some None /\ length gone = lost_cert (pval s)) \/
     (c <> U_OK /\ (length gone <= lost_cert (pval s))%nat /\ (short m \/ (pval s = Some None /\ length gone = 0%nat)))).
Proof.
  intros m [[i t]|] ids O C; cbn [x_copy_cert].
  2:{ exists U_OK, m, None, []. split; [reflexivity|]. split; [eapply later_refl; eauto|]. split; [exact O|]. left. split; [reflexivity|]. split; [reflexivity|]. split; [discriminate|reflexivity]. }
  assert (I : In i ids) by (apply C; now left).
  destruct (x_malloc_ok _ _ O) as (p & m1 & -> & L1 & [(j & -> & O1)|(-> & S1 & O1)]).
  2:{ exists U_ERROR, m1, None, []. split; [reflexivity|]. split; [exact L1|]. split; [exact O1|]. right. split; [discriminate|]. split; [cbn; lia|]. now left. }
  destruct t as [pem|].
  - destruct (export_ok m1 i pem _ O1) as (m2 & t & -> & L2 & O2 & T); [now right|]. unfold bind at 1. cbn [fst snd].
    destruct t as [[k s]|].
    + destruct T as [T|(X & _)]; [|discriminate]. cbn in T. injection T as ->.
      rewrite (x_deref_ok _ m2 k _ _ O2) by (now left). unfold bind at 2. unfold bind at 1. cbn [snd x_import_cert].
      destruct (x_malloc_ok _ _ O2) as (p & m3 & -> & L3 & [(l & -> & O3)|(-> & S3 & O3)]).
      * assert (O4 : mowns m3 (ptr_blocks (Some (k, pem)) ++ (l :: [j] ++ ids))) by (eapply mowns_ext; [exact O3|]; intros x; cbn [ptr_blocks app]; repeat rewrite ?cnt_app, ?cnt_cons, ?cnt_nil; lia).
        destruct (x_free_ptr _ _ _ _ O4) as (m4 & -> & O5 & L4). unfold bind at 1.
        exists U_OK, m4, (Some (l, Some pem)), [j]. split; [reflexivity|]. split; [chain|]. split; [exact O5|]. left. split; [reflexivity|]. split; [reflexivity|]. split; [discriminate|reflexivity].
      * assert (O4 : mowns m3 (ptr_blocks (Some (k, pem)) ++ ([j] ++ ids))) by (eapply mowns_ext; [exact O3|]; intros x; cbn [ptr_blocks app]; repeat rewrite ?cnt_app, ?cnt_cons, ?cnt_nil; lia).
        destruct (x_free_ptr _ _ _ _ O4) as (m4 & -> & O5 & L4). unfold bind at 1.
        exists U_ERROR, m4, None, [j]. split; [reflexivity|]. split; [chain|]. split; [exact O5|]. right. split; [discriminate|]. split; [cbn; lia|]. left. now apply L1, L2.
    + unfold bind at 1. cbn [x_import_cert addr x_free]. unfold bind at 1.
      exists U_ERROR, m2, (Some (j, None)), []. split; [reflexivity|]. split; [chain|]. split; [exact O2|]. right. split; [discriminate|]. split; [cbn; lia|]. left.
      destruct T as [T|(_ & S2)]; [discriminate|now apply L1].
  - cbn [x_export_cert]. rewrite (x_deref_ok _ m1 i _ _ O1) by (now right). unfold bind at 2. cbn [snd]. unfold bind at 1. cbn [fst snd]. unfold bind at 1. cbn [x_import_cert addr x_free]. unfold bind at 1.
    exists U_ERROR, m1, (Some (j, None)), []. split; [reflexivity|]. split; [exact L1|]. split; [exact O1|]. right. split; [discriminate|]. split; [cbn; lia|]. right. auto.
Qed.

(** ** copying a request *)
Lemma incl_mkq : forall ts ad fs bd ln ct ids, incl (insides (mkq ts ad fs bd ln ct)) ids ->
  incl (tb ts) ids /\ incl (ptr_blocks ad) ids /\ incl (mb fs) ids /\ incl (ptr_blocks bd) ids /\ incl (ptr_blocks ct) ids.
Proof.
  intros ts ad fs bd ln ct ids C. rewrite insides_mkq in C. unfold qb in C. repeat split; intros x X; apply C; rewrite !in_app_iff; auto 6.
Qed.
Definition ks1 : list nat := [T_PROTOCOL; T_VERB; T_URL; T_PATH; T_PROXY; T_CA; T_USER; T_PASSWORD].
Definition ks2 : list nat := [T_CERT; T_KEY; T_KEY_PASSWORD].
Lemma ks_all : forall k, (k < 11)%nat -> (In k ks1 /\ ~ In k ks2) \/ (In k ks2 /\ ~ In k ks1).
Proof.
  intros k K. do 11 (destruct k as [|k]; [unfold ks1, ks2, T_PROTOCOL, T_VERB, T_URL, T_PATH, T_PROXY, T_CA, T_USER, T_PASSWORD, T_CERT, T_KEY, T_KEY_PASSWORD; cbn; first [left; split; [tauto|intros H; decompose [or] H; discriminate || assumption]|right; split; [tauto|intros H; decompose [or] H; discriminate || assumption]]|]). lia.
Qed.
Lemma copy_req_ok : forall N m s a fs ids, qinv true N s a -> 0 <= N -> N + 2 < two64 -> length fs = 4%nat -> Forall (fun x => sound (snd x)) fs ->
  mowns m (mb fs ++ ids) -> incl (insides s) ids ->
  exists c m' gone ts ad fs' bd ln ct, x_copy_req m (mkq none11 None fs None 0 None) s = Ret (c, (m', mkq ts ad fs' bd ln ct)) /\ later m m' /\
    mowns m' (qb ts ad fs' bd ct ++ gone ++ ids) /\ length ts = 11%nat /\ Forall (fun x => sound (snd x)) fs' /\
    ((c = U_OK /\ aq_cert a <> Some None /\ length gone = lost_cert (aq_cert a) /\
      exists txs, qfit true (N + 1) ts ad fs' bd ln ct (put_texts (duplicate_req a) txs) /\ (txs = aq_texts a \/ (short m /\ some_missing (aq_texts a) txs))) \/
     (c <> U_OK /\ (length gone <= lost_cert (aq_cert a))%nat /\ (short m \/ (aq_cert a = Some None /\ length gone = 0%nat)))).
Proof.
  intros N m s a fs ids I N0 NT LF SF O C. destruct I as (ss & sad & sfs & sbd & sln & sct & -> & F).
  apply incl_mkq in C as (CT & CA & CM & CB & CC). destruct F as [F1 F2 F3 F4 F5 F6 F7].
  unfold x_copy_req. unfold mkq at 1 2 3 4 5 6 7 8 9 10 11 12 13 14 15 16. cbn [rq_texts rq_addr rq_maps rq_body rq_len rq_cert x_member].
  fold ks1. fold ks2.
  (* the first texts *)
  destruct (copy_texts_ok ss ks1 m none11 (mb fs ++ ids)) as (m1 & ds1 & E1 & L1 & O1 & LD1 & OTH1 & COP1); auto.
  { intros x X. apply in_or_app. right. now apply CT. }
  { repeat constructor; cbn; intros H; decompose [or] H; try discriminate; assumption. }
  { repeat constructor. }
  rewrite E1. unfold bind at 1. unfold bind at 1. cbn [fst snd].
  (* the address *)
  assert (G : exists c2 m2 da, (match sad with None => Ret (U_OK, (m1, Some None)) | Some _ => match x_malloc m1 with (None, m2) => Ret (U_ERROR_MEMORY, (m2, Some None)) | (Some i, m2) => do y <- x_deref m2 sad; Ret (U_OK, (m2, Some (Some (i, snd y)))) end end)
      = Ret (c2, (m2, Some da)) /\ later m1 m2 /\ mowns m2 (mb fs ++ (ptr_blocks da ++ tb ds1 ++ ids)) /\ ((c2 = U_OK /\ pval da = pval sad) \/ (c2 <> U_OK /\ short m))).
  { destruct sad as [[j ab]|].
    - destruct (x_malloc_ok _ _ O1) as (p & m2 & -> & L2 & [(i & -> & O2)|(-> & S2 & O2)]).
      + rewrite (x_deref_ok _ m2 j _ _ O2). 2:{ right. do 2 (apply in_or_app; right). apply CA. now left. } unfold bind. cbn [snd].
        do 3 eexists. split; [reflexivity|]. split; [exact L2|]. split; [cbn [ptr_blocks app]; mowns_by O2|]. left. auto.
      + do 3 eexists. split; [reflexivity|]. split; [exact L2|]. split; [cbn [ptr_blocks app]; mowns_by O2|]. right. split; [discriminate|now apply L1].
    - do 3 eexists. split; [reflexivity|]. split; [eapply later_refl; eauto|]. split; [cbn [ptr_blocks app]; mowns_by O1|]. left. auto. }
  destruct G as (c2 & m2 & da & E2 & L2 & O2 & K2).
  match goal with |- context [bind (match sad with Some _ => ?u | None => ?w end) _] => replace (match sad with Some _ => u | None => w end) with (Ret (c2, (m2, Some da))) by (symmetry; exact E2) end.
  unfold bind at 1. cbn iota beta. clear E2.
  (* the maps *)
  assert (LL2 : later m m2) by chain.
  assert (G : exists c3 m3 fs', x_copy_maps m2 c2 (map (fun x => Some (Some x)) fs) (map (fun x => Some (Some x)) sfs) = Ret (c3, (m3, map (fun x => Some (Some x)) fs')) /\ later m2 m3 /\
      mowns m3 (mb fs' ++ (ptr_blocks da ++ tb ds1 ++ ids)) /\ Forall (fun x => sound (snd x)) fs' /\ length fs' = 4%nat /\
      ((c3 = U_OK /\ c2 = U_OK /\ Forall2 (mrel (N + 1)) fs' (map (fun h => a_copy_into h []) (aq_maps a))) \/ (c3 <> U_OK /\ short m))).
  { destruct K2 as [(-> & _)|(NC & SH)].
    - destruct (copy_maps_ok N sfs (aq_maps a) fs m2 (ptr_blocks da ++ tb ds1 ++ ids)) as (c3 & m3 & fs' & R & L3 & O3 & S3 & LF3 & K3); auto.
      { congruence. } { intros x X. do 2 (apply in_or_app; right). now apply CM. }
      exists c3, m3, fs'. split; [exact R|]. split; [exact L3|]. split; [exact O3|]. split; [exact S3|]. split; [congruence|].
      destruct K3 as [(-> & K3)|(NC & K3)]; [left; auto|right]. split; [exact NC|now apply LL2].
    - exists c2, m2, fs. split; [now apply copy_maps_stop|]. split; [eapply later_refl; eauto|]. split; [exact O2|]. split; [exact SF|]. split; [exact LF|]. right. auto. }
  destruct G as (c3 & m3 & fs' & E3 & L3 & O3 & S3 & LF3 & K3).
  match goal with |- context [x_copy_maps ?a1 ?b1 ?c1 ?d1] => replace (x_copy_maps a1 b1 c1 d1) with (Ret (c3, (m3, map (fun x : nat * fmap => Some (Some x)) fs'))) by (symmetry; exact E3) end.
  unfold bind at 1. cbn iota beta. clear E3.
  (* the body *)
  assert (LL3 : later m m3) by chain.
  assert (G : exists c4 m4 bd ln, (if c3 =? U_OK then do sl <- Ret sln; if sl =? 0 then Ret (c3, (m3, (Some (@None (nat * list Z)), Some 0))) else
       match x_malloc m3 with (None, m4) => Ret (U_ERROR_MEMORY, (m4, (Some None, Some sl))) | (Some i, m4) => do sb <- Ret sbd; do y <- x_deref m4 sb; if zlen (snd y) <? sl then UB OutOfBounds else Ret (U_OK, (m4, (Some (Some (i, zfirstn sl (snd y))), Some sl))) end
       else Ret (c3, (m3, (Some None, Some 0)))) = Ret (c4, (m4, (Some bd, Some ln))) /\ later m3 m4 /\ mowns m4 (ptr_blocks bd ++ mb fs' ++ ptr_blocks da ++ tb ds1 ++ ids) /\
      ((c4 = U_OK /\ c3 = U_OK /\ qbody true bd ln (nonempty (aq_body a))) \/ (c4 <> U_OK /\ short m))).
  { destruct K3 as [(-> & _ & K3)|(NC & SH)].
    2:{ apply Z.eqb_neq in NC. rewrite NC. exists c3, m3, None, 0. split; [reflexivity|]. split; [eapply later_refl; eauto|]. split; [exact O3|]. right. split; [now apply Z.eqb_neq|exact SH]. }
    change (U_OK =? U_OK) with true. cbn iota. unfold bind at 1. unfold qbody in F6. destruct (sln =? 0) eqn:Z0.
    - apply Z.eqb_eq in Z0. subst sln. exists U_OK, m3, None, 0. split; [reflexivity|]. split; [eapply later_refl; eauto|]. split; [exact O3|]. left. split; [reflexivity|]. split; [reflexivity|].
      split; [|reflexivity]. destruct sbd as [[j x]|]; destruct F6 as [B1 B2]; [rewrite B2|rewrite B1]; reflexivity.
    - apply Z.eqb_neq in Z0. destruct sbd as [[j x]|]; [|destruct F6 as [_ B2]; elim Z0; now apply B2]. destruct F6 as [B1 B2].
      destruct (x_malloc_ok _ _ O3) as (p & m4 & -> & L4 & [(i & -> & O4)|(-> & S4 & O4)]).
      + unfold bind at 1. rewrite (x_deref_ok _ m4 j _ _ O4). 2:{ right. do 3 (apply in_or_app; right). apply CB. now left. } unfold bind. cbn [snd].
        replace (zlen x <? sln) with false by (symmetry; apply Z.ltb_ge; lia).
        exists U_OK, m4, (Some (i, zfirstn sln x)), sln. split; [reflexivity|]. split; [exact L4|]. split; [exact O4|]. left. split; [reflexivity|]. split; [reflexivity|].
        assert (LZ : zlen (zfirstn sln x) = sln) by (unfold zlen, zfirstn in *; rewrite firstn_length; lia).
        cbn [qbody]. rewrite LZ. split; [lia|]. rewrite B2.
        replace (zfirstn sln (zfirstn sln x)) with (zfirstn sln x) by (unfold zfirstn; rewrite firstn_firstn, Nat.min_id; reflexivity).
        destruct (zfirstn sln x) as [|b y]; [unfold zlen in LZ; cbn in LZ; lia|reflexivity].
      + exists U_ERROR_MEMORY, m4, None, sln. split; [reflexivity|]. split; [exact L4|]. split; [exact O4|]. right. split; [discriminate|now apply LL3]. }
  destruct G as (c4 & m4 & bd & ln & E4 & L4 & O4 & K4).
  match goal with |- context [bind (if c3 =? U_OK then ?u else ?w) _] => replace (if c3 =? U_OK then u else w) with (Ret (c4, (m4, (Some bd, Some ln)))) by (symmetry; exact E4) end.
  unfold bind at 1. cbn iota beta. clear E4.
  (* the other texts *)
  assert (LL4 : later m m4) by chain.
  destruct (copy_texts_ok ss ks2 m4 ds1 (ptr_blocks bd ++ mb fs' ++ ptr_blocks da ++ ids)) as (m5 & ds2 & E5 & L5 & O5 & LD2 & OTH2 & COP2).
  { mowns_by O4. }
  { intros x X. do 3 (apply in_or_app; right). now apply CT. }
  { rewrite LD1. symmetry. exact F1. }
  { repeat constructor; cbn; intros H; decompose [or] H; try discriminate; assumption. }
  { repeat constructor; rewrite OTH1; try reflexivity; cbn; intros H; decompose [or] H; try discriminate; assumption. }
  rewrite E5. unfold bind at 1. cbn [fst snd]. clear E1 E5.
  assert (LL5 : later m m5) by chain.
  assert (TX : map ptext ds2 = aq_texts a \/ (short m /\ some_missing (aq_texts a) (map ptext ds2))).
  { rewrite <- F3. apply copied_all; [rewrite LD2, LD1, F1; reflexivity|]. intros k K. rewrite F1 in K. destruct (ks_all k K) as [[A B]|[A B]].
    - destruct (COP1 k A) as (p & q & P & Q & R). exists p, q. split; [exact P|]. split; [rewrite OTH2; auto|exact R].
    - destruct (COP2 k A) as (p & q & P & Q & R). exists p, q. split; [exact P|]. split; [exact Q|]. eapply copied_later; [|exact R]. exact LL4. }
  (* the certificate *)
  assert (G : exists c6 m6 ct gone, (if c4 =? U_OK then do sc <- Ret sct; do dc <- Ret None; do y <- x_copy_cert m5 dc sc; Ret (fst y, (fst (snd y), Some (snd (snd y)))) else Ret (c4, (m5, Some None))) = Ret (c6, (m6, Some ct)) /\ later m5 m6 /\
     mowns m6 (ptr_blocks ct ++ gone ++ (tb ds2 ++ ptr_blocks bd ++ mb fs' ++ ptr_blocks da ++ ids)) /\
     ((c6 = U_OK /\ c4 = U_OK /\ pval ct = aq_cert a /\ aq_cert a <> Some None /\ length gone = lost_cert (aq_cert a)) \/
      (c6 <> U_OK /\ (length gone <= lost_cert (aq_cert a))%nat /\ (short m \/ (aq_cert a = Some None /\ length gone = 0%nat))))).
  { destruct K4 as [(-> & _)|(NC & SH)].
    - change (U_OK =? U_OK) with true. cbn iota. unfold bind at 1. unfold bind at 1.
      destruct (copy_cert_ok m5 sct _ O5) as (c6 & m6 & ct & gone & -> & L6 & O6 & K6). { intros x X. do 4 (apply in_or_app; right). now apply CC. }
      unfold bind. cbn [fst snd]. exists c6, m6, ct, gone. split; [reflexivity|]. split; [exact L6|]. split; [exact O6|]. rewrite <- F7.
      destruct K6 as [(-> & A & B & D)|(NC & A & [B|B])]; [left|right|right].
      + split; [reflexivity|]. split; [reflexivity|]. auto.
      + split; [exact NC|]. split; [exact A|]. left. now apply LL5.
      + auto.
    - apply Z.eqb_neq in NC. rewrite NC. exists c4, m5, None, []. split; [reflexivity|]. split; [eapply later_refl; eauto|]. split; [exact O5|]. right. split; [now apply Z.eqb_neq|]. split; [cbn; lia|now left]. }
  destruct G as (c6 & m6 & ct & gone & E6 & L6 & O6 & K6).
  match goal with |- context [bind (if c4 =? U_OK then ?u else ?w) _] => replace (if c4 =? U_OK then u else w) with (Ret (c6, (m6, Some ct))) by (symmetry; exact E6) end.
  unfold bind at 1. cbn iota beta. clear E6.
  exists c6, m6, gone, ds2, da, fs', bd, ln, ct. split; [reflexivity|]. split; [chain|]. split; [unfold qb; mowns_by O6|]. split; [rewrite LD2, LD1; reflexivity|]. split; [exact S3|].
  destruct K6 as [(-> & -> & A & B & D)|K6]; [left|right; exact K6]. split; [reflexivity|]. split; [exact B|]. split; [exact D|].
  exists (map ptext ds2). split; [|exact TX].
  destruct K4 as [(_ & -> & K4)|(X & _)]; [|now elim X]. destruct K3 as [(_ & -> & K3)|(X & _)]; [|now elim X]. destruct K2 as [(_ & K2)|(X & _)]; [|now elim X].
  constructor; cbn [put_texts duplicate_req aq_texts aq_addr aq_maps aq_body aq_cert]; auto; [rewrite LD2, LD1; reflexivity|congruence].
Qed.
