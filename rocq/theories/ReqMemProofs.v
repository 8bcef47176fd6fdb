(** Proofs about the memory of requests (C98). *)
From Coq Require Import ZArith Bool List Lia.
From Verif Require Import Base BaseFacts UMapModel UMapProofs OwnModel OwnSpec OwnProofs MapMemModel MapMemSpec MapMemProofs MapMemPut MapMemRun MapMemSteps
  RespMemModel RespMemSpec RespMemProofs RespMemSteps ReqMemModel ReqMemSpec.
Import ListNotations.
Open Scope Z_scope.

(** ** a request in memory *)
Definition tb (ts : list (ptr str)) : list nat := flat_map ptr_blocks ts.
Definition mb (fs : list (nat * fmap)) : list nat := flat_map map_blocks fs.
Definition mkq (ts : list (ptr str)) ad (fs : list (nat * fmap)) bd ln ct : hreq :=
  mk_hreq (map Some ts) (Some ad) (map (fun x => Some (Some x)) fs) (Some bd) (Some ln) (Some ct).
Definition qb (ts : list (ptr str)) (ad : ptr (list Z)) fs (bd : ptr (list Z)) (ct : ptr (option str)) : list nat :=
  tb ts ++ ptr_blocks ad ++ mb fs ++ ptr_blocks bd ++ ptr_blocks ct.
Definition insides (r : hreq) : list nat := tl (req_blocks (0%nat, r)).
Lemma req_insides : forall p r, req_blocks (p, r) = p :: insides r.
Proof. reflexivity. Qed.
Lemma insides_mkq : forall ts ad fs bd ln ct, insides (mkq ts ad fs bd ln ct) = qb ts ad fs bd ct.
Proof.
  intros. unfold insides, req_blocks, mkq, qb, of_member. cbn [tl fst snd rq_texts rq_addr rq_maps rq_body rq_cert].
  assert (E1 : forall l, flat_map (fun x : member (ptr str) => match x with Some a => ptr_blocks a | None => [] end) (map Some l) = tb l).
  { induction l as [|x l IH]; [reflexivity|]. cbn [map flat_map tb]. unfold tb in *. cbn [flat_map]. now rewrite IH. }
  assert (E2 : forall l, flat_map (fun x : member (ptr fmap) => match x with Some a => match a with Some y => map_blocks y | None => [] end | None => [] end) (map (fun x => Some (Some x)) l) = mb l).
  { induction l as [|x l IH]; [reflexivity|]. cbn [map flat_map mb]. unfold mb in *. cbn [flat_map]. now rewrite IH. }
  rewrite E1, E2. reflexivity.
Qed.

(** a map whose memory is in order: filled, or with no arrays *)
Definition sound (f : fmap) : Prop := (exists ik iv il es, f = mkf ik iv il es) \/ f = mk_fmap None None None 0.
Lemma clean_sound : forall m p f ids, sound f -> mowns m (map_blocks (p, f) ++ ids) ->
  exists m' f', x_clean m f = Ret (m', f') /\ mowns m' (p :: ids) /\ later m m'.
Proof.
  intros m p f ids [(ik & iv & il & es & ->)| ->] O.
  - assert (O1 : mowns m (fb ik iv il es ++ (p :: ids))).
    { eapply mowns_ext; [exact O|]. intros x. rewrite cnt_app, blocks_mkf. repeat rewrite ?cnt_app, ?cnt_cons. lia. }
    destruct (x_clean_ok _ _ _ _ _ _ O1) as (m1 & -> & O2 & L1). eauto.
  - unfold x_clean. cbn. unfold bind. do 2 eexists. split; [reflexivity|]. split; [exact O|]. eapply later_refl; eauto.
Qed.
Lemma clean_full_sound : forall m p f ids, sound f -> mowns m (map_blocks (p, f) ++ ids) -> exists m', x_clean_full m p f = Ret m' /\ mowns m' ids /\ later m m'.
Proof.
  intros m p f ids S O. unfold x_clean_full. destruct (clean_sound _ _ _ _ S O) as (m1 & f1 & -> & O1 & L1). unfold bind. cbn [fst].
  destruct (x_free_ok _ _ _ O1) as (m2 & -> & O2 & L2 & _). exists m2. split; [reflexivity|]. split; [exact O2|]. chain.
Qed.
Lemma clean_maps_ok : forall fs m ids, Forall (fun x => sound (snd x)) fs -> mowns m (mb fs ++ ids) ->
  exists m', x_clean_req_maps m (map (fun x => Some (Some x)) fs) = Ret m' /\ mowns m' ids /\ later m m'.
Proof.
  induction fs as [|[p f] fs IH]; intros m ids F O; cbn [map x_clean_req_maps].
  - exists m. split; [reflexivity|]. split; [exact O|]. eapply later_refl; eauto.
  - cbn [x_member]. unfold bind at 1. unfold mb in O. cbn [flat_map] in O. rewrite <- app_assoc in O. inversion F; subst.
    destruct (clean_full_sound m p f _ H1 O) as (m1 & -> & O1 & L1). unfold bind at 1.
    destruct (IH m1 ids H2 O1) as (m2 & -> & O2 & L2). exists m2. split; [reflexivity|]. split; [exact O2|]. chain.
Qed.

(** ** releasing a range of texts *)
Lemma x_at_mid : forall A (a : list A) x b, x_at (map Some (a ++ x :: b)) (length a) = Ret x.
Proof. intros. unfold x_at. rewrite map_app. cbn [map]. rewrite <- (map_length Some a). rewrite nth_mid. reflexivity. Qed.
Lemma free_texts_ok : forall seg pre post m ids, mowns m (tb seg ++ ids) ->
  exists m', x_free_texts m (map Some (pre ++ seg ++ post)) (seq (length pre) (length seg)) = Ret m' /\ mowns m' ids /\ later m m'.
Proof.
  induction seg as [|p seg IH]; intros pre post m ids O; cbn [length seq x_free_texts].
  - exists m. split; [reflexivity|]. split; [exact O|]. eapply later_refl; eauto.
  - cbn [app]. rewrite x_at_mid. unfold bind at 1. unfold tb in O. cbn [flat_map] in O. rewrite <- app_assoc in O.
    destruct (x_free_ptr _ _ _ _ O) as (m1 & -> & O1 & L1). unfold bind at 1.
    destruct (IH (pre ++ [p]) post m1 ids O1) as (m2 & R & O2 & L2). rewrite <- app_assoc in R. cbn [app] in R. rewrite app_length in R. cbn [length] in R.
    replace (length pre + 1)%nat with (Datatypes.S (length pre)) in R by lia. rewrite R. exists m2. split; [reflexivity|]. split; [exact O2|]. chain.
Qed.
Ltac eleven ts L := destruct ts as [|t0 [|t1 [|t2 [|t3 [|t4 [|t5 [|t6 [|t7 [|t8 [|t9 [|t10 [|t11 ts]]]]]]]]]]]]; try discriminate L.

Lemma clean_req_ok : forall ts ad fs bd ln ct m ids, length ts = 11%nat -> Forall (fun x => sound (snd x)) fs -> mowns m (qb ts ad fs bd ct ++ ids) ->
  exists m' r', x_clean_req m (mkq ts ad fs bd ln ct) = Ret (m', r') /\ mowns m' ids /\ later m m'.
Proof.
  intros ts ad fs bd ln ct m ids LT F O. eleven ts LT. unfold x_clean_req, mkq. cbn [rq_texts rq_addr rq_maps rq_body rq_len rq_cert x_member].
  set (ts := [t0; t1; t2; t3; t4; t5; t6; t7; t8; t9; t10]) in *.
  assert (O0 : mowns m (tb [t0; t1; t2; t3; t4; t5; t6] ++ (ptr_blocks ad ++ (tb [t7] ++ (mb fs ++ (ptr_blocks bd ++ (ptr_blocks ct ++ (tb [t8; t9; t10] ++ ids)))))))).
  { eapply mowns_ext; [exact O|]. intros x. unfold qb, ts, tb. cbn [flat_map]. repeat rewrite ?cnt_app, ?cnt_nil. lia. }
  destruct (free_texts_ok [t0; t1; t2; t3; t4; t5; t6] [] [t7; t8; t9; t10] m _ O0) as (m1 & R1 & O1 & L1).
  change (x_free_texts m (map Some ts) [T_PROTOCOL; T_VERB; T_URL; T_PATH; T_PROXY; T_USER; T_PASSWORD] = Ret m1) in R1. rewrite R1. unfold bind at 1. unfold bind at 1.
  destruct (x_free_ptr _ _ _ _ O1) as (m2 & -> & O2 & L2). unfold bind at 1.
  destruct (free_texts_ok [t7] [t0; t1; t2; t3; t4; t5; t6] [t8; t9; t10] m2 _ O2) as (m3 & R3 & O3 & L3).
  change (x_free_texts m2 (map Some ts) [T_CA] = Ret m3) in R3. rewrite R3. unfold bind at 1.
  destruct (clean_maps_ok fs m3 _ F O3) as (m4 & -> & O4 & L4). unfold bind at 1. unfold bind at 1.
  destruct (x_free_ptr _ _ _ _ O4) as (m5 & -> & O5 & L5). unfold bind at 1. unfold bind at 1.
  destruct (x_free_ptr _ _ _ _ O5) as (m6 & -> & O6 & L6). unfold bind at 1.
  destruct (free_texts_ok [t8; t9; t10] [t0; t1; t2; t3; t4; t5; t6; t7] [] m6 _ O6) as (m7 & R7 & O7 & L7).
  change (x_free_texts m6 (map Some ts) [T_CERT; T_KEY; T_KEY_PASSWORD] = Ret m7) in R7. rewrite R7. unfold bind at 1.
  do 2 eexists. split; [reflexivity|]. split; [exact O7|]. chain.
Qed.
Lemma clean_req_full_ok : forall ts ad fs bd ln ct p m ids, length ts = 11%nat -> Forall (fun x => sound (snd x)) fs ->
  mowns m (p :: qb ts ad fs bd ct ++ ids) -> exists m', x_clean_req_full m p (mkq ts ad fs bd ln ct) = Ret m' /\ mowns m' ids /\ later m m'.
Proof.
  intros ts ad fs bd ln ct p m ids LT F O. unfold x_clean_req_full.
  destruct (clean_req_ok ts ad fs bd ln ct m (p :: ids) LT F) as (m1 & r1 & -> & O1 & L1); [mowns_by O|]. unfold bind at 1. cbn [fst].
  destruct (x_free_ok _ _ _ O1) as (m2 & -> & O2 & L2 & _). exists m2. split; [reflexivity|]. split; [exact O2|]. chain.
Qed.

(** ** what a request in memory says *)
Definition pval {A} (p : ptr A) : option A := match p with Some (_, x) => Some x | None => None end.
Definition mrel (N : Z) (x : nat * fmap) (a : amap) : Prop :=
  exists ik iv il es, snd x = mkf ik iv il es /\ Forall2 (erel N) es a /\ NoDup (map fst a).
Definition qbody (dups : bool) (bd : ptr (list Z)) (ln : Z) (b : option (list Z)) : Prop :=
  match bd with None => b = None /\ (dups = true -> ln = 0) | Some (_, x) => 0 <= ln <= zlen x /\ b = Some (zfirstn ln x) end.
Record qfit (dups : bool) (N : Z) (ts : list (ptr str)) ad fs bd ln ct (a : areq) : Prop := mk_qfit {
  q_eleven : length ts = 11%nat;
  q_four : length fs = 4%nat;
  q_texts : map ptext ts = aq_texts a;
  q_addr : pval ad = aq_addr a;
  q_maps : Forall2 (mrel N) fs (aq_maps a);
  q_body : qbody dups bd ln (aq_body a);
  q_cert : pval ct = aq_cert a
}.
Definition qinv (dups : bool) (N : Z) (r : hreq) (a : areq) : Prop :=
  exists ts ad fs bd ln ct, r = mkq ts ad fs bd ln ct /\ qfit dups N ts ad fs bd ln ct a.
Lemma mrel_mono : forall N N' x a, N <= N' -> mrel N x a -> mrel N' x a.
Proof.
  intros N N' x a L (ik & iv & il & es & E & F & ND). exists ik, iv, il, es. split; [exact E|]. split; [|exact ND].
  clear E ND. induction F; constructor; auto. eapply erel_mono; eauto.
Qed.
Lemma mrels_mono : forall N N' fs l, N <= N' -> Forall2 (mrel N) fs l -> Forall2 (mrel N') fs l.
Proof. intros N N' fs l L F. induction F; constructor; auto. eapply mrel_mono; eauto. Qed.
Lemma qinv_mono : forall dups N N' r a, N <= N' -> qinv dups N r a -> qinv dups N' r a.
Proof.
  intros dups N N' r a L (ts & ad & fs & bd & ln & ct & E & F). exists ts, ad, fs, bd, ln, ct. split; [exact E|].
  destruct F; constructor; auto. eapply mrels_mono; eauto.
Qed.
Lemma mrels_sound : forall N fs l, Forall2 (mrel N) fs l -> Forall (fun x => sound (snd x)) fs.
Proof. intros N fs l F. induction F as [|x a fs l (ik & iv & il & es & E & _) F IH]; constructor; auto. left. eauto 6. Qed.
Lemma qinv_clean : forall dups N m p r a ids, qinv dups N r a -> mowns m (req_blocks (p, r) ++ ids) -> exists m', x_clean_req_full m p r = Ret m' /\ mowns m' ids /\ later m m'.
Proof.
  intros dups N m p r a ids (ts & ad & fs & bd & ln & ct & -> & F) O. rewrite req_insides, insides_mkq in O.
  apply clean_req_full_ok; [apply F|eapply mrels_sound; apply F|exact O].
Qed.

(** ** lists *)
Lemma set_nth_some : forall A (l : list A) k x y, nth_error l k = Some y -> nth_error (set_nth l k x) k = Some x.
Proof.
  intros A l. induction l as [|z l IH]; intros [|k] x y E; try discriminate; [reflexivity|]. cbn in *. eapply IH; eauto.
Qed.
Lemma set_nth_map : forall A B (f : A -> B) l k x, set_nth (map f l) k (f x) = map f (set_nth l k x).
Proof. intros A B f l. induction l as [|z l IH]; intros [|k] x; [reflexivity..|]. cbn. now rewrite IH. Qed.
Lemma tb_set : forall ts k p q x, nth_error ts k = Some q -> (cnt (tb (set_nth ts k p)) x + cnt (ptr_blocks q) x = cnt (ptr_blocks p) x + cnt (tb ts) x)%nat.
Proof.
  induction ts as [|t ts IH]; intros [|k] p q x E; try discriminate; unfold tb in *; cbn [set_nth flat_map nth_error] in *.
  - injection E as ->. repeat rewrite cnt_app. lia.
  - specialize (IH k p q x E). repeat rewrite cnt_app. lia.
Qed.
Lemma mb_set : forall fs k p q x, nth_error fs k = Some q -> (cnt (mb (set_nth fs k p)) x + cnt (map_blocks q) x = cnt (map_blocks p) x + cnt (mb fs) x)%nat.
Proof.
  induction fs as [|t fs IH]; intros [|k] p q x E; try discriminate; unfold mb in *; cbn [set_nth flat_map nth_error] in *.
  - injection E as ->. repeat rewrite cnt_app. lia.
  - specialize (IH k p q x E). repeat rewrite cnt_app. lia.
Qed.
Lemma x_at_nth : forall A (l : list A) k, match nth_error l k with Some x => x_at (map Some l) k = Ret x | None => x_at (map Some l) k = UB OutOfBounds end.
Proof. intros A l k. unfold x_at. rewrite nth_error_map. destruct (nth_error l k); reflexivity. Qed.
