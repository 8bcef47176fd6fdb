(** Proofs about the memory of requests (C98): the calls on one request. *)
From Coq Require Import ZArith Bool List Lia.
From Verif Require Import Base BaseFacts UMapModel UMapProofs OwnModel OwnSpec OwnProofs MapMemModel MapMemSpec MapMemProofs MapMemPut MapMemRun MapMemSteps
  RespMemModel RespMemSpec RespMemProofs RespMemSteps ReqMemModel ReqMemSpec ReqMemProofs.
Import ListNotations.
Open Scope Z_scope.

(** what a call gives; [gone]: the blocks it loses *)
Definition qcall (dups : bool) (N : Z) (m : mem) (a : areq) (fr : list nat) (o : qop) (res : outcome (Z * (mem * hreq))) : Prop :=
  exists c m' r' a' gone, res = Ret (c, (m', r')) /\ later m m' /\ qinv dups N r' a' /\ mowns m' (insides r' ++ gone ++ fr) /\
    ((c, (a', length gone)) = aq_call a o \/ (short m /\ aq_fail a o c a' (length gone))).
Ltac openq I := destruct I as (ts & ad & fs & bd & ln & ct & -> & F).
Ltac qmembers := unfold mkq; cbn [x_member rq_texts rq_addr rq_maps rq_body rq_len rq_cert].
Ltac countq := let x := fresh "x" in intros x; rewrite ?cnt_app, ?insides_mkq; unfold qb; cbn [ptr_blocks app]; repeat rewrite ?cnt_app, ?cnt_cons, ?cnt_nil; lia.
Ltac qby H := eapply mowns_ext; [exact H|countq].
Ltac fitq F := destruct F; constructor; auto.
Ltac six := do 6 eexists; split; [reflexivity|].

Lemma texts_mkq : forall ts ad fs bd ln ct k n, with_texts (mkq ts ad fs bd ln ct) (set_nth (rq_texts (mkq ts ad fs bd ln ct)) k (Some n)) = mkq (set_nth ts k n) ad fs bd ln ct.
Proof. intros. unfold with_texts, mkq. cbn [rq_texts rq_addr rq_maps rq_body rq_len rq_cert]. f_equal. apply (set_nth_map _ _ Some). Qed.
Lemma map_mkq : forall ts ad fs bd ln ct k x, with_map (mkq ts ad fs bd ln ct) k (Some x) = mkq ts ad (set_nth fs k x) bd ln ct.
Proof. intros. unfold with_map, mkq. cbn [rq_texts rq_addr rq_maps rq_body rq_len rq_cert]. f_equal. apply (set_nth_map _ _ (fun x => Some (Some x))). Qed.
Lemma settable_is : forall k, can_set k = settable k.
Proof. intros k. do 12 (destruct k as [|k]; [reflexivity|]). reflexivity. Qed.
Lemma settable_lt : forall k, settable k = true -> (k < 11)%nat.
Proof. intros k H. unfold settable in H. apply andb_prop in H as [H _]. apply andb_prop in H as [H _]. now apply Nat.ltb_lt. Qed.

Lemma text_set_call : forall dups N m r a fr i k s, qinv dups N r a -> mowns m (insides r ++ fr) -> qcall dups N m a fr (QText i k s) (x_set_text m r k s).
Proof.
  intros dups N m r a fr i k s I O. unfold x_set_text. rewrite settable_is. destruct (settable k) eqn:ST.
  2:{ exists U_ERROR_PARAMS, m, r, a, []. split; [reflexivity|]. split; [eapply later_refl; eauto|]. split; [exact I|]. split; [exact O|].
      left. cbn [aq_call]. rewrite ST. reflexivity. }
  openq I. qmembers. assert (KL : (k < length ts)%nat) by (rewrite (q_eleven _ _ _ _ _ _ _ _ _ F); now apply settable_lt).
  pose proof (x_at_nth _ ts k) as XA. destruct (nth_error ts k) as [p|] eqn:EN; [|apply nth_error_None in EN; lia]. rewrite XA. unfold bind at 1.
  pose proof (tb_set ts k None p) as TB. cbn [ptr_blocks] in TB.
  destruct (x_free_ptr _ m p (tb (set_nth ts k None) ++ ptr_blocks ad ++ mb fs ++ ptr_blocks bd ++ ptr_blocks ct ++ fr)) as (m1 & -> & O1 & L1).
  { eapply mowns_ext; [exact O|]. intros x. specialize (TB x EN). rewrite cnt_nil in TB. rewrite cnt_app, insides_mkq. unfold qb. repeat rewrite cnt_app. lia. }
  unfold bind at 1. change (match s with Some [] => None | _ => s end) with (nonempty s).
  destruct (x_strdup_ok m1 (nonempty s) _ O1) as (n & m2 & -> & L2 & O2 & T).
  exists U_OK, m2, (mkq (set_nth ts k n) ad fs bd ln ct), (put_texts a (set_nth (aq_texts a) k (ptext n))), [].
  split; [exact (f_equal (fun r => Ret (U_OK, (m2, r))) (texts_mkq ts ad fs bd ln ct k n))|]. split; [chain|].
  split; [|split].
  - six. destruct F; constructor; auto; cbn [put_texts aq_texts].
    + now rewrite set_nth_length.
    + now rewrite <- q_texts, (set_nth_map _ _ ptext).
  - eapply mowns_ext; [exact O2|]. intros x. specialize (TB x EN). rewrite cnt_nil in TB. pose proof (tb_set ts k n p x EN) as TB2.
    rewrite !cnt_app, insides_mkq. unfold qb. repeat rewrite ?cnt_app, ?cnt_nil. lia.
  - destruct T as [T|(-> & S1 & _)].
    + left. cbn [aq_call]. rewrite ST, T. reflexivity.
    + right. split; [now apply L1|]. cbn [ptext length]. now apply lack_text.
Qed.

Lemma four_nth : forall dups N ts ad fs bd ln ct a k, qfit dups N ts ad fs bd ln ct a ->
  if (k <? 4)%nat then exists p f ik iv il es h, nth_error fs k = Some (p, f) /\ nth_error (aq_maps a) k = Some h /\ f = mkf ik iv il es /\ Forall2 (erel N) es h /\ NoDup (map fst h)
  else nth_error (aq_maps a) k = None.
Proof.
  intros dups N ts ad fs bd ln ct a k F. destruct F as [F1 F2 F3 F4 F5 F6 F7].
  assert (L : length (aq_maps a) = 4%nat) by (rewrite <- F2; symmetry; eapply f2_length; exact F5).
  destruct (k <? 4)%nat eqn:K.
  - apply Nat.ltb_lt in K. clear - K F2 F5. revert fs F2 F5. generalize (aq_maps a) as l. revert K. generalize 4%nat as n. induction k as [|k IH]; intros n K l fs L F.
    + destruct F as [|[p f] h fs l (ik & iv & il & es & E & FR & ND) F]; [cbn in L; lia|]. exists p, f, ik, iv, il, es, h. cbn in *. auto.
    + destruct F as [|x h fs l R F]; [cbn in L; lia|]. destruct n as [|n]; [lia|]. cbn [nth_error]. apply (IH n); [lia|cbn in L; lia|exact F].
  - apply Nat.ltb_ge in K. apply nth_error_None. lia.
Qed.
Lemma mrels_set : forall N fs l k x h, Forall2 (mrel N) fs l -> mrel N x h -> Forall2 (mrel N) (set_nth fs k x) (set_nth l k h).
Proof. intros N fs l k x h F R. revert k. induction F as [|y b fs l R' F IH]; intros [|k]; cbn [set_nth]; constructor; auto. Qed.

Lemma map_blocks_fb : forall p ik iv il es x, cnt (map_blocks (p, mkf ik iv il es)) x = (one p x + cnt (fb ik iv il es) x)%nat.
Proof. intros. rewrite blocks_mkf. rewrite cnt_cons. reflexivity. Qed.

Lemma put_map_call : forall dups N m r a fr i k key v, qinv dups N r a -> mowns m (insides r ++ fr) -> (forall s, v = Some s -> zlen s + 1 <= N) -> 0 <= N -> N + 1 < two64 ->
  qcall dups N m a fr (QPut i k key v) (x_on_req_map m r k (fun m f => x_put m f (Some key) v)).
Proof.
  intros dups N m r a fr i k key v I O LV N0 NT. pose proof I as I0. openq I. unfold x_on_req_map.
  pose proof (four_nth _ _ _ _ _ _ _ _ _ k F) as K4. destruct (k <? 4)%nat.
  2:{ do 4 eexists. exists []. split; [reflexivity|]. split; [eapply later_refl; eauto|]. split; [exact I0|]. split; [exact O|]. left. cbn [aq_call]. rewrite K4. reflexivity. }
  destruct K4 as (p & f & ik & iv & il & es & h & E1 & E2 & -> & FR & ND). qmembers.
  unfold x_at. rewrite nth_error_map, E1. cbn [option_map x_member]. unfold bind at 1.
  pose proof (mb_set fs k (p, mk_fmap None None None 0)) as MB.
  assert (O0 : mowns m (fb ik iv il es ++ (mb (set_nth fs k (p, mk_fmap None None None 0)) ++ tb ts ++ ptr_blocks ad ++ ptr_blocks bd ++ ptr_blocks ct ++ fr))).
  { eapply mowns_ext; [exact O|]. intros x. specialize (MB _ x E1). rewrite map_blocks_fb in MB. unfold map_blocks in MB at 1. cbn [fst snd f_keys f_values f_lengths array_blocks ptr_blocks app] in MB.
    rewrite cnt_cons, cnt_nil in MB. rewrite cnt_app, insides_mkq. unfold qb. repeat rewrite cnt_app. lia. }
  assert (PI : In p (fb ik iv il es ++ (mb (set_nth fs k (p, mk_fmap None None None 0)) ++ tb ts ++ ptr_blocks ad ++ ptr_blocks bd ++ ptr_blocks ct ++ fr))).
  { apply in_or_app. right. apply in_or_app. left. unfold mb. apply in_flat_map. exists (p, mk_fmap None None None 0). split; [|now left].
    eapply nth_error_In. eapply set_nth_some. exact E1. }
  rewrite (x_deref_ok _ m p _ _ O0 PI). unfold bind at 1. cbn [fst snd].
  destruct (put_call N N m ik iv il es h key v _ O0 FR ND LV N0 (Z.le_refl N) NT)
    as (c & m1 & ik1 & iv1 & il1 & es1 & h1 & -> & L1 & O1 & F1 & ND1 & CASE). unfold bind at 1.
  exists c, m1, (mkq ts ad (set_nth fs k (p, mkf ik1 iv1 il1 es1)) bd ln ct), (put_maps a (set_nth (aq_maps a) k h1)), [].
  split; [exact (f_equal (fun r => Ret (_, (m1, r))) (map_mkq ts ad fs bd ln ct k (p, mkf ik1 iv1 il1 es1)))|].
  split; [exact L1|]. split; [|split].
  - six. destruct F; constructor; auto; cbn [put_maps aq_maps]; [now rewrite set_nth_length|]. apply mrels_set; auto. exists ik1, iv1, il1, es1. auto.
  - eapply mowns_ext; [exact O1|]. intros x. specialize (MB _ x E1). rewrite map_blocks_fb in MB. unfold map_blocks in MB at 1. cbn [fst snd f_keys f_values f_lengths array_blocks ptr_blocks app] in MB.
    rewrite cnt_cons, cnt_nil in MB. pose proof (mb_set fs k (p, mkf ik1 iv1 il1 es1) _ x E1) as MB2. rewrite !map_blocks_fb in MB2.
    rewrite !cnt_app, insides_mkq. unfold qb. repeat rewrite ?cnt_app, ?cnt_nil. lia.
  - assert (SAME : put_maps a (set_nth (aq_maps a) k h) = a).
    { destruct a; unfold put_maps; cbn in *. f_equal. clear - E2. revert k E2. induction aq_maps as [|y l IH]; intros [|k] E; try discriminate; cbn in *; [congruence|]. f_equal; auto. }
    destruct CASE as [E|(-> & S1 & ->)].
    + left. unfold put_meaning in E. cbn [aq_call]. rewrite E2. destruct key as [|b key]; injection E as -> ->; [rewrite SAME|]; reflexivity.
    + right. split; auto. rewrite SAME. apply lack_put.
Qed.
Lemma remove_map_call : forall dups N m r a fr i k key, qinv dups N r a -> mowns m (insides r ++ fr) ->
  qcall dups N m a fr (QRemove i k key) (x_on_req_map m r k (fun m f => x_remove_key m f (matches false key))).
Proof.
  intros dups N m r a fr i k key I O. pose proof I as I0. openq I. unfold x_on_req_map.
  pose proof (four_nth _ _ _ _ _ _ _ _ _ k F) as K4. destruct (k <? 4)%nat.
  2:{ do 4 eexists. exists []. split; [reflexivity|]. split; [eapply later_refl; eauto|]. split; [exact I0|]. split; [exact O|]. left. cbn [aq_call]. rewrite K4. reflexivity. }
  destruct K4 as (p & f & ik & iv & il & es & h & E1 & E2 & -> & FR & ND). qmembers.
  unfold x_at. rewrite nth_error_map, E1. cbn [option_map x_member]. unfold bind at 1.
  pose proof (mb_set fs k (p, mk_fmap None None None 0)) as MB.
  assert (O0 : mowns m (fb ik iv il es ++ (mb (set_nth fs k (p, mk_fmap None None None 0)) ++ tb ts ++ ptr_blocks ad ++ ptr_blocks bd ++ ptr_blocks ct ++ fr))).
  { eapply mowns_ext; [exact O|]. intros x. specialize (MB _ x E1). rewrite map_blocks_fb in MB. unfold map_blocks in MB at 1. cbn [fst snd f_keys f_values f_lengths array_blocks ptr_blocks app] in MB.
    rewrite cnt_cons, cnt_nil in MB. rewrite cnt_app, insides_mkq. unfold qb. repeat rewrite cnt_app. lia. }
  assert (PI : In p (fb ik iv il es ++ (mb (set_nth fs k (p, mk_fmap None None None 0)) ++ tb ts ++ ptr_blocks ad ++ ptr_blocks bd ++ ptr_blocks ct ++ fr))).
  { apply in_or_app. right. apply in_or_app. left. unfold mb. apply in_flat_map. exists (p, mk_fmap None None None 0). split; [|now left].
    eapply nth_error_In. eapply set_nth_some. exact E1. }
  rewrite (x_deref_ok _ m p _ _ O0 PI). unfold bind at 1. cbn [fst snd].
  destruct (x_remove_loop_ok (matches false key) (mb (set_nth fs k (p, mk_fmap None None None 0)) ++ tb ts ++ ptr_blocks ad ++ ptr_blocks bd ++ ptr_blocks ct ++ fr) es [] m ik iv il false)
    as (m1 & ik1 & iv1 & il1 & R & L1 & O1); [now rewrite app_nil_r|].
  rewrite !app_nil_r in *. unfold x_remove_key. cbn [mkf f_nb]. fold (mkf ik iv il es). rewrite R. unfold bind at 1. cbn [orb].
  destruct (rel_filter N (matches false key) es h FR) as [F' E]. rewrite E. set (es1 := filter (fun e => negb (matches false key (snd (hk e)))) es) in *.
  do 2 eexists. exists (mkq ts ad (set_nth fs k (p, mkf ik1 iv1 il1 es1)) bd ln ct), (put_maps a (set_nth (aq_maps a) k (filter (fun e => negb (matches false key (fst e))) h))), [].
  split; [exact (f_equal (fun r => Ret (_, (m1, r))) (map_mkq ts ad fs bd ln ct k (p, mkf ik1 iv1 il1 es1)))|].
  split; [exact L1|]. split; [|split].
  - six. destruct F; constructor; auto; cbn [put_maps aq_maps]; [now rewrite set_nth_length|]. apply mrels_set; auto. exists ik1, iv1, il1, es1.
    split; [reflexivity|]. split; [exact F'|]. now apply nodup_filter.
  - eapply mowns_ext; [exact O1|]. intros x. specialize (MB _ x E1). rewrite map_blocks_fb in MB. unfold map_blocks in MB at 1. cbn [fst snd f_keys f_values f_lengths array_blocks ptr_blocks app] in MB.
    rewrite cnt_cons, cnt_nil in MB. pose proof (mb_set fs k (p, mkf ik1 iv1 il1 es1) _ x E1) as MB2. rewrite !map_blocks_fb in MB2.
    rewrite !cnt_app, insides_mkq. unfold qb. repeat rewrite ?cnt_app, ?cnt_nil. lia.
  - left. cbn [aq_call]. rewrite E2. reflexivity.
Qed.

Lemma string_body_call : forall dups N m r a fr i s, qinv dups N r a -> mowns m (insides r ++ fr) -> (dups = true -> ~ short m) ->
  qcall dups N m a fr (QString i s) (x_req_string_body m r s).
Proof.
  intros dups N m r a fr i s I O NS. openq I. unfold x_req_string_body. qmembers. unfold bind at 1.
  destruct (x_free_ptr _ m bd (tb ts ++ ptr_blocks ad ++ mb fs ++ ptr_blocks ct ++ fr)) as (m1 & -> & O1 & L1); [qby O|]. unfold bind at 1. unfold bind at 1.
  destruct (x_malloc_ok _ _ O1) as (p & m2 & -> & L2 & [(j & -> & O2)|(-> & S2 & O2)]).
  - do 2 eexists. exists (mkq ts ad fs (Some (j, s ++ [0])) (zlen s) ct). eexists. exists [].
    split; [reflexivity|]. split; [chain|]. split; [|split; [qby O2|left; reflexivity]].
    six. fitq F. cbn. pose proof (zlen_nonneg _ s). rewrite zlen_app. change (zlen [0]) with 1. split; [lia|].
    unfold zfirstn, zlen. rewrite Nat2Z.id, firstn_app, Nat.sub_diag, firstn_all, app_nil_r. reflexivity.
  - do 2 eexists. exists (mkq ts ad fs None ln ct). eexists. exists [].
    split; [reflexivity|]. split; [chain|]. split; [|split; [qby O2|right; split; [now apply L1|apply lack_string]]].
    six. fitq F. split; [reflexivity|]. intros D. elim (NS D). now apply L1.
Qed.
Lemma binary_body_call : forall dups N m r a fr i b, qinv dups N r a -> mowns m (insides r ++ fr) -> qcall dups N m a fr (QBytes i b) (x_req_binary_body m r b).
Proof.
  intros dups N m r a fr i b I O. unfold x_req_binary_body. destruct b as [|c b].
  { change (zlen (@nil Z) =? 0) with true. cbn iota. exists U_ERROR_PARAMS, m, r, a, []. split; [reflexivity|]. split; [eapply later_refl; eauto|]. auto. }
  replace (zlen (c :: b) =? 0) with false. 2:{ symmetry. apply Z.eqb_neq. assert (0 < zlen (c :: b)) by (apply zlen_pos; discriminate). lia. }
  openq I. qmembers. unfold bind at 1.
  destruct (x_free_ptr _ m bd (tb ts ++ ptr_blocks ad ++ mb fs ++ ptr_blocks ct ++ fr)) as (m1 & -> & O1 & L1); [qby O|]. unfold bind at 1.
  destruct (x_malloc_ok _ _ O1) as (p & m2 & -> & L2 & [(j & -> & O2)|(-> & S2 & O2)]).
  - do 2 eexists. exists (mkq ts ad fs (Some (j, c :: b)) (zlen (c :: b)) ct). eexists. exists [].
    split; [reflexivity|]. split; [chain|]. split; [|split; [qby O2|left; reflexivity]].
    six. fitq F. cbn [qbody put_body aq_body]. pose proof (zlen_nonneg _ (c :: b)). split; [lia|].
    unfold zfirstn, zlen. now rewrite Nat2Z.id, firstn_all.
  - do 2 eexists. exists (mkq ts ad fs None 0 ct). eexists. exists [].
    split; [reflexivity|]. split; [chain|]. split; [|split; [qby O2|right; split; [now apply L1|apply lack_bytes]]].
    six. fitq F. split; reflexivity.
Qed.
Lemma empty_body_call : forall dups N m r a fr i, qinv dups N r a -> mowns m (insides r ++ fr) -> qcall dups N m a fr (QEmpty i) (x_req_empty_body m r).
Proof.
  intros dups N m r a fr i I O. openq I. unfold x_req_empty_body. qmembers. unfold bind at 1.
  destruct (x_free_ptr _ m bd (tb ts ++ ptr_blocks ad ++ mb fs ++ ptr_blocks ct ++ fr)) as (m1 & -> & O1 & L1); [qby O|]. unfold bind at 1.
  do 2 eexists. exists (mkq ts ad fs None 0 ct). eexists. exists [].
  split; [reflexivity|]. split; [chain|]. split; [|split; [qby O1|left; reflexivity]].
  six. fitq F. split; reflexivity.
Qed.
Lemma pval_lost : forall A (p : ptr A), length (ptr_blocks p) = lost_cert (pval p).
Proof. intros A [[i x]|]; reflexivity. Qed.
Lemma cert_call : forall dups N m r a fr i good pem, qinv dups N r a -> mowns m (insides r ++ fr) -> qcall dups N m a fr (QCert i good pem) (x_set_cert m r good pem).
Proof.
  intros dups N m r a fr i good pem I O. openq I. unfold x_set_cert. qmembers. unfold bind at 1. cbn [x_import_cert].
  pose proof (q_cert _ _ _ _ _ _ _ _ _ F) as QC.
  destruct (x_malloc_ok _ _ O) as (p & m2 & -> & L2 & [(j & -> & O2)|(-> & S2 & O2)]).
  - exists (if good then U_OK else U_ERROR), m2, (mkq ts ad fs bd ln (Some (j, if good then Some pem else None))). eexists. exists (ptr_blocks ct).
    split; [destruct good; reflexivity|]. split; [exact L2|]. split; [|split; [qby O2|left; cbn [aq_call]; rewrite pval_lost, QC; reflexivity]].
    six. fitq F.
  - do 2 eexists. exists (mkq ts ad fs bd ln None). eexists. exists (ptr_blocks ct).
    split; [reflexivity|]. split; [exact L2|]. split; [|split; [qby O2|right; split; [exact S2|rewrite pval_lost, QC; apply lack_cert]]].
    six. fitq F.
Qed.
