(** Proofs about the memory of requests that come in (C105): the connections. *)
From Coq Require Import String ZArith Bool List Lia.
From Verif Require Import Base BaseFacts UMapModel UMapProofs Utf8Model OwnModel OwnSpec OwnProofs MapMemModel MapMemSpec MapMemProofs MapMemPut MapMemRun MapMemSteps
  RespMemModel RespMemSpec RespMemProofs RespMemSteps ReqMemModel ReqMemSpec ReqMemProofs ReqMemCalls ReqMemCopy ReqMemSteps RecvMemModel RecvMemSpec RecvMemProofs RecvMemPieces.
From Verif Require Utf8Proofs.
Import ListNotations.
Open Scope Z_scope.

(** ** a function on a map of the request *)
Definition ran (Q : list hent -> Prop) (N : Z) (P : Z -> amap -> Prop) (fr : list nat) (r : outcome (Z * (mem * fmap))) : Prop :=
  exists z m' ik iv il es a', r = Ret (z, (m', mkf ik iv il es)) /\ mowns m' (fb ik iv il es ++ fr) /\ Forall2 (erel N) es a' /\ NoDup (map fst a') /\ Q es /\ P z a'.
Definition any (es : list hent) : Prop := True.
Lemma ran_filled : forall N P fr r, filled N P fr r -> ran any N P fr r.
Proof. intros N P fr r (z & m & ik & iv & il & es & a & E & O & F & ND & H). exists z, m, ik, iv, il, es, a. split; [exact E|]. split; [exact O|]. split; [exact F|]. split; [exact ND|]. split; [constructor|exact H]. Qed.
Definition map_at (r : hreq) (k : nat) (es : list hent) : Prop := exists p ik iv il, nth_error (rq_maps r) k = Some (Some (Some (p, mkf ik iv il es))).
Lemma on_map : forall Q P N N' m r a fr k call, qinv true N r a -> N <= N' -> mowns m (insides r ++ fr) -> (k < 4)%nat ->
  (forall ik iv il es fr', map_at r k es -> mowns m (fb ik iv il es ++ fr') -> Forall2 (erel N) es (nth k (aq_maps a) []) -> NoDup (map fst (nth k (aq_maps a) [])) ->
     ran Q N' P fr' (call m (mkf ik iv il es))) ->
  exists z m' r' h, x_on_req_map m r k call = Ret (z, (m', r')) /\ qinv true N' r' (put_maps a (set_nth (aq_maps a) k h)) /\ mowns m' (insides r' ++ fr) /\ P z h /\
    exists es, map_at r' k es /\ Q es.
Proof.
  intros Q P N N' m r a fr k call I LN O K CALL. openq I. unfold x_on_req_map.
  pose proof (four_nth _ _ _ _ _ _ _ _ _ k F) as K4. replace (k <? 4)%nat with true in * by (symmetry; now apply Nat.ltb_lt).
  destruct K4 as (p & f & ik & iv & il & es & h & E1 & E2 & -> & FR & ND).
  assert (MA : map_at (mkq ts ad fs bd ln ct) k es) by (exists p, ik, iv, il; unfold mkq; cbn [rq_maps]; now rewrite nth_error_map, E1).
  assert (NH : nth k (aq_maps a) [] = h) by (now apply nth_error_nth).
  qmembers. unfold x_at. rewrite nth_error_map, E1. cbn [option_map x_member]. unfold bind at 1.
  pose proof (mb_set fs k (p, mk_fmap None None None 0)) as MB.
  assert (O0 : mowns m (fb ik iv il es ++ (mb (set_nth fs k (p, mk_fmap None None None 0)) ++ tb ts ++ ptr_blocks ad ++ ptr_blocks bd ++ ptr_blocks ct ++ fr))).
  { eapply mowns_ext; [exact O|]. intros x. specialize (MB _ x E1). rewrite map_blocks_fb in MB. unfold map_blocks in MB at 1. cbn [fst snd f_keys f_values f_lengths array_blocks ptr_blocks app] in MB.
    rewrite cnt_cons, cnt_nil in MB. rewrite cnt_app, insides_mkq. unfold qb. repeat rewrite cnt_app. lia. }
  assert (PI : In p (fb ik iv il es ++ (mb (set_nth fs k (p, mk_fmap None None None 0)) ++ tb ts ++ ptr_blocks ad ++ ptr_blocks bd ++ ptr_blocks ct ++ fr))).
  { apply in_or_app. right. apply in_or_app. left. unfold mb. apply in_flat_map. exists (p, mk_fmap None None None 0). split; [|now left].
    eapply nth_error_In. eapply set_nth_some. exact E1. }
  rewrite (x_deref_ok _ m p _ _ O0 PI). unfold bind at 1. cbn [fst snd]. rewrite <- NH in FR, ND.
  destruct (CALL ik iv il es _ MA O0 FR ND) as (z & m1 & ik1 & iv1 & il1 & es1 & h1 & -> & O1 & F1 & ND1 & QQ & PP). unfold bind at 1.
  exists z, m1, (mkq ts ad (set_nth fs k (p, mkf ik1 iv1 il1 es1)) bd ln ct), h1.
  split; [exact (f_equal (fun r => Ret (_, (m1, r))) (map_mkq ts ad fs bd ln ct k (p, mkf ik1 iv1 il1 es1)))|].
  split; [|split; [|split; [exact PP|]]].
  - six. destruct F; constructor; auto; cbn [put_maps aq_maps]; [now rewrite set_nth_length|]. apply mrels_set; [eapply mrels_mono; eauto|]. exists ik1, iv1, il1, es1. auto.
  - eapply mowns_ext; [exact O1|]. intros x. specialize (MB _ x E1). rewrite map_blocks_fb in MB. unfold map_blocks in MB at 1. cbn [fst snd f_keys f_values f_lengths array_blocks ptr_blocks app] in MB.
    rewrite cnt_cons, cnt_nil in MB. pose proof (mb_set fs k (p, mkf ik1 iv1 il1 es1) _ x E1) as MB2. rewrite !map_blocks_fb in MB2.
    rewrite !cnt_app, insides_mkq. unfold qb. repeat rewrite ?cnt_app, ?cnt_nil. lia.
  - exists es1. split; [|exact QQ]. exists p, ik1, iv1, il1. unfold mkq. cbn [rq_maps]. rewrite nth_error_map. erewrite set_nth_some by exact E1. reflexivity.
Qed.

(** ** the type of the content *)
Definition CT : str := bs "Content-Type".
Lemma a_field_hit : forall k ap x old aq, (forall e, In e ap -> str_caseeqb (fst e) k = false) -> str_caseeqb x k = true -> a_field k (ap ++ (x, old) :: aq) = a_text old.
Proof.
  intros k ap x old aq NH H. induction ap as [|[y v] ap IH]; cbn [app a_field]; [now rewrite H|].
  pose proof (NH (y, v) (or_introl eq_refl)) as Ny. cbn [fst] in Ny. rewrite Ny. apply IH. intros e E. apply NH. now right.
Qed.
Lemma a_field_miss : forall k a, (forall e, In e a -> str_caseeqb (fst e) k = false) -> a_field k a = None.
Proof.
  intros k a NH. induction a as [|[y v] a IH]; cbn [a_field]; auto.
  pose proof (NH (y, v) (or_introl eq_refl)) as Ny. cbn [fst] in Ny. rewrite Ny. apply IH. intros e E. apply NH. now right.
Qed.
Lemma case_split : forall N k es a, Forall2 (erel N) es a ->
  (exists p e q ap x old aq, es = p ++ e :: q /\ a = ap ++ (x, old) :: aq /\ erel N e (x, old) /\ str_caseeqb x k = true /\
     (forall e, In e p -> str_caseeqb (snd (hk e)) k = false) /\ (forall e, In e ap -> str_caseeqb (fst e) k = false)) \/
  ((forall e, In e es -> str_caseeqb (snd (hk e)) k = false) /\ (forall e, In e a -> str_caseeqb (fst e) k = false)).
Proof.
  intros N k es a F. induction F as [|e [x v] es a R F IH]; [right; split; intros ? []|].
  assert (KE : snd (hk e) = x) by apply R.
  destruct (str_caseeqb x k) eqn:H.
  - left. exists [], e, es, [], x, v, a. split; [reflexivity|]. split; [reflexivity|]. split; [exact R|]. split; [exact H|]. split; intros ? [].
  - destruct IH as [(p & e' & q & ap & x' & old & aq & -> & -> & R' & H' & P1 & P2)|[P1 P2]].
    + left. exists (e :: p), e', q, ((x, v) :: ap), x', old, aq. split; [reflexivity|]. split; [reflexivity|]. split; [exact R'|]. split; [exact H'|].
      split; intros y [<-|Y]; auto. now rewrite KE.
    + right. split; intros y [<-|Y]; auto. now rewrite KE.
Qed.
Lemma content_type_ok : forall N m r a ids, qinv true N r a -> mowns m ids -> incl (insides r) ids ->
  exists t, x_content_type m r = Ret t /\ (t = a_field CT (fields a) \/ (t = Some [] /\ a_field CT (fields a) = None)).
Proof.
  intros N m r a ids I O C. openq I. unfold x_content_type. unfold fields.
  pose proof (four_nth _ _ _ _ _ _ _ _ _ M_HEADER F) as K4. change (M_HEADER <? 4)%nat with true in K4. cbn iota in K4.
  destruct K4 as (p & f & ik & iv & il & es & h & E1 & E2 & -> & FR & ND).
  assert (NH : nth M_HEADER (aq_maps a) [] = h) by (now apply nth_error_nth). rewrite NH.
  assert (CM : incl (map_blocks (p, mkf ik iv il es)) ids).
  { intros x X. apply C. rewrite insides_mkq. unfold qb. apply in_or_app. right. apply in_or_app. right. apply in_or_app. left. unfold mb. apply in_flat_map. exists (p, mkf ik iv il es). split; [eapply nth_error_In; exact E1|exact X]. }
  assert (CF : incl (fb ik iv il es) ids).
  { intros x X. apply CM. apply cnt_in. apply cnt_in in X. rewrite map_blocks_fb. lia. }
  qmembers. unfold x_at. rewrite nth_error_map, E1. cbn [option_map x_member]. unfold bind at 1.
  rewrite (x_deref_ok _ m p _ ids O) by (apply CM; now left). unfold bind at 1. cbn [snd].
  unfold x_get_case. cbn [mkf f_keys f_values]. rewrite (x_deref_ok _ m ik _ ids O) by (apply CF; now left). unfold bind at 2. cbn [snd].
  assert (CE : incl (flat_map eblocks es) ids) by (intros x X; apply CF; unfold fb; right; right; now right).
  destruct (case_split N CT es h FR) as [(q & e & q' & ap & x & old & aq & -> & -> & R & H & P1 & P2)|[P1 P2]].
  - assert (KE : snd (hk e) = x) by apply R. rewrite <- KE in H.
    pose proof (x_scan_null_hit m ids (fun y => str_caseeqb y CT) q e q' 0 O CE P1 H) as SN. cbn [plus] in SN. fold CT.
    rewrite SN. unfold bind at 2. rewrite (x_deref_ok _ m iv _ ids O) by (apply CF; right; now left). unfold bind at 2. cbn [snd]. rewrite (aget_map _ _ hv). unfold bind at 1.
    rewrite a_field_hit by (try exact P2; now rewrite <- KE). destruct R as (_ & _ & [HL V] & _). cbn [snd] in *.
    destruct (hv e) as [[i b]|] eqn:HV.
    + subst b. rewrite (block_text m ids i old O). 2:{ apply CE. apply in_flat_map. exists e. split; [apply in_elt|]. unfold eblocks. rewrite HV. right. now left. }
      eexists. split; [reflexivity|]. destruct old as [|c old]; [right; auto|left; reflexivity].
    + rewrite V. exists None. split; [reflexivity|]. now left.
  - pose proof (x_scan_null_miss m ids (fun y => str_caseeqb y CT) es 0 O CE P1) as SN. cbn [plus] in SN. fold CT. rewrite SN. unfold bind at 2. unfold bind at 1. rewrite a_field_miss by exact P2.
    exists None. split; [reflexivity|]. now left.
Qed.
Lemma land_bit : forall a n, 0 <= n -> negb (Z.land a (2 ^ n) =? 0) = Z.testbit a n.
Proof.
  intros a n H. destruct (Z.testbit a n) eqn:T.
  - apply negb_true_iff. apply Z.eqb_neq. intros E. apply (f_equal (fun x => Z.testbit x n)) in E. rewrite Z.land_spec, T, Z.pow2_bits_true, Z.bits_0 in E by lia. discriminate E.
  - apply negb_false_iff. apply Z.eqb_eq. apply Z.bits_inj'. intros k K. rewrite Z.land_spec, Z.bits_0. destruct (Z.eq_dec n k) as [<-|D]; [now rewrite T|].
    rewrite Z.pow2_bits_false by congruence. apply andb_false_r.
Qed.
Lemma wants_spec : forall g t f, t = f \/ (t = Some [] /\ f = None) -> wants_processor (g_allowed g) t = reads_forms g f.
Proof.
  intros g t f H. assert (E : wants_processor (g_allowed g) t = reads_forms g t).
  { destruct t as [c|]; [|reflexivity]. unfold wants_processor, reads_forms. change 1 with (2 ^ 0). change 16 with (2 ^ 4). rewrite !land_bit by lia. reflexivity. }
  rewrite E. destruct H as [->|[-> ->]]; [reflexivity|]. unfold reads_forms. cbn. now rewrite !andb_false_r.
Qed.
Lemma form_spec : forall g t f, t = f \/ (t = Some [] /\ f = None) -> reads_forms g f = true -> is_form_type t = true.
Proof.
  intros g t f [->|[-> ->]] R; [|discriminate R]. destruct f as [c|]; [|discriminate R]. unfold reads_forms in R. unfold is_form_type. apply orb_prop in R as [R|R]; apply andb_prop in R as [_ R]; apply orb_true_iff; [left|right]; exact R.
Qed.

(** ** a connection *)
Definition bytes_of (q : areq) : list Z := match aq_body q with Some b => b | None => [] end.
Definition solid_post (r : hreq) : Prop := exists es, map_at r M_POST es /\ solid es.
Definition cinv (g : rconf) (N : Z) (c : conn) (a : acon) : Prop :=
  (exists ik iv il es, k_args c = mkf ik iv il es /\ Forall2 (erel N) es (ac_args a) /\ NoDup (map fst (ac_args a))) /\
  k_going c = ac_going a /\ (match k_post c with Some _ => true | None => false end) = ac_form a /\
  match k_req c, ac_req a with
  | Some (p, r), Some q => qinv true N r q /\ solid_post r /\ zlen (bytes_of q) <= N /\ (0 < g_max_body g -> zlen (bytes_of q) <= g_max_body g) /\
      (ac_form a = true -> reads_forms g (a_field CT (fields q)) = true)
  | None, None => ac_going a = false
  | _, _ => False
  end.
Lemma cinv_mono : forall g N N' c a, N <= N' -> cinv g N c a -> cinv g N' c a.
Proof.
  intros g N N' c a L ((ik & iv & il & es & E & F & ND) & G & P & R). split; [exists ik, iv, il, es; split; [exact E|]; split; [eapply erel_all; eauto|exact ND]|].
  split; [exact G|]. split; [exact P|]. destruct (k_req c) as [[p r]|], (ac_req a) as [q|]; auto. destruct R as (I & S & B & M & T). split; [eapply qinv_mono; eauto|]. split; [exact S|]. split; [lia|]. auto.
Qed.
Lemma solid_empty : forall N r q, qinv true N r q -> nth M_POST (aq_maps q) [] = [] -> solid_post r.
Proof.
  intros N r q I E. openq I. pose proof (four_nth _ _ _ _ _ _ _ _ _ M_POST F) as K4. change (M_POST <? 4)%nat with true in K4. cbn iota in K4.
  destruct K4 as (p & f & ik & iv & il & es & h & E1 & E2 & -> & FR & ND). assert (NH : nth M_POST (aq_maps q) [] = h) by (now apply nth_error_nth). rewrite E in NH. subst h. inversion FR; subst.
  exists []. split; [|constructor]. exists p, ik, iv, il. unfold mkq. cbn [rq_maps]. now rewrite nth_error_map, E1.
Qed.

Lemma init_left : forall m m' f, x_init m = Ret (U_OK, (m', f)) -> m_new m' = tl (tl (tl (m_new m))).
Proof.
  intros m m' f E. unfold x_init in E.
  destruct (x_malloc m) as [[k|] m1] eqn:E1; [|discriminate E]. destruct (x_malloc m1) as [[v|] m2] eqn:E2; [|bd E h H; discriminate E].
  destruct (x_malloc m2) as [[l|] m3] eqn:E3; [|bd E h H; bd E h' H'; discriminate E].
  injection E as <- _. rewrite (malloc_left _ _ _ E3), (malloc_left _ _ _ E2), (malloc_left _ _ _ E1). reflexivity.
Qed.
Lemma ready_le : forall n k m, (k <= n)%nat -> ready n m -> ready k m.
Proof.
  intros n k m L R X. apply R. clear R. revert n L X. generalize (m_new m) as l. induction k as [|k IH]; intros l n L X; [destruct X|]. destruct n as [|n]; [lia|]. destruct l as [|b l]; [destruct X|].
  cbn [firstn] in *. destruct X as [X|X]; [now left|]. right. apply (IH l n); [lia|exact X].
Qed.
Lemma incoming_well : forall v, incoming_result (incoming_of v) = U_OK.
Proof. reflexivity. Qed.
Lemma zsum_app : forall a b, zsum (a ++ b) = zsum a + zsum b.
Proof. intros a b. unfold zsum. induction a as [|x a IH]; cbn [app fold_right]; [reflexivity|]. rewrite IH. lia. Qed.

(** the maps of an incoming request *)
Definition plain (q : areq) : Prop := aq_maps q = repeat [] 4 /\ aq_body q = None.
Lemma plain_incoming : forall v, plain (incoming_of v). Proof. intros v. split; reflexivity. Qed.
Lemma plain_less : forall v q, less (incoming_of v) q -> plain q.
Proof. intros v q (_ & _ & _ & _ & M & B & _). split; [now rewrite M|now rewrite B]. Qed.

(** ulfius_uri_logger and the beginning of the first call *)
Lemma connect_ok : forall N m v ids, mowns m ids -> open_memory (m_new m) -> 0 <= N -> v_cert v <> Some None ->
  exists m' o, x_connect m (v_uri v) (v_path v) = Ret (m', o) /\
  match o with
  | None => (hd true (m_new m) = false /\ mowns m' ids) \/ (short m /\ hd true (m_new m) = true /\ exists gone, length gone = 3%nat /\ mowns m' (gone ++ ids))
  | Some c => exists k p r ik iv il, c = mk_conn k (mkf ik iv il []) (Some (p, r)) None true /\
      exists z m2 r2 q, x_first_call m' r (v_cert v) (v_version v) (v_method v) (v_address v) = Ret (z, (m2, r2)) /\ qinv true N r2 q /\ mowns m2 (insides r2 ++ p :: fb ik iv il [] ++ k :: ids) /\
        h_use (m_heap m') k = Ret tt /\ h_use (m_heap m') p = Ret tt /\ z = incoming_result q /\
        (q = incoming_of v \/ (short m /\ less (incoming_of v) q))
  end.
Proof.
  intros N m v ids O OM N0 NC. unfold x_connect. destruct OM as [H|[R4 OM]].
  { destruct (malloc_first m H) as (m1 & E). destruct (x_malloc_ok _ _ O) as (p0 & m1' & E1 & L1 & C). rewrite E in E1. injection E1 as <- <-. rewrite E.
    destruct C as [(i & X & _)|(_ & _ & O1)]; [discriminate X|]. do 2 eexists. split; [reflexivity|]. left. auto. }
  assert (HD : hd true (m_new m) = true).
  { destruct (m_new m) as [|[] l]; auto. exfalso. apply R4. now left. }
  destruct (malloc_ready 3 m ids O R4) as (k & m1 & E1 & L1 & R1 & O1). rewrite E1.
  destruct (init_ready 0 m1 _ O1 R1) as (m2 & ik & iv & il & E2 & L2 & _ & O2). rewrite E2. unfold bind at 1. cbn [fst snd].
  assert (MN : m_new m2 = tl (tl (tl (tl (m_new m))))) by (rewrite (init_left _ _ _ E2), (malloc_left _ _ _ E1); reflexivity).
  assert (MO : hd true (m_new m2) = false \/ ~ In false (firstn 17 (m_new m2))).
  { rewrite MN. clear - OM. destruct OM as [OM|OM]; [left|right].
    - destruct (m_new m) as [|b0 [|b1 [|b2 [|b3 l]]]]; try discriminate OM. destruct l; exact OM.
    - intros X. apply OM. destruct (m_new m) as [|b0 [|b1 [|b2 [|b3 l]]]]; cbn [tl firstn] in *; auto; try (destruct X). do 4 right. exact X. }
  destruct (uri_logger_ok m2 (v_uri v) (v_path v) _ O2 MO) as (m3 & o & E3 & L3 & H3).
  destruct (incoming_ok true N m2 (v_uri v) (v_path v) (v_cert v) (v_version v) (v_method v) (v_address v) _ O2 MO N0 NC) as (m3' & o' & E3' & L3' & H3').
  rewrite E3 in E3'. injection E3' as <- <-. rewrite E3. unfold bind at 1. cbn [fst snd]. assert (LL : later m m2) by chain.
  destruct o as [[p r]|].
  - do 2 eexists. split; [reflexivity|]. exists k, p, r, ik, iv, il. split; [reflexivity|].
    destruct H3 as (u & q & fs & _ & _ & _ & _ & _ & OW). destruct H3' as (z & m4 & r2 & a & E4 & L4 & I & O4 & C).
    exists z, m4, r2, a. split; [exact E4|]. split; [exact I|]. split; [exact O4|].
    split; [apply (use_ok _ _ _ (proj1 OW)); do 3 (apply in_or_app; right); right; apply in_or_app; right; now left|].
    split; [apply (use_ok _ _ _ (proj1 OW)); do 3 (apply in_or_app; right); now left|].
    destruct C as [(-> & ->)|(SH & -> & L)]; [split; [reflexivity|]; now left|]. split; [reflexivity|]. right. split; [now apply LL|].
    destruct L as (Q1 & Q2 & Q3 & Q4 & Q5 & Q6 & Q7). split; [exact Q1|]. split; [exact Q2|]. split; [exact Q3|]. auto.
  - destruct H3 as (SH & O3). assert (O3' : mowns m3 (k :: (fb ik iv il [] ++ ids))) by mowns_by O3.
    destruct (x_free_ok _ _ _ O3') as (m4 & -> & O4 & L4 & _). unfold bind at 1. do 2 eexists. split; [reflexivity|]. right. split; [now apply LL|]. split; [exact HD|]. exists (fb ik iv il []). split; [reflexivity|exact O4].
Qed.

(** the first call *)
Definition begun (g : rconf) (N : Z) (v : visit) (ids : list nat) (res : outcome (mem * conn)) : Prop :=
  exists m' c a, res = Ret (m', c) /\ comes g v (Some a) 0 /\ cinv g N c a /\ mowns m' (conn_blocks c ++ ids).
Lemma conn_blocks_cnt : forall k ik iv il es rq post go x,
  cnt (conn_blocks (mk_conn k (mkf ik iv il es) rq post go)) x = (one k x + cnt (fb ik iv il es) x + cnt (match rq with Some q => req_blocks q | None => [] end) x + cnt (match post with Some i => [i] | None => [] end) x)%nat.
Proof. intros. unfold conn_blocks. cbn [k_block k_args k_req k_post]. rewrite !cnt_app, map_blocks_fb. lia. Qed.
Lemma begin_ok : forall g N N' m v k p r ik iv il z m2 r2 q ids, 0 <= N -> N' = N + zsum (map pair_size (v_headers v ++ v_args v ++ v_cookies v)) -> N' + 1 < two64 ->
  Forall (fun x : pair_in => grows (fst x)) (v_headers v ++ v_args v ++ v_cookies v) -> grows (v_post v) ->
  h_use (m_heap m) k = Ret tt -> h_use (m_heap m) p = Ret tt ->
  x_first_call m r (v_cert v) (v_version v) (v_method v) (v_address v) = Ret (z, (m2, r2)) -> qinv true N r2 q -> mowns m2 (insides r2 ++ p :: fb ik iv il [] ++ k :: ids) ->
  z = incoming_result q -> q = incoming_of v \/ (In false (fst (v_open v)) /\ less (incoming_of v) q) ->
  begun g N' v ids (x_begin g m (mk_conn k (mkf ik iv il []) (Some (p, r)) None true) v).
Proof.
  intros g N N' m v k p r ik iv il z m2 r2 q ids N0 EN LT GR GP UK UP FC I O EZ Q. unfold x_begin. cbn [k_block k_req k_args k_post]. rewrite UK. unfold bind at 1. rewrite UP. unfold bind at 1. rewrite FC. unfold bind at 1.
  assert (PL : plain q) by (destruct Q as [->|[_ L]]; [apply plain_incoming|eapply plain_less; eauto]). destruct PL as [PM PB].
  rewrite !map_app, !zsum_app in EN. pose proof (zsum_nonneg _ pair_size (v_headers v) pair_size_nonneg) as Z1. pose proof (zsum_nonneg _ pair_size (v_args v) pair_size_nonneg) as Z2. pose proof (zsum_nonneg _ pair_size (v_cookies v) pair_size_nonneg) as Z3.
  apply Forall_app in GR as [GH GR]. apply Forall_app in GR as [GA GC].
  destruct (z =? U_OK) eqn:ZO; cbn [negb].
  2:{ do 2 eexists. exists (mk_acon [] (Some q) false false). split; [reflexivity|].
      assert (ER : incoming_result q = U_ERROR_MEMORY). { subst z. unfold incoming_result in *. destruct (nth_error (aq_texts q) T_VERB) as [[?|]|]; destruct (aq_addr q); auto; discriminate ZO. }
      split. { destruct Q as [->|[SH L]]; [discriminate ER|]. apply cm_refused; auto. }
      split. { split; [|split; [reflexivity|]; split; [reflexivity|]].
        - exists ik, iv, il, []. split; [reflexivity|]. split; constructor.
        - cbn [k_req ac_req ac_form]. split; [eapply qinv_mono; [|exact I]; lia|]. split; [eapply solid_empty; [exact I|now rewrite PM]|]. unfold bytes_of. rewrite PB. change (zlen []) with 0. split; [lia|]. split; [lia|discriminate]. }
      eapply mowns_ext; [exact O|]. intros x. rewrite !cnt_app, conn_blocks_cnt, req_insides. repeat rewrite ?cnt_app, ?cnt_cons, ?cnt_nil. lia. }
  apply Z.eqb_eq in ZO. rewrite ZO in EZ. clear ZO z FC.
  destruct (on_map any (fun _ h => collects (g_check g) [] (v_headers v) h) N N' m2 r2 q (p :: fb ik iv il [] ++ k :: ids) M_HEADER (fun m f => x_fill_all (g_check g) m f (v_headers v)) I) as (z1 & m3 & r3 & hs & -> & I3 & O3 & C3 & _); [lia|exact O|unfold M_HEADER; lia| |].
  { intros ik0 iv0 il0 es0 fr' _ OO FF DD. assert (EH : nth M_HEADER (aq_maps q) [] = []) by (now rewrite PM). rewrite EH in FF, DD. apply ran_filled. eapply filled_mono; [|eapply fill_all_ok; eauto]; lia. }
  unfold bind at 1. cbn [fst snd].
  assert (O3' : mowns m3 (fb ik iv il [] ++ (insides r3 ++ p :: k :: ids))) by mowns_by O3.
  destruct (fill_all_ok (g_check g) (v_args v) N m3 ik iv il [] [] _ O3' (Forall2_nil _) (NoDup_nil _) N0) as (z2 & m4 & ik4 & iv4 & il4 & es4 & args & -> & O4 & F4 & ND4 & C4); [lia|exact GA|].
  unfold bind at 1. cbn [fst snd].
  assert (O4' : mowns m4 (insides r3 ++ (fb ik4 iv4 il4 es4 ++ p :: k :: ids))) by mowns_by O4.
  destruct (on_map any (fun _ h => collects (g_check g) [] (v_cookies v) h) N' N' m4 r3 (put_maps q (set_nth (aq_maps q) M_HEADER hs)) (fb ik4 iv4 il4 es4 ++ p :: k :: ids) M_COOKIE (fun m f => x_fill_all (g_check g) m f (v_cookies v)) I3) as (z5 & m5 & r5 & cs & -> & I5 & O5 & C5 & _); [lia|exact O4'|unfold M_COOKIE; lia| |].
  { intros ik0 iv0 il0 es0 fr' _ OO FF DD. cbn [put_maps aq_maps] in FF, DD. assert (EH : nth M_COOKIE (set_nth (aq_maps q) M_HEADER hs) [] = []) by (now rewrite PM). rewrite EH in FF, DD. inversion FF; subst es0.
    apply ran_filled. eapply filled_mono; [|eapply (fill_all_ok (g_check g) (v_cookies v) N); [exact OO|constructor|constructor|exact N0|lia|exact GC]]; lia. }
  unfold bind at 1. cbn [fst snd]. cbv zeta.
  assert (EQ : put_maps (put_maps q (set_nth (aq_maps q) M_HEADER hs)) (set_nth (aq_maps (put_maps q (set_nth (aq_maps q) M_HEADER hs))) M_COOKIE cs) = with_fields q hs cs) by reflexivity.
  rewrite EQ in I5. clear EQ.
  assert (FH : fields (with_fields q hs cs) = hs) by (unfold fields, with_fields; cbn [put_maps aq_maps]; now rewrite PM).
  assert (FP : nth M_POST (aq_maps (with_fields q hs cs)) [] = []) by (unfold with_fields; cbn [put_maps aq_maps]; now rewrite PM).
  assert (FB : bytes_of (with_fields q hs cs) = []) by (unfold bytes_of, with_fields; cbn [put_maps aq_body]; now rewrite PB).
  destruct (content_type_ok N' m5 r5 _ _ I5 O5 (incl_appl _ (incl_refl _))) as (t & -> & T). unfold bind at 1. rewrite FH in T.
  assert (COK : comes g v (Some (mk_acon args (Some (with_fields q hs cs)) (reads_forms g (a_field CT hs)) true)) 0) by (apply cm_ok; auto).
  pose proof (wants_spec g t _ T) as W. rewrite W. destruct (reads_forms g (a_field CT hs)) eqn:RF.
  - assert (O5' : mowns (again m5 (v_post v)) (insides r5 ++ fb ik4 iv4 il4 es4 ++ p :: k :: ids)) by (now apply again_owns).
    destruct (x_malloc_ok _ _ O5') as (pi & m6 & -> & L6 & [(i & -> & O6)|(-> & S6 & O6)]).
    + do 2 eexists. exists (mk_acon args (Some (with_fields q hs cs)) true true). split; [reflexivity|].
      split; [exact COK|]. split.
      * split; [exists ik4, iv4, il4, es4; split; [reflexivity|]; split; [eapply erel_all; [|exact F4]; lia|exact ND4]|]. split; [reflexivity|]. split; [reflexivity|].
        cbn [k_req ac_req ac_form]. split; [exact I5|]. split; [eapply solid_empty; [exact I5|exact FP]|]. rewrite FB. change (zlen []) with 0. split; [lia|]. split; [lia|]. intros _. now rewrite FH.
      * eapply mowns_ext; [exact O6|]. intros x. rewrite !cnt_app, conn_blocks_cnt, req_insides. repeat rewrite ?cnt_app, ?cnt_cons, ?cnt_nil. lia.
    + assert (O6' : mowns m6 (req_blocks (p, r5) ++ (fb ik4 iv4 il4 es4 ++ k :: ids))).
      { rewrite req_insides. mowns_by O6. }
      destruct (qinv_clean true N' m6 p r5 _ _ I5 O6') as (m7 & -> & O7 & L7). unfold bind at 1.
      do 2 eexists. exists (mk_acon args None false false). split; [reflexivity|]. split; [eapply cm_no_processor; eauto|]. split.
      * split; [exists ik4, iv4, il4, es4; split; [reflexivity|]; split; [eapply erel_all; [|exact F4]; lia|exact ND4]|]. split; [reflexivity|]. split; [reflexivity|]. reflexivity.
      * eapply mowns_ext; [exact O7|]. intros x. rewrite !cnt_app, conn_blocks_cnt. repeat rewrite ?cnt_app, ?cnt_cons, ?cnt_nil. lia.
  - do 2 eexists. exists (mk_acon args (Some (with_fields q hs cs)) false true). split; [reflexivity|]. split; [exact COK|]. split.
    * split; [exists ik4, iv4, il4, es4; split; [reflexivity|]; split; [eapply erel_all; [|exact F4]; lia|exact ND4]|]. split; [reflexivity|]. split; [reflexivity|].
      cbn [k_req ac_req ac_form]. split; [exact I5|]. split; [eapply solid_empty; [exact I5|exact FP]|]. rewrite FB. change (zlen []) with 0. split; [lia|]. split; [lia|]. discriminate.
    * eapply mowns_ext; [exact O5|]. intros x. rewrite !cnt_app, conn_blocks_cnt, req_insides. repeat rewrite ?cnt_app, ?cnt_cons, ?cnt_nil. lia.
Qed.

(** ** a chunk of the body *)
Lemma zlen_realloc : forall b n, 0 <= n -> zlen (realloc b n) = n.
Proof. intros b n H. unfold realloc, zlen, zfirstn. rewrite app_length, firstn_length, repeat_length. lia. Qed.
Lemma zfirstn_realloc : forall x n l, 0 <= l <= n -> l <= zlen x -> zfirstn l (realloc (block_of x) n) = block_of (zfirstn l x).
Proof.
  intros x n l H1 H2. unfold realloc. assert (L : l <= zlen (zfirstn n (block_of x))).
  { unfold zlen, zfirstn. rewrite firstn_length. unfold block_of. rewrite map_length. unfold zlen in H2. lia. }
  rewrite zfirstn_app_le by exact L. unfold zfirstn. rewrite firstn_firstn. unfold block_of. rewrite firstn_map. f_equal. f_equal. lia.
Qed.
Lemma written_block : forall l, written (block_of l) = Ret l.
Proof. induction l as [|c l IH]; [reflexivity|]. cbn [block_of map written]. fold (block_of l). rewrite IH. reflexivity. Qed.
Lemma body_copied : forall x l data current, 0 <= l <= zlen x -> 0 <= current <= zlen data ->
  memcpy (realloc (block_of x) (l + current)) l (block_of data) current = Ret (block_of (zfirstn l x ++ zfirstn current data)).
Proof.
  intros x l data current L C. unfold memcpy. rewrite zlen_realloc, zlen_block by lia.
  replace ((0 <=? l) && (0 <=? current) && (l + current <=? l + current) && (current <=? zlen data)) with true by (symmetry; repeat (apply andb_true_intro; split); apply Z.leb_le; lia).
  f_equal. rewrite zfirstn_realloc by lia. rewrite zskipn_all by (rewrite zlen_realloc; lia). rewrite app_nil_r. unfold block_of, zfirstn. rewrite map_app. f_equal. apply firstn_map.
Qed.
Lemma add_body_spec : forall max old data current, zlen (match old with Some b => b | None => [] end) + zlen data < two64 -> (0 < max -> zlen (match old with Some b => b | None => [] end) <= max) ->
  current = (if (0 <? max) && (max <? zlen (match old with Some b => b | None => [] end) + zlen data) then max - zlen (match old with Some b => b | None => [] end) else zlen data) ->
  0 <= current <= zlen data /\ add_body max old data = match old with Some b => b | None => [] end ++ zfirstn current data.
Proof.
  intros max old data current LT MX ->. unfold add_body. set (b := match old with Some b => b | None => [] end) in *. clearbody b. pose proof (zlen_nonneg _ b) as B0. pose proof (zlen_nonneg _ data) as D0.
  destruct (0 <? max) eqn:M; cbn [andb].
  - apply Z.ltb_lt in M. specialize (MX M). destruct (max <? zlen b + zlen data) eqn:C.
    + apply Z.ltb_lt in C. split; [lia|]. apply Utf8Proofs.zfirstn_app_plus. lia.
    + apply Z.ltb_ge in C. split; [lia|]. rewrite zfirstn_all. unfold zfirstn. apply firstn_all2. unfold zlen in *. rewrite app_length. lia.
  - split; [lia|]. now rewrite zfirstn_all.
Qed.
Lemma map_at_body : forall r k es b n, map_at r k es -> map_at (with_req_body r b n) k es.
Proof. intros r k es b n H. exact H. Qed.
Lemma map_at_eq : forall r k p ik iv il es es', map_at r k es' -> nth_error (rq_maps r) k = Some (Some (Some (p, mkf ik iv il es))) -> map hv es' = map hv es.
Proof.
  intros r k p ik iv il es es' (p' & ik' & iv' & il' & E') E. rewrite E' in E.
  inversion E as [[H0 H1 H2 H3 H4 H5 H6 H7]]. now apply app_inj_tail in H4 as [H4 _].
Qed.
Lemma chunk_ok : forall g N N' m c a ch i ids, cinv g N c a -> k_going c = true -> mowns m (conn_blocks c ++ ids) -> rop_ok (Sends i ch) -> 0 <= N ->
  N' = N + rop_size (Sends i ch) -> N' + 1 < two64 ->
  exists m' c' a', x_chunk g m c ch = Ret (m', c') /\ sends g ch a a' /\ cinv g N' c' a' /\ mowns m' (conn_blocks c' ++ ids).
Proof.
  intros g N N' m c a ch i ids ((ik & iv & il & es & EA & FA & NDA) & GO & PO & RQ) KG O (G1 & DN & GP) N0 EN LT. unfold x_chunk.
  destruct c as [k args rq post go]. cbn [k_block k_args k_req k_post k_going] in *. subst args.
  assert (OW : mowns m (fb ik iv il es ++ k :: match rq with Some q => req_blocks q | None => [] end ++ match post with Some i => [i] | None => [] end ++ ids)).
  { eapply mowns_ext; [exact O|]. intros x. rewrite !cnt_app, conn_blocks_cnt. repeat rewrite ?cnt_app, ?cnt_cons, ?cnt_nil. lia. }
  rewrite (use_ok _ _ k (proj1 OW)) by (apply in_or_app; right; now left). unfold bind at 1.
  destruct rq as [[p r]|]; destruct (ac_req a) as [q|] eqn:EQ; try contradiction. 2:{ congruence. }
  destruct RQ as (I & SP & BN & BM & FT).
  rewrite (use_ok _ _ p (proj1 OW)) by (apply in_or_app; right; right; now left). unfold bind at 1.
  pose proof I as I0. openq I. rewrite req_insides, insides_mkq in OW. unfold qb in OW.
  qmembers. unfold bind at 1. unfold bind at 1. fold (mkq ts ad fs bd ln ct).
  pose proof (q_body _ _ _ _ _ _ _ _ _ F) as QB.
  set (x := match bd with Some (_, x) => x | None => [] end).
  assert (LX : ln = zlen (bytes_of q) /\ 0 <= ln <= zlen x /\ zfirstn ln x = bytes_of q).
  { unfold bytes_of, x. destruct bd as [[j y]|]; cbn [qbody] in QB.
    - destruct QB as [QL ->]. rewrite zlen_zfirstn by lia. auto.
    - destruct QB as [-> QL]. rewrite QL by reflexivity. split; [reflexivity|]. split; [unfold zlen; cbn; lia|reflexivity]. }
  destruct LX as (EL & LB & EX). cbn [rop_size] in EN. pose proof (zsum_nonneg _ piece_size (ch_pieces ch) piece_size_nonneg) as PS. pose proof (zlen_nonneg _ (ch_data ch)) as D0.
  rewrite add64_small by lia. cbv zeta.
  set (over := (0 <? g_max_body g) && (g_max_body g <? ln + zlen (ch_data ch))).
  set (current := if over then g_max_body g - ln else zlen (ch_data ch)).
  destruct (add_body_spec (g_max_body g) (aq_body q) (ch_data ch) current) as [CR AB].
  { change (zlen (bytes_of q) + zlen (ch_data ch) < two64). lia. } { exact BM. } { change (current = if (0 <? g_max_body g) && (g_max_body g <? zlen (bytes_of q) + zlen (ch_data ch)) then g_max_body g - zlen (bytes_of q) else zlen (ch_data ch)). rewrite <- EL. reflexivity. }
  change (match aq_body q with Some b => b | None => [] end) with (bytes_of q) in AB.
  assert (EC : (if over then (g_max_body g - ln) mod two64 else zlen (ch_data ch)) = current).
  { unfold current. destruct over eqn:OV; [|reflexivity]. apply Z.mod_small. unfold current in CR. lia. }
  assert (EB : (if over then g_max_body g else ln + zlen (ch_data ch)) = ln + current) by (unfold current; destruct over; lia).
  rewrite EC, EB. replace (ln <=? ln + current) with true by (symmetry; apply Z.leb_le; lia).
  set (rest := ptr_blocks ad ++ mb fs ++ ptr_blocks ct ++ tb ts ++ p :: fb ik iv il es ++ k :: match post with Some i => [i] | None => [] end ++ ids).
  assert (O1 : mowns (again m (ch_body ch)) (ptr_blocks bd ++ rest)) by (apply again_owns; [|exact G1]; unfold rest; mowns_by OW).
  destruct (x_realloc_ok _ _ _ _ O1) as (j & m1 & -> & O2 & L1). unfold bind at 1. cbn [fst snd]. fold x.
  rewrite body_copied by assumption. unfold bind at 1. rewrite written_block. unfold bind at 1. rewrite EX, <- AB.
  rewrite add64_small by lia.
  set (body := add_body (g_max_body g) (aq_body q) (ch_data ch)) in *.
  change (with_req_body (mkq ts ad fs bd ln ct) (Some (j, body)) (ln + current)) with (mkq ts ad fs (Some (j, body)) (ln + current) ct).
  assert (LBODY : zlen body = ln + current) by (rewrite AB, zlen_app, zlen_zfirstn by lia; lia).
  assert (I1 : qinv true N (mkq ts ad fs (Some (j, body)) (ln + current) ct) (put_body q (Some body))).
  { six. destruct F; constructor; auto. cbn [put_body aq_body qbody]. rewrite <- LBODY. split; [pose proof (zlen_nonneg _ body); lia|]. now rewrite zfirstn_all. }
  assert (O3 : mowns m1 (insides (mkq ts ad fs (Some (j, body)) (ln + current) ct) ++ (p :: fb ik iv il es ++ k :: match post with Some i => [i] | None => [] end ++ ids))).
  { eapply mowns_ext; [exact O2|]. intros y. unfold rest. rewrite !cnt_app, insides_mkq. unfold qb. cbn [ptr_blocks]. repeat rewrite ?cnt_app, ?cnt_cons, ?cnt_nil. lia. }
  destruct (content_type_ok N m1 _ _ _ I1 O3 (incl_appl _ (incl_refl _))) as (t & -> & T). unfold bind at 1. change (fields (put_body q (Some body))) with (fields q) in T.
  assert (BM' : 0 < g_max_body g -> zlen body <= g_max_body g).
  { intros M. specialize (BM M). rewrite LBODY. unfold current, over in *. replace (0 <? g_max_body g) with true by (symmetry; now apply Z.ltb_lt). cbn [andb]. destruct (g_max_body g <? ln + zlen (ch_data ch)) eqn:C; [lia|]. apply Z.ltb_ge in C. lia. }
  assert (BYTES : cinv g N' (mk_conn k (mkf ik iv il es) (Some (p, mkq ts ad fs (Some (j, body)) (ln + current) ct)) post true) (mk_acon (ac_args a) (Some (put_body q (Some body))) (ac_form a) true)).
  { split; [exists ik, iv, il, es; split; [reflexivity|]; split; [eapply erel_all; [|exact FA]; lia|exact NDA]|]. split; [reflexivity|]. split; [exact PO|]. cbn [k_req ac_req ac_form].
    split; [eapply qinv_mono; [|exact I1]; lia|]. split; [exact SP|]. split; [change (zlen body <= N'); lia|]. split; [exact BM'|exact FT]. }
  assert (AG : ac_going a = true) by congruence.
  destruct a as [aargs arq form going]. cbn [ac_args ac_req ac_form ac_going] in *. subst arq going. subst go.
  assert (OB : mowns m1 (conn_blocks (mk_conn k (mkf ik iv il es) (Some (p, mkq ts ad fs (Some (j, body)) (ln + current) ct)) post true) ++ ids)).
  { eapply mowns_ext; [exact O3|]. intros y. rewrite !cnt_app, conn_blocks_cnt, req_insides. repeat rewrite ?cnt_app, ?cnt_cons, ?cnt_nil. lia. }
  destruct post as [pp|]; subst form.
  2:{ assert (NB : sends g ch (mk_acon aargs (Some q) false true) (mk_acon aargs (Some (put_body q (Some body))) false true)) by apply se_bytes.
      destruct (is_form_type t); do 3 eexists; (split; [reflexivity|]); (split; [exact NB|]); (split; [exact BYTES|exact OB]). }
  rewrite (form_spec g t _ T (FT eq_refl)).
  rewrite (use_ok _ _ pp (proj1 O3)) by (apply in_or_app; right; right; apply in_or_app; right; right; now left). unfold bind at 1.
  destruct SP as (eps & MA & SE).
  destruct (on_map solid (fun _ h => posts g (nth M_POST (aq_maps q) []) (ch_pieces ch) h) N N' m1 _ _ (p :: fb ik iv il es ++ k :: [pp] ++ ids) M_POST (fun m f => x_pieces g m f (ch_pieces ch)) I1) as (z & m2 & r2 & h & -> & I2 & OO & C2 & es2 & MA2 & SE2);
    [lia|exact O3|unfold M_POST; lia| |].
  { intros ik0 iv0 il0 es0 fr' MA0 O0 F0 ND0. cbn [put_body aq_maps] in F0, ND0.
    assert (S0 : solid es0). { destruct MA0 as (p0 & a1 & a2 & a3 & E0). unfold solid. rewrite <- (map_at_eq (mkq ts ad fs bd ln ct) M_POST p0 a1 a2 a3 es0 eps MA E0). exact SE. }
    destruct (pieces_ok g (ch_pieces ch) N m1 ik0 iv0 il0 es0 _ fr' O0 F0 ND0 S0 N0) as (z & m' & b1 & b2 & b3 & es' & a' & E' & O' & F' & ND' & S' & P'); [lia|exact GP|].
    exists z, m', b1, b2, b3, es', a'. split; [exact E'|]. split; [exact O'|]. split; [eapply erel_all; [|exact F']; lia|]. split; [exact ND'|]. split; [exact S'|exact P']. }
  unfold bind at 1. cbn [fst snd]. do 3 eexists. split; [reflexivity|]. split; [apply (se_form g ch aargs q h C2)|]. fold body. split.
  - split; [exists ik, iv, il, es; split; [reflexivity|]; split; [eapply erel_all; [|exact FA]; lia|exact NDA]|]. split; [reflexivity|]. split; [reflexivity|]. cbn [k_req ac_req ac_form].
    split; [exact I2|]. split; [exists es2; auto|]. split; [change (zlen body <= N'); lia|]. split; [exact BM'|]. intros _.
    replace (fields (put_maps (put_body q (Some body)) (set_nth (aq_maps q) M_POST h))) with (fields q); [now apply FT|].
    unfold fields. cbn [put_maps aq_maps]. destruct (aq_maps q) as [|x0 [|x1 [|x2 [|x3 l]]]]; reflexivity.
  - eapply mowns_ext; [exact OO|]. intros y. rewrite !cnt_app, conn_blocks_cnt, req_insides. repeat rewrite ?cnt_app, ?cnt_cons, ?cnt_nil. lia.
Qed.

(** ** the end of a connection *)
Lemma completed_ok : forall g N m c a ids, cinv g N c a -> mowns m (conn_blocks c ++ ids) -> exists m', x_completed m c = Ret m' /\ mowns m' ids.
Proof.
  intros g N m c a ids ((ik & iv & il & es & EA & FA & NDA) & GO & PO & RQ) O. unfold x_completed.
  destruct c as [k args rq post go]. cbn [k_block k_args k_req k_post k_going] in *. subst args.
  assert (OW : mowns m (ptr_blocks (at_block post tt) ++ match rq with Some q => req_blocks q | None => [] end ++ fb ik iv il es ++ k :: ids)).
  { eapply mowns_ext; [exact O|]. intros x. rewrite !cnt_app, conn_blocks_cnt. destruct post; cbn [at_block ptr_blocks]; repeat rewrite ?cnt_app, ?cnt_cons, ?cnt_nil; lia. }
  rewrite (use_ok _ _ k (proj1 OW)) by (do 3 (apply in_or_app; right); now left). unfold bind at 1.
  destruct (x_free_ptr _ _ _ _ OW) as (m1 & E1 & O1 & L1). assert (AD : addr (at_block post tt) = post) by (destruct post; reflexivity). rewrite AD in E1. rewrite E1. unfold bind at 1.
  assert (E2 : exists m2, (match rq with None => Ret m1 | Some (p, r) => x_clean_req_full m1 p r end) = Ret m2 /\ mowns m2 (fb ik iv il es ++ k :: ids)).
  { destruct rq as [[p r]|]; [|exists m1; auto]. destruct (ac_req a) as [q|]; [|contradiction]. destruct RQ as (I & _). destruct (qinv_clean true N m1 p r q _ I O1) as (m2 & E & O2 & _). exists m2. auto. }
  destruct E2 as (m2 & -> & O2). unfold bind at 1.
  destruct (x_clean_ok _ _ _ _ _ _ O2) as (m3 & -> & O3 & _). unfold bind at 1. cbn [fst].
  destruct (x_free_ok _ _ _ O3) as (m4 & -> & O4 & _). eauto.
Qed.
