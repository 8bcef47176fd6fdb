(** Proofs about the memory of responses that are received (C108): the headers and the body. *)
From Coq Require Import String ZArith Bool List Lia.
From Verif Require Import Base BaseFacts UMapModel UMapProofs StrModel ClientModel ClientSpec ClientProofs OwnModel OwnSpec OwnProofs MapMemModel MapMemSpec MapMemProofs MapMemPut
  MapMemRun MapMemSteps RespMemModel RespMemSpec RespMemProofs RespMemCalls RespMemSteps RecvMemModel RecvMemSpec RecvMemProofs RecvMemSteps PullMemModel PullMemSpec.
Import ListNotations.
Open Scope Z_scope.

Lemma rinv_mono : forall dups N N' r a, N <= N' -> rinv dups N r a -> rinv dups N' r a.
Proof.
  intros dups N N' r a L I. openr I. do 16 eexists. split; [reflexivity|]. destruct F; constructor; auto. eapply erel_all; eauto.
Qed.
Lemma set_header_same : forall a, set_header a (ar_header a) = a. Proof. now intros []. Qed.
Lemma set_set : forall a h h', set_header (set_header a h) h' = set_header a h'. Proof. reflexivity. Qed.

(** ** the search without case *)
Lemma field_hit : forall k ap x old aq, (forall e, In e ap -> str_caseeqb (fst e) k = false) -> str_caseeqb x k = true -> field k (ap ++ (x, old) :: aq) = Some old.
Proof.
  intros k ap x old aq NH H. unfold field. induction ap as [|[y v] ap IH]; cbn [app find]; [unfold is_name at 1; cbn [fst]; now rewrite H|].
  pose proof (NH (y, v) (or_introl eq_refl)) as Ny. cbn [fst] in Ny. unfold is_name at 1. cbn [fst]. rewrite Ny. apply IH. intros e E. apply NH. now right.
Qed.
Lemma field_miss : forall k a, (forall e, In e a -> str_caseeqb (fst e) k = false) -> field k a = None.
Proof.
  intros k a NH. unfold field. induction a as [|[y v] a IH]; cbn [find]; [reflexivity|].
  pose proof (NH (y, v) (or_introl eq_refl)) as Ny. unfold is_name at 1. rewrite Ny. apply IH. intros e E. apply NH. now right.
Qed.
Lemma field_any : forall k a, existsb (fun e => matches true k (fst e)) a = match field k a with Some _ => true | None => false end.
Proof.
  intros k a. unfold field. induction a as [|[y v] a IH]; cbn [existsb find]; [reflexivity|]. unfold is_name at 1. cbn [fst matches]. destruct (str_caseeqb y k); [reflexivity|exact IH].
Qed.
Lemma case_search : forall N m ids ik iv il es a k, mowns m ids -> incl (fb ik iv il es) ids -> Forall2 (erel N) es a ->
  x_has_key_case m (mkf ik iv il es) k = Ret (match field k a with Some _ => true | None => false end) /\
  (forall old, field k a = Some old -> zlen old <= N /\ exists p t, x_get_case m (mkf ik iv il es) k = Ret p /\ x_text m p = Ret t /\ (t = Some (text old) \/ (t = None /\ old = []))).
Proof.
  intros N m ids ik iv il es a k O CF FR.
  assert (CE : incl (flat_map eblocks es) ids) by (intros x X; apply CF; unfold fb; right; right; now right).
  assert (DK : forall B (g : nat * list (ptr str) -> outcome B), bind (x_deref m (f_keys (mkf ik iv il es))) g = g (ik, map (fun e => Some (hk e)) es ++ [None])).
  { intros B g. cbn [mkf f_keys]. rewrite (x_deref_ok _ m ik _ ids O) by (apply CF; now left). reflexivity. }
  unfold x_has_key_case, x_get_case. rewrite !DK. cbn [snd].
  destruct (case_split N k es a FR) as [(q & e & q' & ap & x & old & aq & -> & -> & R & H & P1 & P2)|[P1 P2]].
  - assert (KE : snd (hk e) = x) by apply R. rewrite <- KE in H.
    pose proof (x_scan_null_hit m ids (fun y => str_caseeqb y k) q e q' 0 O CE P1 H) as SN. cbn [plus] in SN. rewrite !SN. rewrite KE in H.
    rewrite (field_hit k ap x old aq P2 H). cbn [bind]. split; [reflexivity|]. intros o Eo. injection Eo as <-. destruct R as (_ & _ & [HL V] & LE). cbn [snd] in *. split; [exact LE|].
    cbn [mkf f_values]. rewrite (x_deref_ok _ m iv _ ids O) by (apply CF; right; now left). cbn [bind snd]. rewrite (aget_map _ _ hv).
    destruct (hv e) as [[i b]|] eqn:HV.
    + subst b. exists (Some (i, block_of (old ++ [0]))). eexists. split; [reflexivity|]. split; [apply (block_text m ids i old O)|].
      { apply CE. apply in_flat_map. exists e. split; [apply in_elt|]. unfold eblocks. rewrite HV. right. now left. }
      left. unfold text. destruct old; reflexivity.
    + exists None, None. split; [reflexivity|]. split; [reflexivity|]. right. auto.
  - pose proof (x_scan_null_miss m ids (fun y => str_caseeqb y k) es 0 O CE P1) as SN. cbn [plus] in SN. rewrite !SN. rewrite (field_miss k a P2). cbn [bind]. split; [reflexivity|]. discriminate.
Qed.
Lemma text_le : forall old, zlen (text old) <= zlen old.
Proof. intros old. unfold text. destruct (a_text old) as [t|] eqn:E; [now apply text_small|apply zlen_nonneg]. Qed.

(** the removal of a name without case *)
Lemma remove_call : forall dups N m r a fr k, rinv dups N r a -> mowns m (inner r ++ fr) ->
  exists m' r', x_on_header m r (fun m f => x_remove_key m f (matches true k)) = Ret (fst (a_remove_key (matches true k) (ar_header a)), (m', r')) /\ later m m' /\
    rinv dups N r' (set_header a (without k (ar_header a))) /\ mowns m' (inner r' ++ fr).
Proof.
  intros dups N m r a fr k I O. openr I. unfold x_on_header. members. unfold bind at 1.
  assert (O0 : mowns m (fb ik iv il es ++ (ih :: ptr_blocks pr ++ ptr_blocks rl ++ ckb ck ++ ptr_blocks bd ++ (iw :: ptr_blocks wp ++ ptr_blocks we ++ pl :: exb ex) ++ fr))) by rby O.
  rewrite (x_deref_ok _ m ih _ _ O0) by (apply in_or_app; right; now left). unfold bind at 1. cbn [fst snd].
  destruct (remove_key_call N m ik iv il es (ar_header a) (matches true k) _ O0 (r_header _ _ _ _ _ _ _ _ _ _ _ _ _ F) (r_nodup _ _ _ _ _ _ _ _ _ _ _ _ _ F))
    as (c & m1 & ik1 & iv1 & il1 & es1 & h1 & E & L1 & O1 & F1 & ND1 & CASE).
  assert (C2 : (c, h1) = a_remove_key (matches true k) (ar_header a)).
  { destruct CASE as [C2|(-> & S1 & ->)]; [exact C2|]. exfalso. clear - E O0 F. unfold x_remove_key in E.
    destruct (x_remove_loop_ok (matches true k) (ih :: ptr_blocks pr ++ ptr_blocks rl ++ ckb ck ++ ptr_blocks bd ++ (iw :: ptr_blocks wp ++ ptr_blocks we ++ pl :: exb ex) ++ fr) es [] m ik iv il false)
      as (m1' & ik1' & iv1' & il1' & R & L1' & O1'); [now rewrite app_nil_r|].
    rewrite !app_nil_r in R. cbn [mkf f_nb] in E. fold (mkf ik iv il es) in E. rewrite R in E. injection E as E _ _. destruct (existsb _ _) in E; discriminate E. }
  injection C2 as -> ->. rewrite E. unfold bind at 1. exists m1, (mkr pr ih ik1 iv1 il1 es1 rl ck nb bd ln iw wp we pl ex).
  split; [reflexivity|]. split; [exact L1|]. split; [|rby O1]. do 16 eexists. split; [reflexivity|]. destruct F; constructor; auto.
Qed.

(** ** one field *)
Definition field_case (a : aresp) (fell : Prop) (k v : str) (h : amap) : Prop :=
  match field k (ar_header a) with
  | None => h = a_put k (Some v) (ar_header a) \/ (fell /\ h = ar_header a)
  | Some old => h = a_put k (Some (text old ++ bs ", " ++ v)) (without k (ar_header a)) \/
      (fell /\ (h = a_put k None (without k (ar_header a)) \/ h = without k (ar_header a)))
  end.
Lemma field_ok : forall N N' m r a fr k v, rinv false N r a -> mowns m (inner r ++ fr) -> k <> [] -> 0 <= N -> N + zlen v + 3 <= N' -> N' + 1 < two64 ->
  (x_header_field m r (Some k) (Some v) = UB NullDeref /\ field k (ar_header a) = Some []) \/
  exists m' r' h, x_header_field m r (Some k) (Some v) = Ret (m', r') /\ rinv false N' r' (set_header a h) /\ mowns m' (inner r' ++ fr) /\ field_case a (short m) k v h.
Proof.
  intros N N' m r a fr k v I O K N0 LE NT. assert (I' : rinv false N' r a) by (eapply rinv_mono; [|exact I]; pose proof (zlen_nonneg _ v); lia).
  assert (SE : exists ih f, x_member (q_header r) = Ret (Some (ih, f)) /\ x_deref m (Some (ih, f)) = Ret (ih, f) /\
     x_has_key_case m f k = Ret (match field k (ar_header a) with Some _ => true | None => false end) /\
     (forall old, field k (ar_header a) = Some old -> zlen old <= N /\ exists p t, x_get_case m f k = Ret p /\ x_text m p = Ret t /\ (t = Some (text old) \/ (t = None /\ old = [])))).
  { clear I'. openr I. assert (C : incl (ih :: fb ik iv il es) (inner (mkr pr ih ik iv il es rl ck nb bd ln iw wp we pl ex) ++ fr)).
    { intros x X. apply in_or_app. left. apply cnt_in. apply cnt_in in X. rewrite inner_mkr. unfold rb. rewrite !cnt_app. rewrite ?cnt_cons in *. lia. }
    exists ih, (mkf ik iv il es). split; [reflexivity|]. split; [apply (x_deref_ok _ m ih _ _ O); apply C; now left|].
    apply (case_search N m _ ik iv il es (ar_header a) k O); [intros x X; apply C; now right|apply F]. }
  destruct SE as (ih & f & E1 & E2 & E3 & E4). unfold x_header_field. rewrite E1. cbn [bind]. rewrite E2. cbn [bind snd]. rewrite E3. cbn [bind]. unfold field_case.
  pose proof (zlen_nonneg _ v) as V0.
  destruct (field k (ar_header a)) as [old|] eqn:FI; cbn [negb].
  - destruct (E4 old eq_refl) as (LO & p & t & -> & E6 & T). cbn [bind]. rewrite E6. cbn [bind]. destruct T as [->|[-> ->]]; [|left; auto].
    right. destruct (x_malloc_ok m _ O) as (tmp & m1 & -> & L1 & OT).
    set (tb := match tmp with Some i => [i] | None => [] end).
    assert (O1 : mowns m1 (inner r ++ (tb ++ fr))).
    { destruct OT as [(i & -> & OT)|(-> & _ & OT)]; subst tb; [mowns_by OT|exact OT]. }
    destruct (remove_call false N' m1 r a (tb ++ fr) k I' O1) as (m2 & r1 & -> & L2 & I1 & O2). cbn [bind].
    unfold a_remove_key. cbn [fst]. rewrite field_any, FI. change (U_OK =? U_OK) with true. cbn iota.
    destruct (header_call false N' m2 r1 _ (tb ++ fr) 0 k (match tmp with Some _ => Some (text old ++ bs ", " ++ v) | None => None end) I1 O2) as (c & m3 & r2 & a3 & EX & L3 & I3 & O3 & CASE).
    { intros s Es. destruct tmp; [|discriminate Es]. injection Es as <-. rewrite !zlen_app, !zlen_cons. pose proof (text_le old). unfold str in *. lia. }
    { lia. }
    { exact NT. }
    match goal with |- context [x_on_header m2 r1 ?g] => replace (x_on_header m2 r1 g) with (Ret (c, (m3, r2))) by (symmetry; exact EX) end.
    cbn [bind]. assert (FT : exists m4, x_free m3 tmp = Ret m4 /\ mowns m4 (inner r2 ++ fr)).
    { subst tb. destruct tmp as [i|]; [|exists m3; split; [reflexivity|exact O3]]. destruct (x_free_ok m3 i (inner r2 ++ fr)) as (m4 & E & O4 & _); [mowns_by O3|]. eauto. }
    destruct FT as (m4 & -> & O4). cbn [bind]. exists m4, r2.
    destruct CASE as [CASE|[SH FL]].
    + cbn [ar_call] in CASE. destruct k as [|k0 k]; [contradiction|]. injection CASE as -> ->. cbn [set_header ar_header] in I3.
      exists (a_put (k0 :: k) (match tmp with Some _ => Some (text old ++ bs ", " ++ v) | None => None end) (without (k0 :: k) (ar_header a))).
      split; [reflexivity|]. split; [exact I3|]. split; [exact O4|]. destruct OT as [(i & -> & _)|(-> & S1 & _)]; [now left|]. right. split; [exact S1|]. now left.
    + assert (c = U_ERROR_MEMORY /\ a3 = set_header a (without k (ar_header a))) as [-> ->] by (inversion FL; subst; auto).
      exists (without k (ar_header a)). split; [reflexivity|]. split; [exact I3|]. split; [exact O4|]. right. split; [apply L1, L2; exact SH|]. now right.
  - right. destruct (header_call false N' m r a fr 0 k (Some v) I' O) as (c & m3 & r2 & a3 & EX & L3 & I3 & O3 & CASE); [intros s Es; injection Es as <-; lia|lia|exact NT|].
    match goal with |- context [x_on_header m r ?g] => replace (x_on_header m r g) with (Ret (c, (m3, r2))) by (symmetry; exact EX) end. cbn [bind snd].
    destruct CASE as [CASE|[SH FL]].
    + cbn [ar_call] in CASE. destruct k as [|k0 k]; [contradiction|]. injection CASE as -> ->. exists m3, r2. eexists. split; [reflexivity|]. split; [exact I3|]. split; [exact O3|]. now left.
    + exists m3, r2, (ar_header a). split; [reflexivity|]. split; [|split; [exact O3|right; auto]]. inversion FL; subst. now rewrite set_header_same.
Qed.

(** ** one call of libcurl *)
Definition pinv (limit N : Z) (s : puller) (a : astate) (fr : list nat) : Prop :=
  rinv false N (u_resp s) (as_resp a) /\ mowns (u_mem s) (inner (u_resp s) ++ ptr_blocks (u_data s) ++ fr) /\ u_counter s = as_count a /\ 0 <= as_count a <= N /\
  u_size s = zlen (as_body a) /\ zlen (as_body a) <= N /\ kept limit (as_body a) = as_body a /\
  match u_data s with Some (_, b) => b = block_of (as_body a) ++ [Some 0] /\ as_body a <> [] | None => as_body a = [] end.
Lemma fails_in : forall l, In false l -> fails l = true.
Proof. intros l H. unfold fails. apply existsb_exists. exists false. auto. Qed.
Lemma fails_not : forall l, fails l = false -> ~ In false l.
Proof. intros l H X. apply fails_in in X. congruence. Qed.
Lemma pinv_mono : forall limit N N' s a fr, N <= N' -> pinv limit N s a fr -> pinv limit N' s a fr.
Proof. intros limit N N' s a fr L (A & B & C & D & E & F & G & H). split; [eapply rinv_mono; eauto|]. repeat (split; [lia || assumption|]). auto. Qed.
Definition after_event (max limit N : Z) (s : puller) (a : astate) (fr : list nat) (e : event) (short : bool) (t : told) : Prop :=
  (exists s' a', x_event max limit s e = Ret (true, s') /\ hears max limit short t a a' /\ pinv limit (N + size e) s' a' fr) \/
  (short = true /\ exists s' a' n lost, x_event max limit s e = Ret (false, s') /\ stops limit t a a' n /\ length lost = n /\ rinv false N (u_resp s') (as_resp a') /\
     mowns (u_mem s') (inner (u_resp s') ++ ptr_blocks (u_data s') ++ lost ++ fr)) \/
  (x_event max limit s e = UB NullDeref /\ nulls max t a).

Lemma line_ok : forall max limit N s a fr answers l t, pinv limit N s a fr -> written_as l t -> cstr t -> 0 <= N -> N + zlen t + 2 < two64 ->
  after_event max limit N s a fr (Line answers t) (fails answers) (Heard l).
Proof.
  intros max limit N s a fr answers l t (I & O & EC & CB & ES & SB & KP & DT) W CT N0 NT. unfold after_event, x_event. cbn [size].
  set (m0 := again (u_mem s) (answers, [])). set (s0 := mk_puller m0 (u_resp s) (u_counter s) (u_data s) (u_size s)).
  assert (O0 : mowns m0 (inner (u_resp s) ++ (ptr_blocks (u_data s) ++ fr))) by (apply again_owns; [exact O|reflexivity]).
  assert (SAME : pinv limit (N + zlen t) s0 a fr).
  { eapply pinv_mono; [|split; [exact I|split; [exact O0|auto 8]]]. pose proof (zlen_nonneg _ t). lia. }
  inversion W as [n v w eol K0 K1 K2 V1 SW SE EN NC VC E1 E2|x eol S0 BS SN SE E1 E2|eol SE E1 E2]; subst l; rewrite ?E2.
  - assert (TW : zlen v + 3 <= zlen t) by (apply (text_weight n); exact W).
    assert (HC : has_char 58 t = true) by (rewrite <- E2; apply has_char_true; apply in_app_iff; right; now left). unfold x_write_header. rewrite HC.
    cbn [u_counter s0]. destruct ((max =? 0) || (u_counter s <? max)) eqn:MX.
    + assert (OP : open max a) by (unfold open; rewrite <- EC; apply orb_true_iff in MX as [MX|MX]; [left; now apply Z.eqb_eq|right; now apply Z.ltb_lt]).
      assert (NS : Forall (fun x => colon x = false) n). { apply Forall_forall. intros x X. unfold colon. apply Z.eqb_neq. intros ->. auto. }
      assert (TK : strtok colon t = (Some n, w ++ v ++ eol)) by (rewrite <- E2; exact (strtok_app colon n 58 _ K0 NS eq_refl)). rewrite TK.
      assert (RN : w ++ v ++ eol <> []). { intros E. apply EN. apply app_eq_nil in E as [_ E]. now apply app_eq_nil in E as [_ E]. }
      rewrite (strtok_all no_sep _ RN) by (apply Forall_forall; reflexivity). cbn [fst otrim].
      rewrite (bare_trim0 n K1), (bare_trim w v eol V1 SW SE). cbn [u_mem u_resp s0].
      destruct (field_ok N (N + zlen t) m0 (u_resp s) (as_resp a) (ptr_blocks (u_data s) ++ fr) n v I O0 K0 N0) as [[X NU]|(m' & r' & h & X & I' & O' & CASE)]; [lia|lia| |].
      * right. right. match goal with |- context [x_header_field m0 (u_resp s) ?p ?q] => replace (x_header_field m0 (u_resp s) p q) with (@UB (mem * hresp) NullDeref) by (symmetry; exact X) end. split; [reflexivity|]. now constructor.
      * left. match goal with |- context [x_header_field m0 (u_resp s) ?p ?q] => replace (x_header_field m0 (u_resp s) p q) with (Ret (m', r')) by (symmetry; exact X) end. cbn [bind fst snd u_data u_size]. rewrite Z.eqb_refl. eexists. exists (counted a h). split; [reflexivity|].
        assert (SH : short m0 -> fails answers = true) by apply fails_in. split.
        -- unfold field_case in CASE. destruct (field n (ar_header (as_resp a))) as [old|] eqn:FI.
           ++ destruct CASE as [->|[S1 [->| ->]]]; [now apply h_joined|eapply h_emptied; eauto|eapply h_dropped; eauto].
           ++ destruct CASE as [->|[S1 ->]]; [now apply h_new|apply h_lost; auto].
        -- split; [exact I'|]. split; [exact O'|]. cbn [u_counter u_size u_data counted as_count as_body]. pose proof (zlen_nonneg _ t). pose proof (zlen_nonneg _ v). rewrite add64_small by lia. rewrite EC. repeat (split; [lia || assumption|]). exact DT.
    + left. cbn [bind fst snd]. rewrite Z.eqb_refl. exists s0, a. split; [reflexivity|]. split; [|exact SAME]. apply h_closed. unfold open. rewrite <- EC. apply orb_false_iff in MX as [M1 M2]. apply Z.eqb_neq in M1. apply Z.ltb_ge in M2. lia.
  - assert (HC : has_char 58 t = false).
    { rewrite <- E2. destruct (has_char 58 (x ++ eol)) eqn:X; [|reflexivity]. apply has_char_true, in_app_iff in X as [X|X]; [contradiction|]. unfold spaces in SE. rewrite Forall_forall in SE. apply SE in X. discriminate. }
    unfold x_write_header. rewrite HC. pose proof (bare_trim [] x eol BS ltac:(constructor) SE) as BT. cbn [app] in BT.
    assert (TL : trim_left t = x).
    { rewrite <- E2. unfold trim_left. destruct x as [|c x]; [congruence|]. assert (SC : isspace c = false) by (destruct BS as [BS _]; eauto). cbn [app forallb]. rewrite SC. cbn [andb].
      unfold trim in BT. cbn [app lstrip] in BT. rewrite SC in BT. exact BT. }
    rewrite TL. assert (TT : trim t = x) by (rewrite <- E2; exact BT). rewrite TT. replace (str_eqb x []) with false by (symmetry; apply str_eqb_neq; exact S0). cbn [negb u_mem u_resp s0].
    destruct (protocol_call false N m0 (u_resp s) (as_resp a) (ptr_blocks (u_data s) ++ fr) 0 x I O0) as (c & m' & r' & a' & -> & L' & I' & O' & CASE). cbn [bind fst snd].
    destruct CASE as [CASE|[SH FL]].
    + cbn [ar_call] in CASE. injection CASE as -> ->. left. change (U_OK =? U_OK) with true. cbn iota. rewrite Z.eqb_refl. do 2 eexists. split; [reflexivity|]. split; [apply h_status|].
      eapply pinv_mono; [|split; [exact I'|split; [exact O'|]]]; [pose proof (zlen_nonneg _ t); lia|]. cbn [u_counter u_size u_data as_count as_body]. auto 8.
    + assert (c = U_ERROR_MEMORY /\ a' = set_protocol (as_resp a) None) as [-> ->] by (inversion FL; subst; auto).
      right. left. split; [now apply fails_in|]. change (U_ERROR_MEMORY =? U_OK) with false. cbn iota.
      replace (0 =? zlen t) with false. 2:{ symmetry. apply Z.eqb_neq. rewrite <- E2. rewrite zlen_app. pose proof (zlen_nonneg _ eol). destruct x as [|c x]; [contradiction|]. rewrite zlen_cons. pose proof (zlen_nonneg _ x). lia. }
      eexists. exists (mk_astate (set_protocol (as_resp a) None) (as_count a) (as_body a)), 0%nat, []. split; [reflexivity|]. split; [constructor|]. split; [reflexivity|]. split; [exact I'|]. cbn [u_mem u_resp u_data app]. exact O'.
  - left. subst t. assert (HC : has_char 58 eol = false).
    { destruct (has_char 58 eol) eqn:X; [|reflexivity]. apply has_char_true in X. unfold spaces in SE. rewrite Forall_forall in SE. apply SE in X. discriminate. }
    unfold x_write_header. rewrite HC. pose proof (bare_trim [] [] eol ltac:(split; intros ? [|? ?] E; discriminate E) ltac:(constructor) SE) as BT. cbn [app] in BT.
    replace (trim eol) with (@nil Z) by (symmetry; exact BT). change (str_eqb [] []) with true. cbn [negb bind fst snd]. rewrite Z.eqb_refl. exists s0, a. split; [reflexivity|]. split; [constructor|exact SAME].
Qed.

Lemma kept_kept : forall limit s, kept limit (kept limit s) = kept limit s.
Proof. intros limit s. unfold kept. destruct (limit =? 0); [reflexivity|]. unfold zfirstn. rewrite firstn_firstn. now rewrite Nat.min_id. Qed.
Lemma x_realloc_no : forall A h w (p : ptr A) ids, mowns (mk_mem h w []) (ptr_blocks p ++ ids) -> x_realloc (mk_mem h w [false]) (addr p) = Ret (None, mk_mem h w []).
Proof.
  intros A h w p ids [OW _]. unfold x_realloc. cbn [m_grow next_answer m_heap m_new]. destruct p as [[i x]|]; [|reflexivity]. cbn [addr]. cbn [m_heap ptr_blocks] in OW.
  rewrite (use_ok _ _ i OW) by now left. reflexivity.
Qed.
Lemma x_realloc_yes : forall A h w (p : ptr A) ids, mowns (mk_mem h w []) (ptr_blocks p ++ ids) ->
  exists i m', x_realloc (mk_mem h w [true]) (addr p) = Ret (Some i, m') /\ mowns m' (i :: ids).
Proof.
  intros A h w p ids OW. destruct (x_realloc_ok _ _ p ids OW) as (i & m' & E & O' & _). exists i, m'. split; [|exact O']. unfold x_realloc in E |- *. cbn [m_grow next_answer m_heap m_new] in E |- *. exact E.
Qed.
Lemma bytes_ok : forall max limit N s a fr grow d, pinv limit N s a fr -> 0 <= limit -> 0 <= N -> N + zlen d + 2 < two64 ->
  after_event max limit N s a fr (Chunk grow d) (negb grow) (Got d).
Proof.
  intros max limit N s a fr grow d (I & OW & EC & CB & ES & SB & KP & DT) L0 N0 NT. unfold after_event, x_event. cbn [size].
  pose proof (zlen_nonneg _ (as_body a)) as NK. pose proof (zlen_nonneg _ d) as ND.
  pose proof (taken_kept limit (as_body a) d L0) as TK. rewrite KP in TK.
  assert (T : 0 <= taken limit (zlen (as_body a)) (zlen d) <= zlen d).
  { unfold taken. destruct (limit =? 0); [lia|]. destruct (zlen (as_body a) <? limit) eqn:E1; [|lia]. apply Z.ltb_lt in E1. destruct (limit <? zlen (as_body a) + zlen d + 1) eqn:E2; [apply Z.ltb_lt in E2|]; lia. }
  unfold x_write_body. cbn [u_size u_mem u_resp u_counter u_data]. rewrite ES. rewrite (add64_small (zlen (as_body a)) (zlen d)) by lia. rewrite (add64_small (zlen (as_body a) + zlen d) 1) by lia.
  replace (if negb (limit =? 0) then if zlen (as_body a) <? limit then if limit <? zlen (as_body a) + zlen d + 1 then limit - zlen (as_body a) else zlen d else 0 else zlen d) with (taken limit (zlen (as_body a)) (zlen d))
    by (unfold taken; destruct (limit =? 0); reflexivity).
  set (t := taken limit (zlen (as_body a)) (zlen d)) in *. clearbody t. destruct (Z.eqb_spec t 0) as [->|TN]; cbn [negb].
  - left. cbn [bind fst snd]. rewrite Z.eqb_refl. rewrite zfirstn_0, app_nil_r in TK. eexists. exists (mk_astate (as_resp a) (as_count a) (as_body a)). split; [reflexivity|].
    split; [rewrite <- TK at 1; apply h_bytes|]. split; [eapply rinv_mono; [|exact I]; lia|]. cbn [rested u_mem u_resp u_counter u_data u_size as_resp as_count as_body].
    split; [split; [apply OW|reflexivity]|]. repeat (split; [lia || assumption|]). exact DT.
  - assert (OW' : mowns (mk_mem (m_heap (u_mem s)) [] []) (ptr_blocks (u_data s) ++ (inner (u_resp s) ++ fr))).
    { assert (O1 : mowns (mk_mem (m_heap (u_mem s)) [] []) (inner (u_resp s) ++ ptr_blocks (u_data s) ++ fr)) by (split; [apply OW|reflexivity]). mowns_by O1. }
    unfold again. cbn [fst snd]. destruct grow; cbn [negb].
    + left. destruct (x_realloc_yes _ _ _ (u_data s) _ OW') as (i & m' & -> & O'). cbn [bind].
      rewrite (add64_small (zlen (as_body a)) t) by lia. rewrite (add64_small (zlen (as_body a) + t) 1) by lia.
      assert (HD : match u_data s with Some (_, b) => b | None => [] end = block_of (as_body a) ++ [Some 0] \/ (as_body a = [] /\ match u_data s with Some (_, b) => b | None => [] end = [])).
      { destruct (u_data s) as [[j b]|]; [left; apply DT|right; auto]. }
      destruct (realloc_keeps (as_body a) _ (zlen (as_body a) + t + 1) HD ltac:(lia)) as (r & -> & RL).
      assert (M : memcpy (block_of (as_body a) ++ r) (zlen (as_body a)) (block_of d) t = Ret (block_of (as_body a) ++ zfirstn t (block_of d) ++ zskipn t r)).
      { rewrite <- (zlen_block_of (as_body a)) at 1. apply memcpy_app; [lia|lia|rewrite zlen_block_of; lia]. }
      rewrite M. cbn [bind].
      assert (RS : exists x, zskipn t r = [x]). { assert (Q : zlen (zskipn t r) = 1) by (rewrite zlen_zskipn; lia). destruct (zskipn t r) as [|x [|y q]]; [discriminate Q|eauto|exfalso; unfold zlen in Q; cbn [length] in Q; lia]. }
      destruct RS as (x & ->). rewrite zfirstn_block_of, app_assoc, <- block_of_app. rewrite <- TK.
      assert (ZL : zlen (zfirstn t d) = t) by (apply zlen_zfirstn; lia).
      assert (KL : zlen (kept limit (as_body a ++ d)) = zlen (as_body a) + t) by (rewrite TK, zlen_app; lia).
      assert (S0 : store (block_of (kept limit (as_body a ++ d)) ++ [x]) (zlen (as_body a) + t) 0 = Ret (block_of (kept limit (as_body a ++ d)) ++ [Some 0])).
      { unfold store. replace (zlen (as_body a) + t) with (zlen (block_of (kept limit (as_body a ++ d)))) by (rewrite zlen_block_of; lia). rewrite memcpy_app; [|lia|reflexivity|reflexivity]. reflexivity. }
      rewrite S0. cbn [bind fst snd]. rewrite Z.eqb_refl. do 2 eexists. split; [reflexivity|]. split; [apply h_bytes|].
      split; [eapply rinv_mono; [|exact I]; lia|]. cbn [rested u_mem u_resp u_counter u_data u_size as_resp as_count as_body ptr_blocks].
      split; [apply again_owns; [mowns_by O'|reflexivity]|]. rewrite KL, kept_kept. repeat (split; [lia || assumption || reflexivity|]).
      intros E. rewrite E in KL. change (zlen []) with 0 in KL. lia.
    + right. left. split; [reflexivity|]. rewrite (x_realloc_no _ _ _ (u_data s) _ OW'). cbn [bind fst snd]. replace (0 =? zlen d) with false by (symmetry; apply Z.eqb_neq; lia).
      eexists. exists (mk_astate (as_resp a) (as_count a) []). eexists. exists (ptr_blocks (u_data s)). split; [reflexivity|]. split.
      * apply st_bytes. rewrite TK. intros E. assert (ZL : zlen (as_body a ++ zfirstn t d) = zlen (as_body a)) by now rewrite E. rewrite zlen_app, zlen_zfirstn in ZL by lia. lia.
      * split; [|split; [exact I|]].
        -- destruct (u_data s) as [[j b]|]; [|now rewrite DT]. destruct (as_body a); [now destruct DT|reflexivity].
        -- cbn [rested u_mem u_resp u_data ptr_blocks app]. apply again_owns; [mowns_by OW'|reflexivity].
Qed.

(** ** all calls *)
Lemma perform_ok : forall max limit fr l ts N s a, pinv limit N s a fr -> Forall2 comes l ts -> 0 <= limit -> 0 <= N -> N + sizes l + 2 < two64 ->
  (exists s' a', x_perform max limit s l = Ret (true, s') /\ performs max limit ts a (All a') /\ pinv limit (N + sizes l) s' a' fr) \/
  (exists s' a' n lost, x_perform max limit s l = Ret (false, s') /\ performs max limit ts a (Stopped a' n) /\ length lost = n /\ rinv false (N + sizes l) (u_resp s') (as_resp a') /\
     mowns (u_mem s') (inner (u_resp s') ++ ptr_blocks (u_data s') ++ lost ++ fr)) \/
  (x_perform max limit s l = UB NullDeref /\ performs max limit ts a Null).
Proof.
  intros max limit fr l. induction l as [|e l IH]; intros ts N s a P F L0 N0 NT; inversion F as [|? [short t] ? ts' C F']; subst.
  - left. exists s, a. split; [reflexivity|]. split; [constructor|]. cbn [sizes]. now rewrite Z.add_0_r.
  - cbn [sizes x_perform] in *. assert (SZ : 0 <= size e) by (destruct e; apply zlen_nonneg). assert (SS : 0 <= sizes l).
    { clear. induction l as [|e l IH]; cbn [sizes]; [lia|]. assert (0 <= size e) by (destruct e; apply zlen_nonneg). lia. }
    assert (AE : after_event max limit N s a fr e short t).
    { inversion C; subst; cbn [size] in *; [apply line_ok; auto; lia|apply bytes_ok; auto; lia]. }
    destruct AE as [(s1 & a1 & -> & H & P1)|[(-> & s1 & a1 & n & lost & -> & H & LN & I1 & O1)|[-> NU]]]; cbn [bind fst snd].
    + destruct (IH ts' (N + size e) s1 a1 P1 F' L0 ltac:(lia) ltac:(lia)) as [(s2 & a2 & E & PF & P2)|[(s2 & a2 & n & lost & E & PF & LN & I2 & O2)|[E PF]]]; rewrite E.
      * left. exists s2, a2. split; [reflexivity|]. split; [eapply pf_go; eauto|]. now rewrite Z.add_assoc.
      * right. left. exists s2, a2, n, lost. split; [reflexivity|]. split; [eapply pf_go; eauto|]. rewrite Z.add_assoc. auto.
      * right. right. split; [reflexivity|]. eapply pf_go; eauto.
    + right. left. exists s1, a1, n, lost. split; [reflexivity|]. split; [now apply pf_stop|]. split; [exact LN|]. split; [|exact O1]. eapply rinv_mono; [|exact I1]. lia.
    + right. right. split; [reflexivity|]. now apply pf_null.
Qed.
