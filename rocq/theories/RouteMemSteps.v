(** Proofs about the memory of routing (C103): the list of endpoints, the parameters, the calls. *)
From Coq Require Import String ZArith Bool List Lia Permutation Sorted.
From Verif Require Import Base BaseFacts UMapModel UMapProofs UrlModel Utf8Model RouterModel RouterSpec RouterProofs OwnModel OwnSpec OwnProofs MapMemModel MapMemSpec
  MapMemProofs MapMemPut MapMemRun MapMemSteps RespMemModel RespMemSpec RespMemProofs RespMemSteps RouteMemModel RouteMemSpec RouteMemProofs.
Import ListNotations.
Open Scope Z_scope.
Open Scope list_scope.

Definition yep (y : nat * rep) : list nat := fst y :: rep_blocks (snd y).
Definition vep (y : nat * rep) : endpoint := vrep (snd y).
Definition arr_rel (m : mem) (fr : list nat) (ret : array rep) (r : option (list endpoint)) : Prop :=
  match r with
  | None => ret = None /\ mowns m fr
  | Some l => exists i arr ys, ret = Some (i, arr) /\ mowns m (i :: flat_map yep ys ++ fr) /\ good arr ys /\ map vep ys = l
  end.

Section S.
Variable sh : Prop.
Variable order : list (nat * rep) -> list (nat * rep).
Hypothesis Hsort : sorts order.
Variable tl : Z -> Z.
Variable ends : Z -> Z -> bool.

(** ** sorting *)
Lemma found_ok : forall m ids rest zs, mowns m ids -> incl (flat_map yep zs) ids -> x_found m (map Some (map Some zs) ++ rest) (length zs) = Ret zs.
Proof.
  intros m ids rest. induction zs as [|[j c] zs IH]; intros O C; [destruct rest; reflexivity|]. cbn [map app length x_found]. unfold bind at 1.
  rewrite (x_deref_ok _ m j c ids O) by (apply C; now left). unfold bind at 1. rewrite IH; [reflexivity|exact O|].
  intros x X. apply C. cbn [flat_map]. apply in_or_app. auto.
Qed.
Lemma found_null : forall m ids rest found, mowns m ids -> incl (flat_map pep_blocks found) ids -> In None found ->
  x_found m (map Some found ++ rest) (length found) = UB NullDeref.
Proof.
  intros m ids rest. induction found as [|[[j c]|] found IH]; intros O C H; [destruct H| |reflexivity].
  destruct H as [H|H]; [discriminate|]. cbn [map app length x_found]. unfold bind at 1.
  rewrite (x_deref_ok _ m j c ids O) by (apply C; now left). unfold bind at 1. rewrite IH; [reflexivity|exact O| |exact H].
  intros x X. apply C. cbn [flat_map]. apply in_or_app. auto.
Qed.
Lemma all_or_none : forall A (l : list (option A)), In None l \/ exists z, l = map Some z.
Proof.
  induction l as [|[a|] l IH].
  - right. exists []. reflexivity.
  - destruct IH as [IH|(z & ->)]; [left; now right|]. right. exists (a :: z). reflexivity.
  - left. now left.
Qed.
Lemma peps_blocks : forall zs, flat_map pep_blocks (map Some zs) = flat_map yep zs.
Proof. induction zs as [|[j c] zs IH]; [reflexivity|]. cbn [map flat_map pep_blocks]. rewrite IH. reflexivity. Qed.
Lemma perm_cnt : forall a b (x : nat), Permutation a b -> cnt a x = cnt b x.
Proof. intros a b x P. unfold cnt. now apply Permutation_count_occ. Qed.
Lemma vpep_somes : forall zs, map vpep (map Some zs) = map Some (map vep zs).
Proof. induction zs as [|[j c] zs IH]; [reflexivity|]. cbn [map vpep]. rewrite IH. reflexivity. Qed.
Lemma sorted_map : forall l, StronglySorted (fun a b : nat * rep => r_prio (snd a) <= r_prio (snd b)) l -> StronglySorted by_priority (map vep l).
Proof.
  induction 1 as [|a l H IH F]; cbn [map]; constructor; auto. apply Forall_map. eapply Forall_impl; [|exact F]. intros b Hb. exact Hb.
Qed.

(** ** ulfius_endpoint_match *)
Definition match_result (m : mem) (fr : list nat) (x : outcome (mem * array rep)) (r : outcome (option (list endpoint))) : Prop :=
  match r with UB k => x = UB k | Ret l => exists m' ret, x = Ret (m', ret) /\ later m m' /\ arr_rel m' fr ret l end.
Lemma match_ok : forall m table method url fr, (short m -> sh) -> mowns m fr ->
  exists r, s_match sh table method url r /\ match_result m fr (x_match order m table method url) r.
Proof.
  intros m table method url fr SH O. unfold x_match.
  destruct (x_malloc_ok _ _ O) as (p & m1 & -> & L1 & [(i & -> & O1)|(-> & S1 & O1)]).
  2:{ exists (Ret None). split; [apply sm_null; auto|]. exists m1, None. split; [reflexivity|]. split; [exact L1|]. split; auto. }
  assert (SH1 : short m1 -> sh) by (intros X; apply SH, L1, X).
  destruct table as [table|].
  2:{ exists (Ret (Some [])). split; [now apply sm_no_table|]. unfold bind at 1. unfold x_sort. rewrite (x_deref_ok _ m1 i _ _ O1) by now left.
      exists m1, (Some (i, [Some None])). split; [reflexivity|]. split; [exact L1|]. exists i, [Some None], []. split; [reflexivity|]. split; [exact O1|]. split; [apply (good_end _ [])|reflexivity]. }
  destruct (split_ok sh m1 (Some url) None _ SH1 O1) as (rs & Ss & Rs). destruct rs as [[uw|]|k].
  - destruct Rs as (m2 & iu & lu & pu & E & L2 & O2 & G & V). rewrite E. unfold bind at 2. clear E.
    assert (SH2 : short m2 -> sh) by (intros X; apply SH1, L2, X).
    destruct (match_loop_ok sh method iu lu pu table m2 i [] (iu :: map fst pu ++ fr) SH2 G) as (r & Sr & R).
    { intros x [X|X]; [now left|right; apply in_or_app; auto]. } { cbn [flat_map app]. mowns_by O2. }
    cbn [map app length] in R. rewrite V in Sr. destruct r as [l|k].
    2:{ cbn [loop_result] in R. flat. rewrite R. exists (UB k). split; [eapply sm_loop; eauto|reflexivity]. }
    destruct R as (m3 & i3 & found & E & L3 & O3 & VF). cbn [app] in E, O3. flat. rewrite E. clear E. unfold bind at 2.
    destruct (clean_enum_ok m3 iu lu pu (i3 :: flat_map pep_blocks found ++ fr)) as (m4 & E & O4 & L4); [flat; mowns_by O3|exact G|]. flat. rewrite E. clear E.
    unfold bind at 2. unfold bind at 1. unfold x_sort. rewrite (x_deref_ok _ m4 i3 _ _ O4) by now left. unfold bind at 2. cbn [fst snd].
    destruct (length found <? 2)%nat eqn:E2.
    + apply Nat.ltb_lt in E2. exists (Ret (Some (match l with [Some e] => [e] | _ => [] end))). split.
      { eapply sm_few; eauto. rewrite <- VF, map_length. exact E2. }
      unfold bind at 1. do 2 eexists. split; [reflexivity|]. split; [chain|]. rewrite <- VF.
      destruct found as [|[[j c]|] [|z found]]; cbn [length] in E2; try lia; cbn [map vpep app].
      * exists i3, [Some None], []. split; [reflexivity|]. split; [exact O4|]. split; [apply (good_end _ [])|reflexivity].
      * exists i3, [Some (Some (j, c)); Some None], [(j, c)]. split; [reflexivity|]. split; [exact O4|]. split; [apply (good_end _ [(j, c)])|reflexivity].
      * exists i3, [Some None; Some None], []. split; [reflexivity|]. split; [exact O4|]. split; [exists [Some None]; split; [reflexivity|cbn [length]; lia]|reflexivity].
    + apply Nat.ltb_ge in E2. destruct (all_or_none _ found) as [H|(zs & ->)].
      * rewrite (found_null m4 _ _ found O4); [|intros x X; right; apply in_or_app; auto|exact H].
        exists (UB NullDeref). split; [|reflexivity]. eapply sm_sort_null; eauto.
        -- rewrite <- VF, map_length. exact E2.
        -- rewrite <- VF. change (@None endpoint) with (vpep None). now apply in_map.
      * pose proof (peps_blocks zs) as PB. flat. rewrite PB in O4.
        match goal with |- context [x_found m4 ?l ?n] => replace (x_found m4 l n) with (Ret zs) by
          (symmetry; replace n with (length zs) by (symmetry; apply map_length); apply (found_ok m4 _ _ zs O4); intros x X; right; apply in_or_app; auto) end.
        unfold bind at 2. unfold bind at 1.
        destruct (Hsort zs) as [P ST]. exists (Ret (Some (map vep (order zs)))). split.
        -- apply (sm_sort sh (Some table) method url table uw (map vep zs)); [reflexivity|exact Ss| | | |].
           ++ rewrite <- vpep_somes. flat. rewrite VF. exact Sr.
           ++ rewrite map_length in E2 |- *. exact E2.
           ++ now apply Permutation_map.
           ++ now apply sorted_map.
        -- do 2 eexists. split; [reflexivity|]. split; [chain|]. exists i3, (full (order zs) ++ [Some None]), (order zs). split.
           { rewrite <- (map_length Some (map Some zs)). rewrite skipn_app, skipn_all, Nat.sub_diag. reflexivity. }
           split; [|split; [apply good_end|reflexivity]]. eapply mowns_ext; [exact O4|]. intros x. rewrite !cnt_cons, !cnt_app.
           rewrite (perm_cnt (flat_map yep zs) (flat_map yep (order zs)) x); [reflexivity|]. now apply Permutation_flat_map.
  - destruct Rs as (m2 & E & L2 & O2). rewrite E. unfold bind at 2. clear E.
    assert (E : x_match_loop m2 table method None (Some (i, [Some None])) 0 = Ret (m2, (Some (i, [Some None]), 0%nat))) by (destruct table; reflexivity).
    flat. rewrite E. clear E. unfold bind at 2. cbn [x_clean_enum]. unfold bind at 2. unfold bind at 1. unfold x_sort. rewrite (x_deref_ok _ m2 i _ _ O2) by now left.
    exists (Ret (Some [])). split; [eapply sm_unsplit; eauto|]. do 2 eexists. split; [reflexivity|]. split; [chain|].
    exists i, [Some None], []. split; [reflexivity|]. split; [exact O2|]. split; [apply (good_end _ [])|reflexivity].
  - cbn [split_result] in Rs. flat. rewrite Rs. exists (UB k). split; [eapply sm_crash; eauto|reflexivity].
Qed.

(** ** the default endpoint *)
Lemma default_ok : forall m ret dflt r fr, (short m -> sh) -> arr_rel m fr ret r ->
  exists r' m' ret', s_default sh dflt r r' /\ x_default m ret dflt = Ret (m', Some ret') /\ later m m' /\ arr_rel m' fr ret' r'.
Proof.
  intros m ret dflt r fr SH A. unfold x_default.
  assert (NONE : (match ret with None => Ret true | Some _ => do p <- x_slot m ret 0; Ret (is_null p) end) =
    Ret (match r with Some (_ :: _) => false | _ => true end)).
  { destruct r as [l|]; [|destruct A as [-> _]; reflexivity]. destruct A as (i & arr & ys & -> & O & (x & -> & _) & <-).
    destruct ys as [|y ys]; cbn [full map app]; (erewrite (slot_ok _ m _ i) by (first [exact O|now left|reflexivity])); reflexivity. }
  flat. rewrite NONE. unfold bind at 1.
  assert (ML : later m m). { destruct r as [l|]; [destruct A as (? & ? & ? & _ & O & _)|destruct A as [_ O]]; eapply later_refl; eauto. }
  destruct dflt as [d|].
  2:{ exists r, m, ret. split; [now apply sd_none|]. split; [reflexivity|]. auto. }
  destruct (callback d) as [cb|] eqn:EC.
  2:{ rewrite andb_false_r. exists r, m, ret. split; [now apply sd_none|]. split; [reflexivity|]. auto. }
  rewrite andb_true_r. assert (EC' : callback d <> None) by congruence.
  assert (CASES : (exists e l, r = Some (e :: l)) \/ ((r = None \/ r = Some []) /\ mowns m (ptr_blocks ret ++ fr) /\ (match r with Some (_ :: _) => false | _ => true end) = true)).
  { destruct r as [[|e l]|]; [right|left; eauto|right]; (split; [auto|]); (split; [|reflexivity]).
    - destruct A as (i & arr & ys & -> & O & _ & V). destruct ys; [|discriminate]. exact O.
    - destruct A as [-> O]. exact O. }
  destruct CASES as [(e & l & ->)|(Hr & O & ->)].
  { exists (Some (e :: l)), m, ret. split; [apply sd_some|]. split; [reflexivity|]. auto. }
  destruct (x_realloc_ok _ m ret fr O) as (i & m1 & E & O1 & L1). flat. rewrite E. clear E. unfold bind at 1.
  destruct (x_malloc_ok _ _ O1) as (p & m2 & -> & L2 & [(j & -> & O2)|(-> & S2 & O2)]).
  - assert (SH2 : short m2 -> sh) by (intros X; apply SH, L1, L2, X).
    destruct (copy_ep_ok sh m2 d _ SH2 O2) as (c & m3 & -> & L3 & O3 & SC).
    exists (Some [vrep c]), m3, (Some (i, [Some (Some (j, c)); Some None])). split; [eapply sd_copy; eauto|]. split; [reflexivity|]. split; [chain|].
    exists i, [Some (Some (j, c)); Some None], [(j, c)]. split; [reflexivity|]. split; [cbn [flat_map]; unfold yep; cbn [fst snd]; mowns_by O3|]. split; [apply (good_end _ [(j, c)])|reflexivity].
  - exists (Some []), m2, (Some (i, [Some None; Some None])). split; [eapply sd_empty; eauto; apply SH, L1, S2|]. split; [reflexivity|]. split; [chain|].
    exists i, [Some None; Some None], []. split; [reflexivity|]. split; [exact O2|]. split; [exists [Some None]; split; [reflexivity|cbn [length]; lia]|reflexivity].
Qed.

(** ** the words of the url *)
Definition owz (w : option str) : Z := match w with Some s => zlen s + 2 | None => 0 end.
Definition wz (ws : list str) : Z := fold_right (fun w n => zlen w + 2 + n) 0 ws.
Lemma wz_nonneg : forall ws, 0 <= wz ws.
Proof. induction ws as [|w ws IH]; cbn [wz fold_right]; [lia|]. fold (wz ws). pose proof (zlen_nonneg _ w). lia. Qed.
Lemma owz_nonneg : forall w, 0 <= owz w.
Proof. destruct w as [s|]; cbn [owz]; [|lia]. pose proof (zlen_nonneg _ s). lia. Qed.
Lemma wz_words : forall url, cstr url -> wz (words url) <= 2 * zlen url + 2.
Proof.
  intros url C. destruct (segs_total _ _ (words_segs url)) as [T _].
  assert (H : wz (words url) <= 2 * wtotal (words url)); [|lia].
  induction (words url) as [|w ws IH]; cbn [wz wtotal fold_right]; [lia|]. fold (wz ws) (wtotal ws). pose proof (zlen_nonneg _ w).
  assert (wz ws <= 2 * wtotal ws) by (apply IH; cbn [wtotal fold_right] in T; fold (wtotal ws) in T; lia). lia.
Qed.
Lemma wz_next : forall uw, owz (hd_error uw) + wz (List.tl uw) = wz uw.
Proof. destruct uw as [|w uw]; reflexivity. Qed.
Lemma cstr_next : forall uw, Forall cstr uw -> (forall s, hd_error uw = Some s -> cstr s) /\ Forall cstr (List.tl uw).
Proof. intros uw F. destruct F as [|w uw C F]; cbn [hd_error List.tl]; split; auto; [discriminate|congruence]. Qed.
Lemma decode_ok : forall m w fr, (short m -> sh) -> (forall s, w = Some s -> cstr s) -> mowns m fr ->
  exists m' p, x_decode tl m w = Ret (m', p) /\ later m m' /\ mowns m' (ptr_blocks p ++ fr) /\ s_word sh tl w (ptext p) /\ owz (ptext p) <= owz w.
Proof.
  intros m [s|] fr SH C O; cbn [x_decode].
  - specialize (C s eq_refl). destruct (x_malloc_ok _ _ O) as (p & m1 & -> & L1 & [(i & -> & O1)|(-> & S1 & O1)]).
    + destruct (seg_text_spec tl s C) as (o & E & _ & ET & _ & LE). rewrite E. unfold bind at 1. rewrite c_text_app0.
      exists m1, (Some (i, c_text o)). split; [reflexivity|]. split; [exact L1|]. split; [exact O1|]. cbn [ptext]. split.
      * rewrite <- (c_text_app0 o). now apply sw_word.
      * cbn [owz]. rewrite ET in LE. lia.
    + exists m1, None. split; [reflexivity|]. split; [exact L1|]. split; [exact O1|]. cbn [ptext]. split; [apply sw_none; auto|]. cbn [owz]. pose proof (zlen_nonneg _ s). lia.
  - exists m, None. split; [reflexivity|]. split; [eapply later_refl; eauto|]. split; [exact O|]. split; [constructor|cbn [owz ptext]; lia].
Qed.
Lemma skip_ok : forall pw m cur uw fr, (short m -> sh) -> Forall cstr uw -> mowns m (ptr_blocks cur ++ fr) ->
  exists m' cur' uw', x_skip tl m cur uw pw = Ret (m', (cur', uw')) /\ later m m' /\ mowns m' (ptr_blocks cur' ++ fr) /\
    s_skip sh tl pw (ptext cur) uw (ptext cur') uw' /\ Forall cstr uw' /\ owz (ptext cur') + wz uw' <= owz (ptext cur) + wz uw.
Proof.
  induction pw as [|p pw IH]; intros m cur uw fr SH F O; cbn [x_skip].
  - exists m, cur, uw. split; [reflexivity|]. split; [eapply later_refl; eauto|]. split; [exact O|]. split; [constructor|]. split; [exact F|lia].
  - destruct cur as [[j t]|].
    + cbn [fst]. destruct (x_free_ok m j fr) as (m1 & -> & O1 & L1 & _); [exact O|]. unfold bind at 1.
      destruct (cstr_next uw F) as [C1 C2].
      destruct (decode_ok m1 (hd_error uw) fr) as (m2 & q & -> & L2 & O2 & W & Q); auto. { intros X. apply SH, L1, X. }
      unfold bind at 1. cbn [fst snd].
      destruct (IH m2 q (List.tl uw) fr) as (m3 & cur' & uw' & -> & L3 & O3 & K & F3 & Q3); auto. { intros X. apply SH, L1, L2, X. }
      exists m3, cur', uw'. split; [reflexivity|]. split; [chain|]. split; [exact O3|]. split; [econstructor; eauto|]. split; [exact F3|].
      pose proof (wz_next uw). pose proof (owz_nonneg (ptext (Some (j, t)))). lia.
    + exists m, None, uw. split; [reflexivity|]. split; [eapply later_refl; eauto|]. split; [exact O|]. split; [constructor|]. split; [exact F|lia].
Qed.

(** ** the map *)
Definition mrel (N : Z) (f : fmap) (a : option amap) : Prop :=
  match a with
  | Some a => exists ik iv il es, f = mkf ik iv il es /\ Forall2 (erel N) es a /\ NoDup (map fst a)
  | None => f = mk_fmap None None None 0
  end.
Lemma fmap_fb : forall ik iv il es x, cnt (fmap_blocks (mkf ik iv il es)) x = cnt (fb ik iv il es) x.
Proof.
  intros ik iv il es x. pose proof (blocks_mkf 0%nat ik iv il es x) as H. unfold map_blocks in H. cbn [fst snd] in H. rewrite !cnt_cons in H. unfold fmap_blocks. lia.
Qed.
Lemma to_fb : forall m ik iv il es fr, mowns m (fmap_blocks (mkf ik iv il es) ++ fr) -> mowns m (fb ik iv il es ++ fr).
Proof. intros. eapply mowns_ext; [eassumption|]. intros x. rewrite !cnt_app, fmap_fb. reflexivity. Qed.
Lemma of_fb : forall m ik iv il es fr, mowns m (fb ik iv il es ++ fr) -> mowns m (fmap_blocks (mkf ik iv il es) ++ fr).
Proof. intros. eapply mowns_ext; [eassumption|]. intros x. rewrite !cnt_app, fmap_fb. reflexivity. Qed.
Lemma mrel_mono : forall N N' f a, N <= N' -> mrel N f a -> mrel N' f a.
Proof. intros N N' f [a|] L; [|auto]. intros (ik & iv & il & es & E & F & D). exists ik, iv, il, es. split; auto. split; auto. eapply erel_all; eauto. Qed.

Lemma has_key_ok : forall N m ids ik iv il es a k, mowns m ids -> incl (fb ik iv il es) ids -> Forall2 (erel N) es a ->
  (In k (map fst a) /\ x_has_key m (mkf ik iv il es) k = Ret true) \/ (~ In k (map fst a) /\ x_has_key m (mkf ik iv il es) k = Ret false).
Proof.
  intros N m ids ik iv il es a k O C F. unfold x_has_key. cbn [mkf f_keys]. rewrite (x_deref_ok _ m ik _ ids O) by (apply C; now left).
  unfold bind at 1. unfold bind at 2. cbn [snd]. rewrite <- (keys_rel N es a F).
  assert (CE : incl (flat_map eblocks es) ids) by (intros x X; apply C; unfold fb; right; right; now right).
  destruct (find_split_g _ (fun e => str_eqb (snd (hk e)) k) es) as [(p & e & q & -> & H & HN)|H].
  - left. split.
    + unfold keys_of. rewrite map_app. apply in_or_app. right. left. now apply str_eqb_eq.
    + rewrite (x_scan_null_hit m ids (fun x => str_eqb x k) p e q 0); auto.
  - right. split.
    + intros X. apply in_map_iff in X. destruct X as (e & E & X). specialize (H e X). cbn beta in H. rewrite E, str_eqb_refl in H. discriminate.
    + rewrite (x_scan_null_miss m ids (fun x => str_eqb x k) es 0); auto.
Qed.
Lemma get_text : forall N m ids ik iv il es a k, mowns m ids -> incl (fb ik iv il es) ids -> Forall2 (erel N) es a -> NoDup (map fst a) -> In k (map fst a) ->
  exists old v, In (k, old) a /\ zlen old <= N /\ x_get m (mkf ik iv il es) k = Ret v /\ (do b <- x_block m v; deref_cstr b) = Ret (a_text old).
Proof.
  intros N m ids ik iv il es a k O C F ND K. apply in_map_iff in K. destruct K as ([k' old] & E & K). cbn [fst] in E. subst k'.
  destruct (in_split _ _ K) as (ap & aq & ->).
  apply Forall2_app_inv_r in F. destruct F as (p & q' & Fp & Fq & ->). inversion Fq as [|e x q aq' Fe Fq' E1 E2]; subst.
  destruct (nodup_split N p e ap k old aq Fp Fe ND) as (Np & _ & Ne & _).
  exists old, (if 0 <? hl e then hv e else None). split; [exact K|]. split; [apply Fe|]. split; [now apply (x_get_ok m ids)|].
  rewrite (source_ok N m ids e k old O); [apply source_text| |exact Fe].
  intros x X. apply C. unfold fb. right. right. right. apply (eb_in e (p ++ e :: q)); [apply in_or_app; right; now left|exact X].
Qed.
Lemma joined_len : forall N old t, 6 <= N -> zlen old <= N -> zlen (joined old t) + 1 <= N + zlen t + 2.
Proof.
  intros N old t H6 L. unfold joined. rewrite !zlen_app. change (zlen [44]) with 1.
  destruct old as [|c old]; cbn [a_text]; [change (zlen (bs "(null)")) with 6; lia|]. pose proof (text_len (c :: old)). lia.
Qed.

(** ** the parameters *)
Definition params_result (N : Z) (m : mem) (uc fc : ptr str) (fr : list nat) (x : outcome (option Z * (mem * (fmap * ptr str)))) (r : outcome (Z * (option amap * nat))) : Prop :=
  match r with
  | UB k => x = UB k
  | Ret (code, (b, n)) => exists stop m' f' cur', x = Ret (stop, (m', (f', cur'))) /\ later m m' /\ mrel N f' b /\
      match stop with
      | None => code = U_OK /\ n = O /\ mowns m' (fmap_blocks f' ++ ptr_blocks cur' ++ ptr_blocks uc ++ ptr_blocks fc ++ fr)
      | Some z => code = z /\ exists gone, length gone = n /\ mowns m' (fmap_blocks f' ++ gone ++ fr)
      end
  end.
Lemma params_later : forall N N' m m' uc fc fr x r, N <= N' -> later m m' -> params_result N m' uc fc fr x r -> params_result N' m uc fc fr x r.
Proof.
  intros N N' m m' uc fc fr x [[code [b n]]|k] LN L R; [|exact R]. destruct R as (stop & m1 & f' & cur' & E & L' & M & R).
  exists stop, m1, f', cur'. split; [exact E|]. split; [chain|]. split; [eapply mrel_mono; eauto|exact R].
Qed.
Lemma params_ok : forall check uc fc fw m f a cur uw N fr, (short m -> sh) -> Forall cstr uw -> mrel N f a ->
  mowns m (fmap_blocks f ++ ptr_blocks cur ++ ptr_blocks uc ++ ptr_blocks fc ++ fr) ->
  6 <= N -> N + owz (ptext cur) + wz uw + 2 < two64 -> (fw <> [] -> uc <> None /\ fc <> None) ->
  exists r, s_params sh tl check fw (ptext cur) uw a r /\
    params_result (N + owz (ptext cur) + wz uw) m uc fc fr (x_params tl m f check cur uw fw uc fc) r.
Proof.
  intros check uc fc. induction fw as [|w fw IH]; intros m f a cur uw N fr SH F M O N6 LT UF; cbn [x_params].
  - exists (Ret (U_OK, (a, 0%nat))). split; [constructor|]. exists None, m, f, cur. split; [reflexivity|]. split; [eapply later_refl; eauto|].
    split; [|auto]. eapply mrel_mono; [|exact M]. pose proof (wz_nonneg uw). pose proof (owz_nonneg (ptext cur)). lia.
  - destruct cur as [[j t]|].
    2:{ exists (Ret (U_OK, (a, 0%nat))). split; [constructor|]. exists None, m, f, None. split; [reflexivity|]. split; [eapply later_refl; eauto|].
        split; [|auto]. eapply mrel_mono; [|exact M]. pose proof (wz_nonneg uw). cbn [owz ptext] in *. lia. }
    destruct UF as [Uc Fc]; [discriminate|]. destruct uc as [[u ut]|]; [|congruence]. destruct fc as [[g gt]|]; [|congruence].
    cbn [ptr_blocks app] in O. cbn [ptext] in *. pose proof (wz_nonneg uw) as WN. pose proof (zlen_nonneg _ t) as TN. cbn [owz] in *.
    rewrite (x_deref_ok _ m j t _ O) by (apply in_or_app; right; now left). unfold bind at 1. cbn [snd].
    destruct (cstr_next uw F) as [C1 C2]. pose proof (wz_next uw) as WX.
    (* what follows when the parameter was stored *)
    assert (NEXT : forall m1 f1 a1 N1, later m m1 -> mrel N1 f1 a1 -> N <= N1 -> N1 <= N + zlen t + 2 ->
      mowns m1 (fmap_blocks f1 ++ [j; u; g] ++ fr) ->
      exists cur r, s_word sh tl (hd_error uw) cur /\ s_params sh tl check fw cur (List.tl uw) a1 r /\
        params_result (N + (zlen t + 2) + wz uw) m (Some (u, ut)) (Some (g, gt)) fr
          (do m2 <- x_free m1 (Some j); do d <- x_decode tl m2 (hd_error uw); x_params tl (fst d) f1 check (snd d) (List.tl uw) fw (Some (u, ut)) (Some (g, gt))) r).
    { intros m1 f1 a1 N1 L1 M1 LN1 LN1' O1.
      destruct (x_free_ok m1 j (fmap_blocks f1 ++ [u; g] ++ fr)) as (m2 & -> & O2 & L2 & _). { cbn [app] in *. mowns_by O1. } unfold bind at 1.
      destruct (decode_ok m2 (hd_error uw) (fmap_blocks f1 ++ [u; g] ++ fr)) as (m3 & q & -> & L3 & O3 & W & Q); auto. { intros X. apply SH, L1, L2, X. }
      unfold bind at 1. cbn [fst snd].
      destruct (IH m3 f1 a1 q (List.tl uw) N1 fr) as (r & Sr & R);
        [intros X; apply SH, L1, L2, L3, X|exact C2|exact M1|cbn [ptr_blocks app] in *; mowns_by O3|lia|lia|intros _; split; discriminate|].
      exists (ptext q), r. split; [exact W|]. split; [exact Sr|]. eapply (params_later _ _ m m3); [|chain|exact R]. lia. }
    change ((starts_with 58 w || starts_with 64 w) && (negb check || utf8_valid t)) with (takes check w t).
    destruct (takes check w t) eqn:ET.
    2:{ unfold bind at 1. cbn [fst]. destruct (NEXT m f a N) as (cur & r & W & Sr & R); auto; [eapply later_refl; eauto|lia|lia|].
        exists r. split; [eapply sp_next; eauto|exact R]. }
    destruct a as [a|].
    2:{ cbn [mrel] in M. subst f. exists (UB NullDeref). split; [now apply sp_no_map|reflexivity]. }
    destruct M as (ik & iv & il & es & -> & FR & ND).
    assert (CF : incl (fb ik iv il es) (fmap_blocks (mkf ik iv il es) ++ j :: u :: g :: fr)).
    { intros x X. apply in_or_app. left. apply cnt_in. rewrite fmap_fb. now apply cnt_in. }
    destruct (has_key_ok N m _ ik iv il es a (tail w) O CF FR) as [(K & ->)|(K & ->)]; unfold bind at 2.
    + (* the key is there *)
      destruct (get_text N m _ ik iv il es a (tail w) O CF FR ND K) as (old & v & Ko & Lo & -> & TX). unfold bind at 2.
      assert (TX' : exists b, x_block m v = Ret b /\ deref_cstr b = Ret (a_text old)).
      { unfold bind in TX. destruct (x_block m v) as [b|]; [|discriminate]. eauto. }
      destruct TX' as (b & -> & EB). unfold bind at 2. rewrite EB. unfold bind at 2.
      match goal with |- context [x_strdup m ?z] => change z with (Some (joined old t)) end.
      assert (KN : tail w <> []). { intros E. rewrite E in Ko. clear - FR Ko. induction FR as [|e x es a R F IH]; [destruct Ko|]. destruct Ko as [->|Ko]; [destruct R as (_ & R & _); now apply R|auto]. }
      destruct (x_strdup_ok m (Some (joined old t)) _ O) as (p & m1 & -> & L1 & O1 & [EP|(-> & S1 & _)]).
      * destruct p as [[q qt]|]; [|discriminate]. cbn [ptext] in EP. injection EP as ->. cbn [snd fst ptr_blocks] in *.
        assert (O1' : mowns m1 (fb ik iv il es ++ q :: j :: u :: g :: fr)). { apply to_fb. cbn [app] in O1. mowns_by O1. }
        pose proof (joined_len N old t N6 Lo) as JL.
        destruct (put_call N (N + zlen t + 2) m1 ik iv il es a (tail w) (Some (joined old t)) (q :: j :: u :: g :: fr) O1' FR ND) as (c & m2 & ik2 & iv2 & il2 & es2 & a2 & EQ & L2 & O2 & F2 & ND2 & RES); [|lia|lia|lia|].
        { intros s Es. injection Es as <-. exact JL. }
        match type of EQ with ?L = _ => match goal with |- context [x_put m1 ?f ?k ?v] => change (x_put m1 f k v) with L end end. rewrite EQ. clear EQ.
        unfold bind at 2. destruct RES as [RES|(-> & S2 & ->)].
        -- assert (RES' : c = U_OK /\ a2 = a_put (tail w) (Some (joined old t)) a).
           { unfold put_meaning in RES. destruct (tail w); [congruence|]. injection RES as -> ->. split; reflexivity. }
           destruct RES' as [-> ->]. change (U_OK =? U_OK) with true. cbn iota.
           destruct (x_free_ok m2 q (fb ik2 iv2 il2 es2 ++ j :: u :: g :: fr)) as (m3 & -> & O3 & L3 & _); [mowns_by O2|]. unfold bind at 2. unfold bind at 1.
           destruct (NEXT m3 (mkf ik2 iv2 il2 es2) (Some (a_put (tail w) (Some (joined old t)) a)) (N + zlen t + 2)) as (cur & r & W & Sr & R); [chain| |lia|lia| |].
           { exists ik2, iv2, il2, es2. auto. } { apply of_fb. exact O3. }
           exists r. split; [eapply sp_more; eauto|exact R].
        -- change (U_ERROR_MEMORY =? U_OK) with false. cbn iota. unfold bind at 1.
           exists (Ret (U_ERROR_MEMORY, (Some a, 4%nat))). split; [apply sp_more_fail; auto; apply SH, L1, S2|].
           exists (Some U_ERROR_MEMORY), m2, (mkf ik2 iv2 il2 es2), (Some (j, t)). split; [reflexivity|]. split; [chain|]. split.
           { exists ik2, iv2, il2, es2. split; auto. split; auto. eapply erel_all; [|exact F2]. lia. }
           split; [reflexivity|]. exists [q; j; u; g]. split; [reflexivity|]. apply of_fb. exact O2.
      * cbn [addr ptr_blocks app] in *.
        destruct (x_free_ok m1 u (fmap_blocks (mkf ik iv il es) ++ j :: g :: fr)) as (m2 & -> & O2 & L2 & _); [mowns_by O1|]. unfold bind at 2.
        destruct (x_free_ok m2 g (fmap_blocks (mkf ik iv il es) ++ j :: fr)) as (m3 & -> & O3 & L3 & _); [mowns_by O2|]. unfold bind at 2. unfold bind at 1.
        exists (Ret (U_ERROR_MEMORY, (Some a, 1%nat))). split; [apply sp_more_text; auto|].
        exists (Some U_ERROR_MEMORY), m3, (mkf ik iv il es), (Some (j, t)). split; [reflexivity|]. split; [chain|]. split.
        { exists ik, iv, il, es. split; auto. split; auto. eapply erel_all; [|exact FR]. lia. }
        split; [reflexivity|]. exists [j]. split; [reflexivity|]. exact O3.
    + (* a new key *)
      destruct (put_call N (N + zlen t + 2) m ik iv il es a (tail w) (Some t) (j :: u :: g :: fr)) as (c & m2 & ik2 & iv2 & il2 & es2 & a2 & EQ & L2 & O2 & F2 & ND2 & RES); [now apply to_fb|exact FR|exact ND| |lia|lia|lia|].
      { intros s Es. injection Es as <-. lia. }
      match type of EQ with ?L = _ => match goal with |- context [x_put m ?f ?k ?v] => change (x_put m f k v) with L end end. rewrite EQ. clear EQ.
      unfold bind at 2. unfold bind at 1.
      assert (STOP : a2 = a -> (c =? U_OK) = false -> s_params sh tl check (w :: fw) (Some t) uw (Some a) (Ret (U_ERROR_MEMORY, (Some a, 3%nat))) ->
        exists r, s_params sh tl check (w :: fw) (Some t) uw (Some a) r /\ params_result (N + (zlen t + 2) + wz uw) m (Some (u, ut)) (Some (g, gt)) fr
          (match (if c =? U_OK then None else Some U_ERROR_MEMORY) with
           | Some z => Ret (Some z, (m2, (mkf ik2 iv2 il2 es2, Some (j, t))))
           | None => do m2 <- x_free m2 (Some (fst (j, t))); do d <- x_decode tl m2 (hd_error uw); x_params tl (fst d) (mkf ik2 iv2 il2 es2) check (snd d) (List.tl uw) fw (Some (u, ut)) (Some (g, gt))
           end) r).
      { intros -> E0 Sr. rewrite E0. exists (Ret (U_ERROR_MEMORY, (Some a, 3%nat))). split; [exact Sr|].
        exists (Some U_ERROR_MEMORY), m2, (mkf ik2 iv2 il2 es2), (Some (j, t)). split; [reflexivity|]. split; [exact L2|]. split.
        { exists ik2, iv2, il2, es2. split; auto. split; auto. eapply erel_all; [|exact F2]. lia. }
        split; [reflexivity|]. exists [j; u; g]. split; [reflexivity|]. apply of_fb. exact O2. }
      destruct (tail w) as [|k0 kr] eqn:KE.
      * destruct RES as [RES|(-> & S2 & ->)].
        -- cbn [put_meaning] in RES. injection RES as -> ->. apply STOP; auto. now apply sp_nameless.
        -- apply STOP; auto. now apply sp_nameless.
      * destruct RES as [RES|(-> & S2 & ->)].
        -- cbn [put_meaning] in RES. injection RES as -> ->. change (U_OK =? U_OK) with true. cbn iota. cbn [fst].
           destruct (NEXT m2 (mkf ik2 iv2 il2 es2) (Some (a_put (tail w) (Some t) a)) (N + zlen t + 2)) as (cur & r & W & Sr & R); [exact L2| |lia|lia| |].
           { rewrite KE. exists ik2, iv2, il2, es2. auto. } { apply of_fb. exact O2. }
           exists r. split; [eapply sp_new; eauto; rewrite KE; [exact K|discriminate]|exact R].
        -- apply STOP; auto. apply sp_new_fail; auto. rewrite KE. exact K.
Qed.
End S.
