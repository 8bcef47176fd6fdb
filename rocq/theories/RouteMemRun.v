(** Proofs about the memory of routing (C103): ulfius_parse_url, the calls, the request. *)
From Coq Require Import String ZArith Bool List Lia Permutation Sorted.
From Verif Require Import Base BaseFacts UMapModel UMapProofs UrlModel Utf8Model RouterModel RouterSpec RouterProofs OwnModel OwnSpec OwnProofs MapMemModel MapMemSpec
  MapMemProofs MapMemPut MapMemRun MapMemSteps RespMemModel RespMemSpec RespMemProofs RespMemSteps RouteMemModel RouteMemSpec RouteMemProofs RouteMemSteps.
Import ListNotations.
Open Scope Z_scope.
Open Scope list_scope.

Section S.
Variable sh : Prop.
Variable order : list (nat * rep) -> list (nat * rep).
Hypothesis Hsort : sorts order.
Variable tl : Z -> Z.
Variable ends : Z -> Z -> bool.

Definition parse_result (N : Z) (m : mem) (fr : list nat) (x : outcome (Z * (mem * fmap))) (r : outcome (Z * (option amap * nat))) : Prop :=
  match r with
  | UB k => x = UB k
  | Ret (code, (b, n)) => exists m' f' gone, x = Ret (code, (m', f')) /\ later m m' /\ mrel N f' b /\ length gone = n /\ mowns m' (fmap_blocks f' ++ gone ++ fr)
  end.
Lemma word_list : forall m ids p, mowns m ids -> incl (ptr_blocks p) ids ->
  (match p with None => Ret [] | Some _ => do t <- x_deref m p; Ret (words (snd t)) end) = Ret (owords (ptext p)).
Proof. intros m ids [[i s]|] O C; [|reflexivity]. rewrite (x_deref_ok _ m i s ids O) by (apply C; now left). reflexivity. Qed.
Lemma parse_ok : forall check url prefix format m f a N fr, (short m -> sh) -> cstr url -> mrel N f a -> mowns m (fmap_blocks f ++ fr) ->
  incl (ptr_blocks prefix) fr -> incl (ptr_blocks format) fr -> 6 <= N -> N + 2 * zlen url + 4 < two64 ->
  exists r, s_parse sh tl check url (ptext prefix) (ptext format) a r /\ parse_result (N + 2 * zlen url + 2) m fr (x_parse_url tl m url prefix format f check) r.
Proof.
  intros check url prefix format m f a N fr SH CU M O CP CF N6 LT. unfold x_parse_url.
  assert (FW : Forall cstr (words url)) by (eapply segs_cstr; [apply words_segs|exact CU]).
  pose proof (wz_words url CU) as WW. pose proof (zlen_nonneg _ url) as ZN.
  destruct (x_strdup_ok m (Some url) _ O) as (uc & m1 & -> & L1 & O1 & C1).
  destruct (x_dup_ok m1 prefix _ O1) as (pc & m2 & -> & L2 & O2 & C2).
  { intros x X. apply in_or_app. right. apply in_or_app. right. auto. }
  unfold bind at 1.
  assert (SH1 : short m1 -> sh) by (intros X; apply SH, L1, X). assert (SH2 : short m2 -> sh) by (intros X; apply SH1, L2, X).
  destruct uc as [[u ut]|].
  2:{ destruct C1 as [C1|(_ & S1 & _)]; [discriminate|]. exists (UB NullDeref). split; [apply sx_crash; auto|reflexivity]. }
  clear C1. cbn [ptr_blocks app] in O2. rewrite (x_deref_ok _ m2 u ut _ O2) by (apply in_or_app; right; now left). unfold bind at 1.
  assert (PC : copied sh (ptext prefix) (ptext pc)).
  { destruct C2 as [E|(-> & S2 & Hp)]; [left; exact E|]. right. split; [auto|]. split; [reflexivity|]. destruct prefix as [[? ?]|]; [discriminate|congruence]. }
  destruct (cstr_next _ FW) as [K1 K2]. pose proof (wz_next (words url)) as WX.
  destruct (decode_ok sh tl m2 (hd_error (words url)) _ SH2 K1 O2) as (m3 & d & -> & L3 & O3 & W & Q). unfold bind at 1. cbn [fst snd].
  assert (SH3 : short m3 -> sh) by (intros X; apply SH2, L3, X).
  pose proof (word_list m3 _ pc O3) as WL. unfold ptr in *. rewrite WL by (intros x X; apply in_or_app; right; apply in_or_app; left; exact X). clear WL. unfold bind at 1.
  destruct (skip_ok sh tl (owords (ptext pc)) m3 d (List.tl (words url)) (ptr_blocks pc ++ fmap_blocks f ++ u :: fr) SH3 K2) as (m4 & cur & uw & E & L4 & O4 & SK & F4 & Q4).
  { mowns_by O3. }
  flat. rewrite E. clear E. unfold bind at 1.
  destruct (x_free_ptr _ m4 pc (ptr_blocks cur ++ fmap_blocks f ++ u :: fr)) as (m5 & E & O5 & L5); [flat; mowns_by O4|]. flat. rewrite E. clear E. unfold bind at 1.
  destruct (x_dup_ok m5 format _ O5) as (fc & m6 & E & L6 & O6 & C6).
  { intros x X. apply in_or_app. right. apply in_or_app. right. right. auto. }
  flat. rewrite E. clear E. unfold bind at 1.
  assert (FIN : ptext fc = ptext format \/ (is_null fc = true /\ is_null format = false /\ sh)).
  { destruct C6 as [E|(-> & S6 & Hf)]; [left; exact E|]. right. split; [reflexivity|]. split; [destruct format; [reflexivity|congruence]|]. apply SH3, L4, L5, S6. }
  destruct FIN as [EF|(Hn & Hf & HS)].
  - assert (COND : negb (is_null format) && is_null fc = false).
    { destruct format as [[? ?]|], fc as [[? ?]|]; cbn [ptext] in EF; try discriminate; reflexivity. }
    flat. rewrite COND.
    pose proof (word_list m6 _ fc O6) as WL. flat. rewrite WL by (intros x X; apply in_or_app; left; exact X). clear WL. unfold bind at 1. rewrite EF.
    assert (SH6 : short m6 -> sh) by (intros X; apply SH3, L4, L5, L6, X).
    destruct (params_ok sh tl check (Some (u, ut)) fc (owords (ptext format)) m6 f a cur uw N fr SH6 F4 M) as (r & Sr & R).
    { cbn [ptr_blocks app]. flat. mowns_by O6. } { exact N6. } { flat. lia. }
    { intros X. split; [discriminate|]. intros ->. cbn [ptext] in EF. rewrite <- EF in X. now apply X. }
    exists r. split; [eapply sx_params; eauto|].
    destruct r as [[code [b n]]|k].
    2:{ cbn [params_result] in R. flat. rewrite R. reflexivity. }
    destruct R as (stop & m7 & f' & cur' & E & L7 & M7 & R). flat. rewrite E. clear E. unfold bind at 1.
    assert (M7' : mrel (N + 2 * zlen url + 2) f' b). { eapply mrel_mono; [|exact M7]. flat. lia. }
    destruct stop as [z|].
    + destruct R as (-> & gone & Ln & O7). exists m7, f', gone. split; [reflexivity|]. split; [chain|]. auto.
    + destruct R as (-> & -> & O7).
      destruct (x_free_ptr _ m7 cur' (fmap_blocks f' ++ u :: ptr_blocks fc ++ fr)) as (m8 & E & O8 & L8); [cbn [ptr_blocks app] in O7; flat; mowns_by O7|]. flat. rewrite E. clear E. unfold bind at 1.
      cbn [addr]. destruct (x_free_ok m8 u (fmap_blocks f' ++ ptr_blocks fc ++ fr)) as (m9 & -> & O9 & L9 & _); [flat; mowns_by O8|]. unfold bind at 1.
      destruct (x_free_ptr _ m9 fc (fmap_blocks f' ++ fr)) as (m10 & E & O10 & L10); [flat; mowns_by O9|]. flat. rewrite E. clear E. unfold bind at 1.
      exists m10, f', []. split; [reflexivity|]. split; [chain|]. auto.
  - destruct fc as [?|]; [discriminate|]. destruct format as [[q qt]|]; [|discriminate]. cbn [is_null negb andb ptr_blocks app] in *.
    exists (Ret (U_ERROR_MEMORY, (a, S (is_some (ptext cur))))). split.
    { eapply sx_no_format; eauto. cbn [ptext]. discriminate. }
    exists m6, f, (u :: ptr_blocks cur). split; [reflexivity|]. split; [chain|]. split; [eapply mrel_mono; [|exact M]; lia|].
    split; [destruct cur as [[? ?]|]; reflexivity|]. cbn [app]. flat. mowns_by O6.
Qed.

(** ** the map before a call *)
Definition any (f : fmap) : Prop := exists N a, mrel N f a.
Lemma clean_any : forall m f fr, any f -> mowns m (fmap_blocks f ++ fr) -> exists m' f', x_clean m f = Ret (m', f') /\ mowns m' fr /\ later m m'.
Proof.
  intros m f fr (N & [a|] & M) O; cbn [mrel] in M.
  - destruct M as (ik & iv & il & es & -> & F & ND). destruct (x_clean_ok m ik iv il es fr) as (m' & E & O' & L); [now apply to_fb|]. eauto.
  - subst f. exists m, (mk_fmap None None None 0). split; [reflexivity|]. split; [exact O|eapply later_refl; eauto].
Qed.
Lemma copy_none : forall N m ids sk sv sl es a, mowns m ids -> incl (fb sk sv sl es) ids -> Forall2 (erel N) es a -> NoDup (map fst a) -> 0 <= N -> N + 2 < two64 ->
  x_copy_into m (mk_fmap None None None 0) (mkf sk sv sl es) = if match a with [] => true | _ => false end then Ret (U_OK, (m, mk_fmap None None None 0)) else UB NullDeref.
Proof.
  intros N m ids sk sv sl es a O C F ND N0 NL. unfold x_copy_into. unfold mkf at 1. cbn [f_keys]. cbn iota. cbn [mkf f_keys].
  rewrite (x_deref_ok _ m sk _ ids O) by (apply C; now left). unfold bind at 1. cbn [snd]. fold (mkf sk sv sl es).
  destruct F as [|e [k v] es a Fe F]; [reflexivity|]. cbn [map app x_copy_into_loop].
  assert (CE : incl (eblocks e) ids) by (intros x X; apply C; unfold fb; cbn [flat_map]; right; right; right; apply in_or_app; auto).
  destruct (nodup_split N [] e [] k v a (Forall2_nil _) Fe ND) as (_ & _ & Ne & _).
  assert (Ek : snd (hk e) = k) by apply Fe. assert (Kn : k <> []) by apply Fe.
  assert (Ih : In (fst (hk e)) ids) by (apply CE; now left). destruct (hk e) as [i s] eqn:HE. cbn [fst snd] in *. subst s.
  rewrite (x_deref_ok _ m i k ids O Ih). unfold bind at 1. cbn [snd].
  pose proof (x_get_ok m ids sk sv sl [] e es k O C) as XG. cbn [app] in XG. rewrite XG; [|intros x []|rewrite HE; exact Ne]. unfold bind at 1.
  rewrite (source_ok N m ids e k v O CE Fe). unfold bind at 1. rewrite source_text. unfold bind at 1.
  assert (P : forall w off len, 0 <= off -> 0 <= len -> off + len + 1 < two64 -> x_put_binary m (mk_fmap None None None 0) (Some k) w off len = UB NullDeref).
  { intros w off len H0 H1 H2. unfold x_put_binary. destruct k as [|c k]; [congruence|]. cbn [orb].
    assert (add64 (add64 off len) 1 <=? SIZE_MAX = true) as ->; [|reflexivity].
    apply Z.leb_le. unfold add64. rewrite (Z.mod_small (off + len)) by lia. rewrite Z.mod_small by lia. unfold SIZE_MAX. lia. }
  destruct Fe as (_ & _ & _ & Lv). cbn [snd] in Lv.
  unfold x_put. destruct v as [|c v]; cbn [a_text].
  - rewrite P; [reflexivity|lia..|unfold two64; lia].
  - pose proof (text_len (c :: v)). pose proof (zlen_nonneg _ (text_of (c :: v))).
    rewrite P; [reflexivity|lia..].
Qed.
Definition reset_result (N : Z) (m : mem) (fr : list nat) (f initf : fmap) (r : outcome (option amap)) : Prop :=
  exists c m1 f1, x_empty m f = Ret (c, (m1, f1)) /\
  match r with
  | UB k => x_copy_into m1 f1 initf = UB k
  | Ret a => exists c' m2 f2, x_copy_into m1 f1 initf = Ret (c', (m2, f2)) /\ later m m2 /\ mowns m2 (fmap_blocks f2 ++ fr) /\ mrel N f2 a
  end.
Lemma reset_ok : forall N m f fr sk sv sl es init, (short m -> sh) -> any f -> mowns m (fmap_blocks f ++ fr) -> incl (fb sk sv sl es) fr ->
  Forall2 (erel N) es init -> NoDup (map fst init) -> 0 <= N -> N + 2 < two64 ->
  exists r, s_reset sh init r /\ reset_result (N + 1) m fr f (mkf sk sv sl es) r.
Proof.
  intros N m f fr sk sv sl es init SH A O C F ND N0 LT.
  destruct (clean_any m f fr A O) as (m1 & f1 & E1 & O1 & L1).
  destruct (x_init_ok m1 fr O1) as (c & m2 & f2 & E2 & L2 & RES).
  assert (EE : x_empty m f = Ret (c, (m2, f2))). { unfold x_empty. rewrite E1. unfold bind at 1. exact E2. }
  destruct RES as [(-> & ik & iv & il & -> & O2)|(-> & S2 & -> & O2)].
  - destruct (x_copy_into_ok N m2 sk sv sl es init ik iv il [] [] fr O2 C F ND (Forall2_nil _) (NoDup_nil _) N0 LT)
      as (c & m3 & ik3 & iv3 & il3 & es3 & a3 & E3 & L3 & O3 & F3 & ND3 & RES).
    assert (R : exists c' m2' f2', x_copy_into m2 (mkf ik iv il []) (mkf sk sv sl es) = Ret (c', (m2', f2')) /\ later m m2' /\ mowns m2' (fmap_blocks f2' ++ fr) /\ mrel (N + 1) f2' (Some a3)).
    { exists c, m3, (mkf ik3 iv3 il3 es3). split; [exact E3|]. split; [chain|]. split; [now apply of_fb|]. exists ik3, iv3, il3, es3. auto. }
    exists (Ret (Some a3)). split; [|exists U_OK, m2, (mkf ik iv il []); split; [exact EE|exact R]].
    destruct RES as [(_ & ->)|(_ & S3 & n & ->)]; [apply sr_all|apply sr_some; apply SH, L1, L2, S3].
  - pose proof (copy_none N m2 fr sk sv sl es init O2 C F ND N0 LT) as CN. destruct init as [|x init].
    + exists (Ret None). split; [apply sr_no_arrays; auto; apply SH, L1, S2|]. exists U_ERROR_MEMORY, m2, (mk_fmap None None None 0). split; [exact EE|].
      exists U_OK, m2, (mk_fmap None None None 0). split; [exact CN|]. split; [chain|]. split; [exact O2|reflexivity].
    + exists (UB NullDeref). split; [apply sr_crash; [apply SH, L1, S2|discriminate]|]. exists U_ERROR_MEMORY, m2, (mk_fmap None None None 0). split; [exact EE|exact CN].
Qed.

(** ** the calls *)
Lemma read_params_ok : forall N m ids f a, mowns m ids -> incl (fmap_blocks f) ids -> mrel N f a -> read_params m f = Ret a.
Proof.
  intros N m ids f [a|] O C M; cbn [mrel] in M.
  - destruct M as (ik & iv & il & es & -> & F & _). unfold read_params. unfold mkf at 1. cbn [f_keys]. cbn iota. rewrite (read_map_ok N m ids ik iv il es a O); [reflexivity| |exact F].
    intros x X. apply C. apply cnt_in. rewrite fmap_fb. now apply cnt_in.
  - subst f. reflexivity.
Qed.
Definition calls_result (m : mem) (fr : list nat) (x : outcome (list call * (mem * fmap))) (r : outcome (list call * nat)) : Prop :=
  match r with
  | UB k => x = UB k
  | Ret (cs, n) => exists m' f' gone, x = Ret (cs, (m', f')) /\ later m m' /\ any f' /\ length gone = n /\ mowns m' (fmap_blocks f' ++ gone ++ fr)
  end.
Lemma calls_ok : forall check url N sk sv sl es init x, cstr url -> Forall2 (erel N) es init -> NoDup (map fst init) -> 6 <= N -> N + 2 * zlen url + 5 < two64 ->
  forall ys m f fr, (short m -> sh) -> any f -> mowns m (fmap_blocks f ++ fr) -> incl (fb sk sv sl es) fr -> incl (flat_map yep ys) fr ->
  exists r, s_calls sh tl ends check url init (map vep ys) r /\
    calls_result m fr (x_calls tl ends m (full ys ++ Some None :: x) url f (mkf sk sv sl es) check) r.
Proof.
  intros check url N sk sv sl es init x CU F ND N6 LT. induction ys as [|[j c] ys IH]; intros m f fr SH A O C CY.
  - exists (Ret ([], 0%nat)). split; [constructor|]. exists m, f, []. split; [reflexivity|]. split; [eapply later_refl; eauto|]. auto.
  - cbn [full map app x_calls]. rewrite (x_deref_ok _ m j c _ O) by (apply in_or_app; right; apply CY; now left). unfold bind at 1. cbn [snd].
    pose proof (zlen_nonneg _ url) as ZN.
    destruct (reset_ok N m f fr sk sv sl es init SH A O C F ND) as (ra & Sa & (c0 & m1 & f1 & E1 & R)); [lia|lia|]. rewrite E1. unfold bind at 1. cbn [fst snd].
    destruct ra as [a|k]; [|rewrite R; exists (UB k); split; [eapply sc_reset; eauto|reflexivity]].
    destruct R as (c' & m2 & f2 & E2 & L2 & O2 & M2). rewrite E2. unfold bind at 1. cbn [fst snd].
    assert (SH2 : short m2 -> sh) by (intros X; apply SH, L2, X).
    assert (CB : incl (rep_blocks c) fr) by (intros y Y; apply CY; cbn [flat_map]; unfold yep at 1; cbn [fst snd]; right; apply in_or_app; auto).
    destruct (parse_ok check url (r_prefix c) (r_format c) m2 f2 a (N + 1) fr SH2 CU M2 O2) as (rp & Sp & Rp);
      [intros y Y; apply CB; unfold rep_blocks; rewrite !in_app_iff; auto|intros y Y; apply CB; unfold rep_blocks; rewrite !in_app_iff; auto|lia|lia|].
    destruct rp as [[code [b n]]|k]; [|cbn [parse_result] in Rp; rewrite Rp; exists (UB k); split; [eapply sc_crash; eauto|reflexivity]].
    destruct Rp as (m3 & f3 & gone & E3 & L3 & M3 & Ln & O3). rewrite E3. unfold bind at 1.
    rewrite (read_params_ok _ m3 _ f3 b O3 (incl_appl _ (incl_refl _)) M3). unfold bind at 1.
    destruct (r_cb c) as [cb|] eqn:EC; [|exists (UB NullDeref); split; [eapply sc_no_callback; eauto|reflexivity]].
    destruct (ends cb (r_data c)) eqn:EE.
    + exists (Ret ([(cb, r_data c, code, b)], n)). split; [eapply (sc_end sh tl ends check url init (vrep c)); eauto|].
      exists m3, f3, gone. split; [reflexivity|]. split; [chain|]. split; [eexists; eexists; exact M3|]. auto.
    + destruct (IH m3 f3 (gone ++ fr)) as (r & Sr & R); [intros X; apply SH2, L3, X|eexists; eexists; exact M3|exact O3| | |].
      { intros y Y. apply in_or_app. right. auto. } { intros y Y. apply in_or_app. right. apply CY. cbn [flat_map]. apply in_or_app. auto. }
      exists (do y <- r; Ret ((cb, r_data c, code, b) :: fst y, (n + snd y)%nat)). split; [eapply (sc_next sh tl ends check url init (vrep c)); eauto|].
      destruct r as [[cs n2]|k]; [|cbn [calls_result] in R; unfold full in R; rewrite R; reflexivity].
      destruct R as (m4 & f4 & gone2 & E4 & L4 & A4 & Ln2 & O4). unfold full in E4. rewrite E4. unfold bind. cbn [fst snd].
      exists m4, f4, (gone ++ gone2). split; [reflexivity|]. split; [chain|]. split; [exact A4|]. split; [rewrite app_length; lia|]. mowns_by O4.
Qed.
Lemma release_ok : forall x ys m fr, mowns m (flat_map yep ys ++ fr) -> exists m', x_release_eps m (full ys ++ Some None :: x) = Ret m' /\ mowns m' fr /\ later m m'.
Proof.
  intros x. induction ys as [|[j c] ys IH]; intros m fr O.
  - exists m. split; [reflexivity|]. split; [exact O|eapply later_refl; eauto].
  - cbn [full map app x_release_eps]. rewrite (x_deref_ok _ m j c _ O) by now left. unfold bind at 1. cbn [fst snd].
    cbn [flat_map] in O. unfold yep at 1 in O. cbn [fst snd] in O. unfold rep_blocks in O.
    destruct (x_free_ptr _ m (r_method c) (j :: ptr_blocks (r_prefix c) ++ ptr_blocks (r_format c) ++ flat_map yep ys ++ fr)) as (m1 & -> & O1 & L1); [mowns_by O|]. unfold bind at 1.
    destruct (x_free_ptr _ m1 (r_prefix c) (j :: ptr_blocks (r_format c) ++ flat_map yep ys ++ fr)) as (m2 & -> & O2 & L2); [mowns_by O1|]. unfold bind at 1.
    destruct (x_free_ptr _ m2 (r_format c) (j :: flat_map yep ys ++ fr)) as (m3 & -> & O3 & L3); [mowns_by O2|]. unfold bind at 1.
    destruct (x_free_ok _ _ _ O3) as (m4 & -> & O4 & L4 & _). unfold bind at 1.
    destruct (IH m4 fr O4) as (m5 & E & O5 & L5). exists m5. split; [exact E|]. split; [exact O5|chain].
Qed.

(** ** the request *)
Lemma serve_ok : forall check table dflt method url N sk sv sl es init m f fr, (short m -> sh) -> cstr url -> Forall2 (erel N) es init -> NoDup (map fst init) ->
  6 <= N -> N + 2 * zlen url + 5 < two64 -> any f -> mowns m (fmap_blocks f ++ fr) -> incl (fb sk sv sl es) fr ->
  exists r, s_serve sh tl ends table dflt method url init check r /\
    calls_result m fr (x_serve order tl ends m table dflt method url f (mkf sk sv sl es) check) r.
Proof.
  intros check table dflt method url N sk sv sl es init m f fr SH CU F ND N6 LT A O C. unfold x_serve.
  destruct (match_ok sh order Hsort m table method url _ SH O) as (rm & Sm & Rm). destruct rm as [l|k].
  2:{ cbn [match_result] in Rm. rewrite Rm. exists (UB k). split; [now apply sv_crash|reflexivity]. }
  destruct Rm as (m1 & ret & E & L1 & AR). rewrite E. clear E. unfold bind at 1. cbn [fst snd].
  destruct (default_ok sh m1 ret dflt l _ (fun X => SH (proj1 L1 X)) AR) as (l' & m2 & ret' & Sd & E & L2 & AR'). rewrite E. clear E. unfold bind at 1. cbn [fst snd].
  destruct l' as [l'|].
  2:{ destruct AR' as [-> O2]. exists (UB NullDeref). split; [eapply sv_null; eauto|reflexivity]. }
  destruct AR' as (i & arr & ys & -> & O2 & (x & -> & _) & <-).
  rewrite (x_deref_ok _ m2 i _ _ O2) by now left. unfold bind at 1. cbn [fst snd].
  assert (SH2 : short m2 -> sh) by (intros X; apply SH, L1, L2, X).
  destruct (calls_ok check url N sk sv sl es init x CU F ND N6 LT ys m2 f (i :: flat_map yep ys ++ fr) SH2 A) as (r & Sr & R).
  { mowns_by O2. } { intros y Y. right. apply in_or_app. auto. } { intros y Y. right. apply in_or_app. auto. }
  exists r. split; [eapply sv_calls; eauto|]. destruct r as [[cs n]|k]; [|cbn [calls_result] in R; rewrite R; reflexivity].
  destruct R as (m3 & f3 & gone & E & L3 & A3 & Ln & O3). rewrite E. clear E. unfold bind at 1.
  destruct (release_ok x ys m3 (i :: fmap_blocks f3 ++ gone ++ fr)) as (m4 & -> & O4 & L4); [mowns_by O3|]. unfold bind at 1.
  destruct (x_free_ok _ _ _ O4) as (m5 & -> & O5 & L5 & _). unfold bind at 1.
  exists m5, f3, gone. split; [reflexivity|]. split; [chain|]. auto.
Qed.
End S.

Lemma any_mrel : forall N f a, mrel N f a -> any f.
Proof. intros N f a H. exists N, a. exact H. Qed.
Definition requests_result (m : mem) (fr : list nat) (x : outcome (list (list call) * (mem * fmap))) (r : outcome (list (list call) * nat)) : Prop :=
  match r with
  | UB k => x = UB k
  | Ret (cs, n) => exists m' f' gone, x = Ret (cs, (m', f')) /\ any f' /\ length gone = n /\ mowns m' (fmap_blocks f' ++ gone ++ fr)
  end.
Lemma requests_ok : forall (sh : Prop) order tl ends table dflt N max sk sv sl es init, sorts order -> Forall2 (erel N) es init -> NoDup (map fst init) ->
  6 <= N -> N + 2 * max + 5 < two64 -> forall l m f fr, Forall (ask_ok max) l -> (short m -> sh) -> any f -> mowns m (fmap_blocks f ++ fr) -> incl (fb sk sv sl es) fr ->
  exists r, s_requests sh tl ends table dflt init l r /\
    requests_result m fr (x_requests order tl ends m table dflt f (mkf sk sv sl es) l) r.
Proof.
  intros sh order tl ends table dflt N max sk sv sl es init HS F ND N6 LT. induction l as [|q l IH]; intros m f fr FQ SH A O C; cbn [x_requests].
  - exists (Ret ([], 0%nat)). split; [constructor|]. exists m, f, []. auto.
  - inversion FQ as [|? ? [QC QL] FQ']; subst.
    destruct (serve_ok sh order HS tl ends (q_check q) table dflt (q_method q) (q_url q) N sk sv sl es init m f fr SH QC F ND N6) as (r & Sr & R); auto; [lia|].
    destruct r as [[cs n]|k]; [|cbn [calls_result] in R; rewrite R; exists (UB k); split; [now apply sq_crash|reflexivity]].
    destruct R as (m1 & f1 & gone & E & L1 & A1 & Ln & O1). rewrite E. clear E. unfold bind at 1. cbn [fst snd].
    destruct (IH m1 f1 (gone ++ fr) FQ') as (r2 & Sr2 & R2); [intros X; apply SH, L1, X|exact A1|exact O1|intros y Y; apply in_or_app; auto|].
    exists (do y <- r2; Ret (cs :: fst y, (n + snd y)%nat)). split; [eapply sq_next; eauto|].
    destruct r2 as [[cs2 n2]|k]; [|cbn [requests_result] in R2; rewrite R2; reflexivity].
    destruct R2 as (m2 & f2 & gone2 & E & A2 & Ln2 & O2). rewrite E. clear E. unfold bind. cbn [fst snd].
    exists m2, f2, (gone ++ gone2). split; [reflexivity|]. split; [exact A2|]. split; [rewrite app_length; lia|]. mowns_by O2.
Qed.

(** ** when there is memory *)
Lemma copied_mem : forall t t', copied False t t' -> t' = t.
Proof. intros t t' [H|[H _]]; [exact H|destruct H]. Qed.
Lemma s_copy_mem : forall e e', s_copy False e e' -> e' = e.
Proof.
  intros [a b c d g h] [a' b' c' d' g' h'] (A & B & C & D & G & H). cbn in *. apply copied_mem in A. apply copied_mem in B. apply copied_mem in C. congruence.
Qed.
Lemma found_mem : forall method uw table r, s_found False method uw table r -> Forall callable table ->
  exists l, r = Ret (map Some l) /\ Forall (fun e => In e table /\ callback e <> None) l.
Proof.
  intros method uw table r H. induction H as [|e r EE|e r k EE EM|e r x EE EM H IH|e r k EE EM ES|e r x EE EM ES H IH|e r fw x EE EM ES EF H IH|e r fw e' x EE EM ES EF SC H IH|e r fw x EE EM ES EF SHH H IH]; intros FM.
  - exists []. split; [reflexivity|constructor].
  - exists []. split; [reflexivity|constructor].
  - inversion FM as [|? ? Hm _]; subst. destruct Hm as [[Hm _]|Hm]; [|congruence]. unfold method_match in EM. destruct (http_method e); [discriminate|congruence].
  - inversion FM as [|? ? Hm FM']; subst. destruct (IH FM') as (l & -> & FL). exists l. split; [reflexivity|]. eapply Forall_impl; [|exact FL]. intros x [X Y]. split; [now right|exact Y].
  - inversion ES; contradiction.
  - inversion ES; contradiction.
  - inversion FM as [|? ? Hm FM']; subst. destruct (IH FM') as (l & -> & FL). exists l. split; [reflexivity|]. eapply Forall_impl; [|exact FL]. intros x [X Y]. split; [now right|exact Y].
  - inversion FM as [|? ? Hm FM']; subst. destruct (IH FM') as (l & -> & FL). apply s_copy_mem in SC. subst e'. exists (e :: l). split; [reflexivity|].
    constructor; [split; [now left|destruct Hm as [[_ Hm]|Hm]; [exact Hm|congruence]]|]. eapply Forall_impl; [|exact FL]. intros x [X Y]. split; [now right|exact Y].
  - contradiction.
Qed.
Lemma somes_inj : forall A (a b : list A), map Some a = map Some b -> a = b.
Proof. induction a as [|x a IH]; intros [|y b] H; try discriminate; auto. cbn [map] in H. injection H as -> H. f_equal. auto. Qed.
Lemma match_mem : forall table method url r, s_match False table method url r -> (forall l, table = Some l -> Forall callable l) ->
  exists l, r = Ret (Some l) /\ Forall (fun e => (exists t, table = Some t /\ In e t) /\ callback e <> None) l.
Proof.
  intros table method url r H FM. inversion H as [|E|l k E S1|l E S1|l uw k E S1 S2|l uw x E S1 S2 L|l uw x E S1 S2 L N|l uw x y E S1 S2 L P ST]; subst.
  - contradiction.
  - exists []. split; [reflexivity|constructor].
  - inversion S1; contradiction.
  - inversion S1; contradiction.
  - destruct (found_mem _ _ _ _ S2 (FM _ eq_refl)) as (x & E & _). discriminate.
  - destruct (found_mem _ _ _ _ S2 (FM _ eq_refl)) as (z & E & F). injection E as ->.
    destruct z as [|e [|e2 z]]; cbn [map length] in *; try lia.
    + exists []. split; [reflexivity|constructor].
    + exists [e]. split; [reflexivity|]. inversion F as [|? ? [F1 F2] _]; subst. constructor; [split; eauto|constructor].
  - destruct (found_mem _ _ _ _ S2 (FM _ eq_refl)) as (z & E & F). injection E as ->. apply in_map_iff in N. destruct N as (? & X & _). discriminate.
  - destruct (found_mem _ _ _ _ S2 (FM _ eq_refl)) as (z & E & F). injection E as E. apply somes_inj in E. subst z. exists y. split; [reflexivity|].
    eapply Permutation_Forall; [exact P|]. eapply Forall_impl; [|exact F]. intros e [X Y]. split; eauto.
Qed.
Lemma default_mem : forall dflt l r', s_default False dflt (Some l) r' -> exists l', r' = Some l' /\ Forall (fun e => In e l \/ (dflt = Some e /\ callback e <> None)) l'.
Proof.
  intros dflt l r' H. inversion H as [e l0|r C|r d d' R D C SC|r d R D C X]; subst.
  - eexists. split; [reflexivity|]. apply Forall_forall. auto.
  - eexists. split; [reflexivity|]. apply Forall_forall. auto.
  - apply s_copy_mem in SC. subst d'. eexists. split; [reflexivity|]. constructor; [right; split; [reflexivity|exact C]|constructor].
  - contradiction.
Qed.
Lemma params_mem : forall tl check fw cur uw a r, s_params False tl check fw cur uw (Some a) r ->
  exists code b n, r = Ret (code, (b, n)) /\ ((code = U_OK /\ n = O) \/ (code = U_ERROR_MEMORY /\ n = 3%nat /\ Exists (fun w => w = [58] \/ w = [64]) fw)).
Proof.
  intros tl check fw cur uw a r H. remember (Some a) as oa eqn:EA. revert a EA.
  induction H; intros a0 EA; subst; try discriminate; try contradiction; try (injection EA as ->).
  - exists U_OK, (Some a0), O. auto.
  - exists U_OK, (Some a0), O. auto.
  - destruct (IHs_params a0 eq_refl) as (c & b & n & -> & [HH|(C1 & C2 & HH)]); exists c, b, n; split; auto.
  - destruct (IHs_params _ eq_refl) as (c & b & n & -> & [HH|(C1 & C2 & HH)]); exists c, b, n; split; auto.
  - exists U_ERROR_MEMORY, (Some a0), 3%nat. split; [reflexivity|]. right. split; [reflexivity|]. split; [reflexivity|]. left.
    unfold takes in H. apply andb_true_iff in H. destruct H as [H _]. destruct w as [|c [|c2 w]]; try discriminate.
    cbn [starts_with] in H. apply orb_true_iff in H. rewrite !Z.eqb_eq in H. destruct H as [-> | ->]; auto.
  - destruct (IHs_params _ eq_refl) as (c & b & n & -> & [HH|(C1 & C2 & HH)]); exists c, b, n; split; auto.
Qed.
Lemma parse_mem : forall tl check url prefix format a r, s_parse False tl check url prefix format (Some a) r ->
  exists code b n, r = Ret (code, (b, n)) /\ ((code = U_OK /\ n = O) \/ (code = U_ERROR_MEMORY /\ n = 3%nat /\ Exists (fun w => w = [58] \/ w = [64]) (owords format))).
Proof. intros tl check url prefix format a r H. inversion H; subst; try contradiction. eapply params_mem; eauto. Qed.
Lemma reset_mem : forall init r, s_reset False init r -> r = Ret (Some (a_copy_into init [])).
Proof. intros init r H. inversion H; subst; try contradiction. reflexivity. Qed.
Lemma failed_cons : forall c cs, failed (c :: cs) = ((if (snd (fst c) =? U_OK)%Z then 0 else 1) + failed cs)%nat.
Proof. intros c cs. unfold failed. cbn [filter]. destruct (snd (fst c) =? U_OK); reflexivity. Qed.
Lemma calls_mem : forall tl ends check url init l r, s_calls False tl ends check url init l r -> Forall (fun e => callback e <> None) l ->
  exists cs n, r = Ret (cs, n) /\ n = (3 * failed cs)%nat /\ Forall (fun c => snd (fst c) = U_OK \/ snd (fst c) = U_ERROR_MEMORY) cs /\ (Forall with_names l -> failed cs = O).
Proof.
  intros tl ends check url init l r H. induction H as [|e r k R|e r a k R P|e r a x R P C|e r a code b n cb R P C E|e r a code b n cb x R P C E H IH]; intros FC.
  - exists [], O. repeat split; auto.
  - apply reset_mem in R. discriminate.
  - apply reset_mem in R. injection R as ->. destruct (parse_mem _ _ _ _ _ _ _ P) as (? & ? & ? & X & _). discriminate.
  - inversion FC; subst. congruence.
  - apply reset_mem in R. injection R as ->. destruct (parse_mem _ _ _ _ _ _ _ P) as (c' & b' & n' & X & D). injection X as <- <- <-.
    eexists. eexists. split; [reflexivity|]. rewrite failed_cons. cbn [fst snd]. destruct D as [[-> ->]|(-> & -> & EX)].
    + split; [reflexivity|]. split; [constructor; auto|]. reflexivity.
    + split; [reflexivity|]. split; [constructor; auto|]. intros W. exfalso. inversion W as [|? ? We _]; subst. clear - EX We. unfold with_names in We.
      induction EX as [w l Hw|w l X IH]; inversion We; subst; [destruct H1; destruct Hw; contradiction|auto].
  - inversion FC as [|? ? C1 FC']; subst. destruct (IH FC') as (cs & n2 & -> & N2 & F2 & W2). unfold bind. cbn [fst snd].
    apply reset_mem in R. injection R as ->. destruct (parse_mem _ _ _ _ _ _ _ P) as (c' & b' & n' & X & D). injection X as <- <- <-.
    eexists. eexists. split; [reflexivity|]. rewrite failed_cons. cbn [fst snd]. destruct D as [[-> ->]|(-> & -> & EX)].
    + change (U_OK =? U_OK) with true. cbn iota. split; [lia|]. split; [constructor; auto|]. intros W. inversion W; subst. cbn [plus]. auto.
    + change (U_ERROR_MEMORY =? U_OK) with false. cbn iota. split; [lia|]. split; [constructor; auto|]. intros W. exfalso. inversion W as [|? ? We _]; subst. clear - EX We. unfold with_names in We.
      induction EX as [w l Hw|w l X IH]; inversion We; subst; [destruct H1; destruct Hw; contradiction|auto].
Qed.
Lemma serve_mem : forall tl ends table dflt method url init check r, s_serve False tl ends table dflt method url init check r ->
  (forall l, table = Some l -> Forall callable l) ->
  exists cs n, r = Ret (cs, n) /\ n = (3 * failed cs)%nat /\ Forall (fun c => snd (fst c) = U_OK \/ snd (fst c) = U_ERROR_MEMORY) cs /\
    ((forall l, table = Some l -> Forall with_names l) -> (forall d, dflt = Some d -> with_names d) -> failed cs = O).
Proof.
  intros tl ends table dflt method url init check r H FC.
  inversion H as [k M|r0 M D|r0 l x M D C]; subst; destruct (match_mem _ _ _ _ M FC) as (l0 & E & F0); try discriminate; injection E as ->;
    destruct (default_mem _ _ _ D) as (l1 & E & F1); try discriminate. injection E as ->.
  destruct (calls_mem _ _ _ _ _ _ _ C) as (cs & n & -> & N & FF & W).
  { eapply Forall_impl; [|exact F1]. intros e [X|[_ X]]; [|exact X]. rewrite Forall_forall in F0. apply (F0 e X). }
  exists cs, n. split; [reflexivity|]. split; [exact N|]. split; [exact FF|]. intros WT WD. apply W. eapply Forall_impl; [|exact F1]. intros e [X|[X _]].
  - rewrite Forall_forall in F0. destruct (F0 e X) as [(t & Et & It) _]. specialize (WT t Et). rewrite Forall_forall in WT. auto.
  - auto.
Qed.
Definition all_failed (l : list (list call)) : nat := failed (concat l).
Lemma failed_app : forall a b, failed (a ++ b) = (failed a + failed b)%nat.
Proof. intros a b. unfold failed. rewrite filter_app, app_length. reflexivity. Qed.
Lemma requests_mem : forall tl ends table dflt init l r, s_requests False tl ends table dflt init l r -> (forall l, table = Some l -> Forall callable l) ->
  exists cs n, r = Ret (cs, n) /\ n = (3 * failed (concat cs))%nat /\
    ((forall l, table = Some l -> Forall with_names l) -> (forall d, dflt = Some d -> with_names d) -> failed (concat cs) = O).
Proof.
  intros tl ends table dflt init l r H FC. induction H as [|q r k S|q r cs n x S H IH].
  - exists [], O. repeat split; auto.
  - destruct (serve_mem _ _ _ _ _ _ _ _ _ S FC) as (? & ? & X & _). discriminate.
  - destruct (serve_mem _ _ _ _ _ _ _ _ _ S FC) as (cs1 & n1 & X & N1 & _ & W1). injection X as <- <-. destruct IH as (cs2 & n2 & -> & N2 & W2). unfold bind. cbn [fst snd].
    eexists. eexists. split; [reflexivity|]. cbn [concat]. rewrite failed_app. split; [lia|]. intros WT WD. rewrite W1, W2 by auto. reflexivity.
Qed.
