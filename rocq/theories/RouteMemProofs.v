(** Proofs about the memory of routing (C103): the words and the endpoints. *)
From Coq Require Import String ZArith Bool List Lia Permutation Sorted.
From Verif Require Import Base BaseFacts UMapModel UMapProofs UrlModel Utf8Model RouterModel RouterProofs OwnModel OwnSpec OwnProofs MapMemModel MapMemSpec
  MapMemProofs MapMemPut MapMemRun MapMemSteps RespMemModel RespMemSpec RespMemProofs RespMemSteps RouteMemModel RouteMemSpec.
Import ListNotations.
Open Scope Z_scope.
Open Scope list_scope.

Ltac flat := unfold array, slot, ptr in *.
(** ** arrays that end with NULL *)
Definition full {A} (ps : list (nat * A)) : list (slot A) := map (fun p => Some (Some p)) ps.
Definition good {A} (l : list (slot A)) (ps : list (nat * A)) : Prop := exists x, l = full ps ++ Some None :: x /\ (length x <= 1)%nat.
Lemma good_end : forall A (ps : list (nat * A)), good (full ps ++ [Some None]) ps.
Proof. intros. exists []. split; auto. Qed.
Lemma full_app : forall A (a b : list (nat * A)), full (a ++ b) = full a ++ full b.
Proof. intros. apply map_app. Qed.
Lemma full_length : forall A (a : list (nat * A)), length (full a) = length a.
Proof. intros. apply map_length. Qed.
Lemma grown : forall A (a x : list (slot A)) s n, (length x <= 1)%nat -> n = length a -> exists y, arealloc (a ++ s :: x) (n + 2) None = a ++ [s; y].
Proof.
  intros A a x s n L ->. unfold arealloc. rewrite app_length. cbn [length].
  replace (length a + 2)%nat with (length a + 2)%nat by reflexivity. rewrite firstn_app_2. destruct x as [|y [|z x]]; [| |cbn [length] in L; lia].
  - exists None. cbn [firstn length]. replace (length a + 2 - (length a + 1))%nat with 1%nat by lia. cbn [repeat]. rewrite <- app_assoc. reflexivity.
  - exists y. cbn [firstn length]. replace (length a + 2 - (length a + 2))%nat with 0%nat by lia. cbn [repeat]. apply app_nil_r.
Qed.
Lemma aset_two : forall A (a : list A) s y v, aset (a ++ [s; y]) (length a) v = Ret (a ++ [v; y]).
Proof. intros. apply aset_mid. Qed.
Lemma aset_last : forall A (a : list A) s y v, aset (a ++ [s; y]) (length a + 1) v = Ret (a ++ [s; v]).
Proof.
  intros. replace (a ++ [s; y]) with ((a ++ [s]) ++ y :: []) by (rewrite <- app_assoc; reflexivity).
  replace (length a + 1)%nat with (length (a ++ [s])) by (rewrite app_length; reflexivity). rewrite aset_mid. rewrite <- app_assoc. reflexivity.
Qed.
Lemma deref_dead : forall A m i (a : A) ids, mowns m ids -> ~ In i ids -> x_deref m (Some (i, a)) = UB UseAfterFree.
Proof.
  intros A m i a ids [O _] N. unfold x_deref, h_use. destruct (is_live (m_heap m) i) eqn:E; [|reflexivity].
  exfalso. apply N. apply (proj1 (owns_spec _ _ O)). now apply is_live_in.
Qed.
Lemma owns_once : forall m i ids, mowns m (i :: ids) -> ~ In i ids.
Proof. intros m i ids [O _]. destruct (owns_spec _ _ O) as (_ & N & _). now inversion N. Qed.

Section S.
Variable sh : Prop.

(** ** the words *)
Lemma add_words_ok : forall ws m i l (ps : list (nat * str)) fr, (short m -> sh) -> mowns m (i :: map fst ps ++ fr) -> good l ps ->
  exists m' i' l' ps', x_add_words m (Some (i, l)) (length ps) ws = Ret (m', (Some (i', l'), length (ps ++ ps'))) /\ later m m' /\
    mowns m' (i' :: map fst (ps ++ ps') ++ fr) /\ good l' (ps ++ ps') /\ kept sh ws (map snd ps').
Proof.
  induction ws as [|w ws IH]; intros m i l ps fr SH O G.
  - exists m, i, l, []. rewrite app_nil_r. split; [reflexivity|]. split; [eapply later_refl; eauto|]. split; [exact O|]. split; [exact G|]. left. reflexivity.
  - cbn [x_add_words]. destruct (x_realloc_ok _ m (Some (i, l)) (map fst ps ++ fr) O) as (i1 & m1 & -> & O1 & L1). unfold bind at 1.
    destruct G as (x & -> & Lx). destruct (grown _ (full ps) x (Some None) (length ps) Lx) as (y & Ey); [now rewrite full_length|]. flat. rewrite Ey.
    destruct (x_strdup_ok m1 (Some w) _ O1) as (p & m2 & -> & L2 & O2 & C).
    rewrite <- (full_length _ ps), aset_two. unfold bind at 1. destruct p as [[j t]|].
    + destruct C as [C|(C & _)]; [|discriminate]. cbn [ptext] in C. injection C as ->.
      rewrite aset_last. unfold bind at 1. rewrite full_length.
      destruct (IH m2 i1 (full ps ++ [Some (Some (j, w)); Some None]) (ps ++ [(j, w)]) fr) as (m' & i' & l' & ps' & E & L & O' & G' & K).
      * intros X. apply SH, L1, L2, X.
      * rewrite map_app. cbn [map fst ptr_blocks app] in *. mowns_by O2.
      * replace (full ps ++ [Some (Some (j, w)); Some None]) with (full (ps ++ [(j, w)]) ++ [Some None]) by (rewrite full_app, <- app_assoc; reflexivity). apply good_end.
      * replace (S (length ps)) with (length (ps ++ [(j, w)])) by (rewrite app_length; simpl; lia).
        exists m', i', l', ((j, w) :: ps'). replace (ps ++ (j, w) :: ps') with ((ps ++ [(j, w)]) ++ ps') by (rewrite <- app_assoc; reflexivity).
        split; [exact E|]. split; [chain|]. split; [exact O'|]. split; [exact G'|]. cbn [map snd]. destruct K as [->|(H & n & ->)]; [left; reflexivity|].
        right. split; auto. exists (S n). reflexivity.
    + destruct C as [C|(_ & S1 & _)]; [discriminate|]. cbn [ptr_blocks app] in O2.
      exists m2, i1, (full ps ++ [Some None; y]), []. rewrite app_nil_r, full_length. split; [reflexivity|]. split; [chain|]. split; [exact O2|].
      split; [exists [y]; split; [reflexivity|cbn [length]; lia]|]. right. split; [apply SH, L1, S1|]. exists 0%nat. reflexivity.
Qed.

(** what is known of the text that strtok_r was last given *)
Lemma add_text_ok : forall m i l (ps : list (nat * str)) t keep save fr, (short m -> sh) -> mowns m (i :: map fst ps ++ fr) -> good l ps ->
  match save with None => True | Some (b, _) => ~ In b (i :: map fst ps ++ fr) end ->
  (sh /\ t <> None /\ x_add_text m (Some (i, l)) (length ps) t keep save = UB (match save with None => NullDeref | Some _ => UseAfterFree end)) \/
  exists m' i' l' ps' save', x_add_text m (Some (i, l)) (length ps) t keep save = Ret (m', (Some (i', l'), (length (ps ++ ps'), save'))) /\ later m m' /\
    mowns m' (i' :: map fst (ps ++ ps') ++ fr) /\ good l' (ps ++ ps') /\ kept sh (filter keep (owords t)) (map snd ps') /\
    (t = None -> save' = save) /\ (t <> None -> save' <> None) /\ match save' with None => True | Some (b, _) => ~ In b (i' :: map fst (ps ++ ps') ++ fr) end.
Proof.
  intros m i l ps t keep save fr SH O G D. destruct t as [s|].
  - unfold x_add_text. destruct (x_strdup_ok m (Some s) _ O) as (p & m1 & -> & L1 & O1 & C). destruct p as [[b t]|].
    + right. destruct C as [C|(C & _)]; [|discriminate]. cbn [ptext] in C. injection C as ->. cbn [ptr_blocks app] in O1.
      destruct (add_words_ok (filter keep (words s)) m1 i l ps (b :: fr)) as (m2 & i' & l' & ps' & -> & L2 & O2 & G' & K).
      { intros X. apply SH, L1, X. } { mowns_by O1. } { exact G. } unfold bind at 1.
      assert (O2' : mowns m2 (b :: i' :: map fst (ps ++ ps') ++ fr)) by mowns_by O2.
      destruct (x_free_ok _ _ _ O2') as (m3 & E & O3 & L3 & _). cbn [fst]. rewrite E. unfold bind at 1.
      exists m3, i', l', ps', (Some (b, s)). split; [reflexivity|]. split; [chain|]. split; [exact O3|]. split; [exact G'|]. split; [exact K|].
      split; [discriminate|]. split; [discriminate|]. now apply owns_once in O2'.
    + left. destruct C as [C|(_ & S1 & _)]; [discriminate|]. split; [auto|]. split; [discriminate|]. cbn [ptr_blocks app] in O1.
      destruct save as [[b t]|]; [|reflexivity]. rewrite (deref_dead _ m1 b t _ O1 D). reflexivity.
  - right. exists m, i, l, [], save. rewrite app_nil_r. split; [reflexivity|]. split; [eapply later_refl; eauto|]. split; [exact O|]. split; [exact G|].
    split; [left; reflexivity|]. split; [auto|]. split; [congruence|exact D].
Qed.

Lemma filter_all : forall A (l : list A), filter (fun _ => true) l = l.
Proof. induction l; simpl; congruence. Qed.
Definition split_result (m : mem) (fr : list nat) (x : outcome (mem * array str)) (r : outcome (option (list str))) : Prop :=
  match r with
  | UB k => x = UB k
  | Ret None => exists m', x = Ret (m', None) /\ later m m' /\ mowns m' fr
  | Ret (Some ws) => exists m' i l ps, x = Ret (m', Some (i, l)) /\ later m m' /\ mowns m' (i :: map fst ps ++ fr) /\ good l ps /\ map snd ps = ws
  end.
Lemma split_ok : forall m prefix url fr, (short m -> sh) -> mowns m fr ->
  exists r, s_split sh prefix url r /\ split_result m fr (x_split_url m prefix url) r.
Proof.
  intros m prefix url fr SH O. unfold x_split_url.
  destruct (x_malloc_ok _ _ O) as (p & m1 & -> & L1 & [(i & -> & O1)|(-> & S1 & O1)]).
  2:{ exists (Ret None). split; [apply ss_null; auto|]. exists m1. auto. }
  assert (SH1 : short m1 -> sh) by (intros X; apply SH, L1, X).
  destruct (add_text_ok m1 i [Some None] [] prefix (fun _ => true) None fr SH1 O1 (good_end _ []) Logic.I) as
    [(H & T & E)|(m2 & i2 & l2 & ps & save & E & L2 & O2 & G2 & K2 & Sn & Ss & D2)].
  { exists (UB NullDeref). split; [apply ss_no_text; auto|]. cbn [length] in E. unfold split_result. flat. rewrite E. reflexivity. }
  cbn [length app] in E. flat. rewrite E. unfold bind at 1. cbn [app] in O2, G2, D2.
  assert (SH2 : short m2 -> sh) by (intros X; apply SH1, L2, X).
  rewrite filter_all in K2.
  destruct (add_text_ok m2 i2 l2 ps url (fun w => negb (starts_with 63 w)) save fr SH2 O2 G2 D2) as
    [(H & T & E2)|(m3 & i3 & l3 & ps2 & save2 & E2 & L3 & O3 & G3 & K3 & _ & _ & _)].
  - destruct prefix as [p|].
    + exists (UB UseAfterFree). split; [apply ss_freed; auto; discriminate|]. unfold split_result. flat. rewrite E2. destruct save as [[? ?]|]; [reflexivity|]. exfalso. apply Ss; [discriminate|reflexivity].
    + exists (UB NullDeref). split; [apply ss_no_text; auto|]. unfold split_result. flat. rewrite E2. rewrite Sn by reflexivity. reflexivity.
  - flat. rewrite E2. unfold bind at 1. cbn [fst snd]. exists (Ret (Some (map snd ps ++ map snd ps2))). split; [apply ss_words; auto|].
    exists m3, i3, l3, (ps ++ ps2). split; [reflexivity|]. split; [chain|]. split; [exact O3|]. split; [exact G3|]. apply map_app.
Qed.

(** ** releasing the words *)
Lemma free_words_ok : forall ps x m (fr : list nat), mowns m (map fst ps ++ fr) ->
  exists m', x_free_words m (full ps ++ Some None :: x) = Ret m' /\ mowns m' fr /\ later m m'.
Proof.
  induction ps as [|[i s] ps IH]; intros x m fr O.
  - exists m. split; [reflexivity|]. split; [exact O|eapply later_refl; eauto].
  - cbn [full map app x_free_words fst]. destruct (x_free_ok m i (map fst ps ++ fr)) as (m1 & -> & O1 & L1 & _); [exact O|]. unfold bind at 1.
    destruct (IH x m1 fr O1) as (m2 & E & O2 & L2). fold (full ps). exists m2. split; [exact E|]. split; [exact O2|chain].
Qed.
Lemma clean_enum_ok : forall m i l ps fr, mowns m (i :: map fst ps ++ fr) -> good l ps ->
  exists m', x_clean_enum m (Some (i, l)) = Ret m' /\ mowns m' fr /\ later m m'.
Proof.
  intros m i l ps fr O (x & -> & _). unfold x_clean_enum. rewrite (x_deref_ok _ m i _ _ O) by now left. unfold bind at 1. cbn [fst snd].
  destruct (free_words_ok ps x m (i :: fr)) as (m1 & -> & O1 & L1); [mowns_by O|]. unfold bind at 1.
  destruct (x_free_ok _ _ _ O1) as (m2 & -> & O2 & L2 & _). exists m2. split; [reflexivity|]. split; [exact O2|chain].
Qed.

(** ** the comparison *)
Lemma slot_ok : forall A m ids i (l : list (slot A)) n p, mowns m ids -> In i ids -> nth_error l n = Some (Some p) -> x_slot m (Some (i, l)) n = Ret p.
Proof. intros A m ids i l n p O I E. unfold x_slot. rewrite (x_deref_ok _ m i _ ids O I). unfold bind at 1. cbn [snd]. unfold aget. rewrite E. reflexivity. Qed.
Lemma format_match_ok : forall m ids iu jf xu xf sf su pu pf n, mowns m ids -> In iu ids -> In jf ids ->
  incl (map fst su) ids -> incl (map fst sf) ids -> length pu = length pf -> (length sf < n)%nat ->
  x_format_match m (Some (iu, pu ++ full su ++ Some None :: xu)) (Some (jf, pf ++ full sf ++ Some None :: xf)) (length pf) n =
    Ret (url_format_match (map snd su) (map snd sf)).
Proof.
  intros m ids iu jf xu xf. induction sf as [|[a fw] sf IH]; intros su pu pf n O Iu If Cu Cf Le Ln; (destruct n as [|n]; [lia|]); cbn [x_format_match].
  - cbn [full map app]. rewrite (slot_ok _ m ids jf _ _ None O If) by apply nth_mid. unfold bind at 1. cbn [url_format_match].
    destruct su as [|[b uw] su]; cbn [full map app]; rewrite <- Le; (erewrite (slot_ok _ m ids iu) by (first [exact O|exact Iu|apply nth_mid])); reflexivity.
  - cbn [full map app]. fold (full sf). rewrite (slot_ok _ m ids jf _ _ (Some (a, fw)) O If) by apply nth_mid. unfold bind at 1.
    rewrite (x_deref_ok _ m a fw ids O) by (apply Cf; now left). unfold bind at 1. cbn [snd url_format_match].
    assert (NX : x_slot m (Some (jf, pf ++ Some (Some (a, fw)) :: full sf ++ Some None :: xf)) (S (length pf)) = Ret (match sf with [] => None | p :: _ => Some p end)).
    { replace (pf ++ Some (Some (a, fw)) :: full sf ++ Some None :: xf) with ((pf ++ [Some (Some (a, fw))]) ++ full sf ++ Some None :: xf) by (rewrite <- app_assoc; reflexivity).
      replace (S (length pf)) with (length (pf ++ [Some (Some (a, fw))])) by (rewrite app_length; simpl; lia).
      destruct sf as [|p sf]; cbn [full map app]; apply (slot_ok _ m ids); auto; apply nth_mid. }
    match goal with |- context [x_slot m ?q (S ?n)] => replace (x_slot m q (S n)) with (Ret (match sf with [] => None | p :: _ => Some p end)) by (symmetry; exact NX) end.
    assert (LAST : (if starts_with 42 fw then do nx <- Ret (match sf with [] => None | p :: _ => Some p end); Ret (is_null nx) else Ret false) =
      Ret (starts_with 42 fw && match map snd sf with [] => true | _ => false end)).
    { destruct (starts_with 42 fw); [|reflexivity]. destruct sf; reflexivity. }
    match goal with |- context [if starts_with 42 fw then ?q else ?n] => replace (if starts_with 42 fw then q else n) with (Ret (starts_with 42 fw && match map snd sf with [] => true | _ => false end)) by (symmetry; exact LAST) end. unfold bind at 1.
    destruct (starts_with 42 fw && match map snd sf with [] => true | _ => false end); [reflexivity|].
    destruct su as [|[b uw] su]; cbn [full map app]; rewrite <- Le at 1; (erewrite (slot_ok _ m ids iu) by (first [exact O|exact Iu|apply nth_mid])); unfold bind at 1; [reflexivity|]. cbn [snd].
    assert (STEP : x_format_match m (Some (iu, pu ++ Some (Some (b, uw)) :: full su ++ Some None :: xu)) (Some (jf, pf ++ Some (Some (a, fw)) :: full sf ++ Some None :: xf)) (S (length pf)) n =
      Ret (url_format_match (map snd su) (map snd sf))).
    { replace (pf ++ Some (Some (a, fw)) :: full sf ++ Some None :: xf) with ((pf ++ [Some (Some (a, fw))]) ++ full sf ++ Some None :: xf) by (rewrite <- app_assoc; reflexivity).
      replace (pu ++ Some (Some (b, uw)) :: full su ++ Some None :: xu) with ((pu ++ [Some (Some (b, uw))]) ++ full su ++ Some None :: xu) by (rewrite <- app_assoc; reflexivity).
      replace (S (length pf)) with (length (pf ++ [Some (Some (a, fw))])) by (rewrite app_length; simpl; lia).
      apply IH; auto.
      - intros x X. apply Cu. now right.
      - intros x X. apply Cf. now right.
      - rewrite !app_length, Le. reflexivity.
      - cbn [length] in Ln. lia. }
    fold (full su).
    destruct (starts_with 64 fw); cbn [orb andb negb]; [exact STEP|]. destruct (starts_with 58 fw); cbn [orb andb negb]; [exact STEP|].
    rewrite (x_deref_ok _ m b uw ids O) by (apply Cu; now left). unfold bind at 1. cbn [snd].
    destruct (str_eqb fw uw); cbn [negb]; [exact STEP|reflexivity].
Qed.

(** ** the endpoints *)
Definition vrep (c : rep) : endpoint := mk_ep (ptext (r_method c)) (ptext (r_prefix c)) (ptext (r_format c)) (r_prio c) (r_cb c) (r_data c).
Definition rep_blocks (c : rep) : list nat := ptr_blocks (r_method c) ++ ptr_blocks (r_prefix c) ++ ptr_blocks (r_format c).
Lemma copied_of : forall m p t, (short m -> sh) -> ptext p = t \/ (p = None /\ short m /\ t <> None) -> copied sh t (ptext p).
Proof. intros m p t SH [E|(-> & S1 & N)]; [left; exact E|right; auto]. Qed.
Lemma copy_ep_ok : forall m e fr, (short m -> sh) -> mowns m fr -> exists c m', x_copy_ep m e = (c, m') /\ later m m' /\
  mowns m' (rep_blocks c ++ fr) /\ s_copy sh e (vrep c).
Proof.
  intros m e fr SH O. unfold x_copy_ep.
  destruct (x_strdup_ok m (http_method e) fr O) as (a & m1 & -> & L1 & O1 & C1).
  destruct (x_strdup_ok m1 (url_prefix e) _ O1) as (b & m2 & -> & L2 & O2 & C2).
  destruct (x_strdup_ok m2 (url_format e) _ O2) as (c & m3 & -> & L3 & O3 & C3).
  do 2 eexists. split; [reflexivity|]. split; [chain|]. split; [unfold rep_blocks; cbn [r_method r_prefix r_format]; mowns_by O3|].
  unfold s_copy, vrep. cbn [r_method r_prefix r_format r_prio r_cb r_data http_method url_prefix url_format priority callback user_data].
  split; [eapply copied_of; [exact SH|exact C1]|]. split; [eapply copied_of; [|exact C2]; intros X; apply SH, L1, X|].
  split; [eapply copied_of; [|exact C3]; intros X; apply SH, L1, L2, X|]. auto.
Qed.

Definition pep_blocks (p : ptr rep) : list nat := match p with Some (j, c) => j :: rep_blocks c | None => [] end.
Definition vpep (p : ptr rep) : option endpoint := match p with Some (_, c) => Some (vrep c) | None => None end.
Definition loop_result (m : mem) (i0 : nat) (found : list (ptr rep)) (fr : list nat) (x : outcome (mem * (array rep * nat))) (r : outcome (list (option endpoint))) : Prop :=
  match r with
  | UB k => x = UB k
  | Ret l => exists m' i more, x = Ret (m', (Some (i, map Some (found ++ more) ++ [Some None]), length (found ++ more))) /\ later m m' /\
      mowns m' (i :: flat_map pep_blocks (found ++ more) ++ fr) /\ map vpep more = l
  end.
Lemma loop_more : forall m m1 i0 i1 found p fr x r, later m m1 -> loop_result m1 i1 (found ++ [p]) fr x r ->
  loop_result m i0 found fr x (do l <- r; Ret (vpep p :: l)).
Proof.
  intros m m1 i0 i1 found p fr x [l|k] L R; [|exact R]. destruct R as (m' & i & more & E & L' & O & V). exists m', i, (p :: more).
  replace (found ++ p :: more) with ((found ++ [p]) ++ more) by (rewrite <- app_assoc; reflexivity).
  split; [exact E|]. split; [chain|]. split; [exact O|]. cbn [map]. now rewrite V.
Qed.
Lemma loop_later : forall m m1 i0 found fr x r, later m m1 -> loop_result m1 i0 found fr x r -> loop_result m i0 found fr x r.
Proof. intros m m1 i0 found fr x [l|k] L R; [|exact R]. destruct R as (m' & i & more & E & L' & O & V). exists m', i, more. split; [exact E|]. split; [chain|]. auto. Qed.

Lemma match_loop_ok : forall method iu lu pu table m i found fr, (short m -> sh) -> good lu pu -> incl (iu :: map fst pu) fr ->
  mowns m (i :: flat_map pep_blocks found ++ fr) ->
  exists r, s_found sh method (map snd pu) table r /\
    loop_result m i found fr (x_match_loop m table method (Some (iu, lu)) (Some (i, map Some found ++ [Some None])) (length found)) r.
Proof.
  intros method iu lu pu. induction table as [|e table IH]; intros m i found fr SH G C O.
  - exists (Ret []). split; [constructor|]. exists m, i, []. rewrite app_nil_r. split; [reflexivity|]. split; [eapply later_refl; eauto|]. auto.
  - cbn [x_match_loop is_null orb]. destruct (equals_endpoints e empty_endpoint) eqn:EE.
    { exists (Ret []). split; [now apply sf_end|]. exists m, i, []. rewrite app_nil_r. split; [reflexivity|]. split; [eapply later_refl; eauto|]. auto. }
    destruct (method_match e method) as [[]|k] eqn:EM.
    2:{ destruct (IH m i found fr SH G C O) as (r & Sr & R). unfold bind at 1. exists r. split; [now apply sf_other|exact R]. }
    2:{ exists (UB k). split; [now apply sf_no_method|reflexivity]. }
    unfold bind at 1. destruct (split_ok m (url_prefix e) (url_format e) _ SH O) as (rs & Ss & Rs).
    destruct rs as [[fw|]|k].
    + destruct Rs as (m1 & jf & lf & pf & -> & L1 & O1 & Gf & Vf). unfold bind at 1. cbn [is_null].
      assert (B : x_format_match m1 (Some (iu, lu)) (Some (jf, lf)) 0 (slots (Some (jf, lf))) = Ret (url_format_match (map snd pu) fw)).
      { destruct G as (xu & -> & _). destruct Gf as (xf & -> & _). rewrite <- Vf.
        assert (CC : incl (iu :: map fst pu) (jf :: map fst pf ++ i :: flat_map pep_blocks found ++ fr)).
        { intros x X. apply C in X. right. apply in_or_app. right. right. apply in_or_app. auto. }
        apply (format_match_ok m1 (jf :: map fst pf ++ i :: flat_map pep_blocks found ++ fr) iu jf xu xf pf pu [] []); auto.
        - apply CC. now left.
        - now left.
        - intros x X. apply CC. now right.
        - intros x X. right. apply in_or_app. auto.
        - cbn [slots]. rewrite app_length, full_length. cbn [length]. lia. }
      rewrite B. unfold bind at 1. assert (SH1 : short m1 -> sh) by (intros X; apply SH, L1, X).
      destruct (url_format_match (map snd pu) fw) eqn:EF.
      * destruct (x_realloc_ok _ m1 (Some (i, map Some found ++ [Some None])) (jf :: map fst pf ++ flat_map pep_blocks found ++ fr)) as (i2 & m2 & E2 & O2 & L2).
        { cbn [ptr_blocks]. mowns_by O1. }
        cbn [addr] in *. rewrite E2. clear E2.
        unfold bind at 1. destruct (grown _ (map Some found) [] (Some None) (length found)) as (y & Ey); [cbn [length]; lia|now rewrite map_length|].
        flat. rewrite Ey.
        destruct (x_malloc_ok _ _ O2) as (p & m3 & -> & L3 & [(j & -> & O3)|(-> & S3 & O3)]).
        -- assert (SH3 : short m3 -> sh) by (intros X; apply SH1, L2, L3, X).
           destruct (copy_ep_ok m3 e _ SH3 O3) as (c & m4 & -> & L4 & O4 & SC).
           rewrite <- (map_length (@Some (option (nat * rep))) found), aset_two. unfold bind at 1. rewrite aset_last. unfold bind at 1. rewrite map_length.
           destruct (clean_enum_ok m4 jf lf pf (i2 :: flat_map pep_blocks (found ++ [Some (j, c)]) ++ fr)) as (m5 & E5 & O5 & L5).
           { rewrite flat_map_app. cbn [flat_map pep_blocks]. mowns_by O4. } { exact Gf. }
           flat. rewrite E5. unfold bind at 1.
           destruct (IH m5 i2 (found ++ [Some (j, c)]) fr) as (r & Sr & R); auto.
           { intros X. apply SH3, L4, L5, X. }
           exists (do l <- r; Ret (Some (vrep c) :: l)). split; [eapply sf_yes; eauto|].
           apply (loop_more m m5 i i2 found (Some (j, c)) fr); [chain|].
           replace (map Some found ++ [Some (Some (j, c)); Some None]) with (map Some (found ++ [Some (j, c)]) ++ [Some None]) by (rewrite map_app, <- app_assoc; reflexivity).
           replace (S (length found)) with (length (found ++ [Some (j, c)])) by (rewrite app_length; simpl; lia). exact R.
        -- rewrite <- (map_length (@Some (option (nat * rep))) found), aset_two. unfold bind at 1. rewrite aset_last. unfold bind at 1. rewrite map_length.
           destruct (clean_enum_ok m3 jf lf pf (i2 :: flat_map pep_blocks (found ++ [None]) ++ fr)) as (m5 & E5 & O5 & L5).
           { rewrite flat_map_app. cbn [flat_map pep_blocks]. mowns_by O3. } { exact Gf. }
           flat. rewrite E5. unfold bind at 1.
           destruct (IH m5 i2 (found ++ [None]) fr) as (r & Sr & R); auto.
           { intros X. apply SH1, L2, L3, L5, X. }
           exists (do l <- r; Ret (None :: l)). split; [eapply sf_none; eauto; apply SH1, L2, S3|].
           apply (loop_more m m5 i i2 found None fr); [chain|].
           replace (map Some found ++ [Some None; Some None]) with (map Some (found ++ [None]) ++ [Some (@None (nat * rep))]) by (rewrite map_app, <- app_assoc; reflexivity).
           replace (S (length found)) with (length (found ++ [@None (nat * rep)])) by (rewrite app_length; simpl; lia). exact R.
      * destruct (clean_enum_ok m1 jf lf pf _ O1 Gf) as (m2 & E2 & O2 & L2). flat. rewrite E2. unfold bind at 1.
        destruct (IH m2 i found fr) as (r & Sr & R); auto. { intros X. apply SH1, L2, X. }
        exists r. split; [eapply sf_no; eauto|]. eapply loop_later; [|exact R]. chain.
    + destruct Rs as (m1 & -> & L1 & O1). unfold bind at 1. cbn [is_null]. unfold bind at 1. cbn [x_clean_enum]. unfold bind at 1.
      destruct (IH m1 i found fr) as (r & Sr & R); auto. { intros X. apply SH, L1, X. }
      exists r. split; [eapply sf_unsplit; eauto|]. eapply loop_later; [|exact R]. chain.
    + cbn [split_result] in Rs. rewrite Rs. exists (UB k). split; [eapply sf_crash; eauto|reflexivity].
Qed.
End S.
