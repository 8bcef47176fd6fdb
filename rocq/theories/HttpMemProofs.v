(** Proofs about the memory of requests that are sent (C107): texts that are put together. *)
From Coq Require Import String ZArith Bool List Lia.
From Verif Require Import Base BaseFacts UMapModel UMapProofs OwnModel OwnSpec OwnProofs MapMemModel MapMemSpec MapMemProofs MapMemPut MapMemRun MapMemSteps
  RespMemModel RespMemSpec RespMemProofs RespMemSteps ReqMemModel ReqMemSpec ReqMemProofs ReqMemCalls ReqMemCopy ReqMemSteps RecvMemModel RecvMemSpec RecvMemProofs RecvMemSteps
  HttpMemModel HttpMemSpec.
From Verif Require SendModel ClientModel.
Import ListNotations.
Open Scope Z_scope.

(** ** the pairs of a map, of its copy, and with the content type *)
Definition view (h : amap) : list (str * option str) := map (fun e => (fst e, a_text (snd e))) h.
Lemma text_ended : forall b r, text_of (text_of b ++ 0 :: r) = text_of b.
Proof. induction b as [|c b IH]; intros r; cbn [text_of]; [reflexivity|]. destruct (c =? 0) eqn:E; [reflexivity|]. cbn [app text_of]. now rewrite E, IH. Qed.
Lemma put_text : forall v, a_text (put_g (a_text v) []) = a_text v.
Proof.
  intros [|c v]; [reflexivity|]. cbn [a_text put_g]. rewrite overlay_nil by lia.
  remember (text_of (c :: v)) as t eqn:T. destruct (t ++ [0]) as [|x y] eqn:E; [destruct t; discriminate|]. rewrite <- E. subst t. unfold a_text.
  destruct (text_of (c :: v) ++ [0]) as [|x' y'] eqn:E'; [destruct (text_of (c :: v)); discriminate|]. rewrite <- E'. f_equal. apply text_ended.
Qed.
Lemma copy_view : forall h d, NoDup (map fst (d ++ h)) -> view (a_copy_into h d) = view d ++ view h.
Proof.
  unfold a_copy_into. induction h as [|[k v] h IH]; intros d ND; cbn [fold_left fst snd]; [now rewrite app_nil_r|].
  assert (M : a_put k (a_text v) d = d ++ [(k, put_g (a_text v) [])]).
  { unfold a_put. rewrite a_change_miss; [reflexivity|]. intros [x w] X. cbn [fst]. destruct (str_eqb x k) eqn:E; [|reflexivity]. exfalso.
    apply str_eqb_eq in E. subst x. rewrite map_app in ND. cbn [map fst] in ND. apply NoDup_remove_2 in ND. apply ND. apply in_or_app. left. apply in_map_iff. exists (k, w). auto. }
  rewrite M, IH.
  - unfold view. rewrite map_app. cbn [map fst snd]. rewrite put_text, <- app_assoc. reflexivity.
  - replace (map fst ((d ++ [(k, put_g (a_text v) [])]) ++ h)) with (map fst (d ++ (k, v) :: h)); [exact ND|]. rewrite <- app_assoc, !map_app. reflexivity.
Qed.
Lemma put_view : forall k t h, ~ In 0 t -> view (a_put k (Some t) h) = put_pair k t (view h).
Proof.
  intros k t h NZ.
  assert (T : forall old, a_text (overlay old (t ++ [0]) 0) = Some t).
  { intros old. unfold overlay. replace (Z.min 0 (zlen old)) with 0 by (pose proof (zlen_nonneg _ old); lia). change (zfirstn 0 old) with (@nil Z). cbn [app].
    rewrite <- app_assoc. cbn [app]. assert (E : text_of (t ++ 0 :: zskipn (0 + zlen (t ++ [0])) old) = t).
    { clear h. induction t as [|c t IH]; [reflexivity|]. cbn [app text_of]. destruct (c =? 0) eqn:E; [apply Z.eqb_eq in E; subst; exfalso; apply NZ; now left|]. f_equal.
      generalize (zskipn (0 + zlen ((c :: t) ++ [0])) old). intros l.
      assert (G : forall t l, ~ In 0 t -> text_of (t ++ 0 :: l) = t).
      { clear. induction t as [|c t IH]; intros l N; [reflexivity|]. cbn [app text_of]. destruct (c =? 0) eqn:E; [apply Z.eqb_eq in E; subst; exfalso; apply N; now left|]. f_equal. apply IH. intros X. apply N. now right. }
      apply G. intros X. apply NZ. now right. }
    destruct (t ++ 0 :: zskipn (0 + zlen (t ++ [0])) old) as [|x y] eqn:E'; [destruct t; discriminate|]. unfold a_text. now rewrite E. }
  unfold a_put. induction h as [|[x v] h IH]; cbn [a_change view map put_pair fst snd].
  - now rewrite T.
  - destruct (str_eqb x k); cbn [view map fst snd]; [now rewrite T|]. f_equal. exact IH.
Qed.
Lemma field_view : forall k h, field k (view h) = a_field k h.
Proof. intros k h. induction h as [|[x v] h IH]; [reflexivity|]. cbn [view map field a_field fst snd]. destruct (str_caseeqb x k); [reflexivity|exact IH]. Qed.

(** ** a text that grows *)
Lemma grown_mono : forall (P Q : Prop) g t ps t', (P -> Q) -> grown P g t ps t' -> grown Q g t ps t'.
Proof. intros P Q g t ps t' H G. induction G; [apply gr_end|apply gr_more; auto|apply gr_lost; auto]. Qed.
Lemma catf_ok : forall m p t ids, mowns m (ptr_blocks p ++ ids) -> exists m' q, x_catf m p t = Ret (m', q) /\ later m m' /\ mowns m' (ptr_blocks q ++ ids) /\
  (ptext q = Some (behind (ptext p) t) \/ (q = None /\ short m)).
Proof.
  intros m p t ids O. unfold x_catf.
  assert (X : x_string m p = Ret (ptext p)).
  { destruct p as [[i s]|]; [|reflexivity]. cbn [x_string]. rewrite (x_deref_ok _ m i s _ O) by (now left). reflexivity. }
  rewrite X. unfold bind at 1.
  set (u := match ptext p with Some s => s ++ t | None => t end).
  destruct (x_strdup_ok m (Some u) _ O) as (n & m1 & -> & L1 & O1 & T).
  assert (O2 : mowns m1 (ptr_blocks p ++ (ptr_blocks n ++ ids))) by mowns_by O1.
  destruct (x_free_ptr _ _ _ _ O2) as (m2 & -> & O3 & L2). unfold bind at 1.
  exists m2, n. split; [reflexivity|]. split; [chain|]. split; [exact O3|]. destruct T as [T|(-> & S1 & _)]; [left; exact T|right; auto].
Qed.
Lemma string_ok : forall m p ids, mowns m ids -> incl (ptr_blocks p) ids -> x_string m p = Ret (ptext p).
Proof. intros m [[i s]|] ids O C; [|reflexivity]. cbn [x_string]. rewrite (x_deref_ok _ m i s _ O) by (apply C; now left). reflexivity. Qed.

(** ** reading the entries of a map *)
Lemma value_at : forall N m ids ik iv il es a apre k v asuf, mowns m ids -> incl (fb ik iv il es) ids -> Forall2 (erel N) es a -> NoDup (map fst a) -> a = apre ++ (k, v) :: asuf ->
  exists p, x_get m (mkf ik iv il es) k = Ret p /\ x_text m p = Ret (a_text v).
Proof.
  intros N m ids ik iv il es a apre k v asuf O C F ND ->. destruct (get_value N m ids ik iv il es _ k O C F) as (p & E & T & _).
  exists p. split; [exact E|]. rewrite T. rewrite a_value_hit; [reflexivity|]. intros [x w] X. cbn [fst]. destruct (str_eqb x k) eqn:E2; [|reflexivity]. exfalso.
  apply str_eqb_eq in E2. subst x. rewrite map_app in ND. cbn [map fst] in ND. apply NoDup_remove_2 in ND. apply ND. apply in_or_app. left. apply in_map_iff. exists (k, w). auto.
Qed.
Definition keys_left (es : list hent) : list (ptr str) := map (fun e => Some (hk e)) es ++ [None].

Lemma pairs_ok : forall N ik iv il es a ids suf asuf pre apre m sep text, es = pre ++ suf -> a = apre ++ asuf -> Forall2 (erel N) es a -> Forall2 (erel N) suf asuf -> NoDup (map fst a) ->
  incl (fb ik iv il es) ids -> mowns m (ptr_blocks text ++ ids) ->
  exists z m' text', x_pairs m (mkf ik iv il es) (keys_left suf) sep text = Ret (z, (m', text')) /\ later m m' /\ mowns m' (ptr_blocks text' ++ ids) /\
    ((z = U_OK /\ grown (short m) behind (ptext text) (pieces sep (view asuf)) (ptext text')) \/ (z = U_ERROR_LIBCURL /\ short m)).
Proof.
  intros N ik iv il es a ids. induction suf as [|e suf IH]; intros asuf pre apre m sep text EP EA F FS ND C O; inversion FS as [|? [k v] ? asuf' R FS' E1 E2]; subst asuf; try (subst asuf').
  - exists U_OK, m, text. split; [reflexivity|]. split; [eapply later_refl; eauto|]. split; [exact O|]. left. split; [reflexivity|]. apply gr_end.
  - cbn [keys_left map app x_pairs]. destruct (hk e) as [ki ks] eqn:HK. assert (KS : ks = k) by (destruct R as (R1 & _); rewrite HK in R1; exact R1). subst ks.
    assert (CE : In ki ids). { apply C. unfold fb. right. right. right. apply in_flat_map. exists e. split; [rewrite EP; apply in_elt|]. unfold eblocks. rewrite HK. now left. }
    rewrite (x_deref_ok _ m ki k _ O) by (apply in_or_app; now right). unfold bind at 1. cbn [snd].
    destruct (x_strdup_ok m (Some (SendModel.curl_escape k)) _ O) as (ke & m1 & -> & L1 & O1 & T1).
    destruct ke as [[kp ek]|].
    2:{ exists U_ERROR_LIBCURL, m1, text. split; [reflexivity|]. split; [exact L1|]. split; [exact O1|]. right. split; [reflexivity|]. destruct T1 as [T1|(_ & S1 & _)]; [discriminate|exact S1]. }
    destruct T1 as [T1|(X & _)]; [|discriminate]. cbn [ptext] in T1. injection T1 as ->.
    assert (C1 : incl (fb ik iv il es) (ptr_blocks (Some (kp, SendModel.curl_escape k)) ++ ptr_blocks text ++ ids)) by (intros w0 W0; apply in_or_app; right; apply in_or_app; right; now apply C).
    destruct (value_at N m1 _ ik iv il es a apre k v asuf' O1 C1 F ND EA) as (p & GE & TE). rewrite GE. unfold bind at 1. rewrite TE. unfold bind at 1.
    assert (STEP : forall m2 t2 piece, later m m2 -> mowns m2 (ptr_blocks t2 ++ ids) -> piece = sep ++ pair_text (k, a_text v) ->
      (ptext t2 = Some (behind (ptext text) piece) \/ (t2 = None /\ short m)) ->
      exists z m' text', x_pairs m2 (mkf ik iv il es) (keys_left suf) [38] t2 = Ret (z, (m', text')) /\ later m m' /\ mowns m' (ptr_blocks text' ++ ids) /\
        ((z = U_OK /\ grown (short m) behind (ptext text) (pieces sep (view ((k, v) :: asuf'))) (ptext text')) \/ (z = U_ERROR_LIBCURL /\ short m))).
    { intros m2 t2 piece LL OO -> TT.
      destruct (IH asuf' (pre ++ [e]) (apre ++ [(k, v)]) m2 [38] t2) as (z & m' & text' & E & L' & O' & CASE); auto; try (now rewrite <- app_assoc).
      exists z, m', text'. split; [exact E|]. split; [chain|]. split; [exact O'|]. destruct CASE as [(-> & G)|(-> & SH)]; [left; split; [reflexivity|]|right; split; [reflexivity|now apply LL]].
      cbn [view map pieces fst snd]. assert (G2 : grown (short m) behind (ptext t2) (map (fun e => [38] ++ pair_text e) (map (fun e => (fst e, a_text (snd e))) asuf')) (ptext text')).
      { eapply grown_mono; [apply LL|]. replace (map (fun e => [38] ++ pair_text e) (map (fun e => (fst e, a_text (snd e))) asuf')) with (pieces [38] (view asuf')); [exact G|]. destruct asuf'; reflexivity. }
      destruct TT as [TT|(-> & SH)]; [apply gr_more; rewrite <- TT; exact G2|apply gr_lost; auto]. }
    unfold pair_text in STEP. cbn [fst snd] in STEP. destruct (a_text v) as [t|].
    + destruct (x_strdup_ok m1 (Some (SendModel.curl_escape t)) _ O1) as (ve & m2 & -> & L2 & O2 & T2).
      destruct ve as [[vp ev]|].
      2:{ destruct (x_free_ptr _ m2 (Some (kp, SendModel.curl_escape k)) _ O2) as (m3 & E3 & O3 & L3). cbn [addr] in *. rewrite E3. unfold bind at 1.
          exists U_ERROR_LIBCURL, m3, text. split; [reflexivity|]. split; [chain|]. split; [exact O3|]. right. split; [reflexivity|]. destruct T2 as [T2|(_ & S2 & _)]; [discriminate|now apply L1]. }
      destruct T2 as [T2|(X & _)]; [|discriminate]. cbn [ptext] in T2. injection T2 as ->.
      assert (O2' : mowns m2 (ptr_blocks text ++ (ptr_blocks (Some (vp, SendModel.curl_escape t)) ++ ptr_blocks (Some (kp, SendModel.curl_escape k)) ++ ids))) by mowns_by O2.
      match goal with |- context[x_catf m2 text ?u] => destruct (catf_ok m2 text u _ O2') as (m3 & q & E3 & L3 & O3 & T3) end. rewrite E3. unfold bind at 1. cbn [fst snd].
      assert (O3' : mowns m3 (ptr_blocks (Some (vp, SendModel.curl_escape t)) ++ (ptr_blocks (Some (kp, SendModel.curl_escape k)) ++ ptr_blocks q ++ ids))) by mowns_by O3.
      destruct (x_free_ptr _ _ _ _ O3') as (m4 & -> & O4 & L4). unfold bind at 1.
      destruct (x_free_ptr _ _ _ _ O4) as (m5 & -> & O5 & L5). unfold bind at 1.
      eapply STEP; [chain|exact O5|reflexivity|]. destruct T3 as [T3|(-> & S3)]; [now left|right; split; auto]. apply L1. now apply L2.
    + assert (O2' : mowns m1 (ptr_blocks text ++ (ptr_blocks (Some (kp, SendModel.curl_escape k)) ++ ids))) by mowns_by O1.
      match goal with |- context[x_catf m1 text ?u] => destruct (catf_ok m1 text u _ O2') as (m3 & q & E3 & L3 & O3 & T3) end. rewrite E3. unfold bind at 1. cbn [fst snd].
      assert (O3' : mowns m3 (ptr_blocks (Some (kp, SendModel.curl_escape k)) ++ ptr_blocks q ++ ids)) by mowns_by O3.
      destruct (x_free_ptr _ _ _ _ O3') as (m4 & -> & O4 & L4). unfold bind at 1.
      eapply STEP; [chain|exact O4|reflexivity|]. destruct T3 as [T3|(-> & S3)]; [now left|right; split; auto]. now apply L1.
Qed.
Lemma all_pairs_ok : forall N ik iv il es a ids m sep text, Forall2 (erel N) es a -> NoDup (map fst a) -> incl (fb ik iv il es) ids -> mowns m (ptr_blocks text ++ ids) ->
  exists z m' text', x_all_pairs m (mkf ik iv il es) sep text = Ret (z, (m', text')) /\ later m m' /\ mowns m' (ptr_blocks text' ++ ids) /\
    ((z = U_OK /\ grown (short m) behind (ptext text) (pieces sep (view a)) (ptext text')) \/ (z = U_ERROR_LIBCURL /\ short m)).
Proof.
  intros N ik iv il es a ids m sep text F ND C O. unfold x_all_pairs. cbn [mkf f_nb f_keys].
  destruct es as [|e es].
  - inversion F; subst. exists U_OK, m, text. split; [reflexivity|]. split; [eapply later_refl; eauto|]. split; [exact O|]. left. split; [reflexivity|apply gr_end].
  - cbn [length]. rewrite (x_deref_ok _ m ik _ _ O) by (apply in_or_app; right; apply C; now left). unfold bind at 1. cbn [snd].
    exact (pairs_ok N ik iv il (e :: es) a ids (e :: es) a [] [] m sep text eq_refl eq_refl F F ND C O).
Qed.
