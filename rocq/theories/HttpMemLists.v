(** Proofs about the memory of requests that are sent (C107): the headers and the cookies. *)
From Coq Require Import String ZArith Bool List Lia.
From Verif Require Import Base BaseFacts UMapModel UMapProofs OwnModel OwnSpec OwnProofs MapMemModel MapMemSpec MapMemProofs MapMemPut MapMemRun MapMemSteps
  RespMemModel RespMemSpec RespMemProofs RespMemSteps ReqMemModel ReqMemSpec ReqMemProofs ReqMemCalls ReqMemCopy ReqMemSteps RecvMemModel RecvMemSpec RecvMemProofs RecvMemSteps
  HttpMemModel HttpMemSpec HttpMemProofs.
Import ListNotations.
Open Scope Z_scope.

(** ** which answers are left *)
Lemma free_left : forall m p m', x_free m p = Ret m' -> m_new m' = m_new m.
Proof. intros m [i|] m' E; unfold x_free in E; [|now injection E as <-]. destruct (h_free (m_heap m) i); cbn in E; [now injection E as <-|discriminate]. Qed.
Lemma any_left : forall m p m', x_malloc m = (p, m') -> m_new m' = tl (m_new m).
Proof. intros m i m'. unfold x_malloc. destruct (m_new m) as [|[] z]; cbn; intros E; inversion E; reflexivity. Qed.
Lemma strdup_left : forall m s p m', x_strdup m (Some s) = (p, m') -> m_new m' = tl (m_new m).
Proof. intros m s p m' E. cbn [x_strdup] in E. destruct (x_malloc m) as [[i|] m1] eqn:A; injection E as <- <-; eapply any_left; exact A. Qed.
Lemma strdup_none : forall m s m', x_strdup m (Some s) = (None, m') -> nth_error (m_new m) 0 = Some false.
Proof.
  intros m s m' E. cbn [x_strdup] in E. destruct (x_malloc m) as [[i|] m1] eqn:A; [discriminate|]. unfold x_malloc in A.
  destruct (m_new m) as [|[] z]; cbn in A; try discriminate. reflexivity.
Qed.
Lemma catf_left : forall m p t q m', x_catf m p t = Ret (m', q) -> m_new m' = tl (m_new m).
Proof.
  intros m p t q m' E. unfold x_catf in E. destruct (x_string m p); [|discriminate]. unfold bind at 1 in E.
  destruct (x_strdup m _) as [n m1] eqn:A. unfold bind in E. destruct (x_free m1 (addr p)) eqn:B; [|discriminate]. injection E as <- <-. rewrite (free_left _ _ _ B). eapply strdup_left; exact A.
Qed.
Lemma every_skip : forall n l, every n l -> every n (skipn n l).
Proof.
  intros n l E i. assert (G : forall A k (l : list A) i, nth_error (skipn k l) i = nth_error l (k + i)).
  { clear. intros A. induction k as [|k IH]; intros l i; [reflexivity|]. destruct l as [|x l]; [cbn [skipn]; destruct i; reflexivity|]. cbn [skipn plus nth_error]. apply IH. }
  rewrite G. replace (n + n * i)%nat with (n * Datatypes.S i)%nat by lia. apply E.
Qed.
Lemma every_first : forall n l, every n l -> nth_error l 0 <> Some false.
Proof. intros n l E. specialize (E 0%nat). now rewrite Nat.mul_0_r in E. Qed.
Lemma skipn_tl : forall A n (l : list A), skipn n (tl l) = skipn (Datatypes.S n) l.
Proof. intros A n [|x l]; [destruct n; reflexivity|reflexivity]. Qed.

(** ** the list of headers *)
Definition nb (l : list node) : list nat := flat_map (fun n => [fst (n_data n); n_block n]) l.
Definition lines (l : list node) : list str := map (fun n => snd (n_data n)) l.
Lemma nb_length : forall l, length (nb l) = (2 * length l)%nat.
Proof. induction l as [|n l IH]; [reflexivity|]. unfold nb in *. cbn [flat_map app length]. lia. Qed.
Lemma slist_free_ok : forall l m ids, mowns m (nb l ++ ids) -> exists m', x_slist_free m l = Ret m' /\ mowns m' ids /\ later m m'.
Proof.
  induction l as [|n l IH]; intros m ids O; cbn [x_slist_free].
  - exists m. split; [reflexivity|]. split; [exact O|]. eapply later_refl; eauto.
  - unfold nb in O. cbn [flat_map app] in O. destruct (x_free_ok _ _ _ O) as (m1 & -> & O1 & L1 & _). unfold bind at 1.
    destruct (x_free_ok _ _ _ O1) as (m2 & -> & O2 & L2 & _). unfold bind at 1. destruct (IH m2 ids O2) as (m3 & -> & O3 & L3). exists m3. split; [reflexivity|]. split; [exact O3|chain].
Qed.
Lemma append_ok : forall m l i s ids, mowns m (nb l ++ i :: ids) -> exists m' o, x_slist_append m l (Some (i, s)) = Ret (m', o) /\ later m m' /\
  match o with
  | Some l2 => mowns m' (nb l2 ++ i :: ids) /\ lines l2 = lines l ++ [s] /\ length l2 = Datatypes.S (length l) /\ m_new m' = skipn 2 (m_new m)
  | None => short m /\ mowns m' (nb l ++ i :: ids)
  end.
Proof.
  intros m l i s ids O. unfold x_slist_append. rewrite (x_deref_ok _ m i s _ O) by (apply in_or_app; right; now left). unfold bind at 1. cbn [snd].
  destruct (x_strdup_ok m (Some s) _ O) as (p & m1 & E1 & L1 & O1 & T1). rewrite E1. pose proof (strdup_left _ _ _ _ E1) as M1. destruct p as [[j t]|].
  2:{ do 2 eexists. split; [reflexivity|]. split; [exact L1|]. destruct T1 as [T1|(_ & S1 & _)]; [discriminate|]. auto. }
  destruct T1 as [T1|(X & _)]; [|discriminate]. cbn [ptext] in T1. injection T1 as ->.
  destruct (x_malloc_ok _ _ O1) as (p & m2 & E2 & L2 & [(n & -> & O2)|(-> & S2 & O2)]); rewrite E2; pose proof (any_left _ _ _ E2) as M2.
  - do 2 eexists. split; [reflexivity|]. split; [chain|]. split.
    { eapply mowns_ext; [exact O2|]. intros x. unfold nb. rewrite flat_map_app. cbn [flat_map app fst snd n_data n_block ptr_blocks]. repeat rewrite ?cnt_app, ?cnt_cons, ?cnt_nil. lia. }
    split; [unfold lines; rewrite map_app; reflexivity|]. split; [rewrite app_length; cbn [length]; lia|]. rewrite M2, M1. destruct (m_new m) as [|x [|y z]]; reflexivity.
  - cbn [fst]. destruct (x_free_ptr _ _ (Some (j, s)) _ O2) as (m3 & E3 & O3 & L3). cbn [addr] in E3. rewrite E3. unfold bind at 1.
    do 2 eexists. split; [reflexivity|]. split; [chain|]. split; [now apply L1|exact O3].
Qed.
Lemma headers_ok : forall N ik iv il es a ids suf asuf pre apre m l, es = pre ++ suf -> a = apre ++ asuf -> Forall2 (erel N) es a -> Forall2 (erel N) suf asuf -> NoDup (map fst a) ->
  incl (fb ik iv il es) ids -> mowns m (nb l ++ ids) -> every 3 (m_new m) ->
  exists z m' l', x_headers m (mkf ik iv il es) (keys_left suf) l = Ret (z, (m', l')) /\ later m m' /\
    ((z = U_OK /\ mowns m' (nb l' ++ ids) /\ lines l' = lines l ++ map header_line (view asuf)) \/
     (z = U_ERROR_LIBCURL /\ l' = [] /\ short m /\ exists gone, mowns m' (gone ++ ids) /\ (length gone <= 2 * (length l + length suf))%nat)).
Proof.
  intros N ik iv il es a ids. induction suf as [|e suf IH]; intros asuf pre apre m l EP EA F FS ND C O EV; inversion FS as [|? [k v] ? asuf' R FS' E1 E2]; subst asuf; try (subst asuf').
  - exists U_OK, m, l. split; [reflexivity|]. split; [eapply later_refl; eauto|]. left. split; [reflexivity|]. split; [exact O|]. cbn [view map]. now rewrite app_nil_r.
  - cbn [keys_left map app x_headers]. fold (keys_left suf). destruct (hk e) as [ki ks] eqn:HK. assert (KS : ks = k) by (destruct R as (R1 & _); rewrite HK in R1; exact R1). subst ks.
    assert (CE : In ki ids). { apply C. unfold fb. right. right. right. apply in_flat_map. exists e. split; [rewrite EP; apply in_elt|]. unfold eblocks. rewrite HK. now left. }
    rewrite (x_deref_ok _ m ki k _ O) by (apply in_or_app; now right). unfold bind at 1. cbn [snd].
    assert (C1 : incl (fb ik iv il es) (nb l ++ ids)) by (intros w0 W0; apply in_or_app; right; now apply C).
    destruct (value_at N m _ ik iv il es a apre k v asuf' O C1 F ND EA) as (p & GE & TE). rewrite GE. unfold bind at 1. rewrite TE. unfold bind at 1.
    destruct (x_strdup_ok m (Some (header_text k (a_text v))) _ O) as (h & m1 & EH & L1 & O1 & T1). rewrite EH.
    destruct h as [[i s]|]; [|exfalso; apply strdup_none in EH; now apply (every_first _ _ EV)].
    destruct T1 as [T1|(X & _)]; [|discriminate]. cbn [ptext] in T1. injection T1 as ->. cbn [ptr_blocks app] in O1.
    assert (O1' : mowns m1 (nb l ++ i :: ids)) by mowns_by O1.
    destruct (append_ok m1 l i (header_text k (a_text v)) ids O1') as (m2 & o & -> & L2 & CASE). unfold bind at 1. cbn [fst snd addr].
    destruct o as [l2|].
    + destruct CASE as (O2 & LN & LL & MN). assert (O2' : mowns m2 (i :: nb l2 ++ ids)) by mowns_by O2.
      destruct (x_free_ok _ _ _ O2') as (m3 & E3 & O3 & L3 & _). rewrite E3. unfold bind at 1.
      destruct (IH asuf' (pre ++ [e]) (apre ++ [(k, v)]) m3 l2) as (z & m' & l' & -> & L4 & K); auto; try (now rewrite <- app_assoc).
      { rewrite (free_left _ _ _ E3), MN, (strdup_left _ _ _ _ EH). rewrite skipn_tl. now apply every_skip. }
      exists z, m', l'. split; [reflexivity|]. split; [chain|]. destruct K as [(-> & O4 & LN4)|(-> & -> & SH & gone & O4 & LG)].
      * left. split; [reflexivity|]. split; [exact O4|]. rewrite LN4, LN, <- app_assoc. reflexivity.
      * right. split; [reflexivity|]. split; [reflexivity|]. split; [apply L1, L2, L3, SH|]. exists gone. split; [exact O4|]. cbn [length]. lia.
    + destruct CASE as (SH & O2). assert (O2' : mowns m2 (i :: nb l ++ ids)) by mowns_by O2.
      destruct (x_free_ok _ _ _ O2') as (m3 & E3 & O3 & L3 & _). rewrite E3. unfold bind at 1.
      exists U_ERROR_LIBCURL, m3, []. split; [reflexivity|]. split; [chain|]. right. split; [reflexivity|]. split; [reflexivity|]. split; [now apply L1|].
      exists (nb l). split; [exact O3|]. rewrite nb_length. lia.
Qed.

(** ** the cookies *)
Lemma dup_left : forall m i s q m', x_dup m (Some (i, s)) = Ret (q, m') -> m_new m' = tl (m_new m).
Proof.
  intros m i s q m' E. cbn [x_dup] in E. destruct (x_deref m (Some (i, s))) as [[j t]|] eqn:D; [|discriminate]. unfold bind in E. cbn [snd] in E.
  destruct (x_strdup m (Some t)) as [p m1] eqn:A. injection E as -> ->. eapply strdup_left; exact A.
Qed.
Lemma cookies_ok : forall N ik iv il es a ids suf asuf pre apre m text last, es = pre ++ suf -> a = apre ++ asuf -> Forall2 (erel N) es a -> Forall2 (erel N) suf asuf -> NoDup (map fst a) ->
  incl (fb ik iv il es) ids -> mowns m (ptr_blocks text ++ ids) -> every 2 (m_new m) ->
  exists m' text' last', x_cookies m (mkf ik iv il es) (keys_left suf) text last = Ret (m', (text', last')) /\ later m m' /\ mowns m' (ptr_blocks text' ++ ids) /\
    grown (short m) after_semicolon (ptext text) (map cookie_line (view asuf)) (ptext text').
Proof.
  intros N ik iv il es a ids. induction suf as [|e suf IH]; intros asuf pre apre m text last EP EA F FS ND C O EV; inversion FS as [|? [k v] ? asuf' R FS' E1 E2]; subst asuf; try (subst asuf').
  - exists m, text, last. split; [reflexivity|]. split; [eapply later_refl; eauto|]. split; [exact O|]. apply gr_end.
  - cbn [keys_left map app x_cookies]. fold (keys_left suf). destruct (hk e) as [ki ks] eqn:HK. assert (KS : ks = k) by (destruct R as (R1 & _); rewrite HK in R1; exact R1). subst ks.
    assert (CE : In ki ids). { apply C. unfold fb. right. right. right. apply in_flat_map. exists e. split; [rewrite EP; apply in_elt|]. unfold eblocks. rewrite HK. now left. }
    rewrite (x_deref_ok _ m ki k _ O) by (apply in_or_app; now right). unfold bind at 1. cbn [snd].
    assert (C1 : incl (fb ik iv il es) (ptr_blocks text ++ ids)) by (intros w0 W0; apply in_or_app; right; now apply C).
    destruct (value_at N m _ ik iv il es a apre k v asuf' O C1 F ND EA) as (p & GE & TE). rewrite GE. unfold bind at 1. rewrite TE. unfold bind at 1.
    destruct (x_strdup_ok m (Some (cookie_text k (a_text v))) _ O) as (h & m1 & EH & L1 & O1 & T1). rewrite EH.
    destruct h as [[i s]|]; [|exfalso; apply strdup_none in EH; now apply (every_first _ _ EV)].
    destruct T1 as [T1|(X & _)]; [|discriminate]. cbn [ptext] in T1. injection T1 as ->. cbn [ptr_blocks] in O1. change ([i] ++ ptr_blocks text ++ ids) with (i :: (ptr_blocks text ++ ids)) in O1.
    assert (G : exists m2 t2, (match text with None => do d <- x_dup m1 (Some (i, cookie_text k (a_text v))); Ret (snd d, fst d) | Some _ => do s <- x_deref m1 (Some (i, cookie_text k (a_text v))); x_catf m1 text ([59] ++ snd s) end)
        = Ret (m2, t2) /\ later m1 m2 /\ mowns m2 (ptr_blocks t2 ++ i :: ids) /\ m_new m2 = tl (m_new m1) /\
        (ptext t2 = Some (after_semicolon (ptext text) (cookie_text k (a_text v))) \/ (t2 = None /\ short m1))).
    { destruct text as [[ti tt]|].
      - rewrite (x_deref_ok _ m1 i _ _ O1) by (now left). unfold bind at 1. cbn [snd].
        assert (O1' : mowns m1 (ptr_blocks (Some (ti, tt)) ++ (i :: ids))) by (cbn [ptr_blocks app] in O1 |- *; mowns_by O1).
        match goal with |- context[x_catf m1 ?a ?u] => destruct (catf_ok m1 a u _ O1') as (m2 & q & E2 & L2 & O2 & T2) end.
        exists m2, q. split; [exact E2|]. split; [exact L2|]. split; [exact O2|]. split; [eapply catf_left; exact E2|]. destruct T2 as [T2|T2]; [left; rewrite T2; reflexivity|now right].
      - destruct (x_dup_ok m1 (Some (i, cookie_text k (a_text v))) _ O1) as (q & m2 & E2 & L2 & O2 & T2); [intros w0 [<-|[]]; now left|].
        cbn [ptr_blocks app] in O2. rewrite E2. unfold bind at 1. cbn [fst snd]. exists m2, q. split; [reflexivity|]. split; [exact L2|]. split; [mowns_by O2|]. split; [eapply dup_left; exact E2|].
        destruct T2 as [T2|(-> & S2 & _)]; [left; rewrite T2; reflexivity|now right]. }
    destruct G as (m2 & t2 & EG & L2 & O2 & M2 & T2). match goal with |- context [bind ?X _] => replace X with (Ret (m2, t2)) by (symmetry; exact EG) end. unfold bind at 1. cbn [fst snd addr].
    assert (O2' : mowns m2 (i :: ptr_blocks t2 ++ ids)) by mowns_by O2.
    destruct (x_free_ok _ _ _ O2') as (m3 & E3 & O3 & L3 & _). rewrite E3. unfold bind at 1.
    destruct (IH asuf' (pre ++ [e]) (apre ++ [(k, v)]) m3 t2 (Some (i, cookie_text k (a_text v)))) as (m' & text' & last' & -> & L4 & O4 & G4); auto; try (now rewrite <- app_assoc).
    { rewrite (free_left _ _ _ E3), M2, (strdup_left _ _ _ _ EH). replace (tl (tl (m_new m))) with (skipn 2 (m_new m)) by (destruct (m_new m) as [|? [|? ?]]; reflexivity). now apply every_skip. }
    exists m', text', last'. split; [reflexivity|]. split; [chain|]. split; [exact O4|]. cbn [view map fst snd].
    assert (G5 : grown (short m) after_semicolon (ptext t2) (map cookie_line (view asuf')) (ptext text')) by (eapply grown_mono; [|exact G4]; intros X; apply L1, L2, L3, X).
    destruct T2 as [T2|(-> & S2)]; [|apply gr_lost; [now apply L1|exact G5]].
    apply gr_more. rewrite T2 in G5. exact G5.
Qed.
