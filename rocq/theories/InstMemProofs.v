(** Proofs about the life of an instance with failing allocations (C113). *)
From Coq Require Import String ZArith Bool List Lia.
From Verif Require Import Base BaseFacts UMapModel UMapProofs RouterModel RouterSpec EndpointProofs OwnModel OwnSpec OwnProofs MapMemModel MapMemSpec MapMemProofs MapMemPut MapMemRun MapMemSteps
  RespMemModel RespMemProofs RespMemSteps InstMemModel InstMemSpec.
Import ListNotations.
Open Scope Z_scope.

(** ** texts and endpoints *)
Lemma malloc_exact : forall m ids, mowns m ids -> exists m', m_new m' = tl (m_new m) /\
  ((hd true (m_new m) = true /\ exists i, x_malloc m = (Some i, m') /\ mowns m' (i :: ids)) \/ (hd true (m_new m) = false /\ x_malloc m = (None, m') /\ mowns m' ids)).
Proof.
  intros m ids [O G]. unfold x_malloc, mowns. destruct (m_new m) as [|[] r] eqn:E; cbn [next_answer hd tl]; eexists; (split; [|first [left; split; [reflexivity|eexists; split; [reflexivity|split; [exact (malloc_ok _ _ O)|exact G]]] | right; split; [reflexivity|split; [reflexivity|split; [exact O|exact G]]]]]); reflexivity.
Qed.
Lemma strdup_kept : forall m t ids, mowns m ids -> exists p m', x_strdup m t = (p, m') /\ mowns m' (ptr_blocks p ++ ids) /\ ptext p = fst (kept t (m_new m)) /\ m_new m' = snd (kept t (m_new m)).
Proof.
  intros m [t|] ids O; cbn [x_strdup kept fst snd].
  - destruct (malloc_exact _ _ O) as (m' & N & [(H & i & -> & O1)|(H & -> & O1)]); do 2 eexists; (split; [reflexivity|]); rewrite H; cbn [at_block ptr_blocks app ptext]; auto.
  - exists None, m. auto.
Qed.
Lemma copy_ep_ok : forall m e ids, mowns m ids -> exists m' c, x_copy_ep m e = (if is_valid_endpoint (copied e (m_new m)) false then U_OK else U_ERROR_MEMORY, (m', c)) /\
  mowns m' (ep_blocks c ++ ids) /\ erase c = copied e (m_new m).
Proof.
  intros m e ids O. unfold x_copy_ep.
  destruct (strdup_kept m (http_method e) _ O) as (a & m1 & -> & O1 & T1 & N1). destruct (strdup_kept m1 (url_prefix e) _ O1) as (b & m2 & -> & O2 & T2 & N2).
  destruct (strdup_kept m2 (url_format e) _ O2) as (c & m3 & -> & O3 & T3 & N3). rewrite N2, N1 in T3. rewrite N1 in T2.
  exists m3, (mk_hep a b c (priority e) (callback e) (user_data e)).
  assert (E : erase (mk_hep a b c (priority e) (callback e) (user_data e)) = copied e (m_new m)).
  { unfold erase, copied. cbn [h_method h_prefix h_format h_prio h_cb h_data]. change (mk_ep (ptext a) (ptext b) (ptext c) (priority e) (callback e) (user_data e) = mk_ep (fst (kept (http_method e) (m_new m)))
      (fst (kept (url_prefix e) (snd (kept (http_method e) (m_new m))))) (fst (kept (url_format e) (snd (kept (url_prefix e) (snd (kept (http_method e) (m_new m))))))) (priority e) (callback e) (user_data e)).
    now rewrite T1, T2, T3. }
  split; [|split; [|exact E]].
  - rewrite <- E. reflexivity.
  - unfold ep_blocks. cbn [h_method h_prefix h_format]. change (mowns m3 ((ptr_blocks a ++ ptr_blocks b ++ ptr_blocks c) ++ ids)). mowns_by O3.
Qed.
Lemma complete_valid : forall e, complete e -> is_valid_endpoint e false = true.
Proof. intros e C. apply valid_complete; [left; apply C|exact C]. Qed.

(** ** adding *)
Lemma fill_ok : forall m u i hs x y e fr, mowns m (i :: hsb hs ++ fr) -> complete (copied e (m_new m)) ->
  exists m' c, x_fill m u i (map Some hs ++ [x; y]) (S (List.length hs)) e = Ret (U_OK, (m', with_table u (Some (i, slots (hs ++ [c]))) (S (List.length hs)))) /\
    mowns m' (i :: hsb (hs ++ [c]) ++ fr) /\ erase c = copied e (m_new m).
Proof.
  intros m u i hs x y e fr O C. unfold x_fill. destruct (copy_ep_ok m e _ O) as (m1 & c & -> & O1 & E). rewrite (complete_valid _ C).
  replace (S (List.length hs) - 1)%nat with (List.length (map (@Some hep) hs)) by (rewrite map_length; lia).
  rewrite aset_mid. unfold bind at 1. change (negb (U_OK =? U_OK)) with false. cbv iota.
  change (x_copy_ep m1 empty_endpoint) with (U_OK, (m1, hzero)).
  replace (map (@Some hep) hs ++ [Some c; y]) with (map Some (hs ++ [c]) ++ [y]) by (rewrite map_app, <- app_assoc; reflexivity).
  assert (L : S (List.length hs) = List.length (map (@Some hep) (hs ++ [c]))) by (rewrite map_length, app_length; simpl; lia).
  pose proof (aset_mid _ (map Some (hs ++ [c])) y (@nil (option hep)) (Some hzero)) as A. rewrite <- L in A.
  match goal with |- context [aset ?a ?n ?v] => match type of A with _ = ?r => replace (aset a n v) with r by (symmetry; exact A) end end. unfold bind. exists m1, c. split; [reflexivity|]. split; [|exact E].
  rewrite hsb_app. unfold hsb at 2. cbn [flat_map]. rewrite app_nil_r. mowns_by O1.
Qed.

(** the instance that holds the values [s] in the blocks [ids] *)
Definition pval {A} (p : ptr A) : option A := match p with Some (_, a) => Some a | None => None end.
Definition tb (t : ptr (list (option hep))) (hs : list hep) : list nat := match t with Some (i, _) => i :: hsb hs | None => [] end.
Definition trel (t : ptr (list (option hep))) (hs : list hep) (b : bool) : Prop :=
  Forall registered (map erase hs) /\ match t with Some (_, arr) => arr = slots hs /\ b = true | None => hs = [] /\ b = false end.
Definition hrel (N : Z) (f : fmap) (a : option amap) (hb : list nat) : Prop :=
  (exists ik iv il es l, f = mkf ik iv il es /\ hb = fb ik iv il es /\ a = Some l /\ Forall2 (erel N) es l /\ NoDup (map fst l)) \/ (f = mk_fmap None None None 0 /\ hb = [] /\ a = None).
Inductive held (N : Z) : minst -> imean -> list nat -> Prop :=
| held_i : forall r t hs b d p f a hb w la lc lo, trel t hs b -> hrel N f a hb ->
    held N (mk_minst r t (List.length hs) d (Some (p, f)) (Some (w, mk_handler (Some true) (Some la) (Some lc) (Some lo)))) (mk_imean (pval r) b (map erase hs) (pval d) a)
      (ptr_blocks r ++ tb t hs ++ ptr_blocks d ++ p :: hb ++ [w; la; lc; lo]).

Lemma asked_owns : forall m l ids, owns (m_heap m) ids -> mowns (asked m l) ids.
Proof. intros m l ids O. split; [exact O|reflexivity]. Qed.

Lemma realloc_exact : forall A m (p : ptr A) ids, mowns m (ptr_blocks p ++ ids) -> exists i m', x_realloc m (addr p) = Ret (Some i, m') /\ mowns m' (i :: ids) /\ m_new m' = m_new m.
Proof.
  intros A m p ids [O G]. unfold x_realloc, mowns. rewrite G. cbn [next_answer]. destruct p as [[i a]|]; cbn [addr ptr_blocks app] in *.
  - destruct (free_ok _ _ _ O) as (h & -> & O1). unfold bind. do 2 eexists. split; [reflexivity|]. split; [split; [exact (malloc_ok _ _ O1)|reflexivity]|reflexivity].
  - unfold bind. do 2 eexists. split; [reflexivity|]. split; [split; [exact (malloc_ok _ _ O)|reflexivity]|reflexivity].
Qed.
Definition after_call (N : Z) (s : imean) (o : order) (fr : list nat) (r : outcome (Z * (mem * minst))) : Prop :=
  exists z m u s' ids, r = Ret (z, (m, u)) /\ imeans s o (z, s') /\ held N u s' ids /\ mowns m (ids ++ fr) /\ (n_headers s <> None -> n_headers s' <> None).

Lemma add_ok : forall N m u s ids fr e b l, held N u s ids -> owns (m_heap m) (ids ++ fr) -> order_ok N (mk_order (IAdd e) b l) -> after_call N s (mk_order (IAdd e) b l) fr (icall m u (mk_order (IAdd e) b l)).
Proof.
  intros N m u s ids fr e b l H O [NE CC]. cbn [o_op o_new] in *. destruct H as [r t hs bb d p f a hb w la lc lo [F T] HR]. unfold icall, after_call. cbn [o_op o_new o_table i_table]. unfold x_add.
  destruct (is_valid_endpoint e false) eqn:V.
  2:{ do 5 eexists. split; [reflexivity|]. split; [apply im_add_bad; intros C; apply (valid_complete e NE) in C; congruence|]. split; [constructor; [split; eassumption|eassumption]|]. split; [|auto].
      destruct t as [[i arr]|]; now apply asked_owns. }
  apply (valid_complete e NE) in V. specialize (CC V). cbn [i_table i_nb].
  assert (REG : forall c, erase c = copied e l -> Forall registered (map erase (hs ++ [c]))).
  { intros c E. rewrite map_app. apply Forall_app. split; [exact F|]. constructor; [|constructor]. rewrite E. apply CC. }
  destruct t as [[i arr]|].
  - destruct T as [-> ->]. cbn [tb] in O.
    destruct (realloc_exact _ (asked m l) (Some (i, slots hs)) (hsb hs ++ ptr_blocks r ++ ptr_blocks d ++ p :: hb ++ [w; la; lc; lo] ++ fr)) as (j & m1 & R1 & O1 & N1).
    { cbn [ptr_blocks app]. apply asked_owns. owns_by O. }
    cbn [addr] in R1. rewrite R1. unfold bind at 1. cbn [asked m_new] in N1.
    replace (arealloc (slots hs) (S (List.length hs) + 1) None) with (map Some hs ++ [Some hzero; None])
      by (rewrite arealloc_grow1 by (unfold slots; rewrite app_length, map_length; simpl; lia); unfold slots; now rewrite <- app_assoc).
    destruct (fill_ok m1 (mk_minst r (Some (i, slots hs)) (List.length hs) d (Some (p, f)) (Some (w, mk_handler (Some true) (Some la) (Some lc) (Some lo)))) j hs (Some hzero) None e
        (ptr_blocks r ++ ptr_blocks d ++ p :: hb ++ [w; la; lc; lo] ++ fr) O1) as (m2 & c & R2 & O2 & E2); [now rewrite N1|]. rewrite N1 in E2. rewrite R2.
    do 5 eexists. split; [reflexivity|]. split; [apply im_add; auto|]. unfold set_table. cbn [n_realm n_default n_headers n_table]. rewrite <- E2.
    replace (map erase hs ++ [erase c]) with (map erase (hs ++ [c])) by (now rewrite map_app).
    split; [unfold with_table; cbn [i_realm i_default i_headers i_socket]; replace (S (List.length hs)) with (List.length (hs ++ [c])) by (rewrite app_length; simpl; lia);
      apply (held_i N r (Some (j, slots (hs ++ [c]))) (hs ++ [c]) true d p f a hb w la lc lo); [split; [exact (REG c E2)|auto]|exact HR]|].
    split; [|auto]. cbn [tb]. mowns_by O2.
  - destruct T as [-> ->]. cbn [tb] in O.
    destruct (malloc_exact (asked m (b :: l)) _ (asked_owns m (b :: l) _ O)) as (m1 & N1 & [(HD & i & E & O1)|(HD & E & O1)]); cbn [asked m_new hd tl] in HD, N1.
    + rewrite E. destruct (fill_ok m1 (mk_minst r None 0 d (Some (p, f)) (Some (w, mk_handler (Some true) (Some la) (Some lc) (Some lo)))) i [] None None e
        (ptr_blocks r ++ ptr_blocks d ++ p :: hb ++ [w; la; lc; lo] ++ fr)) as (m2 & c & R2 & O2 & E2).
      { change (hsb []) with (@nil nat). mowns_by O1. } { now rewrite N1. }
      rewrite N1 in E2. cbn [map app List.length] in R2 |- *.
      match goal with |- context [x_fill ?a1 ?a2 ?a3 ?a4 ?a5 ?a6] => match type of R2 with _ = ?q => replace (x_fill a1 a2 a3 a4 a5 a6) with q by (symmetry; exact R2) end end.
      do 5 eexists. split; [reflexivity|]. split; [apply im_add; auto|]. unfold set_table. cbn [n_realm n_default n_headers n_table]. rewrite <- E2. change (map erase [] ++ [erase c]) with (map erase [c]).
      split; [unfold with_table; cbn [i_realm i_default i_headers i_socket]; apply (held_i N r (Some (i, slots [c])) [c] true d p f a hb w la lc lo); [split; [exact (REG c E2)|auto]|exact HR]|].
      split; [|auto]. cbn [tb]. change (hsb ([] ++ [c])) with (hsb [c]) in O2. mowns_by O2.
    + subst b. rewrite E. do 5 eexists. split; [reflexivity|]. split; [apply im_add_short; auto|]. split; [apply (held_i N r None [] false d p f a hb w la lc lo); [split; auto|exact HR]|]. split; [|auto]. exact O1.
Qed.

(** ** removing *)
Lemma drops_app : forall may must a a' b b', drops may must a a' -> drops may must b b' -> drops may must (a ++ b) (a' ++ b').
Proof. intros may must a a' b b' A B. induction A; cbn [app]; [exact B|constructor; auto|constructor; auto]. Qed.
Lemma drops_len : forall may must a a', drops may must a a' -> (List.length a' <= List.length a)%nat.
Proof. intros may must a a' A. induction A; cbn [List.length]; lia. Qed.
Lemma drops_all : forall may must (P : endpoint -> Prop) a a', drops may must a a' -> Forall P a -> Forall P a'.
Proof. intros may must P a a' A F. induction A; auto; inversion F; subst; auto. Qed.
Lemma str_read : forall m ids p, mowns m ids -> incl (text_blocks p) ids -> x_str m p = Ret (t_val p).
Proof. intros m ids [[i s]|] O I; [|reflexivity]. unfold x_str. rewrite (x_deref_ok _ m i s ids O) by (apply I; now left). reflexivity. Qed.
Lemma free_text : forall m (p : ptr str) ids, mowns m (ptr_blocks p ++ ids) -> exists m', x_free m (addr p) = Ret m' /\ mowns m' ids /\ later m m'.
Proof. intros. now apply x_free_ptr. Qed.
Lemma strdup_trim : forall m t ids, mowns m ids -> exists p m', x_strdup m t = (p, m') /\ mowns m' (ptr_blocks p ++ ids) /\ later m m' /\ (x_trim p = otrim t \/ short m).
Proof.
  intros m t ids O. destruct (x_strdup_ok m t ids O) as (p & m' & E & L & O1 & T). exists p, m'. split; [exact E|]. split; [exact O1|]. split; [exact L|].
  destruct T as [T|(-> & S1 & _)]; [left|now right]. destruct p as [[i s]|]; cbn [ptext] in T; subst t; reflexivity.
Qed.
Lemma remove_loop_ok : forall t tp tf (L : Prop), L \/ (tp = otrim (url_prefix t) /\ tf = otrim (url_format t)) ->
  forall pre post m u i fr found, i_table u = Some (i, slots (pre ++ post)) -> i_nb u = List.length (pre ++ post) -> mowns m (i :: hsb (pre ++ post) ++ fr) -> (short m -> L) ->
  exists pre' m' i', x_remove_loop m u (http_method t) tp tf (List.length pre) found =
      Ret ((U_OK, found || (List.length pre' <? List.length pre)%nat), (m', with_table u (Some (i', slots (pre' ++ post))) (List.length (pre' ++ post)))) /\
    mowns m' (i' :: hsb (pre' ++ post) ++ fr) /\ (short m' -> L) /\
    drops (fun e => same_route t e \/ (L /\ http_method e = http_method t)) (fun e => same_route t e /\ ~ L) (map erase pre) (map erase pre').
Proof.
  intros t tp tf L TT pre. induction pre as [|e pre IH] using rev_ind; intros post m u i fr found ET EN O SH.
  - exists [], m, i. cbn [List.length x_remove_loop app]. change (0 <? 0)%nat with false. rewrite orb_false_r. split; [|split; [exact O|split; [exact SH|constructor]]].
    cbn [app] in ET, EN. rewrite <- ET, <- EN. now destruct u.
  - replace (List.length (pre ++ [e])) with (S (List.length pre)) by (rewrite app_length; simpl; lia).
    cbn [x_remove_loop]. replace ((pre ++ [e]) ++ post) with (pre ++ e :: post) in * by (now rewrite <- app_assoc).
    rewrite ET. rewrite (x_deref_ok _ m i _ _ O) by now left. unfold bind at 1. cbn [fst snd].
    assert (G : aget (slots (pre ++ e :: post)) (List.length pre) = Ret (Some e)).
    { unfold slots. rewrite map_app. cbn [map]. rewrite <- app_assoc. cbn [app]. rewrite <- (map_length (@Some hep) pre) at 1. now rewrite aget_mid. }
    rewrite G. unfold bind at 1.
    assert (IC : incl (ep_blocks e) (i :: hsb (pre ++ e :: post) ++ fr)).
    { intros x X. right. apply in_or_app. left. rewrite hsb_app. apply in_or_app. right. rewrite hsb_cons. apply in_or_app. auto. }
    assert (IC3 : incl (text_blocks (h_method e)) (i :: hsb (pre ++ e :: post) ++ fr) /\ incl (text_blocks (h_prefix e)) (i :: hsb (pre ++ e :: post) ++ fr) /\ incl (text_blocks (h_format e)) (i :: hsb (pre ++ e :: post) ++ fr)).
    { unfold ep_blocks in IC. repeat split; intros x X; apply IC; rewrite !in_app_iff; auto. }
    destruct IC3 as (I1 & I2 & I3). rewrite (str_read m _ _ O I1). unfold bind at 1. rewrite (str_read m _ _ O I2). unfold bind at 1. rewrite (str_read m _ _ O I3). unfold bind at 1.
    destruct (strdup_trim m (t_val (h_prefix e)) _ O) as (cp & m1 & -> & O1 & L1 & T1). destruct (strdup_trim m1 (t_val (h_format e)) _ O1) as (cf & m2 & -> & O2 & L2 & T2).
    assert (SH1 : short m1 -> L) by (intros; apply SH, L1; auto). assert (SH2 : short m2 -> L) by (intros; apply SH1, L2; auto).
    assert (EX : L \/ ostr_eqb (t_val (h_method e)) (http_method t) && ostr_eqb (x_trim cp) tp && ostr_eqb (x_trim cf) tf = hit t (erase e)).
    { destruct TT as [TT|[-> ->]]; [now left|]. destruct T1 as [T1|T1]; [|left; auto]. destruct T2 as [T2|T2]; [|left; auto]. right. rewrite T1, T2. reflexivity. }
    destruct (ostr_eqb (t_val (h_method e)) (http_method t) && ostr_eqb (x_trim cp) tp && ostr_eqb (x_trim cf) tf) eqn:B.
    + assert (MAY : same_route t (erase e) \/ (L /\ http_method (erase e) = http_method t)).
      { destruct EX as [EX|EX]; [right|left; apply hit_same_route; auto]. split; [exact EX|]. apply andb_prop in B. destruct B as [B _]. apply andb_prop in B. destruct B as [B _]. now apply ostr_eqb_eq in B. }
      assert (O2' : mowns m2 (ptr_blocks (h_method e) ++ ptr_blocks (h_prefix e) ++ ptr_blocks (h_format e) ++ (i :: ptr_blocks cp ++ ptr_blocks cf ++ hsb (pre ++ post) ++ fr))).
      { rewrite hsb_app, hsb_cons in O2. unfold ep_blocks in O2. rewrite hsb_app.
        change (text_blocks (h_method e)) with (ptr_blocks (h_method e)) in O2. change (text_blocks (h_prefix e)) with (ptr_blocks (h_prefix e)) in O2. change (text_blocks (h_format e)) with (ptr_blocks (h_format e)) in O2. mowns_by O2. }
      destruct (free_text _ _ _ O2') as (m3 & R3 & O3 & L3). rewrite R3. unfold bind at 1.
      destruct (free_text _ _ _ O3) as (m4 & R4 & O4 & L4). rewrite R4. unfold bind at 1.
      destruct (free_text _ _ _ O4) as (m5 & R5 & O5 & L5). rewrite R5. unfold bind at 1. rewrite EN.
      unfold slots at 1. rewrite map_app. cbn [map]. rewrite <- app_assoc. cbn [app].
      replace (List.length (pre ++ e :: post) - List.length pre)%nat with (List.length (map (@Some hep) post ++ [Some hzero])) by (rewrite !app_length, map_length; simpl; lia).
      pose proof (h_shift_spec (map Some post ++ [Some hzero]) (map Some pre) (Some e)) as HS.
      rewrite (map_length Some pre) in HS. rewrite HS. unfold bind at 1. rewrite rev_app_distr. cbn [rev app].
      destruct (x_realloc_ok _ m5 (Some (i, tt)) _ O5) as (j & m6 & R6 & O6 & L6). cbn [addr] in R6. rewrite R6. unfold bind at 1. cbn [fst snd].
      destruct (free_text m6 cp (j :: ptr_blocks cf ++ hsb (pre ++ post) ++ fr)) as (m7 & R7 & O7 & L7); [mowns_by O6|]. rewrite R7. unfold bind at 1.
      destruct (free_text m7 cf (j :: hsb (pre ++ post) ++ fr)) as (m8 & R8 & O8 & L8); [mowns_by O7|]. rewrite R8. unfold bind at 1.
      replace (firstn (List.length (pre ++ e :: post)) (map Some pre ++ (map Some post ++ [Some hzero]) ++ [Some hzero])) with (slots (pre ++ post)).
      2:{ unfold slots. rewrite map_app, <- app_assoc.
        replace (map Some pre ++ (map Some post ++ [Some hzero]) ++ [Some hzero]) with ((map Some pre ++ map Some post ++ [Some hzero]) ++ [Some hzero]) by now rewrite <- !app_assoc.
        rewrite firstn_app.
        replace (List.length (pre ++ e :: post) - List.length (map (@Some hep) pre ++ map Some post ++ [Some hzero]))%nat with 0%nat by (rewrite !app_length, !map_length; simpl; lia).
        rewrite firstn_O, app_nil_r. symmetry. apply firstn_all2. rewrite !app_length, !map_length. simpl. lia. }
      replace (List.length (pre ++ e :: post) - 1)%nat with (List.length (pre ++ post)) by (rewrite !app_length; simpl; lia).
      destruct (IH post m8 (with_table u (Some (j, slots (pre ++ post))) (List.length (pre ++ post))) j fr true eq_refl eq_refl O8) as (pre' & m' & i' & R & O' & S' & D).
      { intros S8. apply SH2, L3, L4, L5, L6, L7, L8, S8. }
      exists pre', m', i'. split; [|split; [exact O'|split; [exact S'|]]].
      * rewrite R. pose proof (drops_len _ _ _ _ D) as DL. rewrite !map_length in DL. replace (List.length pre' <? S (List.length pre))%nat with true by (symmetry; apply Nat.ltb_lt; lia).
        rewrite orb_true_r. reflexivity.
      * rewrite map_app. replace (map erase pre') with (map erase pre' ++ []) by apply app_nil_r. apply drops_app; [exact D|]. apply dr_drop; [exact MAY|constructor].
    + assert (KEEP : ~ (same_route t (erase e) /\ ~ L)).
      { intros [A1 A2]. destruct EX as [EX|EX]; [now apply A2|]. apply hit_same_route in A1. congruence. }
      destruct (free_text m2 cp (ptr_blocks cf ++ i :: hsb (pre ++ e :: post) ++ fr)) as (m3 & R3 & O3 & L3); [mowns_by O2|]. rewrite R3. unfold bind at 1.
      destruct (free_text _ _ _ O3) as (m4 & R4 & O4 & L4). rewrite R4. unfold bind at 1.
      destruct (IH (e :: post) m4 u i fr found ET EN O4) as (pre' & m' & i' & R & O' & S' & D).
      { intros S8. apply SH2, L3, L4, S8. }
      exists (pre' ++ [e]), m', i'. rewrite <- !app_assoc. cbn [app]. split; [|split; [exact O'|split; [exact S'|]]].
      * rewrite R. replace (List.length (pre' ++ [e]) <? S (List.length pre))%nat with (List.length pre' <? List.length pre)%nat; [reflexivity|]. replace (List.length (pre' ++ [e])) with (S (List.length pre')) by (rewrite app_length; simpl; lia). reflexivity.
      * rewrite !map_app. apply drops_app; [exact D|]. apply dr_keep; [exact KEEP|constructor].
Qed.
Lemma removable_valid : forall t, (negb (equals_endpoints t empty_endpoint) && is_valid_endpoint t true) = true <-> removable t.
Proof.
  intros t. rewrite delete_valid. unfold removable. destruct (http_method t), (url_prefix t), (url_format t); intuition (try discriminate; try congruence).
Qed.
Lemma remove_ok : forall N m u s ids fr t b l, held N u s ids -> owns (m_heap m) (ids ++ fr) -> after_call N s (mk_order (IRemove t) b l) fr (icall m u (mk_order (IRemove t) b l)).
Proof.
  intros N m u s ids fr t b l H O. destruct H as [r tt0 hs bb d p f a hb w la lc lo [F T] HR]. unfold icall, after_call. cbn [o_op o_new o_table i_table]. unfold x_remove.
  destruct (negb (equals_endpoints t empty_endpoint) && is_valid_endpoint t true) eqn:V.
  2:{ do 5 eexists. split; [reflexivity|]. split; [apply im_remove_bad; intros C; apply removable_valid in C; congruence|]. split; [constructor; [split; eassumption|eassumption]|]. split; [now apply asked_owns|auto]. }
  apply removable_valid in V.
  destruct (strdup_trim (asked m l) (url_prefix t) _ (asked_owns m l _ O)) as (tp & m1 & -> & O1 & L1 & T1). destruct (strdup_trim m1 (url_format t) _ O1) as (tf & m2 & -> & O2 & L2 & T2).
  assert (SH0 : short (asked m l) -> In false l) by auto. assert (SH1 : short m1 -> In false l) by (intros; apply SH0, L1; auto). assert (SH2 : short m2 -> In false l) by (intros; apply SH1, L2; auto).
  assert (TT : In false l \/ (x_trim tp = otrim (url_prefix t) /\ x_trim tf = otrim (url_format t))) by (destruct T1, T2; auto).
  cbn [i_nb]. destruct tt0 as [[i arr]|].
  - destruct T as [-> ->]. cbn [tb] in O2.
    destruct (remove_loop_ok t _ _ (In false l) TT hs [] m2 (mk_minst r (Some (i, slots hs)) (List.length hs) d (Some (p, f)) (Some (w, mk_handler (Some true) (Some la) (Some lc) (Some lo)))) i
      (ptr_blocks tp ++ ptr_blocks tf ++ ptr_blocks r ++ ptr_blocks d ++ p :: hb ++ [w; la; lc; lo] ++ fr) false) as (hs' & m3 & i' & R & O3 & S3 & D).
    { now rewrite app_nil_r. } { now rewrite app_nil_r. } { rewrite app_nil_r. mowns_by O2. } { exact SH2. }
    rewrite R. unfold bind at 1. cbn [orb]. rewrite app_nil_r in *.
    destruct (free_text m3 tp (ptr_blocks tf ++ i' :: hsb hs' ++ ptr_blocks r ++ ptr_blocks d ++ p :: hb ++ [w; la; lc; lo] ++ fr)) as (m4 & R4 & O4 & _); [mowns_by O3|]. rewrite R4. unfold bind at 1.
    destruct (free_text _ _ _ O4) as (m5 & R5 & O5 & _). rewrite R5. unfold bind.
    do 5 eexists. split; [reflexivity|]. split.
    { replace (List.length hs' <? List.length hs)%nat with (List.length (map erase hs') <? List.length (map erase hs))%nat by (now rewrite !map_length). apply im_remove; [exact V|exact D]. }
    cbn [n_realm n_array n_default n_headers]. split; [apply (held_i N r (Some (i', slots hs')) hs' true d p f a hb w la lc lo); [split; [eapply drops_all; eauto|auto]|exact HR]|].
    split; [|auto]. cbn [tb]. mowns_by O5.
  - destruct T as [-> ->]. cbn [List.length x_remove_loop]. unfold bind at 1.
    match type of O2 with mowns _ (?a ++ ?b ++ ?c) => destruct (free_text m2 tp (a ++ c)) as (m4 & R4 & O4 & _); [mowns_by O2|] end. rewrite R4. unfold bind at 1.
    destruct (free_text _ _ _ O4) as (m5 & R5 & O5 & _). rewrite R5. unfold bind. do 5 eexists. split; [reflexivity|]. split.
    { exact (im_remove (mk_imean (pval r) false (map erase []) (pval d) a) t b l [] V (dr_nil _ _)). }
    split; [apply (held_i N r None [] false d p f a hb w la lc lo); [split; auto|exact HR]|]. split; [exact O5|auto].
Qed.

(** ** the default endpoint and the default headers *)
Lemma default_ok : forall N m u s ids fr cb x b l, held N u s ids -> owns (m_heap m) (ids ++ fr) -> after_call N s (mk_order (IDefault cb x) b l) fr (icall m u (mk_order (IDefault cb x) b l)).
Proof.
  intros N m u s ids fr cb x b l H O. destruct H as [r t hs bb d p f a hb w la lc lo T HR]. unfold icall, after_call. cbn [o_op o_new]. unfold x_set_default. cbn [i_default].
  destruct d as [[j e]|].
  - rewrite (x_deref_ok _ (asked m l) j e _ (asked_owns m l _ O)) by (rewrite !in_app_iff; left; right; right; left; now left). unfold bind. cbn [fst].
    do 5 eexists. split; [reflexivity|]. split; [apply im_default; left; discriminate|]. cbn [n_realm n_array n_table n_headers i_realm i_table i_nb i_headers i_socket].
    split; [apply (held_i N r t hs bb (Some (j, mk_ep None None None 0 (Some cb) x)) p f a hb w la lc lo); [exact T|exact HR]|]. split; [|auto]. now apply asked_owns.
  - destruct (malloc_exact (asked m l) _ (asked_owns m l _ O)) as (m1 & N1 & [(HD & i & -> & O1)|(HD & -> & O1)]); cbn [asked m_new hd tl] in HD, N1.
    + do 5 eexists. split; [reflexivity|]. split; [apply im_default; now right|]. cbn [n_realm n_array n_table n_headers i_realm i_table i_nb i_headers i_socket].
      split; [apply (held_i N r t hs bb (Some (i, mk_ep None None None 0 (Some cb) x)) p f a hb w la lc lo); [exact T|exact HR]|]. split; [|auto]. cbn [ptr_blocks] in *. mowns_by O1.
    + do 5 eexists. split; [reflexivity|]. split; [apply im_default_short; auto|]. split; [apply (held_i N r t hs bb None p f a hb w la lc lo); [exact T|exact HR]|]. split; [exact O1|auto].
Qed.
Lemma header_ok : forall N m u s ids fr k v b l, held N u s ids -> owns (m_heap m) (ids ++ fr) -> order_ok N (mk_order (IHeader k v) b l) -> n_headers s <> None -> 0 <= N -> N + 1 < two64 ->
  after_call N s (mk_order (IHeader k v) b l) fr (icall m u (mk_order (IHeader k v) b l)).
Proof.
  intros N m u s ids fr k v b l H O [CV LV] NH N0 NT. destruct H as [r t hs bb d p f a hb w la lc lo T HR]. unfold icall, after_call. cbn [o_op o_new]. unfold x_set_header. cbn [i_headers].
  rewrite (x_deref_ok _ (asked m l) p f _ (asked_owns m l _ O)) by (rewrite !in_app_iff; left; right; right; right; now left). unfold bind at 1. cbn [fst snd].
  destruct HR as [(ik & iv & il & es & al & -> & -> & -> & FE & ND)|(-> & -> & ->)]; [|now destruct NH].
  destruct (put_call N N (asked m l) ik iv il es al k (Some v) (p :: ptr_blocks r ++ tb t hs ++ ptr_blocks d ++ [w; la; lc; lo] ++ fr)) as (c & m2 & ik2 & iv2 & il2 & es2 & a2 & E & L2 & O2 & F2 & ND2 & RES); auto; try lia.
  { apply asked_owns. owns_by O. } { intros q Q. injection Q as <-. exact LV. }
  rewrite E. unfold bind. cbn [fst snd]. exists c, m2. eexists. exists (mk_imean (pval r) bb (map erase hs) (pval d) (Some a2)). eexists. split; [reflexivity|]. split.
  - destruct k as [|x k].
    + destruct RES as [RES|(-> & S1 & ->)].
      * injection RES as -> ->. apply im_header_bad.
      * exfalso. discriminate E.
    + destruct RES as [RES|(-> & S1 & ->)].
      * injection RES as -> ->. apply (im_header (mk_imean (pval r) bb (map erase hs) (pval d) (Some al)) (x :: k) v b l al); [discriminate|reflexivity].
      * apply im_header_short; [discriminate|exact S1].
  - split; [apply (held_i N r t hs bb d p (mkf ik2 iv2 il2 es2) (Some a2) (fb ik2 iv2 il2 es2) w la lc lo); [exact T|left; exists ik2, iv2, il2, es2, a2; split; [reflexivity|split; [reflexivity|split; [reflexivity|split; [exact F2|exact ND2]]]]]|]. split; [|discriminate]. mowns_by O2.
Qed.
Lemma icall_ok : forall N m u s ids fr o, held N u s ids -> owns (m_heap m) (ids ++ fr) -> order_ok N o -> (is_header (o_op o) -> n_headers s <> None) -> 0 <= N -> N + 1 < two64 ->
  after_call N s o fr (icall m u o).
Proof.
  intros N m u s ids fr [[e|t|cb x|k v] b l] H O OK HH N0 NT.
  - eapply add_ok; eauto.
  - eapply remove_ok; eauto.
  - eapply default_ok; eauto.
  - eapply header_ok; eauto. apply HH. exact I.
Qed.

(** ** reading *)
Lemma view_ok : forall N m u s ids fr, held N u s ids -> mowns m (ids ++ fr) -> view m u = Ret s.
Proof.
  intros N m u s ids fr H O. destruct H as [r t hs bb d p f a hb w la lc lo [F T] HR]. unfold view. cbn [i_realm i_table i_default i_headers].
  assert (E1 : x_str m r = Ret (pval r)).
  { destruct r as [[i q]|]; [|reflexivity]. unfold x_str. rewrite (x_deref_ok _ m i q _ O) by now left. reflexivity. }
  rewrite E1. unfold bind at 1.
  assert (E2 : (match t with None => Ret [] | Some _ => do x <- x_deref m t; read_slots (m_heap m) (snd x) end) = Ret (map erase hs)).
  { destruct t as [[i arr]|]; destruct T as [-> ->]; [|reflexivity]. cbn [tb] in O. rewrite (x_deref_ok _ m i _ _ O) by (rewrite !in_app_iff; left; right; left; now left). unfold bind. cbn [snd].
    eapply read_slots_ok; [exact F|exact (proj1 O)|]. intros x X. rewrite !in_app_iff. left. right. left. now right. }
  rewrite E2. unfold bind at 1.
  assert (E3 : (match d with None => Ret None | Some _ => do x <- x_deref m d; Ret (Some (snd x)) end) = Ret (pval d)).
  { destruct d as [[i e]|]; [|reflexivity]. rewrite (x_deref_ok _ m i e _ O) by (rewrite !in_app_iff; left; right; right; left; now left). reflexivity. }
  rewrite E3. unfold bind at 1. rewrite (x_deref_ok _ m p f _ O) by (rewrite !in_app_iff; left; right; right; right; now left). unfold bind at 1. cbn [snd].
  replace (match t with None => false | Some _ => true end) with bb by (destruct t as [[i arr]|]; apply T).
  destruct HR as [(ik & iv & il & es & al & -> & -> & -> & FE & ND)|(-> & -> & ->)]; [|reflexivity].
  unfold mkf at 1. cbn [f_keys]. rewrite (read_map_ok N m _ ik iv il es al O); [reflexivity| |exact FE]. intros x X. rewrite !in_app_iff. left. right. right. right. right. apply in_or_app. now left.
Qed.
Lemma iruns_ok : forall N l m u s ids fr, held N u s ids -> mowns m (ids ++ fr) -> Forall (order_ok N) l -> (n_headers s = None -> Forall (fun o => ~ is_header (o_op o)) l) -> 0 <= N -> N + 1 < two64 ->
  exists r m' u' s' ids', iruns m u l = Ret (r, (m', u')) /\ imeans_all s l r /\ held N u' s' ids' /\ mowns m' (ids' ++ fr).
Proof.
  intros N l. induction l as [|o l IH]; intros m u s ids fr H O F HH N0 NT.
  - exists [], m, u, s, ids. split; [reflexivity|]. split; [constructor|]. auto.
  - inversion F as [|? ? F1 F2]; subst. destruct (icall_ok N m u s ids fr o H (proj1 O) F1) as (z & m1 & u1 & s1 & ids1 & E & M & H1 & O1 & HN); auto.
    { intros IH1 HN. specialize (HH HN). inversion HH; subst. auto. }
    cbn [iruns]. rewrite E. unfold bind at 1. cbn [fst snd]. rewrite (view_ok _ _ _ _ _ _ H1 O1). unfold bind at 1.
    destruct (IH m1 u1 s1 ids1 fr H1 O1 F2) as (r & m' & u' & s' & ids' & R & MA & H' & O'); auto.
    { intros HN1. destruct (n_headers s) as [al|] eqn:EH; [exfalso; apply HN; [discriminate|exact HN1]|]. specialize (HH eq_refl). now inversion HH. }
    rewrite R. unfold bind. cbn [fst snd]. exists ((z, s1) :: r), m', u', s', ids'. split; [reflexivity|]. split; [econstructor; eauto|]. auto.
Qed.

(** ** cleaning *)
Lemma clean_slots_ok : forall hs m fr, Forall registered (map erase hs) -> mowns m (hsb hs ++ fr) -> exists m', x_clean_slots m (slots hs) = Ret m' /\ mowns m' fr.
Proof.
  induction hs as [|x hs IH]; intros m fr F O.
  - exists m. split; [reflexivity|exact O].
  - inversion F as [|? ? R F']; subst. cbn [slots map app x_clean_slots]. change (map Some hs ++ [Some hzero]) with (slots hs).
    assert (HM : h_method x <> None) by (unfold registered, erase, t_val in R; cbn in R; destruct (h_method x) as [[i q]|]; congruence).
    destruct (h_method x) as [[i q]|] eqn:M; [|congruence]. rewrite <- M in *.
    rewrite hsb_cons in O. unfold ep_blocks in O. rewrite <- !app_assoc in O.
    destruct (free_text m (h_method x) _ O) as (m1 & -> & O1 & _). unfold bind at 1. destruct (free_text m1 (h_prefix x) _ O1) as (m2 & -> & O2 & _). unfold bind at 1.
    destruct (free_text m2 (h_format x) _ O2) as (m3 & -> & O3 & _). unfold bind at 1. auto.
Qed.
Lemma clean_table_ok : forall t hs b m fr, trel t hs b -> mowns m (tb t hs ++ fr) -> exists m', x_clean_table m t = Ret m' /\ mowns m' fr.
Proof.
  intros [[i arr]|] hs b m fr [F [-> ->]] O; cbn [tb] in O; [|exists m; auto]. unfold x_clean_table. rewrite (x_deref_ok _ m i _ _ O) by now left. unfold bind at 1. cbn [snd fst].
  destruct (clean_slots_ok hs m (i :: fr) F) as (m1 & -> & O1); [mowns_by O|]. unfold bind. destruct (x_free_ok _ _ _ O1) as (m2 & E & O2 & _). eauto.
Qed.
Lemma clean_headers_ok : forall N m p f a hb fr, hrel N f a hb -> mowns m (p :: hb ++ fr) -> exists m', x_clean_full m p f = Ret m' /\ mowns m' fr.
Proof.
  intros N m p f a hb fr [(ik & iv & il & es & al & -> & -> & -> & FE & ND)|(-> & -> & ->)] O.
  - destruct (x_clean_full_ok m p ik iv il es fr O) as (m' & E & O' & _). eauto.
  - unfold x_clean_full, x_clean. cbn. destruct (x_free_ok _ _ _ O) as (m' & E & O' & _). eauto.
Qed.
(** the instance before the handler exists or while its locks are made *)
Definition socket_blocks (s : ptr handler) : list nat :=
  match s with Some (w, h) => w :: (if match w_ready h with Some true => true | _ => false end then match w_close h, w_cond h, w_active h with Some a, Some b, Some c => [a; b; c] | _, _, _ => [] end else []) | None => [] end.
Definition socket_rel (s : ptr handler) : Prop :=
  match s with Some (_, h) => match w_ready h with Some true => w_close h <> None /\ w_cond h <> None /\ w_active h <> None | Some false => True | None => False end | None => True end.
Lemma clean_inst_ok : forall N m r t hs b d n (hd : option (nat * fmap)) a hb s fr, trel t hs b -> match hd with Some (_, f) => hrel N f a hb | None => hb = [] end -> socket_rel s ->
  mowns m (ptr_blocks r ++ tb t hs ++ ptr_blocks d ++ ptr_blocks hd ++ hb ++ socket_blocks s ++ fr) ->
  exists m', x_clean_inst m (mk_minst r t n d hd s) = Ret (m', mk_minst None None n None None None) /\ mowns m' fr.
Proof.
  intros N m r t hs b d n hd a hb s fr T HR SR O. unfold x_clean_inst. cbn [i_realm i_table i_nb i_default i_headers i_socket].
  destruct (clean_table_ok t hs b m (ptr_blocks r ++ ptr_blocks d ++ ptr_blocks hd ++ hb ++ socket_blocks s ++ fr) T) as (m1 & -> & O1); [mowns_by O|]. unfold bind at 1.
  assert (X : exists m2, (match hd with None => Ret m1 | Some _ => do f <- x_deref m1 hd; x_clean_full m1 (fst f) (snd f) end) = Ret m2 /\ mowns m2 (ptr_blocks r ++ ptr_blocks d ++ socket_blocks s ++ fr)).
  { destruct hd as [[p f]|]; [|subst hb; exists m1; split; [reflexivity|exact O1]]. cbn [ptr_blocks] in O1. rewrite (x_deref_ok _ m1 p f _ O1) by (rewrite !in_app_iff; right; right; left; now left). unfold bind. cbn [fst snd].
    apply (clean_headers_ok N m1 p f a hb _ HR). mowns_by O1. }
  destruct X as (m2 & -> & O2). unfold bind at 1.
  destruct (x_free_ptr _ m2 r _ O2) as (m3 & -> & O3 & _). unfold bind at 1. destruct (x_free_ptr _ m3 d _ O3) as (m4 & -> & O4 & _). unfold bind at 1.
  assert (Y : exists m5, x_clean_socket m4 s = Ret m5 /\ mowns m5 fr).
  { unfold x_clean_socket. destruct s as [[w h]|]; [|exists m4; split; [reflexivity|exact O4]]. cbn [socket_blocks socket_rel] in *. rewrite (x_deref_ok _ m4 w h _ O4) by now left. unfold bind at 1. cbn [snd fst].
    destruct (w_ready h) as [[|]|]; [| |destruct SR]; cbn [x_member]; unfold bind at 1.
    - destruct SR as (S1 & S2 & S3). destruct (w_close h) as [c|]; [|congruence]. destruct (w_cond h) as [o|]; [|congruence]. destruct (w_active h) as [k|]; [|congruence]. cbn [x_unlock].
      destruct (x_free_ok m4 c (w :: o :: k :: fr)) as (m5 & -> & O5 & _); [mowns_by O4|]. unfold bind at 2. destruct (x_free_ok m5 o (w :: k :: fr)) as (m6 & -> & O6 & _); [mowns_by O5|]. unfold bind at 2.
      destruct (x_free_ok m6 k (w :: fr)) as (m7 & -> & O7 & _); [mowns_by O6|]. unfold bind. destruct (x_free_ok _ _ _ O7) as (m8 & -> & O8 & _). eauto.
    - unfold bind. destruct (x_free_ok _ _ _ O4) as (m5 & -> & O5 & _). eauto. }
  destruct Y as (m5 & -> & O5). unfold bind. eauto.
Qed.

(** ** the initialisation *)
Lemma lock_ok : forall m ids, mowns m ids -> exists i m', x_lock m true = (Some i, m') /\ mowns m' (i :: ids).
Proof. intros m ids [O G]. unfold x_lock. do 2 eexists. split; [reflexivity|]. split; [exact (malloc_ok _ _ O)|exact G]. Qed.
Lemma trel_nil : trel None [] false.
Proof. split; [constructor|auto]. Qed.
Definition begun (N : Z) (m : mem) (realm : option str) (k : locks) (fr : list nat) (r : outcome (Z * (mem * minst))) : Prop :=
  (exists m' u h ids, r = Ret (U_OK, (m', u)) /\ locked k /\ (h = Some [] \/ (h = None /\ short m)) /\ held N u (mk_imean (fst (kept realm (m_new m))) false [] None h) ids /\ mowns m' (ids ++ fr)) \/
  (exists m' u lost, r = Ret (U_ERROR_MEMORY, (m', u)) /\ (short m \/ ~ locked k) /\ mowns m' (lost ++ fr) /\ (List.length lost <= stuck k)%nat).
Lemma init_ok : forall N m realm k fr, mowns m fr -> k_active k = true -> begun N m realm k fr (x_init_inst m realm k).
Proof.
  intros N m realm k fr O KA. unfold x_init_inst. destruct (strdup_kept m realm _ O) as (r & m1 & -> & O1 & T1 & N1).
  assert (SH1 : short m1 -> short m).
  { unfold short. rewrite N1. destruct realm; cbn [kept snd]; [|auto]. destruct (m_new m); cbn [tl In]; auto. }
  destruct (x_malloc_ok _ _ O1) as (q & m2 & -> & L2 & [(h & -> & O2)|(-> & S2 & O2)]).
  2:{ destruct (clean_inst_ok N m2 r None [] false (@None (nat * endpoint)) 0 None None [] None fr trel_nil eq_refl I) as (m3 & -> & O3); [cbn [ptr_blocks tb socket_blocks app]; exact O2|]. unfold bind.
      right. do 2 eexists. exists []. split; [reflexivity|]. split; [auto|]. split; [exact O3|apply Nat.le_0_l]. }
  destruct (x_init_ok _ _ O2) as (c & m3 & f & -> & L3 & XF). unfold bind at 1.
  assert (SH3 : short m3 -> short m) by (intros Q; apply SH1, L2, L3, Q).
  assert (HF : exists hb a, hrel N f a hb /\ mowns m3 (hb ++ h :: ptr_blocks r ++ fr) /\ (a = Some [] \/ (a = None /\ short m))).
  { destruct XF as [(-> & ik & iv & il & -> & O3)|(-> & S3 & -> & O3)].
    - exists (fb ik iv il []), (Some []). split; [left; exists ik, iv, il, [], []; repeat (split; [reflexivity|]); split; [constructor|constructor]|]. split; [exact O3|now left].
    - exists [], None. split; [right; auto|]. split; [exact O3|right]. split; [reflexivity|]. apply SH1, L2, S3. }
  destruct HF as (hb & a & HR & O3 & HA). clear XF.
  destruct (x_malloc_ok _ _ O3) as (q & m4 & -> & L4 & [(w & -> & O4)|(-> & S4 & O4)]).
  2:{ destruct (clean_inst_ok N m4 r None [] false (@None (nat * endpoint)) 0 (Some (h, f)) a hb None fr trel_nil HR I) as (m5 & -> & O5); [cbn [ptr_blocks tb socket_blocks app]; mowns_by O4|]. unfold bind.
      right. do 2 eexists. exists []. split; [reflexivity|]. split; [auto|]. split; [exact O5|apply Nat.le_0_l]. }
  destruct (lock_ok _ _ O4) as (at1 & m5 & -> & O5). rewrite KA. destruct (lock_ok _ _ O5) as (la & m6 & -> & O6). cbn [x_unlock].
  destruct (x_free_ok m6 at1 (la :: w :: hb ++ h :: ptr_blocks r ++ fr)) as (m7 & -> & O7 & _); [mowns_by O6|]. unfold bind at 1.
  destruct (k_close k) eqn:KC.
  2:{ cbn [x_lock]. destruct (clean_inst_ok N m7 r None [] false (@None (nat * endpoint)) 0 (Some (h, f)) a hb (Some (w, mk_handler (Some false) (Some la) None None)) (la :: fr) trel_nil HR I) as (m8 & -> & O8);
        [cbn [ptr_blocks tb socket_blocks app w_ready]; mowns_by O7|]. unfold bind.
      right. do 2 eexists. exists [la]. split; [reflexivity|]. split; [right; intros (_ & B & _); congruence|]. split; [exact O8|]. unfold stuck. rewrite KC. apply le_n. }
  destruct (lock_ok _ _ O7) as (lc & m8 & -> & O8). destruct (k_cond k) eqn:KO.
  2:{ cbn [x_lock]. destruct (clean_inst_ok N m8 r None [] false (@None (nat * endpoint)) 0 (Some (h, f)) a hb (Some (w, mk_handler (Some false) (Some la) (Some lc) None)) (la :: lc :: fr) trel_nil HR I) as (m9 & -> & O9);
        [cbn [ptr_blocks tb socket_blocks app w_ready]; mowns_by O8|]. unfold bind.
      right. do 2 eexists. exists [la; lc]. split; [reflexivity|]. split; [right; intros (_ & _ & B); congruence|]. split; [exact O9|]. unfold stuck. rewrite KC, KO. apply le_n. }
  destruct (lock_ok _ _ O8) as (lo & m9 & -> & O9). left. do 2 eexists. exists a. eexists. split; [reflexivity|]. split; [unfold locked; auto|]. split; [exact HA|]. rewrite <- T1.
  split; [apply (held_i N r None [] false None h f a hb w la lc lo); [exact trel_nil|exact HR]|]. cbn [tb ptr_blocks]. mowns_by O9.
Qed.
Lemma lrun_ok : forall N m x fr, owns (m_heap m) fr -> life_ok N x -> 0 <= N -> N + 1 < two64 ->
  exists r m' lost, lrun m x = Ret (r, m') /\ lmeans x r /\ owns (m_heap m') (lost ++ fr) /\ (List.length lost <= stuck (l_locks x))%nat.
Proof.
  intros N m x fr O (KA & F & HF) N0 NT. unfold lrun. destruct (init_ok N (asked m (l_new x)) (l_realm x) (l_locks x) fr (asked_owns m _ _ O) KA) as [(m1 & u & h & ids & -> & LK & HH & H1 & O1)|(m1 & u & lost & -> & BAD & O1 & LL)]; unfold bind at 1.
  - change (U_OK =? U_OK) with true. cbv iota. rewrite (view_ok _ _ _ _ _ _ H1 O1). unfold bind at 1.
    destruct (iruns_ok N (l_orders x) m1 u _ ids fr H1 O1 F) as (r & m2 & u2 & s2 & ids2 & -> & MA & H2 & O2); auto.
    { cbn [n_headers]. intros ->. destruct HH as [HH|[_ SH]]; [discriminate|]. exact (HF SH). }
    unfold bind at 1. cbn [fst snd]. destruct H2 as [rr t hs bb d p f a hb w la lc lo T HR].
    destruct (clean_inst_ok N m2 rr t hs bb d (List.length hs) (Some (p, f)) a hb (Some (w, mk_handler (Some true) (Some la) (Some lc) (Some lo))) fr T HR) as (m3 & -> & O3).
    { cbn [socket_rel w_ready w_close w_cond w_active]. repeat split; discriminate. } { cbn [ptr_blocks socket_blocks w_ready w_close w_cond w_active]. mowns_by O2. }
    unfold bind. cbn [fst]. do 2 eexists. exists []. split; [reflexivity|]. split; [apply lm_ok; [exact LK| |exact MA]; destruct HH as [HH|[-> SH]]; auto|]. split; [exact (proj1 O3)|apply Nat.le_0_l].
  - change (U_ERROR_MEMORY =? U_OK) with false. cbv iota. do 2 eexists. exists lost. split; [reflexivity|]. split; [apply lm_failed; destruct BAD; auto|]. split; [exact (proj1 O1)|exact LL].
Qed.
Lemma lruns_ok : forall N l m fr, owns (m_heap m) fr -> Forall (life_ok N) l -> 0 <= N -> N + 1 < two64 ->
  exists rs m' lost, lruns m l = Ret (rs, m') /\ Forall2 lmeans l rs /\ owns (m_heap m') (lost ++ fr) /\ (List.length lost <= list_sum (map (fun x => stuck (l_locks x)) l))%nat.
Proof.
  intros N l. induction l as [|x l IH]; intros m fr O F N0 NT.
  - exists [], m, []. split; [reflexivity|]. split; [constructor|]. split; [exact O|apply Nat.le_0_l].
  - inversion F as [|? ? F1 F2]; subst. destruct (lrun_ok N m x fr O F1 N0 NT) as (r & m1 & lost & E & M & O1 & LL). cbn [lruns]. rewrite E. unfold bind at 1. cbn [snd fst].
    destruct (IH m1 (lost ++ fr) O1 F2 N0 NT) as (rs & m2 & lost2 & E2 & M2 & O2 & LL2). rewrite E2. unfold bind. cbn [fst snd].
    exists (r :: rs), m2, (lost2 ++ lost). split; [reflexivity|]. split; [constructor; auto|]. split; [now rewrite <- app_assoc|]. rewrite app_length. cbn [map list_sum fold_right]. unfold list_sum in LL2. lia.
Qed.
