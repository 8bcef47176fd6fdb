(** Proofs about routing and the endpoint table. *)
From Coq Require Import String ZArith Bool List Lia Sorted Permutation.
From Verif Require Import Base BaseFacts UMapModel UMapSpec UMapProofs UrlModel UrlSpec UrlProofs Utf8Model SMap RouterModel RouterSpec.
Import ListNotations.
Open Scope Z_scope.

(** ** words = segments *)
Lemma words_go_segs : forall s cur, ~ In 47 cur -> segs (cur ++ s) (words_go s cur).
Proof.
  induction s as [|c s IH]; intros cur N; simpl.
  - rewrite app_nil_r. destruct cur as [|x cur]; [constructor|].
    rewrite <- (app_nil_r (x :: cur)) at 1. apply segs_word; auto; [discriminate|constructor].
  - destruct (c =? 47) eqn:E.
    + apply Z.eqb_eq in E; subst c. destruct cur as [|x cur].
      * simpl. apply segs_slash. apply (IH []). auto.
      * apply segs_word; auto; [discriminate|eauto|]. apply segs_slash. apply (IH []). auto.
    + apply Z.eqb_neq in E. replace (cur ++ c :: s) with ((cur ++ [c]) ++ s) by now rewrite <- app_assoc.
      apply IH. intros I. apply in_app_or in I as [I|[I|[]]]; auto.
Qed.

Lemma words_segs : forall s, segs s (words s).
Proof. intros. apply (words_go_segs s []). auto. Qed.

Lemma words_go_noslash : forall w s cur, ~ In 47 w -> words_go (w ++ s) cur = words_go s (cur ++ w).
Proof.
  induction w as [|c w IH]; intros s cur N; simpl.
  - now rewrite app_nil_r.
  - replace (c =? 47) with false by (symmetry; apply Z.eqb_neq; intros ->; apply N; left; auto).
    rewrite IH by (intro; apply N; right; auto). now rewrite <- app_assoc.
Qed.

Lemma segs_words : forall s ws, segs s ws -> ws = words s.
Proof.
  induction 1 as [|s ws H IH|w s ws W N E H IH]; auto.
  unfold words. rewrite words_go_noslash by auto. simpl. rewrite IH. destruct E as [->|(r & ->)].
  - simpl. destruct w; [contradiction|reflexivity].
  - unfold words. cbn [words_go]. change (47 =? 47) with true. cbv iota. destruct w; [contradiction|reflexivity].
Qed.

Lemma osegs_owords : forall o ws, osegs o ws <-> ws = owords o.
Proof.
  intros [s|] ws; simpl; [|tauto]. split; [apply segs_words|]. intros ->. apply words_segs.
Qed.

Lemma drop_query_filter : forall a b, drop_query a b <-> b = filter (fun w => negb (starts_with 63 w)) a.
Proof.
  split.
  - induction 1 as [|w r o H IH|w r o N H IH]; simpl; auto.
    destruct w as [|c w]; simpl; [now rewrite IH|].
    destruct (c =? 63) eqn:E; simpl; [|now rewrite IH]. apply Z.eqb_eq in E; subst. exfalso. eapply N; eauto.
  - intros ->. induction a as [|w r IH]; simpl; [constructor|].
    destruct w as [|c w]; simpl.
    + constructor; auto. discriminate.
    + destruct (c =? 63) eqn:E; simpl.
      * apply Z.eqb_eq in E; subst. now constructor.
      * apply Z.eqb_neq in E. constructor; auto. intros x C. congruence.
Qed.

Lemma pattern_split : forall e p, pattern e p <-> p = split_url (url_prefix e) (url_format e).
Proof.
  intros e p. unfold pattern, split_url. split.
  - intros (a & b & c & A & B & C & ->). apply osegs_owords in A, B. apply drop_query_filter in C. now subst.
  - intros ->. do 3 eexists. split; [now apply osegs_owords|]. split; [now apply osegs_owords|]. split; [now apply drop_query_filter|auto].
Qed.

Lemma starts_with_true : forall c w, starts_with c w = true <-> exists r, w = c :: r.
Proof.
  intros c [|x w]; simpl.
  - split; [discriminate|]. intros (r & H); discriminate.
  - rewrite Z.eqb_eq. split; [intros ->; eauto|]. intros (r & H). congruence.
Qed.

Lemma format_match_pmatch : forall f u, url_format_match u f = true <-> pmatch f u.
Proof.
  induction f as [|fw fr IH]; intros u; simpl.
  - destruct u; split; intro H; try constructor; try discriminate; inversion H.
  - destruct (starts_with 42 fw && match fr with [] => true | _ => false end) eqn:S.
    + split; intros HH; [clear HH|reflexivity]. apply andb_true_iff in S as [S1 S2]. destruct fr; [|discriminate].
      apply starts_with_true in S1 as (r & ->). apply pm_star.
    + destruct u as [|uw ur].
      * split; [discriminate|]. intros H. inversion H; subst. simpl in S. discriminate.
      * destruct (negb (starts_with 64 fw) && negb (starts_with 58 fw) && negb (str_eqb fw uw)) eqn:T.
        -- split; [discriminate|]. rewrite !andb_true_iff, !negb_true_iff in T. destruct T as [[T1 T2] T3].
           intros H. inversion H as [|?|c n p w u Hc|?]; subst.
           ++ simpl in S. discriminate.
           ++ destruct Hc; subst c; simpl in *; discriminate.
           ++ rewrite str_eqb_refl in T3. discriminate.
        -- rewrite IH. rewrite !andb_false_iff, !negb_false_iff in T. split.
           ++ intros H. destruct T as [[T|T]|T].
              ** apply starts_with_true in T as (r & ->). now constructor; auto.
              ** apply starts_with_true in T as (r & ->). now constructor; auto.
              ** apply str_eqb_eq in T. subst. now constructor.
           ++ intros H. inversion H; subst; auto. simpl in S. discriminate.
Qed.

Lemma split_url_url : forall u, split_url (Some u) None = words u.
Proof. intros. unfold split_url. simpl. apply app_nil_r. Qed.

Definition sel (method url : str) (e : endpoint) : bool :=
  match http_method e with
  | Some m => (str_caseeqb m method || starts_with 42 m) && url_format_match (words url) (split_url (url_prefix e) (url_format e))
  | None => false
  end.

Lemma sel_selected : forall method url e, sel method url e = true <-> selected method url e.
Proof.
  intros method url e. unfold sel, selected. destruct (http_method e) as [m|].
  - rewrite andb_true_iff, orb_true_iff, format_match_pmatch, starts_with_true. unfold str_caseeqb. rewrite str_eqb_eq. split.
    + intros [A B]. split; [eauto|]. exists (split_url (url_prefix e) (url_format e)), (words url).
      split; [now apply pattern_split|]. split; [apply words_segs|auto].
    + intros ((m' & E & A) & p & u & P & S & M). inversion E; subst. split; auto.
      apply pattern_split in P. apply segs_words in S. now subst.
  - split; [discriminate|]. intros ((m & E & _) & _). discriminate.
Qed.

Lemma registered_not_empty : forall e, registered e -> equals_endpoints e empty_endpoint = false.
Proof.
  intros e R. unfold registered in R. unfold equals_endpoints. simpl. destruct (http_method e); [reflexivity|congruence].
Qed.

Lemma match_loop_filter : forall es rest method url, Forall registered es ->
  match_loop (map Some es ++ Some empty_endpoint :: rest) method (words url) = Ret (filter (sel method url) es).
Proof.
  intros es rest method url F. induction F as [|e es R F IH].
  - reflexivity.
  - simpl map. cbn [app match_loop]. rewrite registered_not_empty by auto. unfold method_match.
    simpl filter. unfold sel at 1. unfold registered in R. destruct (http_method e) as [m|]; [|congruence].
    unfold bind at 1. rewrite IH. reflexivity.
Qed.

Lemma match_ok : forall qsort es rest method url, Forall registered es ->
  endpoint_match qsort (Some method) (Some url) (Some (map Some es ++ Some empty_endpoint :: rest))
  = Ret (qsort (filter (sel method url) es)).
Proof. intros. unfold endpoint_match. rewrite split_url_url, match_loop_filter by auto. reflexivity. Qed.

(** ** path parameters *)
Section P.
Variable tl : Z -> Z.

(** text of a url segment as the callbacks see it *)
Definition seg_text (w : str) : str := match url_decode tl false w with Ret o => c_text o | UB _ => [] end.

Lemma decodes_bytes : forall s o, decodes s o -> cstr s -> bytes o.
Proof.
  induction 1 as [|s o D IH|c1 c2 h l s o H1 H2 D IH|c1 c2 b s o N B D IH|s o L D IH|c s o N1 N2 D IH]; intros C.
  - constructor.
  - inversion C; subst. constructor; [lia|apply IH; assumption].
  - inversion C as [|? ? _ C1]; subst. inversion C1 as [|? ? _ C2]; subst. inversion C2 as [|? ? _ C3]; subst.
    constructor; [|apply IH; assumption]. assert (0 <= h <= 15) by (inversion H1; lia). assert (0 <= l <= 15) by (inversion H2; lia). lia.
  - inversion C as [|? ? _ C1]; subst. inversion C1 as [|? ? _ C2]; subst. inversion C2 as [|? ? _ C3]; subst.
    constructor; [auto|apply IH; assumption].
  - inversion C; subst. auto.
  - inversion C; subst. constructor; [lia|apply IH; assumption].
Qed.

Lemma c_text_app0 : forall o, c_text (o ++ [0]) = c_text o.
Proof. induction o as [|c o IH]; simpl; auto. now rewrite IH. Qed.
Lemma c_text_cstr : forall o, bytes o -> cstr (c_text o).
Proof.
  induction 1 as [|c o B F IH]; simpl; [constructor|]. destruct (c =? 0) eqn:E; [constructor|].
  apply Z.eqb_neq in E. constructor; auto. lia.
Qed.
Lemma c_text_len : forall o, zlen (c_text o) <= zlen o.
Proof.
  induction o as [|c o IH]; simpl; [lia|]. destruct (c =? 0); rewrite ?zlen_cons.
  - pose proof (zlen_nonneg _ o). change (zlen (@nil Z)) with 0. lia.
  - lia.
Qed.

Lemma seg_text_spec : forall w, cstr w ->
  exists o, url_decode tl false w = Ret (o ++ [0]) /\ decodes w o /\ seg_text w = c_text o /\
    cstr (seg_text w) /\ zlen (seg_text w) <= zlen w.
Proof.
  intros w C. destruct (decode_spec_len tl false (length w) w (zlen w + 1)) as (o & E & L & D); auto; [lia|discriminate|].
  exists o. assert (S : seg_text w = c_text o).
  { unfold seg_text, url_decode. rewrite E. apply c_text_app0. }
  repeat split; auto.
  - rewrite S. apply c_text_cstr. eapply decodes_bytes; eauto.
  - rewrite S. pose proof (c_text_len o). lia.
Qed.

(** the dictionary after binding one name *)
Definition bind1 (d : smap) (name w : str) : smap :=
  sput name (Some (match sget d name with Some (Some s) => s ++ [44] ++ w | _ => w end)) d.
Definition is_param (f : str) : bool := starts_with 58 f || starts_with 64 f.
Definition okw (check : bool) (w : str) : bool := negb check || utf8_valid w.
Fixpoint bindall (check : bool) (d : smap) (fw uw : list str) : smap :=
  match fw, uw with
  | f :: fr, u :: ur =>
      if is_param f && okw check (seg_text u) then bindall check (bind1 d (tail f) (seg_text u)) fr ur
      else bindall check d fr ur
  | _, _ => d
  end.

Definition wtotal (ws : list str) : Z := fold_right (fun w n => zlen w + 1 + n) 0 ws.
Lemma wtotal_nonneg : forall ws, 0 <= wtotal ws.
Proof. induction ws as [|w ws IH]; simpl; [lia|]. pose proof (zlen_nonneg _ w). lia. Qed.

Lemma no_null_val : forall d k, no_null d -> sget d k = match sval d k with Some s => Some (Some s) | None => None end.
Proof.
  intros d k N. pose proof (no_null_sget d k N) as H. unfold sval. destruct (sget d k) as [[s|]|]; auto. congruence.
Qed.

Lemma bind1_weight : forall d name w, no_null d -> sweight (bind1 d name w) = sweight d + zlen w + 1.
Proof.
  intros d name w N. unfold bind1. rewrite sweight_sput. pose proof (no_null_sget d name N) as H.
  destruct (sget d name) as [[s|]|]; [|congruence|]; cbn [osize]; rewrite ?zlen_app; [change (zlen [44]) with 1|]; lia.
Qed.

Lemma bind1_no_null : forall d name w, no_null d -> no_null (bind1 d name w).
Proof. intros. apply no_null_sput; auto. discriminate. Qed.

Lemma sget_cstr : forall m d k s, repr m d -> sget d k = Some (Some s) -> cstr s.
Proof.
  intros m d k s R G. pose proof (repr_ovalues _ _ R) as F. unfold sget, sfind in G.
  destruct (find _ d) as [p|] eqn:E; [|discriminate]. apply find_some in E as [I _].
  rewrite Forall_forall in F. specialize (F p I). injection G as G. unfold ovalue_ok in F. rewrite G in F. tauto.
Qed.

(** one binding step on the arrays: shared by the path and the query code *)
Lemma put_joined : forall m d (name w v : str), repr m d -> no_null d -> name <> [] -> cstr w ->
  sweight d + zlen w + 3 < two64 ->
  v = match sget d name with Some (Some s) => s ++ [44] ++ w | _ => w end ->
  exists m', u_map_put m (Some name) (Some v) = Ret (U_OK, m') /\ repr m' (bind1 d name w).
Proof.
  intros m d name w v R N NE C S ->. unfold bind1.
  apply repr_put; auto. simpl.
  pose proof (sweight_nonneg d). pose proof (no_null_sget d name N) as H0.
  destruct (sget d name) as [[s|]|] eqn:G; [|congruence|].
  - pose proof (sweight_get d name s G). split.
    + apply Forall_app. split; [eapply sget_cstr; eauto|]. constructor; [lia|exact C].
    + rewrite zlen_app, zlen_cons. lia.
  - split; auto. lia.
Qed.

Lemma parse_loop_repr : forall check fw uw m d,
  repr m d -> no_null d -> Forall cstr uw ->
  Forall (fun f => is_param f = true -> tail f <> []) fw ->
  sweight d + wtotal uw + 3 < two64 ->
  exists m', parse_loop tl check fw uw m = Ret (U_OK, m') /\ repr m' (bindall check d fw uw) /\
    no_null (bindall check d fw uw).
Proof.
  intros check. induction fw as [|f fr IH]; intros uw m d R N CU NF S.
  - simpl. eauto.
  - destruct uw as [|u ur]; [simpl; eauto|].
    inversion CU; subst. inversion NF as [|? ? NF1 NF2]; subst.
    cbn [parse_loop bindall]. destruct (seg_text_spec u H1) as (o & E & D & T & TC & TL). rewrite E.
    unfold bind at 1. cbv zeta. rewrite c_text_app0, <- T.
    cbn [wtotal fold_right] in S. fold (wtotal ur) in S. pose proof (wtotal_nonneg ur).
    fold (is_param f). fold (okw check (seg_text u)).
    destruct (is_param f && okw check (seg_text u)) eqn:Q.
    + apply andb_true_iff in Q as [Q1 Q2].
      rewrite (repr_has m d _ R). unfold bind at 1.
      assert (X : (do v <- (if shas d (tail f) : bool then
                   do g <- get_str m (tail f);
                   Ret (match g with Some s => s | None => bs "(null)" end ++ [44] ++ seg_text u)
                 else Ret (seg_text u)); Ret v) =
              Ret (match sget d (tail f) with Some (Some s) => s ++ [44] ++ seg_text u | _ => seg_text u end)).
      { rewrite shas_sget. pose proof (no_null_sget d (tail f) N) as NN.
        rewrite (repr_get m d _ R). unfold sval.
        destruct (sget d (tail f)) as [[s|]|]; [reflexivity|congruence|reflexivity]. }
      destruct (if shas d (tail f) : bool then
                   do g <- get_str m (tail f);
                   Ret (match g with Some s => s | None => bs "(null)" end ++ [44] ++ seg_text u)
                 else Ret (seg_text u)) as [v|]; [|discriminate].
      unfold bind in X. injection X as X. unfold bind at 1.
      destruct (put_joined m d (tail f) (seg_text u) v R N (NF1 Q1) TC ltac:(lia) X) as (m1 & P & R1).
      change (@Some (list Z)) with (@Some str). rewrite P. unfold bind at 1. cbn [fst snd]. change (U_OK =? U_OK) with true. cbv iota.
      apply IH; auto using bind1_no_null. rewrite bind1_weight by auto. lia.
    + apply IH; auto. pose proof (zlen_nonneg _ u). lia.
Qed.

Lemma join_cons2 : forall s w l, join ((s ++ [44] ++ w) :: l) = join (s :: w :: l).
Proof.
  intros s w l. destruct l as [|x l]; [reflexivity|].
  change (join ((s ++ [44] ++ w) :: x :: l)) with ((s ++ [44] ++ w) ++ [44] ++ join (x :: l)).
  change (join (s :: w :: x :: l)) with (s ++ [44] ++ w ++ [44] ++ join (x :: l)).
  now rewrite <- !app_assoc.
Qed.

Lemma bind1_get : forall d name w l, no_null d ->
  joined (old_values (sget (bind1 d name w) name) ++ l) = joined (old_values (sget d name) ++ w :: l).
Proof.
  intros d name w l N. unfold bind1. rewrite sget_sput_same. pose proof (no_null_sget d name N).
  destruct (sget d name) as [[s|]|]; [|congruence|reflexivity].
  change (Some (Some (join ((s ++ [44] ++ w) :: l))) = Some (Some (join (s :: w :: l)))). now rewrite join_cons2.
Qed.

Lemma bindall_get : forall check fw uw d name, no_null d ->
  Forall (fun f => is_param f = true -> tail f <> []) fw ->
  sget (bindall check d fw uw) name =
  joined (old_values (sget d name) ++ bound seg_text (okw check) name fw uw).
Proof.
  intros check. induction fw as [|f fr IH]; intros uw d name N NF.
  - cbn [bindall bound]. rewrite app_nil_r. pose proof (no_null_sget d name N).
    destruct (sget d name) as [[s|]|]; [reflexivity|congruence|reflexivity].
  - destruct uw as [|u ur].
    + cbn [bindall bound]. rewrite app_nil_r. pose proof (no_null_sget d name N).
      destruct (sget d name) as [[s|]|]; [reflexivity|congruence|reflexivity].
    + inversion NF; subst. cbn [bindall bound].
      assert (Q : (str_eqb f (64 :: name) || str_eqb f (58 :: name)) = is_param f && str_eqb (tail f) name).
      { unfold is_param. destruct f as [|c f]; [reflexivity|]. cbn [starts_with str_eqb tail].
        destruct (c =? 64), (c =? 58), (str_eqb f name); reflexivity. }
      rewrite Q. destruct (okw check (seg_text u)); rewrite ?andb_true_r, ?andb_false_r; [|now apply IH].
      destruct (is_param f) eqn:P; simpl andb; [|now apply IH].
      rewrite IH by (auto using bind1_no_null).
      destruct (str_eqb (tail f) name) eqn:E.
      * apply str_eqb_eq in E. rewrite E. now apply bind1_get.
      * apply str_eqb_neq in E. unfold bind1. rewrite sget_sput_other by congruence. reflexivity.
Qed.

Lemma skip_words_skipn : forall pw uw, skip_words pw uw = skipn (length pw) uw.
Proof. induction pw as [|p pw IH]; intros [|u uw]; simpl; auto. Qed.

Lemma segs_total : forall s ws, segs s ws ->
  wtotal ws <= zlen s + 1 /\ ((s = [] \/ exists r, s = 47 :: r) -> wtotal ws <= zlen s).
Proof.
  induction 1 as [|s ws H IH|w s ws W N E H IH].
  - simpl. unfold zlen; simpl. lia.
  - rewrite zlen_cons. lia.
  - destruct IH as [I1 I2]. specialize (I2 E). cbn [wtotal fold_right]. fold (wtotal ws). rewrite zlen_app. split; [lia|].
    intros [C|(r & C)]; destruct w as [|c w]; try contradiction; try discriminate.
    simpl in C. inversion C; subst. exfalso. apply N. left; auto.
Qed.

Lemma segs_cstr : forall s ws, segs s ws -> cstr s -> Forall cstr ws.
Proof.
  induction 1 as [|s ws H IH|w s ws W N E H IH]; intros C; auto.
  - inversion C; auto.
  - apply Forall_app in C as [C1 C2]. constructor; auto.
Qed.

Lemma wtotal_skipn : forall n ws, wtotal (skipn n ws) <= wtotal ws.
Proof.
  induction n as [|n IH]; intros [|w ws]; simpl; try lia. specialize (IH ws). pose proof (zlen_nonneg _ w). lia.
Qed.
Lemma Forall_skipn : forall A (P : A -> Prop) n l, Forall P l -> Forall P (skipn n l).
Proof. induction n as [|n IH]; intros l F; destruct F; simpl; auto. Qed.

Definition named_params (e : endpoint) : Prop :=
  forall ws, osegs (url_format e) ws -> ~ In [64] ws /\ ~ In [58] ws.

Lemma named_params_forall : forall e, named_params e ->
  Forall (fun f => is_param f = true -> tail f <> []) (owords (url_format e)).
Proof.
  intros e N. destruct (N (owords (url_format e)) ltac:(now apply osegs_owords)) as [N1 N2].
  apply Forall_forall. intros f I P E. unfold is_param in P. apply orb_true_iff in P.
  rewrite !starts_with_true in P. destruct P as [(r & ->)|(r & ->)]; simpl in E; subst r; contradiction.
Qed.

Lemma parse_url_lemma : forall check url e m d,
  repr m d -> no_null d -> cstr url -> named_params e -> sweight d + zlen url + 4 < two64 ->
  exists m' d', parse_url tl url e m check = Ret (U_OK, m') /\ repr m' d' /\ no_null d' /\
    forall name, sget d' name =
      joined (old_values (sget d name) ++
              bound seg_text (okw check) name (owords (url_format e))
                    (skipn (length (owords (url_prefix e))) (words url))).
Proof.
  intros check url e m d R N C NP S. unfold parse_url. rewrite skip_words_skipn.
  pose proof (words_segs url) as SG. pose proof (segs_total _ _ SG) as [T _].
  pose proof (wtotal_skipn (length (owords (url_prefix e))) (words url)) as T2.
  destruct (parse_loop_repr check (owords (url_format e)) (skipn (length (owords (url_prefix e))) (words url)) m d R N)
    as (m' & E & R' & N').
  - apply Forall_skipn. eapply segs_cstr; eauto.
  - now apply named_params_forall.
  - lia.
  - exists m', (bindall check d (owords (url_format e)) (skipn (length (owords (url_prefix e))) (words url))).
    split; auto. split; auto. split; auto. intros name. apply bindall_get; auto. now apply named_params_forall.
Qed.

(** copying the query map into the emptied url map gives the query map *)
Lemma sput_fresh : forall k v d, ~ In k (map fst d) -> sput k v d = d ++ [(k, v)].
Proof.
  induction d as [|p d IH]; intros N; simpl in *; auto.
  replace (str_eqb (fst p) k) with false by (symmetry; apply str_eqb_neq; tauto). now rewrite IH by tauto.
Qed.
Lemma scopy_into_fresh : forall src d, NoDup (map fst (d ++ src)) -> scopy_into d src = d ++ src.
Proof.
  induction src as [|p src IH]; intros d N; simpl.
  - now rewrite app_nil_r.
  - rewrite sput_fresh.
    + rewrite IH; [rewrite <- app_assoc; destruct p; reflexivity|].
      rewrite <- app_assoc. destruct p; exact N.
    + rewrite map_app in N. simpl in N. apply NoDup_remove_2 in N. intro I. apply N. apply in_or_app. auto.
Qed.

Lemma prepare_lemma : forall check old initial url e d,
  repr initial d -> no_null d -> cstr url -> named_params e -> sweight d + zlen url + 4 < two64 ->
  exists m' d', prepare_map_url tl old initial url e check = Ret (U_OK, m') /\ repr m' d' /\
    forall name, sget d' name =
      joined (old_values (sget d name) ++
              bound seg_text (okw check) name (owords (url_format e))
                    (skipn (length (owords (url_prefix e))) (words url))).
Proof.
  intros check old initial url e d R N C NP S. unfold prepare_map_url, u_map_empty.
  destruct (repr_copy_into u_map_init initial [] d repr_init R) as (m1 & E1 & R1).
  rewrite E1. unfold bind at 1. cbn [snd].
  rewrite scopy_into_fresh in R1 by (apply (repr_nodup _ _ R)). simpl in R1.
  destruct (parse_url_lemma check url e m1 d R1 N C NP S) as (m' & d' & E & R' & _ & G). eauto.
Qed.

(** at a matching position every parameter faces a segment *)
Lemma pmatch_nth : forall p u i c n, pmatch p u -> nth_error p i = Some (c :: n) -> c = 64 \/ c = 58 ->
  exists w, nth_error u i = Some w.
Proof.
  intros p u i c n M. revert i. induction M as [|x u|c' n' p w u Hc M IH|w p u M IH]; intros i E P.
  - destruct i; discriminate.
  - destruct i as [|i]; simpl in E; [inversion E; lia|destruct i; discriminate].
  - destruct i as [|i]; simpl in *; eauto.
  - destruct i as [|i]; simpl in *; eauto.
Qed.

Lemma bound_once : forall (text : str -> str) ok name fw uw i w c,
  nth_error fw i = Some (c :: name) -> c = 64 \/ c = 58 -> nth_error uw i = Some w -> ok (text w) = true ->
  (forall j x, nth_error fw j = Some x -> j <> i -> x <> 64 :: name /\ x <> 58 :: name) ->
  bound text ok name fw uw = [text w].
Proof.
  intros text ok name. 
  assert (NONE : forall fw uw, (forall j x, nth_error fw j = Some x -> x <> 64 :: name /\ x <> 58 :: name) ->
    bound text ok name fw uw = []).
  { induction fw as [|f fr IH]; intros uw H; [reflexivity|]. destruct uw as [|u ur]; [reflexivity|]. cbn [bound].
    destruct (H O f eq_refl) as [A B]. apply str_eqb_neq in A, B. rewrite A, B. simpl.
    apply IH. intros j x E. apply (H (S j) x E). }
  induction fw as [|f fr IH]; intros uw i w c E1 Hc E2 O U; [destruct i; discriminate|].
  destruct uw as [|u ur]; [destruct i; discriminate|]. cbn [bound]. destruct i as [|i]; simpl in E1, E2.
  - inversion E1; inversion E2; subst. rewrite O, andb_true_r.
    replace (str_eqb (c :: name) (64 :: name) || str_eqb (c :: name) (58 :: name)) with true.
    + f_equal. apply NONE. intros j x E. apply (U (S j) x E). discriminate.
    + symmetry. apply orb_true_iff. destruct Hc; subst c; [left|right]; apply str_eqb_refl.
  - destruct (U 0%nat f eq_refl ltac:(discriminate)) as [A B]. apply str_eqb_neq in A, B. rewrite A, B. simpl.
    eapply IH; eauto. intros j x E D. apply (U (S j) x E). lia.
Qed.

Lemma nth_error_skipn : forall A n (l : list A) i, nth_error (skipn n l) i = nth_error l (n + i).
Proof. induction n as [|n IH]; intros [|x l] i; simpl; auto. destruct i; reflexivity. Qed.

Lemma param_lemma : forall check url e m d method i c name,
  repr m d -> no_null d -> cstr url -> named_params e -> sweight d + zlen url + 4 < two64 ->
  selected method url e ->
  (forall ws, osegs (url_format e) ws -> (forall w, ~ In (63 :: w) ws) /\
     nth_error ws i = Some (c :: name) /\
     (forall j x, nth_error ws j = Some x -> j <> i -> x <> 64 :: name /\ x <> 58 :: name)) ->
  c = 64 \/ c = 58 -> sget d name = None ->
  exists pre u seg, osegs (url_prefix e) pre /\ segs url u /\ nth_error u (length pre + i) = Some seg /\
    exists m' d', parse_url tl url e m check = Ret (U_OK, m') /\ repr m' d' /\
      (okw check (seg_text seg) = true -> sget d' name = Some (Some (seg_text seg))).
Proof.
  intros check url e m d method i c name R N C NP S SL F Hc G.
  destruct SL as (_ & p & u & P & SG & M).
  destruct (F (owords (url_format e)) ltac:(now apply osegs_owords)) as (F1 & F2 & F3).
  assert (Q : p = owords (url_prefix e) ++ owords (url_format e)).
  { apply pattern_split in P. subst p. unfold split_url. f_equal. apply filter_all. intros w I.
    destruct (starts_with 63 w) eqn:E; auto. apply starts_with_true in E as (r & ->). exfalso. eapply F1; eauto. }
  subst p. destruct (pmatch_nth _ _ (length (owords (url_prefix e)) + i) c name M) as (seg & E); auto.
  { rewrite nth_error_app2 by lia. now replace (length (owords (url_prefix e)) + i - length (owords (url_prefix e)))%nat with i by lia. }
  exists (owords (url_prefix e)), u, seg. split; [now apply osegs_owords|]. split; auto. split; auto.
  destruct (parse_url_lemma check url e m d R N C NP S) as (m' & d' & E' & R' & _ & GG).
  exists m', d'. split; auto. split; auto. intros OK. rewrite GG, G. cbn [old_values app].
  apply segs_words in SG. subst u.
  rewrite (bound_once seg_text (okw check) name _ _ i seg c); auto.
  rewrite nth_error_skipn. exact E.
Qed.
End P.
