(** Proofs for C28, C29. *)
From Coq Require Import String ZArith Bool List Lia Sorted.
From Verif Require Import Base BaseFacts Dec CookieModel CookieSpec.
Import ListNotations.
Open Scope Z_scope.

(** ** C28 *)
Lemma find_cookie_spec : forall key post pre, exists r,
  find_cookie (map Some (pre ++ post)) key (length pre) (length post) = Ret r /\
  match r with
  | None => ~ In key (map ck_key post)
  | Some p => exists a c b, post = a ++ c :: b /\ p = (length pre + length a)%nat /\ ck_key c = key
  end.
Proof.
  intros key. induction post as [|c post IH]; intros pre.
  - exists None. split; auto.
  - cbn [find_cookie length]. unfold aget. rewrite nth_error_map, nth_error_app2 by lia. rewrite Nat.sub_diag. simpl nth_error.
    cbn [option_map]. unfold bind at 1. destruct (str_eqb (ck_key c) key) eqn:E.
    + apply str_eqb_eq in E. exists (Some (length pre)). split; auto. exists [], c, post. simpl. repeat split; auto.
    + apply str_eqb_neq in E. destruct (IH (pre ++ [c])) as (r & R & H). rewrite <- app_assoc in R. simpl in R.
      rewrite app_length in R. simpl in R. rewrite Nat.add_1_r in R. exists r. split; auto.
      destruct r as [p|].
      * destruct H as (a & x & b & -> & -> & K). exists (c :: a), x, b. rewrite app_length. simpl. repeat split; auto. lia.
      * simpl. intros [C|C]; auto.
Qed.

Lemma set_nth_app : forall A (a : list A) x b y, set_nth (a ++ x :: b) (length a) y = a ++ y :: b.
Proof. induction a as [|z a IH]; intros; simpl; auto. now rewrite IH. Qed.

Lemma set_nth_end : forall (cs : list cookie) x y, set_nth (map Some cs ++ [x]) (length cs) y = map Some cs ++ [y].
Proof. intros. rewrite <- (map_length Some cs). apply set_nth_app. Qed.
Lemma NoDup_app_snoc : forall (l : list str) x, NoDup l -> ~ In x l -> NoDup (l ++ [x]).
Proof.
  induction l as [|y l IH]; intros x N I; simpl; [constructor; auto|]. inversion N; subst. constructor.
  - rewrite in_app_iff. simpl in *. intuition.
  - apply IH; auto. simpl in I. tauto.
Qed.

Definition site_ok (s : Z) : bool := (s =? 0) || (s =? 3) || (s =? 1) || (s =? 2).
Lemma site_ok_spec : forall s, site_ok s = true <-> In s [0; 1; 2; 3].
Proof.
  intros s. unfold site_ok. rewrite !orb_true_iff, !Z.eqb_eq. simpl. intuition auto.
Qed.

Definition step1 (j : jar) (c : bool * cookie_args) : outcome (Z * jar) :=
  if fst c then add_same_site_cookie j (snd c) else add_cookie j (snd c).

Definition args_of (c : bool * cookie_args) : cookie_args :=
  let a := snd c in mk_args (a_key a) (a_value a) (a_expires a) (a_max_age a) (a_domain a) (a_path a)
    (a_secure a) (a_http_only a) (call_site c).
Lemma step1_args : forall j c, step1 j c = add_same_site_cookie j (args_of c).
Proof. intros j [[] a]; unfold step1, args_of; simpl; [destruct a; reflexivity|reflexivity]. Qed.

Definition holds_cookies (j : jar) (cs : list cookie) : Prop := map_cookie j = map Some cs /\ nb_cookies j = length cs.

Lemma step_rejected : forall j c, ~ accepted c -> step1 j c = Ret (U_ERROR_PARAMS, j).
Proof.
  intros j c N. rewrite step1_args. unfold add_same_site_cookie, args_of. cbn [a_key a_same_site].
  destruct (a_key (snd c)) as [k|] eqn:K; auto.
  unfold U_COOKIE_SAME_SITE_EMPTY, U_COOKIE_SAME_SITE_NONE, U_COOKIE_SAME_SITE_STRICT, U_COOKIE_SAME_SITE_LAX.
  fold (site_ok (call_site c)). destruct (site_ok (call_site c)) eqn:S; auto. apply site_ok_spec in S.
  exfalso. apply N. split; [congruence|auto].
Qed.

Lemma step_accepted : forall j cs c k, holds_cookies j cs -> accepted c -> a_key (snd c) = Some k ->
  exists j' cs', step1 j c = Ret (U_OK, j') /\ holds_cookies j' cs' /\
    ((~ In k (map ck_key cs) /\ cs' = cs ++ [asked c k]) \/
     exists a o b, cs = a ++ o :: b /\ ck_key o = k /\ cs' = a ++ asked c k :: b).
Proof.
  intros j cs c k [M N] [_ S] K. rewrite step1_args. unfold add_same_site_cookie, args_of.
  cbn [a_key a_value a_expires a_max_age a_domain a_path a_secure a_http_only a_same_site]. rewrite K.
  unfold U_COOKIE_SAME_SITE_EMPTY, U_COOKIE_SAME_SITE_NONE, U_COOKIE_SAME_SITE_STRICT, U_COOKIE_SAME_SITE_LAX.
  fold (site_ok (call_site c)). replace (site_ok (call_site c)) with true by (symmetry; now apply site_ok_spec).
  rewrite M, N. destruct (find_cookie_spec k cs []) as (r & R & H). simpl app in R. simpl length in R at 1. rewrite R.
  unfold bind at 1. destruct r as [p|].
  - destruct H as (a & o & b & -> & -> & KO). change (length (@nil cookie) + length a)%nat with (length a). unfold aget.
    rewrite nth_error_map, nth_error_app2 by lia. rewrite Nat.sub_diag. simpl nth_error. cbn [option_map]. unfold bind at 1.
    unfold aset. replace (length a <? length (map Some (a ++ o :: b)))%nat with true
      by (symmetry; apply Nat.ltb_lt; rewrite map_length, app_length; simpl; lia).
    unfold bind. rewrite map_app. simpl map. rewrite <- (map_length Some a). rewrite set_nth_app. 
    eexists. exists (a ++ asked c k :: b). split; [reflexivity|]. split.
    + split; [cbn [map_cookie]; rewrite map_app; simpl; unfold asked; now rewrite KO|]. cbn [nb_cookies]. rewrite !app_length. reflexivity.
    + right. exists a, o, b. auto.
  - assert (AR : (if (length cs =? 0)%nat then [None] else firstn (length cs + 1) (map Some cs) ++ repeat None (length cs + 1 - length (map Some cs)))
                 = map Some cs ++ [@None cookie]).
    { rewrite map_length. replace (length cs + 1 - length cs)%nat with 1%nat by lia. rewrite firstn_all2 by (rewrite map_length; lia).
      destruct cs; reflexivity. }
    rewrite AR. unfold aset. replace (length cs <? length (map Some cs ++ [None]))%nat with true
      by (symmetry; apply Nat.ltb_lt; rewrite app_length, map_length; simpl; lia).
    unfold bind. rewrite set_nth_end.
    eexists. exists (cs ++ [asked c k]). split; [reflexivity|]. split.
    + split; [cbn [map_cookie]; rewrite map_app; reflexivity|]. cbn [nb_cookies]. now rewrite app_length.
    + left. auto.
Qed.

(** the state after a history *)
Definition jar_inv (calls : list (bool * cookie_args)) (cs : list cookie) : Prop :=
  NoDup (map ck_key cs) /\
  (forall c, In c cs <-> exists k call, last_call calls k call /\ c = asked call k) /\
  StronglySorted (first_before calls) (map ck_key cs).

Lemma first_before_app : forall calls x k k', first_before calls k k' -> first_before (calls ++ x) k k'.
Proof. intros calls x k k' (a & c & b & -> & A & K & H). exists a, c, (b ++ x). rewrite <- app_assoc. auto. Qed.

Lemma ss_impl : forall (R R' : str -> str -> Prop) l, (forall a b, R a b -> R' a b) -> StronglySorted R l -> StronglySorted R' l.
Proof. intros R R' l I S. induction S; constructor; auto. eapply Forall_impl; [|eassumption]. auto. Qed.

Lemma ss_snoc : forall (R : str -> str -> Prop) l x, StronglySorted R l -> Forall (fun y => R y x) l -> StronglySorted R (l ++ [x]).
Proof.
  intros R l x S F. induction S as [|y l S IH H]; simpl; [repeat constructor|]. inversion F; subst. constructor; auto.
  apply Forall_app; auto.
Qed.

Lemma last_call_snoc : forall calls x k c, last_call (calls ++ [x]) k c <->
  (accepted x /\ a_key (snd x) = Some k /\ c = x) \/ (~ (accepted x /\ a_key (snd x) = Some k) /\ last_call calls k c).
Proof.
  intros calls x k c. split.
  - intros (a & b & E & A & K & L). destruct b as [|y b] using rev_ind.
    + apply app_inj_tail in E as [-> ->]. auto.
    + clear IHb. rewrite app_comm_cons, app_assoc in E. apply app_inj_tail in E as [-> ->].
      right. split; [|exists a, b; split; [auto|]; split; [exact A|]; split; [exact K|]; intros z I; apply L; apply in_app_iff; auto].
      intros [AY KY]. apply (L y); auto. apply in_app_iff. right. now left.
  - intros [(A & K & ->)|(N & a & b & -> & A & K & L)].
    + exists calls, []. split; [auto|]. split; [exact A|]. split; [exact K|]. intros ? [].
    + exists a, (b ++ [x]). split; [rewrite <- app_assoc; reflexivity|]. split; [exact A|]. split; [exact K|].
      intros y I AY. apply in_app_iff in I as [I|[<-|[]]]; auto.
Qed.

Lemma last_call_name : forall calls k c, last_call calls k c -> exists d, In d calls /\ accepted d /\ a_key (snd d) = Some k.
Proof. intros calls k c (a & b & -> & A & K & _). exists c. split; auto. apply in_app_iff. right. now left. Qed.

Definition accepted_dec : forall c, {accepted c} + {~ accepted c}.
Proof.
  intros c. unfold accepted. destruct (a_key (snd c)) eqn:K; [|right; intros [C _]; congruence].
  destruct (in_dec Z.eq_dec (call_site c) [0; 1; 2; 3]); [left; split; congruence|right; tauto].
Defined.

Lemma no_name_no_call : forall calls k, (forall c, ~ last_call calls k c) ->
  forall x, In x calls -> accepted x -> a_key (snd x) <> Some k.
Proof.
  intros calls k. induction calls as [|y calls IH] using rev_ind; intros N x I A K; [contradiction|].
  apply in_app_iff in I as [I|[->|[]]].
  - revert x I A K. apply IH. intros c L.
    destruct (accepted_dec y) as [AY|AY]; [destruct (option_map (fun s => str_eqb s k) (a_key (snd y))) as [[]|] eqn:E|].
    + destruct (a_key (snd y)) eqn:KY; [|discriminate]. simpl in E. injection E as E. apply str_eqb_eq in E. subst.
      apply (N y). apply last_call_snoc. left. auto.
    + apply (N c). apply last_call_snoc. right. split; auto. intros [_ KY]. rewrite KY in E. simpl in E. injection E as E.
      rewrite str_eqb_refl in E. discriminate.
    + apply (N c). apply last_call_snoc. right. split; auto. intros [_ KY]. rewrite KY in E. discriminate.
    + apply (N c). apply last_call_snoc. right. split; auto. tauto.
  - apply (N x). apply last_call_snoc. left. auto.
Qed.

Lemma asked_key : forall c k, ck_key (asked c k) = k. Proof. reflexivity. Qed.

Lemma inv_step : forall calls cs j x, jar_inv calls cs -> holds_cookies j cs ->
  exists code j' cs', step1 j x = Ret (code, j') /\ (code = U_OK <-> accepted x) /\ (code = U_ERROR_PARAMS <-> ~ accepted x) /\
    holds_cookies j' cs' /\ jar_inv (calls ++ [x]) cs'.
Proof.
  intros calls cs j x (ND & IN & SO) H. destruct (accepted_dec x) as [A|NA].
  - destruct (a_key (snd x)) as [k|] eqn:K; [|destruct A; congruence].
    destruct (step_accepted j cs x k H A K) as (j' & cs' & E & H' & CASE).
    exists U_OK, j', cs'. split; auto. split; [tauto|]. split; [split; [discriminate|tauto]|]. split; auto.
    destruct CASE as [[NEW ->]|(a & o & b & -> & KO & ->)].
    + assert (NL : forall c, ~ last_call calls k c).
      { intros c L. apply NEW. apply in_map_iff. exists (asked c k). split; auto. apply IN. eauto. }
      split; [|split].
      * rewrite map_app. simpl. apply NoDup_app_snoc; auto.
      * intros c. rewrite in_app_iff, IN. split.
        -- intros [(k' & call & L & ->)|[<-|[]]].
           ++ exists k', call. split; auto. apply last_call_snoc. right. split; auto. intros [_ K']. rewrite K in K'. injection K' as <-. now apply (NL call).
           ++ exists k, x. split; auto. apply last_call_snoc. left. auto.
        -- intros (k' & call & L & ->). apply last_call_snoc in L as [(_ & K' & ->)|[_ L]].
           ++ right. left. rewrite K in K'. injection K' as <-. reflexivity.
           ++ left. eauto.
      * rewrite map_app. simpl. apply ss_snoc; [eapply ss_impl; [|exact SO]; intros; now apply first_before_app|].
        apply Forall_forall. intros y IY. apply in_map_iff in IY as (c & <- & IC). apply IN in IC as (k' & call & L & ->).
        destruct L as (a & b & -> & AC & KC & _). exists a, call, (b ++ [x]). split; [rewrite <- app_assoc; reflexivity|]. split; [exact AC|]. split; [exact KC|].
        intros z IZ AZ. apply (no_name_no_call _ _ NL); auto. apply in_app_iff in IZ as [IZ|[->|[]]]; apply in_app_iff; [left; auto|right; left; auto].
    + split; [|split].
      * rewrite map_app in *. simpl in *. now rewrite KO in ND.
      * assert (UNIQ : forall c, In c a \/ In c b -> ck_key c <> k).
        { intros c I. rewrite map_app in ND. simpl in ND. apply NoDup_remove_2 in ND. intro C. apply ND. rewrite KO, <- C.
          apply in_app_iff. destruct I; [left|right]; now apply in_map. }
        intros c. rewrite in_app_iff. simpl. split.
        -- intros [I|[<-|I]].
           ++ assert (I' : In c (a ++ o :: b)) by (apply in_app_iff; auto). apply IN in I' as (k' & call & L & ->).
              exists k', call. split; auto. apply last_call_snoc. right. split; auto. intros [_ K']. rewrite K in K'. injection K' as <-.
              exfalso. apply (UNIQ (asked call k)); auto.
           ++ exists k, x. split; auto. apply last_call_snoc. left. auto.
           ++ assert (I' : In c (a ++ o :: b)) by (apply in_app_iff; simpl; auto). apply IN in I' as (k' & call & L & ->).
              exists k', call. split; auto. apply last_call_snoc. right. split; auto. intros [_ K']. rewrite K in K'. injection K' as <-.
              exfalso. apply (UNIQ (asked call k)); auto.
        -- intros (k' & call & L & ->). apply last_call_snoc in L as [(_ & K' & ->)|[NE L]].
           ++ right. left. rewrite K in K'. injection K' as <-. reflexivity.
           ++ assert (I' : In (asked call k') (a ++ o :: b)) by (apply IN; eauto).
              apply in_app_iff in I' as [I'|[I'|I']]; auto.
              exfalso. apply NE. split; auto. rewrite K, <- KO, I'. reflexivity.
      * rewrite map_app in *. simpl in *. rewrite KO in SO. eapply ss_impl; [|exact SO]. intros; now apply first_before_app.
  - exists U_ERROR_PARAMS, j, cs. split; [now apply step_rejected|]. split; [split; [discriminate|tauto]|]. split; [tauto|]. split; auto.
    split; auto. split.
    + intros c. rewrite IN. split; intros (k & call & L & ->); exists k, call; split; auto.
      * apply last_call_snoc. right. tauto.
      * apply last_call_snoc in L. tauto.
    + eapply ss_impl; [|exact SO]. intros; now apply first_before_app.
Qed.

Lemma add_cookies_cons : forall j c r, add_cookies j (c :: r) = (do x <- step1 j c; do y <- add_cookies (snd x) r; Ret (fst x :: fst y, snd y)).
Proof. intros j [[] a] r; reflexivity. Qed.

Lemma C28_lemma : forall calls2 calls1 j cs, jar_inv calls1 cs -> holds_cookies j cs ->
  exists codes j' cs', add_cookies j calls2 = Ret (codes, j') /\ holds_cookies j' cs' /\ jar_inv (calls1 ++ calls2) cs' /\
    Forall2 (fun c code => (code = U_OK <-> accepted c) /\ (code = U_ERROR_PARAMS <-> ~ accepted c)) calls2 codes.
Proof.
  induction calls2 as [|x r IH]; intros calls1 j cs I H.
  - exists [], j, cs. rewrite app_nil_r. repeat (split; auto).
  - destruct (inv_step calls1 cs j x I H) as (code & j1 & cs1 & E & C1 & C2 & H1 & I1).
    destruct (IH (calls1 ++ [x]) j1 cs1 I1 H1) as (codes & j2 & cs2 & E2 & H2 & I2 & F).
    rewrite add_cookies_cons, E. unfold bind at 1. cbn [snd]. rewrite E2. unfold bind. cbn [fst snd].
    exists (code :: codes), j2, cs2. rewrite <- app_assoc in I2. repeat (split; auto).
Qed.

(** ** C29 *)
Lemma split_nosep : forall sep s, ~ In sep s -> split sep s = [s].
Proof.
  induction s as [|c s IH]; intros N; auto. simpl in *. destruct (c =? sep) eqn:E; [apply Z.eqb_eq in E; tauto|].
  now rewrite IH by tauto.
Qed.

Lemma split_app : forall sep a b, ~ In sep a -> split sep (a ++ sep :: b) = a :: split sep b.
Proof.
  induction a as [|c a IH]; intros b N; simpl in *.
  - now rewrite Z.eqb_refl.
  - destruct (c =? sep) eqn:E; [apply Z.eqb_eq in E; tauto|]. now rewrite IH by tauto.
Qed.

Lemma split_segs : forall sep l hd, ~ In sep hd -> Forall (fun s => ~ In sep s) l ->
  split sep (hd ++ flat_map (fun s => sep :: s) l) = hd :: l.
Proof.
  induction l as [|s l IH]; intros hd N F; simpl.
  - rewrite app_nil_r. now apply split_nosep.
  - inversion F; subst. rewrite split_app by auto. now rewrite IH.
Qed.

Lemma cut_app : forall sep a b, ~ In sep a -> cut sep (a ++ sep :: b) = Some (a, b).
Proof.
  induction a as [|c a IH]; intros b N; simpl in *.
  - now rewrite Z.eqb_refl.
  - destruct (c =? sep) eqn:E; [apply Z.eqb_eq in E; tauto|]. now rewrite IH by tauto.
Qed.

Definition oseg (name : str) (v : option str) : list str := match v with Some s => [name ++ s] | None => [] end.
Definition segs_of (c : cookie) : list str :=
  oseg (bs " Expires=") (ck_expires c) ++
  (if 0 <? ck_max_age c then [bs " Max-Age=" ++ sdec (as_int (ck_max_age c))] else []) ++
  oseg (bs " Domain=") (ck_domain c) ++ oseg (bs " Path=") (ck_path c) ++
  (if negb (ck_secure c =? 0) then [bs " Secure"] else []) ++
  (if negb (ck_http_only c =? 0) then [bs " HttpOnly"] else []) ++
  (if ck_same_site c =? 1 then [bs " SameSite=Strict"] else if ck_same_site c =? 2 then [bs " SameSite=Lax"]
   else if ck_same_site c =? 3 then [bs " SameSite=None"] else []).

Lemma header_segs : forall c, generate_cookie_header c =
  (ck_key c ++ bs "=" ++ ck_value c) ++ flat_map (fun s => 59 :: s) (segs_of c).
Proof.
  intros c. unfold generate_cookie_header, segs_of, attr, oseg. rewrite !flat_map_app. rewrite <- !app_assoc.
  f_equal. f_equal. f_equal.
  unfold U_COOKIE_SAME_SITE_STRICT, U_COOKIE_SAME_SITE_LAX, U_COOKIE_SAME_SITE_NONE.
  destruct (ck_expires c), (0 <? ck_max_age c), (ck_domain c), (ck_path c), (negb (ck_secure c =? 0)), (negb (ck_http_only c =? 0)),
    (ck_same_site c =? 1), (ck_same_site c =? 2), (ck_same_site c =? 3); simpl; rewrite ?app_nil_r, <- ?app_assoc; reflexivity.
Qed.

Lemma after_app : forall p s, after p (p ++ s) = Some s.
Proof. induction p as [|x p IH]; intros s; simpl; auto. now rewrite Z.eqb_refl. Qed.

Lemma notin_app : forall (x : Z) a b, ~ In x a -> ~ In x b -> ~ In x (a ++ b).
Proof. intros x a b A B I. apply in_app_iff in I. tauto. Qed.

Lemma bs_notin : forall x s, (forallb (fun c => negb (c =? x)) (bs s)) = true -> ~ In x (bs s).
Proof. intros x s H I. rewrite forallb_forall in H. specialize (H x I). rewrite Z.eqb_refl in H. discriminate. Qed.

Lemma sdec_nosemi : forall n, 0 <= n -> ~ In 59 (sdec n).
Proof.
  intros n N I. unfold sdec in I. replace (n <? 0) with false in I by (symmetry; apply Z.ltb_ge; lia).
  destruct (udec_ok n N) as (D & _). rewrite Forall_forall in D. specialize (D _ I). unfold digit in D. lia.
Qed.

Lemma segs_nosemi : forall c, plain_cookie c -> 0 <= ck_max_age c < 2147483648 -> Forall (fun s => ~ In 59 s) (segs_of c).
Proof.
  intros c (A & B & D & E & F & G) M. unfold segs_of. repeat (apply Forall_app; split).
  - unfold oseg. destruct (ck_expires c); constructor; [|constructor]. apply notin_app; [apply bs_notin; reflexivity|now apply E].
  - destruct (0 <? ck_max_age c); constructor; [|constructor]. apply notin_app; [apply bs_notin; reflexivity|].
    apply sdec_nosemi. unfold as_int. replace (ck_max_age c <? 2147483648) with true by (symmetry; apply Z.ltb_lt; lia). lia.
  - unfold oseg. destruct (ck_domain c); constructor; [|constructor]. apply notin_app; [apply bs_notin; reflexivity|now apply F].
  - unfold oseg. destruct (ck_path c); constructor; [|constructor]. apply notin_app; [apply bs_notin; reflexivity|now apply G].
  - destruct (negb _); constructor; [|constructor]. apply bs_notin; reflexivity.
  - destruct (negb _); constructor; [|constructor]. apply bs_notin; reflexivity.
  - destruct (_ =? 1); [|destruct (_ =? 2); [|destruct (_ =? 3)]]; constructor; try constructor; apply bs_notin; reflexivity.
Qed.

Lemma C29_lemma : forall c, plain_cookie c -> 0 <= ck_max_age c < 2147483648 ->
  read_set_cookie (generate_cookie_header c) = Some (view_of c).
Proof.
  intros c P M. rewrite header_segs. unfold read_set_cookie.
  pose proof (segs_nosemi c P M) as SN. destruct P as (A & B & D & E & F & G).
  rewrite split_segs; auto.
  2:{ apply notin_app; auto. apply notin_app; auto. apply bs_notin. reflexivity. }
  change (bs "=" ++ ck_value c) with (61 :: ck_value c). rewrite cut_app by auto.
  clear A B D E F G SN.
  assert (AI : as_int (ck_max_age c) = ck_max_age c).
  { unfold as_int. replace (ck_max_age c <? 2147483648) with true by (symmetry; apply Z.ltb_lt; lia). reflexivity. }
  unfold segs_of, view_of. rewrite AI.
  destruct (udec_ok (ck_max_age c) ltac:(lia)) as (_ & DV & _).
  assert (SD : sdec (ck_max_age c) = udec (ck_max_age c)).
  { unfold sdec. replace (ck_max_age c <? 0) with false by (symmetry; apply Z.ltb_ge; lia). reflexivity. }
  rewrite SD. clear SD AI.
  destruct c as [key value ex ma dom pa sec http site]. cbn [ck_key ck_value ck_expires ck_max_age ck_domain ck_path ck_secure ck_http_only ck_same_site] in *.
  assert (MA : (ma =? 0) = negb (0 <? ma)).
  { destruct (Z.ltb_spec 0 ma); [apply Z.eqb_neq; lia|apply Z.eqb_eq; lia]. }
  rewrite MA. clear MA M. revert DV. generalize (udec ma). intros u DV.
  assert (RE : forall v s, v_expires v = None -> read_attr v (bs " Expires=" ++ s) =
    Some (mk_view (v_name v) (v_value v) (Some s) (v_max_age v) (v_domain v) (v_path v) (v_secure v) (v_http_only v) (v_same_site v))).
  { intros v s N. unfold read_attr. rewrite after_app, N. reflexivity. }
  assert (RM : forall v s, v_max_age v = None -> read_attr v (bs " Max-Age=" ++ s) =
    Some (mk_view (v_name v) (v_value v) (v_expires v) (Some (dec_value s)) (v_domain v) (v_path v) (v_secure v) (v_http_only v) (v_same_site v))).
  { intros v s N. unfold read_attr. replace (after (bs " Expires=") (bs " Max-Age=" ++ s)) with (@None str) by reflexivity. rewrite after_app, N. reflexivity. }
  assert (RD : forall v s, v_domain v = None -> read_attr v (bs " Domain=" ++ s) =
    Some (mk_view (v_name v) (v_value v) (v_expires v) (v_max_age v) (Some s) (v_path v) (v_secure v) (v_http_only v) (v_same_site v))).
  { intros v s N. unfold read_attr. replace (after (bs " Expires=") (bs " Domain=" ++ s)) with (@None str) by reflexivity.
    replace (after (bs " Max-Age=") (bs " Domain=" ++ s)) with (@None str) by reflexivity. rewrite after_app, N. reflexivity. }
  assert (RP : forall v s, v_path v = None -> read_attr v (bs " Path=" ++ s) =
    Some (mk_view (v_name v) (v_value v) (v_expires v) (v_max_age v) (v_domain v) (Some s) (v_secure v) (v_http_only v) (v_same_site v))).
  { intros v s N. unfold read_attr. replace (after (bs " Expires=") (bs " Path=" ++ s)) with (@None str) by reflexivity.
    replace (after (bs " Max-Age=") (bs " Path=" ++ s)) with (@None str) by reflexivity.
    replace (after (bs " Domain=") (bs " Path=" ++ s)) with (@None str) by reflexivity. rewrite after_app, N. reflexivity. }
  destruct ex as [ex|]; cbn [oseg app read_attrs]; [rewrite RE by reflexivity; cbn [v_name v_value v_max_age v_domain v_path v_secure v_http_only v_same_site v_expires]|];
  (destruct (0 <? ma); cbn [app read_attrs negb]; [rewrite RM by reflexivity; rewrite DV; cbn [v_name v_value v_max_age v_domain v_path v_secure v_http_only v_same_site v_expires]|]);
  (destruct dom as [dom|]; cbn [oseg app read_attrs]; [rewrite RD by reflexivity; cbn [v_name v_value v_max_age v_domain v_path v_secure v_http_only v_same_site v_expires]|]);
  (destruct pa as [pa|]; cbn [oseg app read_attrs]; [rewrite RP by reflexivity; cbn [v_name v_value v_max_age v_domain v_path v_secure v_http_only v_same_site v_expires]|]);
  destruct (sec =? 0), (http =? 0), (site =? 1), (site =? 2), (site =? 3); reflexivity.
Qed.
