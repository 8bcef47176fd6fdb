(** Proofs about the callbacks that check access tokens. *)
From Coq Require Import String ZArith Bool List Lia.
From Verif Require Import Base BaseFacts UMapModel UMapSpec SMap SMapCase StrModel NegoSpec StrProofs ClientModel TokenModel TokenSpec.
Import ListNotations.
Open Scope Z_scope.

(** ** Lists searched from the front *)
Lemma find_split : forall {A} (f : A -> bool) l x, find f l = Some x <-> exists a b, l = a ++ x :: b /\ f x = true /\ forall y, In y a -> f y = false.
Proof.
  intros A f l x. split.
  - induction l as [|y l IH]; intros H; [discriminate|]. cbn [find] in H. destruct (f y) eqn:E.
    + injection H as <-. exists [], l. split; [reflexivity|]. split; [exact E|intros z []].
    + destruct (IH H) as (a & b & -> & F & N). exists (y :: a), b. split; [reflexivity|]. split; [exact F|]. intros z [<-|I]; auto.
  - intros (a & b & -> & F & N). induction a as [|y a IH]; cbn [app find]; [now rewrite F|]. rewrite (N y (or_introl eq_refl)). apply IH. intros z I. apply N. now right.
Qed.
Lemma jget_iff : forall j k v, jget (Some j) k = Some v <-> member j k v.
Proof.
  intros j k v. unfold jget, member. split.
  - intros H. destruct j as [| | | | | |l]; try discriminate. destruct (find (fun p => str_eqb (fst p) k) l) as [[k' v']|] eqn:F; [|discriminate]. injection H as <-.
    apply find_split in F as (a & b & -> & E & N). apply str_eqb_eq in E. cbn [fst] in E. subst k'. exists a, b. split; [reflexivity|]. intros I. apply in_map_iff in I as (p & P & I).
    specialize (N p I). cbn beta in N. rewrite P, str_eqb_refl in N. discriminate.
  - intros (a & b & -> & N). assert (F : find (fun p => str_eqb (fst p) k) (a ++ (k, v) :: b) = Some (k, v)); [|now rewrite F].
    apply find_split. exists a, b. split; [reflexivity|]. split; [apply str_eqb_refl|]. intros p I. apply str_eqb_neq. intros E. apply N. rewrite <- E. now apply in_map.
Qed.
Lemma member_fun : forall j k v w, member j k v -> member j k w -> v = w.
Proof. intros j k v w A B. apply jget_iff in A, B. congruence. Qed.
Lemma jint_iff : forall j k n, jint (jget (Some j) k) = n <-> amount j k n.
Proof.
  intros j k n. unfold amount. split.
  - intros <-. destruct (jget (Some j) k) as [v|] eqn:E; [|right; split; [reflexivity|]; intros m M; apply jget_iff in M; congruence]. apply jget_iff in E.
    destruct v; try (right; split; [reflexivity|]; intros m M; pose proof (member_fun _ _ _ _ E M); discriminate). now left.
  - intros [M|[-> N]]; [apply jget_iff in M; now rewrite M|]. destruct (jget (Some j) k) as [[]|] eqn:E; try reflexivity. apply jget_iff in E. now apply N in E.
Qed.
Lemma jstr_iff : forall j k s, jstr (jget (Some j) k) = Some s <-> member j k (JStr s).
Proof.
  intros j k s. rewrite <- jget_iff. destruct (jget (Some j) k) as [[]|]; cbn [jstr]; (split; intros H; try discriminate; try congruence).
Qed.
Lemma jlen_iff : forall j k, (0 <? jlen (jget (Some j) k)) = true <-> nonempty j k.
Proof.
  intros j k. unfold nonempty. split.
  - intros H. destruct (jget (Some j) k) as [[]|] eqn:E; try discriminate. apply jget_iff in E. exists s. split; [exact E|]. intros ->. discriminate.
  - intros (s & M & N). apply jget_iff in M. rewrite M. cbn [jlen]. destruct s as [|x s]; [congruence|]. apply Z.ltb_lt. unfold zlen. cbn [length]. lia.
Qed.

(** ** The request *)
Lemma sval_iff : forall d k v, sval d k = Some v <-> entry_value d k v.
Proof.
  intros d k v. unfold sval, sget, sfind, entry_value. split.
  - intros H. destruct (find (fun p => str_eqb (fst p) k) d) as [[k' v']|] eqn:F; [|discriminate]. cbn [option_map snd] in H. subst v'.
    apply find_split in F as (a & b & -> & E & N). apply str_eqb_eq in E. cbn [fst] in E. subst k'. exists a, b. split; [reflexivity|]. intros I. apply in_map_iff in I as (p & P & I).
    specialize (N p I). cbn beta in N. rewrite P, str_eqb_refl in N. discriminate.
  - intros (a & b & -> & N). assert (F : find (fun p => str_eqb (fst p) k) (a ++ (k, Some v) :: b) = Some (k, Some v)); [|now rewrite F].
    apply find_split. exists a, b. split; [reflexivity|]. split; [apply str_eqb_refl|]. intros p I. apply str_eqb_neq. intros E. apply N. rewrite <- E. now apply in_map.
Qed.
Lemma is_case_iff : forall k p, is_case k p = true <-> same_name (fst p) k.
Proof. intros k p. unfold is_case, same_name, str_caseeqb. apply str_eqb_eq. Qed.
Lemma sval_case_iff : forall d k v, sval_case d k = Some v <-> field_value d k v.
Proof.
  intros d k v. unfold sval_case, field_value. split.
  - intros H. destruct (find (is_case k) d) as [p|] eqn:F; [|discriminate]. injection H as <-. apply find_split in F as (a & b & -> & E & N). exists a, p, b. split; [reflexivity|].
    split; [now apply is_case_iff|]. split; [|unfold otext; reflexivity]. intros q I S. apply is_case_iff in S. rewrite (N q I) in S. discriminate.
  - intros (a & p & b & -> & S & N & ->). assert (F : find (is_case k) (a ++ p :: b) = Some p); [|rewrite F; reflexivity].
    apply find_split. exists a, b. split; [reflexivity|]. split; [now apply is_case_iff|]. intros q I. destruct (is_case k q) eqn:E; [|reflexivity]. apply is_case_iff in E. now apply N in E.
Qed.

Lemma after_prefix_iff : forall p v t, after_prefix p v = Some t <-> v = Some (p ++ t).
Proof.
  intros p v t. unfold after_prefix. destruct v as [s|]; [|split; discriminate]. assert (G : forall p s, prefixb p s = true <-> exists t, s = p ++ t).
  { clear. induction p as [|c p IH]; intros s; [split; [intros _; now exists s|reflexivity]|]. destruct s as [|d s]; [split; [discriminate|intros (u & H); discriminate]|]. cbn [prefixb]. rewrite andb_true_iff, Z.eqb_eq, IH. split.
    - intros [-> (u & ->)]. now exists u.
    - intros (u & H). cbn [app] in H. injection H as -> ->. split; [reflexivity|now exists u]. }
  assert (K : forall (p t : list Z), skipn (length p) (p ++ t) = t) by (intros x; induction x as [|y x IHx]; intros u; cbn [length app skipn]; auto).
  destruct (prefixb p s) eqn:E.
  - apply G in E as (u & ->). rewrite K. split; [intros H; injection H as ->; reflexivity|]. intros H. injection H as H. now apply app_inv_head in H as ->.
  - split; [discriminate|]. intros H. injection H as ->. assert (X : prefixb p (p ++ t) = true) by (apply G; now exists t). congruence.
Qed.
Definition request_is (q : trequest) (dh dp du : smap) : Prop := repr (q_headers q) dh /\ repr (q_post q) dp /\ repr (q_url q) du.
Lemma token_value_eq : forall exact method q dh dp du, request_is q dh dp du -> exists o, token_value exact method q = Ret o /\ forall tok, o = Some tok <-> presented exact method dh dp du tok.
Proof.
  intros exact method q dh dp du (RH & RP & RU). unfold token_value, presented. destruct (Z.eqb_spec method 0) as [->|N0].
  { rewrite (repr_get_case _ _ _ RH). cbn [bind]. eexists. split; [reflexivity|]. intros tok. rewrite after_prefix_iff, sval_case_iff. split; [auto|]. intros [[_ H]|[[H _]|[H _]]]; [exact H|discriminate|discriminate]. }
  destruct (Z.eqb_spec method 1) as [->|N1].
  { assert (T : exists t, (if exact then get_str (q_headers q) (bs "Content-Type") else get_case_str (q_headers q) (Some (bs "Content-Type"))) = Ret t /\
      forall x, t = Some x <-> (if exact then entry_value dh (bs "Content-Type") x else field_value dh (bs "Content-Type") x)).
    { destruct exact; eexists; (split; [first [apply (repr_get _ _ _ RH)|apply (repr_get_case _ _ _ RH)]|]); intros x; [apply sval_iff|apply sval_case_iff]. }
    destruct T as (t & -> & T). cbn [bind]. rewrite (repr_get _ _ _ RP).
    assert (F : match t with Some x => containsb x (bs "application/x-www-form-urlencoded") | None => false end = true <-> exists x, (if exact then entry_value dh (bs "Content-Type") x else field_value dh (bs "Content-Type") x) /\ is_form x).
    { destruct t as [x|].
      - rewrite containsb_true. unfold is_form. split; [intros H; exists x; split; [now apply T|exact H]|]. intros (y & Y & H). apply T in Y. injection Y as <-. exact H.
      - split; [discriminate|]. intros (y & Y & _). apply T in Y. discriminate. }
    destruct (match t with Some x => containsb x (bs "application/x-www-form-urlencoded") | None => false end); (eexists; split; [reflexivity|]); intros tok.
    - rewrite sval_iff. split; [intros H; right; left; split; [reflexivity|]; split; [now apply F|exact H]|]. intros [[H _]|[(_ & _ & H)|[H _]]]; [discriminate|exact H|discriminate].
    - split; [discriminate|]. intros [[H _]|[(_ & H & _)|[H _]]]; [discriminate|apply F in H; discriminate|discriminate]. }
  destruct (Z.eqb_spec method 2) as [->|N2].
  { rewrite (repr_get _ _ _ RU). eexists. split; [reflexivity|]. intros tok. rewrite sval_iff. split; [auto|]. intros [[H _]|[[H _]|[_ H]]]; [discriminate|discriminate|exact H]. }
  eexists. split; [reflexivity|]. intros tok. split; [discriminate|]. intros [[H _]|[[H _]|[H _]]]; congruence.
Qed.

(** ** The scopes *)
Lemma piece_iff : forall s w, piece s w <-> In w (split_string 32 s).
Proof.
  intros s w. unfold piece. split; [intros (l & H & I); apply items_iff in H; now subst l|]. intros I. exists (split_string 32 s). split; [now apply items_iff|exact I].
Qed.
Lemma common_in : forall e t w, In w (TokenModel.common e t) <-> piece e w /\ piece t w.
Proof.
  intros e t w. unfold TokenModel.common. rewrite filter_In, !piece_iff, existsb_exists. split.
  - intros [A (x & I & E)]. apply str_eqb_eq in E. subst x. auto.
  - intros [A B]. split; [exact A|]. exists w. split; [exact B|apply str_eqb_refl].
Qed.
Definition stated (j : json) (k : str) : Prop := exists s, member j k (JStr s).
(** the scope that is kept *)
Definition agreed (scopeless : json -> option json) (scope : option str) (j : json) (x : json) : Prop :=
  match scope with
  | Some (c :: s) => exists t l, member j (bs "scope") (JStr t) /\ x = JArr (map JStr l) /\ l <> [] /\ (forall w, In w l <-> piece (c :: s) w /\ piece t w)
  | _ => scopeless j = Some x
  end.
Lemma check_scope_good : forall writes sl scope j x, check_scope writes sl scope j = Ret (Good x) -> exists y, x = Some y /\ agreed sl scope j y.
Proof.
  intros writes sl scope j x H. unfold check_scope in H. unfold agreed.
  destruct (jstr (jget (Some j) (bs "scope"))) as [t|] eqn:T.
  - injection H as H. apply jstr_iff in T. destruct scope as [[|c s]|].
    + destruct (sl j) as [y|]; [|discriminate]. injection H as <-. eauto.
    + destruct (TokenModel.common (c :: s) t) as [|w l] eqn:C; [discriminate|]. injection H as <-. eexists. split; [reflexivity|]. exists t, (w :: l). split; [exact T|]. split; [reflexivity|]. split; [discriminate|].
      intros v. rewrite <- C. apply common_in.
    + destruct (sl j) as [y|]; [|discriminate]. injection H as <-. eauto.
  - destruct writes; [|discriminate]. injection H as H. destruct scope as [[|c s]|]; [|discriminate|]; (destruct (sl j) as [y|]; [|discriminate]); injection H as <-; eauto.
Qed.
Lemma check_scope_total : forall writes sl scope j, writes = true \/ stated j (bs "scope") -> exists r, check_scope writes sl scope j = Ret r.
Proof.
  intros writes sl scope j H. unfold check_scope. destruct (jstr (jget (Some j) (bs "scope"))) as [t|] eqn:T; [eauto|]. destruct writes; [eauto|]. destruct H as [H|(s & H)]; [discriminate|]. apply jstr_iff in H. congruence.
Qed.
Lemma scoped_good : forall writes sl scope j, (forall j, sl j <> None) -> (exists r, check_scope writes sl scope j = Ret r) -> scoped piece scope j -> exists x, check_scope writes sl scope j = Ret (Good x).
Proof.
  intros writes sl scope j NS (r & E) S. unfold check_scope in *. destruct scope as [[|c s]|].
  - pose proof (NS j). destruct (sl j) as [y|]; [|congruence]. destruct (jstr (jget (Some j) (bs "scope"))); [eauto|]. destruct writes; [eauto|discriminate].
  - destruct S as (t & w & M & P & Q). apply jstr_iff in M. rewrite M in *. destruct (TokenModel.common (c :: s) t) eqn:C; [|eauto]. exfalso. assert (I : In w (TokenModel.common (c :: s) t)) by (apply common_in; auto). rewrite C in I. destruct I.
  - pose proof (NS j). destruct (sl j) as [y|]; [|congruence]. destruct (jstr (jget (Some j) (bs "scope"))); [eauto|]. destruct writes; [eauto|discriminate].
Qed.
Lemma agreed_scoped : forall sl scope j x, agreed sl scope j x -> scoped piece scope j.
Proof.
  intros sl scope j x H. unfold agreed, scoped in *. destruct scope as [[|c s]|]; auto. destruct H as (t & l & M & _ & NE & P). destruct l as [|w l]; [congruence|]. exists t, w. destruct (proj1 (P w) (or_introl eq_refl)). auto.
Qed.
Lemma scoped_tidy : forall scope j, match scope with Some s => tidy s | None => True end -> scoped piece scope j -> scoped word scope j.
Proof.
  intros scope j T H. unfold scoped in *. destruct scope as [[|c s]|]; auto. destruct H as (t & w & M & P & Q). exists t, w. assert (w <> []) by (intros ->; now apply T). unfold word. auto.
Qed.

(** ** Validity *)
Lemma add_int_inv : forall a b c, add_int a b = Ret c -> c = a + b.
Proof. intros a b c H. unfold add_int in H. destruct (_ && _); [now injection H as <-|discriminate]. Qed.
Lemma subject_iff : forall c j user client, (match jstr (jget (Some j) (bs "type")) with
         | Some t =>
             if t_access c && str_eqb (bs "access_token") t && (0 <? jlen (jget (Some j) user)) then true
             else t_client c && str_eqb (bs "client_token") t && (0 <? jlen (jget (Some j) client))
         | None => false
         end = true) <-> subject c j user client.
Proof.
  intros c j user client. unfold subject. rewrite <- !jlen_iff, <- !jstr_iff. destruct (jstr (jget (Some j) (bs "type"))) as [t|]; [|split; [discriminate|intros [(_ & H & _)|(_ & H & _)]; discriminate]].
  destruct (t_access c && str_eqb (bs "access_token") t && (0 <? jlen (jget (Some j) user))) eqn:A.
  - split; [|reflexivity]. intros _. apply andb_true_iff in A as [A1 A2]. apply andb_true_iff in A1 as [A1 A3]. apply str_eqb_eq in A3. subst t. auto.
  - split.
    + intros B. apply andb_true_iff in B as [B1 B2]. apply andb_true_iff in B1 as [B1 B3]. apply str_eqb_eq in B3. subst t. auto.
    + intros [(B1 & B2 & B3)|(B1 & B2 & B3)]; injection B2 as ->; rewrite B1, B3 in *; [discriminate|reflexivity].
Qed.
Lemma glewlwyd_validity_iff : forall now c j v, glewlwyd_validity now c j = Ret v -> v = true <-> (exists i e, amount j (bs "iat") i /\ amount j (bs "expires_in") e /\ now < i + e) /\ subject c j (bs "username") (bs "client_id").
Proof.
  intros now c j v H. unfold glewlwyd_validity in H. cbv zeta in H. destruct (add_int _ _) as [e|] eqn:A; [|discriminate]. cbn [bind] in H. injection H as <-. apply add_int_inv in A. rewrite <- subject_iff.
  assert (T : (now <? e) = true <-> exists i x, amount j (bs "iat") i /\ amount j (bs "expires_in") x /\ now < i + x).
  { rewrite Z.ltb_lt. split.
    - intros L. eexists _, _. split; [now apply jint_iff|]. split; [now apply jint_iff|]. lia.
    - intros (i & x & I & X & L). apply jint_iff in I, X. lia. }
  rewrite <- T. destruct (now <? e); [tauto|]. split; [discriminate|]. intros [X _]. discriminate.
Qed.
Lemma Ret_inj : forall {A} (a b : A), Ret a = Ret b -> a = b.
Proof. intros A a b H. congruence. Qed.
Lemma oidc_validity_iff : forall now c j v, oidc_validity now c j = Ret v -> v = true <-> (exists e, amount j (bs "exp") e /\ now < e) /\ subject c j (bs "sub") (bs "aud").
Proof.
  intros now c j v H. unfold oidc_validity in H. cbv zeta in H. apply Ret_inj in H. subst v. rewrite <- subject_iff.
  assert (T : (now <? jint (jget (Some j) (bs "exp"))) = true <-> exists e, amount j (bs "exp") e /\ now < e).
  { rewrite Z.ltb_lt. split; [intros L; eexists; split; [now apply jint_iff|exact L]|]. intros (e & E & L). apply jint_iff in E. lia. }
  rewrite <- T. destruct (now <? jint (jget (Some j) (bs "exp"))); [split; [intros X; split; [reflexivity|exact X]|intros [_ X]; exact X]|]. split; [discriminate|]. intros [X _]. discriminate.
Qed.

(** ** The callbacks *)
Lemma refuse_inv : forall realm r e ret r', refuse realm r e = Ret (ret, r') -> ret = 3 /\ p_shared r' = p_shared r.
Proof. intros realm r e ret r' H. unfold refuse in H. destruct (u_map_put _ _ _) as [x|]; [|discriminate]. cbn [bind] in H. injection H as <- <-. auto. Qed.
Lemma refuse_eq : forall realm r e d, repr (p_headers r) d -> ovalue_ok (Some (complaint realm e)) -> exists r', refuse realm r e = Ret (3, r') /\ repr (p_headers r') (sput (bs "WWW-Authenticate") (Some (complaint realm e)) d) /\ p_shared r' = p_shared r.
Proof. intros realm r e d R V. destruct (repr_put _ _ (bs "WWW-Authenticate") _ R ltac:(discriminate) V) as (m & E & R2). unfold refuse. rewrite E. cbn [bind]. eexists. split; [reflexivity|]. auto. Qed.

Definition kept_scope (sl : json -> option json) (scope : option str) (j : json) : Prop := match scope with Some (_ :: _) => True | _ => sl j <> None end.
Lemma check_scope_iff : forall writes sl scope j s, check_scope writes sl scope j = Ret s -> (exists y, s = Good (Some y)) <-> scoped piece scope j /\ kept_scope sl scope j.
Proof.
  intros writes sl scope j s H. unfold check_scope in H. unfold scoped, kept_scope. destruct (jstr (jget (Some j) (bs "scope"))) as [t|] eqn:T.
  - apply Ret_inj in H. subst s. apply jstr_iff in T. destruct scope as [[|c s]|].
    + destruct (sl j) as [y|]; [split; [intros _; split; [exact I|discriminate]|eauto]|]. split; [intros (y & Y); discriminate|intros [_ X]; congruence].
    + destruct (TokenModel.common (c :: s) t) as [|w l] eqn:C.
      * split; [intros (y & Y); discriminate|]. intros [(t' & w & M & P & Q) _]. pose proof (member_fun _ _ _ _ T M) as X. injection X as <-. assert (IN : In w (TokenModel.common (c :: s) t)) by (apply common_in; auto). rewrite C in IN. destruct IN.
      * split; [|eauto]. intros _. split; [|exact I]. assert (IN : In w (TokenModel.common (c :: s) t)) by (rewrite C; now left). apply common_in in IN as [A B]. eauto.
    + destruct (sl j) as [y|]; [split; [intros _; split; [exact I|discriminate]|eauto]|]. split; [intros (y & Y); discriminate|intros [_ X]; congruence].
  - destruct writes; [|discriminate]. apply Ret_inj in H. subst s. destruct scope as [[|c s]|].
    + destruct (sl j) as [y|]; [split; [intros _; split; [exact I|discriminate]|eauto]|]. split; [intros (y & Y); discriminate|intros [_ X]; congruence].
    + split; [intros (y & Y); discriminate|]. intros [(t & w & M & _) _]. apply jstr_iff in M. congruence.
    + destruct (sl j) as [y|]; [split; [intros _; split; [exact I|discriminate]|eauto]|]. split; [intros (y & Y); discriminate|intros [_ X]; congruence].
Qed.

Section Check.
Variable verify : str -> option (Z * option json).
Variable writes : bool.
Variables (exact clears : bool) (validity : tconfig -> json -> outcome bool) (sl : json -> option json) (shared : json -> option json -> option json).
Variable VS : tconfig -> json -> Prop.
Hypothesis validity_iff : forall c j v, validity c j = Ret v -> v = true <-> VS c j.
Variable named : json -> Prop.
Hypothesis shared_iff : forall j y, (exists x, shared j (Some y) = Some x) <-> named j.

(** everything that is asked of a token *)
Definition fine (c : tconfig) (dh dp du : smap) (j : json) : Prop :=
  (exists tok, presented exact (t_method c) dh dp du tok /\ verify tok = Some (t_alg c, Some j)) /\ VS c j /\ scoped piece (t_scope c) j /\ kept_scope sl (t_scope c) j.
Lemma presented_fun : forall c q dh dp du a b, request_is q dh dp du -> presented exact (t_method c) dh dp du a -> presented exact (t_method c) dh dp du b -> a = b.
Proof. intros c q dh dp du a b RQ A B. destruct (token_value_eq exact (t_method c) q dh dp du RQ) as (o & _ & O). apply O in A, B. congruence. Qed.

Lemma check_token_iff : forall c q r dh dp du ret r', request_is q dh dp du -> check_token verify writes exact clears validity sl shared (Some c) q r = Ret (ret, r') ->
  (ret = 0 <-> exists j, fine c dh dp du j /\ named j) /\
  (ret = 4 <-> exists j, fine c dh dp du j /\ ~ named j) /\ (ret = 0 \/ ret = 3 \/ ret = 4) /\
  (ret = 0 -> p_headers r' = p_headers r /\ exists j y, fine c dh dp du j /\ agreed sl (t_scope c) j y /\ p_shared r' = shared j (Some y)) /\
  (ret = 3 -> p_shared r' = p_shared r).
Proof.
  intros c q r dh dp du ret r' RQ H. unfold check_token in H. destruct (token_value_eq exact (t_method c) q dh dp du RQ) as (o & E & O). rewrite E in H. cbn [bind] in H.
  assert (NO : (forall j, ~ fine c dh dp du j) -> ret = 3 -> p_shared r' = p_shared r -> (ret = 0 <-> exists j, fine c dh dp du j /\ named j) /\
    (ret = 4 <-> exists j, fine c dh dp du j /\ ~ named j) /\ (ret = 0 \/ ret = 3 \/ ret = 4) /\
    (ret = 0 -> p_headers r' = p_headers r /\ exists j y, fine c dh dp du j /\ agreed sl (t_scope c) j y /\ p_shared r' = shared j (Some y)) /\ (ret = 3 -> p_shared r' = p_shared r)).
  { intros N -> S. split; [split; [discriminate|intros (j & F & _); now apply N in F]|]. split; [split; [discriminate|intros (j & F & _); now apply N in F]|]. split; [auto|]. split; [discriminate|auto]. }
  assert (ONE : forall tok, o = Some tok -> forall j, fine c dh dp du j -> verify tok = Some (t_alg c, Some j)).
  { intros tok T j ((t2 & P & V) & _). apply O in P. congruence. }
  destruct o as [tok|].
  2:{ apply refuse_inv in H as [-> S]. apply NO; auto. intros j ((t2 & P & _) & _). apply O in P. discriminate. }
  specialize (ONE tok eq_refl). assert (PR : presented exact (t_method c) dh dp du tok) by now apply O.
  destruct (verify tok) as [[alg [j|]]|] eqn:V.
  2:{ apply refuse_inv in H as [-> S]. apply NO; auto. intros j F. apply ONE in F. discriminate. }
  2:{ apply refuse_inv in H as [-> S]. apply NO; auto. intros j F. apply ONE in F. discriminate. }
  destruct (Z.eqb_spec alg (t_alg c)) as [->|NA].
  2:{ apply refuse_inv in H as [-> S]. apply NO; auto. intros j' F. apply ONE in F. congruence. }
  destruct (validity c j) as [v|] eqn:VA; [|discriminate]. cbn [bind] in H. pose proof (validity_iff c j v VA) as VI.
  assert (SAME : forall j', fine c dh dp du j' -> j' = j) by (intros j' F; apply ONE in F; congruence).
  destruct v.
  2:{ apply refuse_inv in H as [-> S]. apply NO; auto. intros j' F. pose proof (SAME j' F) as ->. destruct F as (_ & F & _). apply VI in F. discriminate. }
  destruct (check_scope writes sl (t_scope c) j) as [s|] eqn:CS; [|discriminate]. cbn [bind] in H. pose proof (check_scope_iff _ _ _ _ _ CS) as SI.
  assert (BAD : (forall y, s <> Good (Some y)) -> forall j', ~ fine c dh dp du j').
  { intros B j' F. pose proof (SAME j' F) as ->. destruct F as (_ & _ & F). apply SI in F as (y & F). now apply B in F. }
  destruct s as [g| |].
  2:{ apply refuse_inv in H as [-> S]. apply NO; auto. apply BAD. discriminate. }
  2:{ apply refuse_inv in H as [-> S]. apply NO; auto. apply BAD. discriminate. }
  destruct (check_scope_good _ _ _ _ _ CS) as (y & -> & AG). assert (F : fine c dh dp du j) by (split; [exists tok; auto|split; [now apply VI|now apply SI; eauto]]).
  destruct (shared j (Some y)) as [x|] eqn:SH.
  - injection H as <- <-. assert (N : named j) by (apply (shared_iff j y); eauto). split; [split; [eauto|reflexivity]|]. split; [split; [discriminate|]|].
    + intros (j' & F' & N'). pose proof (SAME j' F') as ->. contradiction.
    + split; [auto|]. split; [|discriminate]. intros _. split; [reflexivity|]. exists j, y. cbn [p_shared]. auto.
  - injection H as <- <-. assert (N : ~ named j) by (intros X; apply (shared_iff j y) in X as (x & X); congruence). split; [split; [discriminate|]|].
    + intros (j' & F' & N'). pose proof (SAME j' F') as ->. contradiction.
    + split; [split; [eauto|reflexivity]|]. split; [auto|]. split; discriminate.
Qed.
(** the callback gives an answer *)
Lemma check_token_total : forall c q r dh dp du d, request_is q dh dp du -> repr (p_headers r) d -> (forall e, In e [e_scope; e_internal; e_invalid; e_missing] -> ovalue_ok (Some (complaint (t_realm c) e))) ->
  (forall tok j, presented exact (t_method c) dh dp du tok -> verify tok = Some (t_alg c, Some j) -> (exists v, validity c j = Ret v) /\ (writes = true \/ stated j (bs "scope"))) ->
  exists ret r', check_token verify writes exact clears validity sl shared (Some c) q r = Ret (ret, r') /\
    (ret = 3 -> exists e, In e [e_scope; e_internal; e_invalid; e_missing] /\ repr (p_headers r') (sput (bs "WWW-Authenticate") (Some (complaint (t_realm c) e)) d)).
Proof.
  intros c q r dh dp du d RQ RH RE T. unfold check_token. destruct (token_value_eq exact (t_method c) q dh dp du RQ) as (o & E & O). rewrite E. cbn [bind].
  assert (RF : forall e, In e [e_scope; e_internal; e_invalid; e_missing] -> exists ret r', refuse (t_realm c) r e = Ret (ret, r') /\
    (ret = 3 -> exists e, In e [e_scope; e_internal; e_invalid; e_missing] /\ repr (p_headers r') (sput (bs "WWW-Authenticate") (Some (complaint (t_realm c) e)) d))).
  { intros e IN. destruct (refuse_eq (t_realm c) r e d RH (RE e IN)) as (r' & E' & R' & _). exists 3, r'. split; [exact E'|]. eauto. }
  destruct o as [tok|]; [|apply RF; cbn; auto]. assert (PR : presented exact (t_method c) dh dp du tok) by now apply O. specialize (T tok).
  destruct (verify tok) as [[alg [j|]]|]; [|apply RF; cbn; auto|apply RF; cbn; auto]. destruct (Z.eqb_spec alg (t_alg c)) as [->|NA]; [|apply RF; cbn; auto].
  destruct (T j PR eq_refl) as ((v & EV) & W). rewrite EV. cbn [bind]. destruct v; [|apply RF; cbn; auto].
  destruct (check_scope_total writes sl (t_scope c) j W) as (s & ES). rewrite ES. cbn [bind]. destruct s as [g| |]; [|apply RF; cbn; auto|apply RF; cbn; auto].
  destruct (shared j g); eexists _, _; (split; [reflexivity|discriminate]).
Qed.
(** which complaint goes with which reason *)
Definition complains (c : tconfig) (q : trequest) (r : tresponse) (d : smap) (e : str) : Prop :=
  exists r', check_token verify writes exact clears validity sl shared (Some c) q r = Ret (3, r') /\ repr (p_headers r') (sput (bs "WWW-Authenticate") (Some (complaint (t_realm c) e)) d).
Lemma check_token_reason : forall c q r dh dp du d, request_is q dh dp du -> repr (p_headers r) d -> (forall e, In e [e_scope; e_internal; e_invalid; e_missing] -> ovalue_ok (Some (complaint (t_realm c) e))) ->
  ((forall tok, ~ presented exact (t_method c) dh dp du tok) -> complains c q r d e_missing) /\
  (forall tok, presented exact (t_method c) dh dp du tok -> (forall j, verify tok <> Some (t_alg c, Some j)) -> complains c q r d e_invalid) /\
  (forall tok j v, presented exact (t_method c) dh dp du tok -> verify tok = Some (t_alg c, Some j) -> validity c j = Ret v ->
     (~ VS c j -> complains c q r d e_internal) /\
     (VS c j -> forall s t, t_scope c = Some s -> s <> [] -> member j (bs "scope") (JStr t) -> (forall w, ~ (piece s w /\ piece t w)) -> complains c q r d e_scope)).
Proof.
  intros c q r dh dp du d RQ RH RE. unfold complains, check_token. destruct (token_value_eq exact (t_method c) q dh dp du RQ) as (o & E & O). rewrite E. cbn [bind].
  assert (RF : forall e, In e [e_scope; e_internal; e_invalid; e_missing] -> exists r', refuse (t_realm c) r e = Ret (3, r') /\ repr (p_headers r') (sput (bs "WWW-Authenticate") (Some (complaint (t_realm c) e)) d)).
  { intros e IN. destruct (refuse_eq (t_realm c) r e d RH (RE e IN)) as (r' & E' & R' & _). eauto. }
  split; [|split].
  - intros N. destruct o as [tok|]; [exfalso; apply (N tok); now apply O|apply RF; cbn; auto].
  - intros tok P V. apply O in P. subst o. destruct (verify tok) as [[alg [j|]]|] eqn:VE; [|apply RF; cbn; auto|apply RF; cbn; auto].
    destruct (Z.eqb_spec alg (t_alg c)) as [->|NA]; [exfalso; now apply (V j)|apply RF; cbn; auto].
  - intros tok j v P V VA. apply O in P. subst o. rewrite V, Z.eqb_refl, VA. cbn [bind]. pose proof (validity_iff c j v VA) as VI. split.
    + intros NV. destruct v; [exfalso; apply NV; now apply VI|apply RF; cbn; auto].
    + intros YV s t TS NE M NP. destruct v; [|apply VI in YV; discriminate]. unfold check_scope. apply jstr_iff in M. rewrite M, TS. destruct s as [|x s]; [congruence|].
      destruct (TokenModel.common (x :: s) t) as [|w l] eqn:C.
      * cbn [bind]. apply RF; cbn; auto.
      * exfalso. apply (NP w). apply common_in. rewrite C. now left.
Qed.
End Check.
