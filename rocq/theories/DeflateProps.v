(** C45, C60, C61: permessage-deflate. *)
From Coq Require Import String ZArith Bool List Lia.
From Verif Require Import Base BaseFacts Dec UMapModel UMapProofs StrModel NegoModel NegoSpec StrProofs DeflateModel DeflateSpec.
Import ListNotations.
Open Scope Z_scope.

(** ** C45 *)
Lemma starts_iff : forall p s, starts p s = true <-> exists r, s = p ++ r.
Proof. intros. unfold starts. apply prefixb_true. Qed.

Definition state_of (server : bool) (ps : list param) : dstate -> Prop := fun s =>
  means ps (d_ctx s) /\ (d_schg s = true <-> exists n, In (ServerBits n) ps) /\ (d_cchg s = true <-> exists n, In (ClientBits n) ps) /\
  c_dfull (d_ctx s) = (if server then c_snct (d_ctx s) else c_cnct (d_ctx s)) /\ c_ifull (d_ctx s) = (if server then c_cnct (d_ctx s) else c_snct (d_ctx s)) /\
  9 <= c_sbits (d_ctx s) <= 15 /\ 9 <= c_cbits (d_ctx s) <= 15.

(** case analysis on a lenient parameter, the text kept as an equation *)
Lemma lenient_cases : forall t p (P : Prop), lenient t p ->
  (t = bs "server_no_context_takeover" -> p = ServerNoContext -> P) ->
  (t = bs "client_no_context_takeover" -> p = ClientNoContext -> P) ->
  (forall more name v, t = bs "server_max_window_bits" ++ more -> items 61 t [name; v] -> 8 <= strtol v <= 15 -> p = ServerBits (strtol v) -> P) ->
  (forall more name v rest u, t = bs "client_max_window_bits" ++ more -> items 61 t (name :: v :: rest) -> trimmed v u -> u <> [] -> 8 <= strtol u <= 15 -> p = ClientBits (strtol u) -> P) ->
  (forall more name rest, t = bs "client_max_window_bits" ++ more -> items 61 t (name :: rest) -> (forall v r, rest = v :: r -> trimmed v []) -> p = ClientBits 15 -> P) ->
  (t = [] -> p = Nothing -> P) -> P.
Proof. intros t p P L A B C D E F. destruct L; eauto. Qed.

Lemma widen_range : forall n, 8 <= n <= 15 -> 9 <= widen n <= 15.
Proof. intros n H. unfold widen. destruct (n =? 8) eqn:E; [lia|]. apply Z.eqb_neq in E. lia. Qed.

(** a parameter added at the end *)
Lemma add_param : forall server ps s, state_of server ps s ->
  forall p s', match p with
    | ServerNoContext => d_ctx s' = mk_dctx true (c_cnct (d_ctx s)) (c_sbits (d_ctx s)) (c_cbits (d_ctx s)) (if server then true else c_dfull (d_ctx s)) (if server then c_ifull (d_ctx s) else true) /\ d_schg s' = d_schg s /\ d_cchg s' = d_cchg s
    | ClientNoContext => d_ctx s' = mk_dctx (c_snct (d_ctx s)) true (c_sbits (d_ctx s)) (c_cbits (d_ctx s)) (if server then c_dfull (d_ctx s) else true) (if server then true else c_ifull (d_ctx s)) /\ d_schg s' = d_schg s /\ d_cchg s' = d_cchg s
    | ServerBits n => 8 <= n <= 15 /\ d_ctx s' = mk_dctx (c_snct (d_ctx s)) (c_cnct (d_ctx s)) (widen n) (c_cbits (d_ctx s)) (c_dfull (d_ctx s)) (c_ifull (d_ctx s)) /\ d_schg s' = true /\ d_cchg s' = d_cchg s
    | ClientBits n => 8 <= n <= 15 /\ d_ctx s' = mk_dctx (c_snct (d_ctx s)) (c_cnct (d_ctx s)) (c_sbits (d_ctx s)) (widen n) (c_dfull (d_ctx s)) (c_ifull (d_ctx s)) /\ d_schg s' = d_schg s /\ d_cchg s' = true
    | Nothing => s' = s
    end -> state_of server (ps ++ [p]) s'.
Proof.
  intros server ps s (M & SC & CC & DF & IF & SB & CB) p s' H. destruct M as [M1 M2 M3 M4].
  assert (IN : forall q, In q (ps ++ [p]) <-> In q ps \/ p = q) by (intros q; rewrite in_app_iff; cbn [In]; tauto).
  assert (KS : (forall n, p <> ServerBits n) -> forall n, last_server ps n -> last_server (ps ++ [p]) n).
  { intros NP n [(a & m & b & -> & E & NB)|[E NB]].
    - left. exists a, m, (b ++ [p]). rewrite <- app_assoc. split; [reflexivity|]. split; [exact E|]. intros k I. apply in_app_iff in I as [I|[I|[]]]; [now apply NB in I|now apply NP in I].
    - right. split; [exact E|]. intros k I. apply IN in I as [I|I]; [now apply NB in I|now apply NP in I]. }
  assert (KC : (forall n, p <> ClientBits n) -> forall n, last_client ps n -> last_client (ps ++ [p]) n).
  { intros NP n [(a & m & b & -> & E & NB)|[E NB]].
    - left. exists a, m, (b ++ [p]). rewrite <- app_assoc. split; [reflexivity|]. split; [exact E|]. intros k I. apply in_app_iff in I as [I|[I|[]]]; [now apply NB in I|now apply NP in I].
    - right. split; [exact E|]. intros k I. apply IN in I as [I|I]; [now apply NB in I|now apply NP in I]. }
  assert (XS : (exists n, In (ServerBits n) (ps ++ [p])) <-> (exists n, In (ServerBits n) ps) \/ exists n, p = ServerBits n).
  { split; [intros (n & I); apply IN in I as [I|I]; eauto|intros [(n & I)|(n & I)]; exists n; apply IN; auto]. }
  assert (XC : (exists n, In (ClientBits n) (ps ++ [p])) <-> (exists n, In (ClientBits n) ps) \/ exists n, p = ClientBits n).
  { split; [intros (n & I); apply IN in I as [I|I]; eauto|intros [(n & I)|(n & I)]; exists n; apply IN; auto]. }
  destruct p as [| |n|n|]; unfold state_of.
  - destruct H as (-> & -> & ->). cbn [c_snct c_cnct c_sbits c_cbits c_dfull c_ifull].
    split; [constructor; cbn [c_snct c_cnct c_sbits c_cbits]|].
    + split; auto. intros _. apply IN. auto.
    + rewrite M2, IN. split; [tauto|]. intros [I|I]; [auto|discriminate].
    + apply KS; [discriminate|exact M3].
    + apply KC; [discriminate|exact M4].
    + split; [rewrite SC, XS; split; [tauto|intros [I|(n & I)]; [auto|discriminate]]|].
      split; [rewrite CC, XC; split; [tauto|intros [I|(n & I)]; [auto|discriminate]]|]. destruct server; auto.
  - destruct H as (-> & -> & ->). cbn [c_snct c_cnct c_sbits c_cbits c_dfull c_ifull].
    split; [constructor; cbn [c_snct c_cnct c_sbits c_cbits]|].
    + rewrite M1, IN. split; [tauto|]. intros [I|I]; [auto|discriminate].
    + split; auto. intros _. apply IN. auto.
    + apply KS; [discriminate|exact M3].
    + apply KC; [discriminate|exact M4].
    + split; [rewrite SC, XS; split; [tauto|intros [I|(n & I)]; [auto|discriminate]]|].
      split; [rewrite CC, XC; split; [tauto|intros [I|(n & I)]; [auto|discriminate]]|]. destruct server; auto.
  - destruct H as (R & -> & -> & ->). cbn [c_snct c_cnct c_sbits c_cbits c_dfull c_ifull].
    split; [constructor; cbn [c_snct c_cnct c_sbits c_cbits]|].
    + rewrite M1, IN. split; [tauto|]. intros [I|I]; [auto|discriminate].
    + rewrite M2, IN. split; [tauto|]. intros [I|I]; [auto|discriminate].
    + left. exists ps, n, []. split; [reflexivity|]. split; [reflexivity|]. intros k [].
    + apply KC; [discriminate|exact M4].
    + split; [rewrite XS; split; [eauto|auto]|]. split; [rewrite CC, XC; split; [tauto|intros [I|(k & I)]; [auto|discriminate]]|].
      split; [exact DF|]. split; [exact IF|]. split; [now apply widen_range|exact CB].
  - destruct H as (R & -> & -> & ->). cbn [c_snct c_cnct c_sbits c_cbits c_dfull c_ifull].
    split; [constructor; cbn [c_snct c_cnct c_sbits c_cbits]|].
    + rewrite M1, IN. split; [tauto|]. intros [I|I]; [auto|discriminate].
    + rewrite M2, IN. split; [tauto|]. intros [I|I]; [auto|discriminate].
    + apply KS; [discriminate|exact M3].
    + left. exists ps, n, []. split; [reflexivity|]. split; [reflexivity|]. intros k [].
    + split; [rewrite SC, XS; split; [tauto|intros [I|(k & I)]; [auto|discriminate]]|]. split; [rewrite XC; split; [eauto|auto]|].
      split; [exact DF|]. split; [exact IF|]. split; [exact SB|now apply widen_range].
  - subst s'. split; [constructor|].
    + rewrite M1, IN. split; [tauto|]. intros [I|I]; [auto|discriminate].
    + rewrite M2, IN. split; [tauto|]. intros [I|I]; [auto|discriminate].
    + apply KS; [discriminate|exact M3].
    + apply KC; [discriminate|exact M4].
    + split; [rewrite SC, XS; split; [tauto|intros [I|(k & I)]; [auto|discriminate]]|].
      split; [rewrite CC, XC; split; [tauto|intros [I|(k & I)]; [auto|discriminate]]|]. auto.
Qed.

(** one step: either the text is a parameter and the state follows, or the result is an error *)
Lemma param_step : forall server s x, d_ret s = U_OK -> let s' := one_param server s x in
  (d_ret s' = U_OK /\ exists p, lenient (trim x) p /\ forall ps, state_of server ps s -> state_of server (ps ++ [p]) s') \/
  (d_ret s' = U_ERROR /\ forall p, ~ lenient (trim x) p).
Proof.
  intros server s x OK s'. subst s'. unfold one_param. cbv zeta.
  destruct (str_eqb (bs "server_no_context_takeover") (trim x)) eqn:E1.
  { apply str_eqb_eq in E1. left. split; [exact OK|]. exists ServerNoContext. rewrite <- E1. split; [constructor|]. intros ps H. eapply add_param; [exact H|]. repeat split. }
  destruct (str_eqb (bs "client_no_context_takeover") (trim x)) eqn:E2.
  { apply str_eqb_eq in E2. left. split; [exact OK|]. exists ClientNoContext. rewrite <- E2. split; [constructor|]. intros ps H. eapply add_param; [exact H|]. repeat split. }
  assert (N1 : trim x <> bs "server_no_context_takeover") by (intros Q; rewrite Q in E1; vm_compute in E1; discriminate).
  assert (N2 : trim x <> bs "client_no_context_takeover") by (intros Q; rewrite Q in E2; vm_compute in E2; discriminate).
  clear E1 E2. remember (trim x) as t eqn:ET. clear ET.
  assert (DIFF : forall a b, bs "server_max_window_bits" ++ a <> bs "client_max_window_bits" ++ b) by (intros a b Q; vm_compute in Q; discriminate).
  destruct (starts (bs "server_max_window_bits") t) eqn:E3.
  { apply starts_iff in E3 as (more & ->). pose proof (split_items 61 (bs "server_max_window_bits" ++ more)) as IT.
    assert (BAD : (forall name v, split_string 61 (bs "server_max_window_bits" ++ more) = [name; v] -> ~ (8 <= strtol v <= 15)) -> forall p, ~ lenient (bs "server_max_window_bits" ++ more) p).
    { intros B p L. apply (lenient_cases _ _ False L).
      - intros Q _. now apply N1.
      - intros Q _. now apply N2.
      - intros m2 name v Q I R _. apply items_split in I. symmetry in I. exact (B _ _ I R).
      - intros m2 name v rest u Q. now apply DIFF in Q.
      - intros m2 name rest Q. now apply DIFF in Q.
      - intros Q. discriminate Q. }
    destruct (split_string 61 (bs "server_max_window_bits" ++ more)) as [|name [|v [|z rest]]]; try (right; split; [reflexivity|apply BAD; intros ? ? Q; discriminate Q]).
    destruct ((8 <=? strtol v) && (strtol v <=? 15)) eqn:R.
    - apply andb_true_iff in R as [R1 R2]. apply Z.leb_le in R1, R2. left. split; [exact OK|]. exists (ServerBits (strtol v)). split; [apply l_sbits with (name := name); [exact IT|lia]|].
      intros ps H. eapply add_param; [exact H|]. split; [lia|]. repeat split.
    - right. split; [reflexivity|]. apply BAD. intros n0 v0 [= <- <-] B. apply andb_false_iff in R as [R|R]; apply Z.leb_gt in R; lia. }
  destruct (starts (bs "client_max_window_bits") t) eqn:E4.
  { apply starts_iff in E4 as (more & ->). pose proof (split_items 61 (bs "client_max_window_bits" ++ more)) as IT.
    set (v := match split_string 61 (bs "client_max_window_bits" ++ more) with _ :: v :: _ => trim v | _ => [] end).
    set (n := match v with [] => 15 | _ => strtol v end).
    destruct ((8 <=? n) && (n <=? 15)) eqn:R.
    - apply andb_true_iff in R as [R1 R2]. apply Z.leb_le in R1, R2. left. split; [exact OK|]. exists (ClientBits n). split.
      + destruct (split_string 61 (bs "client_max_window_bits" ++ more)) as [|name [|w rest]] eqn:SP; [now apply split_nonempty in SP| |].
        * apply l_cbits_any with (name := name) (rest := []); [exact IT|]. intros ? ? Q. discriminate Q.
        * subst n v. destruct (trim w) as [|c u] eqn:TW.
          -- apply l_cbits_any with (name := name) (rest := w :: rest); [exact IT|]. intros ? ? [= <- <-]. rewrite <- TW. apply trim_trimmed.
          -- apply l_cbits with (name := name) (v := w) (rest := rest); [exact IT| |discriminate|lia]. rewrite <- TW. apply trim_trimmed.
      + intros ps H. eapply add_param; [exact H|]. split; [lia|]. repeat split.
    - right. split; [reflexivity|]. intros p L. apply (lenient_cases _ _ False L).
      + intros Q _. now apply N1.
      + intros Q _. now apply N2.
      + intros m2 name w Q. symmetry in Q. now apply DIFF in Q.
      + intros m2 name w rest u Q I T N RR _. apply items_split in I. subst n v. rewrite <- I in R. apply trimmed_trim in T. rewrite <- T in R. destruct u; [congruence|].
        apply andb_false_iff in R as [R|R]; apply Z.leb_gt in R; lia.
      + intros m2 name rest Q I T _. apply items_split in I. subst n v. rewrite <- I in R. destruct rest as [|w rest]; [discriminate R|].
        specialize (T w rest eq_refl). apply trimmed_trim in T. rewrite <- T in R. discriminate R.
      + intros Q. discriminate Q. }
  destruct t as [|c t].
  - left. split; [exact OK|]. exists Nothing. split; [constructor|]. intros ps H. eapply add_param; [exact H|]. reflexivity.
  - right. split; [reflexivity|]. intros p L. apply (lenient_cases _ _ False L).
    + intros Q _. now apply N1.
    + intros Q _. now apply N2.
    + intros m2 name w Q _ _ _. rewrite <- not_true_iff_false in E3. apply E3, starts_iff. eauto.
    + intros m2 name w rest u Q _ _ _ _ _. rewrite <- not_true_iff_false in E4. apply E4, starts_iff. eauto.
    + intros m2 name rest Q _ _ _. rewrite <- not_true_iff_false in E4. apply E4, starts_iff. eauto.
    + intros Q. discriminate Q.
Qed.

Lemma param_err : forall server l s, d_ret s = U_ERROR -> d_ret (fold_left (one_param server) l s) = U_ERROR.
Proof.
  intros server. induction l as [|x l IH]; intros s H; [exact H|]. cbn [fold_left]. apply IH. unfold one_param. cbv zeta.
  destruct (str_eqb (bs "server_no_context_takeover") (trim x)); [exact H|]. destruct (str_eqb (bs "client_no_context_takeover") (trim x)); [exact H|].
  destruct (starts (bs "server_max_window_bits") (trim x)).
  { destruct (split_string 61 (trim x)) as [|a [|b [|c r]]]; try reflexivity. destruct ((8 <=? strtol b) && (strtol b <=? 15)); [exact H|reflexivity]. }
  destruct (starts (bs "client_max_window_bits") (trim x)).
  { match goal with |- context [if ?b then _ else _] => destruct b end; [exact H|reflexivity]. }
  destruct (trim x); [exact H|reflexivity].
Qed.

Lemma params_ok : forall server l s ps, d_ret s = U_OK -> state_of server ps s ->
  let s' := fold_left (one_param server) l s in
  (d_ret s' = U_OK /\ exists qs, Forall2 (fun x p => exists t, trimmed x t /\ lenient t p) l qs /\ state_of server (ps ++ qs) s') \/
  (d_ret s' = U_ERROR /\ forall qs, ~ Forall2 (fun x p => exists t, trimmed x t /\ lenient t p) l qs).
Proof.
  intros server. induction l as [|x l IH]; intros s ps OK H; cbv zeta.
  - left. split; [exact OK|]. exists []. rewrite app_nil_r. split; [constructor|exact H].
  - cbn [fold_left]. destruct (param_step server s x OK) as [(OK1 & p & L & ST)|(ER & NL)].
    + destruct (IH _ (ps ++ [p]) OK1 (ST ps H)) as [(OK2 & qs & F & S2)|(ER & NF)].
      * left. split; [exact OK2|]. exists (p :: qs). rewrite <- app_assoc in S2. split; [|exact S2]. constructor; auto. exists (trim x). split; [apply trim_trimmed|exact L].
      * right. split; [exact ER|]. intros qs F. inversion F; subst. now apply NF in H4.
    + right. split; [now apply param_err|]. intros qs F. inversion F as [|? q ? ? (t & T & L) _]; subst. apply trimmed_trim in T. subst t. now apply NL in L.
Qed.

Lemma state0 : forall server, state_of server [] (mk_dstate U_OK dctx0 false false).
Proof.
  intros server. split; [constructor; cbn|].
  - split; [discriminate|intros []].
  - split; [discriminate|intros []].
  - right. auto.
  - right. auto.
  - cbn. split; [split; [discriminate|intros (n & [])]|]. split; [split; [discriminate|intros (n & [])]|]. destruct server; repeat split; lia.
Qed.

Lemma parse_ok : forall server e, starts EXT_DEFLATE e = true ->
  (d_ret (parse_params server e) = U_OK /\ exists ps, offers e ps /\ state_of server ps (parse_params server e)) \/
  (d_ret (parse_params server e) = U_ERROR /\ forall ps, ~ offers e ps).
Proof.
  intros server e ST. apply starts_iff in ST as (rest & ->). unfold parse_params.
  assert (ZL : zlen (EXT_DEFLATE ++ rest) = zlen EXT_DEFLATE + zlen rest) by (unfold zlen; rewrite app_length; lia).
  rewrite ZL. rewrite skipn_app, skipn_all, Nat.sub_diag. cbn [skipn app].
  assert (INV : forall r, EXT_DEFLATE ++ rest = EXT_DEFLATE ++ r -> r = rest) by (intros r Q; now apply app_inv_head in Q).
  destruct rest as [|c rest].
  - change (zlen []) with 0. rewrite Z.add_0_r, Z.ltb_irrefl. left. split; [reflexivity|]. exists []. split; [|apply state0]. exists []. split; [reflexivity|]. left. auto.
  - replace (zlen EXT_DEFLATE <? zlen EXT_DEFLATE + zlen (c :: rest)) with true by (symmetry; apply Z.ltb_lt; unfold zlen; cbn [length]; lia).
    destruct (params_ok server (split_string 59 (c :: rest)) (mk_dstate U_OK dctx0 false false) [] eq_refl (state0 server)) as [(OK & qs & F & S)|(ER & NF)].
    + left. split; [exact OK|]. exists qs. cbn [app] in S. split; [|exact S]. exists (c :: rest). split; [reflexivity|]. right. split; [discriminate|].
      exists (split_string 59 (c :: rest)). split; [apply split_items|exact F].
    + right. split; [exact ER|]. intros ps (r & Q & [[-> _]|(_ & l & I & F)]).
      * apply INV in Q. discriminate Q.
      * apply INV in Q. subst r. apply items_split in I. subst l. now apply NF in F.
Qed.

Lemma first_param_iff : forall e l, starts EXT_DEFLATE e = true -> (first_param e l = true <-> first_offer e l).
Proof.
  intros e l ST. induction l as [|x l IH]; cbn [first_param].
  - split; [discriminate|]. intros (a & b & Q & _). destruct a; discriminate Q.
  - destruct (starts EXT_DEFLATE x) eqn:SX.
    + rewrite str_eqb_eq. split.
      * intros <-. exists [], l. split; [reflexivity|]. intros y r [].
      * intros (a & b & Q & N). destruct a as [|y a]; cbn [app] in Q; injection Q as -> Q; [reflexivity|]. exfalso.
        apply starts_iff in SX as (r & Q2). exact (N y r (or_introl eq_refl) Q2).
    + rewrite IH. split; intros (a & b & Q & N).
      * exists (x :: a), b. split; [now rewrite Q|]. intros y r [<-|I]; [|now apply N]. intros Q2. rewrite <- not_true_iff_false in SX. apply SX, starts_iff. eauto.
      * destruct a as [|y a]; cbn [app] in Q; injection Q as -> Q.
        -- congruence.
        -- exists a, b. split; [exact Q|]. intros z r I. apply N. now right.
Qed.

(** C45. The server accepts an element exactly if it is the first of its kind and all its parameters are readable with window sizes
    between 8 and 15 (and zlib does its part); then it uses the parameters asked for, with windows between 9 and 15, and says so. *)
Theorem C45_server : forall zinit e l old, (forall a b, 9 <= a <= 15 -> 9 <= b <= 15 -> zinit a b = true) ->
  match server_match_deflate zinit e l old with
  | (ret, ans, Some c) => ret = U_OK /\ first_offer e l /\ exists ps a, offers e ps /\ means ps c /\ ans = Some a /\ says ps c a /\
      9 <= c_sbits c <= 15 /\ 9 <= c_cbits c <= 15 /\ c_dfull c = c_snct c /\ c_ifull c = c_cnct c
  | (ret, ans, None) => ret = U_ERROR /\ ans = old /\ ~ (first_offer e l /\ exists ps, offers e ps)
  end.
Proof.
  intros zinit e l old ZI. unfold server_match_deflate. destruct (starts EXT_DEFLATE e) eqn:ST.
  - pose proof (first_param_iff e l ST) as FP. destruct (first_param e l).
    + destruct (parse_ok true e ST) as [(OK & ps & O & S)|(ER & NO)].
      * rewrite OK. change (U_OK =? U_OK) with true. cbv iota. destruct S as (M & SC & CC & DF & IF & SB & CB). rewrite ZI by assumption.
        split; [reflexivity|]. split; [now apply FP|]. exists ps, (answer (parse_params true e)). split; [exact O|]. split; [exact M|]. split; [reflexivity|].
        split; [|auto]. unfold answer. set (s := parse_params true e) in *. destruct M as [M1 M2 _ _]. do 4 eexists. split; [reflexivity|].
        split; [destruct (c_snct (d_ctx s)); [left; split; [reflexivity|now apply M1]|right; split; [reflexivity|]; intros I; apply M1 in I; discriminate]|].
        split; [destruct (c_cnct (d_ctx s)); [left; split; [reflexivity|now apply M2]|right; split; [reflexivity|]; intros I; apply M2 in I; discriminate]|].
        split; [destruct (d_schg s); [left; split; [reflexivity|now apply SC]|right; split; [reflexivity|]; intros n I; assert (X : false = true) by (apply SC; eauto); discriminate X]|].
        destruct (d_cchg s); [left; split; [reflexivity|now apply CC]|right; split; [reflexivity|]; intros n I; assert (X : false = true) by (apply CC; eauto); discriminate X].
      * rewrite ER. change (U_ERROR =? U_OK) with false. cbv iota. split; [reflexivity|]. split; [reflexivity|]. intros (_ & ps & O). now apply NO in O.
    + split; [reflexivity|]. split; [reflexivity|]. intros (F & _). apply FP in F. discriminate.
  - split; [reflexivity|]. split; [reflexivity|]. intros (_ & ps & rest & -> & _). rewrite <- not_true_iff_false in ST. apply ST, starts_iff. eauto.
Qed.
Print Assumptions C45_server.

Theorem C45_client : forall zinit e, (forall a b, 9 <= a <= 15 -> 9 <= b <= 15 -> zinit a b = true) ->
  match client_match_deflate zinit e with
  | (ret, Some c) => ret = U_OK /\ exists ps, offers e ps /\ means ps c /\
      9 <= c_sbits c <= 15 /\ 9 <= c_cbits c <= 15 /\ c_dfull c = c_cnct c /\ c_ifull c = c_snct c
  | (ret, None) => ret = U_ERROR /\ ~ exists ps, offers e ps
  end.
Proof.
  intros zinit e ZI. unfold client_match_deflate. destruct (starts EXT_DEFLATE e) eqn:ST.
  - destruct (parse_ok false e ST) as [(OK & ps & O & S)|(ER & NO)].
    + rewrite OK. change (U_OK =? U_OK) with true. cbv iota. destruct S as (M & SC & CC & DF & IF & SB & CB). rewrite ZI by assumption.
      split; [reflexivity|]. exists ps. auto 10.
    + rewrite ER. change (U_ERROR =? U_OK) with false. cbv iota. split; [reflexivity|]. intros (ps & O). now apply NO in O.
  - split; [reflexivity|]. intros (ps & rest & -> & _). rewrite <- not_true_iff_false in ST. apply ST, starts_iff. eauto.
Qed.
Print Assumptions C45_client.

(** all parameters of RFC 7692 are understood *)
Theorem C45_strict_understood : forall t p, strict t p -> lenient t p /\ forall q, lenient t q -> q = p.
Proof.
  intros t p S.
  assert (U : forall s x, d_ret s = U_OK -> d_ret (one_param true s x) = U_OK -> True) by auto. clear U.
  assert (NUM : forall n, 8 <= n <= 15 -> In n [8; 9; 10; 11; 12; 13; 14; 15]) by (intros n R; cbn [In]; lia).
  assert (DS : forall a b, bs "server_max_window_bits" ++ a <> bs "client_max_window_bits" ++ b) by (intros a b Q; vm_compute in Q; discriminate).
  assert (D1 : forall a, bs "server_no_context_takeover" <> bs "server_max_window_bits" ++ a) by (intros a Q; vm_compute in Q; discriminate).
  assert (D2 : forall a, bs "server_no_context_takeover" <> bs "client_max_window_bits" ++ a) by (intros a Q; vm_compute in Q; discriminate).
  assert (D3 : forall a, bs "client_no_context_takeover" <> bs "server_max_window_bits" ++ a) by (intros a Q; vm_compute in Q; discriminate).
  assert (D4 : forall a, bs "client_no_context_takeover" <> bs "client_max_window_bits" ++ a) by (intros a Q; vm_compute in Q; discriminate).
  assert (D5 : bs "server_no_context_takeover" <> bs "client_no_context_takeover") by discriminate.
  destruct S as [| |n R|n R|].
  - split; [constructor|]. intros q L. apply (lenient_cases _ _ _ L).
    + auto.
    + intros Q. now apply D5 in Q.
    + intros more name v Q. now apply D1 in Q.
    + intros more name v rest u Q. now apply D2 in Q.
    + intros more name rest Q. now apply D2 in Q.
    + intros Q. discriminate Q.
  - split; [constructor|]. intros q L. apply (lenient_cases _ _ _ L).
    + intros Q. symmetry in Q. now apply D5 in Q.
    + auto.
    + intros more name v Q. now apply D3 in Q.
    + intros more name v rest u Q. now apply D4 in Q.
    + intros more name rest Q. now apply D4 in Q.
    + intros Q. discriminate Q.
  - assert (IT : items 61 (bs "server_max_window_bits" ++ (bs "=" ++ udec n)) [bs "server_max_window_bits"; udec n] /\ strtol (udec n) = n).
    { rewrite items_iff. apply NUM in R. cbn [In] in R. repeat (destruct R as [<-|R]; [vm_compute; auto|]). destruct R. }
    destruct IT as [IT ST]. change (bs "server_max_window_bits=" ++ udec n) with (bs "server_max_window_bits" ++ (bs "=" ++ udec n)). split.
    + rewrite <- ST at 2. apply l_sbits with (name := bs "server_max_window_bits"); [exact IT|now rewrite ST].
    + intros q L. apply (lenient_cases _ _ _ L).
      * intros Q. symmetry in Q. now apply D1 in Q.
      * intros Q. symmetry in Q. now apply D3 in Q.
      * intros more name v Q I RR ->. apply items_split in I, IT. rewrite <- IT in I. injection I as -> ->. now rewrite ST.
      * intros more name v rest u Q. now apply DS in Q.
      * intros more name rest Q. now apply DS in Q.
      * intros Q. discriminate Q.
  - assert (IT : items 61 (bs "client_max_window_bits" ++ (bs "=" ++ udec n)) [bs "client_max_window_bits"; udec n] /\ strtol (udec n) = n /\ trim (udec n) = udec n /\ udec n <> []).
    { rewrite items_iff. apply NUM in R. cbn [In] in R. repeat (destruct R as [<-|R]; [vm_compute; repeat split; auto; discriminate|]). destruct R. }
    destruct IT as (IT & ST & TU & NU). change (bs "client_max_window_bits=" ++ udec n) with (bs "client_max_window_bits" ++ (bs "=" ++ udec n)). split.
    + rewrite <- ST at 2. apply l_cbits with (name := bs "client_max_window_bits") (v := udec n) (rest := []); [exact IT| |exact NU|now rewrite ST].
      rewrite <- TU at 2. apply trim_trimmed.
    + intros q L. apply (lenient_cases _ _ _ L).
      * intros Q. symmetry in Q. now apply D2 in Q.
      * intros Q. symmetry in Q. now apply D4 in Q.
      * intros more name v Q. symmetry in Q. now apply DS in Q.
      * intros more name v rest u Q I T N RR ->. apply items_split in I, IT. rewrite <- IT in I. injection I as -> -> ->. apply trimmed_trim in T. rewrite T, TU. now rewrite ST.
      * intros more name rest Q I T ->. apply items_split in I, IT. rewrite <- IT in I. injection I as -> ->. specialize (T _ _ eq_refl). apply trimmed_trim in T. rewrite TU in T. congruence.
      * intros Q. discriminate Q.
  - assert (IT : items 61 (bs "client_max_window_bits") [bs "client_max_window_bits"]) by (rewrite items_iff; vm_compute; reflexivity).
    split.
    + change (bs "client_max_window_bits") with (bs "client_max_window_bits" ++ []). apply l_cbits_any with (name := bs "client_max_window_bits") (rest := []); [exact IT|discriminate].
    + intros q L. apply (lenient_cases _ _ _ L).
      * intros Q. discriminate Q.
      * intros Q. discriminate Q.
      * intros more name v Q. discriminate Q.
      * intros more name v rest u Q I T N RR ->. apply items_split in I, IT. rewrite <- IT in I. discriminate I.
      * auto.
      * intros Q. discriminate Q.
Qed.
Print Assumptions C45_strict_understood.

Example C45_example : server_match_deflate (fun _ _ => true) (bs "permessage-deflate; server_max_window_bits=10 ;client_max_window_bits; server_no_context_takeover")
    [bs "x"; bs "permessage-deflate; server_max_window_bits=10 ;client_max_window_bits; server_no_context_takeover"; bs " permessage-deflate"] None =
  (U_OK, Some (bs "permessage-deflate; server_no_context_takeover; server_max_window_bits=10; client_max_window_bits=15"), Some (mk_dctx true false 10 15 true false)).
Proof. vm_compute. reflexivity. Qed.

(** C45, refuted: parameters that RFC 7692 does not know are accepted ... *)
Theorem C45_unknown_parameter_refuted : exists e ans c, (forall t p, strict t p -> e <> EXT_DEFLATE ++ bs ";" ++ t) /\
  server_match_deflate (fun _ _ => true) e [e] None = (U_OK, Some ans, Some c) /\ ans = bs "permessage-deflate; client_max_window_bits=12".
Proof.
  exists (bs "permessage-deflate;client_max_window_bitsABC=12xyz"). do 2 eexists. split; [|split; [vm_compute; reflexivity|reflexivity]].
  intros t p S E. assert (T : t = bs "client_max_window_bitsABC=12xyz").
  { change (bs "permessage-deflate;client_max_window_bitsABC=12xyz") with (EXT_DEFLATE ++ bs ";" ++ bs "client_max_window_bitsABC=12xyz") in E.
    apply app_inv_head in E. apply app_inv_head in E. now symmetry. }
  subst t. remember (bs "client_max_window_bitsABC=12xyz") as t eqn:ET. destruct S; vm_compute in ET; discriminate ET.
Qed.
Print Assumptions C45_unknown_parameter_refuted.

(** ... a window of 8 is answered with a window of 9, larger than the client asked for *)
Theorem C45_window_8_refuted : exists c, server_match_deflate (fun _ _ => true) (bs "permessage-deflate; server_max_window_bits=8") [bs "permessage-deflate; server_max_window_bits=8"] None =
  (U_OK, Some (bs "permessage-deflate; server_max_window_bits=9"), Some c) /\ c_sbits c = 9.
Proof. eexists. split; vm_compute; reflexivity. Qed.
Print Assumptions C45_window_8_refuted.

(** ... and an offer after a comma and a space is never taken: the list given to the function contains it with the space *)
Lemma after_space : forall zinit before after rest old, Forall (fun x => starts EXT_DEFLATE x = false) (before ++ after) ->
  fst (fst (server_match_deflate zinit (trim (32 :: rest)) (before ++ trim_left (32 :: rest) :: after) old)) = U_ERROR.
Proof.
  intros zinit before after rest old NB. unfold server_match_deflate.
  destruct (starts EXT_DEFLATE (trim (32 :: rest))); [|reflexivity].
  assert (FP : first_param (trim (32 :: rest)) (before ++ trim_left (32 :: rest) :: after) = false); [|now rewrite FP].
  assert (NS : Forall (fun x => starts EXT_DEFLATE x = false) (before ++ trim_left (32 :: rest) :: after)).
  { apply Forall_app in NB as [NB NA]. apply Forall_app. split; [exact NB|]. constructor; [|exact NA].
    unfold trim_left. destruct (forallb isspace (32 :: rest)) eqn:FB; [reflexivity|].
    destruct (rstrip_ok (32 :: rest)) as (b & E & SB & _). destruct (rstrip (32 :: rest)) as [|c r] eqn:RS; [reflexivity|].
    cbn [app] in E. injection E as <- _. reflexivity. }
  generalize (trim (32 :: rest)). clear -NS. intros e. induction NS as [|x l H _ IH]; [reflexivity|]. cbn [first_param]. now rewrite H.
Qed.
Definition deflate_match (zinit : Z -> Z -> bool) (calls : nat) (f : Z) (old : option str) (e : str) (l : list str) : Z * option str :=
  fst (server_match_deflate zinit e l old).
Definition deflate_ext := mk_wext 64 (Some 1) (Some EXT_DEFLATE) None false.

Theorem C45_after_space_refuted : forall zinit other, (forall a b, 9 <= a <= 15 -> 9 <= b <= 15 -> zinit a b = true) -> starts EXT_DEFLATE (trim other) = false -> starts EXT_DEFLATE other = false ->
  starts EXT_DEFLATE (trim_left other) = false ->
  exists n1 n2, offer_loop (deflate_match zinit) [] [other; bs " permessage-deflate"] [deflate_ext] 0 0 None = Ret n1 /\ n_names n1 = None /\ n_rsv n1 = 0 /\
    offer_loop (deflate_match zinit) [] [bs "permessage-deflate"; other] [deflate_ext] 0 0 None = Ret n2 /\ n_names n2 = Some EXT_DEFLATE /\ n_rsv n2 = 64.
Proof.
  intros zinit other ZI N1 N2 N3.
  assert (M1 : forall l c old, deflate_match zinit c 1 old (trim other) l = (U_ERROR, old)) by (intros; unfold deflate_match, server_match_deflate; now rewrite N1).
  assert (M2 : forall c l old, starts EXT_DEFLATE l = false -> fst (deflate_match zinit c 1 old (trim (bs " permessage-deflate")) ([l] ++ trim_left (bs " permessage-deflate") :: [])) = U_ERROR).
  { intros c l old H. unfold deflate_match. change (bs " permessage-deflate") with (32 :: EXT_DEFLATE). apply after_space. repeat constructor. exact H. }
  assert (M2' : forall c l, starts EXT_DEFLATE l = false -> deflate_match zinit c 1 None (trim (bs " permessage-deflate")) ([l] ++ trim_left (bs " permessage-deflate") :: []) = (U_ERROR, None)).
  { intros c l H. pose proof (M2 c l None H) as M. unfold deflate_match in *.
    destruct (server_match_deflate zinit (trim (bs " permessage-deflate")) ([l] ++ trim_left (bs " permessage-deflate") :: []) None) as [[r a] k] eqn:E. cbn [fst] in M |- *. subst r.
    pose proof (C45_server zinit (trim (bs " permessage-deflate")) ([l] ++ trim_left (bs " permessage-deflate") :: []) None ZI) as C. rewrite E in C.
    destruct k; [destruct C as [C _]; discriminate C|]. destruct C as (_ & -> & _). reflexivity. }
  do 2 eexists. split.
  { cbn [offer_loop ext_loop app]. cbn [x_enabled x_match deflate_ext x_client set_client n_exts n_elem n_calls n_rsv n_names]. rewrite M1. cbn [bind].
    change (U_ERROR =? U_OK) with false. cbv iota. cbn [bind offer_loop ext_loop app n_exts n_elem n_calls n_rsv n_names x_enabled x_match x_client set_client deflate_ext].
    change [trim_left other; trim_left (bs " permessage-deflate")] with ([trim_left other] ++ trim_left (bs " permessage-deflate") :: []). rewrite M2' by exact N3.
    change (U_ERROR =? U_OK) with false. cbv iota. cbn [bind n_exts n_elem n_calls n_rsv n_names]. reflexivity. }
  split; [reflexivity|]. split; [reflexivity|]. split.
  { cbn [offer_loop ext_loop app x_enabled x_match deflate_ext x_client].
    assert (M3 : deflate_match zinit 0 1 None (trim (bs "permessage-deflate")) [trim_left (bs "permessage-deflate"); other] = (U_OK, Some EXT_DEFLATE)).
    { unfold deflate_match, server_match_deflate. change (starts EXT_DEFLATE (trim (bs "permessage-deflate"))) with true. cbv iota.
      change (first_param (trim (bs "permessage-deflate")) [trim_left (bs "permessage-deflate"); other]) with true. cbv iota.
      change (d_ret (parse_params true (trim (bs "permessage-deflate")))) with U_OK. change (U_OK =? U_OK) with true. cbv iota.
      change (c_sbits (d_ctx (parse_params true (trim (bs "permessage-deflate"))))) with 15. change (c_cbits (d_ctx (parse_params true (trim (bs "permessage-deflate"))))) with 15.
      rewrite ZI by lia. reflexivity. }
    rewrite M3. reflexivity. }
  split; reflexivity.
Qed.
Print Assumptions C45_after_space_refuted.

(** ** C60: the client understands the server's answer as the server means it *)
Definition mirrored (c : dctx) : dctx := mk_dctx (c_snct c) (c_cnct c) (c_sbits c) (c_cbits c) (c_ifull c) (c_dfull c).

Theorem C60_both_ends_agree : forall zinit e l old ans c, (forall a b, 9 <= a <= 15 -> 9 <= b <= 15 -> zinit a b = true) ->
  server_match_deflate zinit e l old = (U_OK, Some ans, Some c) -> client_match_deflate zinit ans = (U_OK, Some (mirrored c)).
Proof.
  intros zinit e l old ans c ZI H. unfold server_match_deflate in H. destruct (starts EXT_DEFLATE e) eqn:ST; [|discriminate]. destruct (first_param e l); [|discriminate].
  destruct (parse_ok true e ST) as [(OK & ps & O & S)|(ER & NO)]; [|rewrite ER in H; discriminate]. rewrite OK in H. change (U_OK =? U_OK) with true in H. cbv iota in H.
  destruct S as (M & SC & CC & DF & IF & SB & CB). rewrite ZI in H by assumption. injection H as <- <-.
  set (s := parse_params true e) in *. unfold answer, mirrored. rewrite DF, IF.
  assert (S15 : d_schg s = false -> c_sbits (d_ctx s) = 15).
  { intros Q. destruct (m_sbits _ _ M) as [(a & m & b & E & _)|[Q2 _]]; [|exact Q2]. exfalso. assert (X : d_schg s = true) by (apply SC; exists m; rewrite E; apply in_app_iff; right; now left). congruence. }
  assert (C15 : d_cchg s = false -> c_cbits (d_ctx s) = 15).
  { intros Q. destruct (m_cbits _ _ M) as [(a & m & b & E & _)|[Q2 _]]; [|exact Q2]. exfalso. assert (X : d_cchg s = true) by (apply CC; exists m; rewrite E; apply in_app_iff; right; now left). congruence. }
  clear -ZI SB CB S15 C15. generalize dependent (c_sbits (d_ctx s)). generalize dependent (c_cbits (d_ctx s)). intros cb CB C15 sb SB S15.
  unfold client_match_deflate.
  assert (R : forall n, 9 <= n <= 15 -> In n [9; 10; 11; 12; 13; 14; 15]) by (intros n Q; cbn [In]; lia).
  assert (G : forall (a b x y : bool) (sb cb : Z), In sb [9; 10; 11; 12; 13; 14; 15] -> In cb [9; 10; 11; 12; 13; 14; 15] -> (x = false -> sb = 15) -> (y = false -> cb = 15) ->
    let t := EXT_DEFLATE ++ (if a then bs "; server_no_context_takeover" else []) ++ (if b then bs "; client_no_context_takeover" else []) ++
      (if x then bs "; server_max_window_bits=" ++ udec sb else []) ++ (if y then bs "; client_max_window_bits=" ++ udec cb else []) in
    starts EXT_DEFLATE t = true /\ d_ret (parse_params false t) = U_OK /\ d_ctx (parse_params false t) = mk_dctx a b sb cb b a).
  { clear. intros a b x y sb cb IS IC XS XC.
    assert (ES : x = true \/ (x = false /\ sb = 15)) by (destruct x; auto). assert (EC : y = true \/ (y = false /\ cb = 15)) by (destruct y; auto). clear XS XC.
    destruct EC as [->|[-> ->]].
    - destruct ES as [->|[-> ->]].
      + destruct IS as [<-|[<-|[<-|[<-|[<-|[<-|[<-|[]]]]]]]], IC as [<-|[<-|[<-|[<-|[<-|[<-|[<-|[]]]]]]]], a, b; vm_compute; auto.
      + clear IS. destruct IC as [<-|[<-|[<-|[<-|[<-|[<-|[<-|[]]]]]]]], a, b; vm_compute; auto.
    - clear IC. destruct ES as [->|[-> ->]].
      + destruct IS as [<-|[<-|[<-|[<-|[<-|[<-|[<-|[]]]]]]]], a, b; vm_compute; auto.
      + clear IS. destruct a, b; vm_compute; auto. }
  destruct (G (c_snct (d_ctx s)) (c_cnct (d_ctx s)) (d_schg s) (d_cchg s) sb cb (R _ SB) (R _ CB) S15 C15) as (G1 & G2 & G3).
  rewrite G1, G2, G3. change (U_OK =? U_OK) with true. cbv iota. cbn [c_cbits c_sbits]. rewrite ZI by assumption. reflexivity.
Qed.
Print Assumptions C60_both_ends_agree.

Example C60_example : exists ans c, server_match_deflate (fun _ _ => true) (bs "permessage-deflate; client_no_context_takeover; client_max_window_bits=11") [bs "permessage-deflate; client_no_context_takeover; client_max_window_bits=11"] None = (U_OK, Some ans, Some c) /\
  client_match_deflate (fun _ _ => true) ans = (U_OK, Some (mk_dctx false true 15 11 true false)).
Proof. do 2 eexists. split; [vm_compute; reflexivity|vm_compute; reflexivity]. Qed.

(** The engines are made for the windows agreed on: what the server compresses with, the client decompresses with, and the other way round.
    [zs a b]: deflateInit2 with the window a and inflateInit2 with the window b succeed at the server, [zc] at the client. *)
Theorem C60_windows : forall zs zc e l old ans c c', server_match_deflate zs e l old = (U_OK, Some ans, Some c) -> client_match_deflate zc ans = (U_OK, Some c') ->
  zs (c_sbits c) (c_cbits c) = true /\ zc (c_cbits c') (c_sbits c') = true.
Proof.
  intros zs zc e l old ans c c' H1 H2. split.
  - unfold server_match_deflate in H1. destruct (starts EXT_DEFLATE e); [|discriminate]. destruct (first_param e l); [|discriminate]. set (s := parse_params true e) in *.
    destruct (d_ret s =? U_OK); [|discriminate]. destruct (zs (c_sbits (d_ctx s)) (c_cbits (d_ctx s))) eqn:Z; [|discriminate]. injection H1 as _ <-. exact Z.
  - unfold client_match_deflate in H2. destruct (starts EXT_DEFLATE ans); [|discriminate]. set (s := parse_params false ans) in *.
    destruct (d_ret s =? U_OK); [|discriminate]. destruct (zc (c_cbits (d_ctx s)) (c_sbits (d_ctx s))) eqn:Z; [|discriminate]. injection H2 as <-. exact Z.
Qed.
Print Assumptions C60_windows.
