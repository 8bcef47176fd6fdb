(** Lemmas for C53. *)
From Coq Require Import String ZArith Bool List Lia.
From Verif Require Import Base BaseFacts CookieModel CookieSpec CookieProofs CookieProps ClientModel ClientSpec UMapModel UMapSpec SMap StrModel NegoSpec StrProofs SMapCase ClientProofs.
Import ListNotations.
Open Scope Z_scope.

Definition flag (b : bool) : Z := if b then 1 else 0.
Lemma is_true_yes_no : forall b, is_true (yes_no b) = flag b.
Proof. intros []; reflexivity. Qed.
Lemma no_tab_tokens : forall s, no_tab s -> Forall (fun x => tab x = false) s.
Proof. intros s H. apply Forall_forall. intros x I. unfold tab. apply Z.eqb_neq. intros ->. auto. Qed.

Definition value_slot (old : slot) (value : str) : slot := match value with [] => old | _ => Live value end.
Lemma read_fields_all : forall v c, curl_ok c ->
  read_fields (S (length (netscape c))) v 0 (netscape c) =
    mk_vars (Live (c_name c)) (value_slot (v_value v) (c_value c)) (Live (c_expires c)) (Live (c_domain c)) (Live (c_path c)) (flag (c_tailmatch c)) (flag (c_secure c)).
Proof.
  intros v c [F V]. pose proof (Forall_inv F) as [D1 D2]. apply Forall_inv_tail in F. pose proof (Forall_inv F) as [P1 P2]. apply Forall_inv_tail in F. pose proof (Forall_inv F) as [E1 E2].
  apply Forall_inv_tail in F. pose proof (Forall_inv F) as [N1 N2]. clear F.
  assert (L : exists k, S (length (netscape c)) = (8 + k)%nat).
  { exists (S (length (netscape c)) - 8)%nat. unfold netscape. rewrite !app_length. cbn [length]. destruct (c_domain c); [congruence|]. destruct (c_path c); [congruence|]. cbn [length]. lia. }
  destruct L as (k & ->). unfold netscape. cbn [Nat.add read_fields].
  assert (YN : forall b, yes_no b <> [] /\ no_tab (yes_no b)). { intros []; (split; [discriminate|]); unfold no_tab, yes_no; cbn; intuition discriminate. }
  cbn [app]. rewrite (strtok_app tab (c_domain c) 9 _ D1 (no_tab_tokens _ D2) eq_refl). cbn [set_field].
  rewrite (strtok_app tab (yes_no (c_tailmatch c)) 9 _ (proj1 (YN _)) (no_tab_tokens _ (proj2 (YN _))) eq_refl). cbn [set_field].
  rewrite (strtok_app tab (c_path c) 9 _ P1 (no_tab_tokens _ P2) eq_refl). cbn [set_field].
  rewrite (strtok_app tab (yes_no (c_secure c)) 9 _ (proj1 (YN _)) (no_tab_tokens _ (proj2 (YN _))) eq_refl). cbn [set_field].
  rewrite (strtok_app tab (c_expires c) 9 _ E1 (no_tab_tokens _ E2) eq_refl). cbn [set_field].
  rewrite (strtok_app tab (c_name c) 9 _ N1 (no_tab_tokens _ N2) eq_refl). cbn [set_field v_key v_value v_expires v_domain v_path v_secure v_http_only].
  rewrite !is_true_yes_no. destruct (c_value c) as [|x r] eqn:VV; [reflexivity|]. rewrite (strtok_all tab (x :: r) ltac:(discriminate) (no_tab_tokens _ V)). cbn [set_field value_slot v_key v_value v_expires v_domain v_path v_secure v_http_only].
  destruct k; reflexivity.
Qed.

(** the call made for a cookie *)
Definition call_of (c : curl_cookie) : bool * cookie_args :=
  (false, mk_args (Some (c_name c)) (match c_value c with [] => None | v => Some v end) (Some (c_expires c)) 0 (Some (c_domain c)) (Some (c_path c)) (flag (c_tailmatch c)) (flag (c_secure c)) 0).

(** an empty value while the variable is NULL *)
Lemma read_empty : forall cs rest j v, Forall curl_ok cs -> Forall (fun c => c_value c = []) cs -> v_value v = Null ->
  (v_key v = Null \/ v_key v = Dangling) ->
  exists v', v_value v' = Null /\ read_cookies j v (map netscape cs ++ rest) = do x <- add_cookies j (map call_of cs); read_cookies (snd x) v' rest.
Proof.
  induction cs as [|c cs IH]; intros rest j v F E V K.
  - exists v. split; [exact V|reflexivity].
  - cbn [map app read_cookies]. rewrite (read_fields_all v c (Forall_inv F)). rewrite (Forall_inv E). cbn [value_slot]. rewrite V.
    set (v2 := mk_vars Dangling Null Dangling Dangling Dangling (flag (c_tailmatch c)) (flag (c_secure c))).
    unfold record_cookie, release_all. cbn [v_key v_value v_expires v_domain v_path v_secure v_http_only use release bind]. fold v2.
    cbn [map add_cookies]. unfold call_of at 1. rewrite (Forall_inv E).
    set (a := mk_args (Some (c_name c)) None (Some (c_expires c)) 0 (Some (c_domain c)) (Some (c_path c)) (flag (c_tailmatch c)) (flag (c_secure c)) 0).
    cbn [map add_cookies]. destruct (add_cookie j a) as [[code j1]|k]; cbn [bind snd fst]; [|exists v; split; [exact V|reflexivity]].
    destruct (IH rest j1 v2 (Forall_inv_tail F) (Forall_inv_tail E) eq_refl ltac:(now right)) as (v' & V' & R). exists v'. split; [exact V'|]. rewrite R.
    destruct (add_cookies j1 (map call_of cs)) as [[codes j2]|k]; reflexivity.
Qed.

Lemma call_valued : forall c, c_value c <> [] ->
  call_of c = (false, mk_args (Some (c_name c)) (Some (c_value c)) (Some (c_expires c)) 0 (Some (c_domain c)) (Some (c_path c)) (flag (c_tailmatch c)) (flag (c_secure c)) 0).
Proof. intros c N. unfold call_of. destruct (c_value c); [congruence|reflexivity]. Qed.

(** cookies with values *)
Lemma read_valued : forall cs rest j v, Forall curl_ok cs -> Forall (fun c => c_value c <> []) cs ->
  exists v', (cs <> [] -> v_value v' = Dangling) /\ (cs = [] -> v' = v) /\ read_cookies j v (map netscape cs ++ rest) = do x <- add_cookies j (map call_of cs); read_cookies (snd x) v' rest.
Proof.
  induction cs as [|c cs IH]; intros rest j v F E.
  - exists v. split; [congruence|]. split; [auto|reflexivity].
  - cbn [map app read_cookies]. rewrite (read_fields_all v c (Forall_inv F)). pose proof (Forall_inv E) as NV. cbn beta in NV.
    assert (VS : value_slot (v_value v) (c_value c) = Live (c_value c)) by (destruct (c_value c); [congruence|reflexivity]). rewrite VS.
    set (v2 := mk_vars Dangling Dangling Dangling Dangling Dangling (flag (c_tailmatch c)) (flag (c_secure c))).
    unfold record_cookie, release_all. cbn [v_key v_value v_expires v_domain v_path v_secure v_http_only use release bind]. fold v2.
    cbn [map add_cookies]. rewrite (call_valued c NV).
    set (a := mk_args (Some (c_name c)) (Some (c_value c)) (Some (c_expires c)) 0 (Some (c_domain c)) (Some (c_path c)) (flag (c_tailmatch c)) (flag (c_secure c)) 0). destruct (add_cookie j a) as [[code j1]|k]; cbn [bind snd fst]; [|exists v2; split; [reflexivity|]; split; [discriminate|reflexivity]].
    destruct (IH rest j1 v2 (Forall_inv_tail F) (Forall_inv_tail E)) as (v' & V1 & V2 & R). exists v'. split; [|split; [discriminate|]].
    + intros _. destruct cs; [rewrite V2 by reflexivity; reflexivity|apply V1; discriminate].
    + rewrite R. destruct (add_cookies j1 (map call_of cs)) as [[codes j2]|k]; reflexivity.
Qed.

Lemma read_dangling : forall c rest j v, curl_ok c -> c_value c = [] -> v_value v = Dangling -> read_cookies j v (netscape c :: rest) = UB UseAfterFree.
Proof.
  intros c rest j v F E V. cbn [read_cookies]. rewrite (read_fields_all v c F), E. cbn [value_slot]. rewrite V. reflexivity.
Qed.

Lemma accepted_call : forall c, CookieSpec.accepted (call_of c).
Proof. intros c. split; [discriminate|]. left. reflexivity. Qed.

Lemma map_split : forall cs a (x : bool * cookie_args) b, map call_of cs = a ++ x :: b -> exists a' c b', cs = a' ++ c :: b' /\ a = map call_of a' /\ x = call_of c /\ b = map call_of b'.
Proof.
  induction cs as [|c cs IH]; intros a x b E; [destruct a; discriminate|]. destruct a as [|y a]; cbn [map app] in E.
  - injection E as <- <-. exists [], c, cs. auto.
  - injection E as <- E. destruct (IH a x b E) as (a1 & c1 & b1 & -> & -> & -> & ->). exists (c :: a1), c1, b1. auto.
Qed.

Lemma last_call_named : forall cs k call, last_call (map call_of cs) k call <-> exists c, last_named cs c /\ c_name c = k /\ call = call_of c.
Proof.
  intros cs k call. split.
  - intros (a & b & E & _ & K & L). destruct (map_split _ _ _ _ E) as (a' & c & b' & -> & -> & -> & ->). exists c. cbn in K. injection K as <-. split; [|auto].
    exists a', b'. split; [reflexivity|]. intros x I N. apply (L (call_of x)); [now apply in_map|apply accepted_call|]. cbn. now rewrite N.
  - intros (c & (a & b & -> & L) & <- & ->). exists (map call_of a), (map call_of b). rewrite map_app. split; [reflexivity|]. split; [apply accepted_call|]. split; [reflexivity|].
    intros x I _ K. apply in_map_iff in I as (y & <- & I). cbn in K. injection K as K. now apply (L y).
Qed.

Lemma add_cookies_total : forall l j, (exists cs, holds_cookies j cs) -> exists r, add_cookies j l = Ret r /\ exists cs, holds_cookies (snd r) cs.
Proof.
  induction l as [|x l IH]; intros j (cs & H); [exists ([], j); split; [reflexivity|exists cs; exact H]|].
  rewrite add_cookies_cons. assert (S : exists code j1, step1 j x = Ret (code, j1) /\ exists cs1, holds_cookies j1 cs1).
  { destruct (accepted_dec x) as [A|NA].
    - assert (exists k, a_key (snd x) = Some k) as (k & K) by (destruct (a_key (snd x)) eqn:K; [eauto|destruct A; congruence]).
      destruct (step_accepted j cs x k H A K) as (j1 & cs1 & E & H1 & _). exists U_OK, j1. split; [exact E|]. exists cs1. exact H1.
    - exists U_ERROR_PARAMS, j. split; [now apply step_rejected|]. exists cs. exact H. }
  destruct S as (code & j1 & -> & H1). cbn [bind snd]. destruct (IH j1 H1) as ((codes & j2) & -> & H2). cbn [bind snd fst]. exists (code :: codes, j2). split; [reflexivity|exact H2].
Qed.
