(** What two of the callbacks say when they refuse: the check of an access token with its proof of possession (C79), and the file server without a
    configuration (C56). *)
From Coq Require Import String ZArith Bool List Lia.
From Verif Require Import Base BaseFacts UMapModel UMapSpec SMap SMapCase NegoSpec SendProps StrModel StrProofs TokenModel TokenSpec TokenProofs TokenProps.
From Verif Require NegoProofs ClientModel StaticModel.
Import ListNotations.
Open Scope Z_scope.

(** ** C79: the complaint names the reason: no token, a token that does not verify, one without any of the scopes or without scopes, and a proof that is refused *)
Theorem C79_reason : forall verify dpop_ok c q r dh dp du d, request_is q dh dp du -> repr (p_headers r) d ->
  (forall e, In e [e_scope; e_internal; e_invalid; e_missing; e_dpop] -> ovalue_ok (Some (complaint (i_realm c) e))) ->
  let complains e := exists r', iddawc verify dpop_ok (Some c) q r = Ret (3, r') /\
    repr (p_headers r') (sput (bs "WWW-Authenticate") (Some (bs "Bearer " ++ match i_realm c with Some x => bs "realm=" ++ x ++ bs "," | None => [] end ++ e)) d) in
  ((forall tok b, carried (i_method c) dh dp du tok b -> tok = []) -> complains (bs "error=""invalid_token"",error_description=""The access token is missing""")) /\
  (forall tok b, carried (i_method c) dh dp du tok b -> tok <> [] -> verify tok (i_aud c) = None -> complains (bs "error=""invalid_request"",error_description=""The access token is invalid""")) /\
  (forall tok b j, carried (i_method c) dh dp du tok b -> tok <> [] -> verify tok (i_aud c) = Some j ->
     (forall s t, i_scope c = Some s -> s <> [] -> member j (bs "scope") (JStr t) -> (forall w, ~ (piece s w /\ piece t w)) -> complains (bs "error=""insufficient_scope"",error_description=""The scope is invalid""")) /\
     (forall v pf root x tail, b = true -> scoped piece (i_scope c) j -> bound j v -> single dh (bs "DPoP") pf -> i_root c = Some root -> q_path q = Some (x :: tail) ->
        dpop_ok (Some pf) (q_verb q) (root ++ tail) (i_max_iat c) (as_text v) tok = false -> complains (bs "error=""invalid_request"",error_description=""The DPoP token is invalid"""))).
Proof.
  intros verify dpop_ok c q r dh dp du d RQ R RE complains. unfold complains, iddawc. pose proof RQ as (RH & _ & _). rewrite (repr_get_case _ _ _ RH), (NegoProofs.repr_count_case _ _ _ RH). cbn [bind].
  destruct (iddawc_token_eq (i_method c) q dh dp du RQ) as (o & E & O). rewrite E. cbn [bind].
  assert (RF : forall e, In e [e_scope; e_internal; e_invalid; e_missing; e_dpop] -> exists r', refuse (i_realm c) r e = Ret (3, r') /\ repr (p_headers r') (sput (bs "WWW-Authenticate") (Some (complaint (i_realm c) e)) d)).
  { intros e IN. destruct (refuse_eq (i_realm c) r e d R (RE e IN)) as (r' & E' & R' & _). eauto. }
  split; [|split].
  - intros N. destruct o as [[tok b]|]; [|apply (RF e_missing); cbn; auto]. pose proof (N tok b (proj1 (O tok b) eq_refl)) as ->. apply (RF e_missing); cbn; auto.
  - intros tok b C NE V. apply O in C. subst o. destruct tok as [|z tok]; [congruence|]. rewrite V. apply (RF e_invalid); cbn; auto.
  - intros tok b j C NE V. apply O in C. subst o. destruct tok as [|z tok]; [congruence|]. rewrite V. split.
    + intros s t TS NS M NP. unfold check_scope. apply jstr_iff in M. rewrite M, TS. destruct s as [|y s]; [congruence|]. destruct (TokenModel.common (y :: s) t) as [|w l] eqn:CM.
      * cbn [bind]. cbv zeta. apply (RF e_scope); cbn; auto.
      * exfalso. apply (NP w). apply common_in. rewrite CM. now left.
    + intros v pf root x tail -> SP B S RO QP DO.
      destruct (scoped_good true (fun _ => Some JNull) (i_scope c) j ltac:(discriminate) (check_scope_total true _ _ _ (or_introl eq_refl)) SP) as (g & G). rewrite G. cbn [bind]. cbv zeta.
      apply jkt_iff in B. rewrite B. apply single_val in S as [S1 S2]. rewrite S1, S2. cbn [andb Z.eqb Pos.eqb]. rewrite RO, QP. cbn [path_tail bind].
      change (jstr (Some v)) with (as_text v). rewrite DO. apply (RF e_dpop); cbn; auto 8.
Qed.
Print Assumptions C79_reason.
(** the example of C79 with a proof that is refused *)
Example C79_ex_reason : (exists r', iddawc ex_iverify (fun _ _ _ _ _ _ => false) (Some ex_icfg) (ex_iq ex_idh) ex_r = Ret (3, r') /\
    get_str (p_headers r') (bs "WWW-Authenticate") = Ret (Some (bs "Bearer error=""invalid_request"",error_description=""The DPoP token is invalid"""))) /\
  carried (i_method ex_icfg) ex_idh [] [] (bs "abc") true /\ bound ex_bound (JStr (bs "tp")) /\ single ex_idh (bs "DPoP") (bs "proof") /\ scoped piece (i_scope ex_icfg) ex_bound /\
  (forall e, In e [e_scope; e_internal; e_invalid; e_missing; e_dpop] -> ovalue_ok (Some (complaint (i_realm ex_icfg) e))).
Proof.
  split; [eexists; split; vm_compute; reflexivity|]. split; [apply single_val; split; vm_compute; reflexivity|]. split; [apply jkt_iff; reflexivity|]. split; [apply single_val; split; vm_compute; reflexivity|]. split.
  - exists (bs "read"), (bs "read"). split; [apply jget_iff; reflexivity|]. split; apply piece_iff; vm_compute; auto.
  - intros e IN. cbn [In] in IN. repeat (destruct IN as [<-|IN]; [split; [repeat constructor; vm_compute; discriminate|reflexivity]|]). destruct IN.
Qed.

(** ** C56: without a configuration, or without a directory in it, the callback is an error, whatever is asked: no file is opened and the response is what it was;
    a callback that is not the first of its request does nothing at all *)
Theorem C56_unconfigured : forall w c position url r,
  (position <= 0 -> (forall x root, c = Some x -> StaticModel.f_root x <> Some root) -> StaticModel.static_file w c position url r = Ret (4, r, [])) /\
  (0 < position -> StaticModel.static_file w c position url r = Ret (0, r, [])).
Proof.
  intros w c position url r. unfold StaticModel.static_file. split.
  - intros P N. replace (0 <? position) with false by (symmetry; apply Z.ltb_ge; lia). destruct c as [x|]; [|reflexivity]. destruct (StaticModel.f_root x) as [root|] eqn:E; [now apply (N x root) in E|reflexivity].
  - intros P. apply Z.ltb_lt in P. rewrite P. reflexivity.
Qed.
Print Assumptions C56_unconfigured.
