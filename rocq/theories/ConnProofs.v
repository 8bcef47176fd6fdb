(** Proofs about the life of a request. *)
From Coq Require Import String ZArith Bool List Lia.
From Verif Require Import Base BaseFacts ConnModel ConnSpec.
Import ListNotations.
Open Scope Z_scope.

Lemma find_char_spec : forall c s i, match find_char c s i with
  | Some n => exists a b, s = a ++ c :: b /\ ~ In c a /\ n = i + zlen a
  | None => ~ In c s
  end.
Proof.
  induction s as [|x s IH]; intros i; cbn [find_char]; [intros []|]. destruct (x =? c) eqn:E.
  - apply Z.eqb_eq in E. subst x. exists [], s. repeat split; auto. unfold zlen. cbn. lia.
  - apply Z.eqb_neq in E. specialize (IH (i + 1)). destruct (find_char c s (i + 1)) as [n|].
    + destruct IH as (a & b & -> & N & ->). exists (x :: a), b. repeat split; auto; [|rewrite zlen_cons; lia]. intros [->|I]; auto.
    + intros [->|I]; auto.
Qed.
Lemma path_lemma : forall uri, path_of uri (match find_char 63 uri 0 with Some n => zfirstn n uri | None => uri end).
Proof.
  intros uri. pose proof (find_char_spec 63 uri 0) as H. destruct (find_char 63 uri 0) as [n|]; [|split; auto].
  destruct H as (a & b & -> & N & ->). rewrite zfirstn_app_exact by lia. split; auto. right. eauto.
Qed.
Lemma path_unique : forall uri p1 p2, path_of uri p1 -> path_of uri p2 -> p1 = p2.
Proof.
  intros uri p1 p2 (N1 & E1) (N2 & E2). revert uri p2 N1 N2 E1 E2. induction p1 as [|x p1 IH]; intros uri p2 N1 N2 E1 E2.
  - destruct p2 as [|y p2]; auto. exfalso. destruct E1 as [E1|(q1 & E1)], E2 as [E2|(q2 & E2)]; subst uri; try discriminate; cbn in *; injection E2 as E3 E4; apply N2; left; auto.
  - destruct p2 as [|y p2].
    + exfalso. destruct E1 as [E1|(q1 & E1)], E2 as [E2|(q2 & E2)]; subst uri; try discriminate; cbn in *; injection E2 as E3 E4; apply N1; left; auto.
    + assert (x = y /\ exists u, (u = p1 \/ exists q, u = p1 ++ 63 :: q) /\ (u = p2 \/ exists q, u = p2 ++ 63 :: q)) as (-> & u & A & B).
      { split; [destruct E1 as [E1|(q1 & E1)], E2 as [E2|(q2 & E2)]; rewrite E1 in E2; cbn in E2; congruence|]. exists (tl uri). split.
        - destruct E1 as [->|(q1 & ->)]; cbn; eauto.
        - destruct E2 as [->|(q2 & ->)]; cbn; eauto. }
      f_equal. apply (IH u p2); auto; intros I; [apply N1|apply N2]; right; auto.
Qed.
Lemma take_spec : forall auth t, fst (take_certificate auth t) = Held <-> auth = true /\ exists s, t = Some s /\ verified s /\ t_init s = 0 /\ t_import s = 0.
Proof.
  intros auth [t|]; [|cbn; split; [discriminate|intros (_ & s & ? & _); discriminate]]. unfold take_certificate. destruct auth; [|cbn; split; [discriminate|intros (? & _); discriminate]].
  destruct t as [v st p i m]. cbn [t_verify t_status t_peers t_init t_import]. unfold verified.
  destruct (v =? 0) eqn:V, (v =? E_NO_CERTIFICATE) eqn:V2, (st =? 0) eqn:ST, (p =? 0) eqn:P, (i =? 0) eqn:I, (m =? 0) eqn:M; cbn [negb andb orb fst];
    rewrite ?Z.eqb_eq, ?Z.eqb_neq in *; (split; [first [discriminate|intros _; split; [reflexivity|]; eexists; split; [reflexivity|]; cbn; auto]|
    intros (_ & s & E & (A & B & C) & D & F); injection E as <-; cbn in *; try reflexivity; congruence]).
Qed.
Lemma take_dangling : forall auth t, fst (take_certificate auth t) = Dangling -> exists s, t = Some s /\ verified s /\ t_import s <> 0.
Proof.
  intros auth [t|]; [|discriminate]. unfold take_certificate. destruct auth; [|discriminate]. destruct t as [v st p i m]. cbn [t_verify t_status t_peers t_init t_import]. unfold verified.
  destruct (v =? 0) eqn:V, (v =? E_NO_CERTIFICATE) eqn:V2, (st =? 0) eqn:ST, (p =? 0) eqn:P, (i =? 0) eqn:I, (m =? 0) eqn:M; cbn [negb andb orb fst]; rewrite ?Z.eqb_eq, ?Z.eqb_neq in *;
  first [discriminate|intros _; eexists; (split; [reflexivity|]); cbn; auto].
Qed.
Lemma take_cases : forall auth t, take_certificate auth t = (NoCert, []) \/ take_certificate auth t = (Held, [New Cert]) \/ take_certificate auth t = (Dangling, [New Cert; Release Cert]).
Proof.
  intros auth [t|]; [|left; reflexivity]. unfold take_certificate. destruct auth; [|left; reflexivity]. destruct t as [v st p i m]. cbn [t_verify t_status t_peers t_init t_import].
  destruct (v =? 0) eqn:V, (v =? E_NO_CERTIFICATE) eqn:V2, (st =? 0) eqn:ST, (p =? 0) eqn:P, (i =? 0) eqn:I, (m =? 0) eqn:M; cbn [negb andb orb]; auto.
Qed.
Lemma later_ok : forall l c, cn_request c <> None -> later_calls l c = Ret tt.
Proof.
  induction l as [|a l IH]; intros c H; auto. cbn [later_calls]. unfold later_call. destruct (cn_request c) eqn:E; [|congruence]. unfold bind. destruct a; auto. apply IH. congruence.
Qed.
Lemma life_balanced : forall uri i l, 16 <= zlen (f_peer i) -> readable (f_tls i) -> exists tr, life plenty uri i l = Ret tr /\ balanced tr.
Proof.
  intros uri i l A R. unfold life. set (uu := uri_logger plenty uri). cbn in uu. subst uu. unfold bind at 1. cbn [fst snd]. unfold first_call. cbn [cn_request].
  assert (NC : fst (take_certificate (f_auth i) (f_tls i)) <> Dangling).
  { intros D. destruct (take_dangling _ _ D) as (s & E & V & M). unfold readable in R. rewrite E in R. auto. }
  pose proof (take_cases (f_auth i) (f_tls i)) as TC.
  assert (P : (zlen (f_peer i) <? ADDRESS) = false) by (apply Z.ltb_ge; unfold ADDRESS; lia).
  destruct (take_certificate (f_auth i) (f_tls i)) as (crt & ev). cbn [fst] in NC. rewrite P.
  assert (SH : (crt = NoCert /\ ev = []) \/ (crt = Held /\ ev = [New Cert])).
  { destruct TC as [T|[T|T]]; injection T as -> ->; auto. congruence. }
  clear TC NC R P A.
  destruct (f_al_address i), (f_al_verb i); cbn [negb andb];
  destruct SH as [(-> & ->)|(-> & ->)]; cbn [rq_url rq_path rq_cert cn_post];
  (destruct (wants_post (f_allowed i) (f_content i)); [destruct (f_al_post i)|]); unfold bind at 1; cbn [fst snd clean_request rq_cert];
  try (unfold bind at 1; cbn [fst snd]); rewrite ?later_ok by (cbn; discriminate); unfold bind; cbn [request_completed cn_request clean_request rq_cert cn_has_post cn_post]; unfold bind;
  eexists; (split; [reflexivity|]); reflexivity.
Qed.
