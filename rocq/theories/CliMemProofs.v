(** Proofs about the memory of websockets opened by a client (C101): the extensions and the answer. *)
From Coq Require Import String ZArith Bool List Lia.
From Verif Require Import Base BaseFacts StrModel UMapModel UMapProofs OwnModel OwnSpec OwnProofs MapMemModel MapMemSpec MapMemProofs MapMemPut MapMemRun MapMemSteps
  RespMemModel RespMemSpec RespMemProofs RespMemSteps WsMemModel WsMemSpec WsMemProofs WsMemCalls HandMemModel HandMemSpec HandMemProofs CliMemModel CliMemSpec.
Import ListNotations.
Open Scope Z_scope.
Open Scope list_scope.

(** ** extensions *)
Definition cabs (e : nat * wext) : cext :=
  mk_cext (ptext (x_client (snd e))) (ptext (x_server (snd e))) (x_rsv (snd e)) (x_fun (snd e)) (x_on (snd e))
    (match x_context (snd e) with None => None | Some None => Some false | Some (Some _) => Some true end).
Definition good (E : cenv) (e : nat * wext) : Prop :=
  (c_free E (x_fun (snd e)) = true -> c_match E (x_fun (snd e)) <> None) /\
  (x_on (snd e) = true -> c_free E (x_fun (snd e)) = true -> x_context (snd e) <> None).
Definition put_server (w : wext) (n : ptr str) (on : bool) (c : member (ptr unit)) : wext := mk_wext n (x_client w) (x_rsv w) (x_fun w) on c.
Lemma csame_refl : forall e, same_cext e e.
Proof. intros e. unfold same_cext. auto. Qed.
Lemma f2_csame : forall l, Forall2 same_cext l l.
Proof. induction l; constructor; auto using csame_refl. Qed.
Lemma f2_csame_trans : forall a b c, Forall2 same_cext a b -> Forall2 same_cext b c -> Forall2 same_cext a c.
Proof.
  intros a b c F. revert c. induction F as [|x y a b X F IH]; intros c G; inversion G as [|? z ? c' Y G']; subst; constructor; auto.
  unfold same_cext in *. destruct X as (X1 & X2 & X3), Y as (Y1 & Y2 & Y3). split; [congruence|]. split; congruence.
Qed.
Lemma len_cctx : forall e, List.length (ctx e) = one_if (holds (cabs e)).
Proof. intros [i e]. unfold ctx, cabs, holds. cbn [snd e_ctx]. destruct (x_context e) as [[[c u]|]|]; reflexivity. Qed.
Lemma body_puts : forall i w n on c x, (cnt (body (i, put_server w n on c)) x + cnt (ptr_blocks (x_server w)) x = cnt (body (i, w)) x + cnt (ptr_blocks n) x)%nat.
Proof. intros i w n on c x. unfold body. cbn [fst snd put_server x_server x_client]. rewrite !cnt_cons, !cnt_app. lia. Qed.

Section Match.
Variable E : cenv.
Definition celem_result (m : mem) (ids : list nat) (es : list (nat * wext)) (r : outcome (mem * (Z * (bool * list (ptr wext))))) (ar : Z * (bool * (list cext * nat))) : Prop :=
  exists m' exp' ok es' more, r = Ret (m', (exp', (ok, map Some es'))) /\ later m m' /\ Forall (good E) es' /\
    mowns m' (flat_map xb es' ++ more ++ ids) /\
    (ar = (exp', (ok, (map cabs es', List.length more))) \/ short m) /\ Forall2 same_cext (map cabs es) (map cabs es') /\
    (Forall (plain_cext E) (map cabs es) -> more = [] /\ Forall (plain_cext E) (map cabs es')).

Lemma x_celem_ok : forall tok es m exp ids, Forall (good E) es -> mowns m (flat_map xb es ++ ids) ->
  celem_result m ids es (x_celem E tok m exp (map Some es)) (a_celem E tok exp (map cabs es)).
Proof.
  intros tok es. induction es as [|[i w] es IH]; intros m exp ids C W.
  - exists m, exp, false, [], []. cbn [map x_celem a_celem flat_map app]. split; [reflexivity|]. split; [eapply later_refl; eauto|]. split; [constructor|].
    split; [exact W|]. split; [now left|]. split; [constructor|]. auto.
  - inversion C as [|? ? C1 C2]; subst.
    (* the loop goes on with the next extension *)
    assert (NEXT : forall m1 w1 lost, good E (i, w1) -> mowns m1 (xb (i, w1) ++ flat_map xb es ++ lost ++ ids) -> later m m1 ->
      same_cext (cabs (i, w)) (cabs (i, w1)) -> (plain_cext E (cabs (i, w)) -> lost = [] /\ plain_cext E (cabs (i, w1))) ->
      celem_result m ids ((i, w) :: es)
        (do x <- x_celem E tok m1 exp (map Some es); let '(m2, (b, (ok, r1))) := x in Ret (m2, (b, (ok, Some (i, w1) :: r1))))
        (let '(b, (ok, (r1, k))) := a_celem E tok exp (map cabs es) in (b, (ok, (cabs (i, w1) :: r1, (List.length lost + k)%nat))))).
    { intros m1 w1 lost CW W1 L1 SE PL.
      assert (W2 : mowns m1 (flat_map xb es ++ (xb (i, w1) ++ lost ++ ids))) by mowns_by W1.
      destruct (IH m1 exp _ C2 W2) as (m' & exp' & ok & es' & more & R & L & CS & W3 & EX & SM & PN).
      rewrite R. unfold bind. exists m', exp', ok, ((i, w1) :: es'), (lost ++ more). split; [reflexivity|]. split; [chain|]. split; [constructor; assumption|]. split.
      - cbn [flat_map]. mowns_by W3.
      - split; [|split].
        + destruct EX as [EX|SH]; [left|right; apply L1, SH]. rewrite EX. cbn [map]. now rewrite app_length.
        + cbn [map]. constructor; assumption.
        + intros FP. cbn [map] in FP. inversion FP as [|? ? P1 P2]; subst. destruct (PL P1) as [-> P3], (PN P2) as [-> P4]. split; [reflexivity|]. cbn [map]. constructor; assumption. }
    cbn [map x_celem a_celem].
    rewrite (x_deref_ok _ m i w _ W) by (cbn [flat_map]; now left). unfold bind at 1. cbn [snd fst].
    assert (LST : mowns m (xb (i, w) ++ flat_map xb es ++ [] ++ ids)) by (cbn [flat_map] in W; mowns_by W).
    assert (SKIP : celem_result m ids ((i, w) :: es)
        (do x <- x_celem E tok m exp (map Some es); let '(m2, (b, (ok, r1))) := x in Ret (m2, (b, (ok, Some (i, w) :: r1))))
        (let '(b, (ok, (r1, k))) := a_celem E tok exp (map cabs es) in (b, (ok, (cabs (i, w) :: r1, (0 + k)%nat))))).
    { apply (NEXT m w []); [exact C1|exact LST|eapply later_refl; eauto|apply csame_refl|auto]. }
    assert (GOOD : forall n on c, (on = true -> c_free E (x_fun w) = true -> c <> None) -> good E (i, put_server w n on c)).
    { intros n on c H. destruct C1 as [C1 _]. split; cbn [snd put_server x_fun x_on x_context] in *; auto. }
    (* the extension is left with another context *)
    assert (KEEP : forall m1 m2 c, later m m2 -> mowns m2 (xb (i, w) ++ flat_map xb es ++ [] ++ ids) -> m1 = m2 -> c = Some None ->
      c_match E (x_fun w) <> None ->
      celem_result m ids ((i, w) :: es)
        (do x <- x_celem E tok m1 exp (map Some es); let '(m2, (b, (ok, r1))) := x in Ret (m2, (b, (ok, Some (i, put_server w (x_server w) false c) :: r1))))
        (let '(b, (ok, (r1, k))) := a_celem E tok exp (map cabs es) in (b, (ok, (keep_ctx (cabs (i, w)) (Some false) :: r1, (one_if (holds (cabs (i, w))) + k)%nat))))).
    { intros m1 m2 c L2 W2 -> -> NF. rewrite <- len_cctx.
      change (keep_ctx (cabs (i, w)) (Some false)) with (cabs (i, put_server w (x_server w) false (Some None))).
      apply NEXT; [apply GOOD; discriminate| |exact L2|unfold same_cext; auto|].
      - eapply mowns_ext; [exact W2|]. intros x. rewrite !cnt_app. rewrite (xb_body i w), (xb_body i (put_server _ _ _ _)).
        replace (cnt (ctx (i, put_server w (x_server w) false (Some None))) x) with 0%nat by reflexivity.
        generalize (body_puts i w (x_server w) false (Some None) x). rewrite cnt_nil. lia.
      - intros (P1 & P2 & P3). exfalso. cbn [cabs e_fun snd] in P1. contradiction. }
    cbn [cabs e_on snd]. destruct (x_on w) eqn:ON; [exact SKIP|]. cbn [cabs e_fun e_rsv e_name snd].
    (* the extension was found *)
    assert (FOUND : forall m1 c lost n2 k1 (aok : cext), later m m1 ->
      mowns m1 (body (i, w) ++ ctx (i, put_server w None true c) ++ flat_map xb es ++ lost ++ ids) ->
      n2 = List.length lost -> aok = agree (cabs (i, w)) (trim_left tok) (match c with None => None | Some None => Some false | Some (Some _) => Some true end) ->
      k1 = keep_ctx (cabs (i, w)) (match c with None => None | Some None => Some false | Some (Some _) => Some true end) ->
      (c_free E (x_fun w) = true -> c <> None) ->
      (plain_cext E (cabs (i, w)) -> lost = [] /\ (match c with Some (Some _) => False | _ => True end)) ->
      celem_result m ids ((i, w) :: es)
        (if Z.land (x_rsv w) exp =? 0 then
           let '(n, m2) := x_strdup m1 (Some (trim_left tok)) in Ret (m2, (Z.lor exp (x_rsv w), (true, Some (i, put_server w n true c) :: map Some es)))
         else Ret (m1, (exp, (false, Some (i, put_server w (x_server w) false c) :: map Some es))))
        (if Z.land (x_rsv w) exp =? 0 then (Z.lor exp (x_rsv w), (true, (aok :: map cabs es, (n2 + one_if (has (e_text (cabs (i, w)))))%nat)))
         else (exp, (false, (k1 :: map cabs es, n2))))).
    { intros m1 c lost n2 k1 aok L1 W1 -> -> -> CF PL. destruct (Z.land (x_rsv w) exp =? 0).
      - destruct (x_strdup_ok m1 (Some (trim_left tok)) _ W1) as (n & m2 & -> & L2 & W2 & TX).
        exists m2, (Z.lor exp (x_rsv w)), true, ((i, put_server w n true c) :: es), (lost ++ ptr_blocks (x_server w)).
        split; [reflexivity|]. split; [chain|]. split; [constructor; [apply GOOD; auto|exact C2]|]. split; [|split; [|split]].
        + eapply mowns_ext; [exact W2|]. intros x. cbn [flat_map]. rewrite !cnt_app, (xb_body i (put_server _ _ _ _)).
          generalize (body_puts i w n true c x). change (ctx (i, put_server w n true c)) with (ctx (i, put_server w None true c)). lia.
        + rewrite app_length, len_ptr. cbn [cabs e_text snd]. rewrite has_ptext. destruct TX as [TX|(_ & SH & _)]; [left|right; apply L1, SH].
          cbn [map]. unfold agree, cabs. cbn [snd put_server x_client x_server x_rsv x_fun x_on x_context e_name e_rsv e_fun]. now rewrite TX.
        + cbn [map]. constructor; [unfold same_cext; auto|apply f2_csame].
        + intros FP. cbn [map] in FP. inversion FP as [|? ? P P4]; subst. destruct (PL P) as [-> PC]. destruct P as (P1 & P2 & P3). cbn [cabs e_fun e_on e_text snd] in P1, P3.
          specialize (P3 ON). apply ptext_none in P3. rewrite P3. split; [reflexivity|]. cbn [map]. constructor; [|exact P4]. unfold plain_cext, cabs. cbn [e_fun e_on e_text holds e_ctx snd put_server x_fun x_on x_context].
          split; [exact P1|]. split; [destruct c as [[?|]|]; [contradiction|reflexivity|reflexivity]|discriminate].
      - exists m1, exp, false, ((i, put_server w (x_server w) false c) :: es), lost.
        split; [reflexivity|]. split; [chain|]. split; [constructor; [apply GOOD; discriminate|exact C2]|]. split; [|split; [|split]].
        + eapply mowns_ext; [exact W1|]. intros x. cbn [flat_map]. rewrite !cnt_app, (xb_body i (put_server _ _ _ _)).
          generalize (body_puts i w (x_server w) false c x). change (ctx (i, put_server w (x_server w) false c)) with (ctx (i, put_server w None true c)). lia.
        + left. reflexivity.
        + cbn [map]. constructor; [unfold same_cext; auto|apply f2_csame].
        + intros FP. cbn [map] in FP. inversion FP as [|? ? P P4]; subst. destruct (PL P) as [-> PC]. destruct P as (P1 & P2 & P3). split; [reflexivity|]. cbn [map]. constructor; [|exact P4].
          cbn [cabs e_fun e_on e_text snd] in P1, P3. unfold plain_cext, cabs. cbn [e_fun e_on e_text holds e_ctx snd put_server x_fun x_on x_context].
          split; [exact P1|]. split; [destruct c as [[?|]|]; [contradiction|reflexivity|reflexivity]|auto]. }
    destruct (c_match E (x_fun w)) as [f|] eqn:FW.
    + destruct (f (trim tok)) as [| |t].
      * exact SKIP.
      * destruct (x_malloc_ok _ _ LST) as (c & m1 & -> & L1 & CA).
        assert (FR : exists m2, x_free m1 c = Ret m2 /\ mowns m2 (xb (i, w) ++ flat_map xb es ++ [] ++ ids) /\ later m1 m2).
        { destruct CA as [(q & -> & W1)|(-> & _ & W1)].
          - destruct (x_free_ok _ _ _ W1) as (m2 & E2 & W2 & L2 & _). eauto.
          - exists m1. split; [reflexivity|]. split; [exact W1|]. eapply later_refl; eauto. }
        destruct FR as (m2 & -> & W2 & L2). unfold bind at 1. eapply KEEP; [|exact W2|reflexivity|reflexivity|discriminate]. chain.
      * destruct (x_malloc_ok _ _ LST) as (c & m1 & -> & L1 & [(q & -> & W1)|(-> & SH & W1)]).
        -- apply (FOUND m1 (Some (Some (q, tt))) (ctx (i, w))); [exact L1| |now rewrite len_cctx|reflexivity|reflexivity|discriminate|].
           ++ eapply mowns_ext; [exact W1|]. intros x. rewrite !cnt_cons, !cnt_app, (xb_body i w), cnt_nil.
              replace (cnt (ctx (i, put_server w None true (Some (Some (q, tt))))) x) with (cnt [q] x) by reflexivity. rewrite cnt_cons, cnt_nil. lia.
           ++ intros (P1 & _). exfalso. cbn [cabs e_fun snd] in P1. congruence.
        -- edestruct (KEEP m1 m1 (Some None) L1 W1 eq_refl eq_refl) as (m' & exp' & ok & es' & more & R & L & CS & W3 & EX & SM & PN); [discriminate|].
           exists m', exp', ok, es', more. split; [exact R|]. split; [exact L|]. split; [exact CS|]. split; [exact W3|]. split; [right; exact SH|]. auto.
    + assert (RT : (match x_client w with None => Ret None | Some _ => do y <- x_deref m (x_client w); Ret (Some (snd y)) end) = Ret (ptext (x_client w))).
      { destruct (x_client w) as [[j s]|] eqn:XS; [|reflexivity]. rewrite (x_deref_ok _ m j s _ W); [reflexivity|].
        cbn [flat_map]. apply in_or_app. left. apply in_or_app. left. unfold xb. cbn [wext_blocks]. right. apply in_or_app. right. apply in_or_app. left. rewrite XS. now left. }
      rewrite RT. unfold bind at 1.
      destruct (match ptext (x_client w) with Some s => str_eqb (trim tok) s | None => false end); [|exact SKIP].
      assert (KE : cabs (i, w) = keep_ctx (cabs (i, w)) (e_ctx (cabs (i, w)))) by (unfold keep_ctx, cabs; cbn [snd e_name e_text e_rsv e_fun e_on e_ctx]; now rewrite ON).
      apply (FOUND m (x_context w) [] 0%nat (cabs (i, w)) (agree (cabs (i, w)) (trim_left tok) (e_ctx (cabs (i, w))))); [eapply later_refl; eauto| |reflexivity|reflexivity|exact KE| |].
      * eapply mowns_ext; [exact LST|]. intros x. rewrite !cnt_app, (xb_body i w), cnt_nil. change (ctx (i, put_server w None true (x_context w))) with (ctx (i, w)). lia.
      * intros CF. destruct C1 as [C1 _]. cbn [snd] in C1. specialize (C1 CF). contradiction.
      * intros (_ & P2 & _). split; [reflexivity|]. unfold holds, cabs in P2. cbn [snd e_ctx] in P2. destruct (x_context w) as [[?|]|]; [discriminate|exact Logic.I|exact Logic.I].
Qed.

Lemma x_celems_ok : forall l es m exp ids, Forall (good E) es -> mowns m (flat_map xb es ++ ids) ->
  celem_result m ids es (x_celems E l m exp (map Some es)) (a_celems E l exp (map cabs es)).
Proof.
  induction l as [|tok l IH]; intros es m exp ids C W.
  - exists m, exp, true, es, []. cbn [x_celems a_celems app]. split; [reflexivity|]. split; [eapply later_refl; eauto|]. split; [exact C|]. split; [exact W|]. split; [now left|]. split; [apply f2_csame|auto].
  - cbn [x_celems a_celems]. destruct (x_celem_ok tok es m exp ids C W) as (m1 & b & ok & es1 & more & -> & L1 & C1 & W1 & EX & SM & PN). unfold bind at 1.
    destruct ok.
    + destruct (IH es1 m1 b _ C1 W1) as (m2 & b2 & ok2 & es2 & more2 & -> & L2 & C2 & W2 & EX2 & SM2 & PN2).
      exists m2, b2, ok2, es2, (more ++ more2). split; [reflexivity|]. split; [chain|]. split; [exact C2|]. split; [mowns_by W2|]. split; [|split].
      * destruct EX as [EX|SH]; [|now right]. destruct EX2 as [EX2|SH2]; [left|right; apply L1, SH2]. now rewrite EX, EX2, app_length.
      * eapply f2_csame_trans; eassumption.
      * intros FP. destruct (PN FP) as [-> P1]. destruct (PN2 P1) as [-> P2]. auto.
    + exists m1, b, false, es1, more. split; [reflexivity|]. split; [exact L1|]. split; [exact C1|]. split; [exact W1|]. split; [|auto].
      destruct EX as [EX|SH]; [left; now rewrite EX|now right].
Qed.
End Match.
