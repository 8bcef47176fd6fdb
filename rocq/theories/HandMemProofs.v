(** Proofs about the memory of websockets opened by the server (C100). *)
From Coq Require Import String ZArith Bool List Lia.
From Verif Require Import Base BaseFacts UMapModel UMapProofs OwnModel OwnSpec OwnProofs MapMemModel MapMemSpec MapMemProofs MapMemPut MapMemRun MapMemSteps
  RespMemModel RespMemSpec RespMemProofs RespMemSteps WsMemModel WsMemSpec WsMemProofs WsMemCalls HandMemModel HandMemSpec.
Import ListNotations.
Open Scope Z_scope.
Open Scope list_scope.

(** ** extensions *)
Definition ctx_of (w : wext) : bool := match x_context w with Some (Some _) => true | _ => false end.
Definition absx (e : nat * wext) : sext :=
  mk_sext (ptext (x_server (snd e))) (ptext (x_client (snd e))) (x_rsv (snd e)) (x_fun (snd e)) (x_on (snd e)) (ctx_of (snd e)).
Definition cset (e : nat * wext) : Prop := x_context (snd e) <> None.
Lemma same_refl : forall e, same_ext e e.
Proof. intros e. unfold same_ext. auto. Qed.
Lemma f2_same : forall l, Forall2 same_ext l l.
Proof. induction l; constructor; auto using same_refl. Qed.
Lemma f2_same_trans : forall a b c, Forall2 same_ext a b -> Forall2 same_ext b c -> Forall2 same_ext a c.
Proof.
  intros a b c F. revert c. induction F as [|x y a b X F IH]; intros c G; inversion G as [|? z ? c' Y G']; subst; constructor; auto.
  unfold same_ext in *. destruct X as (X1 & X2 & X3), Y as (Y1 & Y2 & Y3). split; [congruence|]. split; congruence.
Qed.
Lemma len_ptr : forall A (p : ptr A), List.length (ptr_blocks p) = one_if (has p).
Proof. intros A [[i a]|]; reflexivity. Qed.
Lemma has_ptext : forall p, has (ptext p) = has p.
Proof. intros [[i s]|]; reflexivity. Qed.
Lemma len_ctx : forall e, cset e -> List.length (ctx e) = one_if (s_ctx (absx e)).
Proof. intros [i e] C. unfold ctx, absx, ctx_of, cset in *. cbn [snd s_ctx] in *. destruct (x_context e) as [[[c u]|]|]; [reflexivity|reflexivity|contradiction]. Qed.

Lemma x_grow_text_ok : forall m ans t ids, mowns m (ptr_blocks ans ++ ids) -> exists m' p, x_grow_text m ans t = Ret (m', p) /\ later m m' /\ mowns m' (ptr_blocks p ++ ids).
Proof.
  intros m ans t ids W. unfold x_grow_text. destruct ans as [[i a]|].
  - match goal with |- context [x_strdup m ?s] => destruct (x_strdup_ok m s _ W) as (p & m1 & -> & L1 & W1 & _) end.
    assert (W2 : mowns m1 (ptr_blocks (Some (i, a)) ++ (ptr_blocks p ++ ids))) by mowns_by W1.
    destruct (x_free_ptr _ _ _ _ W2) as (m2 & -> & W3 & L2). unfold bind. do 2 eexists. split; [reflexivity|]. split; [chain|exact W3].
  - match goal with |- context [x_strdup m ?s] => destruct (x_strdup_ok m s _ W) as (p & m1 & -> & L1 & W1 & _) end. do 2 eexists. split; [reflexivity|]. split; [exact L1|exact W1].
Qed.

Section Match.
Variable F : matches_of.
Variable toks : list str.
Definition offer_result (tok : str) (m : mem) (exp : Z) (ids : list nat) (es : list (nat * wext)) (r : outcome (mem * (Z * (ptr str * list (ptr wext)))))
  (ar : Z * (list sext * nat)) : Prop :=
  exists m' exp' ans' es' more, r = Ret (m', (exp', (ans', map Some es'))) /\ later m m' /\ Forall cset es' /\
    mowns m' (flat_map xb es' ++ ptr_blocks ans' ++ more ++ ids) /\
    (ar = (exp', (map absx es', List.length more)) \/ short m) /\ Forall2 same_ext (map absx es) (map absx es') /\
    (Forall (plain_ext F) (map absx es) -> more = [] /\ Forall (plain_ext F) (map absx es')).

Lemma xb_body : forall i w x, cnt (xb (i, w)) x = (cnt (ctx (i, w)) x + cnt (body (i, w)) x)%nat.
Proof. intros i w x. generalize (xb_split [(i, w)] x). cbn [flat_map]. rewrite !app_nil_r. auto. Qed.

Lemma body_put : forall i w n on c x, (cnt (body (i, put_client w n on c)) x + cnt (ptr_blocks (x_client w)) x = cnt (body (i, w)) x + cnt (ptr_blocks n) x)%nat.
Proof. intros i w n on c x. unfold body. cbn [fst snd put_client x_server x_client]. rewrite !cnt_cons, !cnt_app. lia. Qed.

Lemma absx_put : forall i w n on c t, ptext n = Some t -> absx (i, put_client w n on c) = accept (absx (i, w)) t on (match c with Some (Some _) => true | _ => false end).
Proof. intros i w n on c t E. unfold absx, accept. cbn [snd put_client x_server x_client x_rsv x_fun x_on s_name s_rsv s_fun]. now rewrite E. Qed.

Lemma x_offer_ok : forall tok es m exp ans ids, Forall cset es -> mowns m (flat_map xb es ++ ptr_blocks ans ++ ids) ->
  offer_result tok m exp ids es (x_offer F toks tok m exp ans (map Some es)) (a_offer F toks tok exp (map absx es)).
Proof.
  intros tok es. induction es as [|[i w] es IH]; intros m exp ans ids C W.
  - exists m, exp, ans, [], []. cbn [map x_offer a_offer flat_map app]. split; [reflexivity|]. split; [eapply later_refl; eauto|]. split; [constructor|].
    split; [exact W|]. split; [now left|]. split; [constructor|]. auto.
  - inversion C as [|? ? C1 C2]; subst.
    (* the loop goes on with the next extension *)
    assert (NEXT : forall m1 w1 lost, cset (i, w1) -> mowns m1 (xb (i, w1) ++ flat_map xb es ++ ptr_blocks ans ++ lost ++ ids) -> later m m1 ->
      same_ext (absx (i, w)) (absx (i, w1)) -> (plain_ext F (absx (i, w)) -> lost = [] /\ plain_ext F (absx (i, w1))) ->
      offer_result tok m exp ids ((i, w) :: es)
        (do x <- x_offer F toks tok m1 exp ans (map Some es); let '(m2, (b, (a, r1))) := x in Ret (m2, (b, (a, Some (i, w1) :: r1))))
        (let '(b, (r1, k)) := a_offer F toks tok exp (map absx es) in (b, (absx (i, w1) :: r1, (List.length lost + k)%nat)))).
    { intros m1 w1 lost CW W1 L1 SE PL.
      assert (W2 : mowns m1 (flat_map xb es ++ ptr_blocks ans ++ (xb (i, w1) ++ lost ++ ids))) by mowns_by W1.
      destruct (IH m1 exp ans _ C2 W2) as (m' & exp' & ans' & es' & more & R & L & CS & W3 & EX & SM & PN).
      rewrite R. unfold bind. exists m', exp', ans', ((i, w1) :: es'), (lost ++ more). split; [reflexivity|]. split; [chain|]. split; [constructor; assumption|]. split.
      - cbn [flat_map]. mowns_by W3.
      - split; [|split].
        + destruct EX as [EX|SH]; [left|right; apply L1, SH]. rewrite EX. cbn [map]. now rewrite app_length.
        + cbn [map]. constructor; assumption.
        + intros FP. cbn [map] in FP. inversion FP as [|? ? P1 P2]; subst. destruct (PL P1) as [-> P3], (PN P2) as [-> P4]. split; [reflexivity|]. cbn [map]. constructor; assumption. }
    cbn [map x_offer a_offer].
    rewrite (x_deref_ok _ m i w _ W) by (cbn [flat_map]; now left). unfold bind at 1. cbn [snd fst]. cbn [absx s_on snd].
    assert (LST : cset (i, w) -> mowns m (xb (i, w) ++ flat_map xb es ++ ptr_blocks ans ++ [] ++ ids)) by (intros _; cbn [flat_map] in W; mowns_by W).
    assert (SKIP : offer_result tok m exp ids ((i, w) :: es)
        (do x <- x_offer F toks tok m exp ans (map Some es); let '(m2, (b, (a, r1))) := x in Ret (m2, (b, (a, Some (i, w) :: r1))))
        (let '(b, (r1, k)) := a_offer F toks tok exp (map absx es) in (b, (absx (i, w) :: r1, (0 + k)%nat)))).
    { apply (NEXT m w []); [exact C1|exact (LST C1)|eapply later_refl; eauto|apply same_refl|auto]. }
    destruct (x_on w) eqn:ON; [exact SKIP|]. unfold absx at 1. cbn [s_fun snd].
    destruct (F (x_fun w)) as [f|] eqn:FW.
    + destruct (f tok toks) as [| |t].
      * exact SKIP.
      * destruct (x_malloc_ok _ _ (LST C1)) as (c & m1 & -> & L1 & CA).
        assert (FR : exists m2, x_free m1 c = Ret m2 /\ mowns m2 (xb (i, w) ++ flat_map xb es ++ ptr_blocks ans ++ [] ++ ids) /\ later m1 m2).
        { destruct CA as [(q & -> & W1)|(-> & _ & W1)].
          - destruct (x_free_ok _ _ _ W1) as (m2 & E2 & W2 & L2 & _). eauto.
          - exists m1. split; [reflexivity|]. split; [exact W1|]. eapply later_refl; eauto. }
        destruct FR as (m2 & -> & W2 & L2). unfold bind at 1. rewrite <- (len_ctx _ C1).
        change (refuse (absx (i, w))) with (absx (i, put_client w (x_client w) false (Some None))).
        apply NEXT; [discriminate| |chain|unfold same_ext; auto|].
        -- eapply mowns_ext; [exact W2|]. intros x. rewrite !cnt_app. rewrite (xb_body i w), (xb_body i (put_client _ _ _ _)).
           replace (cnt (ctx (i, put_client w (x_client w) false (Some None))) x) with 0%nat by reflexivity.
           replace (body (i, put_client w (x_client w) false (Some None))) with (body (i, w)) by reflexivity. rewrite cnt_nil. lia.
        -- intros (P1 & P2 & P3). exfalso. unfold absx in P1. cbn [s_fun snd] in P1. congruence.
      * destruct (x_malloc_ok _ _ (LST C1)) as (c & m1 & -> & L1 & [(q & -> & W1)|(-> & SH & W1)]).
        -- assert (W1' : mowns m1 (q :: (body (i, w) ++ ctx (i, w) ++ flat_map xb es ++ ptr_blocks ans ++ ids))).
           { eapply mowns_ext; [exact W1|]. intros x. rewrite !cnt_cons, !cnt_app, (xb_body i w), cnt_nil. lia. }
           destruct (x_strdup_ok m1 (Some t) _ W1') as (n & m2 & -> & L2 & W2 & TX). cbn [absx s_rsv snd].
           assert (KEY : forall on m3 a2, later m2 m3 -> mowns m3 (ptr_blocks a2 ++ (ptr_blocks n ++ q :: (body (i, w) ++ ctx (i, w) ++ flat_map xb es ++ ids))) ->
             forall b, offer_result tok m exp ids ((i, w) :: es) (Ret (m3, (b, (a2, Some (i, put_client w n on (Some (Some (q, tt)))) :: map Some es))))
               (b, (accept (absx (i, w)) t on true :: map absx es, (one_if (s_ctx (absx (i, w))) + one_if (has (s_text (absx (i, w)))))%nat))).
           { intros on m3 a2 L3 W3 b. exists m3, b, a2, ((i, put_client w n on (Some (Some (q, tt)))) :: es), (ctx (i, w) ++ ptr_blocks (x_client w)).
             split; [reflexivity|]. split; [chain|]. split; [constructor; [discriminate|exact C2]|]. split.
             { eapply mowns_ext; [exact W3|]. intros x. cbn [flat_map]. rewrite !cnt_app. rewrite (xb_body i (put_client _ _ _ _)).
               generalize (body_put i w n on (Some (Some (q, tt))) x). replace (cnt (ctx (i, put_client w n on (Some (Some (q, tt))))) x) with (cnt [q] x) by reflexivity.
               rewrite !cnt_cons, !cnt_app, cnt_nil. lia. }
             split; [|split].
             - rewrite app_length, (len_ctx _ C1), len_ptr. cbn [absx s_text snd]. rewrite has_ptext. destruct TX as [TX|(_ & SH & _)]; [left|right; apply L1, SH].
               cbn [map]. rewrite (absx_put _ _ _ _ _ _ TX). reflexivity.
             - cbn [map]. constructor; [unfold same_ext; auto|apply f2_same].
             - intros FP. cbn [map] in FP. inversion FP as [|? ? (P1 & _) P2]; subst. unfold absx in P1. cbn [s_fun snd] in P1. congruence. }
           destruct (Z.land (x_rsv w) exp =? 0).
           ++ assert (W3 : mowns m2 (ptr_blocks ans ++ (ptr_blocks n ++ q :: (body (i, w) ++ ctx (i, w) ++ flat_map xb es ++ ids)))).
              { eapply mowns_ext; [exact W2|]. intros x. rewrite !cnt_app, !cnt_cons, !cnt_app. lia. }
              destruct (x_grow_text_ok m2 ans n _ W3) as (m3 & a2 & -> & L3 & W4). unfold bind at 1. cbn [fst snd]. apply (KEY true m3 a2 L3 W4).
           ++ apply (KEY false m2 ans); [eapply later_refl; eauto|]. eapply mowns_ext; [exact W2|]. intros x. rewrite !cnt_app, !cnt_cons, !cnt_app. lia.
        -- (* no memory for a context *)
           edestruct (NEXT m1 (put_client w (x_client w) false (Some None)) (ctx (i, w))) as (m' & exp' & ans' & es' & more & R & L & CS & W3 & EX & SM & PN).
           ++ discriminate.
           ++ eapply mowns_ext; [exact W1|]. intros x. rewrite !cnt_app. rewrite (xb_body i w), (xb_body i (put_client _ _ _ _)).
              replace (cnt (ctx (i, put_client w (x_client w) false (Some None))) x) with 0%nat by reflexivity.
              replace (body (i, put_client w (x_client w) false (Some None))) with (body (i, w)) by reflexivity. rewrite cnt_nil. lia.
           ++ exact L1.
           ++ unfold same_ext; auto.
           ++ intros (P1 & P2 & P3). exfalso. unfold absx in P1. cbn [s_fun snd] in P1. congruence.
           ++ exists m', exp', ans', es', more. split; [exact R|]. split; [exact L|]. split; [exact CS|]. split; [exact W3|]. split; [right; exact SH|]. auto.
    + assert (RT : (match x_server w with None => Ret None | Some _ => do y <- x_deref m (x_server w); Ret (Some (snd y)) end) = Ret (ptext (x_server w))).
      { destruct (x_server w) as [[j s]|] eqn:XS; [|reflexivity]. rewrite (x_deref_ok _ m j s _ W); [reflexivity|].
        cbn [flat_map]. apply in_or_app. left. apply in_or_app. left. unfold xb. cbn [wext_blocks]. right. apply in_or_app. left. rewrite XS. now left. }
      rewrite RT. unfold bind at 1. unfold absx at 1 2. cbn [s_name s_rsv snd].
      destruct ((match ptext (x_server w) with Some s => str_eqb tok s | None => false end) && (Z.land (x_rsv w) exp =? 0)); [|exact SKIP].
      assert (W1' : mowns m (body (i, w) ++ ctx (i, w) ++ flat_map xb es ++ ptr_blocks ans ++ ids)).
      { eapply mowns_ext; [exact (LST C1)|]. intros x. rewrite !cnt_app, (xb_body i w), cnt_nil. lia. }
      destruct (x_strdup_ok m (Some tok) _ W1') as (n & m2 & -> & L2 & W2 & TX).
      assert (W3 : mowns m2 (ptr_blocks ans ++ (ptr_blocks n ++ (body (i, w) ++ ctx (i, w) ++ flat_map xb es ++ ids)))).
      { eapply mowns_ext; [exact W2|]. intros x. rewrite !cnt_app. lia. }
      destruct (x_grow_text_ok m2 ans n _ W3) as (m3 & a2 & -> & L3 & W4). unfold bind at 1. cbn [fst snd].
      exists m3, (Z.lor exp (x_rsv w)), a2, ((i, put_client w n true (x_context w)) :: es), (ptr_blocks (x_client w)).
      split; [reflexivity|]. split; [chain|]. split; [constructor; [exact C1|exact C2]|]. split.
      { eapply mowns_ext; [exact W4|]. intros x. cbn [flat_map]. rewrite !cnt_app. rewrite (xb_body i (put_client _ _ _ _)).
        generalize (body_put i w n true (x_context w) x).
        change (ctx (i, put_client w n true (x_context w))) with (ctx (i, w)). lia. }
      split; [|split].
      * rewrite len_ptr. cbn [absx s_text snd s_rsv]. rewrite has_ptext. destruct TX as [TX|(_ & SH & _)]; [left|right; exact SH].
        cbn [map]. rewrite (absx_put _ _ _ _ _ _ TX). reflexivity.
      * cbn [map]. constructor; [unfold same_ext; auto|apply f2_same].
      * intros FP. cbn [map] in FP. inversion FP as [|? ? (P1 & P2 & P3) P4]; subst. unfold absx in P1, P2, P3. cbn [s_fun s_ctx s_on s_text snd] in P1, P2, P3.
        specialize (P3 ON). apply ptext_none in P3. rewrite P3. split; [reflexivity|]. cbn [map]. constructor; [|exact P4]. unfold plain_ext, absx. cbn [s_fun s_ctx s_on s_text snd put_client x_fun x_on].
        split; [exact P1|]. split; [exact P2|]. discriminate.
Qed.

Lemma x_offers_ok : forall l es m exp ans ids, Forall cset es -> mowns m (flat_map xb es ++ ptr_blocks ans ++ ids) ->
  offer_result [] m exp ids es (x_offers F l toks m exp ans (map Some es)) (a_offers F l toks exp (map absx es)).
Proof.
  induction l as [|tok l IH]; intros es m exp ans ids C W.
  - exists m, exp, ans, es, []. cbn [x_offers a_offers app]. split; [reflexivity|]. split; [eapply later_refl; eauto|]. split; [exact C|]. split; [exact W|]. split; [now left|]. split; [apply f2_same|auto].
  - cbn [x_offers a_offers]. destruct (x_offer_ok tok es m exp ans ids C W) as (m1 & b & a1 & es1 & more & -> & L1 & C1 & W1 & EX & SM & PN). unfold bind at 1.
    destruct (IH es1 m1 b a1 _ C1 W1) as (m2 & b2 & a2 & es2 & more2 & -> & L2 & C2 & W2 & EX2 & SM2 & PN2).
    exists m2, b2, a2, es2, (more ++ more2). split; [reflexivity|]. split; [chain|]. split; [exact C2|]. split; [mowns_by W2|]. split; [|split].
    + destruct EX as [EX|SH]; [|now right]. destruct EX2 as [EX2|SH2]; [left|right; apply L1, SH2]. now rewrite EX, EX2, app_length.
    + eapply f2_same_trans; eassumption.
    + intros FP. destruct (PN FP) as [-> P1]. destruct (PN2 P1) as [-> P2]. auto.
Qed.
End Match.

(** ** lists of extensions *)
Definition lfit (l : wexts) (es : list (nat * wext)) : Prop :=
  exists pl ar, l = Some (pl, ar) /\ match ar with None => es = [] | Some (_, x) => x = map Some es /\ es <> [] end.
Lemma lfit_ex : forall l es, lfit l es -> exfit l es.
Proof. intros l es (pl & [[pa x]|] & -> & H); cbn [exfit]; [apply H|exact H]. Qed.
Definition idle (e : nat * wext) : list nat := if x_on (snd e) then [] else ctx e.
Lemma len_contexts : forall es, Forall cset es -> List.length (flat_map ctx es) = contexts (map absx es).
Proof.
  induction es as [|e es IH]; intros C; [reflexivity|]. inversion C as [|? ? C1 C2]; subst. unfold contexts, number in *. cbn [flat_map map filter]. rewrite app_length, IH, (len_ctx _ C1) by exact C2.
  destruct (s_ctx (absx e)); reflexivity.
Qed.
Lemma len_idle : forall es, Forall cset es -> List.length (flat_map idle es) = idle_contexts (map absx es).
Proof.
  induction es as [|e es IH]; intros C; [reflexivity|]. inversion C as [|? ? C1 C2]; subst. unfold idle_contexts, number in *. cbn [flat_map map filter]. rewrite app_length, IH by exact C2.
  unfold idle at 1. change (s_on (absx e)) with (x_on (snd e)). destruct (x_on (snd e)); [now rewrite andb_false_r|]. rewrite andb_true_r, (len_ctx _ C1). destruct (s_ctx (absx e)); reflexivity.
Qed.
Lemma no_contexts : forall F es, Forall cset es -> Forall (plain_ext F) (map absx es) -> flat_map ctx es = [] /\ flat_map idle es = [].
Proof.
  intros F. induction es as [|e es IH]; intros C P; [auto|]. inversion C as [|? ? C1 C2]; subst. cbn [map] in P. inversion P as [|? ? (P1 & P2 & P3) P4]; subst. destruct (IH C2 P4) as [I1 I2].
  pose proof (len_ctx _ C1) as LC. rewrite P2 in LC. cbn [one_if] in LC. destruct (ctx e) eqn:CE; [|discriminate]. cbn [flat_map]. unfold idle at 1. rewrite CE, I1, I2. destruct (x_on (snd e)); auto.
Qed.
Lemma len_xb : forall es, Forall cset es -> List.length (flat_map xb es) = list_sum (map sext_size (map absx es)).
Proof.
  induction es as [|[i e] es IH]; intros C; [reflexivity|]. inversion C as [|? ? C1 C2]; subst. change (map sext_size (map absx ((i, e) :: es))) with (sext_size (absx (i, e)) :: map sext_size (map absx es)). cbn [flat_map list_sum fold_right].
  rewrite app_length, IH by exact C2. fold (list_sum (map sext_size (map absx es))). f_equal. unfold xb, sext_size. cbn [wext_blocks length]. rewrite !app_length, !len_ptr. change (of_member ptr_blocks (x_context e)) with (ctx (i, e)). rewrite (len_ctx _ C1).
  change (s_name (absx (i, e))) with (ptext (x_server e)). change (s_text (absx (i, e))) with (ptext (x_client e)). rewrite !has_ptext. lia.
Qed.
Lemma free_contexts_ok : forall es m ids, Forall cset es -> mowns m (flat_map ctx es ++ ids) -> incl (map fst es) ids ->
  exists m', x_free_contexts m (map Some es) = Ret m' /\ mowns m' (flat_map idle es ++ ids) /\ later m m'.
Proof.
  induction es as [|[i e] es IH]; intros m ids CS W C.
  - exists m. split; [reflexivity|]. split; [exact W|]. eapply later_refl; eauto.
  - inversion CS as [|? ? C1 C2]; subst. cbn [map x_free_contexts flat_map] in *. rewrite <- app_assoc in W.
    rewrite (x_deref_ok _ m i e _ W) by (apply in_or_app; right; apply in_or_app; right; apply C; now left). unfold bind at 2. cbn [snd].
    assert (G : exists m1, (if x_on e then (do c <- x_member (x_context e); x_free m (addr c)) else Ret m) = Ret m1 /\ mowns m1 (idle (i, e) ++ flat_map ctx es ++ ids) /\ later m m1).
    { unfold idle. cbn [snd]. destruct (x_on e).
      - unfold cset in C1. cbn [snd] in C1. unfold ctx in W at 1. cbn [snd] in W. destruct (x_context e) as [c|]; [|contradiction]. cbn [x_member of_member] in *. unfold bind at 1.
        destruct (x_free_ptr _ _ _ _ W) as (m1 & -> & W1 & L1). exists m1. auto.
      - exists m. split; [reflexivity|]. split; [exact W|]. eapply later_refl; eauto. }
    destruct G as (m1 & -> & W1 & L1). unfold bind at 1.
    assert (W1' : mowns m1 (flat_map ctx es ++ (idle (i, e) ++ ids))) by mowns_by W1.
    destruct (IH m1 _ C2 W1') as (m2 & -> & W2 & L2); [intros z Z; apply in_or_app; right; apply C; now right|]. exists m2. split; [reflexivity|]. split; [mowns_by W2|]. chain.
Qed.
(** a list is released, the contexts are not *)
Lemma clean_spine : forall l es m ids, exfit l es -> mowns m (flat_map body es ++ (spine l ++ ids)) ->
  exists m', (do m4 <- x_clean_wexts m l; x_free m4 (addr l)) = Ret m' /\ mowns m' ids /\ later m m'.
Proof.
  intros l es m1 ids A W1. unfold x_clean_wexts. destruct l as [[i [[j y]|]]|]; cbn [exfit spine ptr_blocks app addr] in *.
  - subst y. rewrite (x_deref_ok _ m1 i _ _ W1) by (apply in_or_app; right; now left). unfold bind at 2. cbn [snd].
    rewrite (x_deref_ok _ m1 j _ _ W1) by (apply in_or_app; right; right; now left). unfold bind at 2. cbn [fst snd].
    destruct (x_free_wexts_ok _ _ _ W1) as (m2 & -> & W2 & L2). unfold bind at 2.
    assert (W3 : mowns m2 (j :: i :: ids)) by mowns_by W2.
    destruct (x_free_ok _ _ _ W3) as (m3 & -> & W4 & L3 & _). unfold bind at 1.
    destruct (x_free_ok _ _ _ W4) as (m4 & -> & W5 & L4 & _). exists m4. split; [reflexivity|]. split; [exact W5|]. chain.
  - subst es. cbn [flat_map app] in W1. rewrite (x_deref_ok _ m1 i _ _ W1) by now left. unfold bind at 2. cbn [snd]. unfold bind at 1.
    destruct (x_free_ok _ _ _ W1) as (m4 & -> & W5 & L4 & _). exists m4. split; [reflexivity|]. split; [exact W5|]. chain.
  - subst es. unfold bind. cbn [x_free]. exists m1. split; [reflexivity|]. split; [exact W1|]. eapply later_refl; eauto.
Qed.
Lemma clean_list_ok : forall l es m ids, exfit l es -> mowns m (wexts_blocks l ++ ids) ->
  exists m', x_clean_handle_list m l = Ret m' /\ mowns m' (flat_map ctx es ++ ids) /\ later m m'.
Proof.
  intros l es m ids A W. unfold x_clean_handle_list. apply (clean_spine l es m (flat_map ctx es ++ ids) A).
  eapply mowns_ext; [exact W|]. intros x. rewrite cnt_app, (wexts_eq _ _ _ A), (xb_split es). repeat rewrite cnt_app. lia.
Qed.

(** ** the websocket *)
Definition vok (v : swebsocket) (es : list (nat * wext)) : Prop :=
  exists p pm li lo b exp q ex, v = (p, (Some (Some (pm, mk_hman b (Some (Some (li, mk_hlist None 0))) (Some (Some (lo, mk_hlist None 0))) true true exp (Some ex))), Some (q, tt))) /\
    lfit ex es /\ Forall cset es.
Lemma clear_man_ok : forall m b li lo exp ex es ids, exfit ex es -> Forall cset es -> mowns m (li :: lo :: wexts_blocks ex ++ ids) ->
  exists m', x_clear_man m (mk_hman b (Some (Some (li, mk_hlist None 0))) (Some (Some (lo, mk_hlist None 0))) true true exp (Some ex)) = Ret m' /\ mowns m' (flat_map idle es ++ ids) /\ later m m'.
Proof.
  intros m b li lo exp ex es ids A CS W. unfold x_clear_man. cbn [g_in g_out g_exts x_member]. unfold bind at 1.
  cbn [x_clear_list]. rewrite (x_deref_ok _ m li _ _ W) by now left. unfold bind at 2. cbn [snd l_arr l_len x_clear_msgs addr]. unfold bind at 2. change (x_free m None) with (Ret m). unfold bind at 2. unfold bind at 1. cbn [fst].
  destruct (x_free_ok _ _ _ W) as (m1 & -> & W1 & L1 & _). unfold bind at 1. unfold bind at 1.
  cbn [x_clear_list]. rewrite (x_deref_ok _ m1 lo _ _ W1) by now left. unfold bind at 2. cbn [snd l_arr l_len x_clear_msgs addr]. unfold bind at 2. change (x_free m1 None) with (Ret m1). unfold bind at 2. unfold bind at 1. cbn [fst].
  destruct (x_free_ok _ _ _ W1) as (m2 & -> & W2 & L2 & _). unfold bind at 1. unfold bind at 1.
  assert (W3 : mowns m2 (flat_map ctx es ++ (flat_map body es ++ (spine ex ++ ids)))).
  { eapply mowns_ext; [exact W2|]. intros x. rewrite cnt_app, (wexts_eq _ _ _ A), (xb_split es). repeat rewrite cnt_app. lia. }
  rewrite (x_elements_ok _ _ _ _ A W3) by (do 2 apply incl_appr; apply incl_appl, incl_refl). unfold bind at 1.
  destruct (free_contexts_ok _ _ _ CS W3) as (m3 & -> & W4 & L3); [apply incl_appl, body_in|]. unfold bind at 1.
  destruct (clean_spine ex es m3 (flat_map idle es ++ ids) A) as (m4 & E4 & W5 & L4); [mowns_by W4|]. exists m4. split; [exact E4|]. split; [exact W5|]. chain.
Qed.
Lemma clear_sws_ok : forall m v es ids, vok v es -> mowns m (sws_blocks v ++ ids) -> exists m', x_clear_sws m v = Ret m' /\ mowns m' (flat_map idle es ++ ids) /\ later m m'.
Proof.
  intros m v es ids (p & pm & li & lo & b & exp & q & ex & -> & A & CS) W. apply lfit_ex in A. unfold sws_blocks in W. cbn [fst snd of_member man_blocks g_in g_out g_exts mlist_blocks l_arr ptr_blocks] in W.
  unfold x_clear_sws. cbn [fst snd addr]. rewrite (use_ok _ _ p (proj1 W)) by now left. unfold bind at 1.
  assert (W0 : mowns m (q :: (p :: pm :: (li :: lo :: wexts_blocks ex ++ ids)))) by mowns_by W.
  destruct (x_free_ok _ _ _ W0) as (m1 & -> & W1 & L1 & _). unfold bind at 1. unfold x_clear_ws.
  rewrite (use_ok _ _ p (proj1 W1)) by now left. unfold bind at 1. cbn [x_member]. unfold bind at 1.
  rewrite (x_deref_ok _ m1 pm _ _ W1) by (right; now left). unfold bind at 2. cbn [snd].
  destruct (clear_man_ok m1 b li lo exp ex es (p :: pm :: ids) A CS) as (m2 & -> & W2 & L2); [mowns_by W1|]. unfold bind at 1. cbn [addr].
  assert (W3 : mowns m2 (pm :: p :: (flat_map idle es ++ ids))) by mowns_by W2.
  destruct (x_free_ok _ _ _ W3) as (m3 & -> & W4 & L3 & _). unfold bind at 1.
  destruct (x_free_ok _ _ _ W4) as (m4 & -> & W5 & L4 & _). exists m4. split; [reflexivity|]. split; [exact W5|]. chain.
Qed.
(** a websocket that has no request and no extensions yet *)
Lemma clear_new_ok : forall m p w ids, (w = Some None /\ mowns m (p :: ids) \/
    exists pm li lo, w = Some (Some (pm, mk_hman false (Some (Some (li, mk_hlist None 0))) (Some (Some (lo, mk_hlist None 0))) true true 0 (Some None))) /\ mowns m (p :: pm :: li :: lo :: ids)) ->
  exists m', x_clear_sws m (p, (w, None)) = Ret m' /\ mowns m' ids /\ later m m'.
Proof.
  intros m p w ids [(-> & W)|(pm & li & lo & -> & W)]; unfold x_clear_sws, x_clear_ws; cbn [fst snd addr];
    rewrite (use_ok _ _ p (proj1 W)) by (now left); unfold bind at 1; change (x_free m None) with (Ret m); unfold bind at 1;
    rewrite (use_ok _ _ p (proj1 W)) by (now left); unfold bind at 1; cbn [x_member]; unfold bind at 1.
  - unfold bind at 1. change (x_free m (addr (@None (nat * hman)))) with (Ret m). unfold bind at 1.
    destruct (x_free_ok _ _ _ W) as (m1 & -> & W1 & L1 & _). exists m1. auto.
  - rewrite (x_deref_ok _ m pm _ _ W) by (right; now left). unfold bind at 2. cbn [snd].
    destruct (clear_man_ok m false li lo 0 None [] (p :: pm :: ids) eq_refl (Forall_nil _)) as (m2 & E2 & W2 & L2); [mowns_by W|]. go E2. cbn [addr flat_map app] in *.
    assert (W3 : mowns m2 (pm :: p :: ids)) by mowns_by W2.
    destruct (x_free_ok _ _ _ W3) as (m3 & -> & W4 & L3 & _). unfold bind at 1.
    destruct (x_free_ok _ _ _ W4) as (m4 & -> & W5 & L4 & _). exists m4. split; [reflexivity|]. split; [exact W5|]. chain.
Qed.
Lemma x_init_ws_ok : forall m ids, mowns m ids -> (nth 0 (m_new m) true = false \/ nth 1 (m_new m) true = true) ->
  exists c m' w, x_init_ws m true = Ret (c, (m', w)) /\ later m m' /\
    ((c =? U_OK) = false /\ short m /\ w = Some None /\ mowns m' ids \/
     (c =? U_OK) = true /\ exists pm li lo, w = Some (Some (pm, mk_hman false (Some (Some (li, mk_hlist None 0))) (Some (Some (lo, mk_hlist None 0))) true true 0 (Some None))) /\
       mowns m' (pm :: li :: lo :: ids)).
Proof.
  intros m ids W MO. unfold x_init_ws, x_init_man. cbn [negb].
  destruct (x_malloc_ok _ _ W) as (p & m1 & E1 & L1 & [(pm & -> & W1)|(-> & S1 & W1)]); rewrite E1; destruct (malloc_tl _ _ _ E1) as [T1 N1].
  2:{ do 3 eexists. split; [reflexivity|]. split; [exact L1|]. left. auto. }
  destruct (x_malloc_ok _ _ W1) as (p & m2 & E2 & L2 & [(li & -> & W2)|(-> & S2 & W2)]); rewrite E2; destruct (malloc_tl _ _ _ E2) as [T2 N2].
  2:{ exfalso. destruct N1 as [_ N1]. destruct N2 as [N2 _]. specialize (N2 eq_refl). rewrite T1, nth_tl in N2. destruct MO as [MO|MO]; [now specialize (N1 MO)|congruence]. }
  destruct (x_malloc_ok _ _ W2) as (p & m3 & E3 & L3 & [(lo & -> & W3)|(-> & S3 & W3)]); rewrite E3.
  - unfold bind at 1. cbn iota beta. change (U_OK =? U_OK) with true. cbn iota.
    do 3 eexists. split; [reflexivity|]. split; [chain|]. right. split; [reflexivity|]. do 3 eexists. split; [reflexivity|]. mowns_by W3.
  - cbn [bind x_member addr]. destruct (x_free_ok _ _ _ W3) as (m5 & -> & W5 & L5 & _). cbn [bind]. change (x_free m5 None) with (Ret m5). cbn [bind].
    change (U_ERROR_MEMORY =? U_OK) with false. cbn iota.
    destruct (x_free_ok _ _ _ W5) as (m6 & -> & W6 & L6 & _). cbn [bind].
    do 3 eexists. split; [reflexivity|]. split; [chain|]. left. split; [reflexivity|]. split; [now apply L1, L2|]. auto.
Qed.
Lemma x_check_ok : forall m c ids, mowns m ids -> exists ok p m', x_check m c = (ok, (p, m')) /\ later m m' /\ mowns m' (ptr_blocks p ++ ids) /\ (ok = checked c \/ short m).
Proof.
  intros m [s t] ids W. unfold x_check, checked. cbn [fst snd]. destruct (x_strdup_ok m t ids W) as (p & m1 & -> & L & W1 & TX). do 3 eexists. split; [reflexivity|]. split; [exact L|]. split; [exact W1|].
  destruct TX as [TX|(-> & SH & _)]; [left|now right]. rewrite <- TX. destruct p as [[i x]|]; reflexivity.
Qed.
