(** Proofs about the memory of websockets (C99): messages, lists, extensions, the manager. *)
From Coq Require Import ZArith Bool List Lia.
From Verif Require Import Base BaseFacts UMapModel UMapProofs OwnModel OwnSpec OwnProofs MapMemModel MapMemSpec MapMemProofs MapMemSteps
  RespMemModel RespMemSpec RespMemProofs WsMemModel WsMemSpec.
Import ListNotations.
Open Scope Z_scope.

(** the next call of the goal gives what [R] says *)
Ltac go R :=
  match type of R with
  | _ = ?r => match goal with |- context [bind ?e ?k] => replace e with r by (symmetry; exact R) end
  end;
  match goal with |- context [bind (Ret ?x) ?k] => change (bind (Ret x) k) with (k x) end; cbn beta.

(** ** messages *)
Definition dat (b : hmsg) : list Z := match b_data b with Some (_, x) => x | None => [] end.
Definition fits (b : hmsg) : Prop := b_len b = zlen (dat b).
Definition mrel (q : nat * hmsg) (a : amsg) : Prop := (b_op (snd q), dat (snd q)) = a /\ fits (snd q).
Definition mb (q : nat * hmsg) : list nat := msg_blocks (Some q).
Lemma mb_map : forall qs, flat_map msg_blocks (map Some qs) = flat_map mb qs.
Proof. induction qs as [|q qs IH]; [reflexivity|]. cbn [map flat_map]. now rewrite IH. Qed.

Lemma zlen_nil : forall (d : list Z), (zlen d =? 0) = match d with [] => true | _ => false end.
Proof. intros [|x d]; [reflexivity|]. apply Z.eqb_neq. unfold zlen. cbn [length]. lia. Qed.
Lemma zfirstn_all : forall (d : list Z), zfirstn (zlen d) d = d.
Proof. intros d. unfold zfirstn, zlen. rewrite Nat2Z.id. apply firstn_all. Qed.

Lemma x_clear_msg_ok : forall m q ids, mowns m (msg_blocks q ++ ids) -> exists m', x_clear_msg m q = Ret m' /\ mowns m' ids /\ later m m'.
Proof.
  intros m [[i b]|] ids W; cbn [x_clear_msg msg_blocks app] in *.
  - rewrite (x_deref_ok _ m i b _ W) by now left. unfold bind at 1. cbn [fst snd].
    assert (W0 : mowns m (ptr_blocks (b_data b) ++ (i :: ids))) by mowns_by W.
    destruct (x_free_ptr _ _ _ _ W0) as (m1 & -> & W1 & L1). unfold bind at 1.
    destruct (x_free_ok _ _ _ W1) as (m2 & -> & W2 & L2 & _). exists m2. split; [reflexivity|]. split; [exact W2|]. chain.
  - exists m. split; [reflexivity|]. split; [exact W|]. eapply later_refl; eauto.
Qed.

(** ** lists of messages *)
Definition afit (ar : ptr (list (ptr hmsg))) (qs : list (nat * hmsg)) : Prop :=
  match ar with None => qs = [] | Some (_, x) => x = map Some qs end.
Definition lrel (l : ptr hlist) (a : list amsg) : Prop :=
  exists il ar qs, l = Some (il, mk_hlist ar (length qs)) /\ afit ar qs /\ Forall2 mrel qs a.
Lemma list_blocks_eq : forall il ar qs x, afit ar qs ->
  cnt (mlist_blocks (Some (il, mk_hlist ar (length qs)))) x = cnt (il :: ptr_blocks ar ++ flat_map mb qs) x.
Proof.
  intros il [[j y]|] qs x A; cbn [mlist_blocks l_arr afit ptr_blocks] in *.
  - subst y. rewrite mb_map. reflexivity.
  - subst qs. reflexivity.
Qed.
Lemma f2_app : forall A B (R : A -> B -> Prop) a b c d, Forall2 R a b -> Forall2 R c d -> Forall2 R (a ++ c) (b ++ d).
Proof. intros. now apply Forall2_app. Qed.
Lemma arealloc_push : forall A (l : list A) d x, set_nth (arealloc l (S (length l)) d) (length l) x = l ++ [x] /\ (length l <? length (arealloc l (S (length l)) d))%nat = true.
Proof.
  intros A l d x. unfold arealloc. rewrite firstn_all2 by lia. replace (S (length l) - length l)%nat with 1%nat by lia. cbn [repeat]. split.
  - rewrite set_nth_mid. reflexivity.
  - apply Nat.ltb_lt. rewrite app_length. cbn. lia.
Qed.
Lemma x_push_ok : forall m l a q b ids, lrel l a -> mrel q b -> mowns m (mlist_blocks l ++ mb q ++ ids) ->
  exists m' l', x_push m l (Some q) = Ret (U_OK, (m', l')) /\ lrel l' (a ++ [b]) /\ mowns m' (mlist_blocks l' ++ ids) /\ later m m'.
Proof.
  intros m l a q b ids (il & ar & qs & -> & A & F) M W. unfold x_push. cbn [is_null orb].
  assert (W0 : mowns m (ptr_blocks ar ++ (il :: flat_map mb qs ++ mb q ++ ids))).
  { eapply mowns_ext; [exact W|]. intros x. rewrite cnt_app, (list_blocks_eq il ar qs x A). repeat rewrite ?cnt_app, ?cnt_cons. lia. }
  rewrite (x_deref_ok _ m il _ _ W0) by (apply in_or_app; right; now left). unfold bind at 1. cbn [fst snd l_arr l_len].
  destruct (x_realloc_ok _ _ _ _ W0) as (i & m1 & -> & W1 & L1). unfold bind at 1.
  assert (E : (match ar with Some (_, a0) => a0 | None => [] end) = map Some qs) by (destruct ar as [[j y]|]; cbn in A; subst; reflexivity).
  rewrite E. unfold aset. destruct (arealloc_push (ptr hmsg) (map Some qs) None (Some q)) as [E1 E2]. rewrite map_length in E1, E2. rewrite E1, E2.
  unfold bind. do 2 eexists. split; [reflexivity|].
  assert (G : lrel (Some (il, mk_hlist (Some (i, map Some qs ++ [Some q])) (S (length qs)))) (a ++ [b])).
  { exists il, (Some (i, map Some (qs ++ [q]))), (qs ++ [q]). split; [|split; [reflexivity|apply f2_app; auto]].
    rewrite app_length. cbn [length]. rewrite Nat.add_1_r, map_app. reflexivity. }
  split; [exact G|]. split; [|exact L1]. eapply mowns_ext; [exact W1|]. intros x. cbn [mlist_blocks l_arr].
  rewrite flat_map_app, mb_map. cbn [flat_map]. fold (mb q). repeat rewrite ?cnt_app, ?cnt_cons, ?cnt_nil. lia.
Qed.
Lemma x_shift_ok : forall suf pre y, exists b, x_shift (pre ++ y :: suf) (length pre) (length suf) = Ret b /\ firstn (length pre + length suf) b = pre ++ suf.
Proof.
  induction suf as [|s suf IH]; intros pre y.
  - exists (pre ++ [y]). split; [reflexivity|]. cbn [length]. rewrite Nat.add_0_r, firstn_app, firstn_all, Nat.sub_diag. reflexivity.
  - cbn [length x_shift]. assert (G : aget (pre ++ y :: s :: suf) (S (length pre)) = Ret s).
    { pose proof (aget_app _ (pre ++ [y]) s suf) as G. rewrite <- app_assoc, app_length, Nat.add_1_r in G. exact G. }
    rewrite G. unfold bind at 1. unfold aset.
    replace (length pre <? length (pre ++ y :: s :: suf))%nat with true by (symmetry; apply Nat.ltb_lt; rewrite app_length; cbn; lia).
    unfold bind at 1. rewrite set_nth_mid. destruct (IH (pre ++ [s]) s) as (b & R & Fb). rewrite <- app_assoc in R, Fb. cbn [app] in R, Fb.
    rewrite app_length in R, Fb. cbn [length] in R, Fb. exists b. replace (S (length pre)) with (length pre + 1)%nat by lia. split; [exact R|].
    rewrite <- Fb. f_equal. lia.
Qed.
Lemma x_pop_ok : forall m l a ids, lrel l a -> mowns m (mlist_blocks l ++ ids) ->
  match a with
  | [] => x_pop m l = Ret (None, (m, l))
  | b :: r => exists q m' l', x_pop m l = Ret (Some q, (m', l')) /\ mrel q b /\ lrel l' r /\ mowns m' (mlist_blocks l' ++ mb q ++ ids) /\ later m m'
  end.
Proof.
  intros m l a ids (il & ar & qs & -> & A & F) W.
  assert (W0 : mowns m (ptr_blocks ar ++ (il :: flat_map mb qs ++ ids))).
  { eapply mowns_ext; [exact W|]. intros x. rewrite cnt_app, (list_blocks_eq il ar qs x A). repeat rewrite ?cnt_app, ?cnt_cons. lia. }
  assert (D : forall h, x_deref m (Some (il, h)) = Ret (il, h)) by (intros h; apply (x_deref_ok hlist m il h _ W0); apply in_or_app; right; now left).
  unfold x_pop. destruct F as [|q b qs a Mq F]; rewrite D; unfold bind at 1; cbn [fst snd l_arr l_len]; [reflexivity|]. cbn [length].
  destruct ar as [[j y]|]; [|discriminate A]. cbn [afit] in A. subst y. cbn [ptr_blocks app] in W0.
  rewrite (x_deref_ok _ m j _ _ W0) by now left. unfold bind at 1. cbn [fst snd map]. unfold x_slot at 1. unfold aget at 1. cbn [nth_error]. unfold bind at 2. unfold bind at 1.
  destruct (x_shift_ok (map Some qs) [] (Some q)) as (z & R & Fz). cbn [app length] in R, Fz. rewrite map_length in R, Fz. cbn [Nat.add] in Fz.
  match goal with |- context [bind (x_shift ?a ?i ?n) _] => replace (x_shift a i n) with (@Ret (list (ptr hmsg)) z) by (symmetry; exact R) end.
  unfold bind at 1. destruct qs as [|q2 qs].
  - cbn [length]. destruct (x_free_ok _ _ _ W0) as (m1 & -> & W1 & L1 & _). unfold bind. do 3 eexists. split; [reflexivity|].
    split; [exact Mq|]. split; [exists il, None, []; split; [reflexivity|split; [reflexivity|exact F]]|]. split; [|exact L1].
    eapply mowns_ext; [exact W1|]. intros x. cbn [mlist_blocks l_arr flat_map]. repeat rewrite ?cnt_app, ?cnt_cons, ?cnt_nil. lia.
  - cbn [length] in *. assert (W1 : mowns m (ptr_blocks (Some (j, tt)) ++ (il :: flat_map mb (q :: q2 :: qs) ++ ids))) by exact W0.
    destruct (x_realloc_ok _ _ _ _ W1) as (k & m1 & R1 & W2 & L1). cbn [addr] in R1. rewrite R1. unfold bind. cbn [fst snd at_block]. rewrite Fz.
    do 3 eexists. split; [reflexivity|]. split; [exact Mq|]. split; [exists il, (Some (k, map Some (q2 :: qs))), (q2 :: qs); split; [reflexivity|split; [reflexivity|exact F]]|].
    split; [|exact L1]. eapply mowns_ext; [exact W2|]. intros x. cbn [mlist_blocks l_arr]. change (Some q2 :: map Some qs) with (map Some (q2 :: qs)).
    rewrite mb_map. cbn [flat_map]. repeat rewrite ?cnt_app, ?cnt_cons, ?cnt_nil. lia.
Qed.
Lemma x_clear_msgs_ok : forall j suf pre m ids, mowns m (flat_map mb suf ++ ids) -> In j ids ->
  exists m', x_clear_msgs m (Some (j, map Some (pre ++ suf))) (length pre) (length suf) = Ret m' /\ mowns m' ids /\ later m m'.
Proof.
  intros j. induction suf as [|q suf IH]; intros pre m ids W I.
  - exists m. split; [reflexivity|]. split; [exact W|]. eapply later_refl; eauto.
  - cbn [length x_clear_msgs]. rewrite (x_deref_ok _ m j _ _ W) by (apply in_or_app; auto). unfold bind at 1. cbn [snd].
    rewrite map_app. cbn [map]. pose proof (aget_app (ptr hmsg) (map Some pre) (Some q) (map Some suf)) as G. rewrite map_length in G.
    assert (G2 : x_slot (map Some pre ++ Some q :: map Some suf) (length pre) = Ret (Some q)) by (unfold x_slot; go G; reflexivity). go G2.
    cbn [flat_map] in W. rewrite <- app_assoc in W.
    destruct (x_clear_msg_ok m (Some q) _ W) as (m1 & R1 & W1 & L1). go R1.
    specialize (IH (pre ++ [q]) m1 ids W1 I). rewrite <- app_assoc in IH. cbn [app] in IH. rewrite app_length in IH. cbn [length] in IH.
    replace (length pre + 1)%nat with (S (length pre)) in IH by lia. rewrite map_app in IH. destruct IH as (m2 & R & W2 & L2). exists m2. split; [exact R|]. split; [exact W2|]. chain.
Qed.
Lemma x_clear_list_ok : forall m l a ids, lrel l a -> mowns m (mlist_blocks l ++ ids) ->
  exists m' l', x_clear_list m l = Ret (m', l') /\ mowns m' (ptr_blocks l ++ ids) /\ later m m'.
Proof.
  intros m l a ids (il & ar & qs & -> & A & F) W.
  assert (W0 : mowns m (flat_map mb qs ++ (ptr_blocks ar ++ (il :: ids)))).
  { eapply mowns_ext; [exact W|]. intros x. rewrite cnt_app, (list_blocks_eq il ar qs x A). repeat rewrite ?cnt_app, ?cnt_cons. lia. }
  unfold x_clear_list. rewrite (x_deref_ok _ m il _ _ W0) by (apply in_or_app; right; apply in_or_app; right; now left). unfold bind at 1. cbn [fst snd l_arr l_len].
  assert (G : exists m1, x_clear_msgs m ar 0 (length qs) = Ret m1 /\ mowns m1 (ptr_blocks ar ++ (il :: ids)) /\ later m m1).
  { destruct ar as [[j y]|].
    - cbn in A. subst y. apply (x_clear_msgs_ok j qs []); [exact W0|]. now left.
    - cbn in A. subst qs. exists m. split; [reflexivity|]. split; [exact W0|]. eapply later_refl; eauto. }
  destruct G as (m1 & -> & W1 & L1). unfold bind at 1.
  destruct (x_free_ptr _ _ _ _ W1) as (m2 & -> & W2 & L2). unfold bind. do 2 eexists. split; [reflexivity|]. split; [exact W2|]. chain.
Qed.

(** ** extensions *)
Definition xrel (e : nat * wext) (a : aext) : Prop :=
  x_server (snd e) = None /\ ptext (x_client (snd e)) = ae_name a /\ x_rsv (snd e) = ae_rsv a /\ x_fun (snd e) = ae_fun a /\ x_on (snd e) = ae_on a /\
  (if ae_on a then exists c, x_context (snd e) = Some (Some (c, tt)) else x_context (snd e) = None).
Definition xb (e : nat * wext) : list nat := wext_blocks (Some e).
Lemma xb_map : forall es, flat_map wext_blocks (map Some es) = flat_map xb es.
Proof. induction es as [|q qs IH]; [reflexivity|]. cbn [map flat_map]. now rewrite IH. Qed.
(** the blocks of an extension, its context apart *)
Definition ctx (e : nat * wext) : list nat := of_member ptr_blocks (x_context (snd e)).
Definition body (e : nat * wext) : list nat := fst e :: ptr_blocks (x_server (snd e)) ++ ptr_blocks (x_client (snd e)).
Lemma xb_split : forall es x, cnt (flat_map xb es) x = (cnt (flat_map ctx es) x + cnt (flat_map body es) x)%nat.
Proof.
  induction es as [|[i e] es IH]; intros x; [reflexivity|]. cbn [flat_map]. unfold xb at 1, ctx at 1, body at 1. cbn [wext_blocks fst snd].
  repeat rewrite ?cnt_app, ?cnt_cons. rewrite IH. lia.
Qed.
Lemma x_free_contexts_ok : forall es a m ids, Forall2 xrel es a -> mowns m (flat_map ctx es ++ ids) -> incl (map fst es) ids ->
  exists m', x_free_contexts m (map Some es) = Ret m' /\ mowns m' ids /\ later m m'.
Proof.
  intros es a m ids F. revert m ids. induction F as [|[i e] a es al X F IH]; intros m ids W C.
  - exists m. split; [reflexivity|]. split; [exact W|]. eapply later_refl; eauto.
  - cbn [map x_free_contexts flat_map] in *. rewrite <- app_assoc in W.
    rewrite (x_deref_ok _ m i e _ W) by (apply in_or_app; right; apply in_or_app; right; apply C; now left). unfold bind at 2. cbn [snd].
    destruct X as (_ & _ & _ & _ & X1 & X2). cbn [snd] in X1, X2. rewrite X1. unfold ctx in W at 1. cbn [snd] in W.
    assert (G : exists m1, (if ae_on a then (do c <- x_member (x_context e); x_free m (addr c)) else Ret m) = Ret m1 /\ mowns m1 (flat_map ctx es ++ ids) /\ later m m1).
    { destruct (ae_on a).
      - destruct X2 as (c & X2). rewrite X2 in *. cbn [x_member of_member] in *. unfold bind at 1. destruct (x_free_ptr _ _ _ _ W) as (m1 & -> & W1 & L1). eauto.
      - rewrite X2 in W. exists m. split; [reflexivity|]. split; [exact W|]. eapply later_refl; eauto. }
    destruct G as (m1 & -> & W1 & L1). unfold bind at 1.
    destruct (IH m1 ids W1) as (m2 & -> & W2 & L2); [intros z Z; apply C; now right|]. exists m2. split; [reflexivity|]. split; [exact W2|]. chain.
Qed.
Lemma x_free_wexts_ok : forall es m ids, mowns m (flat_map body es ++ ids) -> exists m', x_free_wexts m (map Some es) = Ret m' /\ mowns m' ids /\ later m m'.
Proof.
  induction es as [|[i e] es IH]; intros m ids W.
  - exists m. split; [reflexivity|]. split; [exact W|]. eapply later_refl; eauto.
  - cbn [map x_free_wexts x_free_wext]. cbn [flat_map] in W. unfold body in W at 1. cbn [fst snd app] in W.
    rewrite (x_deref_ok _ m i e _ W) by now left. unfold bind at 2. cbn [fst snd].
    assert (W0 : mowns m (ptr_blocks (x_server e) ++ (ptr_blocks (x_client e) ++ (i :: (flat_map body es ++ ids))))) by mowns_by W.
    destruct (x_free_ptr _ _ _ _ W0) as (m1 & -> & W1 & L1). unfold bind at 2.
    destruct (x_free_ptr _ _ _ _ W1) as (m2 & -> & W2 & L2). unfold bind at 2.
    destruct (x_free_ok _ _ _ W2) as (m3 & -> & W3 & L3 & _). unfold bind at 1.
    destruct (IH m3 ids W3) as (m4 & -> & W4 & L4). exists m4. split; [reflexivity|]. split; [exact W4|]. chain.
Qed.
(** the list of extensions: [es] are its elements *)
Definition exfit (l : wexts) (es : list (nat * wext)) : Prop :=
  match l with
  | None => es = []
  | Some (_, None) => es = []
  | Some (_, Some (_, x)) => x = map Some es
  end.
(** the blocks of the list itself *)
Definition spine (l : wexts) : list nat := match l with None => [] | Some (i, ar) => i :: ptr_blocks ar end.
Lemma wexts_eq : forall l es x, exfit l es -> cnt (wexts_blocks l) x = (cnt (spine l) x + cnt (flat_map xb es) x)%nat.
Proof.
  intros [[i [[j y]|]]|] es x A; cbn [exfit wexts_blocks spine ptr_blocks] in *.
  - subst y. rewrite xb_map. repeat rewrite ?cnt_cons, ?cnt_nil. lia.
  - subst es. cbn [flat_map]. rewrite cnt_nil. lia.
  - subst es. reflexivity.
Qed.
Lemma x_elements_ok : forall m l es ids, exfit l es -> mowns m ids -> incl (spine l) ids -> x_elements m l = Ret (map Some es).
Proof.
  intros m [[i [[j y]|]]|] es ids A W C; cbn [exfit x_elements spine ptr_blocks] in *.
  - rewrite (x_deref_ok _ m i _ _ W) by (apply C; now left). unfold bind at 1. cbn [snd].
    rewrite (x_deref_ok _ m j _ _ W) by (apply C; right; now left). unfold bind. cbn [snd]. now subst y.
  - rewrite (x_deref_ok _ m i _ _ W) by (apply C; now left). unfold bind. cbn [snd]. now subst es.
  - now subst es.
Qed.
Lemma body_in : forall es, incl (map fst es) (flat_map body es).
Proof. intros es z Z. apply in_map_iff in Z as (e & <- & I). apply in_flat_map. exists e. split; [exact I|]. unfold body. now left. Qed.
(** u_websocket.c:1828-1837 *)
Lemma x_clean_wexts_ok : forall m l es a ids, exfit l es -> Forall2 xrel es a -> mowns m (wexts_blocks l ++ ids) ->
  exists m2, (do es <- x_elements m l; do m3 <- x_free_contexts m es; do m4 <- x_clean_wexts m3 l; x_free m4 (addr l)) = Ret m2 /\ mowns m2 ids /\ later m m2.
Proof.
  intros m l es a ids A F W.
  assert (W0 : mowns m (flat_map ctx es ++ (flat_map body es ++ (spine l ++ ids)))).
  { eapply mowns_ext; [exact W|]. intros x. rewrite cnt_app, (wexts_eq _ _ _ A), (xb_split es). repeat rewrite cnt_app. lia. }
  rewrite (x_elements_ok _ _ _ _ A W0) by (do 2 apply incl_appr; apply incl_appl, incl_refl). unfold bind at 1.
  destruct (x_free_contexts_ok _ _ _ _ F W0) as (m1 & -> & W1 & L1); [apply incl_appl, body_in|]. unfold bind at 1.
  unfold x_clean_wexts. destruct l as [[i [[j y]|]]|]; cbn [exfit spine ptr_blocks app addr] in *.
  - subst y. rewrite (x_deref_ok _ m1 i _ _ W1) by (apply in_or_app; right; now left). unfold bind at 2. cbn [snd].
    rewrite (x_deref_ok _ m1 j _ _ W1) by (apply in_or_app; right; right; now left). unfold bind at 2. cbn [fst snd].
    destruct (x_free_wexts_ok _ _ _ W1) as (m2 & -> & W2 & L2). unfold bind at 2.
    assert (W3 : mowns m2 (j :: i :: ids)) by mowns_by W2.
    destruct (x_free_ok _ _ _ W3) as (m3 & -> & W4 & L3 & _). unfold bind at 1.
    destruct (x_free_ok _ _ _ W4) as (m4 & -> & W5 & L4 & _). exists m4. split; [reflexivity|]. split; [exact W5|]. chain.
  - subst es. cbn [flat_map app] in W1. rewrite (x_deref_ok _ m1 i _ _ W1) by now left. unfold bind at 2. cbn [snd]. unfold bind at 1.
    destruct (x_free_ok _ _ _ W1) as (m4 & -> & W5 & L4 & _). exists m4. split; [reflexivity|]. split; [exact W5|]. chain.
  - subst es. unfold bind. cbn [x_free]. exists m1. split; [reflexivity|]. auto.
Qed.

(** ** the manager *)
Definition gbits (es : list (nat * wext)) : Z := fold_right (fun e b => if x_on (snd e) then Z.lor (x_rsv (snd e)) b else b) 0 es.
Lemma gbits_ok : forall es a, Forall2 xrel es a -> gbits es = bits a.
Proof.
  intros es a F. induction F as [|[i e] a es al X F IH]; [reflexivity|]. destruct X as (_ & _ & X1 & _ & X2 & _). cbn [snd] in X1, X2.
  unfold gbits, bits in *. cbn [fold_right snd]. now rewrite IH, X1, X2.
Qed.
(** manager [g] shows what [a] says; the fragments of a message are not in the manager *)
Definition ginv (g : hman) (a : aws) : Prop :=
  exists li lo ex es, g = mk_hman (a_runs a) (Some li) (Some lo) (a_keep_in a) (a_keep_out a) (bits (a_exts a)) (Some ex) /\
    lrel li (a_in a) /\ lrel lo (a_out a) /\ exfit ex es /\ Forall2 xrel es (a_exts a).
Definition gb (g : hman) : list nat := of_member mlist_blocks (g_in g) ++ of_member mlist_blocks (g_out g) ++ of_member wexts_blocks (g_exts g).

Lemma x_clear_man_ok : forall m g a ids, ginv g a -> mowns m (gb g ++ ids) -> exists m', x_clear_man m g = Ret m' /\ mowns m' ids /\ later m m'.
Proof.
  intros m g a ids (li & lo & ex & es & -> & Li & Lo & A & F) W. unfold gb in W. cbn [g_in g_out g_exts of_member] in W.
  unfold x_clear_man. cbn [g_in g_out g_exts x_member]. unfold bind at 1.
  assert (W0 : mowns m (mlist_blocks li ++ (mlist_blocks lo ++ (wexts_blocks ex ++ ids)))) by mowns_by W.
  destruct (x_clear_list_ok _ _ _ _ Li W0) as (m1 & l1 & -> & W1 & L1). unfold bind at 1. cbn [fst].
  destruct (x_free_ptr _ _ _ _ W1) as (m2 & -> & W2 & L2). unfold bind at 1. unfold bind at 1.
  destruct (x_clear_list_ok _ _ _ _ Lo W2) as (m3 & l3 & -> & W3 & L3). unfold bind at 1. cbn [fst].
  destruct (x_free_ptr _ _ _ _ W3) as (m4 & -> & W4 & L4). unfold bind at 1. unfold bind at 1.
  destruct (x_clean_wexts_ok _ _ _ _ _ A F W4) as (m5 & R & W5 & L5). exists m5. split; [exact R|]. split; [exact W5|]. chain.
Qed.
Lemma x_clear_ws_ok : forall m p pm g a ids, ginv g a -> mowns m (p :: pm :: gb g ++ ids) -> exists m', x_clear_ws m p (Some (Some (pm, g))) = Ret m' /\ mowns m' ids /\ later m m'.
Proof.
  intros m p pm g a ids I W. unfold x_clear_ws. rewrite (use_ok _ _ p (proj1 W)) by now left. unfold bind at 1. cbn [x_member]. unfold bind at 1.
  rewrite (x_deref_ok _ m pm _ _ W) by (right; now left). unfold bind at 2. cbn [snd].
  assert (W0 : mowns m (gb g ++ (pm :: p :: ids))) by mowns_by W.
  destruct (x_clear_man_ok _ _ _ _ I W0) as (m1 & -> & W1 & L1). unfold bind at 1. cbn [addr].
  destruct (x_free_ok _ _ _ W1) as (m2 & -> & W2 & L2 & _). unfold bind at 1.
  destruct (x_free_ok _ _ _ W2) as (m3 & -> & W3 & L3 & _). exists m3. split; [reflexivity|]. split; [exact W3|]. chain.
Qed.

Lemma malloc_nth : forall m b, nth 0 (m_new m) true = b -> exists m', x_malloc m = (if b then Some (h_next (m_heap m)) else None, m') /\ m_new m' = tl (m_new m).
Proof. intros m b <-. unfold x_malloc. destruct (m_new m) as [|[] r]; cbn; eexists; (split; [reflexivity|reflexivity]). Qed.
Lemma malloc_tl : forall m p m', x_malloc m = (p, m') -> m_new m' = tl (m_new m) /\ (p = None <-> nth 0 (m_new m) true = false).
Proof.
  intros m p m' E. unfold x_malloc in E. destruct (m_new m) as [|[] r]; cbn in E; injection E as <- <-; cbn; (split; [reflexivity|split; intros; discriminate || reflexivity]).
Qed.
Lemma nth_tl : forall (l : list bool) n, nth n (tl l) true = nth (S n) l true.
Proof. intros [|x l] n; [destruct n; reflexivity|reflexivity]. Qed.

Lemma x_new_ws_ok : forall m ids, mowns m ids -> w_memory_ok (WNew false true) (m_new m) ->
  exists m' r, x_new_ws m true = Ret (m', r) /\ later m m' /\
    match r with
    | None => short m /\ mowns m' ids
    | Some (p, w) => exists pm g, w = Some (Some (pm, g)) /\ (forall b, ginv g (new_ws b)) /\ mowns m' (p :: pm :: gb g ++ ids)
    end.
Proof.
  intros m ids W MO. unfold x_new_ws, x_init_ws, x_init_man. cbn [w_memory_ok] in MO. cbn [negb].
  destruct (x_malloc_ok _ _ W) as (p & m1 & E1 & L1 & [(i & -> & W1)|(-> & S1 & W1)]); rewrite E1; destruct (malloc_tl _ _ _ E1) as [T1 N1].
  2:{ do 2 eexists. split; [reflexivity|]. auto. }
  destruct (x_malloc_ok _ _ W1) as (p & m2 & E2 & L2 & [(pm & -> & W2)|(-> & S2 & W2)]); rewrite E2; destruct (malloc_tl _ _ _ E2) as [T2 N2].
  2:{ unfold bind at 1. cbn [Z.eqb]. change (U_ERROR_MEMORY =? U_OK) with false. cbn iota.
      destruct (x_free_ok _ _ _ W2) as (m3 & -> & W3 & L3 & _). unfold bind. do 2 eexists. split; [reflexivity|]. split; [chain|]. split; [now apply L1|exact W3]. }
  destruct (x_malloc_ok _ _ W2) as (p & m3 & E3 & L3 & [(li & -> & W3)|(-> & S3 & W3)]); rewrite E3; destruct (malloc_tl _ _ _ E3) as [T3 N3].
  2:{ exfalso. destruct N1 as [_ N1], N2 as [_ N2]. destruct N3 as [N3 _]. specialize (N3 eq_refl). rewrite T2, nth_tl, T1, nth_tl in N3. rewrite T1, nth_tl in N2.
      destruct MO as [MO|[MO|MO]]; [now specialize (N1 MO)|now specialize (N2 MO)|congruence]. }
  destruct (x_malloc_ok _ _ W3) as (p & m4 & E4 & L4 & [(lo & -> & W4)|(-> & S4 & W4)]); rewrite E4.
  - unfold bind at 2. cbn iota beta. change (U_OK =? U_OK) with true. cbn iota. unfold bind at 1. cbn iota beta. change (U_OK =? U_OK) with true. cbn iota.
    do 2 eexists. split; [reflexivity|]. split; [chain|]. do 2 eexists. split; [reflexivity|]. split.
    + intros b. exists (Some (li, mk_hlist None 0)), (Some (lo, mk_hlist None 0)), None, []. split; [reflexivity|].
      split; [exists li, None, []; repeat split; constructor|]. split; [exists lo, None, []; repeat split; constructor|]. split; [reflexivity|constructor].
    + eapply mowns_ext; [exact W4|]. intros x. unfold gb. cbn [g_in g_out g_exts of_member mlist_blocks l_arr wexts_blocks]. repeat rewrite ?cnt_app, ?cnt_cons, ?cnt_nil. lia.
  - cbn [bind x_member addr]. destruct (x_free_ok _ _ _ W4) as (m5 & -> & W5 & L5 & _). cbn [bind]. change (x_free m5 None) with (Ret m5). cbn [bind].
    change (U_ERROR_MEMORY =? U_OK) with false. cbn iota.
    destruct (x_free_ok _ _ _ W5) as (m6 & -> & W6 & L6 & _). cbn [bind]. change (U_ERROR =? U_OK) with false. cbn iota.
    destruct (x_free_ok _ _ _ W6) as (m7 & -> & W7 & L7 & _). cbn [bind]. do 2 eexists. split; [reflexivity|]. split; [chain|]. split; [now apply L1, L2, L3|exact W7].
Qed.
