(** Proofs about the memory of websockets (C99): extensions added and enabled, sending. *)
From Coq Require Import ZArith Bool List Lia.
From Verif Require Import Base BaseFacts UMapModel UMapProofs OwnModel OwnSpec OwnProofs MapMemModel MapMemSpec MapMemProofs MapMemPut MapMemRun MapMemSteps
  RespMemModel RespMemSpec RespMemProofs WsMemModel WsMemSpec WsMemProofs.
Import ListNotations.
Open Scope Z_scope.

(** ** the manager under the calls *)
Lemma ginv_connect : forall g a b, ginv g a -> ginv (connect g b) (put_runs a b).
Proof. intros g a b (li & lo & ex & es & -> & H). exists li, lo, ex, es. split; [reflexivity|exact H]. Qed.
Lemma ginv_keep : forall g a i o, ginv g a -> ginv (with_keep g i o) (put_keep a i o).
Proof. intros g a i o (li & lo & ex & es & -> & H). exists li, lo, ex, es. split; [reflexivity|exact H]. Qed.
Lemma gb_connect : forall g b, gb (connect g b) = gb g.
Proof. reflexivity. Qed.
Lemma ginv_connected : forall g a, ginv g a -> g_connected g = a_runs a.
Proof. intros g a (li & lo & ex & es & -> & _). reflexivity. Qed.
Lemma ginv_keeps : forall g a, ginv g a -> g_keep_in g = a_keep_in a /\ g_keep_out g = a_keep_out a.
Proof. intros g a (li & lo & ex & es & -> & _). split; reflexivity. Qed.
(** a message is added to the list of outgoing messages, of incoming messages *)
Lemma keep_out_ok : forall m g a q b ids, ginv g a -> mrel q b -> mowns m (gb g ++ mb q ++ ids) ->
  exists m' l', (do l <- x_member (g_out g); x_push m l (Some q)) = Ret (U_OK, (m', l')) /\ ginv (with_out g l') (put_out a (a_out a ++ [b])) /\
    mowns m' (gb (with_out g l') ++ ids) /\ later m m'.
Proof.
  intros m g a q b ids (li & lo & ex & es & -> & Li & Lo & A & F) M W. cbn [g_out x_member bind]. unfold gb in W. cbn [g_in g_out g_exts of_member] in W.
  assert (W0 : mowns m (mlist_blocks lo ++ mb q ++ (mlist_blocks li ++ wexts_blocks ex ++ ids))) by mowns_by W.
  destruct (x_push_ok _ _ _ _ _ _ Lo M W0) as (m1 & l1 & R & L1 & W1 & LL). exists m1, l1. split; [exact R|]. split; [|split; [|exact LL]].
  - exists li, l1, ex, es. split; [reflexivity|]. auto.
  - unfold gb. cbn [g_in g_out g_exts of_member with_out]. mowns_by W1.
Qed.
Lemma keep_in_ok : forall m g a q b ids, ginv g a -> mrel q b -> mowns m (gb g ++ mb q ++ ids) ->
  exists m' l', (do l <- x_member (g_in g); x_push m l (Some q)) = Ret (U_OK, (m', l')) /\ ginv (with_in g l') (put_in a (a_in a ++ [b])) /\
    mowns m' (gb (with_in g l') ++ ids) /\ later m m'.
Proof.
  intros m g a q b ids (li & lo & ex & es & -> & Li & Lo & A & F) M W. cbn [g_in x_member bind]. unfold gb in W. cbn [g_in g_out g_exts of_member] in W.
  assert (W0 : mowns m (mlist_blocks li ++ mb q ++ (mlist_blocks lo ++ wexts_blocks ex ++ ids))) by mowns_by W.
  destruct (x_push_ok _ _ _ _ _ _ Li M W0) as (m1 & l1 & R & L1 & W1 & LL). exists m1, l1. split; [exact R|]. split; [|split; [|exact LL]].
  - exists l1, lo, ex, es. split; [reflexivity|]. auto.
  - unfold gb. cbn [g_in g_out g_exts of_member with_in]. mowns_by W1.
Qed.

(** ** extensions *)
Definition man_call (E : env) (m : mem) (a : aws) (ids : list nat) (o : wop) (res : outcome (Z * (mem * hman))) : Prop :=
  exists c m' g' a' more, res = Ret (c, (m', g')) /\ later m m' /\ ginv g' a' /\ mowns m' (gb g' ++ more ++ ids) /\
    ((aw_call E a o = (c, (Some a', [])) /\ more = []) \/ (short m /\ aw_fail E a o c (Some a') (length more))) /\ a_server a' = a_server a /\ a_part a' = a_part a.
Lemma bits_app : forall l e, ae_on e = false -> bits (l ++ [e]) = bits l.
Proof. intros l e H. unfold bits. rewrite fold_right_app. cbn [fold_right]. now rewrite H. Qed.
Lemma arealloc_id : forall A (l : list A), firstn (length l) l = l. Proof. intros. apply firstn_all. Qed.
Lemma x_add_wext_ok : forall E m g a i name rsv f ids, ginv g a -> mowns m (gb g ++ ids) -> man_call E m a ids (WExtension i name rsv f) (x_add_wext m g name rsv f).
Proof.
  intros E m g a i name rsv f ids I W. unfold x_add_wext.
  destruct (x_malloc_ok _ _ W) as (p & m1 & -> & L1 & [(pe & -> & W1)|(-> & S1 & W1)]).
  2:{ exists U_ERROR_MEMORY, m1, g, a, []. split; [reflexivity|]. split; [exact L1|]. split; [exact I|]. split; [exact W1|]. split; [|auto]. right. split; [exact S1|]. constructor. }
  destruct (x_strdup_ok m1 (Some name) _ W1) as (n & m2 & -> & L2 & W2 & T2).
  destruct I as (li & lo & ex & es & -> & Li & Lo & A & F). cbn [g_exts x_member]. unfold bind at 1. unfold gb in W2. cbn [g_in g_out g_exts of_member] in W2.
  assert (LL2 : later m m2) by chain.
  assert (G : exists l1 m3, (match ex with None => let '(pl, m3) := x_malloc m2 in (at_block pl None, m3) | Some _ => (ex, m2) end) = (l1, m3) /\ later m m3 /\
     ((l1 <> None /\ exfit l1 es /\ mowns m3 (wexts_blocks l1 ++ (ptr_blocks n ++ pe :: mlist_blocks li ++ mlist_blocks lo ++ ids))) \/
      (l1 = None /\ ex = None /\ short m /\ mowns m3 (ptr_blocks n ++ pe :: mlist_blocks li ++ mlist_blocks lo ++ ids)))).
  { destruct ex as [ex|].
    - do 2 eexists. split; [reflexivity|]. split; [exact LL2|]. left. split; [discriminate|]. split; [exact A|]. mowns_by W2.
    - destruct (x_malloc_ok _ _ W2) as (p & m3 & -> & L3 & [(pl & -> & W3)|(-> & S3 & W3)]); do 2 eexists; (split; [reflexivity|]); (split; [chain|]).
      + left. split; [discriminate|]. split; [exact A|]. cbn [at_block wexts_blocks app] in *. mowns_by W3.
      + right. split; [reflexivity|]. split; [reflexivity|]. split; [now apply LL2|]. cbn [wexts_blocks app] in *. mowns_by W3. }
  destruct G as (l1 & m3 & -> & L3 & [(NN & A1 & W3)|(-> & EN & S3 & W3)]).
  2:{ exists U_ERROR_MEMORY, m3, (mk_hman (a_runs a) (Some li) (Some lo) (a_keep_in a) (a_keep_out a) (bits (a_exts a)) (Some ex)), a, (pe :: ptr_blocks n).
      split; [reflexivity|]. split; [exact L3|]. split; [exists li, lo, ex, es; auto|]. split.
      { subst ex. unfold gb. cbn [g_in g_out g_exts of_member wexts_blocks]. mowns_by W3. }
      split; [|auto]. right. split; [exact S3|]. constructor; [|cbn [length]; destruct n as [[]|]; cbn [ptr_blocks length]; lia].
      subst ex. cbn [exfit] in A. subst es. now inversion F. }
  destruct l1 as [[il ar]|]; [|now elim NN].
  rewrite (x_deref_ok _ m3 il ar _ W3) by now left. unfold bind at 1. cbn [fst snd].
  assert (W4 : mowns m3 (ptr_blocks ar ++ (il :: flat_map xb es ++ ptr_blocks n ++ pe :: mlist_blocks li ++ mlist_blocks lo ++ ids))).
  { eapply mowns_ext; [exact W3|]. intros x. rewrite cnt_app, (wexts_eq _ _ _ A1). cbn [spine]. repeat rewrite ?cnt_app, ?cnt_cons. lia. }
  destruct (x_realloc_ok _ _ _ _ W4) as (j & m4 & R4 & W5 & L4). go R4. cbn iota beta.
  assert (OLD : (match ar with Some (_, x) => x | None => [] end) = map Some es) by (destruct ar as [[z y]|]; cbn in A1; subst; reflexivity). rewrite OLD.
  assert (OUT : forall nm, ptext n = nm -> ginv (mk_hman (a_runs a) (Some li) (Some lo) (a_keep_in a) (a_keep_out a) (bits (a_exts a)) (Some (Some (il, Some (j, map Some es ++ [Some (pe, mk_wext None n rsv f false None)])))))
     (put_exts a (a_exts a ++ [mk_aext nm rsv f false]))).
  { intros nm TN. exists li, lo, (Some (il, Some (j, map Some (es ++ [(pe, mk_wext None n rsv f false None)])))), (es ++ [(pe, mk_wext None n rsv f false None)]).
    cbn [a_runs a_keep_in a_keep_out a_exts put_exts a_in a_out]. rewrite bits_app by reflexivity. split; [now rewrite map_app|]. split; [exact Li|]. split; [exact Lo|]. split; [reflexivity|].
    apply f2_app; [exact F|]. constructor; [|constructor]. unfold xrel. cbn. auto 10. }
  assert (W6 : mowns m4 (gb (mk_hman (a_runs a) (Some li) (Some lo) (a_keep_in a) (a_keep_out a) (bits (a_exts a)) (Some (Some (il, Some (j, map Some es ++ [Some (pe, mk_wext None n rsv f false None)]))))) ++ [] ++ ids)).
  { eapply mowns_ext; [exact W5|]. intros x. unfold gb. cbn [g_in g_out g_exts of_member wexts_blocks]. rewrite flat_map_app, xb_map. cbn [flat_map wext_blocks x_server x_client x_context of_member ptr_blocks app].
    rewrite !app_nil_r. repeat rewrite ?cnt_app, ?cnt_cons, ?cnt_nil. lia. }
  destruct T2 as [T2|(N2 & S2 & _)].
  - do 4 eexists. exists []. split; [reflexivity|]. split; [chain|]. split; [apply (OUT _ T2)|]. split; [exact W6|]. split; [|split; reflexivity]. left. split; reflexivity.
  - do 4 eexists. exists []. split; [reflexivity|]. split; [chain|]. split; [apply (OUT None); now rewrite N2|]. split; [exact W6|]. split; [|split; reflexivity]. right. split; [now apply L1|]. apply short_ext_name.
Qed.

Lemma pick2 : forall A B (R : A -> B -> Prop) l l' k x, Forall2 R l l' -> nth_error l k = Some x ->
  exists u v u' y v', l = u ++ x :: v /\ l' = u' ++ y :: v' /\ length u = k /\ length u' = k /\ Forall2 R u u' /\ R x y /\ Forall2 R v v'.
Proof.
  intros A B R l l' k x F. revert k. induction F as [|a b l l' Rab F IH]; intros [|k] H; try discriminate.
  - injection H as ->. exists [], l, [], b, l'. repeat (split; [first [reflexivity|assumption|constructor]|]). assumption.
  - destruct (IH k H) as (u & v & u' & y & v' & -> & -> & Lu & Lu' & Fu & Rx & Fv). exists (a :: u), v, (b :: u'), y, v'.
    repeat (split; [first [reflexivity|assumption|cbn; congruence|constructor; assumption]|]). assumption.
Qed.
Lemma pick2_none : forall A B (R : A -> B -> Prop) l l' k, Forall2 R l l' -> nth_error l k = None -> nth_error l' k = None.
Proof. intros A B R l l' k F H. apply nth_error_None in H. apply nth_error_None. rewrite <- (f2_length _ _ _ _ _ F). exact H. Qed.
Lemma nth_error_mid : forall A (u : list A) x v, nth_error (u ++ x :: v) (length u) = Some x.
Proof. intros. rewrite nth_error_app2 by lia. now rewrite Nat.sub_diag. Qed.
Lemma bits_mid : forall u e e' v, ae_on e = false -> ae_on e' = true -> ae_rsv e' = ae_rsv e -> bits (u ++ e' :: v) = Z.lor (bits (u ++ e :: v)) (ae_rsv e).
Proof.
  intros u e e' v H1 H2 H3. induction u as [|x u IH]; unfold bits in *; cbn [app fold_right].
  - rewrite H1, H2, H3. apply Z.lor_comm.
  - rewrite IH. destruct (ae_on x); [|reflexivity]. now rewrite Z.lor_assoc.
Qed.
Lemma x_enable_ok : forall E m g a i k ids, ginv g a -> mowns m (gb g ++ ids) -> man_call E m a ids (WEnable i k) (x_enable m g k).
Proof.
  intros E m g a i k ids I W. destruct I as (li & lo & ex & es & -> & Li & Lo & A & F). unfold x_enable. cbn [g_exts x_member]. unfold bind at 1.
  assert (W0 : mowns m (wexts_blocks ex ++ (mlist_blocks li ++ mlist_blocks lo ++ ids))) by (unfold gb in W; cbn [g_in g_out g_exts of_member] in W; mowns_by W).
  assert (W1 : mowns m (spine ex ++ flat_map xb es ++ (mlist_blocks li ++ mlist_blocks lo ++ ids))).
  { eapply mowns_ext; [exact W0|]. intros x. rewrite cnt_app, (wexts_eq _ _ _ A). repeat rewrite cnt_app. lia. }
  rewrite (x_elements_ok _ _ _ _ A W1) by (apply incl_appl, incl_refl). unfold bind at 1.
  assert (SAME : ginv (mk_hman (a_runs a) (Some li) (Some lo) (a_keep_in a) (a_keep_out a) (bits (a_exts a)) (Some ex)) a) by (exists li, lo, ex, es; auto).
  pose proof (fun x => wexts_eq ex es x A) as WEQ.
  destruct (nth_error es k) as [[ie e]|] eqn:K.
  - destruct (pick2 _ _ _ _ _ _ _ F K) as (u & v & u' & y & v' & -> & EA & Lu & Lu' & Fu & X & Fv).
    assert (NA : nth_error (a_exts a) k = Some y) by (rewrite EA, <- Lu'; apply nth_error_mid).
    destruct ex as [[pl [[pa b]|]]|]; cbn [exfit] in A; [subst b|destruct u; discriminate|destruct u; discriminate].
    match goal with |- context [@nth_error ?T ?l k] => assert (NK : @nth_error T l k = Some (Some (ie, e))) by exact (map_nth_error Some k _ K); rewrite NK end.
    pose proof (x_deref_ok _ m ie e _ W1) as D. rewrite D by (apply in_or_app; right; apply in_or_app; left; rewrite flat_map_app; apply in_or_app; right; now left). clear D.
    unfold bind at 1. cbn [fst snd]. destruct X as (X1 & X2 & X3 & X4 & X5 & X6). cbn [snd] in X1, X2, X3, X4, X5, X6. rewrite X5.
    destruct (ae_on y) eqn:ON.
    + do 4 eexists. exists []. split; [reflexivity|]. split; [eapply later_refl; eauto|]. split; [exact SAME|]. split; [exact W|]. split; [|auto]. left. cbn [aw_call]. rewrite NA, ON. auto.
    + destruct (x_malloc_ok _ _ W1) as (p & m1 & E1 & L1 & [(c & -> & W2)|(-> & S2 & W2)]); rewrite E1.
      * set (e1 := mk_wext (x_server e) (x_client e) (x_rsv e) (x_fun e) true (Some (Some (c, tt)))).
        do 3 eexists. exists (put_exts a (u' ++ mk_aext (ae_name y) (ae_rsv y) (ae_fun y) true :: v')), []. split; [reflexivity|]. split; [exact L1|]. split; [|split; [|split; [|auto]]].
        { exists li, lo, (Some (pl, Some (pa, map Some (u ++ (ie, e1) :: v)))), (u ++ (ie, e1) :: v). cbn [a_runs a_keep_in a_keep_out a_exts put_exts a_in a_out].
          rewrite (bits_mid u' y), <- EA by auto. split.
          - unfold with_exts. cbn [g_connected g_in g_out g_keep_in g_keep_out g_expected]. rewrite X3. rewrite !map_app. cbn [map].
            pose proof (set_nth_mid _ (map Some u) (Some (ie, e)) (map Some v) (Some (ie, e1))) as SN. rewrite map_length, Lu in SN. exact (f_equal (fun z => mk_hman _ _ _ _ _ _ (Some (Some (pl, Some (pa, z))))) SN).
          - split; [exact Li|]. split; [exact Lo|]. split; [reflexivity|]. apply f2_app; [exact Fu|]. constructor; [|exact Fv]. unfold xrel. cbn. eauto 10. }
        { eapply mowns_ext; [exact W2|]. intros x. unfold gb. cbn [g_in g_out g_exts of_member with_exts wexts_blocks spine ptr_blocks].
          pose proof (set_nth_mid _ (map Some u) (Some (ie, e)) (map Some v) (Some (ie, e1))) as SN. rewrite map_length, Lu in SN.
          match goal with |- context [flat_map wext_blocks ?z] => assert (EQ : flat_map wext_blocks z = flat_map xb (u ++ (ie, e1) :: v)) end.
          { rewrite <- xb_map, !map_app. cbn [map]. exact (f_equal (flat_map wext_blocks) SN). }
          rewrite EQ.
          rewrite !flat_map_app. cbn [flat_map]. change (xb (ie, e1)) with (wext_blocks (Some (ie, e1))). change (xb (ie, e)) with (wext_blocks (Some (ie, e))). subst e1. cbn [wext_blocks x_server x_client x_context of_member ptr_blocks]. rewrite X6. cbn [of_member].
          repeat rewrite ?cnt_app, ?cnt_cons, ?cnt_nil. lia. }
        { left. split; [|reflexivity]. cbn [aw_call]. rewrite NA, ON. rewrite EA. rewrite <- Lu'. now rewrite set_nth_mid. }
      * do 4 eexists. exists []. split; [reflexivity|]. split; [exact L1|]. split; [exact SAME|]. split; [|split; [|auto]].
        { eapply mowns_ext; [exact W2|]. intros x. unfold gb. cbn [g_in g_out g_exts of_member]. cbn [app]. repeat rewrite cnt_app. specialize (WEQ x). lia. }
        { right. split; [exact S2|]. constructor. }
  - assert (NA : nth_error (a_exts a) k = None) by (eapply pick2_none; eauto).
    assert (NM : nth_error (map Some es) k = None) by (apply nth_error_None; rewrite map_length; now apply nth_error_None).
    match goal with |- context [@nth_error ?T ?l k] => assert (NK : @nth_error T l k = None) by exact NM; rewrite NK end.
    exists U_ERROR_PARAMS. do 3 eexists. exists []. split; [destruct ex as [[? [[]|]]|]; reflexivity|]. split; [eapply later_refl; eauto|]. split; [exact SAME|]. split; [exact W|]. split; [|auto]. left. cbn [aw_call]. now rewrite NA.
Qed.

(** ** sending *)
Definition dtext (d : ptr (list Z)) : list Z := match d with Some (_, x) => x | None => [] end.
Lemma dtext_dat : forall b, dat b = dtext (b_data b). Proof. reflexivity. Qed.
Lemma dread : forall m d ids, mowns m ids -> incl (ptr_blocks d) ids ->
  (match d with None => Ret [] | Some _ => do y <- x_deref m d; Ret (snd y) end) = Ret (dtext d).
Proof. intros m [[i x]|] ids W C; [|reflexivity]. rewrite (x_deref_ok _ m i x _ W) by (apply C; now left). reflexivity. Qed.
Lemma dread_n : forall m d n ids, mowns m ids -> incl (ptr_blocks d) ids -> n = zlen (dtext d) ->
  (match d with None => Ret [] | Some _ => do y <- x_deref m d; Ret (zfirstn n (snd y)) end) = Ret (dtext d).
Proof. intros m [[i x]|] n ids W C ->; [|reflexivity]. rewrite (x_deref_ok _ m i x _ W) by (apply C; now left). unfold bind. cbn [snd dtext]. now rewrite zfirstn_all. Qed.

Lemma ops_sendable : forall op, (op =? OP_TEXT) || (op =? OP_BINARY) || (op =? OP_CLOSE) || (op =? OP_PING) || (op =? OP_PONG) = sendable op.
Proof. intros op. unfold sendable, OP_TEXT, OP_BINARY, OP_CLOSE, OP_PING, OP_PONG. cbn [existsb]. now rewrite orb_false_r, !orb_assoc. Qed.
Lemma x_build_ok : forall m op rsv data ids, mowns m ids -> exists m' r, x_build m op rsv data = Ret (m', r) /\ later m m' /\
  match r with
  | None => mowns m' ids /\ (sendable op = false \/ short m)
  | Some q => mowns m' (mb q ++ ids) /\ sendable op = true /\ mrel q (op, data)
  end.
Proof.
  intros m op rsv data ids W. unfold x_build. rewrite ops_sendable. destruct (sendable op) eqn:SE.
  2:{ do 2 eexists. split; [reflexivity|]. split; [eapply later_refl; eauto|]. auto. }
  destruct (x_malloc_ok _ _ W) as (p & m1 & -> & L1 & [(i & -> & W1)|(-> & S1 & W1)]).
  2:{ do 2 eexists. split; [reflexivity|]. split; [exact L1|]. auto. }
  rewrite zlen_nil. destruct data as [|z data].
  - do 2 eexists. split; [reflexivity|]. split; [exact L1|]. split; [exact W1|]. split; [reflexivity|]. split; reflexivity.
  - destruct (x_malloc_ok _ _ W1) as (p & m2 & -> & L2 & [(d & -> & W2)|(-> & S2 & W2)]).
    + do 2 eexists. split; [reflexivity|]. split; [chain|]. split; [|split; [reflexivity|split; reflexivity]]. unfold mb. cbn [msg_blocks b_data ptr_blocks app]. mowns_by W2.
    + destruct (x_free_ok _ _ _ W2) as (m3 & -> & W3 & L3 & _). do 2 eexists. split; [reflexivity|]. split; [chain|]. split; [exact W3|]. right. now apply L1.
Qed.
Lemma x_frames_ok : forall n m q frag off ids, 0 <= frag -> 0 <= off -> fits (snd q) -> b_len (snd q) - off <= Z.of_nat n -> mowns m (mb q ++ ids) ->
  exists c m' op', x_frames m q frag off n = Ret (c, (m', (fst q, mk_hmsg op' (b_rsv (snd q)) (b_fin (snd q)) (b_data (snd q)) (b_len (snd q))))) /\ later m m' /\ mowns m' (mb q ++ ids) /\
    (op' = b_op (snd q) \/ op' = 0) /\ ((c = U_OK /\ (off < b_len (snd q) -> op' = 0)) \/ (short m /\ c = U_ERROR_MEMORY /\ off < b_len (snd q))).
Proof.
  induction n as [|n IH]; intros m [i b] frag off ids F0 F1 FI LN W; cbn [x_frames fst snd] in *.
  - exists U_OK, m, (b_op b). split; [destruct b; reflexivity|]. split; [eapply later_refl; eauto|]. split; [exact W|]. split; [now left|]. left. split; [reflexivity|]. lia.
  - destruct (off <? b_len b) eqn:C.
    2:{ apply Z.ltb_ge in C. exists U_OK, m, (b_op b). split; [destruct b; reflexivity|]. split; [eapply later_refl; eauto|]. split; [exact W|]. split; [now left|]. left. split; [reflexivity|]. lia. }
    apply Z.ltb_lt in C. set (cur := if frag =? 0 then b_len b - off else Z.min frag (b_len b - off)).
    assert (CU : 1 <= cur /\ off + cur <= b_len b) by (subst cur; destruct (Z.eqb_spec frag 0); lia).
    rewrite (use_ok _ _ i (proj1 W)) by now left. unfold bind at 1.
    destruct (x_malloc_ok _ _ W) as (p & m1 & E1 & L1 & [(f & -> & W1)|(-> & S1 & W1)]); rewrite E1.
    2:{ exists U_ERROR_MEMORY, m1, (b_op b). split; [destruct b; reflexivity|]. split; [exact L1|]. split; [exact W1|]. split; [now left|]. right. auto. }
    unfold fits in FI. destruct (b_data b) as [[d x]|] eqn:DB.
    2:{ unfold dat in FI. rewrite DB in FI. change (zlen []) with 0 in FI. lia. }
    rewrite (x_deref_ok _ m1 d x _ W1).
    2:{ right. unfold mb. cbn [msg_blocks]. rewrite DB. right. now left. }
    unfold bind at 1. cbn [snd]. assert (ZX : zlen x = b_len b) by (rewrite FI; unfold dat; now rewrite DB). rewrite ZX.
    replace (b_len b <? off + cur) with false by (symmetry; apply Z.ltb_ge; lia).
    destruct (x_free_ok _ _ _ W1) as (m2 & E2 & W2 & L2 & _). rewrite E2. unfold bind at 1.
    destruct (IH m2 (i, mk_hmsg OP_CONTINUE (b_rsv b) (b_fin b) (Some (d, x)) (b_len b)) frag (off + cur) ids) as (c & m3 & op' & R & L3 & W3 & OP & K); cbn [fst snd b_len b_rsv b_fin b_data b_op]; [lia|lia|unfold fits, dat; cbn [b_len b_data]; lia|lia| |].
    { unfold mb in *. cbn [msg_blocks b_data] in *. rewrite DB in W2. exact W2. }
    cbn [fst snd b_len b_rsv b_fin b_data b_op] in R, OP, K. exists c, m3, op'. split; [exact R|]. split; [chain|]. split.
    { unfold mb in *. cbn [msg_blocks b_data] in *. rewrite DB. exact W3. }
    assert (OZ : op' = 0) by (destruct OP; auto). split; [now right|]. destruct K as [(-> & K)|(S3 & -> & K)]; [left; auto|right; split; [apply L1; now apply L2|split; [reflexivity|lia]]].
Qed.
Lemma x_send_managed_ok : forall m g a op rsv data frag ids, ginv g a -> 0 <= frag -> mowns m (gb g ++ ids) ->
  exists c m' g' a', x_send_managed m g op rsv data frag = Ret (c, (m', g')) /\ later m m' /\ ginv g' a' /\ mowns m' (gb g' ++ ids) /\
    ((c = U_OK /\ sendable op = true /\ a' = keep_outcoming a (sent op data)) \/
     (c = U_ERROR /\ a' = a /\ (sendable op = false \/ short m)) \/
     (short m /\ c = U_ERROR_MEMORY /\ sendable op = true /\ data <> [] /\ exists op', (op' = op \/ op' = 0) /\ a' = keep_outcoming a (op', data))).
Proof.
  intros m g a op rsv data frag ids I F0 W. unfold x_send_managed.
  destruct (x_build_ok m op rsv data _ W) as (m1 & r & -> & L1 & K1). unfold bind at 1. cbn [fst snd]. destruct r as [q|].
  2:{ destruct K1 as [W1 SE]. exists U_ERROR, m1, g, a. split; [reflexivity|]. split; [exact L1|]. split; [exact I|]. split; [exact W1|]. right. left. auto. }
  destruct K1 as (W1 & SE & MR & FI). injection MR as M1 M2.
  assert (G : exists c m2 op', (if zlen data =? 0 then match x_malloc m1 with (None, m3) => Ret (U_OK, (m3, q)) | (Some f, m3) => do m4 <- x_free m3 (Some f); Ret (U_OK, (m4, q)) end
               else x_frames m1 q frag 0 (length data)) = Ret (c, (m2, (fst q, mk_hmsg op' (b_rsv (snd q)) (b_fin (snd q)) (b_data (snd q)) (b_len (snd q))))) /\
      later m m2 /\ mowns m2 (mb q ++ (gb g ++ ids)) /\ ((c = U_OK /\ (op', data) = sent op data) \/ (short m /\ c = U_ERROR_MEMORY /\ data <> [] /\ (op' = op \/ op' = 0)))).
  { destruct (zlen data =? 0) eqn:Z0.
    - rewrite zlen_nil in Z0. destruct data; [|discriminate]. exists U_OK. assert (EQ : (fst q, mk_hmsg (b_op (snd q)) (b_rsv (snd q)) (b_fin (snd q)) (b_data (snd q)) (b_len (snd q))) = q) by (destruct q as [i []]; reflexivity).
      destruct (x_malloc_ok _ _ W1) as (p & m2 & -> & L2 & [(f & -> & W2)|(-> & S2 & W2)]).
      + destruct (x_free_ok _ _ _ W2) as (m3 & -> & W3 & L3 & _). exists m3, (b_op (snd q)). rewrite EQ. split; [reflexivity|]. split; [chain|]. split; [exact W3|]. left. rewrite M1. auto.
      + exists m2, (b_op (snd q)). rewrite EQ. split; [reflexivity|]. split; [chain|]. split; [exact W2|]. left. rewrite M1. auto.
    - rewrite zlen_nil in Z0. destruct (x_frames_ok (length data) m1 q frag 0 (gb g ++ ids) F0 (Z.le_refl 0) FI) as (c & m2 & op' & R & L2 & W2 & OP & K); [unfold fits in FI; rewrite FI, M2; unfold zlen; lia|exact W1|].
      exists c, m2, op'. split; [exact R|]. split; [chain|]. split; [exact W2|].
      assert (LB : 0 < b_len (snd q)) by (unfold fits in FI; rewrite FI, M2; destruct data; [discriminate|]; unfold zlen; cbn [length]; lia).
      destruct K as [(-> & K)|(S2 & -> & _)].
      + left. split; [reflexivity|]. rewrite (K LB). destruct data; [discriminate|reflexivity].
      + right. split; [now apply L1|]. split; [reflexivity|]. split; [destruct data; discriminate|]. now rewrite <- M1. }
  destruct G as (c & m2 & op' & R & L2 & W2 & K). go R. cbn iota beta.
  set (q1 := (fst q, mk_hmsg op' (b_rsv (snd q)) (b_fin (snd q)) (b_data (snd q)) (b_len (snd q)))).
  assert (MQ : mrel q1 (op', data)) by (split; [cbn [q1 snd b_op]; unfold dat; cbn [b_data q1]; change (match b_data (snd q) with Some (_, x) => x | None => [] end) with (dat (snd q)); now rewrite M2|exact FI]).
  assert (BQ : mb q1 = mb q) by (destruct q as [i []]; reflexivity).
  assert (FIN : exists m' g', (if g_keep_out g then do l <- x_member (g_out g); do z <- x_push m2 l (Some q1); Ret (c, (fst (snd z), with_out g (snd (snd z)))) else do m3 <- x_clear_msg m2 (Some q1); Ret (c, (m3, g))) = Ret (c, (m', g')) /\
      later m m' /\ ginv g' (keep_outcoming a (op', data)) /\ mowns m' (gb g' ++ ids)).
  { rewrite (proj2 (ginv_keeps _ _ I)). unfold keep_outcoming. destruct (a_keep_out a).
    - assert (W3 : mowns m2 (gb g ++ mb q1 ++ ids)) by (rewrite BQ; mowns_by W2).
      destruct (keep_out_ok _ _ _ _ _ _ I MQ W3) as (m3 & l' & R3 & I3 & W4 & L3).
      destruct (x_member (g_out g)) as [l0|] eqn:XM; [|discriminate R3]. unfold bind in R3 at 1. unfold bind at 1. rewrite R3. unfold bind. cbn [fst snd]. do 2 eexists. split; [reflexivity|]. split; [chain|]. auto.
    - assert (W3 : mowns m2 (msg_blocks (Some q1) ++ (gb g ++ ids))) by (change (msg_blocks (Some q1)) with (mb q1); rewrite BQ; exact W2).
      destruct (x_clear_msg_ok _ _ _ W3) as (m3 & -> & W4 & L3). unfold bind. do 2 eexists. split; [reflexivity|]. split; [chain|]. auto. }
  destruct FIN as (m' & g' & R' & L' & I' & W'). exists c, m', g', (keep_outcoming a (op', data)). split; [exact R'|]. split; [exact L'|]. split; [exact I'|]. split; [exact W'|].
  destruct K as [(-> & K)|(SH & -> & ND & OP)]; [left; rewrite <- K; auto|right; right]. eauto 10.
Qed.

Lemma x_out_ok : forall E es al, Forall2 xrel es al -> forall m d rsv ids, mowns m (ptr_blocks d ++ ids) -> incl (map fst es) ids ->
  exists c m' d' rsv', x_out E m (map Some es) d rsv = Ret (c, (m', (d', rsv'))) /\ later m m' /\ mowns m' (ptr_blocks d' ++ ids) /\
    ((c = U_OK /\ go_out E al (dtext d) rsv = Some (dtext d', rsv')) \/ (c = U_ERROR /\ go_out E al (dtext d) rsv = None) \/ (short m /\ (c = U_ERROR \/ c = U_ERROR_MEMORY))).
Proof.
  intros E es al F. induction F as [|[i e] a es al X F IH]; intros m d rsv ids W C; cbn [map x_out go_out].
  - do 4 eexists. split; [reflexivity|]. split; [eapply later_refl; eauto|]. split; [exact W|]. now left.
  - assert (C' : incl (map fst es) ids) by (intros z Z; apply C; now right).
    rewrite (x_deref_ok _ m i e _ W) by (apply in_or_app; right; apply C; now left). unfold bind at 1. cbn [snd].
    destruct X as (_ & _ & X3 & X4 & X5 & _). cbn [snd] in X3, X4, X5. rewrite X5. destruct (ae_on a); [|apply IH; assumption].
    rewrite (dread m d _ W) by (apply incl_appl, incl_refl). unfold bind at 1. rewrite X4. destruct (f_out E (ae_fun a) (dtext d)) as [u|].
    2:{ do 4 eexists. split; [reflexivity|]. split; [eapply later_refl; eauto|]. split; [exact W|]. right. now left. }
    destruct (x_malloc_ok _ _ W) as (p & m1 & -> & L1 & [(o & -> & W1)|(-> & S1 & W1)]).
    2:{ do 4 eexists. split; [reflexivity|]. split; [exact L1|]. split; [exact W1|]. right. right. auto. }
    assert (W1' : mowns m1 (ptr_blocks d ++ (o :: ids))) by mowns_by W1.
    destruct (x_free_ptr _ _ _ _ W1') as (m2 & -> & W2 & L2). unfold bind at 1.
    destruct (x_malloc_ok _ _ W2) as (p & m3 & -> & L3 & [(j & -> & W3)|(-> & S3 & W3)]).
    + assert (W3' : mowns m3 (o :: j :: ids)) by mowns_by W3.
      destruct (x_free_ok _ _ _ W3') as (m4 & -> & W4 & L4 & _). unfold bind at 1. rewrite X3.
      destruct (IH m4 (Some (j, u)) (Z.lor rsv (ae_rsv a)) ids W4 C') as (c & m5 & d' & r' & -> & L5 & W5 & K). do 4 eexists. split; [reflexivity|]. split; [chain|]. split; [exact W5|].
      cbn [dtext] in K. destruct K as [K|[K|(S4 & K)]]; auto. right. right. split; [|exact K]. now apply L1, L2, L3, L4.
    + destruct (x_free_ok _ _ _ W3) as (m4 & -> & W4 & L4 & _). do 4 eexists. split; [reflexivity|]. split; [chain|]. split; [exact W4|]. right. right. split; [now apply L1, L2|auto].
Qed.
Lemma spine_xb : forall m ex es li lo ids, exfit ex es -> mowns m ((mlist_blocks li ++ mlist_blocks lo ++ wexts_blocks ex) ++ ids) ->
  mowns m (spine ex ++ flat_map xb es ++ (mlist_blocks li ++ mlist_blocks lo ++ ids)).
Proof. intros m ex es li lo ids A W. eapply mowns_ext; [exact W|]. intros x. repeat rewrite cnt_app. rewrite (wexts_eq _ _ _ A). lia. Qed.
Lemma xb_fst : forall es, incl (map fst es) (flat_map xb es).
Proof. intros es z Z. apply in_map_iff in Z as ([i e] & <- & I). apply in_flat_map. exists (i, e). split; [exact I|]. now left. Qed.
(** the elements of the list of a manager *)
Lemma man_elements : forall m g a ids, ginv g a -> mowns m (gb g ++ ids) ->
  exists es, (do l <- x_member (g_exts g); x_elements m l) = Ret (map Some es) /\ Forall2 xrel es (a_exts a) /\ incl (map fst es) (gb g).
Proof.
  intros m g a ids (li & lo & ex & es & -> & Li & Lo & A & F) W. unfold gb in *. cbn [g_in g_out g_exts of_member x_member] in *. exists es. unfold bind.
  pose proof (spine_xb _ _ _ _ _ _ A W) as W1. rewrite (x_elements_ok _ _ _ _ A W1) by (apply incl_appl, incl_refl). split; [reflexivity|]. split; [exact F|].
  intros z Z. do 2 (apply in_or_app; right). apply cnt_in. rewrite (wexts_eq _ _ _ A). assert (H : In z (flat_map xb es)) by now apply xb_fst. apply cnt_in in H. lia.
Qed.
Lemma x_send_ok : forall E m g a op data frag ids, ginv g a -> 0 <= frag -> mowns m (gb g ++ ids) ->
  exists c m' g' a', x_send E m g op data frag = Ret (c, (m', g')) /\ later m m' /\ ginv g' a' /\ mowns m' (gb g' ++ ids) /\
    ((c, a') = a_send E a op data \/
     (short m /\ a' = a /\ (c = U_ERROR \/ c = U_ERROR_MEMORY)) \/
     (short m /\ c = U_ERROR_MEMORY /\ a_runs a = true /\ sendable op = true /\ exists u op', through E a op data = Some u /\ (op' = op \/ op' = 0) /\ a' = keep_outcoming a (op', u))).
Proof.
  intros E m g a op data frag ids I F0 W. unfold x_send. rewrite (ginv_connected _ _ I). unfold a_send. destruct (a_runs a) eqn:RN.
  2:{ do 4 eexists. split; [reflexivity|]. split; [eapply later_refl; eauto|]. split; [exact I|]. split; [exact W|]. now left. }
  assert (G : exists m1 d, (if zlen data =? 0 then Ret (m, Some None) else match x_malloc m with (None, m1) => Ret (m1, None) | (Some i, m1) => Ret (m1, Some (Some (i, data))) end) = Ret (m1, d) /\ later m m1 /\
      match d with None => short m /\ mowns m1 (gb g ++ ids) | Some d0 => dtext d0 = data /\ mowns m1 (ptr_blocks d0 ++ (gb g ++ ids)) end).
  { rewrite zlen_nil. destruct data as [|z data].
    - do 2 eexists. split; [reflexivity|]. split; [eapply later_refl; eauto|]. split; [reflexivity|exact W].
    - destruct (x_malloc_ok _ _ W) as (p & m1 & -> & L1 & [(i & -> & W1)|(-> & S1 & W1)]); do 2 eexists; (split; [reflexivity|]); (split; [exact L1|]); split; auto. }
  destruct G as (m1 & d & R & L1 & K). go R. cbn [fst snd]. destruct d as [d0|].
  2:{ destruct K as [SH W1]. do 4 eexists. split; [reflexivity|]. split; [exact L1|]. split; [exact I|]. split; [exact W1|]. right. left. auto. }
  destruct K as [DT W1].
  assert (W1' : mowns m1 (gb g ++ (ptr_blocks d0 ++ ids))) by mowns_by W1.
  destruct (man_elements _ _ _ _ I W1') as (es & RE & F & CI).
  destruct (x_member (g_exts g)) as [l0|] eqn:XM; [|discriminate RE]. change (x_elements m1 l0 = Ret (map Some es)) in RE. unfold bind at 1. go RE.
  assert (G : exists c m2 d1 rsv, (if (op =? OP_BINARY) || (op =? OP_TEXT) then x_out E m1 (map Some es) d0 0 else Ret (U_OK, (m1, (d0, 0)))) = Ret (c, (m2, (d1, rsv))) /\
      later m m2 /\ mowns m2 (ptr_blocks d1 ++ (gb g ++ ids)) /\
      ((c = U_OK /\ through E a op data = Some (dtext d1)) \/ (c = U_ERROR /\ through E a op data = None) \/ (short m /\ (c = U_ERROR \/ c = U_ERROR_MEMORY)))).
  { unfold through. rewrite (orb_comm (op =? 1)). unfold OP_BINARY, OP_TEXT. destruct ((op =? 2) || (op =? 1)).
    - destruct (x_out_ok E es _ F m1 d0 0 _ W1) as (c & m2 & d1 & rsv & -> & L2 & W2 & K); [now apply incl_appl|].
      do 4 eexists. split; [reflexivity|]. split; [chain|]. split; [exact W2|]. rewrite DT in K. destruct K as [(-> & ->)|[(-> & ->)|(SH & K)]]; auto. right. right. split; [now apply L1|exact K].
    - do 4 eexists. split; [reflexivity|]. split; [exact L1|]. split; [exact W1|]. left. now rewrite DT. }
  destruct G as (c & m2 & d1 & rsv & R2 & L2 & W2 & K). go R2. cbn iota beta.
  destruct (c =? U_OK) eqn:CC.
  - apply Z.eqb_eq in CC. subst c. assert (TH : through E a op data = Some (dtext d1)) by (destruct K as [(_ & K)|[(K & _)|(_ & [K|K])]]; [exact K|discriminate K|discriminate K|discriminate K]).
    rewrite (dread m2 d1 _ W2) by (apply incl_appl, incl_refl). unfold bind at 1.
    assert (W2' : mowns m2 (gb g ++ (ptr_blocks d1 ++ ids))) by mowns_by W2.
    destruct (x_send_managed_ok m2 g a op rsv (dtext d1) frag _ I F0 W2') as (c & m3 & g' & a' & -> & L3 & I3 & W3 & K3). unfold bind at 1. cbn [fst snd].
    assert (W3' : mowns m3 (ptr_blocks d1 ++ (gb g' ++ ids))) by mowns_by W3.
    destruct (x_free_ptr _ _ _ _ W3') as (m4 & -> & W4 & L4). unfold bind. exists c, m4, g', a'. split; [reflexivity|]. split; [chain|]. split; [exact I3|]. split; [exact W4|].
    rewrite TH. destruct K3 as [(-> & -> & ->)|[(-> & -> & [SE|SH])|(SH & -> & SE & ND & op' & OP & ->)]].
    + now left.
    + left. now rewrite SE.
    + right. left. split; [now apply L2|auto].
    + right. right. split; [now apply L2|]. split; [reflexivity|]. split; [reflexivity|]. split; [exact SE|]. eauto.
  - destruct (x_free_ptr _ _ _ _ W2) as (m3 & -> & W3 & L3). unfold bind. exists c, m3, g, a. split; [reflexivity|]. split; [chain|]. split; [exact I|]. split; [exact W3|].
    destruct K as [(-> & _)|[(-> & ->)|(SH & K)]]; [discriminate CC|now left|right; left; auto].
Qed.
