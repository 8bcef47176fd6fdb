(** Proofs about the memory of responses (C97): the calls on one response. *)
From Coq Require Import ZArith Bool List Lia.
From Verif Require Import Base BaseFacts UMapModel UMapProofs OwnModel OwnSpec OwnProofs MapMemModel MapMemSpec MapMemProofs MapMemPut MapMemRun MapMemSteps
  RespMemModel RespMemSpec RespMemProofs.
Import ListNotations.
Open Scope Z_scope.

Ltac openr I := destruct I as (pr & ih & ik & iv & il & es & rl & ck & nb & bd & ln & iw & wp & we & pl & ex & -> & F).
Ltac members := unfold mkr; cbn [x_member q_protocol q_header q_realm q_cookies q_nb q_body q_len q_handle].
Ltac fits F := destruct F; constructor; cbn; auto.

Lemma protocol_call : forall dups N m r a fr i s, rinv dups N r a -> mowns m (inner r ++ fr) -> rcall dups N m a fr (RProtocol i s) (x_set_protocol m r s).
Proof.
  intros dups N m r a fr i s I O. openr I. unfold x_set_protocol. members. unfold bind at 1.
  destruct (x_free_ptr _ m pr ((ih :: fb ik iv il es) ++ ptr_blocks rl ++ ckb ck ++ ptr_blocks bd ++ (iw :: ptr_blocks wp ++ ptr_blocks we ++ pl :: exb ex) ++ fr))
    as (m1 & -> & O1 & L1); [rby O|]. unfold bind at 1.
  destruct (x_strdup_ok m1 (Some s) _ O1) as (p & m2 & -> & L2 & O2 & T).
  exists (if is_null p then U_ERROR_MEMORY else U_OK), m2, (mkr p ih ik iv il es rl ck nb bd ln iw wp we pl ex), (set_protocol a (ptext p)).
  split; [reflexivity|]. split; [chain|]. split; [do 16 eexists; split; [reflexivity|]; fits F|]. split; [rby O2|].
  destruct T as [T|(-> & S1 & _)].
  - left. rewrite T. destruct p; [reflexivity|discriminate].
  - right. split; [now apply L1|]. apply fail_protocol.
Qed.
Lemma realm_call : forall dups N m r a fr i s, rinv dups N r a -> mowns m (inner r ++ fr) -> rcall dups N m a fr (RRealm i s) (x_set_realm m r s).
Proof.
  intros dups N m r a fr i s I O. openr I. unfold x_set_realm. members. unfold bind at 1.
  destruct (x_free_ptr _ m rl (ptr_blocks pr ++ (ih :: fb ik iv il es) ++ ckb ck ++ ptr_blocks bd ++ (iw :: ptr_blocks wp ++ ptr_blocks we ++ pl :: exb ex) ++ fr))
    as (m1 & -> & O1 & L1); [rby O|]. unfold bind at 1.
  change (match s with Some [] => None | _ => s end) with (nonempty s).
  destruct (x_strdup_ok m1 (nonempty s) _ O1) as (p & m2 & -> & L2 & O2 & T).
  exists U_OK, m2, (mkr pr ih ik iv il es p ck nb bd ln iw wp we pl ex), (set_realm a (ptext p)).
  split; [reflexivity|]. split; [chain|]. split; [do 16 eexists; split; [reflexivity|]; fits F|]. split; [rby O2|].
  destruct T as [T|(-> & S1 & _)].
  - left. rewrite T. reflexivity.
  - right. split; [now apply L1|]. apply fail_realm.
Qed.
Lemma header_call : forall dups N m r a fr i k v, rinv dups N r a -> mowns m (inner r ++ fr) -> (forall s, v = Some s -> zlen s + 1 <= N) -> 0 <= N -> N + 1 < two64 ->
  rcall dups N m a fr (RHeader i k v) (x_on_header m r (fun m f => x_put m f (Some k) v)).
Proof.
  intros dups N m r a fr i k v I O LV N0 NT. openr I. unfold x_on_header. members. unfold bind at 1.
  assert (O0 : mowns m (fb ik iv il es ++ (ih :: ptr_blocks pr ++ ptr_blocks rl ++ ckb ck ++ ptr_blocks bd ++ (iw :: ptr_blocks wp ++ ptr_blocks we ++ pl :: exb ex) ++ fr))) by rby O.
  rewrite (x_deref_ok _ m ih _ _ O0) by (apply in_or_app; right; now left). unfold bind at 1. cbn [fst snd].
  destruct (put_call N N m ik iv il es (ar_header a) k v _ O0 (r_header _ _ _ _ _ _ _ _ _ _ _ _ _ F) (r_nodup _ _ _ _ _ _ _ _ _ _ _ _ _ F) LV N0 (Z.le_refl N) NT)
    as (c & m1 & ik1 & iv1 & il1 & es1 & h1 & -> & L1 & O1 & F1 & ND1 & CASE). unfold bind at 1.
  exists c, m1, (mkr pr ih ik1 iv1 il1 es1 rl ck nb bd ln iw wp we pl ex), (set_header a h1).
  split; [reflexivity|]. split; [exact L1|]. split; [do 16 eexists; split; [reflexivity|]; fits F|]. split; [rby O1|].
  destruct CASE as [E|(-> & S1 & ->)].
  - left. unfold put_meaning in E. cbn [ar_call]. destruct k as [|b k]; injection E as -> ->; [destruct a|]; reflexivity.
  - right. split; auto. destruct a; apply fail_header.
Qed.
Lemma unheader_call : forall dups N m r a fr i k, rinv dups N r a -> mowns m (inner r ++ fr) ->
  rcall dups N m a fr (RUnheader i k) (x_on_header m r (fun m f => x_remove_key m f (matches false k))).
Proof.
  intros dups N m r a fr i k I O. openr I. unfold x_on_header. members. unfold bind at 1.
  assert (O0 : mowns m (fb ik iv il es ++ (ih :: ptr_blocks pr ++ ptr_blocks rl ++ ckb ck ++ ptr_blocks bd ++ (iw :: ptr_blocks wp ++ ptr_blocks we ++ pl :: exb ex) ++ fr))) by rby O.
  rewrite (x_deref_ok _ m ih _ _ O0) by (apply in_or_app; right; now left). unfold bind at 1. cbn [fst snd].
  destruct (x_remove_loop_ok (matches false k) (ih :: ptr_blocks pr ++ ptr_blocks rl ++ ckb ck ++ ptr_blocks bd ++ (iw :: ptr_blocks wp ++ ptr_blocks we ++ pl :: exb ex) ++ fr) es [] m ik iv il false)
    as (m1 & ik1 & iv1 & il1 & R & L1 & O1); [now rewrite app_nil_r|].
  rewrite !app_nil_r in *. unfold x_remove_key. cbn [mkf f_nb]. fold (mkf ik iv il es). rewrite R. unfold bind at 1. cbn [orb].
  destruct (rel_filter N (matches false k) es (ar_header a) (r_header _ _ _ _ _ _ _ _ _ _ _ _ _ F)) as [F' E]. rewrite E.
  do 2 eexists. exists (mkr pr ih ik1 iv1 il1 (filter (fun e => negb (matches false k (snd (hk e)))) es) rl ck nb bd ln iw wp we pl ex). eexists.
  split; [reflexivity|]. split; [exact L1|]. split; [|split; [rby O1|left; reflexivity]].
  do 16 eexists. split; [reflexivity|]. destruct F; constructor; cbn [set_header ar_header ar_protocol ar_realm ar_cookies ar_body ar_socket ar_exts a_remove_key snd]; auto.
  now apply nodup_filter.
Qed.
Lemma text_call : forall dups N m r a fr i s, rinv dups N r a -> mowns m (inner r ++ fr) -> rcall dups N m a fr (RText i s) (x_string_body m r s).
Proof.
  intros dups N m r a fr i s I O. openr I. unfold x_string_body. members. unfold bind at 1.
  destruct (x_free_ptr _ m bd (ptr_blocks pr ++ (ih :: fb ik iv il es) ++ ptr_blocks rl ++ ckb ck ++ (iw :: ptr_blocks wp ++ ptr_blocks we ++ pl :: exb ex) ++ fr))
    as (m1 & -> & O1 & L1); [rby O|]. unfold bind at 1. unfold bind at 1.
  destruct (x_malloc_ok _ _ O1) as (p & m2 & -> & L2 & [(j & -> & O2)|(-> & S2 & O2)]).
  - do 2 eexists. exists (mkr pr ih ik iv il es rl ck nb (Some (j, s ++ [0])) (zlen s) iw wp we pl ex). eexists.
    split; [reflexivity|]. split; [chain|]. split; [|split; [rby O2|left; reflexivity]].
    do 16 eexists. split; [reflexivity|]. destruct F; constructor; cbn; auto. pose proof (zlen_nonneg _ s). rewrite zlen_app. change (zlen [0]) with 1. split; [lia|].
    unfold zfirstn, zlen. rewrite Nat2Z.id, firstn_app, Nat.sub_diag, firstn_all, app_nil_r. reflexivity.
  - do 2 eexists. exists (mkr pr ih ik iv il es rl ck nb None ln iw wp we pl ex). eexists.
    split; [reflexivity|]. split; [chain|]. split; [|split; [rby O2|right; split; [now apply L1|apply fail_text]]].
    do 16 eexists. split; [reflexivity|]. fits F.
Qed.
Lemma bytes_call : forall dups N m r a fr i b, rinv dups N r a -> mowns m (inner r ++ fr) -> rcall dups N m a fr (RBytes i b) (x_binary_body m r b).
Proof.
  intros dups N m r a fr i b I O. unfold x_binary_body. destruct b as [|c b].
  { change (zlen (@nil Z) =? 0) with true. cbn iota. exists U_ERROR_PARAMS, m, r, a. split; [reflexivity|]. split; [eapply later_refl; eauto|]. auto. }
  replace (zlen (c :: b) =? 0) with false. 2:{ symmetry. apply Z.eqb_neq. assert (0 < zlen (c :: b)) by (apply zlen_pos; discriminate). lia. }
  openr I. members. unfold bind at 1.
  destruct (x_free_ptr _ m bd (ptr_blocks pr ++ (ih :: fb ik iv il es) ++ ptr_blocks rl ++ ckb ck ++ (iw :: ptr_blocks wp ++ ptr_blocks we ++ pl :: exb ex) ++ fr))
    as (m1 & -> & O1 & L1); [rby O|]. unfold bind at 1.
  destruct (x_malloc_ok _ _ O1) as (p & m2 & -> & L2 & [(j & -> & O2)|(-> & S2 & O2)]).
  - do 2 eexists. exists (mkr pr ih ik iv il es rl ck nb (Some (j, c :: b)) (zlen (c :: b)) iw wp we pl ex). eexists.
    split; [reflexivity|]. split; [chain|]. split; [|split; [rby O2|left; reflexivity]].
    do 16 eexists. split; [reflexivity|]. destruct F; constructor; auto. cbn [brel set_body ar_body]. pose proof (zlen_nonneg _ (c :: b)). split; [lia|].
    unfold zfirstn, zlen. now rewrite Nat2Z.id, firstn_all.
  - do 2 eexists. exists (mkr pr ih ik iv il es rl ck nb None 0 iw wp we pl ex). eexists.
    split; [reflexivity|]. split; [chain|]. split; [|split; [rby O2|right; split; [now apply L1|apply fail_bytes]]].
    do 16 eexists. split; [reflexivity|]. fits F.
Qed.
Lemma empty_call : forall dups N m r a fr i, rinv dups N r a -> mowns m (inner r ++ fr) -> rcall dups N m a fr (REmpty i) (x_empty_body m r).
Proof.
  intros dups N m r a fr i I O. openr I. unfold x_empty_body. members. unfold bind at 1.
  destruct (x_free_ptr _ m bd (ptr_blocks pr ++ (ih :: fb ik iv il es) ++ ptr_blocks rl ++ ckb ck ++ (iw :: ptr_blocks wp ++ ptr_blocks we ++ pl :: exb ex) ++ fr))
    as (m1 & -> & O1 & L1); [rby O|]. unfold bind at 1.
  do 2 eexists. exists (mkr pr ih ik iv il es rl ck nb None 0 iw wp we pl ex). eexists.
  split; [reflexivity|]. split; [chain|]. split; [|split; [rby O1|left; reflexivity]].
  do 16 eexists. split; [reflexivity|]. fits F.
Qed.

(** ulfius_set_websocket_response *)
Lemma socket_call : forall dups N m r a fr i p e, rinv dups N r a -> mowns m (inner r ++ fr) -> memory_ok (RSocket i p e) (m_new m) ->
  rcall dups N m a fr (RSocket i p e) (x_set_websocket m r p e).
Proof.
  intros dups N m r a fr i p e I O MO. openr I. unfold x_set_websocket. members. unfold bind at 1.
  assert (O0 : mowns m (ptr_blocks wp ++ (ptr_blocks we ++ (iw :: pl :: exb ex ++ ptr_blocks pr ++ (ih :: fb ik iv il es) ++ ptr_blocks rl ++ ckb ck ++ ptr_blocks bd ++ fr)))) by rby O.
  rewrite (x_deref_ok _ m iw _ _ O0) by (do 2 (apply in_or_app; right); now left). unfold bind at 1. cbn [fst snd w_protocol w_extensions w_list].
  pose proof (r_socket _ _ _ _ _ _ _ _ _ _ _ _ _ F) as RS.
  destruct (x_free_ptr _ _ _ _ O0) as (m1 & E1 & O1 & L1). rewrite E1. unfold bind at 1.
  destruct (x_strdup_ok m1 p _ O1) as (np & m2 & E2 & L2 & O2 & T2). rewrite E2.
  destruct (missing p np) eqn:MP.
  - destruct T2 as [T2|(-> & S2 & _)]; [rewrite (missing_text _ _ T2) in MP; discriminate|].
    do 2 eexists. exists (mkr pr ih ik iv il es rl ck nb bd ln iw None we pl ex), (set_socket a (None, snd (ar_socket a))).
    split; [reflexivity|]. split; [chain|]. split; [|split; [rby O2|right; split; [now apply L1|apply fail_socket_protocol]]].
    do 16 eexists. split; [reflexivity|]. destruct F; constructor; auto. cbn. rewrite <- RS. reflexivity.
  - assert (T2' : ptext np = p).
    { destruct T2 as [T2|(-> & S2 & NP)]; auto. destruct p; [cbn in MP; discriminate|contradiction]. }
    assert (O2' : mowns m2 (ptr_blocks we ++ (ptr_blocks np ++ (iw :: pl :: exb ex ++ ptr_blocks pr ++ (ih :: fb ik iv il es) ++ ptr_blocks rl ++ ckb ck ++ ptr_blocks bd ++ fr)))) by (mowns_by O2).
    destruct (x_free_ptr _ _ _ _ O2') as (m3 & -> & O3 & L3). unfold bind at 1.
    destruct (x_strdup_ok m3 e _ O3) as (ne & m4 & -> & L4 & O4 & T4).
    destruct (missing e ne) eqn:ME.
    + destruct T4 as [T4|(-> & S4 & _)]; [rewrite (missing_text _ _ T4) in ME; discriminate|].
      assert (S0 : short m) by (apply L1, L2, L3; auto).
      assert (PN : p = None).
      { destruct p as [p|]; auto. exfalso. cbn [memory_ok] in MO. destruct MO as [MO|MO]; [now apply MO|].
        assert (EN : m_new m1 = m_new m) by (unfold x_free in E1; destruct (addr wp); [unfold bind in E1; destruct (h_free _ _); [injection E1 as <-; reflexivity|discriminate]|injection E1 as <-; reflexivity]).
        cbn [x_strdup] in E2. unfold x_malloc in E2. rewrite EN in E2. destruct (m_new m) as [|b z]; [discriminate|]. cbn in MO. subst b. cbn in E2. injection E2 as <- _. discriminate. }
      rewrite PN in T2'. apply ptext_none in T2'. rewrite T2' in *. rewrite PN. cbn [addr x_free]. unfold bind at 1.
      do 2 eexists. exists (mkr pr ih ik iv il es rl ck nb bd ln iw None None pl ex), (set_socket a (None, None)).
      split; [reflexivity|]. split; [chain|]. split; [|split; [rby O4|right; split; [exact S0|apply fail_socket_extensions]]].
      do 16 eexists. split; [reflexivity|]. fits F.
    + assert (T4' : ptext ne = e).
      { destruct T4 as [T4|(-> & S4 & NP)]; auto. destruct e; [cbn in ME; discriminate|contradiction]. }
      do 2 eexists. exists (mkr pr ih ik iv il es rl ck nb bd ln iw np ne pl ex), (set_socket a (p, e)).
      split; [reflexivity|]. split; [chain|]. split; [|split; [rby O4|left; reflexivity]].
      do 16 eexists. split; [reflexivity|]. destruct F; constructor; auto. cbn. congruence.
Qed.

Lemma extension_call : forall dups N m r a fr i n, rinv dups N r a -> mowns m (inner r ++ fr) -> rcall dups N m a fr (RExtension i n) (x_add_extension m r n).
Proof.
  intros dups N m r a fr i n I O. unfold x_add_extension.
  destruct (x_malloc_ok _ _ O) as (p & m1 & -> & L1 & [(pe & -> & O1)|(-> & S1 & O1)]).
  2:{ exists U_ERROR_MEMORY, m1, r, a. split; [reflexivity|]. split; [exact L1|]. split; [exact I|]. split; [exact O1|]. right. split; auto. apply fail_extension. }
  destruct (x_strdup_ok m1 (Some n) _ O1) as (ns & m2 & -> & L2 & O2 & T2). openr I. members. unfold bind at 1.
  assert (O3 : mowns m2 (ptr_blocks ex ++ (flat_map ext_blocks (match ex with Some (_, q) => q | None => [] end) ++ ptr_blocks ns ++ pe :: iw :: ptr_blocks wp ++ ptr_blocks we ++ pl ::
     ptr_blocks pr ++ (ih :: fb ik iv il es) ++ ptr_blocks rl ++ ckb ck ++ ptr_blocks bd ++ fr))).
  { eapply mowns_ext; [exact O2|]. intros x. rewrite !cnt_app, !cnt_cons, !cnt_app, inner_mkr. unfold rb.
    assert (E : cnt (exb ex) x = (cnt (ptr_blocks ex) x + cnt (flat_map ext_blocks (match ex with Some (_, q) => q | None => [] end)) x)%nat).
    { destruct ex as [[j q]|]; cbn [exb ptr_blocks flat_map]; rewrite ?cnt_cons, ?cnt_nil; lia. }
    repeat rewrite ?cnt_app, ?cnt_cons, ?cnt_nil. lia. }
  assert (IW : In iw (ptr_blocks ex ++ (flat_map ext_blocks (match ex with Some (_, q) => q | None => [] end) ++ ptr_blocks ns ++ pe :: iw :: ptr_blocks wp ++ ptr_blocks we ++ pl ::
     ptr_blocks pr ++ (ih :: fb ik iv il es) ++ ptr_blocks rl ++ ckb ck ++ ptr_blocks bd ++ fr))).
  { do 3 (apply in_or_app; right). right. now left. }
  rewrite (x_deref_ok _ m2 iw _ _ O3 IW). unfold bind at 1. cbn [fst snd w_protocol w_extensions w_list].
  rewrite (x_deref_ok _ m2 pl _ _ O3). 2:{ do 3 (apply in_or_app; right). right. right. do 2 (apply in_or_app; right). now left. }
  unfold bind at 1. cbn [fst snd].
  destruct (x_realloc_ok _ _ _ _ O3) as (pa & m3 & -> & O4 & L3). unfold bind at 1.
  do 2 eexists. exists (mkr pr ih ik iv il es rl ck nb bd ln iw wp we pl (Some (pa, match ex with Some (_, q) => q | None => [] end ++ [Some (pe, mk_hext ns None)]))),
    (set_exts a (ar_exts a ++ [ptext ns])).
  split; [reflexivity|]. split; [chain|]. split; [|split].
  - do 16 eexists. split; [reflexivity|]. pose proof (r_exts _ _ _ _ _ _ _ _ _ _ _ _ _ F) as RX. destruct F; constructor; auto. cbn [exrel set_exts ar_exts].
    destruct ex as [[j q]|]; cbn [exrel] in RX.
    + destruct RX as (xs & -> & ->). exists (xs ++ [(pe, mk_hext ns None)]). rewrite !map_app. auto.
    + rewrite RX. exists [(pe, mk_hext ns None)]. auto.
  - eapply mowns_ext; [exact O4|]. intros x. rewrite cnt_app, inner_mkr. unfold rb. cbn [exb]. rewrite flat_map_app. cbn [flat_map ext_blocks e_server e_client ptr_blocks].
    repeat rewrite ?cnt_app, ?cnt_cons, ?cnt_nil. lia.
  - destruct T2 as [T2|(-> & S2 & _)]; [left; rewrite T2; reflexivity|right; split; [now apply L1|apply fail_extension_name]].
Qed.
