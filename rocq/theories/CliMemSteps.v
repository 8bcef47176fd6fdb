(** Proofs about the memory of websockets opened by a client (C101): every call on a handler, whole runs
    of a program. *)
From Coq Require Import String ZArith Bool List Lia.
From Verif Require Import Base BaseFacts StrModel UMapModel UMapProofs OwnModel OwnSpec OwnProofs MapMemModel MapMemSpec MapMemProofs MapMemPut MapMemRun MapMemSteps
  RespMemModel RespMemSpec RespMemProofs RespMemSteps WsMemModel WsMemSpec WsMemProofs WsMemCalls HandMemModel HandMemSpec HandMemProofs HandMemSteps
  CliMemModel CliMemSpec CliMemProofs CliMemClear CliMemCalls.
Import ListNotations.
Open Scope Z_scope.
Open Scope list_scope.

Definition hrel (E : cenv) (h : handler) (a : chand) : Prop :=
  match h, a with
  | HNull, CNull => True
  | HStale, CStale => True
  | HWs p w, CBroken => w = mk_cws (Some None) None None None
  | HWs p w, CLive s => wrel E w s
  | _, _ => False
  end.
Lemma left_plain : forall E l, Forall (plain_cext E) l -> left_behind E l = 0%nat.
Proof.
  intros E l H. unfold left_behind. induction H as [|e l (_ & P & _) H IH]; [reflexivity|]. cbn [filter]. rewrite P. cbn [andb]. exact IH.
Qed.

Section Steps.
Variable E : cenv.
(** ** the websocket is opened *)
Definition open_rest (m2 : mem) (p : nat) (w : cws) (u : opening) : outcome (Z * (mem * handler)) :=
  let '(q, m3) := x_malloc m2 in
  do g <- x_member (k_man w); do y <- x_deref m3 g;
  let w1 := mk_cws (k_man w) (k_prot w) (k_text w) (at_block q tt) in
  let fail c m w := do m1 <- x_clear_cws E m p w; Ret (c, (m1, HStale)) in
  if negb (o_connect u) then fail U_ERROR m3 w1
  else
    do z <- x_headers m3 w1 (o_headers u);
    if negb (o_answer u) then fail (o_code u) (fst z) (snd z)
    else
      do e <- x_answer E (fst z) (connect (snd y) true) (k_text (snd z));
      let '(ok, (m4, g1)) := e in
      let w2 := mk_cws (Some (Some (fst y, g1))) (k_prot (snd z)) (k_text (snd z)) (k_req (snd z)) in
      if negb ok then fail U_ERROR m4 w2
      else if negb (o_thread u) then UB Uninit
      else Ret (U_OK, (m4, HWs p w2)).
Definition a_rest (s : cst) (u : opening) : option (Z * (chand * nat)) :=
  let n := one_if (t_req s) in
  if o_connect u then
    let '(s1, k) := a_headers (put_req s) (o_headers u) in
    if o_answer u then
      let '(ok, (s2, j)) := a_answer E (put_conn s1 true) in
      if ok then Some (U_OK, (CLive s2, (n + k + j)%nat)) else gone E U_ERROR s2 (n + k + j)
    else gone E (o_code u) s1 (n + k)
  else gone E U_ERROR s n.
Definition open_shape (s : cst) (u : opening) (c : Z) (a' : chand) (lost : nat) : Prop :=
  ((c = U_ERROR \/ c = o_code u) /\ a' = CStale \/
   exists s', c = U_OK /\ a' = CLive s' /\ t_conn s' = true /\ Forall2 same_cext (t_exts s) (t_exts s') /\ (Forall (plain_cext E) (t_exts s) -> Forall (plain_cext E) (t_exts s'))) /\
  (Forall (plain_cext E) (t_exts s) -> unopened s -> once (o_headers u) -> lost = 0%nat).
Lemma open_rest_ok : forall m p w s u ids, wrel E w s -> o_thread u = true -> mowns m (p :: cws_blocks w ++ ids) ->
  exists c m' h' a' more, open_rest m p w u = Ret (c, (m', h')) /\ later m m' /\ hrel E h' a' /\ mowns m' (hand_blocks h' ++ more ++ ids) /\
    (a_rest s u = Some (c, (a', List.length more)) \/ short m) /\ open_shape s u c a' (List.length more).
Proof.
  intros m p w s u ids (g & K & (pm & li & lo & ex & es & -> & A & G & X) & TP & TT & TR) TH W.
  unfold open_rest. destruct (x_malloc_ok _ _ W) as (q & m3 & -> & L3 & W3). rewrite K. cbn [x_member]. unfold bind at 1.
  set (w1 := mk_cws (Some (Some (pm, mk_hman (t_conn s) (empty_list li) (empty_list lo) true true (t_bits s) (Some ex)))) (k_prot w) (k_text w) (at_block q tt)).
  assert (W4 : mowns m3 (p :: cws_blocks w1 ++ ptr_blocks (k_req w) ++ ids) /\ (has (at_block q tt) = true \/ short m)).
  { unfold w1, cws_blocks in *. rewrite K in W3. cbn [k_man k_prot k_text k_req]. destruct W3 as [(i & -> & W3)|(-> & S & W3)].
    - split; [cbn [at_block ptr_blocks of_member] in *; mowns_by W3|left; reflexivity].
    - split; [cbn [at_block ptr_blocks of_member] in *; mowns_by W3|right; exact S]. }
  destruct W4 as [W4 RQ]. clear W3.
  assert (PM : forall m l, mowns m (p :: cws_blocks w1 ++ l) -> x_deref m (Some (pm, mk_hman (t_conn s) (empty_list li) (empty_list lo) true true (t_bits s) (Some ex))) = Ret (pm, mk_hman (t_conn s) (empty_list li) (empty_list lo) true true (t_bits s) (Some ex))).
  { intros m0 l W0. apply (x_deref_ok _ m0 pm _ _ W0). right. apply in_or_app. left. unfold w1, cws_blocks. cbn [k_man of_member man_blocks]. now left. }
  rewrite (PM _ _ W4). unfold bind at 1. cbn [snd fst]. clear PM.
  assert (FAIL : forall c m5 w5 s5 lost, later m m5 -> wrel E w5 s5 -> mowns m5 (p :: cws_blocks w5 ++ lost ++ ids) -> (c = U_ERROR \/ c = o_code u) ->
     (a_rest s u = Some (c, (CStale, (List.length lost + left_behind E (t_exts s5))%nat)) \/ short m) ->
     (Forall (plain_cext E) (t_exts s) -> unopened s -> once (o_headers u) -> lost = [] /\ Forall (plain_cext E) (t_exts s5)) ->
     exists c' m' h' a' more, (do m1 <- x_clear_cws E m5 p w5; Ret (c, (m1, HStale))) = Ret (c', (m', h')) /\ later m m' /\ hrel E h' a' /\ mowns m' (hand_blocks h' ++ more ++ ids) /\
       (a_rest s u = Some (c', (a', List.length more)) \/ short m) /\ open_shape s u c' a' (List.length more)).
  { intros c m5 w5 s5 lost L5 R5 W5 HC EX PL. destruct (clear_cws_ok E m5 p w5 s5 _ R5 W5) as (m6 & more & -> & L6 & W6 & LN). unfold bind.
    exists c, m6, HStale, CStale, (lost ++ more). split; [reflexivity|]. split; [chain|]. split; [exact Logic.I|]. split; [cbn [hand_blocks app]; mowns_by W6|]. rewrite app_length, LN. split; [exact EX|].
    split; [left; auto|]. intros P1 P2 P3. destruct (PL P1 P2 P3) as [-> P4]. now rewrite (left_plain _ _ P4). }
  assert (REQ : List.length (ptr_blocks (k_req w)) = one_if (t_req s)) by (rewrite len_ptr, TR; reflexivity).
  assert (NOREQ : unopened s -> ptr_blocks (k_req w) = []) by (intros (_ & _ & H); rewrite TR in H; destruct (k_req w); [discriminate|reflexivity]).
  set (s1 := mk_cst (t_exts s) (t_bits s) (t_prot s) (t_text s) (has (at_block q tt)) (t_conn s)).
  assert (WR : wrel E w1 s1).
  { eexists. split; [reflexivity|]. split; [exists pm, li, lo, ex, es; auto|]. auto. }
  destruct (o_connect u) eqn:OC; cbn [negb].
  2:{ apply (FAIL U_ERROR m3 w1 s1 (ptr_blocks (k_req w))); [exact L3|exact WR|exact W4|auto| |].
      - left. unfold a_rest. rewrite OC. unfold gone. now rewrite REQ.
      - intros P1 P2 _. split; [apply NOREQ, P2|exact P1]. }
  assert (W5 : mowns m3 (texts w1 ++ (p :: man_blocks (Some (pm, mk_hman (t_conn s) (empty_list li) (empty_list lo) true true (t_bits s) (Some ex))) ++ ptr_blocks (at_block q tt) ++ ptr_blocks (k_req w) ++ ids))).
  { unfold texts, w1, cws_blocks in *. cbn [k_man k_prot k_text k_req of_member] in *. mowns_by W4. }
  destruct (x_headers_ok (o_headers u) m3 w1 _ W5) as (m6 & w6 & more & R6 & L6 & K6 & Q6 & W6 & EX6 & PL6). go R6. cbn [fst snd].
  set (s6 := mk_cst (t_exts s) (t_bits s) (ptext (k_prot w6)) (ptext (k_text w6)) (has (at_block q tt)) (t_conn s)).
  assert (EXH : a_headers (put_req s) (o_headers u) = (s6, List.length more) \/ short m).
  { destruct RQ as [RQ|S]; [|now right]. destruct EX6 as [EX6|S]; [left|right; apply L3, S]. unfold s6, put_req. rewrite RQ. unfold w1 in EX6. cbn [k_prot k_text] in EX6. rewrite TP, TT. apply EX6. }
  assert (PLH : unopened s -> once (o_headers u) -> more = []).
  { intros (U1 & U2 & U3) (O1 & O2). rewrite TP in U1. rewrite TT in U2. apply ptext_none in U1, U2. unfold w1 in PL6. cbn [k_prot k_text] in PL6. rewrite U1, U2 in PL6. cbn [has one_if] in PL6.
    destruct PL6 as [H _]; [unfold lines, is_prot; lia|unfold lines, is_exts; lia|exact H]. }
  assert (MR : forall b, manrel E (Some (pm, mk_hman b (empty_list li) (empty_list lo) true true (t_bits s) (Some ex))) b (t_bits s) (t_exts s)) by (intros b; exists pm, li, lo, ex, es; auto).
  destruct (o_answer u) eqn:OA; cbn [negb].
  2:{ apply (FAIL (o_code u) m6 w6 s6 (ptr_blocks (k_req w) ++ more)); [chain| | |auto| |].
      - eexists. split; [rewrite K6; reflexivity|]. split; [apply MR|]. unfold s6. cbn [t_prot t_text t_req]. rewrite Q6. auto.
      - unfold texts, cws_blocks in *. rewrite K6, Q6. unfold w1. cbn [k_man k_req of_member] in *. mowns_by W6.
      - destruct EXH as [EXH|S]; [left|now right]. unfold a_rest. rewrite OC, OA, EXH. unfold gone. rewrite app_length, REQ. reflexivity.
      - intros P1 P2 P3. rewrite (NOREQ P2), (PLH P2 P3). auto. }
  set (g6 := mk_hman true (empty_list li) (empty_list lo) true true (t_bits s) (Some ex)).
  assert (W7 : mowns m6 (man_blocks (Some (pm, g6)) ++ (texts w6 ++ p :: ptr_blocks (at_block q tt) ++ more ++ ptr_blocks (k_req w) ++ ids))) by (unfold g6; cbn [man_blocks g_in g_out g_exts] in *; mowns_by W6).
  destruct (answer_ok E m6 pm g6 true (t_bits s) (t_exts s) (k_text w6) _ (MR true) W7) as (ok & m7 & g7 & bits7 & l7 & more7 & R7 & L7 & MR7 & W8 & EX7 & SM7 & PL7).
  { unfold texts. intros z Z. apply in_or_app. left. apply in_or_app. now right. }
  change (connect (mk_hman (t_conn s) (empty_list li) (empty_list lo) true true (t_bits s) (Some ex)) true) with g6. rewrite R7. unfold bind at 1.
  set (w7 := mk_cws (Some (Some (pm, g7))) (k_prot w6) (k_text w6) (k_req w6)). set (s7 := put_cexts (put_conn s6 true) l7 bits7).
  assert (WR7 : wrel E w7 s7).
  { eexists. split; [reflexivity|]. split; [exact MR7|]. unfold s7, put_cexts, put_conn, s6. cbn [t_prot t_text t_req w7 k_prot k_text k_req]. rewrite Q6. auto. }
  assert (W9 : mowns m7 (p :: cws_blocks w7 ++ (ptr_blocks (k_req w) ++ more ++ more7) ++ ids)).
  { unfold texts, cws_blocks, w7 in *. rewrite Q6. unfold w1. cbn [k_man k_prot k_text k_req of_member] in *. mowns_by W8. }
  assert (EXA : a_headers (put_req s) (o_headers u) = (s6, List.length more) /\ a_answer E (put_conn s6 true) = (ok, (s7, List.length more7)) \/ short m).
  { destruct EXH as [EXH|S]; [|now right]. destruct EX7 as [EX7|S]; [left|right; apply L3, L6, S]. split; [exact EXH|]. apply EX7; reflexivity. }
  destruct ok; cbn [negb].
  - rewrite TH. cbn [negb]. exists U_OK, m7, (HWs p w7), (CLive s7), (ptr_blocks (k_req w) ++ more ++ more7). split; [reflexivity|]. split; [chain|]. split; [exact WR7|]. split; [exact W9|]. split; [|split].
    + destruct EXA as [[H1 H2]|S]; [left|now right]. unfold a_rest. rewrite OC, OA, H1, H2. rewrite !app_length, REQ. now rewrite Nat.add_assoc.
    + right. exists s7. split; [reflexivity|]. split; [reflexivity|]. split; [reflexivity|]. split; [exact SM7|]. intros P. now apply PL7.
    + intros P1 P2 P3. rewrite (NOREQ P2), (PLH P2 P3). destruct (PL7 P1) as [-> _]. reflexivity.
  - apply (FAIL U_ERROR m7 w7 s7 (ptr_blocks (k_req w) ++ more ++ more7)); [chain|exact WR7|exact W9|auto| |].
    + destruct EXA as [[H1 H2]|S]; [left|now right]. unfold a_rest. rewrite OC, OA, H1, H2. unfold gone. rewrite !app_length, REQ. now rewrite !Nat.add_assoc.
    + intros P1 P2 P3. rewrite (NOREQ P2), (PLH P2 P3). destruct (PL7 P1) as [-> P4]. auto.
Qed.

(** ** the calls *)
Definition step_result (m : mem) (h : handler) (a : chand) (o : cop) (ids : list nat) : Prop :=
  (exists c m' h' a' more, cstep1 E m h o = Ret (c, (m', h')) /\ hrel E h' a' /\ m_grow m' = [] /\ mowns m' (hand_blocks h' ++ more ++ ids) /\
     (a_cstep1 E a o = Some (c, (a', List.length more)) \/ (short m /\ a_cstep_fail E a o c a' (List.length more)))) \/
  ((exists k, cstep1 E m h o = UB k) /\ (a_cstep1 E a o = None \/ no_list a o (m_new m))).
Lemma open_call : forall m h a i u ids, hrel E h a -> o_thread u = true -> mowns m (hand_blocks h ++ ids) -> step_result m h a (COpen i u) ids.
Proof.
  intros m h a i u ids H TH W. unfold step_result. cbn [cstep1 a_cstep1]. unfold x_open.
  destruct (x_malloc_ok _ _ W) as (url & m1 & EU & L1 & W1). rewrite EU. destruct (malloc_tl _ _ _ EU) as [T1 N1].
  (* nothing is done *)
  assert (NOT : (o_url u = false \/ url = None) ->
     exists c m' h' a' more, (do (c, (m2, h2)) <- Ret (U_ERROR_PARAMS, (m1, h)); do m3 <- x_free m2 url; Ret (c, (m3, h2))) = Ret (c, (m', h')) /\ hrel E h' a' /\ m_grow m' = [] /\ mowns m' (hand_blocks h' ++ more ++ ids) /\
       (a_open E a u = Some (c, (a', List.length more)) \/ (short m /\ a_cstep_fail E a (COpen i u) c a' (List.length more)))).
  { intros C. unfold bind at 1. destruct W1 as [(q & -> & W1)|(-> & S & W1)].
    - destruct (x_free_ok _ _ _ W1) as (m2 & -> & W2 & L2 & _). unfold bind. exists U_ERROR_PARAMS, m2, h, a, []. split; [reflexivity|]. split; [exact H|]. split; [apply L2|]. split; [exact W2|].
      left. destruct C as [C|C]; [|discriminate]. unfold a_open. rewrite C. reflexivity.
    - change (x_free m1 None) with (Ret m1). unfold bind. exists U_ERROR_PARAMS, m1, h, a, []. split; [reflexivity|]. split; [exact H|]. split; [apply L1|]. split; [exact W1|].
      right. split; [exact S|]. left. auto. }
  destruct (o_url u) eqn:OU; cbn [negb orb]; [|left; apply NOT; auto].
  destruct url as [q|]; [|left; apply NOT; auto]. clear NOT. cbn [negb orb].
  destruct W1 as [(q' & EQ & W1)|(EQ & _)]; [injection EQ as <-|discriminate].
  (* the websocket is there *)
  assert (GO : forall m2 p w s, later m1 m2 -> wrel E w s -> mowns m2 (p :: cws_blocks w ++ q :: ids) -> (a = CLive s \/ a = CNull /\ s = fresh) ->
     exists c m' h' a' more, (do (c, (m2, h2)) <- open_rest m2 p w u; do m3 <- x_free m2 (Some q); Ret (c, (m3, h2))) = Ret (c, (m', h')) /\ hrel E h' a' /\ m_grow m' = [] /\ mowns m' (hand_blocks h' ++ more ++ ids) /\
       (a_open E a u = Some (c, (a', List.length more)) \/ (short m /\ a_cstep_fail E a (COpen i u) c a' (List.length more)))).
  { intros m2 p w s L2 R2 W2 AS. destruct (open_rest_ok m2 p w s u _ R2 TH W2) as (c & m3 & h3 & a3 & more & -> & L3 & H3 & W3 & EX & SH). unfold bind at 1.
    assert (W4 : mowns m3 (q :: (hand_blocks h3 ++ more ++ ids))) by mowns_by W3. destruct (x_free_ok _ _ _ W4) as (m4 & -> & W5 & L4 & _). unfold bind.
    exists c, m4, h3, a3, more. split; [reflexivity|]. split; [exact H3|]. split; [apply L4|]. split; [exact W5|].
    destruct EX as [EX|S].
    - left. unfold a_open. rewrite OU. destruct AS as [->|[-> ->]]; exact EX.
    - right. split; [apply L1, L2, S|]. right. right. exists s. split; [exact AS|]. exact SH. }
  destruct h as [| |p w]; destruct a as [| | |s]; try contradiction H.
  - (* a new websocket *)
    unfold x_new_ws. destruct (x_malloc_ok _ _ W1) as (p & m2 & E2 & L2 & [(p' & -> & W2)|(-> & S2 & W2)]); rewrite E2; destruct (malloc_tl _ _ _ E2) as [T2 N2].
    + destruct (nth 0 (m_new m2) true) eqn:B0; [destruct (nth 1 (m_new m2) true) eqn:B1|].
      2:{ right. destruct (x_init_ws_bad _ _ W2 B0 B1) as (k & R). split; [exists k; rewrite R; reflexivity|]. right. cbn [no_list].
          rewrite T2, nth_tl, T1, nth_tl in B0, B1. split; [exact OU|]. split; [|split; [|split; [exact B0|exact B1]]].
          - destruct (nth 0 (m_new m) true); [reflexivity|]. destruct N1 as [_ N1]. discriminate (N1 eq_refl).
          - destruct (nth 0 (m_new m1) true) eqn:B; [now rewrite T1, nth_tl in B|]. destruct N2 as [_ N2]. discriminate (N2 eq_refl). }
      all: left; destruct (x_init_ws_ok m2 _ W2) as (c & m3 & w & R & L3 & C); [auto|]; rewrite R; unfold bind at 4.
      all: destruct C as [(C & S & -> & W3)|(C & pm & li & lo & -> & W3)]; rewrite C.
      2,4: unfold bind at 3; cbn [fst snd]; unfold bind at 2;
           apply (GO m3 p' (mk_cws (Some (Some (pm, mk_hman false (empty_list li) (empty_list lo) true true 0 (Some None)))) None None None) fresh); [chain|apply wrel_fresh| |now right];
           unfold cws_blocks; cbn [k_man k_prot k_text k_req of_member man_blocks g_in g_out g_exts empty_list mlist_blocks l_arr ptr_blocks wexts_blocks]; mowns_by W3.
      all: destruct (x_free_ok _ _ _ W3) as (m4 & -> & W4 & L4 & _); unfold bind at 4; unfold bind at 3; cbn [fst snd]; unfold bind at 2; unfold bind at 1;
           destruct (x_free_ok _ _ _ W4) as (m5 & -> & W5 & L5 & _); unfold bind;
           exists U_ERROR_MEMORY, m5, HNull, CNull, []; (split; [reflexivity|]); (split; [exact Logic.I|]); (split; [apply L5|]); (split; [exact W5|]); right; (split; [apply L1, L2, S|]); right; left; auto.
    + left. unfold bind at 3. cbn [fst snd]. unfold bind at 2. unfold bind at 1. destruct (x_free_ok _ _ _ W2) as (m5 & -> & W5 & L5 & _). unfold bind.
      exists U_ERROR_MEMORY, m5, HNull, CNull, []. split; [reflexivity|]. split; [exact Logic.I|]. split; [apply L5|]. split; [exact W5|]. right. split; [apply L1, S2|]. right. left. auto.
  - right. split; [eexists; reflexivity|]. left. unfold a_open. now rewrite OU.
  - right. cbn [hrel] in H. subst w. cbn [hand_blocks] in W1. rewrite (use_ok _ _ p (proj1 W1)) by (right; now left). split; [|left; unfold a_open; now rewrite OU].
    cbn [bind k_man x_member]. destruct (x_malloc m1) as [q3 m3]. eexists. reflexivity.
  - left. cbn [hrel] in H. cbn [hand_blocks] in W1. rewrite (use_ok _ _ p (proj1 W1)) by (right; now left). unfold bind at 3. unfold bind at 2. apply (GO m1 p w s); [eapply later_refl; eauto|exact H|mowns_by W1|now left].
Qed.

Lemma man_deref : forall m p w s l, wrel E w s -> mowns m (p :: cws_blocks w ++ l) -> exists pm g, k_man w = Some (Some (pm, g)) /\ manrel E (Some (pm, g)) (t_conn s) (t_bits s) (t_exts s) /\
  g_connected g = t_conn s /\ x_deref m (Some (pm, g)) = Ret (pm, g) /\ h_use (m_heap m) p = Ret tt.
Proof.
  intros m p w s l (g & K & MR & _) W. pose proof MR as (pm & li & lo & ex & es & -> & _). do 2 eexists. split; [exact K|]. split; [exact MR|]. split; [reflexivity|]. split.
  - apply (x_deref_ok _ m pm _ _ W). right. apply in_or_app. left. unfold cws_blocks. rewrite K. cbn [of_member man_blocks]. now left.
  - apply (use_ok _ _ p (proj1 W)). now left.
Qed.
Lemma extend_call : forall m h a i name rsv f ids, hrel E h a -> (c_free E f = true -> c_match E f <> None) -> mowns m (hand_blocks h ++ ids) -> step_result m h a (CExtend i name rsv f) ids.
Proof.
  intros m h a i name rsv f ids H CF W. unfold step_result. cbn [cstep1 a_cstep1]. unfold x_client_extend.
  assert (GO : forall m1 p w s, later m m1 -> wrel E w s -> mowns m1 (p :: cws_blocks w ++ ids) -> (a = CLive s \/ a = CNull /\ s = fresh) ->
     exists c m' h' a' more,
       (do _ <- h_use (m_heap m1) p; do g <- x_member (k_man w);
        match g with
        | None => match x_malloc m1 with (None, m2) => Ret (U_ERROR_MEMORY, (m2, HWs p w)) | (Some _, _) => UB NullDeref end
        | Some _ => do y <- x_deref m1 g; do (c2, (m2, g2)) <- x_add_wext m1 (snd y) name rsv f; Ret (c2, (m2, HWs p (mk_cws (Some (Some (fst y, g2))) (k_prot w) (k_text w) (k_req w))))
        end) = Ret (c, (m', h')) /\ hrel E h' a' /\ m_grow m' = [] /\ mowns m' (hand_blocks h' ++ more ++ ids) /\
       (a_cstep1 E a (CExtend i name rsv f) = Some (c, (a', List.length more)) \/ (short m /\ a_cstep_fail E a (CExtend i name rsv f) c a' (List.length more)))).
  { intros m1 p w s L1 R W1 AS. destruct (man_deref _ _ _ _ _ R W1) as (pm & g & K & MR & _ & D & U). rewrite U. unfold bind at 1. rewrite K. cbn [x_member]. unfold bind at 1. rewrite D. unfold bind at 1. cbn [fst snd].
    destruct R as (g0 & K0 & _ & TP & TT & TR).
    assert (W2 : mowns m1 (man_blocks (Some (pm, g)) ++ (p :: ptr_blocks (k_prot w) ++ ptr_blocks (k_text w) ++ ptr_blocks (k_req w) ++ ids))).
    { unfold cws_blocks in W1. rewrite K in W1. cbn [of_member] in W1. mowns_by W1. }
    destruct (cadd_ok E m1 pm g (t_conn s) (t_bits s) (t_exts s) name rsv f _ MR CF W2) as (c & m2 & g2 & l2 & more & -> & L2 & MR2 & W3 & EX). unfold bind. cbn iota beta.
    exists c, m2. eexists. exists (CLive (put_cexts s l2 (t_bits s))), more. split; [reflexivity|]. split.
    { cbn [hrel]. eexists. split; [reflexivity|]. split; [exact MR2|]. cbn [put_cexts t_prot t_text t_req k_prot k_text k_req]. auto. }
    split; [apply L2|]. split; [unfold hand_blocks, cws_blocks; cbn [k_man k_prot k_text k_req of_member]; mowns_by W3|].
    destruct EX as [(-> & -> & ->)|(S & [(-> & -> & LE)|(-> & -> & ->)])].
    - left. destruct AS as [->|[-> ->]]; reflexivity.
    - right. split; [apply L1, S|]. right. right. exists s. split; [exact AS|]. left. split; [reflexivity|]. split; [|exact LE]. destruct s; reflexivity.
    - right. split; [apply L1, S|]. right. right. exists s. split; [exact AS|]. right. auto. }
  destruct h as [| |p w]; destruct a as [| | |s]; try contradiction H.
  - destruct (x_malloc_ok _ _ W) as (p & m1 & E1 & L1 & [(p' & -> & W1)|(-> & S1 & W1)]); rewrite E1; destruct (malloc_tl _ _ _ E1) as [T1 N1].
    + destruct (nth 0 (m_new m1) true) eqn:B0; [destruct (nth 1 (m_new m1) true) eqn:B1|].
      2:{ right. destruct (x_init_ws_bad _ _ W1 B0 B1) as (k & R). split; [exists k; rewrite R; reflexivity|]. right. cbn [no_list].
          rewrite T1, nth_tl in B0, B1. split; [|split; [exact B0|exact B1]].
          destruct (nth 0 (m_new m) true); [reflexivity|]. destruct N1 as [_ N1]. discriminate (N1 eq_refl). }
      all: left; destruct (x_init_ws_ok m1 _ W1) as (c & m3 & w & R & L3 & C); [auto|]; rewrite R; unfold bind at 2; unfold bind at 1.
      all: destruct C as [(C & S & -> & W3)|(C & pm & li & lo & -> & W3)]; rewrite C.
      2,4: change (U_OK =? U_OK) with true; cbn iota;
           apply (GO m3 p' (mk_cws (Some (Some (pm, mk_hman false (empty_list li) (empty_list lo) true true 0 (Some None)))) None None None) fresh); [chain|apply wrel_fresh| |now right];
           unfold cws_blocks; cbn [k_man k_prot k_text k_req of_member man_blocks g_in g_out g_exts empty_list mlist_blocks l_arr ptr_blocks wexts_blocks]; mowns_by W3.
      all: change (U_ERROR =? U_OK) with false; cbn iota; exists U_ERROR, m3, (HWs p' (mk_cws (Some None) None None None)), CBroken, []; (split; [reflexivity|]); (split; [reflexivity|]); (split; [apply L3|]); (split; [exact W3|]);
           right; (split; [apply L1, S|]); left; auto 10.
    + left. unfold bind at 1. exists U_ERROR, m1, HNull, CNull, []. split; [reflexivity|]. split; [exact Logic.I|]. split; [apply L1|]. split; [exact W1|]. right. split; [exact S1|]. left. auto 10.
  - right. split; [eexists; reflexivity|now left].
  - cbn [hrel] in H. subst w. cbn [hand_blocks] in W.
    destruct (x_malloc_ok _ _ W) as (q & m1 & EM & L1 & C). pose proof (use_ok _ _ p (proj1 W) (or_introl eq_refl)) as U.
    destruct C as [(p' & -> & W1)|(-> & S1 & W1)]; [right|left].
    + split; [|now left]. unfold bind at 1. change (U_OK =? U_OK) with true. cbn iota. rewrite U. unfold bind at 1. cbn [k_man x_member]. unfold bind at 1. rewrite EM. eexists. reflexivity.
    + unfold bind at 1. change (U_OK =? U_OK) with true. cbn iota. rewrite U. unfold bind at 1. cbn [k_man x_member]. unfold bind at 1. rewrite EM.
      exists U_ERROR_MEMORY, m1. eexists. exists CBroken, []. split; [reflexivity|]. split; [reflexivity|]. split; [apply L1|]. split; [exact W1|]. right. split; [exact S1|]. right. left. auto.
  - left. unfold bind at 1. change (U_OK =? U_OK) with true. cbn iota. apply (GO m p w s); [eapply later_refl; eauto|exact H|exact W|now left].
Qed.
(** ** the other calls *)
Lemma wrel_conn : forall w s pm g b, k_man w = Some (Some (pm, g)) -> wrel E w s -> wrel E (mk_cws (Some (Some (pm, connect g b))) (k_prot w) (k_text w) (k_req w)) (put_conn s b).
Proof.
  intros w s pm g b K (g0 & K0 & (pm0 & li & lo & ex & es & -> & A & G & X) & T). rewrite K in K0. injection K0 as -> ->. eexists. split; [reflexivity|].
  split; [exists pm0, li, lo, ex, es; auto|]. exact T.
Qed.
Lemma conn_blocks : forall w pm g b, k_man w = Some (Some (pm, g)) -> cws_blocks (mk_cws (Some (Some (pm, connect g b))) (k_prot w) (k_text w) (k_req w)) = cws_blocks w.
Proof. intros w pm g b K. unfold cws_blocks. rewrite K. reflexivity. Qed.
Lemma other_call : forall m h a o ids, hrel E h a -> (match o with CNew | CExtend _ _ _ _ | COpen _ _ => False | _ => True end) -> mowns m (hand_blocks h ++ ids) -> step_result m h a o ids.
Proof.
  intros m h a o ids H O W. unfold step_result.
  assert (SAME : forall c, cstep1 E m h o = Ret (c, (m, h)) -> a_cstep1 E a o = Some (c, (a, 0%nat)) ->
    exists c m' h' a' more, cstep1 E m h o = Ret (c, (m', h')) /\ hrel E h' a' /\ m_grow m' = [] /\ mowns m' (hand_blocks h' ++ more ++ ids) /\
     (a_cstep1 E a o = Some (c, (a', List.length more)) \/ (short m /\ a_cstep_fail E a o c a' (List.length more)))).
  { intros c R A. exists c, m, h, a, []. split; [exact R|]. split; [exact H|]. split; [apply W|]. split; [exact W|]. left. exact A. }
  assert (CLEAR : forall c p w s h' a' b, a = CLive s -> wrel E w s -> hand_blocks h' = [] -> hrel E h' a' -> mowns m (p :: cws_blocks w ++ ids) ->
    forall pm g, k_man w = Some (Some (pm, g)) ->
    cstep1 E m h o = (do m1 <- x_clear_cws E m p (mk_cws (Some (Some (pm, connect g b))) (k_prot w) (k_text w) (k_req w)); Ret (c, (m1, h'))) -> a_cstep1 E a o = Some (c, (a', left_behind E (t_exts s))) ->
    exists c m' h' a' more, cstep1 E m h o = Ret (c, (m', h')) /\ hrel E h' a' /\ m_grow m' = [] /\ mowns m' (hand_blocks h' ++ more ++ ids) /\
     (a_cstep1 E a o = Some (c, (a', List.length more)) \/ (short m /\ a_cstep_fail E a o c a' (List.length more)))).
  { intros c p w s h' a' b -> R B H' W1 pm g K R1 A1. pose proof (wrel_conn w s pm g b K R) as R2. rewrite <- (conn_blocks w pm g b K) in W1.
    destruct (clear_cws_ok E m p _ _ _ R2 W1) as (m2 & more & R3 & L & W2 & LN). exists c, m2, h', a', more. split; [rewrite R1, R3; reflexivity|]. split; [exact H'|]. split; [apply L|]. split; [rewrite B; exact W2|].
    left. rewrite A1, LN. reflexivity. }
  destruct h as [| |p w]; destruct a as [| | |s]; try contradiction H.
  - destruct o; try contradiction O; first [left; apply (SAME U_OK); reflexivity|right; split; [eexists; reflexivity|left; reflexivity]].
  - destruct o; try contradiction O; first [left; apply (SAME U_OK); reflexivity|right; split; [eexists; reflexivity|left; reflexivity]].
  - left. cbn [hrel] in H. subst w. cbn [hand_blocks] in W. pose proof (use_ok _ _ p (proj1 W) (or_introl eq_refl)) as U.
    destruct o; try contradiction O; cbn [cstep1 a_cstep1] in *; unfold x_thread_end, x_signal, x_status, x_wait, x_close_client, x_signal, x_manager in *; rewrite U in *; cbn in SAME |- *.
    + apply (SAME U_OK); reflexivity.
    + apply (SAME U_ERROR_PARAMS); reflexivity.
    + apply (SAME STATUS_ERROR); reflexivity.
    + apply (SAME STATUS_ERROR); reflexivity.
    + apply (SAME U_ERROR); reflexivity.
  - left. cbn [hrel] in H. cbn [hand_blocks] in W. destruct (man_deref m p w s ids H W) as (pm & g & K & MR & GC & D & U).
    assert (MAN : x_manager m (HWs p w) = Ret (p, (w, Some (pm, g)))) by (unfold x_manager; rewrite U; unfold bind at 1; rewrite K; reflexivity).
    assert (SIG : x_signal m (HWs p w) = Ret U_OK) by (unfold x_signal; rewrite MAN; unfold bind at 1; cbn [snd]; rewrite D; reflexivity).
    assert (WAIT : forall late, x_wait_close m (Some (pm, g)) late = if t_conn s && late then Ret (STATUS_OPEN, Some (pm, g)) else Ret (STATUS_CLOSE, Some (pm, connect g false))).
    { intros late. unfold x_wait_close. rewrite D. unfold bind. cbn [snd fst]. rewrite GC. reflexivity. }
    destruct o as [|i name rsv f|i u|i|i|i|i late|i]; try contradiction O.
    + exists U_OK, m. eexists. exists (CLive (put_conn s false)), []. split; [cbn [cstep1]; unfold x_thread_end; rewrite U; unfold bind at 2; rewrite K; cbn [x_member]; unfold bind at 2; rewrite D; reflexivity|].
      split; [cbn [fst snd hrel]; apply wrel_conn; assumption|]. split; [apply W|]. split; [cbn [fst snd hand_blocks]; rewrite conn_blocks by exact K; exact W|]. left. reflexivity.
    + apply (SAME U_OK); cbn [cstep1]; [rewrite SIG|]; reflexivity.
    + apply (SAME (if t_conn s then STATUS_OPEN else STATUS_CLOSE)); cbn [cstep1]; [|reflexivity]. unfold x_status. rewrite MAN. unfold bind at 2. cbn [snd]. rewrite D. unfold bind. cbn [snd]. now rewrite GC.
    + destruct (t_conn s && late) eqn:B.
      * apply (SAME STATUS_OPEN); cbn [cstep1 a_cstep1]; [|now rewrite B]. unfold x_wait. rewrite MAN. unfold bind at 1. rewrite WAIT, B. unfold bind. cbn [fst snd]. change (STATUS_OPEN =? STATUS_CLOSE) with false. cbn iota.
        destruct w as [km kp kt kr]. cbn [k_man k_prot k_text k_req] in *. rewrite K. reflexivity.
      * apply (CLEAR STATUS_CLOSE p w s HNull CNull false eq_refl H eq_refl Logic.I W pm g K); cbn [cstep1 a_cstep1]; [|now rewrite B]. unfold x_wait. rewrite MAN. unfold bind at 1. rewrite WAIT, B. reflexivity.
    + apply (CLEAR U_OK p w s HStale CStale false eq_refl H eq_refl Logic.I W pm g K); cbn [cstep1 a_cstep1]; [|reflexivity].
      unfold x_close_client. rewrite SIG. unfold bind at 1. change (negb (U_OK =? U_OK)) with false. cbn iota. rewrite MAN. unfold bind at 1. rewrite WAIT, andb_false_r. reflexivity.
Qed.
Lemma any_call : forall m h a o ids i, cname o = Some i -> hrel E h a -> cop_ok E o -> mowns m (hand_blocks h ++ ids) -> step_result m h a o ids.
Proof.
  intros m h a o ids i N H O W. destruct o; try discriminate N; [apply extend_call|apply open_call|apply other_call..]; auto; exact Logic.I.
Qed.

(** ** whole runs *)
Definition cpinv (s : cprog) (st : list chand) (gone : list nat) : Prop := Forall2 (hrel E) (q_hands s) st /\ mowns (q_mem s) (cprog_blocks s ++ gone).
Lemma cpinv_start : cpinv cstart [] [].
Proof. split; [constructor|]. split; [|reflexivity]. split; [reflexivity|]. split; [|reflexivity]. intros x. change (0 <= 1)%nat. lia. Qed.
Lemma crun_ok : forall ops s st gone, cpinv s st gone -> Forall (fun x => cop_ok E (snd x)) ops ->
  (exists cs s' st' more, crun E s ops = Ret (cs, s') /\ c_means E st ops (Done cs st' (List.length more)) /\ cpinv s' st' (more ++ gone)) \/
  ((exists k, crun E s ops = UB k) /\ c_means E st ops Misused).
Proof.
  induction ops as [|[a o] ops IH]; intros s st gone P OK.
  - left. exists [], s, st, []. split; [reflexivity|]. split; [constructor|exact P].
  - inversion OK as [|? ? O1 O2]; subst. cbn [snd] in O1. destruct P as [F W].
    assert (W0 : mowns (q_mem (q_answers s a)) (cprog_blocks s ++ gone)) by (split; [exact (proj1 W)|reflexivity]).
    assert (THEN : forall c s1 st1 more, cstep E (q_answers s a) o = Ret (c, s1) -> call_means E st a o c st1 (List.length more) -> cpinv s1 st1 (more ++ gone) ->
      (exists cs s' st' more, crun E s ((a, o) :: ops) = Ret (cs, s') /\ c_means E st ((a, o) :: ops) (Done cs st' (List.length more)) /\ cpinv s' st' (more ++ gone)) \/
      ((exists k, crun E s ((a, o) :: ops) = UB k) /\ c_means E st ((a, o) :: ops) Misused)).
    { intros c s1 st1 more R M P1. cbn [crun]. rewrite R. unfold bind at 1 3. cbn [fst snd]. destruct (IH s1 st1 (more ++ gone) P1 O2) as [(cs & s2 & st2 & more2 & R2 & M2 & P2)|((k & R2) & M2)]; rewrite R2.
      - left. exists (c :: cs), s2, st2, (more2 ++ more). split; [reflexivity|]. split; [|now rewrite <- app_assoc]. rewrite app_length, Nat.add_comm. econstructor; eassumption.
      - right. split; [eexists; reflexivity|]. eapply cm_later; eassumption. }
    destruct (cname o) as [i|] eqn:N.
    2:{ destruct o; try discriminate N. apply (THEN U_OK (mk_cprog (q_mem (q_answers s a)) (q_hands s ++ [HNull])) (st ++ [CNull]) []); [reflexivity|left; reflexivity|]. split.
        - cbn [q_hands]. apply f2_app; [exact F|]. constructor; [exact Logic.I|constructor].
        - unfold cprog_blocks in *. cbn [q_hands q_mem app]. rewrite flat_map_app. cbn [flat_map hand_blocks app]. rewrite app_nil_r. exact W0. }
    destruct (nth_error (q_hands s) i) as [h|] eqn:NE.
    2:{ pose proof (pick2_none _ _ _ _ _ _ F NE) as NA. apply (THEN U_ERROR_PARAMS (q_answers s a) st []); [unfold cstep; rewrite N; cbn [q_hands q_answers]; now rewrite NE|left; unfold a_cstep; now rewrite N, NA|]. split; [exact F|exact W0]. }
    destruct (pick2 _ _ _ _ _ _ _ F NE) as (u & v & u' & y & v' & EH & ES & LU & LU' & FU & HY & FV).
    assert (NA : nth_error st i = Some y) by (rewrite ES, <- LU'; apply nth_error_mid).
    assert (W1 : mowns (q_mem (q_answers s a)) (hand_blocks h ++ (flat_map hand_blocks u ++ flat_map hand_blocks v ++ gone))).
    { unfold cprog_blocks in W0. rewrite EH, flat_map_app in W0. cbn [flat_map] in W0. mowns_by W0. }
    destruct (any_call _ h y o _ i N HY O1 W1) as [(c & m1 & h1 & a1 & more & R & H1 & _ & W2 & EX)|((k & R) & MI)].
    + apply (THEN c (mk_cprog m1 (set_nth (q_hands s) i h1)) (set_nth st i a1) more).
      * unfold cstep. rewrite N. cbn [q_hands q_answers]. rewrite NE. unfold bind. cbn [q_mem] in R. rewrite R. reflexivity.
      * destruct EX as [EX|[S EX]]; [left; unfold a_cstep; rewrite N, NA, EX; reflexivity|]. right. split; [exact S|]. exists i, y, a1. auto.
      * assert (SH : set_nth (q_hands s) i h1 = u ++ h1 :: v) by (rewrite EH, <- LU; apply set_nth_mid).
        assert (SA : set_nth st i a1 = u' ++ a1 :: v') by (rewrite ES, <- LU'; apply set_nth_mid).
        rewrite SH, SA. split; cbn [q_hands q_mem].
        -- apply f2_app; [exact FU|]. constructor; assumption.
        -- unfold cprog_blocks. cbn [q_hands]. rewrite flat_map_app. cbn [flat_map]. mowns_by W2.
    + right. split.
      * exists k. cbn [crun]. unfold cstep. rewrite N. cbn [q_hands q_answers]. rewrite NE. cbn [q_mem] in R. unfold bind. rewrite R. reflexivity.
      * apply cm_now. destruct MI as [MI|MI]; [left; unfold a_cstep; now rewrite N, NA, MI|right; exists i, y; auto].
Qed.

(** ** reading *)
Lemma read_cexts_ok : forall es m ids, mowns m ids -> incl (flat_map xb es) ids -> read_cexts m (map Some es) = Ret (map cabs es).
Proof.
  induction es as [|[i e] es IH]; intros m ids W IN; [reflexivity|]. cbn [map read_cexts flat_map] in *.
  assert (I0 : incl (xb (i, e)) ids) by (intros z Z; apply IN, in_or_app; now left).
  unfold read_cext. rewrite (x_deref_ok _ m i e ids W) by (apply I0; now left). unfold bind at 2. cbn [snd].
  rewrite (read_text_ok m ids (x_client e) W) by (intros z Z; apply I0; unfold xb; cbn [wext_blocks]; right; apply in_or_app; right; apply in_or_app; now left). unfold bind at 2.
  rewrite (read_text_ok m ids (x_server e) W) by (intros z Z; apply I0; unfold xb; cbn [wext_blocks]; right; apply in_or_app; now left). unfold bind at 2.
  assert (C : (match x_context e with None => Ret None | Some None => Ret (Some false) | Some (Some q) => do y <- x_deref m (Some q); Ret (Some true) end) =
    Ret (match x_context e with None => None | Some None => Some false | Some (Some _) => Some true end)).
  { destruct (x_context e) as [[[j u]|]|] eqn:XC; [|reflexivity|reflexivity]. rewrite (x_deref_ok _ m j u ids W); [reflexivity|].
    apply I0. unfold xb. cbn [wext_blocks]. right. apply in_or_app. right. apply in_or_app. right. rewrite XC. now left. }
  rewrite C. unfold bind at 2. unfold bind at 1. rewrite (IH m ids W) by (intros z Z; apply IN, in_or_app; now right). reflexivity.
Qed.
Lemma read_hand_ok : forall m h a ids, hrel E h a -> mowns m (hand_blocks h ++ ids) -> read_hand m h = Ret a.
Proof.
  intros m h a ids H W. destruct h as [| |p w]; destruct a as [| | |s]; try contradiction H; [reflexivity|reflexivity| |].
  - cbn [hrel] in H. subst w. cbn [read_hand hand_blocks] in *. rewrite (use_ok _ _ p (proj1 W)) by now left. reflexivity.
  - cbn [hrel] in H. cbn [read_hand hand_blocks] in *. destruct H as (g & K & (pm & li & lo & ex & es & -> & A & G & X) & TP & TT & TR).
    rewrite (use_ok _ _ p (proj1 W)) by now left. unfold bind at 1. rewrite K. cbn [x_member]. unfold bind at 1.
    unfold cws_blocks in W. rewrite K in W. cbn [of_member man_blocks g_in g_out g_exts empty_list mlist_blocks l_arr] in W.
    rewrite (x_deref_ok _ m pm _ _ W) by (right; now left). unfold bind at 1. cbn [snd g_exts x_member g_expected g_connected]. unfold bind at 1.
    assert (W1 : mowns m (flat_map xb es ++ (spine ex ++ (p :: pm :: li :: lo :: ptr_blocks (k_prot w) ++ ptr_blocks (k_text w) ++ ptr_blocks (k_req w) ++ ids)))).
    { eapply mowns_ext; [exact W|]. intros x. repeat rewrite ?cnt_app, ?cnt_cons, ?cnt_nil. rewrite (wexts_eq _ _ _ A). repeat rewrite ?cnt_app. lia. }
    rewrite (x_elements_ok _ _ _ _ A W1) by (apply incl_appr, incl_appl, incl_refl). unfold bind at 1.
    rewrite (read_cexts_ok es m _ W1) by (apply incl_appl, incl_refl). unfold bind at 1.
    rewrite (read_text_ok m _ (k_prot w) W1) by (do 2 apply incl_appr; do 4 apply incl_tl; apply incl_appl, incl_refl). unfold bind at 1.
    rewrite (read_text_ok m _ (k_text w) W1) by (do 2 apply incl_appr; do 4 apply incl_tl; apply incl_appr, incl_appl, incl_refl). unfold bind.
    rewrite <- TP, <- TT, <- TR, <- X. now destruct s.
Qed.
Lemma read_cprog_ok : forall s st gone, cpinv s st gone -> read_cprog s = Ret st.
Proof.
  intros s st gone [F W]. unfold read_cprog, cprog_blocks in *. revert gone W. induction F as [|h a hs st H F IH]; intros gone W; [reflexivity|]. cbn [read_hands flat_map] in *.
  assert (W1 : mowns (q_mem s) (hand_blocks h ++ (flat_map hand_blocks hs ++ gone))) by mowns_by W. rewrite (read_hand_ok _ _ _ _ H W1). unfold bind at 1.
  rewrite (IH (hand_blocks h ++ gone)); [reflexivity|]. mowns_by W1.
Qed.
End Steps.
