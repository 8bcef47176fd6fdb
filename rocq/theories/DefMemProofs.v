(** Proofs about the memory of permessage-deflate (C109). *)
From Coq Require Import String ZArith Bool List Lia.
From Verif Require Import Base BaseFacts UMapModel UMapProofs Dec StrModel StrProofs DeflateModel DeflateStreamProps OwnModel OwnSpec OwnProofs MapMemModel MapMemSpec MapMemProofs
  RespMemModel RespMemSpec RespMemProofs HttpMemModel HttpMemSpec HttpMemProofs DefMemModel DefMemSpec.
Import ListNotations.
Open Scope Z_scope.

(** ** the parameters *)
Lemma split_count : forall sep s, List.length (split_string sep s) = Datatypes.S (count_occ Z.eq_dec s sep).
Proof.
  intros sep. induction s as [|c r IH]; [reflexivity|]. cbn [split_string count_occ]. destruct (Z.eqb_spec c sep) as [->|N].
  - destruct (Z.eq_dec sep sep); [|congruence]. cbn [List.length]. now rewrite IH.
  - destruct (Z.eq_dec c sep); [congruence|]. rewrite <- IH. pose proof (split_nonempty sep r). destruct (split_string sep r); [congruence|reflexivity].
Qed.
Lemma fail_stays : forall server s p, d_ret s <> U_OK -> d_ret (one_param server s p) <> U_OK.
Proof.
  intros server s p N. unfold one_param. repeat match goal with |- context [match ?x with _ => _ end] => destruct x end; cbn [d_ret dfail]; auto; discriminate.
Qed.
Lemma fold_fail : forall server l s, d_ret s <> U_OK -> d_ret (fold_left (one_param server) l s) <> U_OK.
Proof. intros server l. induction l as [|p r IH]; intros s N; cbn [fold_left]; [exact N|]. apply IH. now apply fail_stays. Qed.
Lemma dfail_fails : forall s, d_ret (dfail s) <> U_OK.
Proof. intros s. cbn. discriminate. Qed.
Lemma takeover_tidy : forall p, str_eqb (bs "server_no_context_takeover") (trim p) || str_eqb (bs "client_no_context_takeover") (trim p) = true -> untidy_param p = false.
Proof.
  intros p H. unfold untidy_param. apply orb_true_iff in H. destruct H as [H|H]; apply str_eqb_eq in H; rewrite <- H; reflexivity.
Qed.
Definition one_lost (p : str) : nat := if untidy_param p then 1%nat else 0%nat.

Lemma x_param_ok : forall server m s p ids, mowns m ids -> exists m' s' lost, x_param server m s p = Ret (m', s') /\ later m m' /\ mowns m' (lost ++ ids) /\
  (List.length lost <= one_lost p)%nat /\ ((s' = one_param server s p /\ List.length lost = one_lost p) \/ (short m /\ d_ret s' <> U_OK)).
Proof.
  intros server m s p ids O. unfold x_param, one_lost. pose proof (later_refl _ _ O) as LR.
  destruct (str_eqb (bs "server_no_context_takeover") (trim p) || str_eqb (bs "client_no_context_takeover") (trim p)) eqn:T.
  { rewrite (takeover_tidy _ T). exists m, (one_param server s p), []. repeat split; auto; apply LR || apply O || idtac. }
  unfold untidy_param. destruct (starts (bs "server_max_window_bits") (trim p)) eqn:SV; cbn [andb].
  - destruct (x_malloc_ok _ _ O) as (q & m1 & -> & L1 & [(i & -> & O1)|(-> & S1 & O1)]).
    2:{ exists m1, (dfail s), []. split; [reflexivity|]. split; [exact L1|]. split; [exact O1|]. split; [cbn; lia|]. right. split; [exact S1|apply dfail_fails]. }
    pose proof (split_count 61 (trim p)) as C. destruct (split_string 61 (trim p)) as [|a [|b [|c r]]] eqn:SP.
    + cbn [List.length] in C. discriminate.
    + cbn [List.length] in C. injection C as C. rewrite <- C. cbn [Nat.eqb negb]. exists m1, (one_param server s p), [i]. split; [reflexivity|]. split; [exact L1|]. split; [exact O1|]. cbn. auto.
    + cbn [List.length] in C. injection C as C. rewrite <- C. cbn [Nat.eqb negb]. destruct (x_free_ok _ _ _ O1) as (m2 & -> & O2 & L2 & _). unfold bind.
      exists m2, (one_param server s p), []. split; [reflexivity|]. split; [chain|]. split; [exact O2|]. cbn. auto.
    + cbn [List.length] in C. injection C as C. rewrite <- C. cbn [Nat.eqb negb]. exists m1, (one_param server s p), [i]. split; [reflexivity|]. split; [exact L1|]. split; [exact O1|]. cbn. auto.
  - destruct (starts (bs "client_max_window_bits") (trim p)) eqn:CV.
    + destruct (x_malloc_ok _ _ O) as (q & m1 & -> & L1 & [(i & -> & O1)|(-> & S1 & O1)]).
      * destruct (x_free_ok _ _ _ O1) as (m2 & -> & O2 & L2 & _). unfold bind. exists m2, (one_param server s p), []. split; [reflexivity|]. split; [chain|]. split; [exact O2|]. cbn. auto.
      * exists m1, (dfail s), []. split; [reflexivity|]. split; [exact L1|]. split; [exact O1|]. split; [cbn; lia|]. right. split; [exact S1|apply dfail_fails].
    + exists m, (one_param server s p), []. split; [reflexivity|]. split; [exact LR|]. split; [exact O|]. cbn. auto.
Qed.
Definition lost_in (l : list str) : nat := List.length (filter untidy_param l).
Lemma lost_in_cons : forall p l, lost_in (p :: l) = (one_lost p + lost_in l)%nat.
Proof. intros p l. unfold lost_in, one_lost. cbn [filter]. destruct (untidy_param p); reflexivity. Qed.
Lemma x_params_ok : forall server l m s ids, mowns m ids -> exists m' s' lost, x_params server m s l = Ret (m', s') /\ later m m' /\ mowns m' (lost ++ ids) /\
  (List.length lost <= lost_in l)%nat /\ ((s' = fold_left (one_param server) l s /\ List.length lost = lost_in l) \/ (short m /\ d_ret s' <> U_OK)) /\ (d_ret s <> U_OK -> d_ret s' <> U_OK).
Proof.
  intros server l. induction l as [|p r IH]; intros m s ids O; cbn [x_params fold_left].
  - exists m, s, []. split; [reflexivity|]. split; [eapply later_refl; eauto|]. split; [exact O|]. cbn. auto.
  - destruct (x_param_ok server m s p ids O) as (m1 & s1 & lost1 & -> & L1 & O1 & B1 & C1). unfold bind at 1. cbn [fst snd].
    destruct (IH m1 s1 (lost1 ++ ids) O1) as (m2 & s2 & lost2 & -> & L2 & O2 & B2 & C2 & F2).
    exists m2, s2, (lost2 ++ lost1). split; [reflexivity|]. split; [chain|]. split; [rewrite <- app_assoc; exact O2|]. rewrite app_length, lost_in_cons. split; [lia|].
    assert (G : d_ret s <> U_OK -> d_ret s1 <> U_OK). { intros N. destruct C1 as [(-> & _)|(_ & X)]; [now apply fail_stays|exact X]. }
    split; [|auto]. destruct C1 as [(-> & E1)|(S1 & X)]; [|right; auto].
    destruct C2 as [(-> & E2)|(S2 & X)]; [left; split; [reflexivity|lia]|right; split; [now apply L1|exact X]].
Qed.
Lemma untidy_bare : forall e, zlen e <= zlen EXT_DEFLATE -> untidy e = 0%nat.
Proof. intros e H. unfold untidy. rewrite skipn_all2; [reflexivity|]. unfold zlen in H. lia. Qed.

Lemma x_parse_ok : forall server m e ids, mowns m ids -> exists m' s lost, x_parse server m e = Ret (m', s) /\ later m m' /\ mowns m' (lost ++ ids) /\
  (List.length lost <= untidy e)%nat /\ ((s = parse_params server e /\ List.length lost = untidy e) \/ (short m /\ d_ret s <> U_OK)).
Proof.
  intros server m e ids O. unfold x_parse, parse_params. destruct (Z.ltb_spec (zlen EXT_DEFLATE) (zlen e)) as [H|H].
  - destruct (x_malloc_ok _ _ O) as (q & m1 & -> & L1 & [(i & -> & O1)|(-> & S1 & O1)]).
    + destruct (x_params_ok server (split_string 59 (skipn (List.length EXT_DEFLATE) e)) m1 (mk_dstate U_OK dctx0 false false) _ O1) as (m2 & s & lost & -> & L2 & O2 & B & C & _).
      unfold bind at 1. cbn [fst snd]. assert (O2' : mowns m2 (i :: (lost ++ ids))) by mowns_by O2.
      destruct (x_free_ok _ _ _ O2') as (m3 & -> & O3 & L3 & _). unfold bind. exists m3, s, lost. split; [reflexivity|]. split; [chain|]. split; [exact O3|]. split; [exact B|].
      destruct C as [C|(S2 & X)]; [left; exact C|right; split; [now apply L1|exact X]].
    + do 2 eexists. exists []. split; [reflexivity|]. split; [exact L1|]. split; [exact O1|]. split; [cbn; lia|]. right. split; [exact S1|apply dfail_fails].
  - rewrite untidy_bare by exact H. do 2 eexists. exists []. split; [reflexivity|]. split; [eapply later_refl; eauto|]. split; [exact O|]. cbn. auto.
Qed.

(** ** the context *)
Lemma x_context_ok : forall server m e ids, mowns m ids ->
  (x_context server m e = UB Uninit /\ short m) \/
  exists m' s ctx lost, x_context server m e = Ret (m', (s, ctx)) /\ later m m' /\ mowns m' (context_blocks ctx ++ lost ++ ids) /\ (List.length lost <= untidy e)%nat /\
    ((exists c d i, ctx = Some (c, mk_hctx (d_ctx (parse_params server e)) (Some (Some d)) (Some (Some i))) /\ s = parse_params server e /\ d_ret s = U_OK /\ List.length lost = untidy e) \/
     (ctx = None /\ ((d_ret (parse_params server e) <> U_OK /\ List.length lost = untidy e) \/ short m))).
Proof.
  intros server m e ids O. unfold x_context. destruct (x_malloc_ok _ _ O) as (q & m1 & -> & L1 & [(c & -> & O1)|(-> & S1 & O1)]).
  - destruct (x_parse_ok server m1 e _ O1) as (m2 & s & lost & -> & L2 & O2 & B & C). unfold bind at 1 4. cbn [fst snd].
    destruct (Z.eqb_spec (d_ret s) U_OK) as [R|R].
    + destruct C as [(-> & E)|(_ & X)]; [|contradiction]. unfold x_streams.
      destruct (x_malloc_ok _ _ O2) as (q & m3 & -> & L3 & [(d & -> & O3)|(-> & S3 & O3)]).
      * destruct (x_malloc_ok _ _ O3) as (q & m4 & -> & L4 & [(i & -> & O4)|(-> & S4 & O4)]).
        -- right. unfold bind. cbn [fst snd]. do 3 eexists. exists lost. split; [reflexivity|]. split; [chain|].
           split; [cbn [context_blocks w_def w_inf stream_blocks]; mowns_by O4|]. split; [exact B|]. left. exists c, d, i. auto.
        -- left. unfold x_end, x_member. unfold bind. split; [reflexivity|]. apply L1, L2, L3, S4.
      * left. unfold x_end, x_member. unfold bind. split; [reflexivity|]. apply L1, L2, S3.
    + right. assert (O2' : mowns m2 (c :: (lost ++ ids))) by mowns_by O2. destruct (x_free_ok _ _ _ O2') as (m3 & -> & O3 & L3 & _). unfold bind.
      exists m3, s, None, lost. split; [reflexivity|]. split; [chain|]. split; [exact O3|]. split; [exact B|]. right. split; [reflexivity|].
      destruct C as [(-> & E)|(S2 & _)]; [left; auto|right; now apply L1].
  - right. do 3 eexists. exists []. split; [reflexivity|]. split; [exact L1|]. split; [exact O1|]. split; [cbn; lia|]. right. split; [reflexivity|right; exact S1].
Qed.

(** ** the answer *)
(** the text so far is made of the parts behind the last failure *)
Definition holds_text (lack : Prop) (l : list str) (t : option str) : Prop := exists k, t = joined (skipn k l) /\ (k = 0%nat \/ lack).
Lemma joined_snoc : forall l t, joined (l ++ [t]) = Some (behind (joined l) t).
Proof. intros [|a l] t; cbn [joined app behind]; [cbn; now rewrite app_nil_r|]. unfold joined. f_equal. change (a :: l ++ [t]) with ((a :: l) ++ [t]). rewrite concat_app. cbn. now rewrite app_nil_r. Qed.
Lemma added_ok : forall (yes : bool) m p t ids l (lack : Prop), mowns m (ptr_blocks p ++ ids) -> holds_text lack l (ptext p) -> (short m -> lack) ->
  exists m' q, x_added yes m p t = Ret (m', q) /\ later m m' /\ mowns m' (ptr_blocks q ++ ids) /\ holds_text lack (l ++ (if yes then [t] else [])) (ptext q).
Proof.
  intros yes m p t ids l lack O (k & E & K) SL. unfold x_added. destruct yes.
  - destruct (catf_ok m p t ids O) as (m' & q & -> & L & O' & T). exists m', q. split; [reflexivity|]. split; [exact L|]. split; [exact O'|]. destruct T as [T|(-> & S1)].
    + rewrite T, E. destruct (Nat.leb_spec k (List.length l)) as [H|H].
      * exists k. split; [|exact K]. rewrite skipn_app. replace (k - List.length l)%nat with 0%nat by lia. cbn [skipn]. now rewrite joined_snoc.
      * exists (List.length l). split; [|destruct K; [lia|auto]]. rewrite skipn_app, skipn_all, Nat.sub_diag. rewrite skipn_all2 by lia. cbn [app skipn joined behind concat]. now rewrite app_nil_r.
    + exists (List.length l + 1)%nat. split; [|auto]. rewrite skipn_all2; [reflexivity|]. rewrite app_length. cbn. lia.
  - exists m, p. split; [reflexivity|]. split; [eapply later_refl; eauto|]. split; [exact O|]. rewrite app_nil_r. exists k. auto.
Qed.
Lemma answer_ok : forall m e ids, mowns m ids -> exists m' q, x_answer m (parse_params true e) = Ret (m', q) /\ later m m' /\ mowns m' (ptr_blocks q ++ ids) /\ holds_text (short m) (parts e) (ptext q).
Proof.
  intros m e ids O. unfold x_answer, parts. set (s := parse_params true e). set (c := d_ctx s).
  destruct (x_strdup_ok m (Some EXT_DEFLATE) ids O) as (p & m1 & -> & L1 & O1 & T1).
  assert (H1 : holds_text (short m) [EXT_DEFLATE] (ptext p)).
  { destruct T1 as [->|(-> & S1 & _)]; [exists 0%nat; split; [cbn [skipn joined concat]; now rewrite app_nil_r|auto]|exists 1%nat; split; [reflexivity|auto]]. }
  destruct (added_ok (c_snct c) m1 p (bs "; server_no_context_takeover") ids _ (short m) O1 H1) as (m2 & q2 & -> & L2 & O2 & H2); [apply L1|]. unfold bind at 1. cbn [fst snd].
  destruct (added_ok (c_cnct c) m2 q2 (bs "; client_no_context_takeover") ids _ (short m) O2 H2) as (m3 & q3 & -> & L3 & O3 & H3); [intros X; apply L1, L2, X|]. unfold bind at 1. cbn [fst snd].
  destruct (added_ok (d_schg s) m3 q3 (bs "; server_max_window_bits=" ++ udec (c_sbits c)) ids _ (short m) O3 H3) as (m4 & q4 & -> & L4 & O4 & H4); [intros X; apply L1, L2, L3, X|]. unfold bind at 1. cbn [fst snd].
  destruct (added_ok (d_cchg s) m4 q4 (bs "; client_max_window_bits=" ++ udec (c_cbits c)) ids _ (short m) O4 H4) as (m5 & q5 & -> & L5 & O5 & H5); [intros X; apply L1, L2, L3, L4, X|].
  exists m5, q5. split; [reflexivity|]. split; [chain|]. split; [exact O5|]. rewrite <- !app_assoc in H5. exact H5.
Qed.
Lemma answer_parts : forall e, joined (parts e) = Some (answer (parse_params true e)).
Proof.
  intros e. unfold parts, answer. cbn [app joined]. f_equal. cbn [concat]. f_equal.
  destruct (c_snct _), (c_cnct _), (d_schg _), (d_cchg _); cbn [app concat]; rewrite ?app_nil_r, <- ?app_assoc; reflexivity.
Qed.

(** ** the two sides *)
Lemma server_ok : forall m e l ids, mowns m ids ->
  (x_server_match m e l None None = UB Uninit /\ short m) \/
  exists z m' name ctx lost, x_server_match m e l None None = Ret (z, (m', (name, ctx))) /\ later m m' /\ mowns m' (context_blocks ctx ++ ptr_blocks name ++ lost ++ ids) /\
    forall answers, (short m -> In false answers) ->
    step false (Offer answers e l) (Matched z (ptext name) (match ctx with Some (_, c) => Some (w_par c) | None => None end)) (List.length lost) (z =? U_OK) /\
    (z = U_OK -> exists c par d i, ctx = Some (c, mk_hctx par (Some (Some d)) (Some (Some i)))) /\ (z <> U_OK -> ctx = None /\ name = None).
Proof.
  intros m e l ids O. unfold x_server_match. destruct (starts EXT_DEFLATE e && first_param e l) eqn:FP.
  2:{ right. exists U_ERROR, m, None, None, []. split; [reflexivity|]. split; [eapply later_refl; eauto|]. split; [exact O|]. intros answers _. cbn [ptext List.length].
      split; [now apply other_offer|]. split; [discriminate|auto]. }
  assert (W : wanted e l = let s := parse_params true e in if d_ret s =? U_OK then (U_OK, Some (answer s), Some (d_ctx s)) else (U_ERROR, None, None)).
  { unfold wanted, server_match_deflate. apply andb_prop in FP. destruct FP as [-> ->]. reflexivity. }
  destruct (x_context_ok true m e ids O) as [(-> & S1)|(m1 & s & ctx & lost & -> & L1 & O1 & B & C)]; [left; auto|]. right. unfold bind at 1. cbn [fst snd].
  destruct C as [(c & d & i & -> & -> & R & E)|(-> & C)].
  - destruct (answer_ok m1 e _ O1) as (m2 & q & -> & L2 & O2 & k & T & K). unfold bind at 1. cbn [fst snd]. do 4 eexists. exists lost. split; [reflexivity|]. split; [chain|].
    split; [mowns_by O2|]. intros answers SA. rewrite E. cbn [w_par]. cbn zeta in W. rewrite R, Z.eqb_refl in W. split; [|split; [intros _; do 4 eexists; reflexivity|congruence]].
    destruct K as [->|K].
    + cbn [skipn] in T. rewrite answer_parts in T. rewrite T. apply took_offer; auto.
    + rewrite T. eapply cut_offer; [apply SA, L1, K|exact W].
  - do 4 eexists. exists lost. split; [reflexivity|]. split; [exact L1|]. split; [exact O1|]. intros answers SA. cbn [ptext].
    split; [|split; [discriminate|auto]]. destruct C as [(N & E)|S1].
    + rewrite E. apply took_offer; auto. rewrite W. cbn zeta. apply Z.eqb_neq in N. now rewrite N.
    + apply failed_offer; [now apply SA|exact B].
Qed.
Lemma client_ok : forall m e ids, mowns m ids ->
  (x_client_match m e None = UB Uninit /\ short m) \/
  exists z m' ctx lost, x_client_match m e None = Ret (z, (m', ctx)) /\ later m m' /\ mowns m' (context_blocks ctx ++ lost ++ ids) /\
    ((z = U_OK /\ starts EXT_DEFLATE e = true /\ (exists c par d i, ctx = Some (c, mk_hctx par (Some (Some d)) (Some (Some i))) /\ wanted_client e = (U_OK, Some par)) /\ List.length lost = untidy e) \/
     (z = U_ERROR /\ ctx = None /\ forall answers, (short m -> In false answers) -> step false (Reply answers e) (Matched U_ERROR None None) (List.length lost) false)).
Proof.
  intros m e ids O. unfold x_client_match. destruct (starts EXT_DEFLATE e) eqn:FP.
  2:{ right. exists U_ERROR, m, None, []. split; [reflexivity|]. split; [eapply later_refl; eauto|]. split; [exact O|]. right. split; [reflexivity|]. split; [reflexivity|]. intros answers _. now apply other_reply. }
  assert (W : wanted_client e = let s := parse_params false e in if d_ret s =? U_OK then (U_OK, Some (d_ctx s)) else (U_ERROR, None)).
  { unfold wanted_client, client_match_deflate. rewrite FP. reflexivity. }
  destruct (x_context_ok false m e ids O) as [(-> & S1)|(m1 & s & ctx & lost & -> & L1 & O1 & B & C)]; [left; auto|]. right. unfold bind at 1. cbn [fst snd].
  destruct C as [(c & d & i & -> & -> & R & E)|(-> & C)].
  - do 3 eexists. exists lost. split; [reflexivity|]. split; [exact L1|]. split; [exact O1|]. left. split; [reflexivity|]. split; [reflexivity|]. cbn zeta in W. rewrite R, Z.eqb_refl in W.
    split; [do 4 eexists; split; [reflexivity|exact W]|exact E].
  - do 3 eexists. exists lost. split; [reflexivity|]. split; [exact L1|]. split; [exact O1|]. right. split; [reflexivity|]. split; [reflexivity|]. intros answers SA. destruct C as [(N & E)|S1].
    + rewrite E. apply Z.eqb_neq in N. cbn zeta in W. rewrite N in W. exact (took_reply answers e U_ERROR None FP W).
    + apply failed_reply; [now apply SA|exact B].
Qed.

(** ** messages *)
Lemma free_own : forall A m (p : ptr A) ids, owns (m_heap m) (ptr_blocks p ++ ids) -> exists m', x_free m (addr p) = Ret m' /\ owns (m_heap m') ids /\ m_new m' = m_new m /\ m_grow m' = m_grow m.
Proof.
  intros A m [[i a]|] ids O; unfold x_free; cbn [addr ptr_blocks app] in *.
  - destruct (free_ok _ _ _ O) as (h & -> & O1). unfold bind. eexists. split; [reflexivity|]. auto.
  - exists m. repeat split; auto; apply O.
Qed.
Lemma deref_own : forall A m i (a : A) ids, owns (m_heap m) ids -> In i ids -> x_deref m (Some (i, a)) = Ret (i, a).
Proof. intros A m i a ids O I1. unfold x_deref. rewrite (use_ok _ ids) by auto. reflexivity. Qed.
Lemma existsb_negb : forall l, existsb negb l = true <-> In false l.
Proof. intros l. rewrite existsb_exists. split; [intros ([] & H & E); [discriminate|exact H]|intros H; exists false; auto]. Qed.

Definition bytes_in (p : ptr buf) (done : list Z) : Prop := match p with None => done = [] | Some (_, b) => b = block_of done end.
Lemma chunks_mem : forall err calls m p done ids, owns (m_heap m) (ptr_blocks p ++ ids) -> Forall (fun c : zcall => zlen (snd c) <= 256) calls -> bytes_in p done ->
  exists z m' p' len', x_chunks err m p (zlen done) calls = Ret (z, (m', (p', len'))) /\ m_new m' = m_new m /\
   ((z = U_OK /\ exists b i k, produced calls = Some b /\ p' = Some (i, block_of (done ++ b) ++ repeat None k) /\ (1 <= k)%nat /\ len' = zlen (done ++ b) /\ owns (m_heap m') (i :: ids)) \/
    (z = U_ERROR /\ produced calls = None /\ owns (m_heap m') (ptr_blocks p' ++ ids)) \/
    (z = err /\ In false (m_grow m) /\ p' = None /\ exists lost, (List.length lost <= 1)%nat /\ owns (m_heap m') (lost ++ ids))).
Proof.
  intros err. induction calls as [|[code out] r IH]; intros m p done ids O F BI; cbn [x_chunks].
  all: assert (RO : (exists i m1, x_realloc m (addr p) = Ret (Some i, m1) /\ owns (m_heap m1) (i :: ids) /\ m_new m1 = m_new m /\ (In false (m_grow m1) -> In false (m_grow m))) \/
                    (exists m1, x_realloc m (addr p) = Ret (None, m1) /\ owns (m_heap m1) (ptr_blocks p ++ ids) /\ m_new m1 = m_new m /\ In false (m_grow m))).
  1, 3: unfold x_realloc; destruct (m_grow m) as [|[] g] eqn:G; cbn [next_answer].
  1, 2, 4, 5: left; destruct p as [[i0 b0]|]; cbn [addr ptr_blocks app] in *; [destruct (free_ok _ _ _ O) as (h & -> & O1)|]; unfold bind; do 2 eexists; (split; [reflexivity|]); cbn [m_heap m_new m_grow];
    (split; [apply malloc_ok; assumption|]); (split; [reflexivity|]); cbn; tauto.
  1, 2: right; destruct p as [[i0 b0]|]; cbn [addr ptr_blocks app] in *; [rewrite (use_ok _ _ i0 O) by now left|]; unfold bind; eexists; (split; [reflexivity|]); cbn; auto.
  all: assert (RA : realloc (match p with Some (_, b) => b | None => [] end) (zlen done + W_BUFF_LEN) = block_of done ++ repeat None 256).
  1, 3: replace (match p with Some (_, b) => b | None => [] end) with (block_of done) by (destruct p as [[i0 b0]|]; cbn in BI; subst; reflexivity);
    unfold realloc, W_BUFF_LEN; rewrite zfirstn_more by (rewrite zlen_block; lia); f_equal; f_equal; unfold zlen, block_of; rewrite map_length; lia.
  - destruct RO as [(i & m1 & -> & O1 & N1 & G1)|(m1 & -> & O1 & N1 & G1)]; unfold bind at 1.
    + rewrite RA. do 4 eexists. split; [reflexivity|]. split; [exact N1|]. left. split; [reflexivity|]. exists [], i, 256%nat. rewrite app_nil_r. repeat split; auto; try lia; apply O1.
    + do 4 eexists. split; [reflexivity|]. split; [exact N1|]. right. right. split; [reflexivity|]. split; [exact G1|]. split; [reflexivity|]. exists (ptr_blocks p). split; [destruct p as [[? ?]|]; cbn; lia|exact O1].
  - inversion F as [|? ? F1 F2]; subst. cbn [snd] in F1. pose proof (zlen_nonneg _ done) as ND. pose proof (zlen_nonneg _ out) as NP.
    destruct RO as [(i & m1 & -> & O1 & N1 & G1)|(m1 & -> & O1 & N1 & G1)]; unfold bind at 1.
    2:{ do 4 eexists. split; [reflexivity|]. split; [exact N1|]. right. right. split; [reflexivity|]. split; [exact G1|]. split; [reflexivity|]. exists (ptr_blocks p). split; [destruct p as [[? ?]|]; cbn; lia|exact O1]. }
    rewrite RA. assert (L256 : zlen (repeat (@None Z) 256) = 256) by reflexivity.
    rewrite memcpy_ok; [|lia|lia|rewrite zlen_app, zlen_block, L256; lia|rewrite zlen_block; lia]. unfold bind at 1.
    rewrite (zfirstn_app_exact _ (block_of done)) by (now rewrite zlen_block).
    rewrite (zfirstn_more _ (block_of out)) by (rewrite zlen_block; lia).
    assert (SK : zskipn (zlen done + zlen out) (block_of done ++ repeat None 256) = repeat None (256 - Z.to_nat (zlen out))).
    { rewrite <- (zlen_block done), zskipn_app_plus by lia. apply zskipn_rep. lia. }
    rewrite SK. rewrite app_assoc, <- block_app. cbn [produced]. unfold z_fair, W_BUFF_LEN.
    destruct ((code =? 0) || (code =? 1) || (code =? -5)) eqn:FC.
    + destruct (Z.eqb_spec (zlen out) 256) as [E|E].
      * replace (zlen done + zlen out) with (zlen (done ++ out)) by (rewrite zlen_app; lia). rewrite E. change (256 - Z.to_nat 256)%nat with 0%nat. cbn [repeat]. rewrite app_nil_r.
        destruct (IH m1 (Some (i, block_of (done ++ out))) (done ++ out) ids O1 F2 eq_refl) as (z & m2 & p' & len' & -> & N2 & C). do 4 eexists. split; [reflexivity|]. split; [congruence|].
        destruct C as [(-> & b & j & k & P & -> & K & -> & O2)|[(-> & P & O2)|(-> & G2 & -> & lost & B & O2)]].
        -- left. split; [reflexivity|]. exists (out ++ b), j, k. rewrite P. split; [reflexivity|]. rewrite app_assoc. auto.
        -- right. left. split; [reflexivity|]. rewrite P. split; [reflexivity|exact O2].
        -- right. right. split; [reflexivity|]. split; [auto|]. split; [reflexivity|]. eauto.
      * do 4 eexists. split; [reflexivity|]. split; [exact N1|]. left. split; [reflexivity|]. exists out, i, (256 - Z.to_nat (zlen out))%nat. split; [reflexivity|]. split; [reflexivity|]. split; [lia|].
        split; [rewrite zlen_app; reflexivity|exact O1].
    + do 4 eexists. split; [reflexivity|]. split; [exact N1|]. right. left. split; [reflexivity|]. split; [reflexivity|exact O1].
Qed.
Definition on_context (ctx : ptr hctx) : Prop := exists c par d i, ctx = Some (c, mk_hctx par (Some (Some d)) (Some (Some i))).
Lemma read_holds : forall x r, read_bytes (block_of x ++ r) (List.length x) = Ret x.
Proof. induction x as [|c x IH]; intros r; [destruct r; reflexivity|]. cbn [block_of map List.length app read_bytes]. change (map Some x) with (block_of x). rewrite IH. reflexivity. Qed.
Lemma taken_ok : forall m p n x ids, owns (m_heap m) (ptr_blocks p ++ ids) -> n = zlen x -> match p with Some (_, b) => exists r, b = block_of x ++ r | None => x = [] end ->
  exists m', x_taken (U_OK, (m, (p, n))) = Ret (Message U_OK x, m') /\ owns (m_heap m') ids.
Proof.
  intros m p n x ids O -> H. unfold x_taken. cbn [Z.eqb U_OK].
  assert (R : (if zlen x =? 0 then Ret [] else do y <- x_deref m p; read_bytes (snd y) (Z.to_nat (zlen x))) = Ret x).
  { destruct (Z.eqb_spec (zlen x) 0) as [E|E]; [destruct x; [reflexivity|]; unfold zlen in E; cbn in E; lia|].
    destruct p as [[i b]|]; [|subst x; cbn in E; lia]. destruct H as (r & ->). rewrite (deref_own _ m i _ _ O) by now left. unfold bind. cbn [snd].
    unfold zlen. rewrite Nat2Z.id. apply read_holds. }
  match goal with |- context [if zlen x =? 0 then ?A else ?B] => replace (if zlen x =? 0 then A else B) with (Ret x) by (symmetry; exact R) end.
  unfold bind at 1. destruct (free_own _ m p ids O) as (m1 & E1 & O1 & _). match goal with |- context [x_free m ?q] => replace (x_free m q) with (Ret m1) by (symmetry; exact E1) end. unfold bind. eauto.
Qed.

Lemma sent_ok : forall m ctx grow n calls ids, owns (m_heap m) (context_blocks ctx ++ ids) -> on_context ctx -> zlib_ok (Sent grow n calls) ->
  exists r m' lost, (do x <- x_deflate (armed m [] grow) ctx n calls; x_taken x) = Ret (r, m') /\ owns (m_heap m') (lost ++ context_blocks ctx ++ ids) /\
    step true (Sent grow n calls) r (List.length lost) true.
Proof.
  intros m ctx grow n calls ids O (c & par & d & i & ->) (F & FL). unfold x_deflate. destruct (Z.eqb_spec n 0) as [->|N].
  - unfold bind. unfold x_taken. cbn [Z.eqb U_OK]. unfold bind. exists (Message U_OK []), (armed m [] grow), []. split; [reflexivity|]. split; [exact O|]. apply empty_sent.
  - cbn [context_blocks w_def w_inf stream_blocks app] in O. change (owns (m_heap (armed m [] grow)) (c :: d :: i :: ids)) in O.
    rewrite (deref_own _ _ c _ _ O) by now left. unfold bind at 2. cbn [snd w_def]. unfold x_stream, x_member, bind at 3. rewrite (use_ok _ _ d O) by (right; now left). unfold bind at 2.
    destruct (chunks_mem U_ERROR_MEMORY calls (armed m [] grow) None [] _ O F eq_refl) as (z & m1 & p & len & E & N1 & C). change (zlen (@nil Z)) with 0 in E. rewrite E. unfold bind at 2.
    destruct C as [(-> & b & j & k & P & -> & K & -> & O1)|[(-> & P & O1)|(-> & G1 & -> & lost & B & O1)]].
    + cbn [Z.eqb U_OK]. rewrite (deref_own _ m1 j _ _ O1) by now left. unfold bind at 2. cbn [fst snd app].
      destruct (strip_ok b k (FL b N P) K) as (b' & n' & x & SE & (-> & rest & ->) & W).
      match goal with |- context [strip ?a ?b0] => replace (strip a b0) with (Ret (block_of x ++ rest, zlen x)) by (symmetry; exact SE) end. unfold bind at 2. unfold bind at 1. cbn [fst snd].
      destruct (taken_ok m1 (Some (j, block_of x ++ rest)) (zlen x) x (c :: d :: i :: ids)) as (m2 & ET & O2); [exact O1|reflexivity|eauto|].
      match goal with |- context [x_taken ?a] => replace (x_taken a) with (Ret (Message U_OK x, m2)) by (symmetry; exact ET) end.
      do 2 eexists. exists []. split; [reflexivity|]. split; [exact O2|]. eapply whole_sent; eauto.
    + cbn [Z.eqb U_OK U_ERROR]. change (1 =? 0) with false. cbn iota. destruct (free_own _ _ _ _ O1) as (m2 & -> & O2 & _). unfold bind. exists (Message U_ERROR []), m2, []. split; [reflexivity|]. split; [exact O2|]. now apply bad_sent.
    + change (U_ERROR_MEMORY =? U_OK) with false. cbn iota. unfold x_free; cbn [addr]. unfold bind. exists (Message U_ERROR_MEMORY []), m1, lost. split; [reflexivity|]. split; [exact O1|]. apply failed_sent; auto.
Qed.
Lemma received_ok : forall m ctx answers grow n calls ids, owns (m_heap m) (context_blocks ctx ++ ids) -> on_context ctx -> zlib_ok (Received answers grow n calls) ->
  exists r m' lost, (do x <- x_inflate (armed m answers grow) ctx n calls; x_taken x) = Ret (r, m') /\ owns (m_heap m') (lost ++ context_blocks ctx ++ ids) /\
    step true (Received answers grow n calls) r (List.length lost) true.
Proof.
  intros m ctx answers grow n calls ids O (c & par & d & i & ->) F. cbn [zlib_ok] in F. unfold x_inflate.
  assert (MO : forall l, owns (m_heap m) l -> exists q m', x_malloc (armed m answers grow) = (q, m') /\ m_grow m' = grow /\ ((exists j, q = Some j /\ owns (m_heap m') (j :: l)) \/ (q = None /\ In false answers /\ owns (m_heap m') l))).
  { intros l O1. unfold x_malloc, armed. cbn [m_new]. destruct answers as [|[] r]; cbn [next_answer]; do 2 eexists; (split; [reflexivity|]); cbn [m_heap m_grow]; (split; [reflexivity|]).
    1, 2: left; eexists; (split; [reflexivity|]); exact (malloc_ok _ _ O1). right. split; [reflexivity|]. split; [now left|exact O1]. }
  destruct (MO _ O) as (q & m1 & -> & G1 & C1).
  destruct (Z.eqb_spec n 0) as [->|N].
  - destruct C1 as [(j & -> & O1)|(-> & S1 & O1)]; unfold bind at 1.
    + destruct (taken_ok m1 (Some (j, [])) 0 [] (context_blocks (Some (c, mk_hctx par (Some (Some d)) (Some (Some i)))) ++ ids)) as (m2 & ET & O2); [exact O1|reflexivity|exists []; reflexivity|].
      match goal with |- context [x_taken ?a] => replace (x_taken a) with (Ret (Message U_OK [], m2)) by (symmetry; exact ET) end.
      do 2 eexists. exists []. split; [reflexivity|]. split; [exact O2|]. apply empty_received.
    + cbn [x_taken]. change (U_ERROR =? U_OK) with false. cbn iota. exists (Message U_ERROR []), m1, []. split; [reflexivity|]. split; [exact O1|]. apply failed_received; [auto|cbn; lia].
  - destruct C1 as [(j & -> & O1)|(-> & S1 & O1)].
    + cbn [context_blocks w_def w_inf stream_blocks app] in *.
      rewrite (deref_own _ _ c _ _ O1) by (right; now left). unfold bind at 2. cbn [snd w_inf]. unfold x_stream, x_member, bind at 3. rewrite (use_ok _ _ i O1) by (do 3 right; now left). unfold bind at 2.
      destruct (chunks_mem U_ERROR calls m1 None [] _ O1 F eq_refl) as (z & m2 & p & len & E & N1 & C). change (zlen (@nil Z)) with 0 in E. rewrite E. unfold bind at 2.
      destruct C as [(-> & b & k & e & P & -> & K & -> & O2)|[(-> & P & O2)|(-> & G2 & -> & lost & B & O2)]].
      * assert (O2' : owns (m_heap m2) (ptr_blocks (Some (j, tt)) ++ k :: c :: d :: i :: ids)) by (cbn [ptr_blocks app]; owns_by O2).
        destruct (free_own _ m2 (Some (j, tt)) _ O2') as (m3 & E3 & O3 & _). cbn [addr] in E3. rewrite E3. unfold bind at 2. cbn [Z.eqb U_OK]. unfold bind at 1. cbn [app].
        destruct (taken_ok m3 (Some (k, block_of b ++ repeat None e)) (zlen b) b (c :: d :: i :: ids)) as (m4 & ET & O4); [exact O3|reflexivity|eauto|].
      match goal with |- context [x_taken ?a] => replace (x_taken a) with (Ret (Message U_OK b, m4)) by (symmetry; exact ET) end.
        do 2 eexists. exists []. split; [reflexivity|]. split; [exact O4|]. now apply whole_received.
      * assert (O2' : owns (m_heap m2) (ptr_blocks (Some (j, tt)) ++ ptr_blocks p ++ c :: d :: i :: ids)) by (cbn [ptr_blocks app]; owns_by O2).
        destruct (free_own _ m2 (Some (j, tt)) _ O2') as (m3 & E3 & O3 & _). cbn [addr] in E3. rewrite E3. unfold bind at 2. change (U_ERROR =? U_OK) with false. cbn iota.
        destruct (free_own _ _ _ _ O3) as (m4 & -> & O4 & _). unfold bind. exists (Message U_ERROR []), m4, []. split; [reflexivity|]. split; [exact O4|]. now apply bad_received.
      * assert (O2' : owns (m_heap m2) (ptr_blocks (Some (j, tt)) ++ lost ++ c :: d :: i :: ids)) by (cbn [ptr_blocks app]; owns_by O2).
        destruct (free_own _ m2 (Some (j, tt)) _ O2') as (m3 & E3 & O3 & _). cbn [addr] in E3. rewrite E3. unfold bind at 2. change (U_ERROR =? U_OK) with false. cbn iota. unfold x_free; cbn [addr]. unfold bind.
        exists (Message U_ERROR []), m3, lost. split; [reflexivity|]. split; [exact O3|]. rewrite G1 in G2. apply failed_received; [auto|]. apply existsb_negb in G2. now rewrite G2.
    + unfold bind at 1. cbn [x_taken]. change (U_ERROR =? U_OK) with false. cbn iota. exists (Message U_ERROR []), m1, []. split; [reflexivity|]. split; [exact O1|]. apply failed_received; [auto|cbn; lia].
Qed.

(** ** a history *)
Definition sane (s : wdeflate) : Prop := m_new (d_mem s) = [] /\ m_grow (d_mem s) = [] /\ (if d_on s then on_context (d_context s) else d_context s = None /\ d_name s = None).
Lemma mowns_armed : forall m answers ids, owns (m_heap m) ids -> mowns (armed m answers []) ids.
Proof. intros. split; [assumption|reflexivity]. Qed.

Lemma event_ok : forall s v ids, owns (m_heap (d_mem s)) (ext_uses s ++ ids) -> sane s -> zlib_ok v ->
  (x_event s v = UB Uninit /\ hungry v) \/
  exists r s' lost, x_event s v = Ret (r, s') /\ step (d_on s) v r (List.length lost) (d_on s') /\ owns (m_heap (d_mem s')) (ext_uses s' ++ lost ++ ids) /\ sane s'.
Proof.
  intros [m name ctx on] v ids O (N & G & C) Z. cbn [d_mem d_name d_context d_on] in *. unfold ext_uses in *. cbn [d_name d_context] in *.
  destruct v as [answers e l|answers e|grow n calls|answers grow n calls]; cbn [x_event d_on d_mem d_name d_context hungry].
  - destruct on.
    + right. exists Nothing, (mk_wdeflate m name ctx true), []. split; [reflexivity|]. split; [apply on_offer|]. split; [exact O|]. split; auto.
    + destruct C as [-> ->]. cbn [context_blocks ptr_blocks app] in O.
      destruct (server_ok (armed m answers []) e l ids (mowns_armed _ _ _ O)) as [(-> & S1)|(z & m1 & name & ctx & lost & -> & L1 & O1 & H)]; [left; split; [reflexivity|exact S1]|right]. unfold bind at 1.
      rewrite (string_ok m1 name _ O1) by (apply incl_appr, incl_appl, incl_refl). unfold bind. destruct (H answers (fun x => x)) as (ST & OK & BAD).
      do 2 eexists. exists lost. split; [reflexivity|]. cbn [d_on d_mem d_name d_context]. split; [exact ST|]. split; [destruct O1 as [O1 _]; cbn [armed m_heap]; owns_by O1|].
      split; [reflexivity|]. split; [reflexivity|]. cbn [d_on d_mem d_name d_context]. destruct (Z.eqb_spec z U_OK) as [E|E]; auto. now apply OK.
  - destruct on.
    + right. exists Nothing, (mk_wdeflate m name ctx true), []. split; [reflexivity|]. split; [apply on_reply|]. split; [exact O|]. split; auto.
    + destruct C as [-> ->]. cbn [context_blocks ptr_blocks app] in O.
      destruct (client_ok (armed m answers []) e ids (mowns_armed _ _ _ O)) as [(-> & S1)|(z & m1 & ctx & lost & -> & L1 & O1 & H)]; [left; split; [reflexivity|exact S1]|right]. unfold bind at 1.
      destruct H as [(-> & SE & (c & par & d & i & -> & W) & E)|(-> & -> & ST)].
      * cbn [Z.eqb U_OK]. destruct (x_strdup_ok m1 (Some e) _ O1) as (q & m2 & -> & L2 & O2 & T). rewrite (string_ok m2 q _ O2) by (apply incl_appl, incl_refl). unfold bind.
        do 2 eexists. exists lost. split; [reflexivity|]. cbn [d_on d_mem d_name d_context w_par]. rewrite E. split.
        { destruct T as [->|(-> & S1 & _)]; [exact (took_reply answers e U_OK (Some par) SE W)|cbn [ptext]; apply nameless_reply; [apply L1 in S1; exact S1|exact W]]. }
        split; [destruct O2 as [O2 _]; cbn [armed m_heap]; owns_by O2|]. split; [reflexivity|]. split; [reflexivity|]. cbn [d_on d_context]. unfold on_context. eauto 8.
      * change (U_ERROR =? U_OK) with false. cbn iota. do 2 eexists. exists lost. split; [reflexivity|]. cbn [d_on d_mem d_name d_context]. split; [now apply ST|].
        split; [destruct O1 as [O1 _]; exact O1|]. split; [reflexivity|]. split; [reflexivity|]. cbn. auto.
  - destruct on.
    + right. rewrite <- app_assoc in O. destruct (sent_ok m ctx grow n calls _ O C Z) as (r & m1 & lost & E & O1 & ST).
      destruct (x_deflate (armed m [] grow) ctx n calls) as [x|]; [|discriminate]. unfold bind in E at 1. unfold bind at 1. rewrite E. unfold bind. cbn [fst snd].
      do 2 eexists. exists lost. split; [reflexivity|]. cbn [d_on d_mem d_name d_context]. split; [exact ST|]. split; [cbn [armed m_heap]; owns_by O1|]. split; auto.
    + right. exists Nothing, (mk_wdeflate m name ctx false), []. split; [reflexivity|]. split; [apply off_sent|]. split; [exact O|]. split; auto.
  - destruct on.
    + right. rewrite <- app_assoc in O. destruct (received_ok m ctx answers grow n calls _ O C Z) as (r & m1 & lost & E & O1 & ST).
      destruct (x_inflate (armed m answers grow) ctx n calls) as [x|]; [|discriminate]. unfold bind in E at 1. unfold bind at 1. rewrite E. unfold bind. cbn [fst snd].
      do 2 eexists. exists lost. split; [reflexivity|]. cbn [d_on d_mem d_name d_context]. split; [exact ST|]. split; [cbn [armed m_heap]; owns_by O1|]. split; auto.
    + right. exists Nothing, (mk_wdeflate m name ctx false), []. split; [reflexivity|]. split; [apply off_received|]. split; [exact O|]. split; auto.
Qed.
Lemma events_ok : forall l s ids, owns (m_heap (d_mem s)) (ext_uses s ++ ids) -> sane s -> Forall zlib_ok l ->
  (x_events s l = UB Uninit /\ Exists hungry l) \/
  exists rs s' lost, x_events s l = Ret (rs, s') /\ story (d_on s) l rs (List.length lost) (d_on s') /\ owns (m_heap (d_mem s')) (ext_uses s' ++ lost ++ ids) /\ sane s'.
Proof.
  induction l as [|v l IH]; intros s ids O W F; cbn [x_events].
  - right. exists [], s, []. split; [reflexivity|]. split; [apply st_end|]. auto.
  - inversion F as [|? ? F1 F2]; subst. destruct (event_ok s v ids O W F1) as [(-> & H)|(r & s1 & lost1 & -> & ST & O1 & W1)]; [left; split; [reflexivity|now left]|]. unfold bind at 1 3. cbn [fst snd].
    destruct (IH s1 (lost1 ++ ids) O1 W1 F2) as [(-> & H)|(rs & s2 & lost2 & -> & SS & O2 & W2)]; [left; split; [reflexivity|now right]|right]. unfold bind. cbn [fst snd].
    do 2 eexists. exists (lost1 ++ lost2). split; [reflexivity|]. rewrite app_length. split; [eapply st_more; eauto|]. split; [owns_by O2|exact W2].
Qed.
Lemma release_ok : forall s ids, owns (m_heap (d_mem s)) (ext_uses s ++ ids) -> sane s -> exists m, x_release s = Ret m /\ owns (m_heap m) ids.
Proof.
  intros [m name ctx on] ids O (N & G & C). unfold x_release, ext_uses in *. cbn [d_mem d_name d_context d_on] in *. destruct on.
  - destruct C as (c & par & d & i & ->). cbn [context_blocks w_def w_inf stream_blocks app] in O. unfold x_free_context.
    rewrite (deref_own _ m c _ _ O) by now left. unfold bind at 2. cbn [fst snd w_def w_inf]. unfold x_end, x_member. unfold bind at 3 5.
    assert (O0 : owns (m_heap m) (ptr_blocks (Some (i, tt)) ++ d :: c :: ptr_blocks name ++ ids)) by (cbn [ptr_blocks app]; owns_by O).
    destruct (free_own _ m (Some (i, tt)) _ O0) as (m1 & E1 & O1 & _). cbn [addr] in E1. rewrite E1. unfold bind at 2.
    destruct (free_own _ m1 (Some (d, tt)) (c :: ptr_blocks name ++ ids) O1) as (m2 & E2 & O2 & _). cbn [addr] in E2. rewrite E2. unfold bind at 2.
    destruct (free_own _ m2 (Some (c, tt)) (ptr_blocks name ++ ids) O2) as (m3 & E3 & O3 & _). cbn [addr] in E3. rewrite E3. unfold bind at 1.
    destruct (free_own _ _ _ _ O3) as (m4 & -> & O4 & _). eauto.
  - destruct C as [-> ->]. unfold bind, x_free. cbn [addr]. exists m. split; [reflexivity|exact O].
Qed.

(** ** how much is lost *)
Lemma step_cost : forall on v r n on', step on v r n on' -> (n <= cost v)%nat.
Proof.
  intros on v r n on' H. destruct H; cbn [cost]; try lia. match goal with H : In false ?g |- context [existsb negb ?g] => apply existsb_negb in H; rewrite H end. lia.
Qed.
Lemma story_cost : forall on l rs n on', story on l rs n on' -> (n <= list_sum (map cost l))%nat.
Proof. intros on l rs n on' H. induction H; cbn [map list_sum fold_right]; [lia|]. apply step_cost in H. unfold list_sum in *. lia. Qed.
