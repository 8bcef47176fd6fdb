(** C109: the memory of permessage-deflate, also when allocations fail. *)
From Coq Require Import String ZArith Bool List Lia.
From Verif Require Import Base BaseFacts UMapModel UMapProofs Dec StrModel StrProofs DeflateModel OwnModel OwnSpec OwnProofs MapMemModel MapMemSpec MapMemProofs
  RespMemModel HttpMemSpec DefMemModel DefMemSpec DefMemProofs.
Import ListNotations.
Open Scope Z_scope.

Lemma own_blocks : forall m l, owns (m_heap m) l -> blocks_are m l.
Proof. intros m l O. destruct (owns_spec _ _ O) as (A & B & C). split; [exact B|]. split; [exact C|exact A]. Qed.
Lemma start_owns : owns (m_heap (d_mem dstart)) (ext_uses dstart ++ []).
Proof. split; [intros x; reflexivity|]. split; [intros x; apply Nat.le_0_l|intros; reflexivity]. Qed.
Lemma start_sane : sane dstart.
Proof. repeat split. Qed.

(** C109. Offers, answers and messages in any order, each with what the allocations answer, then the release of the websocket. Either a
    member that was never written is read, and an allocation failed in a negotiation; or every function comes back, the results are
    those that [story] says, the blocks in use are those of the extension and those that [story] counts as lost, and when the websocket is
    released only the lost ones are left. *)
Theorem C109_history_partial : forall l, Forall zlib_ok l ->
  (x_events dstart l = UB Uninit /\ Exists hungry l) \/
  exists rs s lost, x_events dstart l = Ret (rs, s) /\ story false l rs (List.length lost) (d_on s) /\ blocks_are (d_mem s) (ext_uses s ++ lost) /\
    (List.length lost <= list_sum (map cost l))%nat /\ exists m, x_release s = Ret m /\ blocks_are m lost.
Proof.
  intros l F. destruct (events_ok l dstart [] start_owns start_sane F) as [H|(rs & s & lost & E & ST & O & W)]; [left; exact H|right].
  rewrite app_nil_r in O. exists rs, s, lost. split; [exact E|]. split; [exact ST|]. split; [now apply own_blocks|]. split; [eapply story_cost; eauto|].
  destruct (release_ok s lost O W) as (m & R & OM). exists m. split; [exact R|now apply own_blocks].
Qed.
Print Assumptions C109_history_partial.

(** With memory, and window bits written as name=value: nothing undefined happens and everything is released. *)
Theorem C109_memory_partial : forall l, Forall zlib_ok l -> Forall plenty l -> Forall (fun v => cost v = 0%nat) l ->
  exists rs s m, x_events dstart l = Ret (rs, s) /\ story false l rs 0 (d_on s) /\ x_release s = Ret m /\ blocks_are m [].
Proof.
  intros l F P C. destruct (C109_history_partial l F) as [(_ & H)|(rs & s & lost & E & ST & B & N & m & R & BM)].
  - exfalso. apply Exists_exists in H. destruct H as (v & I1 & H). rewrite Forall_forall in P. specialize (P v I1). destruct v; cbn in *; tauto.
  - assert (Z0 : list_sum (map cost l) = 0%nat). { clear -C. induction C as [|v l E C IH]; [reflexivity|]. cbn [map]. change (list_sum (cost v :: map cost l)) with (cost v + list_sum (map cost l))%nat. lia. }
    destruct lost; [|cbn in N; lia]. exists rs, s, m. auto.
Qed.
Print Assumptions C109_memory_partial.

(** With memory an offer gives what is negotiated (C58, C59), and loses one block for every server_max_window_bits that has not exactly one '='. *)
Theorem C109_offer_partial : forall answers e l, ~ In false answers -> exists s lost m,
  x_event dstart (Offer answers e l) = Ret (let '(z, t, par) := wanted e l in Matched z t par, s) /\ x_release s = Ret m /\ blocks_are m lost /\
  List.length lost = if starts EXT_DEFLATE e && first_param e l then untidy e else 0%nat.
Proof.
  intros answers e l P. destruct (event_ok dstart (Offer answers e l) [] start_owns start_sane Logic.I) as [(_ & H)|(r & s & lost & E & ST & O & W)]; [contradiction|].
  rewrite app_nil_r in O. destruct (release_ok s lost O W) as (m & R & OM). exists s, lost, m.
  assert (Q : r = (let '(z, t, par) := wanted e l in Matched z t par) /\ List.length lost = if starts EXT_DEFLATE e && first_param e l then untidy e else 0%nat).
  { inversion ST as [| | | |? ? ? FP|? ? ? z t par FP WA|? ? ? ? FA|? ? ? ? ? ? FA| | | | | | | | | | | |]; subst; try contradiction.
    - rewrite FP. split; [|reflexivity]. unfold wanted, server_match_deflate. destruct (starts EXT_DEFLATE e); [|reflexivity]. cbn [andb] in FP. now rewrite FP.
    - rewrite FP, WA. split; congruence. }
  destruct Q as [-> Q]. split; [exact E|]. split; [exact R|]. split; [now apply own_blocks|exact Q].
Qed.
Print Assumptions C109_offer_partial.

(** ** Examples *)
Definition offer := bs "permessage-deflate; server_no_context_takeover; server_max_window_bits=10; client_max_window_bits".
Definition answer_text := bs "permessage-deflate; server_no_context_takeover; server_max_window_bits=10; client_max_window_bits=15".
Definition out_calls : list zcall := [(0, repeat 7 256); (-5, [1; 2; 0; 0; 255; 255])].
Definition conversation : list devent :=
  [Sent [] 3 out_calls; Offer [] (bs "x-other") [bs "x-other"; offer]; Offer [] offer [bs "x-other"; offer]; Sent [] 300 out_calls; Sent [] 0 []; Received [] [] 4 [(0, [65; 66])]; Received [] [] 0 []; Sent [] 5 [(-3, [])]].
Example conversation_runs : Forall zlib_ok conversation /\ Forall plenty conversation /\ Forall (fun v => cost v = 0%nat) conversation /\
  exists s m, x_events dstart conversation = Ret ([Nothing; Matched U_ERROR None None; Matched U_OK (Some answer_text) (Some (mk_dctx true false 10 15 true false));
    Message U_OK (repeat 7 256 ++ [1; 2]); Message U_OK []; Message U_OK [65; 66]; Message U_OK []; Message U_ERROR []], s) /\ List.length (ext_uses s) = 4%nat /\ x_release s = Ret m /\ h_live (m_heap m) = [].
Proof.
  split; [|split; [|split]].
  - repeat constructor; cbn [snd]; try discriminate; intros b N P; vm_compute in P; try discriminate; injection P as <-; try (now elim N); vm_compute; discriminate.
  - repeat constructor; cbn; tauto.
  - repeat constructor.
  - eexists. eexists. split; [vm_compute; reflexivity|]. split; [reflexivity|]. split; [vm_compute; reflexivity|]. reflexivity.
Qed.
(** with failing allocations, three ways: the answer is cut, the copy of the name is missing, a long message fails *)
Example cut_answer : exists s, x_events dstart [Offer [true; true; true; true; true; true; true; true; false] offer [offer]] =
  Ret ([Matched U_OK (Some (bs "; client_max_window_bits=15")) (Some (mk_dctx true false 10 15 true false))], s) /\ d_on s = true.
Proof. eexists. split; [vm_compute; reflexivity|reflexivity]. Qed.
Example no_name : exists s, x_event dstart (Reply [true; true; true; false] (bs "permessage-deflate")) = Ret (Matched U_OK None (Some dctx0), s).
Proof. eexists. vm_compute. reflexivity. Qed.

(** ** What does not hold *)
(** The array param_value is only released when server_max_window_bits has exactly one '='
    (u_websocket.c:2166-2182, 2679-2694): an offer with k server_max_window_bits without a value, which is refused, leaves k blocks that nobody
    can release. A client without credentials can send as many as fit in a header, and connect again. *)
Theorem C109_window_refuted : forall k, exists e s m lost, x_event dstart (Offer [] e [e]) = Ret (Matched U_ERROR None None, s) /\ x_release s = Ret m /\ blocks_are m lost /\ List.length lost = Datatypes.S k.
Proof.
  intros k. set (P := bs " server_max_window_bits"). set (R := fun k => concat (repeat (59 :: P) k)). set (e := EXT_DEFLATE ++ R (Datatypes.S k)).
  assert (SP : forall k a, ~ In 59 a -> split_string 59 (a ++ R k) = a :: repeat P k).
  { clear. induction k as [|k IH]; intros a N.
    - cbn [R repeat concat]. rewrite app_nil_r. now apply split_nosep.
    - unfold R. cbn [repeat concat]. fold (R k). change ((59 :: P) ++ R k) with (59 :: (P ++ R k)). rewrite split_app by exact N. f_equal. cbn [repeat]. apply IH. unfold P. cbn. intuition discriminate. }
  assert (U : untidy e = Datatypes.S k).
  { unfold untidy, e. rewrite skipn_app, skipn_all, Nat.sub_diag. cbn [app skipn]. pose proof (SP (Datatypes.S k) [] (fun x => x)) as E. cbn [app] in E. rewrite E.
    cbn [filter]. change (untidy_param []) with false. cbn iota. clear. induction (Datatypes.S k) as [|n IH]; [reflexivity|]. cbn [repeat filter]. change (untidy_param P) with true. cbn iota. cbn [List.length]. now rewrite IH. }
  assert (FP : starts EXT_DEFLATE e && first_param e [e] = true).
  { assert (S1 : starts EXT_DEFLATE e = true) by reflexivity. cbn [first_param]. rewrite S1. cbn [andb]. apply str_eqb_refl. }
  assert (PP : d_ret (parse_params true e) <> U_OK).
  { unfold parse_params. assert (L : zlen EXT_DEFLATE <? zlen e = true) by (apply Z.ltb_lt; unfold e; rewrite zlen_app; unfold R; cbn [repeat concat]; rewrite zlen_app; pose proof (zlen_nonneg _ (concat (repeat (59 :: P) k))); change (zlen (59 :: P)) with 24; lia).
    rewrite L. unfold e at 1. rewrite skipn_app, skipn_all, Nat.sub_diag. cbn [app skipn]. pose proof (SP (Datatypes.S k) [] (fun x => x)) as E. cbn [app] in E. rewrite E. cbn [repeat fold_left].
    apply fold_fail. vm_compute. discriminate. }
  assert (WA : wanted e [e] = (U_ERROR, None, None)).
  { unfold wanted, server_match_deflate. apply andb_prop in FP. destruct FP as [-> ->]. apply Z.eqb_neq in PP. now rewrite PP. }
  destruct (C109_offer_partial [] e [e]) as (s & lost & m & E & R0 & B & L); [intros []|]. rewrite WA in E. rewrite FP, U in L. exists e, s, m, lost. auto.
Qed.
Print Assumptions C109_window_refuted.

(** When deflateInit2 or inflateInit2 fails for lack of memory, deflateEnd or inflateEnd is called on the
    stream all the same (u_websocket.c:2217-2237, 2725-2748); the context comes from o_malloc and nobody wrote the member state, which they
    read and follow. *)
Theorem C109_init_refuted : exists answers, x_event dstart (Offer answers (bs "permessage-deflate") [bs "permessage-deflate"]) = UB Uninit /\
  x_event dstart (Reply answers (bs "permessage-deflate")) = UB Uninit.
Proof. exists [true; false]. split; vm_compute; reflexivity. Qed.
Print Assumptions C109_init_refuted.

(** The text of the answer is not checked (u_websocket.c:2238-2251): without memory for it, the extension is on with U_OK and the
    answer is NULL, or starts in the middle; the client is not told, and gets compressed messages. *)
Theorem C109_answer_refuted : exists answers s m, x_events dstart [Offer answers (bs "permessage-deflate") [bs "permessage-deflate"]; Sent [] 2 [(0, [9; 0; 0; 255; 255])]] =
  Ret ([Matched U_OK None (Some dctx0); Message U_OK [9]], s) /\ x_release s = Ret m /\ h_live (m_heap m) = [].
Proof. exists [true; true; true; false]. eexists. eexists. split; [vm_compute; reflexivity|]. split; [vm_compute; reflexivity|]. reflexivity. Qed.
Print Assumptions C109_answer_refuted.

(** The result of o_realloc replaces the pointer (u_websocket.c:1985, 2076): when a message that is longer than 256 bytes cannot
    grow, what was already compressed or decompressed is lost. *)
Theorem C109_grow_refuted : exists grow s m i, x_events dstart [Offer [] (bs "permessage-deflate") [bs "permessage-deflate"]; Sent grow 300 out_calls] =
  Ret ([Matched U_OK (Some (bs "permessage-deflate")) (Some dctx0); Message U_ERROR_MEMORY []], s) /\ x_release s = Ret m /\ h_live (m_heap m) = [i].
Proof. exists [true; false]. do 3 eexists. split; [vm_compute; reflexivity|]. split; [vm_compute; reflexivity|]. reflexivity. Qed.
Print Assumptions C109_grow_refuted.
