(** C104: the memory of the answers, also when allocations fail. *)
From Coq Require Import String ZArith Bool List Lia.
From Verif Require Import Base BaseFacts UMapModel UMapProofs OwnModel OwnSpec OwnProofs MapMemModel MapMemSpec MapMemProofs MapMemPut MapMemRun MapMemSteps
  RespMemModel RespMemSpec RespMemProofs RespMemCalls RespMemCookie RespMemSteps AnswerMemModel AnswerMemSpec AnswerMemProofs AnswerMemSteps.
Import ListNotations.
Open Scope Z_scope.
Open Scope list_scope.

(** the default_headers of the instance: none, or a map of a program *)
Definition headers_of (s : prog) (j : option nat) : option (nat * fmap) := match j with Some j => nth_error (p_maps s) j | None => None end.
Definition reads (s : prog) (h : option (nat * fmap)) (a : amap) : Prop := match h with Some (_, f) => read_map (p_mem s) f = Ret a | None => a = [] end.
(** the blocks in use are [blocks], each once *)
Definition in_use (m : mem) (blocks : list nat) : Prop :=
  NoDup blocks /\ NoDup (h_live (m_heap m)) /\ forall x, In x (h_live (m_heap m)) <-> In x blocks.

Lemma callback_mono : forall N max p, max <= N -> callback_ok max p -> callback_ok N p.
Proof.
  intros N max p L. induction p as [|answers o next IH]; cbn [callback_ok]; [auto|]. intros [C F]. split; [|intros c; apply IH, F].
  destruct o; cbn [cop_ok as_rop rop_ok] in *; auto. destruct v; auto. destruct C as [[C1 C2] C3]. split; [split; [exact C1|lia]|exact C3].
Qed.
Lemma request_mono : forall N max q, max <= N -> request_ok max q -> request_ok N q.
Proof.
  intros N max q L (A & B & C & D). split; [exact A|]. split; [exact B|]. split.
  - eapply Forall_impl; [|exact C]. intros e E. eapply callback_mono; eauto.
  - destruct (rq_default q); [eapply callback_mono; eauto|exact D].
Qed.

Lemma requests_exact : forall max answers ops cs0 s j realm qs,
  0 <= max -> Forall (mop_ok max) ops -> mrun (start answers) ops = Ret (cs0, s) -> Forall (request_ok max) qs -> 3 * max + zlen ops + 6 < two64 ->
  exists a fs m ds gone, reads s (headers_of s j) a /\ s_requests a realm qs fs /\
    x_requests (p_mem s) (headers_of s j) realm qs = Ret (map (fun f => (f_answer f, f_log f)) fs, m) /\
    Forall2 (fun d b => read_resp m d = Ret (b_resp b)) ds (lefts fs) /\ length gone = lost_all fs /\
    in_use m (prog_blocks s ++ flat_map resp_blocks ds ++ gone).
Proof.
  intros max answers ops cs0 s j realm qs M0 FO R FQ LT. pose proof (zlen_nonneg _ ops) as ZO.
  destruct (mrun_ok max true ops max (start answers) [] (pinv_start _ _) FO ltac:(lia) ltac:(lia) ltac:(lia) (fun _ => eq_refl)) as (cs1 & s1 & l & R1 & _ & [FL O]).
  rewrite R in R1. injection R1 as <- <-.
  assert (FQ' : Forall (request_ok (max + zlen ops)) qs) by (eapply Forall_impl; [|exact FQ]; intros q Q; eapply request_mono; [|exact Q]; lia).
  assert (H : exists a, headers_in (max + zlen ops) (prog_blocks s) (headers_of s j) a).
  { destruct j as [j|]; cbn [headers_of]; [|exists []; reflexivity]. destruct (nth_error (p_maps s) j) as [[i f]|] eqn:E; [|exists []; reflexivity].
    apply nth_error_split in E as (A & B & E & _). rewrite E in FL. apply Forall2_app_inv_l in FL as (l1 & l2 & _ & FL & _). inversion FL as [|? a ? l3 LK]; subst.
    exists a. split; [exact LK|]. intros x X. unfold prog_blocks. rewrite E, flat_map_app. apply in_or_app. right. cbn [flat_map]. apply in_or_app. now left. }
  destruct H as (a & H). destruct (requests_ok _ _ a realm qs _ _ H O FQ' ltac:(lia) ltac:(lia)) as (fs & m & ds & gone & E & SR & FD & LG & O2).
  exists a, fs, m, (map (fun d => (d_id d, d_resp d)) ds), gone. split.
  { unfold reads. destruct (headers_of s j) as [[i f]|]; [|exact H]. destruct H as [(ik & iv & il & es & EF & F & _) C]. cbn [snd] in EF. subst f.
    eapply read_map_ok; [exact O| |exact F]. intros x X. apply C. apply cnt_in. rewrite blocks_mkf, cnt_cons. apply cnt_in in X. lia. }
  split; [exact SR|]. split; [exact E|]. split.
  { assert (INC : incl (flat_map (fun d => resp_blocks (d_id d, d_resp d)) ds) (flat_map (fun d => resp_blocks (d_id d, d_resp d)) ds ++ gone ++ prog_blocks s)) by (intros x X; apply in_or_app; now left).
    clear - O2 FD INC. revert INC O2. generalize (flat_map (fun d => resp_blocks (d_id d, d_resp d)) ds ++ gone ++ prog_blocks s). intros ids INC O2.
    induction FD as [|d b ds l D FD IH]; cbn [map flat_map] in *; constructor.
    - eapply read_resp_ok; [exact O2| |exact (proj1 D)]. intros x X. apply INC. apply in_or_app. now left.
    - apply IH. intros x X. apply INC. apply in_or_app. now right. }
  split; [exact LG|]. assert (O3 : owns (m_heap m) (prog_blocks s ++ flat_map resp_blocks (map (fun d => (d_id d, d_resp d)) ds) ++ gone)).
  { eapply owns_ext; [exact (proj1 O2)|]. intros x. rewrite (flat_map_concat_map resp_blocks (map _ _)), map_map, <- flat_map_concat_map. repeat rewrite ?cnt_app. lia. }
  destruct (owns_spec _ _ O3) as (X & Y & Z0). repeat split; auto; apply X.
Qed.

(** C104. Any requests are answered one after the other. The callbacks make any calls on the response, and choose what
    comes next by the results; o_malloc and o_strdup answer what they want (but where [request_ok] says), libmicrohttpd
    refuses what it wants. Nothing is read or released that is not there; each answer, with its status, its realm and
    its body, the shared data and the streams released, the blocks that are lost, and the responses that nothing releases
    are those of [s_requests]; after the requests the blocks in use are those of the instance, those of the responses
    left, and the blocks lost. *)
Theorem C104_exact_partial : forall max answers ops cs0 s j realm qs,
  0 <= max -> Forall (mop_ok max) ops -> mrun (start answers) ops = Ret (cs0, s) -> Forall (request_ok max) qs -> 3 * max + zlen ops + 6 < two64 ->
  exists a fs m ds gone, reads s (headers_of s j) a /\ s_requests a realm qs fs /\
    x_requests (p_mem s) (headers_of s j) realm qs = Ret (map (fun f => (f_answer f, f_log f)) fs, m) /\
    Forall2 (fun d b => read_resp m d = Ret (b_resp b)) ds (lefts fs) /\ length gone = lost_all fs /\
    in_use m (prog_blocks s ++ flat_map resp_blocks ds ++ gone).
Proof. exact requests_exact. Qed.
Print Assumptions C104_exact_partial.

(** ** With memory *)
Lemma plays_played : forall b p code log b', plays b p code log b' -> callback_roomy p -> played b p = (code, log, b').
Proof.
  intros b p code log b' P. induction P as [|b answers o next c a code log b' M P IH|b answers o next r c a code log b' F]; cbn [played callback_roomy]; [reflexivity| |intros [N _]; contradiction].
  intros [_ K]. rewrite M, IH by apply K. reflexivity.
Qed.
Lemma roomy_choice : forall w ch, willing w -> choice_ok (w_memory w) ch -> ch = fine.
Proof. intros w ch (N & _) [C|C]; [exact C|contradiction]. Qed.
Lemma known_code : forall b p code log b', plays b p code log b' -> known p -> 0 <= code <= 4.
Proof. intros b p code log b' P. induction P; cbn [known]; auto. Qed.

Lemma nonempty_body : forall (b : option (list Z)), match nonempty b with Some x => x | None => [] end = match b with Some x => x | None => [] end.
Proof. intros [[|x l]|]; reflexivity. Qed.
Definition told (b : adresp) : body := Bytes (match ar_body (b_resp b) with Some x => x | None => [] end).
Lemma complete_fine : forall s w, willing w ->
  exists len, s_complete s w fine = mk_ystate (y_resp s) (Some (told (y_resp s))) len (y_401 s) (y_realm s) (y_log s) (y_lost s).
Proof.
  intros s w (_ & C & _). unfold s_complete, s_get_body, told. rewrite <- nonempty_body. destruct (nonempty (ar_body (b_resp (y_resp s)))) as [x|]; cbn [ch_body fine]; unfold s_create; rewrite C;
    cbn [andb fst snd]; change (0 <=? 0) with true; cbn iota; cbn [fst snd]; rewrite !Nat.add_0_r; eexists; reflexivity.
Qed.
Lemma decorate_fine : forall w a, willing w -> s_decorate w fine a = true.
Proof.
  intros w a (_ & _ & H & K). unfold s_decorate. cbn [ch_cookies fine]. rewrite !andb_true_iff. repeat split; apply forallb_forall; intros x _; [|apply K].
  destruct (a_text (snd x)); auto.
Qed.
Lemma unauthorized_fine : forall s w default, willing w ->
  exists len, s_unauthorized s w fine default = mk_ystate (y_resp s) (Some (told (y_resp s))) len true (pick_realm (ar_realm (b_resp (y_resp s))) default (y_realm s)) (y_log s) (y_lost s).
Proof.
  intros s w default W. pose proof W as (_ & C & _). unfold s_unauthorized, s_get_body, told. rewrite <- nonempty_body.
  destruct (nonempty (ar_body (b_resp (y_resp s)))) as [x|]; cbn [ch_body fine]; unfold s_create; rewrite C; cbn [andb fst snd]; change (0 <=? 0) with true; cbn iota; cbn [fst snd];
    rewrite decorate_fine by exact W; cbn [andb y_resp y_mhd y_len y_401 y_realm y_log y_lost]; rewrite !Nat.add_0_r; eexists; reflexivity.
Qed.
Lemma error_fine : forall s w, willing w ->
  s_error s w fine = mk_ystate (set_500 (y_resp s)) (Some (Bytes (bs "Server Error"))) (zlen error_text) (y_401 s) (y_realm s) (y_log s) (y_lost s).
Proof. intros s w (_ & C & _). unfold s_error, s_error_answer, s_create. cbn [ch_text fine]. rewrite C. cbn [andb fst snd y_resp y_mhd y_len y_401 y_realm y_log y_lost]. rewrite Nat.add_0_r. reflexivity. Qed.

(** what the state says will be answered *)
Definition says (s : ystate) : option (Z * option str * body) :=
  match y_mhd s with Some c => Some (if y_401 s then (401, y_realm s) else (b_status (y_resp s), None), c) | None => None end.
Record calm (s : ystate) : Prop := mk_calm { k_401 : y_401 s = false; k_realm : y_realm s = None; k_lost : y_lost s = O }.
Lemma endpoints_fine : forall realm s l pos pos' s', s_endpoints realm s l pos pos' s' -> calm s -> Forall (fun e => callback_roomy (fst e) /\ willing (snd e)) l ->
  exists b code log, visit (y_resp s) l pos = (b, code, pos', log) /\ b_shared (y_resp s') = b_shared b /\ y_log s' = y_log s ++ log /\ y_lost s' = O /\
    says s' = Some (match b_stream b with Some x => (b_status b, None, Stream x) | None => verdict realm b code end) /\
    (pos' = false -> calm s' /\ y_resp s' = b /\ given_up (y_mhd s') = stream_data b).
Proof.
  intros realm s l pos pos' s' SE. induction SE as [s p w r pos code log b ch s' P C T|s p w r pos code log b ch pos' s' P T SE IH]; intros [K1 K2 K3] F;
    inversion F as [|? ? [F1 F2] F3]; subst; cbn [fst snd] in *; cbn [visit]; rewrite (plays_played _ _ _ _ _ P F1).
  - rewrite (roomy_choice _ _ F2 C) in T. unfold s_turn in T. cbn [s_enter y_resp] in T.
    destruct (b_stream b) as [x|] eqn:ES.
    + injection T as <-. exists b, code, log. split; [reflexivity|]. unfold s_stream. rewrite (proj1 (proj2 F2)). unfold says. cbn [y_resp y_mhd y_len y_401 y_realm y_log y_lost s_enter]. rewrite K1.
      repeat split; auto; unfold stream_data; rewrite ES; reflexivity.
    + assert (ST : (negb ((code =? U_CALLBACK_CONTINUE) || (code =? U_CALLBACK_IGNORE)) || is_nil r) = true).
      { destruct ((code =? U_CALLBACK_CONTINUE) || (code =? U_CALLBACK_IGNORE)); [|reflexivity]. destruct (is_nil r); [reflexivity|discriminate]. }
      rewrite ST. exists b, code, log. split; [reflexivity|]. clear ST. unfold verdict. rewrite ES.
      assert (CASE : (exists z, code =? U_CALLBACK_UNAUTHORIZED = false /\ (code =? U_CALLBACK_CONTINUE) || (code =? U_CALLBACK_IGNORE) || (code =? U_CALLBACK_COMPLETE) = true /\ z = tt /\ s_complete (s_enter s b log) w fine = s') \/
                     (code =? U_CALLBACK_UNAUTHORIZED = true /\ s_unauthorized (s_enter s b log) w fine realm = s') \/
                     (code =? U_CALLBACK_UNAUTHORIZED = false /\ (code =? U_CALLBACK_CONTINUE) || (code =? U_CALLBACK_IGNORE) || (code =? U_CALLBACK_COMPLETE) = false /\ s_error (s_enter s b log) w fine = s')).
      { unfold U_CALLBACK_CONTINUE, U_CALLBACK_IGNORE, U_CALLBACK_COMPLETE, U_CALLBACK_UNAUTHORIZED in *.
        destruct (code =? 0) eqn:E0; [apply Z.eqb_eq in E0; subst code; cbn in *; left; exists tt; destruct (is_nil r); [|discriminate]; injection T as <-; auto|].
        destruct (code =? 1) eqn:E1; [apply Z.eqb_eq in E1; subst code; cbn in *; left; exists tt; destruct (is_nil r); [|discriminate]; injection T as <-; auto|].
        destruct (code =? 2) eqn:E2; [apply Z.eqb_eq in E2; subst code; cbn in *; left; exists tt; injection T as <-; auto|]. cbn [orb] in *.
        destruct (code =? 3); injection T as <-; auto. }
      destruct CASE as [(z & CU & CC & _ & <-)|[(CU & <-)|(CU & CC & <-)]].
      * destruct (complete_fine (s_enter s b log) w F2) as (len & ->). rewrite CU, CC. unfold says. cbn [y_resp y_mhd y_len y_401 y_realm y_log y_lost s_enter]. rewrite K1.
        repeat split; auto; unfold stream_data; rewrite ES; reflexivity.
      * destruct (unauthorized_fine (s_enter s b log) w realm F2) as (len & ->). rewrite CU. unfold says. cbn [y_resp y_mhd y_len y_401 y_realm y_log y_lost s_enter]. rewrite K2.
        apply Z.eqb_eq in CU. split; [reflexivity|]. split; [reflexivity|]. split; [exact K3|]. split; [unfold pick_realm, told; destruct (ar_realm (b_resp b)), realm; reflexivity|].
        subst code. change (U_CALLBACK_UNAUTHORIZED =? U_CALLBACK_IGNORE) with false. rewrite orb_true_r. discriminate.
      * rewrite error_fine by exact F2. rewrite CU, CC. unfold says. cbn [y_resp y_mhd y_len y_401 y_realm y_log y_lost s_enter set_500 b_shared b_status]. rewrite K1.
        apply orb_false_iff in CC as [CC _]. apply orb_false_iff in CC as [_ CC]. rewrite CC, orb_true_r. repeat split; auto; discriminate.
  - assert (NX : (match b_stream b with Some _ => true | None => negb ((code =? U_CALLBACK_CONTINUE) || (code =? U_CALLBACK_IGNORE)) || is_nil r end) = false).
    { unfold s_turn in T. cbn [s_enter y_resp] in T. destruct (b_stream b); [discriminate|]. destruct ((code =? U_CALLBACK_CONTINUE) || (code =? U_CALLBACK_IGNORE)).
      - destruct (is_nil r); [discriminate|reflexivity].
      - destruct (code =? U_CALLBACK_COMPLETE); [discriminate|]. destruct (code =? U_CALLBACK_UNAUTHORIZED); discriminate. }
    rewrite NX. destruct IH as (b2 & code2 & log2 & E & A & B & C & D); [constructor; assumption|exact F3|]. cbn [s_enter y_resp y_log] in E, B. rewrite E.
    exists b2, code2, (log ++ log2). split; [reflexivity|]. split; [exact A|]. split; [rewrite B, <- app_assoc; reflexivity|]. auto.
Qed.

Definition same_fate (f : fate) (x : option (Z * option str * body) * list Z) : Prop := (f_answer f, f_log f) = x /\ f_lost f = O /\ f_left f = None.
Lemma finish_fine : forall s queues b answer, says s = Some answer -> b_shared (y_resp s) = b_shared b -> y_lost s = O ->
  same_fate (s_finish s queues) (if queues then (Some answer, y_log s ++ owned (b_shared b) ++ given_up (Some (snd answer))) else (None, y_log s ++ given_up (Some (snd answer)) ++ owned (b_shared b))).
Proof.
  intros s queues b answer SA SB L. unfold says in SA. unfold s_finish. destruct (y_mhd s) as [c|]; [|discriminate]. injection SA as <-. unfold same_fate. cbn [f_answer f_log f_lost f_left snd].
  rewrite SB. split; [|auto]. destruct queues; [|rewrite app_nil_r]; reflexivity.
Qed.
Lemma request_fine : forall headers realm q f, s_request headers realm q f -> roomy q -> same_fate f (expected headers realm q).
Proof.
  intros headers realm q f SR (R1 & R2 & R3 & R4). unfold expected. destruct SR as [c lost E SC|E F|E F|pos s s' E SE SL].
  - rewrite E. unfold s_create in SC. rewrite (proj1 (proj2 R2)) in SC. cbn [andb] in SC. injection SC as <- <-. split; auto.
  - destruct R2 as [R2 _]. contradiction.
  - contradiction.
  - destruct (rq_endpoints q) as [|e l] eqn:EQ; [contradiction|].
    destruct (endpoints_fine _ _ _ _ _ _ SE ltac:(constructor; reflexivity) R3) as (b & code & log & EV & SB & LG & LO & SA & PF). cbn [y_log app] in LG. cbn [y_resp] in EV. rewrite EV.
    assert (TAKEN : same_fate (s_finish s (rq_queues q)) (let answer := match b_stream b with Some x => (b_status b, None, Stream x) | None => verdict realm b code end in
       if rq_queues q then (Some answer, log ++ owned (b_shared b) ++ given_up (Some (snd answer))) else (None, log ++ given_up (Some (snd answer)) ++ owned (b_shared b)))).
    { rewrite <- LG. apply (finish_fine s (rq_queues q) b _ SA SB LO). }
    destruct (rq_default q) as [[p w]|]; revert LG; inversion SL as [| |p0 w0 s0 code2 log2 b2 ch P C]; subst; intros LG; try exact TAKEN.
    destruct R4 as (P1 & P2 & P3). cbn [fst snd] in *. destruct (PF eq_refl) as ([K1 K2 K3] & YR & GU). rewrite YR in P. rewrite (plays_played _ _ _ _ _ P P1), (roomy_choice _ _ P2 C). pose proof (known_code _ _ _ _ _ P P3) as KC.
    rewrite GU, LG. cbv zeta.
    match goal with |- context [s_default_turn ?x _ _ _ _] => set (s1 := x) end.
    assert (D : says (s_default_turn s1 w fine realm code2) = Some (verdict realm b2 code2) /\ b_shared (y_resp (s_default_turn s1 w fine realm code2)) = b_shared b2 /\
                y_log (s_default_turn s1 w fine realm code2) = log ++ stream_data b ++ log2 /\ y_lost (s_default_turn s1 w fine realm code2) = O).
    { unfold s_default_turn, verdict. assert (CASE : code2 = 0 \/ code2 = 1 \/ code2 = 2 \/ code2 = 3 \/ code2 = 4) by lia.
      assert (LOG : y_log s1 = log ++ stream_data b ++ log2) by (unfold s1; cbn [s_enter y_log]; now rewrite <- app_assoc).
      destruct CASE as [->|[->|[->|[->| ->]]]].
      1-3: change (_ =? U_CALLBACK_UNAUTHORIZED) with false; change (_ =? U_CALLBACK_ERROR) with false; cbn [orb Z.eqb U_CALLBACK_CONTINUE U_CALLBACK_IGNORE U_CALLBACK_COMPLETE Pos.eqb];
           destruct (complete_fine s1 w P2) as (len & ->); unfold says; cbn [y_resp y_mhd y_len y_401 y_realm y_log y_lost]; rewrite LOG; cbn [s1 s_enter y_401 y_resp y_lost]; rewrite K1; auto.
      - change (3 =? U_CALLBACK_UNAUTHORIZED) with true. cbn iota. destruct (unauthorized_fine s1 w realm P2) as (len & ->). unfold says; cbn [y_resp y_mhd y_len y_401 y_realm y_log y_lost]. rewrite LOG.
        cbn [s1 s_enter y_realm y_resp y_lost]. rewrite K2. repeat split; auto. unfold pick_realm, told. destruct (ar_realm (b_resp b2)), realm; reflexivity.
      - change (4 =? U_CALLBACK_UNAUTHORIZED) with false. change (4 =? U_CALLBACK_ERROR) with true. cbn [orb Z.eqb U_CALLBACK_CONTINUE U_CALLBACK_IGNORE U_CALLBACK_COMPLETE Pos.eqb].
        rewrite error_fine by exact P2. unfold says; cbn [y_resp y_mhd y_len y_401 y_realm y_log y_lost]. rewrite LOG. cbn [s1 s_enter y_401 y_resp y_lost set_500 b_shared b_status]. rewrite K1. auto. }
    destruct D as (D1 & D2 & D3 & D4). rewrite <- D3. apply (finish_fine _ (rq_queues q) b2 _ D1 D2 D4).
Qed.

(** C104. When there is memory, libmicrohttpd takes everything and the default endpoint returns a code that is known:
    any number of requests get each exactly the answer of [expected] (one answer, unless libmicrohttpd refuses to queue
    it), shared data and streams are released, and after the requests exactly the blocks of the instance are in use. *)
Theorem C104_memory_partial : forall max answers ops cs0 s j realm qs,
  0 <= max -> Forall (mop_ok max) ops -> mrun (start answers) ops = Ret (cs0, s) -> Forall (request_ok max) qs -> Forall roomy qs -> 3 * max + zlen ops + 6 < two64 ->
  exists a m, reads s (headers_of s j) a /\ x_requests (p_mem s) (headers_of s j) realm qs = Ret (map (expected a realm) qs, m) /\ in_use m (prog_blocks s).
Proof.
  intros max answers ops cs0 s j realm qs M0 FO R FQ RO LT.
  destruct (requests_exact _ _ _ _ _ j realm qs M0 FO R FQ LT) as (a & fs & m & ds & gone & RD & SR & E & FD & LG & U).
  assert (G : map (fun f => (f_answer f, f_log f)) fs = map (expected a realm) qs /\ lefts fs = [] /\ lost_all fs = O).
  { clear - SR RO. unfold s_requests in SR. induction SR as [|q f qs fs S1 SR IH]; [auto|]. inversion RO as [|? ? R1 R2]; subst. destruct (IH R2) as (A & B & C).
    destruct (request_fine _ _ _ _ S1 R1) as (D1 & D2 & D3). cbn [map]. rewrite D1, A. unfold lefts, lost_all in *. cbn [flat_map map list_sum fold_right]. rewrite D3, D2. auto. }
  destruct G as (G1 & G2 & G3). rewrite G2 in FD. inversion FD; subst. rewrite G3 in LG. destruct gone; [|discriminate]. rewrite G1 in E.
  exists a, m. split; [exact RD|]. split; [exact E|]. cbn [flat_map app] in U. rewrite app_nil_r in U. exact U.
Qed.
Print Assumptions C104_memory_partial.

(** ** What goes wrong *)
Definition easy : world := mk_world [] true (fun _ _ => true) (fun _ => true) (fun _ => (false, false, false)).
Definition poor (answers : list bool) : world := mk_world answers true (fun _ _ => true) (fun _ => true) (fun _ => (false, false, false)).
Definition ask (l : list (callback * world)) (d : option (callback * world)) : request := mk_request [] [] l d easy true.
Definition says_body (status : Z) (t : string) (code : Z) : callback := Call [] (CText status (bs t)) (fun _ => Stop code).
Definition blocks_after (r : outcome (list (option (Z * option str * body) * list Z) * mem)) : option nat :=
  match r with Ret (_, m) => Some (length (h_live (m_heap m))) | UB _ => None end.
Definition answers_of (r : outcome (list (option (Z * option str * body) * list Z) * mem)) : option (list (option (Z * option str * body) * list Z)) :=
  match r with Ret (l, _) => Some l | UB _ => None end.
Definition no_mem : mem := p_mem (start []).

Lemma same_length : forall m l, in_use m l -> length (h_live (m_heap m)) = length l.
Proof.
  intros m l (A & B & C). apply Nat.le_antisymm; apply NoDup_incl_length; auto; intros x X; now apply C.
Qed.
Lemma many : forall realm q n (F : fate -> Prop), request_ok 100 q -> (forall f, s_request [] realm q f -> F f) ->
  exists fs m ds gone, length fs = n /\ Forall F fs /\ x_requests no_mem None realm (repeat q n) = Ret (map (fun f => (f_answer f, f_log f)) fs, m) /\
    Forall2 (fun d b => read_resp m d = Ret (b_resp b)) ds (lefts fs) /\ length gone = lost_all fs /\ in_use m (flat_map resp_blocks ds ++ gone).
Proof.
  intros realm q n F OK HF.
  destruct (requests_exact 100 [] [] [] (start []) None realm (repeat q n) ltac:(lia) (Forall_nil _) eq_refl) as (a & fs & m & ds & gone & RD & SR & E & FD & LG & U).
  { apply Forall_forall. intros x X. apply repeat_spec in X. now subst. } { vm_compute. reflexivity. }
  cbn [reads headers_of] in RD. subst a. exists fs, m, ds, gone. assert (H : length fs = n /\ Forall F fs).
  { clear - SR HF. unfold s_requests in SR. revert fs SR. induction n as [|n IH]; intros fs SR; inversion SR as [|? f ? fs' S1 S2]; subst; [auto|].
    destruct (IH _ S2) as [A B]. split; [cbn [length]; now rewrite A|]. constructor; auto. }
  destruct H as [H1 H2]. split; [exact H1|]. split; [exact H2|]. split; [exact E|]. split; [exact FD|]. split; [exact LG|]. exact U.
Qed.
Lemma all_same : forall (A : Type) (l : list fate) (g : fate -> A) x, Forall (fun f => g f = x) l -> map g l = repeat x (length l).
Proof. intros A l g x H. induction H as [|f l E H IH]; [reflexivity|]. cbn [map length repeat]. now rewrite E, IH. Qed.

(** A code that is not known is an error when it comes from an endpoint (500), but when it comes from the default endpoint
    there is no answer at all, and the response is never released (ulfius.c:938-1017 has no default case, and
    ulfius_clean_response_full is called only when there is an answer, line 1036): each such request loses a response with
    its body, also when there is memory, and the shared data given with a free function is never released. *)
Definition C104_unknown : request := ask [(says_body 201 "hello" 1, easy)] (Some (Call [] (CShared 7 true) (fun _ => Stop 5), easy)).
Lemma unknown_fate : forall f, s_request [] None C104_unknown f -> (f_answer f, f_log f) = (None, []) /\ exists b, f_left f = Some b.
Proof.
  intros f SR. inversion SR as [c lost E SC|E F|E F|pos s s' E SE SL]; subst; try discriminate; try contradiction.
  destruct (endpoints_fine _ _ _ _ _ _ SE ltac:(constructor; reflexivity)) as (b & code & log & EV & SB & LG & LO & SA & PF).
  { repeat constructor; cbn; auto. }
  vm_compute in EV. injection EV as <- <- <- <-. destruct (PF eq_refl) as ([K1 K2 K3] & YR & GU). cbn [rq_default C104_unknown ask] in SL.
  inversion SL as [| |p0 w0 s0 code2 log2 b2 ch P C]; subst. apply plays_played in P; [|cbn; auto]. rewrite YR in P. cbn in P. injection P as <- <- <-.
  unfold s_default_turn. cbn. rewrite LG, GU. split; [reflexivity|eexists; reflexivity].
Qed.
Lemma easy_ok : forall l d, Forall (fun e => callback_ok 100 (fst e)) l -> match d with Some e => callback_ok 100 (fst e) | None => True end -> request_ok 100 (ask l d).
Proof. intros l d A B. split; [left; cbn; auto|]. split; [cbn; auto|]. auto. Qed.
Ltac cbk := repeat (cbn [callback_ok fst snd says_body cop_ok as_rop rop_ok memory_ok]; first [exact Logic.I|split|intros c]; auto).
Theorem C104_unknown_refuted : forall n, exists m, x_requests no_mem None None (repeat C104_unknown n) = Ret (repeat (None, []) n, m) /\ (n <= length (h_live (m_heap m)))%nat.
Proof.
  intros n. destruct (many None C104_unknown n (fun f => (f_answer f, f_log f) = (None, []) /\ exists b, f_left f = Some b)) as (fs & m & ds & gone & LF & F & E & FD & LG & U).
  { apply easy_ok; repeat constructor; cbn; auto. } { apply unknown_fate. }
  exists m. split.
  - rewrite E. rewrite <- LF. rewrite (all_same _ fs _ (None, [])); [reflexivity|]. eapply Forall_impl; [|exact F]. intros f [A _]. exact A.
  - rewrite (same_length _ _ U), app_length. assert (A : (length fs <= length (lefts fs))%nat).
    { clear - F. induction F as [|f fs (_ & b & B) F IH]; [auto|]. unfold lefts in *. cbn [flat_map length]. rewrite B. cbn [app length]. lia. }
    assert (B : (length ds <= length (flat_map resp_blocks ds))%nat).
    { clear. induction ds as [|[p r] ds IH]; [auto|]. cbn [flat_map]. rewrite app_length. unfold resp_blocks at 1. cbn [fst length]. lia. }
    assert (D : length ds = length (lefts fs)) by (clear - FD; induction FD; cbn [length]; congruence). lia.
Qed.
Print Assumptions C104_unknown_refuted.

(** A header that libmicrohttpd refuses (a value with a line break, say) is not an error in U_CALLBACK_COMPLETE, but
    in U_CALLBACK_UNAUTHORIZED the body of the response is replaced by the text of an error that nobody reads, without
    the release of the old one (ulfius.c:890, 953): each such request loses a block, also when there is memory. The client
    gets the right answer 401 all the same, since U_ERROR_PARAMS is U_CALLBACK_UNAUTHORIZED. *)
Definition picky : world := mk_world [] true (fun _ _ => false) (fun _ => true) (fun _ => (false, false, false)).
Definition C104_header : request := ask [(Call [] (CHeader (bs "A") (Some (bs "1" ++ [10]))) (fun _ => says_body 200 "hello" 3), picky)] None.
Lemma header_fate : forall f, s_request [] None C104_header f -> f = mk_fate (Some (401, None, Bytes (bs "hello"))) [] 1 None.
Proof.
  intros f SR. inversion SR as [c lost E SC|E F|E F|pos s s' E SE SL]; subst; try discriminate; try contradiction.
  inversion SL; subst. cbn [rq_endpoints C104_header ask] in SE.
  inversion SE as [s0 p w r pos0 code log b ch s1 P C T|s0 p w r pos0 code log b ch pos1 s1 P T SN]; subst.
  - apply plays_played in P; [|cbn; auto]. vm_compute in P. injection P as <- <- <-. destruct C as [->|[]]. vm_compute in T. injection T as <-. vm_compute. reflexivity.
  - apply plays_played in P; [|cbn; auto]. vm_compute in P. injection P as <- <- <-. discriminate.
Qed.
Theorem C104_header_refuted : forall n, exists m, x_requests no_mem None None (repeat C104_header n) = Ret (repeat (Some (401, None, Bytes (bs "hello")), []) n, m) /\
  length (h_live (m_heap m)) = n.
Proof.
  intros n. destruct (many None C104_header n (fun f => f = mk_fate (Some (401, None, Bytes (bs "hello"))) [] 1 None)) as (fs & m & ds & gone & LF & F & E & FD & LG & U).
  { apply easy_ok; [|exact Logic.I]. constructor; [|constructor]. cbn [fst callback_ok says_body]. split; [split; [split; [repeat constructor; vm_compute; intuition discriminate|vm_compute; discriminate]|exact Logic.I]|]. intros c. split; [split; exact Logic.I|auto]. }
  { apply header_fate. }
  exists m. split.
  - rewrite E. rewrite <- LF. rewrite (all_same _ fs _ (Some (401, None, Bytes (bs "hello")), [])); [reflexivity|]. eapply Forall_impl; [|exact F]. intros f ->. reflexivity.
  - rewrite (same_length _ _ U). assert (A : lefts fs = [] /\ lost_all fs = length fs).
    { clear - F. induction F as [|f fs -> F [A B]]; [auto|]. unfold lefts, lost_all in *. cbn [flat_map map list_sum fold_right length f_left f_lost app]. cbn [list_sum fold_right] in B. rewrite A. split; [reflexivity|]. unfold list_sum in *. cbn [Nat.add]. now rewrite B. }
    destruct A as [A B]. rewrite A in FD. inversion FD; subst. cbn [flat_map app]. lia.
Qed.
Print Assumptions C104_header_refuted.

(** The default endpoint never streams: a stream that its callback sets is not looked at (ulfius.c:933-1017), the client
    gets an empty body, and stream_callback_free is never called; there is memory. *)
Definition C104_stream : request := ask [(Stop 1, easy)] (Some (Call [] (CStream 200 9) (fun _ => Stop 0), easy)).
Theorem C104_stream_refuted : exists q, roomy q /\ request_ok 100 q /\ rq_default q = Some (Call [] (CStream 200 9) (fun _ => Stop 0), easy) /\
  answers_of (x_requests no_mem None None [q]) = Some [(Some (200, None, Bytes []), [])] /\
  (* the same callback in an endpoint *)
  answers_of (x_requests no_mem None None [ask [(Call [] (CStream 200 9) (fun _ => Stop 0), easy)] None]) = Some [(Some (200, None, Stream 9), [9])].
Proof.
  exists C104_stream. split; [repeat split; cbn; auto; try discriminate; repeat constructor; cbn; auto; repeat split; auto; discriminate|].
  split; [apply easy_ok; repeat constructor; cbn; auto|]. split; [reflexivity|]. split; vm_compute; reflexivity.
Qed.
Print Assumptions C104_stream_refuted.

(** When MHD_create_response_from_buffer fails, there is no answer, and the response, the buffer and the shared data
    are never released; when MHD_create_response_from_callback fails, the stream is never released either
    (ulfius.c:653-662, 857-864, 1020-1041). *)
Definition C104_create (p : callback) : request := ask [(Call [] (CShared 7 true) (fun _ => p), mk_world [] false (fun _ _ => true) (fun _ => true) (fun _ => (false, false, false)))] None.
Theorem C104_create_refuted : exists m1 m2,
  x_requests no_mem None None [C104_create (says_body 200 "hello" 2)] = Ret ([(None, [])], m1) /\ length (h_live (m_heap m1)) = 9%nat /\
  x_requests no_mem None None [C104_create (Call [] (CStream 200 9) (fun _ => Stop 2))] = Ret ([(None, [])], m2) /\ length (h_live (m_heap m2)) = 7%nat.
Proof. do 2 eexists. split; [vm_compute; reflexivity|]. split; [vm_compute; reflexivity|]. split; vm_compute; reflexivity. Qed.
Print Assumptions C104_create_refuted.

(** When the copy of the body cannot be made, the answer has the status 500 and no body at all, whatever the callback
    asked for: the text of the error becomes the body of the response, but not the body of the answer
    (ulfius.c:254-280), and the old body of the response is lost. *)
Theorem C104_copy_refuted : exists m, x_requests no_mem None None [ask [(says_body 200 "hello" 2, poor [false])] None] = Ret ([(Some (500, None, Bytes []), [])], m) /\
  length (h_live (m_heap m)) = 1%nat.
Proof. eexists. split; vm_compute; reflexivity. Qed.
Print Assumptions C104_copy_refuted.

(** In the default endpoint response_buffer_len still has the length of the body of an endpoint that said
    U_CALLBACK_IGNORE, so when the copy fails libmicrohttpd is asked for a response of 5 bytes at NULL: there is no
    answer, and the response is never released. *)
Theorem C104_stale_refuted : exists m, x_requests no_mem None None [ask [(says_body 200 "hello" 1, easy)] (Some (says_body 200 "bye" 2, poor [false]))] = Ret ([(None, [])], m) /\
  length (h_live (m_heap m)) = 9%nat.
Proof. eexists. split; vm_compute; reflexivity. Qed.
Print Assumptions C104_stale_refuted.

(** When the text of the error cannot be duplicated, U_CALLBACK_ERROR gives no answer, and the response and the shared
    data are never released (ulfius.c:915-927). *)
Theorem C104_text_refuted : exists m, x_requests no_mem None None [ask [(Call [] (CShared 7 true) (fun _ => Stop 4), poor [false])] None] = Ret ([(None, [])], m) /\
  length (h_live (m_heap m)) = 7%nat.
Proof. eexists. split; vm_compute; reflexivity. Qed.
Print Assumptions C104_text_refuted.

(** When default_headers cannot be copied, response->map_header is NULL (ulfius.c:628-631 does not look): the callback
    is called all the same, its headers are refused as bad parameters, and neither headers nor cookies reach the client; the body of a 401 is replaced
    by one that nobody reads, and is lost. *)
Definition C104_headers : request :=
  mk_request [] [false] [(Call [] (CHeader (bs "A") (Some (bs "1"))) (fun c => if c =? U_OK then Stop 2 else Stop 4), easy)] None easy true.
Definition C104_ops : list mop := [New; Put 0 (bs "Server") (Some (bs "x")); Put 0 (bs "B") None].
Definition C104_state : prog := match mrun (start []) C104_ops with Ret (_, s) => s | UB _ => start [] end.
Theorem C104_headers_refuted :
  answers_of (x_requests (p_mem C104_state) (headers_of C104_state (Some O)) None [C104_headers]) = Some [(Some (500, None, Bytes (bs "Server Error")), [])] /\
  answers_of (x_requests (p_mem C104_state) (headers_of C104_state (Some O)) None [mk_request [] [] (rq_endpoints C104_headers) None easy true]) = Some [(Some (200, None, Bytes []), [])] /\
  (* a 401 without the map of headers loses its body, one block is left *)
  exists m, x_requests (p_mem C104_state) (headers_of C104_state (Some O)) None [mk_request [] [false] [(says_body 200 "no" 3, easy)] None easy true] =
    Ret ([(Some (401, None, Bytes (bs "no")), [])], m) /\ length (h_live (m_heap m)) = S (length (h_live (m_heap (p_mem C104_state)))).
Proof. split; [vm_compute; reflexivity|]. split; [vm_compute; reflexivity|]. eexists. split; vm_compute; reflexivity. Qed.
Print Assumptions C104_headers_refuted.

(** ** A concrete case *)
Definition C104_requests : list request :=
  [ask [] None;
   ask [(Call [] (CHeader (bs "A") (Some (bs "1"))) (fun _ => Call [] (CShared 7 true) (fun _ => says_body 201 "first" 0)), easy);
        (Call [] (CCookie (bs "k") (Some (bs "v")) None None None) (fun _ => Call [] (CShared 8 true) (fun _ => says_body 202 "second" 2)), easy)] None;
   ask [(Call [] (CRealm (Some (bs "mine"))) (fun _ => says_body 200 "no" 3), easy)] None;
   ask [(Stop 3, easy)] None;
   ask [(Call [] (CStream 206 9) (fun _ => Stop 1), easy)] (Some (says_body 404 "default" 2, easy));
   ask [(Call [] (CStream 206 9) (fun _ => Stop 0), easy)] (Some (says_body 404 "default" 2, easy));
   ask [(Stop 9, easy)] None].
Example C104_ex_hyps : mrun (start []) C104_ops = Ret ([U_OK; U_OK; U_OK], C104_state) /\ Forall (mop_ok 100) C104_ops /\
  reads C104_state (headers_of C104_state (Some O)) [(bs "Server", bs "x" ++ [0]); (bs "B", [])] /\ Forall (request_ok 100) C104_requests /\ Forall roomy C104_requests.
Proof.
  split; [vm_compute; reflexivity|]. split; [repeat constructor; vm_compute; try (intuition discriminate)|]. split; [vm_compute; reflexivity|]. split.
  - repeat (apply Forall_cons; [apply easy_ok; repeat constructor; cbn; auto; try (vm_compute; intuition discriminate); try discriminate|]). apply Forall_nil.
  - repeat (apply Forall_cons; [repeat split; cbn; auto; try discriminate; repeat constructor; cbn; auto; repeat split; auto; try discriminate|]). apply Forall_nil.
Qed.
Example C104_ex : exists m, x_requests (p_mem C104_state) (headers_of C104_state (Some O)) (Some (bs "home")) C104_requests =
  Ret ([(Some (404, None, Bytes (bs "Resource not found")), []); (Some (202, None, Bytes (bs "second")), [7; 8]); (Some (401, Some (bs "mine"), Bytes (bs "no")), []);
        (Some (401, Some (bs "home"), Bytes []), []); (Some (404, None, Bytes (bs "default")), [9]); (Some (206, None, Stream 9), [9]); (Some (500, None, Bytes (bs "Server Error")), [])], m) /\
  length (h_live (m_heap m)) = length (prog_blocks C104_state).
Proof. eexists. split; vm_compute; reflexivity. Qed.
