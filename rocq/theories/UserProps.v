(** C130: the user data of the websocket examples. *)
From Coq Require Import String ZArith Bool List Lia.
From Verif Require Import Base BaseFacts WsFrameModel WsRecvModel WsRecvProofs WsProps.
From Verif Require Import OnceModel OnceProps.
From Verif Require Import UserModel.
Import ListNotations.
Open Scope Z_scope.

(** ** what happens to the block *)
Lemma reads_only : forall b l, times_closed l = 0%nat -> happen true (flat_map (uses b) l) = Ret true.
Proof.
  intros b. induction l as [|c l IH]; intros H; [reflexivity|]. unfold times_closed in *. cbn [filter] in H. destruct c; cbn [closes_it length] in H; try discriminate H; cbn [flat_map uses app]; destruct b; cbn [app happen]; exact (IH H).
Qed.
Lemma then_freed : forall b l, times_closed l = 0%nat -> happen true (flat_map (uses b) (l ++ [CClose])) = Ret false.
Proof.
  intros b. induction l as [|c l IH]; intros H; [reflexivity|]. unfold times_closed in *. cbn [filter] in H. destruct c; cbn [closes_it length] in H; try discriminate H; cbn [app flat_map uses]; destruct b; cbn [app happen]; exact (IH H).
Qed.
Lemma before_none : forall l k, times_closed l = 0%nat -> times_closed (before_close k l) = 0%nat.
Proof.
  unfold times_closed. induction l as [|c l IH]; intros k H; [reflexivity|]. cbn [filter] in H. destruct c; cbn [closes_it length] in H; try discriminate H; destruct k; cbn [before_close filter closes_it]; auto.
Qed.
Lemma before_last : forall l k, times_closed l = 0%nat -> exists l', before_close k (l ++ [CClose]) = l' ++ [CClose] /\ times_closed l' = 0%nat.
Proof.
  unfold times_closed. induction l as [|c l IH]; intros k H; [exists [CManager]; split; reflexivity|]. cbn [filter] in H. destruct c as [|m|]; cbn [closes_it length] in H; try discriminate H.
  - destruct k as [|k]; cbn [app before_close]; [exists (CManager :: CManager :: l); split; [reflexivity|exact H]|]. destruct (IH k H) as (l' & E & N). rewrite E. exists (CManager :: l'). split; [reflexivity|exact N].
  - destruct k as [|k]; cbn [app before_close]; [exists (CManager :: CMessage m :: l); split; [reflexivity|exact H]|]. destruct (IH k H) as (l' & E & N). rewrite E. exists (CMessage m :: l'). split; [reflexivity|exact N].
Qed.
Lemma moment_none : forall l k, times_closed l = 0%nat -> times_closed (moment k l) = 0%nat.
Proof. intros [|[|m|] l] k H; cbn [moment]; try exact H. apply before_none. exact H. Qed.
Lemma moment_last : forall l k, times_closed l = 0%nat -> exists l', moment k (l ++ [CClose]) = l' ++ [CClose] /\ times_closed l' = 0%nat.
Proof. intros [|[|m|] l] k H; cbn [app moment]; [exists []; auto|apply before_last; exact H|exists (CMessage m :: l); auto|discriminate H]. Qed.

Section User.
Variable accepts : bool -> Z -> bool.
Variable alloc_ok : Z -> bool.
Variable ext_in : Z -> Z -> list Z -> option (list Z).
Variable rsv_expected : Z.
Notation life := (life accepts alloc_ok ext_in rsv_expected).
Notation served := (served accepts alloc_ok ext_in rsv_expected).
Notation serves := (serves accepts alloc_ok ext_in rsv_expected).
Notation client := (client alloc_ok ext_in rsv_expected).
Notation client_talk := (client_talk alloc_ok ext_in rsv_expected).

(** ** the server *)
(** the handshake fails, or libmicrohttpd opens the websocket *)
Definition goes_well (o : offer) : Prop := o_alloc o = true /\ (~ shaken o \/ (fine accepts o /\ 0 <= o_before o)).

(** C130. A request for one of the two websockets of the server whose handshake fails or whose websocket is opened: at every moment the user data are there exactly if the instance counts the websocket; no callback uses them
    after their release and they are released once, whenever the manager looks at them. *)
Theorem C130_server_partial : forall echo k o, example_offer echo o -> goes_well o -> exists active, served echo k o = Ret (active, active) /\ exists calls, life o = Ret (calls, active).
Proof.
  intros echo k o (MA & INC & CL & CO) (AL & [NS|[FI B]]); unfold UserModel.served.
  - rewrite (C129_refused accepts alloc_ok ext_in rsv_expected o AL NS), CL. exists false. split; [reflexivity|]. eexists. reflexivity.
  - destruct (o_init o && o_valid o && o_agreed o && o_key o && o_copy o) eqn:SH.
    + apply andb_prop in SH as [SH X5]. apply andb_prop in SH as [SH X4]. apply andb_prop in SH as [SH X3]. apply andb_prop in SH as [X1 X2].
      assert (TA : taken o) by (split; [exact B|left; rewrite CO; discriminate]). assert (S : shaken o) by (repeat split; assumption).
      destruct (C129_once_partial accepts alloc_ok ext_in rsv_expected o FI TA S) as (calls & active & E & D). rewrite E. cbn [bind fst snd]. exists active. split; [|eexists; reflexivity].
      destruct D as [[-> N]|[-> (b & N & ->)]].
      * rewrite reads_only by (apply moment_none; exact N). reflexivity.
      * rewrite CL. destruct (moment_last b k N) as (l' & -> & N'). rewrite then_freed by exact N'. reflexivity.
    + assert (NS : ~ shaken o) by (intros (X1 & X2 & X3 & X4 & X5); rewrite X1, X2, X3, X4, X5 in SH; discriminate SH).
      rewrite (C129_refused accepts alloc_ok ext_in rsv_expected o AL NS), CL. exists false. split; [reflexivity|]. eexists. reflexivity.
Qed.
(** C130. Any number of such requests: as many user data are in memory as the instance counts websockets, none when all have ended. *)
Theorem C130_all_partial : forall l, Forall (fun x => example_offer (fst (fst x)) (snd x) /\ goes_well (snd x)) l -> exists n, serves l = Ret (n, n) /\ 0 <= n <= zlen l /\
  (Forall (fun x => ~ shaken (snd x) \/ w_phase (talk alloc_ok ext_in rsv_expected (snd x)) = PEnd) l -> n = 0).
Proof.
  induction 1 as [|[[echo k] o] l [EX GW] F (n & E & B & Z0)]; [exists 0; repeat split; cbn; lia|]. cbn [fst snd] in *. destruct (C130_server_partial echo k o EX GW) as (active & S & calls & L).
  cbn [UserModel.serves]. rewrite S. cbn [bind fst snd]. rewrite E. cbn [bind fst snd]. eexists. split; [reflexivity|]. split; [unfold zlen in *; cbn [length]; destruct active; lia|].
  intros A. pose proof (Forall_inv A) as HD. pose proof (Forall_inv_tail A) as A'. cbn [snd] in HD. rewrite (Z0 A'). destruct HD as [NS|PE].
  - destruct GW as [AL _]. rewrite (C129_refused accepts alloc_ok ext_in rsv_expected o AL NS) in L. injection L as _ <-. reflexivity.
  - destruct (GW) as [AL [NS|[FI B0]]]; [rewrite (C129_refused accepts alloc_ok ext_in rsv_expected o AL NS) in L; injection L as _ <-; reflexivity|].
    destruct active; [|reflexivity]. exfalso. assert (S' : shaken o).
    { destruct (o_init o) eqn:X1; destruct (o_valid o) eqn:X2; destruct (o_agreed o) eqn:X3; destruct (o_key o) eqn:X4; destruct (o_copy o) eqn:X5; try (repeat split; assumption);
        (rewrite (C129_refused accepts alloc_ok ext_in rsv_expected o AL) in L; [discriminate L|intros (Y1 & Y2 & Y3 & Y4 & Y5); congruence]). }
    destruct EX as (_ & _ & _ & CO). rewrite (fate_fine accepts alloc_ok ext_in rsv_expected o FI) in L; [|split; [exact B0|left; rewrite CO; discriminate]|exact S']. unfold opened in L. rewrite PE in L. discriminate L.
Qed.

(** ** the client *)
Notation run := (run alloc_ok false ext_in rsv_expected).
Notation step := (step alloc_ok false ext_in rsv_expected).
Lemma client_step_last : forall s i, once s -> last_close s -> last_close (step s i).
Proof.
  intros s i O L. unfold last_close in *. destruct (w_phase s) eqn:P.
  - pose proof (step_once alloc_ok false ext_in rsv_expected s i O) as O'. unfold once in O'. destruct (w_phase (step s i)) eqn:P'; try exact O'.
    exfalso. assert (X : closes (w_out s) = 0%nat) by (unfold once in O; now rewrite P in O). assert (P2 : w_phase (step s i) <> PEnd); [clear P' O'|contradiction]. unfold WsRecvModel.step. rewrite P.
    destruct (w_conn s && w_ok s); [|discriminate].
    assert (G : forall s', w_phase s' = PLoop -> w_phase (if i_gone i then set_conn s' false else s') = PLoop) by (intros s' H; destruct (i_gone i); exact H).
    rewrite G; [discriminate|]. destruct (i_close i).
    + destruct (wait_keeps alloc_ok false 11 (emit s (Send OP_CLOSE []))) as [_ Y]. revert Y. generalize (close_wait alloc_ok false 11 (emit s (Send OP_CLOSE []))). intros s' Y. cbn [set_conn w_phase]. rewrite Y. exact P.
    + destruct (data_available (w_in s) (w_conn s)) as [[a e] c]. destruct a; [|exact P]. destruct (read_message alloc_ok false _ _) as [[[r m] e2] c2]. destruct m as [m|]; [|exact P].
      destruct (handle_keeps ext_in rsv_expected (set_in (set_in s e c) e2 c2) m) as (_ & H & _). rewrite H. exact P.
  - unfold WsRecvModel.step. rewrite P. destruct (i_mgr i).
    + cbn [set_phase set_conn emit w_out w_phase]. eexists. split; [reflexivity|exact L].
    + destruct (i_gone i); cbn [set_conn w_phase w_out]; rewrite P; exact L.
  - unfold WsRecvModel.step. rewrite P, P. exact L.
Qed.
Lemma client_run_last : forall is s, once s -> last_close s -> last_close (run s is).
Proof. induction is as [|i is IH]; intros s O L; [exact L|]. apply IH; [now apply step_once|now apply client_step_last]. Qed.
Lemma client_calls_none : forall l, closes l = 0%nat -> times_closed (flat_map client_call l) = 0%nat.
Proof.
  intros l. unfold closes, times_closed. induction l as [|x l IH]; intros Z0; [reflexivity|]. cbn [flat_map]. rewrite filter_app, app_length.
  cbn [filter] in Z0. destruct x; cbn [is_close length client_call] in *; try (apply IH; exact Z0). discriminate Z0.
Qed.

(** C130. The client: whatever fails before the thread is made and whatever happens afterwards, the user data are released exactly once, by main if the connection was not opened, by the close callback otherwise, and not
    while a callback may use them: they are there exactly as long as the thread runs. *)
Theorem C130_client_partial : forall k t, t_thread t = true -> exists ended, client k t = Ret (negb ended, ended) /\
  (ended = true <-> t_request t = false \/ t_url t = false \/ t_ws t = false \/ t_open t = false \/ w_phase (client_talk t) = PEnd).
Proof.
  intros k t TH. unfold UserModel.client, open_client. destruct (t_request t); [|exists true; split; [reflexivity|tauto]]. destruct (t_url t); cbn [negb bind]; [|exists true; split; [reflexivity|tauto]].
  destruct (t_ws t); cbn [negb bind]; [|exists true; split; [reflexivity|tauto]]. destruct (t_open t); cbn [negb bind]; [|exists true; split; [reflexivity|tauto]]. rewrite TH. cbn [negb bind].
  assert (L : last_close (client_talk t)) by (unfold UserModel.client_talk; apply client_run_last; destruct (t_mthread t); reflexivity).
  assert (A : forall a b, times_closed (a ++ b) = (times_closed a + times_closed b)%nat) by (intros; unfold times_closed; now rewrite filter_app, app_length).
  assert (M : times_closed (if t_mthread t then [CManager] else []) = 0%nat) by (destruct (t_mthread t); reflexivity).
  change (0 =? 0) with true. cbv iota. unfold last_close in L. destruct (w_phase (client_talk t)) eqn:PH.
  1, 2: exists false; rewrite reads_only by (apply moment_none; rewrite A, M, client_calls_none by exact L; reflexivity); (split; [reflexivity|]); (split; [discriminate|intros [X|[X|[X|[X|X]]]]; discriminate X]).
  exists true. destruct L as (a & -> & Z0). rewrite flat_map_app. cbn [flat_map client_call]. rewrite app_nil_r, app_assoc.
  destruct (moment_last ((if t_mthread t then [CManager] else []) ++ flat_map client_call a) k) as (l' & -> & N); [rewrite A, M, client_calls_none by exact Z0; reflexivity|]. rewrite then_freed by exact N. split; [reflexivity|tauto].
Qed.
(** and the thread does end: when the server has said all it says and the manager callback returns *)
Theorem C130_client_ends_partial : forall evs, exists n, forall k t is i js, t_thread t = true -> t_mthread t = true -> t_evs t = evs -> t_inps t = is ++ i :: js -> (n <= length is)%nat -> i_mgr i = true -> client k t = Ret (false, true).
Proof.
  intros evs. destruct (C38_close_callback_runs alloc_ok false ext_in rsv_expected evs) as (n & H). exists n. intros k t is i js TH MT EV IN L M. specialize (H is i js L M). rewrite C38_close_callback_once in H.
  destruct (C130_client_partial k t TH) as (ended & E & D). rewrite E. replace ended with true; [reflexivity|]. symmetry. apply D. do 4 right. unfold UserModel.client_talk. rewrite MT, EV, IN. destruct (w_phase _); [discriminate H..|reflexivity].
Qed.

(** C130, refuted: a client that sends a handshake and goes before the answer is written (or an upgrade that libmicrohttpd refuses): the user data of callback_websocket stay in memory for as long as the server runs, with
    each such request one block more. *)
Theorem C130_gone_refuted : forall echo k o n, shaken o -> o_alloc o = true -> o_create o = true -> o_headers o = true -> (o_alive o = false \/ accepts true 101 = false) ->
  serves (repeat (echo, k, o) n) = Ret (Z.of_nat n, Z.of_nat n).
Proof.
  intros echo k o n S AL CR HE G. induction n as [|n IH]; [reflexivity|]. cbn [repeat UserModel.serves]. unfold UserModel.served. rewrite (C129_gone_refuted accepts alloc_ok ext_in rsv_expected o S AL CR HE G). cbn [bind fst snd moment flat_map happen].
  rewrite IH. cbn [bind fst snd]. f_equal. f_equal; lia.
Qed.
(** An upgrade that libmicrohttpd cannot make (ulfius.c:746-748): the user data are lost although the instance does not count a websocket. *)
Theorem C130_create_refuted : forall echo k o, shaken o -> o_alloc o = true -> o_create o = false -> served echo k o = Ret (true, false).
Proof. intros echo k o S AL CR. unfold UserModel.served. rewrite (C129_create_refuted accepts alloc_ok ext_in rsv_expected o S AL CR). reflexivity. Qed.
(** A client that cannot make the thread: pthread_detach gets a thread that was never made (u_websocket.c:2623-2624, the result of pthread_create is looked at afterwards). *)
Theorem C130_thread_refuted : forall k t, t_request t = true -> t_url t = true -> t_ws t = true -> t_open t = true -> t_thread t = false -> client k t = UB Uninit.
Proof. intros k t R U W P TH. unfold UserModel.client, open_client. rewrite R, U, W, P, TH. reflexivity. Qed.
End User.

(** ** cases *)
Definition d_frames : list Z := [129; 2; 104; 105] ++ [136; 0].
Definition d_attempt (opened : bool) : attempt := mk_attempt true true true opened true true [RData (firstn 3 d_frames); RIdle; RData (skipn 3 d_frames)] (repeat (mk_inp false false false) 6 ++ [mk_inp false false true]).
Example C130_ex_client : client (fun _ => true) u_ext 0 1 (d_attempt true) = Ret (false, true) /\ client (fun _ => true) u_ext 0 1 (d_attempt false) = Ret (false, true) /\
  exists m, open_client (fun _ => true) u_ext 0 (d_attempt true) = Ret (0, [CManager; CMessage m; CClose], true).
Proof. split; [vm_compute; reflexivity|]. split; [vm_compute; reflexivity|]. eexists. vm_compute. reflexivity. Qed.
Example C130_ex_hyps : example_offer false (u_offer true) /\ goes_well mhd_accepts (u_offer true).
Proof. split; [repeat split|]. split; [reflexivity|]. right. split; [repeat split|vm_compute; discriminate]. Qed.
Example C130_ex_server : serves mhd_accepts (fun _ => true) u_ext 0 [(false, 0%nat, u_offer true); (false, 5%nat, u_offer true)] = Ret (0, 0) /\
  serves mhd_accepts (fun _ => true) u_ext 0 [(false, 0%nat, u_offer true); (false, 0%nat, u_offer false)] = Ret (1, 1).
Proof. split; vm_compute; reflexivity. Qed.
(** user data that were shared by two websockets would be released twice *)
Example C130_ex_shared : happen true (flat_map (uses true) [CManager; CClose; CManager; CClose]) = UB UseAfterFree.
Proof. reflexivity. Qed.

Print Assumptions C130_server_partial.
Print Assumptions C130_all_partial.
Print Assumptions C130_client_partial.
Print Assumptions C130_client_ends_partial.
Print Assumptions C130_gone_refuted.
Print Assumptions C130_create_refuted.
Print Assumptions C130_thread_refuted.
