(** C129: the close callback of a websocket. *)
From Coq Require Import String ZArith Bool List Lia.
From Verif Require Import Base BaseFacts WsFrameModel WsRecvModel WsRecvProofs WsProps.
From Verif Require Import OnceModel.
Import ListNotations.
Open Scope Z_scope.

(** a call of the close callback *)
Definition closes_it (c : call) : bool := match c with CClose => true | _ => false end.
Definition times_closed (l : list call) : nat := length (filter closes_it l).

(** nothing fails on the side of the server *)
Definition fine (accepts : bool -> Z -> bool) (o : offer) : Prop :=
  o_alloc o = true /\ o_create o = true /\ o_headers o = true /\ o_alive o = true /\ o_thread o = true /\ accepts true 101 = true.
(** the callback took the request, or there is no default endpoint *)
Definition taken (o : offer) : Prop := 0 <= o_before o /\ (o_code o <> 1 \/ 0 < o_before o \/ o_default o = false).
(** the handshake succeeds *)
Definition shaken (o : offer) : Prop := o_init o = true /\ o_valid o = true /\ o_agreed o = true /\ o_key o = true /\ o_copy o = true.

Section Once.
Variable accepts : bool -> Z -> bool.
Variable alloc_ok : Z -> bool.
Variable ext_in : Z -> Z -> list Z -> option (list Z).
Variable rsv_expected : Z.
Notation talk := (talk alloc_ok ext_in rsv_expected).
Notation run := (run alloc_ok true ext_in rsv_expected).
Notation step := (step alloc_ok true ext_in rsv_expected).
Notation life := (life accepts alloc_ok ext_in rsv_expected).

(** the close callback comes last *)
Definition last_close (s : wst) : Prop := match w_phase s with PEnd => exists a, w_out s = a ++ [OnClose] /\ closes a = 0%nat | _ => closes (w_out s) = 0%nat end.
Lemma step_last : forall s i, once s -> last_close s -> last_close (step s i).
Proof.
  intros s i O L. unfold last_close in *. destruct (w_phase s) eqn:P.
  - pose proof (step_once alloc_ok true ext_in rsv_expected s i O) as O'. unfold once in O'. destruct (w_phase (step s i)) eqn:P'; try exact O'.
    exfalso. assert (X : closes (w_out s) = 0%nat) by (unfold once in O; now rewrite P in O). assert (P2 : w_phase (step s i) <> PEnd); [clear P' O'|contradiction]. unfold WsRecvModel.step. rewrite P.
    destruct (w_conn s && w_ok s); [|discriminate].
    assert (G : forall s', w_phase s' = PLoop -> w_phase (if i_gone i then set_conn s' false else s') = PLoop) by (intros s' H; destruct (i_gone i); exact H).
    rewrite G; [discriminate|]. destruct (i_close i).
    + destruct (wait_keeps alloc_ok true 11 (emit s (Send OP_CLOSE []))) as [_ Y]. revert Y. generalize (close_wait alloc_ok true 11 (emit s (Send OP_CLOSE []))). intros s' Y. cbn [set_conn w_phase]. rewrite Y. exact P.
    + destruct (data_available (w_in s) (w_conn s)) as [[a e] c]. destruct a; [|exact P]. destruct (read_message alloc_ok true _ _) as [[[r m] e2] c2]. destruct m as [m|]; [|exact P].
      destruct (handle_keeps ext_in rsv_expected (set_in (set_in s e c) e2 c2) m) as (_ & H & _). rewrite H. exact P.
  - unfold WsRecvModel.step. rewrite P. destruct (i_mgr i).
    + cbn [set_phase set_conn emit w_out w_phase]. eexists. split; [reflexivity|exact L].
    + destruct (i_gone i); cbn [set_conn w_phase w_out]; rewrite P; exact L.
  - unfold WsRecvModel.step. rewrite P, P. exact L.
Qed.
Lemma run_last : forall is s, once s -> last_close s -> last_close (run s is).
Proof. induction is as [|i is IH]; intros s O L; [exact L|]. apply IH; [now apply step_once|now apply step_last]. Qed.
Lemma talk_last : forall o, last_close (talk o).
Proof. intros o. unfold OnceModel.talk. apply run_last; destruct (o_manager o && negb (o_mthread o)); reflexivity. Qed.

Lemma calls_none : forall o l, closes l = 0%nat -> times_closed (flat_map (calls_of o) l) = 0%nat.
Proof.
  intros o l. unfold closes, times_closed. induction l as [|x l IH]; intros Z0; [reflexivity|]. cbn [flat_map]. rewrite filter_app, app_length.
  cbn [filter] in Z0. destruct x; cbn [is_close length calls_of] in *; try (apply IH; exact Z0); [|discriminate Z0]. destruct (o_incoming o); cbn [filter closes_it length Nat.add]; apply IH; exact Z0.
Qed.
Lemma taken_position : forall o, taken o -> (o_before o + (if o_code o =? 1 then 0 else 1) =? 0) && o_default o = false.
Proof.
  intros o (B & [N|[N|N]]); [| |rewrite N; apply andb_false_r]; apply andb_false_iff; left; apply Z.eqb_neq; [apply Z.eqb_neq in N; rewrite N; lia|destruct (o_code o =? 1); lia].
Qed.
Lemma fate_fine : forall o, fine accepts o -> taken o -> shaken o -> life o = Ret (opened alloc_ok ext_in rsv_expected o).
Proof.
  intros o (AL & CR & HE & LI & TH & AC) (B & TA) (IN & VA & AG & KE & CO). unfold OnceModel.life, greet. rewrite AL, IN, VA, AG, KE, CO, CR, HE. cbn [negb orb bind].
  pose proof (taken_position o (conj B TA)) as X.
  rewrite X, AC, LI, TH. cbn [negb app]. unfold opened. reflexivity.
Qed.

(** C129. A handshake that does not succeed: whatever the cause, the close callback is called once and no other callback of the websocket; the instance does not keep the websocket. *)
Theorem C129_refused : forall o, o_alloc o = true -> ~ shaken o -> life o = Ret (if o_close o then [CClose] else [], false).
Proof.
  intros o AL NS. unfold OnceModel.life, greet. rewrite AL. cbn [negb]. set (cl := if o_close o then [CClose] else []).
  assert (G : forall st, bind (Ret (cl, false, Some Page, false, st)) (fun g => let '(calls, active, answer, upgrade, status) := g in
    let position := o_before o + (if o_code o =? 1 then 0 else 1) in
    let answer := if (position =? 0) && o_default o then Some Page else answer in
    match answer with None => Ret (calls, active) | Some a =>
      let is_upgrade := match a with Upgrade _ => true | Page => false end in
      if accepts is_upgrade (if upgrade then 101 else status) then
        match a with Page => Ret (calls, active) | Upgrade cleared => if o_alive o then if cleared then UB UseAfterFree else if negb (o_thread o) then UB Uninit
          else Ret (calls ++ fst (opened alloc_ok ext_in rsv_expected o), snd (opened alloc_ok ext_in rsv_expected o)) else Ret (calls, active) end
      else Ret (calls, active) end) = Ret (cl, false)).
  { intros st. cbn [bind]. cbv zeta. destruct (_ && o_default o); destruct (accepts false st); reflexivity. }
  destruct (o_init o) eqn:IN; cbn [negb]; [|apply G]. destruct (o_valid o) eqn:VA; cbn [negb orb]; [|apply G]. destruct (o_agreed o) eqn:AG; cbn [negb orb]; [|apply G].
  destruct (o_key o) eqn:KE; cbn [negb orb]; [|apply G]. destruct (o_copy o) eqn:CO; cbn [negb orb]; [|apply G]. exfalso. apply NS. unfold shaken. auto.
Qed.

(** C129. A websocket that is opened: the close callback is called when the websocket ends, once, after every other call, and not before; the instance counts the websocket exactly as long. *)
Theorem C129_once_partial : forall o, fine accepts o -> taken o -> shaken o -> exists calls active, life o = Ret (calls, active) /\
  ((active = true /\ times_closed calls = 0%nat) \/
   (active = false /\ exists before, times_closed before = 0%nat /\ calls = before ++ if o_close o then [CClose] else [])).
Proof.
  intros o FI TA SH. rewrite (fate_fine o FI TA SH). unfold opened. eexists. eexists. split; [reflexivity|]. pose proof (talk_last o) as L. unfold last_close in L.
  assert (M : times_closed (if o_manager o && o_mthread o then [CManager] else []) = 0%nat) by (destruct (o_manager o && o_mthread o); reflexivity).
  assert (A : forall a b, times_closed (a ++ b) = (times_closed a + times_closed b)%nat) by (intros; unfold times_closed; now rewrite filter_app, app_length).
  destruct (w_phase (talk o)); [left; split; [reflexivity|]; rewrite A, M, (calls_none o _ L); reflexivity..|].
  right. split; [reflexivity|]. destruct L as (a & E & Z0). rewrite E, flat_map_app. eexists. split; [|rewrite app_assoc; f_equal; cbn [flat_map calls_of]; apply app_nil_r].
  rewrite A, M, (calls_none o _ Z0). reflexivity.
Qed.

(** C129. It does end: when the peer has said all it says (a schedule that is over is a connection that is gone) and the manager callback returns, the close callback has been called. *)
Theorem C129_ends_partial : forall evs, exists k, forall o is i js, fine accepts o -> taken o -> shaken o -> o_mthread o = true -> o_evs o = evs -> o_inps o = is ++ i :: js -> (k <= length is)%nat -> i_mgr i = true ->
  exists calls, life o = Ret (calls, false) /\ times_closed calls = if o_close o then 1%nat else 0%nat.
Proof.
  intros evs. destruct (C38_close_callback_runs alloc_ok true ext_in rsv_expected evs) as (k & H). exists k. intros o is i js FI TA SH MT EV IN L M.
  destruct (C129_once_partial o FI TA SH) as (calls & active & E & D). exists calls.
  specialize (H is i js L M). rewrite C38_close_callback_once in H.
  assert (AC : active = false).
  { rewrite (fate_fine o FI TA SH) in E. unfold opened in E. injection E as _ E. subst active. unfold OnceModel.talk. rewrite MT, andb_false_r, EV, IN. destruct (w_phase _); [discriminate H..|reflexivity]. }
  subst active. split; [exact E|]. destruct D as [[D _]|[_ (b & Z0 & ->)]]; [discriminate D|]. unfold times_closed in *. rewrite filter_app, app_length, Z0. destruct (o_close o); reflexivity.
Qed.

(** how a request may end: its handshake fails, or its websocket has ended *)
Definition over (o : offer) : Prop := o_close o = true /\ ((o_alloc o = true /\ ~ shaken o) \/ (fine accepts o /\ taken o /\ shaken o /\ w_phase (talk o) = PEnd)).
(** C129. Any number of such requests: each has had exactly one call of the close callback, the last of its calls, and the instance that is asked to stop does not wait. *)
Theorem C129_all_partial : forall l, Forall over l -> exists css, lives accepts alloc_ok ext_in rsv_expected l = Ret (css, 0) /\
  Forall2 (fun o cs => exists before, cs = before ++ [CClose] /\ times_closed before = 0%nat) l css.
Proof.
  induction 1 as [|o l (CL & OV) F (css & E & G)]; [exists []; split; [reflexivity|constructor]|].
  assert (X : exists cs before, life o = Ret (cs, false) /\ cs = before ++ [CClose] /\ times_closed before = 0%nat).
  { destruct OV as [[AL NS]|(FI & TA & SH & PE)].
    - exists [CClose], []. rewrite (C129_refused o AL NS), CL. auto.
    - destruct (C129_once_partial o FI TA SH) as (calls & active & E1 & D). rewrite (fate_fine o FI TA SH) in *. unfold opened in *. rewrite PE in *. injection E1 as E1 E2. subst calls active.
      destruct D as [[D _]|[_ (b & Z0 & D)]]; [discriminate D|]. rewrite CL in D. eexists. exists b. split; [reflexivity|]. auto. }
  destruct X as (cs & b & E1 & E2 & Z0). exists (cs :: css). cbn [lives]. rewrite E1. cbn [bind fst snd]. rewrite E. cbn [bind fst snd]. split; [reflexivity|]. constructor; [exists b; auto|exact G].
Qed.

(** C129, refuted when the struct _websocket cannot be allocated: ulfius.c:835-837 calls the close callback with the manager of a websocket that is NULL; without a close callback nothing is called; *)
Theorem C129_alloc_refuted : forall o, o_alloc o = false -> (o_close o = true -> life o = UB NullDeref) /\ (o_close o = false -> life o = Ret ([], false)).
Proof.
  intros o AL. unfold OnceModel.life, greet. rewrite AL. cbn [negb]. split; intro CL; rewrite CL; cbn [bind]; [reflexivity|]. cbv zeta.
  destruct (_ && o_default o); destruct (accepts false 500); reflexivity.
Qed.
(** C129, refuted when libmicrohttpd cannot make the response of the upgrade: ulfius.c:746-748 tells nobody, the close callback is never called (and the websocket is lost, C100_mhd_refuted); *)
Theorem C129_create_refuted : forall o, shaken o -> o_alloc o = true -> o_create o = false -> life o = Ret ([], false).
Proof.
  intros o (IN & VA & AG & KE & CO) AL CR. unfold OnceModel.life, greet. rewrite AL, IN, VA, AG, KE, CO, CR. cbn [negb orb bind]. cbv zeta. destruct (_ && o_default o); [|reflexivity]. destruct (accepts false (o_status o)); reflexivity.
Qed.
(** when libmicrohttpd does not upgrade: it refuses the response, or the client has gone before the answer is written. ulfius_start_websocket_cb is not called, and nothing else knows of the websocket: the
    close callback is never called and the websocket stays in the list of the instance, the stop of which waits for ever. A client that sends a handshake and closes its connection at once can cause it; *)
Theorem C129_gone_refuted : forall o, shaken o -> o_alloc o = true -> o_create o = true -> o_headers o = true -> (o_alive o = false \/ accepts true 101 = false) -> life o = Ret ([], true).
Proof.
  intros o (IN & VA & AG & KE & CO) AL CR HE G. unfold OnceModel.life, greet. rewrite AL, IN, VA, AG, KE, CO, CR, HE. cbn [negb orb bind]. cbv zeta. destruct (_ && o_default o); [destruct (accepts false 101); reflexivity|].
  destruct (accepts true 101) eqn:A; [|reflexivity]. destruct G as [-> |G]; [reflexivity|discriminate G].
Qed.
(** when the callback returns U_CALLBACK_IGNORE, no callback before it took the request and the instance has a default endpoint: the default endpoint is called as well, the upgrade is destroyed (ulfius.c:932-936), the page
    goes out with status 101 or not at all, and the websocket stays in the list as before; *)
Theorem C129_default_refuted : forall o, shaken o -> o_alloc o = true -> o_create o = true -> o_headers o = true -> o_before o = 0 -> o_code o = 1 -> o_default o = true -> life o = Ret ([], true).
Proof.
  intros o (IN & VA & AG & KE & CO) AL CR HE B C D. unfold OnceModel.life, greet. rewrite AL, IN, VA, AG, KE, CO, CR, HE, B, C, D. cbn [negb orb bind]. change (0 + (if 1 =? 1 then 0 else 1) =? 0) with true. cbv zeta. cbn [andb].
  destruct (accepts false 101); reflexivity.
Qed.
(** when a header of the response is refused by libmicrohttpd and the program has set the status 101: the websocket is cleared (ulfius.c:839), but the upgrade still is there and is queued with the status of the response
    (1032): libmicrohttpd calls ulfius_start_websocket_cb with a websocket that has been released; *)
Theorem C129_header_refuted : forall o, shaken o -> o_alloc o = true -> o_create o = true -> o_headers o = false -> taken o -> o_status o = 101 -> accepts true 101 = true -> o_alive o = true -> life o = UB UseAfterFree.
Proof.
  intros o (IN & VA & AG & KE & CO) AL CR HE (B & TA) ST AC LI. unfold OnceModel.life, greet. rewrite AL, IN, VA, AG, KE, CO, CR, HE. cbn [negb orb bind].
  pose proof (taken_position o (conj B TA)) as X.
  rewrite X, ST, AC, LI. reflexivity.
Qed.
(** what the callback returns is not looked at (ulfius.c:664): a callback that has set the websocket and then answers U_CALLBACK_UNAUTHORIZED or U_CALLBACK_ERROR refuses nobody, the websocket is opened all the same. *)
Theorem C129_code_refuted : forall o code, fine accepts o -> taken o -> shaken o -> code <> 1 ->
  life (mk_offer (o_before o) code (o_status o) (o_manager o) (o_incoming o) (o_close o) (o_default o) (o_alloc o) (o_init o) (o_valid o) (o_agreed o) (o_key o) (o_copy o) (o_create o) (o_headers o)
    (o_alive o) (o_thread o) (o_mthread o) (o_evs o) (o_inps o)) = life o.
Proof. intros o code FI TA SH N. rewrite (fate_fine o FI TA SH). rewrite fate_fine; [reflexivity|exact FI| |exact SH]. split; [exact (proj1 TA)|]. left. exact N. Qed.
End Once.

(** ** cases *)
(** libmicrohttpd: an upgrade goes out with 101 only, a page with any other status *)
Definition mhd_accepts (upgrade : bool) (status : Z) : bool := if upgrade then status =? 101 else negb (status =? 101).
Definition u_frames : list Z := [129; 130; 0; 0; 0; 0; 104; 105] ++ [136; 128; 0; 0; 0; 0].
Definition u_offer (alive : bool) : offer :=
  mk_offer 0 0 200 true true true true true true true true true true true true alive true true [RData (firstn 5 u_frames); RIdle; RData (skipn 5 u_frames)] (repeat (mk_inp false false false) 6 ++ [mk_inp false false true]).
Definition u_ext (op rsv : Z) (d : list Z) : option (list Z) := Some d.
Example C129_ex_hyps : fine mhd_accepts (u_offer true) /\ taken (u_offer true) /\ shaken (u_offer true) /\ w_phase (talk (fun _ => true) u_ext 0 (u_offer true)) = PEnd.
Proof. split; [repeat split|]. split; [split; [vm_compute; discriminate|left; discriminate]|]. split; [repeat split|]. vm_compute. reflexivity. Qed.
Example C129_ex : exists m, life mhd_accepts (fun _ => true) u_ext 0 (u_offer true) = Ret ([CManager; CMessage m; CClose], false) /\ m_data m = bs "hi".
Proof. eexists. split; vm_compute; reflexivity. Qed.
Example C129_ex_gone : lives mhd_accepts (fun _ => true) u_ext 0 [u_offer true; u_offer false; u_offer false] = Ret ([fst (opened (fun _ => true) u_ext 0 (u_offer true)); []; []], 2).
Proof. vm_compute. reflexivity. Qed.
Example C129_ex_refused : life mhd_accepts (fun _ => true) u_ext 0 (mk_offer 0 0 200 false true true true true true false true true true true true true true true [] []) = Ret ([CClose], false).
Proof. reflexivity. Qed.
Example C129_ex_header : life mhd_accepts (fun _ => true) u_ext 0 (mk_offer 0 0 101 false true true false true true true true true true true false true true true [] []) = UB UseAfterFree /\
  life mhd_accepts (fun _ => true) u_ext 0 (mk_offer 0 0 200 false true true false true true true true true true true false true true true [] []) = Ret ([CClose], false).
Proof. split; reflexivity. Qed.

Print Assumptions C129_refused.
Print Assumptions C129_once_partial.
Print Assumptions C129_ends_partial.
Print Assumptions C129_all_partial.
Print Assumptions C129_create_refuted.
Print Assumptions C129_gone_refuted.
Print Assumptions C129_default_refuted.
Print Assumptions C129_header_refuted.
Print Assumptions C129_code_refuted.
Print Assumptions C129_alloc_refuted.
