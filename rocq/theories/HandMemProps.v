(** C100: the memory of websockets opened by the server, also when allocations fail. *)
From Coq Require Import String ZArith Bool List Lia.
From Verif Require Import Base BaseFacts UMapModel OwnModel OwnSpec OwnProofs MapMemModel MapMemSpec MapMemProofs RespMemModel RespMemSpec RespMemProofs
  WsMemModel WsMemSpec WsMemProofs StrModel DeflateModel HandMemModel HandMemSpec HandMemProofs HandMemSteps.
Import ListNotations.
Open Scope Z_scope.

(** C100. A server makes responses, gives them extensions, and answers handshakes with them, any
    number at a time; the websockets that are opened end in any order. Each step comes with what
    o_malloc and o_strdup answer while it runs; where they may fail is said by [h_memory_ok]. For
    any functions of the extensions, no block is used after its release or released twice, and no
    member is read before it is written. A step does what it means, or, only if an allocation
    failed while it ran, it leaves what [a_hstep_fail] says. At the end the responses and the
    websockets show what the steps mean, and the blocks in use are exactly those reachable from
    them, each from one place only, and the blocks that nothing points to any more, as many as the
    specification counts. *)
Theorem C100_exact_partial : forall F ops, Forall (fun x => hop_ok (snd x) /\ h_memory_ok (snd x) (fst x)) ops ->
  exists cs s st gone, hrun F hstart ops = Ret (cs, s) /\ h_means F ([], []) ops cs st (List.length gone) /\
    read_hprog s = Ret st /\
    NoDup (hprog_blocks s ++ gone) /\ NoDup (h_live (m_heap (h_mem s))) /\
    (forall x, In x (h_live (m_heap (h_mem s))) <-> In x (hprog_blocks s ++ gone)).
Proof.
  intros F ops OK. destruct (hrun_ok F ops hstart ([], []) [] hpinv_start OK) as (cs & s & st & more & R & M & P).
  rewrite app_nil_r in P. exists cs, s, st, more. split; [exact R|]. split; [exact M|]. split; [eapply read_hprog_ok; exact P|].
  destruct P as (_ & _ & O). destruct (owns_spec _ _ (proj1 O)) as (A & B & C). auto.
Qed.
Print Assumptions C100_exact_partial.

(** C100. When every response was answered or released and every websocket has ended, the blocks
    still in use are as many as the specification counts as lost. *)
Theorem C100_released_partial : forall F ops cs s, Forall (fun x => hop_ok (snd x) /\ h_memory_ok (snd x) (fst x)) ops ->
  hrun F hstart ops = Ret (cs, s) -> h_resps s = [] -> h_wss s = [] -> h_means F ([], []) ops cs ([], []) (List.length (h_live (m_heap (h_mem s)))).
Proof.
  intros F ops cs s OK R E1 E2. destruct (C100_exact_partial F ops OK) as (cs1 & s1 & st & gone & R1 & M & D & N1 & N2 & I).
  rewrite R in R1. injection R1 as <- <-. unfold read_hprog in D. rewrite E1, E2 in D. injection D as <-.
  unfold hprog_blocks in N1, I. rewrite E1, E2 in N1, I. cbn [flat_map app] in N1, I.
  replace (List.length (h_live (m_heap (h_mem s)))) with (List.length gone); [exact M|].
  apply Nat.le_antisymm; apply NoDup_incl_length; auto; intros x X; now apply I.
Qed.
Print Assumptions C100_released_partial.

(** C100. When no extension has a function of its own and MHD gives its responses, nothing is lost,
    whatever the handshakes ask and wherever memory is missing: no block is in use when every
    response was answered or released and every websocket has ended. *)
Theorem C100_plain_partial : forall F ops, Forall (fun x => hop_ok (snd x) /\ h_memory_ok (snd x) (fst x)) ops -> Forall (fun x => plain_op F (snd x)) ops ->
  exists cs s, hrun F hstart ops = Ret (cs, s) /\ (h_resps s = [] -> h_wss s = [] -> h_live (m_heap (h_mem s)) = []).
Proof.
  intros F ops OK PL. destruct (C100_exact_partial F ops OK) as (cs & s & _ & _ & R & _). exists cs, s. split; [exact R|]. intros E1 E2.
  pose proof (C100_released_partial F ops cs s OK R E1 E2) as M. apply plain_run in M; [|split; constructor|exact PL]. now destruct (h_live (m_heap (h_mem s))).
Qed.
Print Assumptions C100_plain_partial.

(** C100. When there is memory and the extensions of every response use different bits, nothing is
    lost as long as every handshake that offers extensions is an upgrade, whatever the functions of
    the extensions say. *)
Theorem C100_careful_partial : forall F ops, Forall hop_ok ops -> careful F ([], []) ops ->
  exists cs s, hrun F hstart (map (pair []) ops) = Ret (cs, s) /\ (h_resps s = [] -> h_wss s = [] -> h_live (m_heap (h_mem s)) = []).
Proof.
  intros F ops OK CA. pose proof (rich_ok ops OK) as OK'. destruct (C100_exact_partial F _ OK') as (cs & s & _ & _ & R & _). exists cs, s. split; [exact R|]. intros E1 E2.
  pose proof (C100_released_partial F _ cs s OK' R E1 E2) as M. apply careful_run in M; [|split; constructor|exact CA]. now destruct (h_live (m_heap (h_mem s))).
Qed.
Print Assumptions C100_careful_partial.

(** ** cases *)
(** extension 0 is permessage-deflate with a zlib that always starts, extension 1 answers
    any offer, the others have no function *)
Definition deflate_match (e : str) (l : list str) : verdict :=
  match server_match_deflate (fun _ _ => true) e l None with
  | (0, Some t, Some _) => MYes t
  | _ => if starts EXT_DEFLATE e && first_param e l then MBad else MNo
  end.
Definition C100_F : matches_of := fun k => match k with 0%nat => Some deflate_match | 1%nat => Some (fun e _ => MYes e) | _ => None end.
Definition good (offer : option (list str)) : shake := mk_shake true offer (false, None) (false, None) true true true false true.
(** the client asks for a protocol the server does not have *)
Definition bad_protocol (offer : option (list str)) : shake := mk_shake true offer (false, None) (true, None) true true true false true.

(** a handshake with two extensions that are used and one that is not, one without extensions, one
    that is refused, a response without a handshake, one that waits; the first websocket ends *)
Definition C100_ops : list hop :=
  [HResponse; HExtend 0 (bs "permessage-deflate") 64 0; HExtend 0 (bs "lower") 32 2; HExtend 0 (bs "other") 16 3;
   HUpgrade 0 (good (Some [bs "permessage-deflate; client_max_window_bits=10"; bs "lower"]));
   HResponse; HUpgrade 0 (good None); HResponse; HExtend 0 (bs "lower") 32 2; HUpgrade 0 (bad_protocol None); HResponse; HDrop 0;
   HResponse; HExtend 0 (bs "lower") 32 2; HEnd 1].
Example C100_ex_ok : Forall hop_ok C100_ops /\ careful C100_F ([], []) C100_ops.
Proof.
  split; [repeat constructor|]. cbn [careful C100_ops].
  repeat (match goal with |- _ /\ _ => split end; [first [exact Logic.I|intros l E; cbv in E; injection E as <-; split; [unfold apart; cbn [map s_rsv]; repeat constructor|first [left; vm_compute; reflexivity|right; right; split; reflexivity]]]|]).
  exact Logic.I.
Qed.
Example C100_ex : exists s, hrun C100_F hstart (map (pair []) C100_ops) = Ret ([0; 0; 0; 0; 0; 0; 0; 0; 0; U_ERROR; 0; 0; 0; 0; 0], s) /\
  read_hprog s = Ret ([[mk_sext (Some (bs "lower")) None 32 2 false false]],
    [[mk_sext (Some (bs "permessage-deflate")) (Some (bs "permessage-deflate; client_max_window_bits=10")) 64 0 true true;
      mk_sext (Some (bs "lower")) (Some (bs "lower")) 32 2 true false; mk_sext (Some (bs "other")) None 16 3 false false]]).
Proof. eexists. split; vm_compute; reflexivity. Qed.
(** the extensions have no functions and memory is missing for a response, for the name of an
    extension, for the websocket, for its manager, for the text of the answer, for the copy of the
    request *)
Definition C100_poor : list (list bool * hop) :=
  [([false], HResponse); ([], HResponse); ([true; false], HExtend 0 (bs "a") 64 2); ([], HExtend 0 (bs "b") 32 2); ([false], HUpgrade 0 (good None));
   ([], HResponse); ([true; false], HUpgrade 0 (good None)); ([], HResponse); ([], HExtend 0 (bs "b") 32 2);
   ([true; true; true; true; false], HUpgrade 0 (good (Some [bs "b"]))); ([], HResponse); ([true; true; true; true; false], HUpgrade 0 (good None)); ([], HEnd 0)].
Example C100_ex_poor_ok : Forall (fun x => hop_ok (snd x) /\ h_memory_ok (snd x) (fst x)) C100_poor /\ Forall (fun x => plain_op C100_F (snd x)) C100_poor.
Proof. split; repeat apply Forall_cons; try apply Forall_nil; cbn; auto; try discriminate; split; auto; split; auto; discriminate. Qed.
Example C100_ex_poor : exists s, hrun C100_F hstart C100_poor = Ret ([U_ERROR_MEMORY; 0; 0; 0; U_ERROR; 0; U_ERROR; 0; 0; 0; 0; U_ERROR; 0], s) /\ h_resps s = [] /\ h_wss s = [] /\ h_live (m_heap (h_mem s)) = [].
Proof. eexists. split; [vm_compute; reflexivity|]. repeat split; vm_compute; reflexivity. Qed.

(** ** what is lost *)
(** one request: the server offers permessage-deflate, the client asks for it and for a protocol the
    server does not have *)
Definition C100_refused : list hop := [HResponse; HExtend 0 EXT_DEFLATE 64 0; HUpgrade 0 (bad_protocol (Some [EXT_DEFLATE]))].
Fixpoint times {A} (n : nat) (l : list A) : list A := match n with O => [] | S k => l ++ times k l end.
Lemma refused_lost : forall n cs st k, h_means C100_F ([], []) (map (pair []) (times n C100_refused)) cs st k -> k = n /\ cs = times n [U_OK; U_OK; U_ERROR] /\ st = ([], []).
Proof.
  induction n as [|n IH]; intros cs st k M; cbn [times] in *.
  - inversion M; subst. auto.
  - rewrite map_app in M. unfold C100_refused in M at 1. cbn [map app] in M.
    apply rich_step in M as (c1 & st1 & k1 & cs1 & n1 & E & M & -> & ->). vm_compute in E. injection E as <- <- <-.
    apply rich_step in M as (c1 & st1 & k1 & cs2 & n2 & E & M & -> & ->). vm_compute in E. injection E as <- <- <-.
    apply rich_step in M as (c1 & st1 & k1 & cs3 & n3 & E & M & -> & ->). vm_compute in E. injection E as <- <- <-.
    destruct (IH _ _ _ M) as (-> & -> & ->). auto.
Qed.
(** Refuted for handshakes that are refused after an extension was accepted: the context that
    websocket_extension_server_match_deflate made, with its two zlib streams, is only released with a
    websocket, but the list of the extensions is still in the response, and
    ulfius_free_websocket_extension does not release contexts. Any client that offers
    permessage-deflate and asks for a protocol the server does not have makes the server lose one
    context per request, without end. *)
Theorem C100_flood_refuted : forall n, exists s, hrun C100_F hstart (map (pair []) (times n C100_refused)) = Ret (times n [U_OK; U_OK; U_ERROR], s) /\
  h_resps s = [] /\ h_wss s = [] /\ List.length (h_live (m_heap (h_mem s))) = n.
Proof.
  intros n. assert (OK : Forall hop_ok (times n C100_refused)) by (induction n as [|n IH]; cbn [times]; [constructor|apply Forall_app; split; [repeat constructor|exact IH]]).
  destruct (hrun_ok C100_F _ hstart ([], []) [] hpinv_start (rich_ok _ OK)) as (cs & s & st & gone & R & M & P).
  pose proof (refused_lost n cs st _ M) as (_ & -> & ->). exists s. split; [exact R|].
  destruct P as (P1 & P2 & _). cbn [fst snd] in P1, P2. inversion P1 as [E1|]. inversion P2 as [E2|]. symmetry in E1, E2. split; [auto|]. split; [auto|].
  pose proof (C100_released_partial C100_F _ _ s (rich_ok _ OK) R ltac:(auto) ltac:(auto)) as M2. now apply refused_lost in M2 as (-> & _).
Qed.
Print Assumptions C100_flood_refuted.

(** the state after steps that all have memory *)
Definition after_hsteps (ops : list hop) (s : hprog) : Prop := exists cs, hrun C100_F hstart (map (pair []) ops) = Ret (cs, s).

(** Refuted for two extensions with functions that use the same bit: the second one is accepted by its
    function, which makes a context and a text, and is then not enabled. Its context is not released with
    the websocket; when the client offers the extension again, the function makes new ones and writes
    them over the first. The handshake is an upgrade; when the websocket has ended two contexts and
    a text are still in use. *)
Theorem C100_same_bit_refuted : exists s,
  after_hsteps [HResponse; HExtend 0 EXT_DEFLATE 64 0; HExtend 0 (bs "x") 64 1; HUpgrade 0 (good (Some [EXT_DEFLATE; bs "x"; bs "x"])); HEnd 0] s /\
  h_resps s = [] /\ h_wss s = [] /\ List.length (h_live (m_heap (h_mem s))) = 3%nat.
Proof. eexists. split; [eexists; vm_compute; reflexivity|]. repeat split; vm_compute; reflexivity. Qed.
Print Assumptions C100_same_bit_refuted.

(** Refuted when MHD_create_response_for_upgrade gives no response: the dispatcher answers an error and
    does nothing with the websocket, which stays in memory with its manager, its lists, its
    extensions and the copy of the request. *)
Theorem C100_mhd_refuted : exists s,
  after_hsteps [HResponse; HUpgrade 0 (mk_shake true None (false, None) (false, None) true false true false true)] s /\
  h_resps s = [] /\ h_wss s = [] /\ List.length (h_live (m_heap (h_mem s))) = 6%nat.
Proof. eexists. split; [eexists; vm_compute; reflexivity|]. repeat split; vm_compute; reflexivity. Qed.
Print Assumptions C100_mhd_refuted.

(** Refuted when the websocket has no memory and the endpoint has a websocket_onclose_callback: the
    dispatcher goes on to report the error and reads websocket->websocket_manager through NULL to
    call it. *)
Theorem C100_no_websocket_refuted : exists s, after_hsteps [HResponse] s /\
  hstep C100_F (h_answers s [false]) (HUpgrade 0 (mk_shake true None (false, None) (false, None) true true true true true)) = UB NullDeref.
Proof. eexists. split; [eexists; vm_compute; reflexivity|]. vm_compute. reflexivity. Qed.
Print Assumptions C100_no_websocket_refuted.

(** Refuted when pthread_create fails: ulfius_start_websocket_cb calls pthread_detach with the
    variable pthread_create did not write. *)
Theorem C100_no_thread_refuted : exists s, after_hsteps [HResponse] s /\
  hstep C100_F (h_answers s []) (HUpgrade 0 (mk_shake true None (false, None) (false, None) true true true false false)) = UB Uninit.
Proof. eexists. split; [eexists; vm_compute; reflexivity|]. vm_compute. reflexivity. Qed.
Print Assumptions C100_no_thread_refuted.
