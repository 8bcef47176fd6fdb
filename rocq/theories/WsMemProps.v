(** C99: the memory of websockets, also when allocations fail. *)
From Coq Require Import String ZArith Bool List Lia.
From Verif Require Import Base BaseFacts OwnModel OwnSpec OwnProofs MapMemModel MapMemSpec MapMemProofs RespMemModel RespMemSpec RespMemProofs
  WsMemModel WsMemSpec WsMemProofs WsMemCalls WsMemRecv WsMemSteps.
Import ListNotations.
Open Scope Z_scope.

(** C99. A program makes websockets of the server or of a client, gives them extensions, starts
    their threads, sends messages, in fragments or not, takes messages from the lists, closes and
    releases websockets, any number at a time, and the peers send any frames, whole or cut. Each
    step comes with what o_malloc and o_strdup answer while it runs; where they may fail is said by
    [w_memory_ok]. For any functions of the extensions and any answers of utf8_check, no block is
    used after its release or released twice, no member is read before it is written, no byte
    outside the data of a message is read. A step does what it means, or, only if an allocation
    failed while it ran, it leaves what [aw_step_fail] says. At the end the websockets show what the
    steps mean, and the blocks in use are exactly those reachable from the program, each from one
    place only, and the blocks of the extensions that no list could take, as many as the
    specification counts. *)
Theorem C99_exact_partial : forall E ops, Forall (fun x => wop_ok (snd x) /\ w_memory_ok (snd x) (fst x)) ops ->
  exists cs s st gone, wrun E wstart ops = Ret (cs, s) /\ aw_means E ([], []) ops cs st (List.length gone) /\
    read_wprog s = Ret st /\
    NoDup (wprog_blocks s ++ gone) /\ NoDup (h_live (m_heap (y_mem s))) /\
    (forall x, In x (h_live (m_heap (y_mem s))) <-> In x (wprog_blocks s ++ gone)).
Proof.
  intros E ops F. destruct (wrun_ok E ops wstart ([], []) [] wpinv_start F) as (cs & s & st & more & R & M & P).
  rewrite app_nil_r in P. exists cs, s, st, more. split; [exact R|]. split; [exact M|]. split; [eapply read_wprog_ok; exact P|].
  destruct P as (_ & _ & O). destruct (owns_spec _ _ (proj1 O)) as (A & B & C). auto.
Qed.
Print Assumptions C99_exact_partial.

(** C99. When every allocation has memory, every step does what it means. *)
Theorem C99_memory_partial : forall E ops, Forall wop_ok ops ->
  exists cs s, wrun E wstart (map (pair []) ops) = Ret (cs, s) /\
    cs = snd (fold_left (fun x o => (snd (aw_step E (fst x) o), snd x ++ [fst (aw_step E (fst x) o)])) ops (([], []), [])) /\
    read_wprog s = Ret (fold_left (fun st o => snd (aw_step E st o)) ops ([], [])).
Proof.
  intros E ops F. destruct (C99_exact_partial E (map (pair []) ops)) as (cs & s & st & gone & R & M & D & _).
  { apply Forall_forall. intros x X. apply in_map_iff in X as (o & <- & X). cbn [fst snd]. rewrite Forall_forall in F. split; [auto|].
    destruct o; cbn; auto. split; auto. }
  exists cs, s. split; [exact R|]. destruct (rich_means _ _ _ _ _ _ M []) as (E1 & E2 & _). cbn [app] in E1. rewrite D, <- E2. auto.
Qed.
Print Assumptions C99_memory_partial.

(** C99. Releasing the websockets, whether their threads run or not, and the messages taken from
    the lists leaves no block but those of the extensions that no list could take; so none at all
    when no extension is added. *)
Theorem C99_released_partial : forall E ops cs s, Forall (fun x => wop_ok (snd x) /\ w_memory_ok (snd x) (fst x)) ops -> wrun E wstart ops = Ret (cs, s) ->
  exists cs' s' st, wrun E s (repeat ([], WRelease 0) (List.length (y_wss s)) ++ repeat ([], WClear 0) (List.length (y_msgs s))) = Ret (cs', s') /\ Forall (eq U_OK) cs' /\
    aw_means E ([], []) ops cs st (List.length (h_live (m_heap (y_mem s')))) /\
    (Forall (fun x => no_extension (snd x)) ops -> h_live (m_heap (y_mem s')) = []).
Proof.
  intros E ops cs s F R. destruct (wrun_ok E ops wstart ([], []) [] wpinv_start F) as (cs1 & s1 & st & more & R1 & M & P).
  rewrite R in R1. injection R1 as <- <-. rewrite app_nil_r in P.
  destruct (wrelease_all E _ _ _ P) as (cs' & s' & R' & _ & _ & O & FC). exists cs', s', st. split; [exact R'|]. split; [exact FC|].
  destruct (owns_spec _ _ (proj1 O)) as (A & B & C).
  assert (LEN : List.length (h_live (m_heap (y_mem s'))) = List.length more) by (apply Nat.le_antisymm; apply NoDup_incl_length; auto; intros x X; now apply A).
  rewrite LEN. split; [exact M|]. intros NC. pose proof (no_extension_lost _ _ _ _ _ _ M NC) as Z. rewrite Z in LEN. now destruct (h_live (m_heap (y_mem s'))).
Qed.
Print Assumptions C99_released_partial.

(** extension 0 puts a byte before the data and takes it away, extension 1 refuses, and the byte 255
    is not UTF-8 *)
Definition C99_env : env :=
  mk_env (fun k d => if (k =? 0)%nat then Some (7 :: d) else None) (fun k d => match d with x :: r => if (k =? 0)%nat && (x =? 7) then Some r else None | [] => None end)
    (fun d => negb (existsb (Z.eqb 255) d)).
Definition whole (op : Z) (rsv : Z) (fin : bool) (d : list Z) : frame := mk_frame op rsv fin d Whole.
(** a websocket of a client with an extension: a message in two frames, a ping, a message in two
    fragments that went through the extension, a text that is not UTF-8; a websocket of the server
    that is closed while a frame with data comes; the first message of each list is taken *)
Definition C99_ops : list wop :=
  [WNew false true; WExtension 0 (bs "x") 64 0; WEnable 0 0; WConnect 0; WSend 0 1 (bs "hey") 2; WFrame 0 (whole 9 0 true (bs "p"));
   WFrame 0 (whole 1 64 false (7 :: bs "a")); WFrame 0 (whole 0 0 true (bs "b")); WFrame 0 (whole 1 0 true (bs "c"));
   WNew true true; WConnect 1; WKeep 1 true false; WSend 1 2 [] 0; WFrame 1 (whole 2 0 true [0; 255]); WPop 1 true;
   WPop 0 true; WPop 0 false; WFrame 0 (whole 1 0 true [255]); WSend 0 1 (bs "no") 0; WClose 1 [None; Some (whole 2 0 true [1]); Some (whole 8 0 true [])]].
Example C99_ex_ok : Forall wop_ok C99_ops.
Proof. repeat constructor; cbn; discriminate. Qed.
Example C99_ex : exists s, wrun C99_env wstart (map (pair []) C99_ops) = Ret (repeat U_OK 18 ++ [U_ERROR_PARAMS; U_OK], s) /\
  read_wprog s = Ret
    ([mk_aws false false [(1, bs "c")] [(0, bs "p")] true true [mk_aext (Some (bs "x")) 64 0 true] None], [(2, [0; 255]); (1, bs "ab"); (0, 7 :: bs "hey")]).
Proof. eexists. split; [vm_compute; reflexivity|]. vm_compute. reflexivity. Qed.
(** memory is missing for a websocket, for the list of an extension, for its name, for the data of a
    message to send, for a frame, for the buffer of a frame of the peer, and for the answer to a ping *)
Definition C99_poor : list (list bool * wop) :=
  [([true; false], WNew true true); ([], WNew false true); ([true; true; true; false], WNew false true); ([true; true; false], WExtension 0 (bs "x") 64 0);
   ([true; false], WExtension 0 (bs "x") 64 0); ([], WConnect 0); ([false], WSend 0 2 (bs "abc") 0); ([true; true; true; false], WSend 0 2 (bs "abc") 0);
   ([true; false], WFrame 0 (whole 1 0 true (bs "a"))); ([], WConnect 0); ([true; true; true; false], WFrame 0 (whole 9 0 true (bs "p")))].
Example C99_ex_poor_ok : Forall (fun x => wop_ok (snd x) /\ w_memory_ok (snd x) (fst x)) C99_poor.
Proof. repeat apply Forall_cons; try apply Forall_nil; split; cbn; auto; try discriminate; split; auto. Qed.
Example C99_ex_poor : exists s, wrun C99_env wstart C99_poor = Ret ([U_ERROR_MEMORY; U_OK; U_ERROR_MEMORY; U_ERROR_MEMORY; U_OK; U_OK; U_ERROR_MEMORY; U_ERROR_MEMORY; U_OK; U_OK; U_OK], s) /\
  read_wprog s = Ret ([mk_aws false false [] [(2, bs "abc")] true true [mk_aext None 64 0 false] None], []) /\
  List.length (h_live (m_heap (y_mem s))) = (List.length (wprog_blocks s) + 2)%nat.
Proof. eexists. split; [vm_compute; reflexivity|]. split; vm_compute; reflexivity. Qed.

(** the state after some steps that all have memory *)
Definition after_wcalls (ops : list wop) (s : wprog) : Prop := exists cs, wrun C99_env wstart (map (pair []) ops) = Ret (cs, s) /\ Forall (eq U_OK) cs.
Ltac wcalls := eexists; split; [vm_compute; reflexivity|repeat constructor].
(** the next o_realloc has no memory *)
Definition no_growth (s : wprog) : wprog := mk_wprog (mk_mem (m_heap (y_mem s)) [] [false]) (y_wss s) (y_msgs s).

(** Refuted when the list of incoming messages has no memory: ulfius_init_websocket_manager goes to
    the end, where it releases message_list_outcoming, which was never written. *)
Theorem C99_init_list_refuted : wstep C99_env (w_answers wstart [true; true; false]) (WNew false true) = UB Uninit.
Proof. vm_compute. reflexivity. Qed.
Print Assumptions C99_init_list_refuted.

(** Refuted when a mutex or the condition cannot be made: ulfius_init_websocket_manager releases
    both lists before either was written. *)
Theorem C99_init_locks_refuted : wstep C99_env wstart (WNew false false) = UB Uninit.
Proof. vm_compute. reflexivity. Qed.
Print Assumptions C99_init_locks_refuted.

(** Refuted when the array of a list cannot grow: ulfius_push_websocket_message writes NULL over
    the only pointer to it and keeps the length. The message was sent and the call answers U_OK, but
    the message and the messages kept before are lost. Taking a message from the list goes through
    NULL; releasing the websocket keeps its close message after a place of the new array that was
    never written, and reads that place. *)
Theorem C99_push_refuted : exists s s',
  after_wcalls [WNew false true; WConnect 0; WSend 0 1 (bs "a") 0] s /\ wstep C99_env (no_growth s) (WSend 0 1 (bs "b") 0) = Ret (U_OK, s') /\
  (List.length (wprog_blocks s') < List.length (h_live (m_heap (y_mem s'))))%nat /\
  wstep C99_env s' (WPop 0 false) = UB NullDeref /\ wstep C99_env s' (WRelease 0) = UB Uninit.
Proof.
  do 2 eexists. split; [wcalls|]. split; [vm_compute; reflexivity|]. split; [vm_compute; repeat constructor|]. split; vm_compute; reflexivity.
Qed.
Print Assumptions C99_push_refuted.

(** Refuted when the array of a list cannot shrink: ulfius_websocket_pop_first_message does not look
    at the result of o_realloc; the messages left are lost, and the next call goes through NULL. *)
Theorem C99_pop_refuted : exists s s',
  after_wcalls [WNew false true; WConnect 0; WSend 0 1 (bs "a") 0; WSend 0 1 (bs "b") 0] s /\ wstep C99_env (no_growth s) (WPop 0 false) = Ret (U_OK, s') /\
  (List.length (wprog_blocks s') < List.length (h_live (m_heap (y_mem s'))))%nat /\ wstep C99_env s' (WPop 0 false) = UB NullDeref.
Proof. do 2 eexists. split; [wcalls|]. split; [vm_compute; reflexivity|]. split; [vm_compute; repeat constructor|]. vm_compute; reflexivity. Qed.
Print Assumptions C99_pop_refuted.

(** Refuted when the data of a message in fragments cannot grow: ulfius_merge_fragmented_message
    writes NULL over the only pointer to it, and no release of the websocket gives its block back. *)
Theorem C99_merge_refuted : exists s s' s'',
  after_wcalls [WNew false true; WConnect 0; WFrame 0 (whole 1 0 false (bs "a"))] s /\ wstep C99_env (no_growth s) (WFrame 0 (whole 0 0 true (bs "b"))) = Ret (U_OK, s') /\
  wstep C99_env s' (WRelease 0) = Ret (U_OK, s'') /\ y_wss s'' = [] /\ List.length (h_live (m_heap (y_mem s''))) = 1%nat.
Proof. do 3 eexists. split; [wcalls|]. split; [vm_compute; reflexivity|]. split; [vm_compute; reflexivity|]. split; reflexivity. Qed.
Print Assumptions C99_merge_refuted.

(** Refuted when there is no memory for a message of the peer: ulfius_read_incoming_message answers
    U_OK and no message, and the thread reads the opcode through NULL. *)
Theorem C99_no_message_refuted : exists s, after_wcalls [WNew true true; WConnect 0] s /\ wstep C99_env (w_answers s [false]) (WFrame 0 (whole 9 0 true [])) = UB NullDeref.
Proof. eexists. split; [wcalls|]. vm_compute. reflexivity. Qed.
Print Assumptions C99_no_message_refuted.

(** Refuted when there is no memory for the data of a message of the peer: the result of o_malloc is
    not looked at and the bytes are written through NULL. *)
Theorem C99_no_data_refuted : exists s, after_wcalls [WNew true true; WConnect 0] s /\ wstep C99_env (w_answers s [true; true; false]) (WFrame 0 (whole 9 0 true [1])) = UB NullDeref.
Proof. eexists. split; [wcalls|]. vm_compute. reflexivity. Qed.
Print Assumptions C99_no_data_refuted.

(** Refuted, with memory: ulfius_clear_websocket_message_list, a function of the interface, releases
    the array and does not reset the length. A second call, taking a message, or releasing the
    websocket goes through NULL. *)
Theorem C99_clear_list_refuted : exists s p g m l,
  after_wcalls [WNew false true; WConnect 0; WSend 0 1 (bs "a") 0] s /\ (do v <- aget (y_wss s) 0; the_man (y_mem s) v) = Ret (p, g) /\
  (do o <- x_member (g_out g); x_clear_list (y_mem s) o) = Ret (m, l) /\ x_clear_list m l = UB NullDeref /\ x_pop m l = UB NullDeref /\
  x_clear_man m (with_out g l) = UB NullDeref.
Proof.
  do 5 eexists. split; [wcalls|]. split; [vm_compute; reflexivity|]. split; [vm_compute; reflexivity|]. split; [vm_compute; reflexivity|]. split; vm_compute; reflexivity.
Qed.
Print Assumptions C99_clear_list_refuted.

(** Refuted when there is no memory for the list of extensions: the extension that was just made is
    in no list, and its two blocks are never released. *)
Theorem C99_extension_refuted : exists s s' s'',
  after_wcalls [WNew false true] s /\ wstep C99_env (w_answers s [true; true; false]) (WExtension 0 (bs "x") 64 0) = Ret (U_ERROR_MEMORY, s') /\
  wstep C99_env s' (WRelease 0) = Ret (U_OK, s'') /\ y_wss s'' = [] /\ List.length (h_live (m_heap (y_mem s''))) = 2%nat.
Proof. do 3 eexists. split; [wcalls|]. split; [vm_compute; reflexivity|]. split; [vm_compute; reflexivity|]. split; reflexivity. Qed.
Print Assumptions C99_extension_refuted.
