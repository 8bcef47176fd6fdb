(** C101: the memory of websockets opened by a client. *)
From Coq Require Import String ZArith Bool List Lia.
From Verif Require Import Base StrModel UMapModel OwnModel OwnSpec OwnProofs MapMemModel MapMemSpec RespMemModel WsMemModel WsMemSpec HandMemModel HandMemSpec
  CliMemModel CliMemSpec CliMemSteps CliMemLoss.
Import ListNotations.
Open Scope Z_scope.
Open Scope list_scope.

(** C101, all programs with handlers of websocket clients, wherever an allocation fails: either the
    program misuses a handler, and that call reads through a pointer it must not, or no call does
    anything undefined, its codes and the handlers are what the specification says, and the blocks in use
    are exactly those of the handlers and as many others as the specification counts as lost.
    Partial: the copy of the request is one block, messages and the lists of the headers are left out, the
    threads of the websockets take turns with the program. *)
Theorem C101_exact_partial : forall E ops, Forall (fun x => cop_ok E (snd x)) ops ->
  exists r, c_means E [] ops r /\
    match r with
    | Misused => exists k, crun E cstart ops = UB k
    | Done cs st n =>
        exists s gone, crun E cstart ops = Ret (cs, s) /\ read_cprog s = Ret st /\ List.length gone = n /\
          NoDup (cprog_blocks s ++ gone) /\ NoDup (h_live (m_heap (q_mem s))) /\
          (forall x, In x (h_live (m_heap (q_mem s))) <-> In x (cprog_blocks s ++ gone))
    end.
Proof.
  intros E ops OK. destruct (crun_ok E ops cstart [] [] (cpinv_start E) OK) as [(cs & s & st & more & R & M & P)|((k & R) & M)].
  - exists (Done cs st (List.length more)). split; [exact M|]. rewrite app_nil_r in P. exists s, more. split; [exact R|]. split; [eapply read_cprog_ok; exact P|]. split; [reflexivity|].
    destruct P as (_ & O). destruct (owns_spec _ _ (proj1 O)) as (A & B & C). auto.
  - exists Misused. split; [exact M|]. eauto.
Qed.
Print Assumptions C101_exact_partial.

(** C101, when there is memory: the function [a_crun] says what happens. *)
Theorem C101_memory_partial : forall E ops, Forall (cop_ok E) ops ->
  match a_crun E [] ops with
  | None => exists k, crun E cstart (map (pair []) ops) = UB k
  | Some (cs, (st, n)) => exists s, crun E cstart (map (pair []) ops) = Ret (cs, s) /\ read_cprog s = Ret st /\
      List.length (h_live (m_heap (q_mem s))) = (List.length (cprog_blocks s) + n)%nat
  end.
Proof.
  intros E ops OK. destruct (C101_exact_partial E (map (pair []) ops)) as (r & M & R).
  { apply Forall_forall. intros x X. apply in_map_iff in X as (o & <- & X). cbn [snd]. rewrite Forall_forall in OK. auto. }
  rewrite (rich_crun E _ _ _ M). destruct r as [|cs st n]; [exact R|]. destruct R as (s & gone & R & RD & L & N1 & N2 & I). exists s. split; [exact R|]. split; [exact RD|].
  rewrite <- L, <- app_length. apply Nat.le_antisymm; apply NoDup_incl_length; auto; intros x X; now apply I.
Qed.
Print Assumptions C101_memory_partial.

(** no handler holds a websocket *)
Definition closed (s : cprog) : Prop := Forall (fun h => hand_blocks h = []) (q_hands s).
Lemma closed_blocks : forall s, closed s -> cprog_blocks s = [].
Proof. intros s H. unfold cprog_blocks. induction H as [|h l H _ IH]; [reflexivity|]. cbn [flat_map]. now rewrite H, IH. Qed.
(** C101. When every websocket was released, the blocks still in use are as many as the specification
    counts as lost. *)
Theorem C101_released_partial : forall E ops cs s, Forall (fun x => cop_ok E (snd x)) ops -> crun E cstart ops = Ret (cs, s) -> closed s ->
  exists st, c_means E [] ops (Done cs st (List.length (h_live (m_heap (q_mem s))))).
Proof.
  intros E ops cs s OK R CL. destruct (C101_exact_partial E ops OK) as ([|cs1 st n] & M & X); [destruct X as (k & X); congruence|].
  destruct X as (s1 & gone & R1 & _ & L & N1 & N2 & I). rewrite R in R1. injection R1 as <- <-. exists st. rewrite (closed_blocks _ CL) in N1, I. cbn [app] in N1, I.
  replace (List.length (h_live (m_heap (q_mem s)))) with n; [exact M|]. rewrite <- L. apply Nat.le_antisymm; apply NoDup_incl_length; auto; intros x X; now apply I.
Qed.
Print Assumptions C101_released_partial.

(** C101. Nothing is lost by a program that misuses no handler when no extension makes contexts, no
    handler is opened twice, the answers have the headers of a websocket once, and allocations fail in
    openings only: no block is in use when every websocket was released. *)
Theorem C101_plain_partial : forall E ops cs s, Forall (fun x => cop_ok E (snd x)) ops -> Forall (plain_cop E) ops -> NoDup (opened ops) ->
  crun E cstart ops = Ret (cs, s) -> closed s -> h_live (m_heap (q_mem s)) = [].
Proof.
  intros E ops cs s OK PL ND R CL. destruct (C101_released_partial E ops cs s OK R CL) as (st & M).
  apply plain_crun in M; [|exact PL|exact ND|constructor|intros i h _ N; destruct i; discriminate]. now destruct (h_live (m_heap (q_mem s))).
Qed.
Print Assumptions C101_plain_partial.

(** ** cases *)
(** functions 0 accept anything that starts with permessage-deflate and release their contexts,
    functions 1 refuse everything after they made a context, 2 accept by the name, 3 have a function that
    releases contexts and none that makes them, 4 accept everything *)
Definition C101_E : cenv :=
  mk_cenv (fun f => match f with
                    | 0%nat => Some (fun t => if starts (bs "permessage-deflate") t then MYes [] else MNo)
                    | 1%nat => Some (fun _ => MBad)
                    | 4%nat => Some (fun _ => MYes [])
                    | _ => None
                    end)
          (fun f => match f with 2%nat => false | _ => true end).
Definition answer (l : list header) : opening := mk_opening true true l true U_ERROR true.
Definition refused : opening := mk_opening true true [HOther (bs "Server") (bs "x")] false U_ERROR true.
Definition C101_ops : list cop :=
  [CNew; CNew; CExtend 0 (bs "permessage-deflate") 64 0; CExtend 0 (bs "no") 32 1; CExtend 0 (bs "lower") 16 2;
   COpen 0 (answer [HOther (bs "Upgrade") (bs "websocket"); HExts (bs " permessage-deflate; client_max_window_bits=10, lower"); HProt (bs " chat")]);
   CStatus 0; COpen 1 refused; CSignal 0; CWait 0 true; CNew; COpen 2 (answer []); CEnd 2; CStatus 2].
Example C101_ex_ok : Forall (cop_ok C101_E) C101_ops /\ a_crun C101_E [] C101_ops <> None.
Proof. split; [|vm_compute; discriminate]. repeat apply Forall_cons; try apply Forall_nil; cbn; auto; discriminate. Qed.
Example C101_ex : exists s, crun C101_E cstart (map (pair []) C101_ops) = Ret ([0; 0; 0; 0; 0; 0; STATUS_OPEN; U_ERROR; 0; STATUS_OPEN; 0; 0; 0; STATUS_CLOSE], s) /\
  read_cprog s = Ret [CLive (mk_cst [mk_cext (Some (bs "permessage-deflate")) (Some (bs " permessage-deflate; client_max_window_bits=10")) 64 0 true (Some true);
                                     mk_cext (Some (bs "no")) None 32 1 false (Some false); mk_cext (Some (bs "lower")) (Some (bs " lower")) 16 2 true None]
                             80 (Some (bs " chat")) (Some (bs " permessage-deflate; client_max_window_bits=10, lower")) true true);
                      CStale; CLive (mk_cst [] 0 None None true false)].
Proof. eexists. split; vm_compute; reflexivity. Qed.
(** memory is missing for the url, for the websocket, for its manager, for the copy of the request and for
    every text of the answer *)
Definition C101_poor : list (list bool * cop) :=
  [([], CNew); ([], CNew); ([], CNew); ([], CNew); ([false], COpen 0 (answer [])); ([true; false], COpen 1 (answer [])); ([true; true; false], COpen 2 (answer []));
   ([], CExtend 3 (bs "lower") 16 2);
   ([true; false; false; true; true; false; true; true; true; false], COpen 3 (answer [HOther (bs "a") (bs "b"); HProt (bs "p"); HExts (bs "lower")])); ([], CStatus 3); ([], CClose 3)].
Example C101_ex_poor_ok : Forall (fun x => cop_ok C101_E (snd x)) C101_poor /\ Forall (plain_cop C101_E) C101_poor /\ NoDup (opened C101_poor).
Proof.
  split; [repeat apply Forall_cons; try apply Forall_nil; cbn; auto; discriminate|]. split.
  - repeat apply Forall_cons; try apply Forall_nil; unfold plain_cop, once; cbn; auto.
  - unfold opened, C101_poor. cbn. repeat (constructor; [intros H; repeat (destruct H as [H|H]; [discriminate|]); exact H|]). constructor.
Qed.
Example C101_ex_poor : exists s, crun C101_E cstart C101_poor = Ret ([0; 0; 0; 0; U_ERROR_PARAMS; U_ERROR_MEMORY; U_ERROR_MEMORY; 0; 0; STATUS_OPEN; 0], s) /\ closed s /\ h_live (m_heap (q_mem s)) = [].
Proof. eexists. split; [vm_compute; reflexivity|]. split; [repeat constructor|vm_compute; reflexivity]. Qed.

(** ** what is lost *)
Lemma headers_again : forall n s v, has (t_prot s) = true -> exists s', a_headers s (repeat (HProt v) n) = (s', n) /\ t_exts s' = t_exts s /\ t_text s' = t_text s /\ t_req s' = t_req s /\ t_conn s' = t_conn s.
Proof.
  induction n as [|n IH]; intros s v H; cbn [repeat a_headers]; [exists s; auto|]. cbn [a_header].
  destruct (IH (mk_cst (t_exts s) (t_bits s) (Some v) (t_text s) (t_req s) (t_conn s)) v eq_refl) as (s' & R & X). rewrite R, H. exists s'. split; [reflexivity|]. exact X.
Qed.
(** Refuted for an answer that has the header Sec-WebSocket-Protocol more than once (the same holds for
    Sec-WebSocket-Extensions): the text of the manager is written without releasing the one before. A
    server that sends n + 1 of these lines makes the client lose n blocks, for every n, even when
    the client closes its websocket. *)
Theorem C101_lines_refuted : forall n, exists s,
  crun C101_E cstart (map (pair []) [CNew; COpen 0 (answer (repeat (HProt (bs "chat")) (S n))); CClose 0]) = Ret ([U_OK; U_OK; U_OK], s) /\ closed s /\ List.length (h_live (m_heap (q_mem s))) = n.
Proof.
  intros n. assert (OK : Forall (cop_ok C101_E) [CNew; COpen 0 (answer (repeat (HProt (bs "chat")) (S n))); CClose 0]) by (repeat constructor).
  pose proof (C101_memory_partial C101_E _ OK) as H. cbn [repeat] in *. unfold a_crun, a_cstep in H. cbn [cname nth_error app a_cstep1] in H. unfold a_open in H. cbn [answer o_url o_connect o_headers o_answer a_headers a_header] in H.
  destruct (headers_again n (mk_cst (t_exts (put_req fresh)) (t_bits (put_req fresh)) (Some (bs "chat")) (t_text (put_req fresh)) (t_req (put_req fresh)) (t_conn (put_req fresh))) (bs "chat") eq_refl) as (s' & R & X & T & _).
  rewrite R in H. unfold a_answer in H. cbn [put_conn t_text t_exts] in H. rewrite T in H. cbn [put_req fresh t_text t_req t_prot has one_if Nat.add] in H. cbn [set_nth nth_error app gone t_exts] in H.
  cbn [put_conn t_exts] in H. rewrite X in H. cbn [put_req fresh t_exts left_behind filter List.length] in H. destruct H as (s & RS & RD & L). exists s. split; [exact RS|].
  assert (CL : closed s).
  { unfold read_cprog in RD. unfold closed. destruct (q_hands s) as [|h [|h2 l]]; cbn [read_hands] in RD.
    - constructor.
    - constructor; [|constructor]. destruct h as [| |p w]; [reflexivity|reflexivity|]. exfalso. destruct (read_hand (q_mem s) (HWs p w)) as [x|] eqn:RH; [|discriminate]. cbn in RD. injection RD as ->.
      cbn [read_hand] in RH. destruct (h_use (m_heap (q_mem s)) p); [|discriminate]. cbn [bind] in RH. destruct (x_member (k_man w)) as [[g|]|]; [|discriminate|discriminate]. cbn [bind] in RH.
      repeat match type of RH with (bind ?e _ = _) => destruct e; [cbn [bind] in RH|discriminate] end. discriminate.
    - exfalso. destruct (read_hand (q_mem s) h); [|discriminate]. destruct (read_hand (q_mem s) h2); [|discriminate]. cbn [bind] in RD. destruct (read_hands (q_mem s) l); discriminate. }
  split; [exact CL|]. rewrite L, (closed_blocks _ CL). cbn [List.length Nat.add]. lia.
Qed.
Print Assumptions C101_lines_refuted.

(** the calls have memory *)
Definition after_csteps (ops : list cop) (cs : list Z) (s : cprog) : Prop := crun C101_E cstart (map (pair []) ops) = Ret (cs, s).
Definition undefined (ops : list (list bool * cop)) (k : ub_kind) : Prop := crun C101_E cstart ops = UB k.

(** Refuted for an extension that asks for a bit that is taken: its function made a context, the answer
    is refused, and the context is not released with the websocket because the extension is not
    used. *)
Theorem C101_same_bit_refuted : exists s,
  after_csteps [CNew; CExtend 0 (bs "permessage-deflate") 64 0; CExtend 0 (bs "x") 64 4; COpen 0 (answer [HExts (bs "permessage-deflate, x")])] [U_OK; U_OK; U_OK; U_ERROR] s /\
  closed s /\ List.length (h_live (m_heap (q_mem s))) = 1%nat.
Proof. eexists. split; [vm_compute; reflexivity|]. split; [repeat constructor|vm_compute; reflexivity]. Qed.
Print Assumptions C101_same_bit_refuted.

(** Refuted for a websocket that is opened again after its thread ended: the copy of the request, the
    texts of the answer and the list of headers are written over those of the first opening. *)
Theorem C101_open_twice_refuted : exists s,
  after_csteps [CNew; COpen 0 (answer [HProt (bs "chat")]); CEnd 0; COpen 0 (answer [HProt (bs "chat")]); CClose 0] [U_OK; U_OK; U_OK; U_OK; U_OK] s /\
  closed s /\ List.length (h_live (m_heap (q_mem s))) = 2%nat.
Proof. eexists. split; [vm_compute; reflexivity|]. split; [repeat constructor|vm_compute; reflexivity]. Qed.
Print Assumptions C101_open_twice_refuted.

(** Refuted when the list of extensions has no memory: ulfius_add_websocket_client_extension_message_perform
    answers U_ERROR_MEMORY and keeps the extension and its name. *)
Theorem C101_list_refuted : exists s,
  crun C101_E cstart [([], CNew); ([true; true; true; true; true; true; false], CExtend 0 (bs "x") 16 2); ([], CClose 0)] = Ret ([U_OK; U_ERROR_MEMORY; U_OK], s) /\
  closed s /\ List.length (h_live (m_heap (q_mem s))) = 2%nat.
Proof. eexists. split; [vm_compute; reflexivity|]. split; [repeat constructor|vm_compute; reflexivity]. Qed.
Print Assumptions C101_list_refuted.

(** ** what is undefined *)
(** Refuted for a handler whose websocket could not be opened (the server refuses the upgrade, say):
    ulfius_open_websocket_client_connection releases the websocket and leaves its address in the handler.
    Opening the handler again, closing it, or adding an extension reads released memory. *)
Theorem C101_reopen_refuted :
  undefined (map (pair []) [CNew; COpen 0 refused; COpen 0 (answer [])]) UseAfterFree /\ undefined (map (pair []) [CNew; COpen 0 refused; CClose 0]) UseAfterFree /\
  undefined (map (pair []) [CNew; COpen 0 refused; CExtend 0 (bs "x") 16 2]) UseAfterFree.
Proof. repeat split; vm_compute; reflexivity. Qed.
Print Assumptions C101_reopen_refuted.

(** Refuted for a handler that is closed twice, or looked at after it was closed:
    ulfius_websocket_client_connection_close leaves the address of the websocket it released in the handler. *)
Theorem C101_close_twice_refuted :
  undefined (map (pair []) [CNew; COpen 0 (answer []); CClose 0; CClose 0]) UseAfterFree /\ undefined (map (pair []) [CNew; COpen 0 (answer []); CClose 0; CStatus 0]) UseAfterFree /\
  undefined (map (pair []) [CNew; COpen 0 (answer []); CClose 0; COpen 0 (answer [])]) UseAfterFree.
Proof. repeat split; vm_compute; reflexivity. Qed.
Print Assumptions C101_close_twice_refuted.

(** Refuted for a handler that has no websocket: ulfius_websocket_client_connection_status,
    ulfius_websocket_client_connection_send_close_signal and ulfius_websocket_client_connection_wait_close read through the
    NULL pointer that ulfius_websocket_client_connection_wait_close itself leaves in the handler; only
    ulfius_websocket_client_connection_close looks for it. *)
Theorem C101_wait_twice_refuted :
  undefined (map (pair []) [CNew; COpen 0 (answer []); CWait 0 false; CWait 0 false]) NullDeref /\ undefined (map (pair []) [CNew; COpen 0 (answer []); CWait 0 false; CStatus 0]) NullDeref /\
  undefined (map (pair []) [CNew; CSignal 0]) NullDeref.
Proof. repeat split; vm_compute; reflexivity. Qed.
Print Assumptions C101_wait_twice_refuted.

(** Refuted when the manager of a new websocket has no memory:
    ulfius_add_websocket_client_extension_message_perform answers an error but leaves the websocket without manager in the
    handler, and the next call reads through its NULL pointer. *)
Theorem C101_no_manager_refuted :
  undefined [([], CNew); ([true; false], CExtend 0 (bs "x") 16 2); ([], CExtend 0 (bs "x") 16 2)] NullDeref /\
  undefined [([], CNew); ([true; false], CExtend 0 (bs "x") 16 2); ([], COpen 0 (answer []))] NullDeref.
Proof. split; vm_compute; reflexivity. Qed.
Print Assumptions C101_no_manager_refuted.

(** Refuted for an extension that is agreed on by its name and has a function to release contexts:
    the context that this function is given when the websocket is released was never written. *)
Theorem C101_no_match_refuted : undefined (map (pair []) [CNew; CExtend 0 (bs "x") 16 3; COpen 0 (answer [HExts (bs "x")]); CClose 0]) Uninit.
Proof. vm_compute. reflexivity. Qed.
Print Assumptions C101_no_match_refuted.

(** Refuted when pthread_create fails: pthread_detach is called with a thread that was never written. *)
Theorem C101_no_thread_refuted : undefined (map (pair []) [CNew; COpen 0 (mk_opening true true [] true U_ERROR false)]) Uninit.
Proof. vm_compute. reflexivity. Qed.
Print Assumptions C101_no_thread_refuted.
