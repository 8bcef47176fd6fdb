(** C115: several threads of a program send on one websocket. *)
From Coq Require Import String ZArith Bool List Lia.
From Verif Require Import Base BaseFacts Utf8Spec Utf8Proofs WsFrameModel WsRecvModel WsSpec WsRecvSpec WsProps WsSendModel WsSendSpec
  ExtModel ExtSpec ExtProps TalkModel TalkSpec TalkProofs TalkProps TalkExtModel TalkExtSpec TalkExtProofs TalkExtProps.
From Verif Require Import CrowdModel CrowdSpec CrowdProofs.
Import ListNotations.
Open Scope Z_scope.

Lemma all_bits : forall C exts, (forall e, In e exts -> exists k, 0 <= k < 8 /\ e_rsv e = 16 * k) -> Forall (bit_ok C (-1)) exts.
Proof. intros C exts H. apply Forall_forall. intros e I. split; [exact (H e I)|]. intros _. apply Z.land_m1_l. Qed.

(** C115. Whatever the threads do at once and whatever memory the extensions have, no call fails and no message is torn: what goes out is one whole frame after the other, each the frame of one message; the messages of one
    thread go out in their order, and what is not sent yet is what the thread still has to send. *)
Theorem C115_whole : forall C out_perform alloc_ok server exts progs acts, (forall n, alloc_ok n = true) -> (forall e, In e exts -> exists k, 0 <= k < 8 /\ e_rsv e = 16 * k) ->
  Forall (Forall (accepted C out_perform alloc_ok server exts)) progs ->
  exists s parts ws, run C out_perform alloc_ok server (begin C exts progs) acts = Ret s /\ k_conn s = true /\ sent_parts progs parts (k_threads s) /\ merged parts (map fst (k_sent s)) /\
    List.concat (k_wire s) = block_of (List.concat ws) /\
    Forall2 (fun x w => exists key, (key <> None <-> server = false) /\ wire (mk_frame true (fst (snd x)) (snd (fst (fst x))) key (snd (snd x))) w) (k_sent s) ws.
Proof.
  intros C out_perform alloc_ok server exts progs acts AL RO ACC. pose proof (all_bits _ _ RO) as BO.
  destruct (run_i C out_perform alloc_ok AL (-1) server exts progs ACC BO acts _ (inv_begin C server exts progs)) as (s & E & CO & _ & _ & parts & ws & wm & SP & ME & WI & FW & ST).
  exists s, parts, ws. split; [exact E|]. split; [exact CO|]. split; [exact SP|]. split; [exact ME|]. split; [exact WI|].
  clear -FW ST. remember (k_sent s) as l. clear Heql s. revert wm ws FW ST. induction l as [|[x [rsv d]] l IH]; intros wm ws FW ST; cbn [map] in ST.
  - inversion ST; subst. inversion FW. constructor.
  - inversion ST as [|? ? m ? ? ms (MO & MR & MD & OG & HM & _) ST']; subst. inversion FW as [|? w ? ws' WW W']; subst. constructor; [|eapply IH; eauto].
    exists (if m_has_mask m then Some (m_mask m) else None). cbn [msg fst snd] in *. split; [rewrite HM; destruct server; cbn; split; congruence|]. rewrite <- MO, <- MR, <- MD. exact WW.
Qed.

(** C115. Without extensions the other end notices exactly the messages that were sent, in the order in which they went out, which is an order of every thread. *)
Theorem C115_plain : forall C out_perform in_perform alloc_ok server rx progs acts, (forall n, alloc_ok n = true) ->
  Forall (Forall (fun x => sendable (snd (fst x)) (snd x) /\ fortunate server (fst (fst x)) (snd x))) progs ->
  exists s parts w, run C out_perform alloc_ok server (begin C [] progs) acts = Ret s /\ sent_parts progs parts (k_threads s) /\ merged parts (map fst (k_sent s)) /\ List.concat (k_wire s) = block_of w /\
    forall evs, calm evs -> stream evs = w -> exists k, forall is, Forall undisturbed is -> (k <= length is)%nat ->
      map bare (seen (fst (run_x C in_perform alloc_ok (negb server) rx (start evs, []) is))) = flat_map (fun x => expected (snd (fst x)) (snd x)) (map fst (k_sent s)).
Proof.
  intros C out_perform in_perform alloc_ok server rx progs acts AL OK.
  assert (ACC : Forall (Forall (accepted C out_perform alloc_ok server [])) progs).
  { eapply Forall_impl; [|exact OK]. intros p F. eapply Forall_impl; [|exact F]. intros x (SE & FO). split; [exact SE|]. intros l ret rsv d l' L O. inversion L; subst. unfold out_message in O. rewrite AL in O. cbn [negb] in O.
    rewrite andb_false_r in O. change (negb (zlen (@nil (ext C)) =? 0)) with false in O. cbn [andb] in O. injection O as <- <- <- <-. destruct SE as (B & L0 & _). auto. }
  assert (BO : Forall (bit_ok C rx) (@nil (ext C))) by constructor.
  destruct (run_m C out_perform alloc_ok AL rx server [] progs ACC BO acts _ (Forall_nil _) (inv_begin C server [] progs) (begin_m C out_perform [] progs)) as (s & E & (CO & _ & _ & parts & ws & wm & SP & ME & WI & FW & ST) & (mid & _ & SF & _)).
  exists s, parts, (List.concat ws). split; [exact E|]. split; [exact SP|]. split; [exact ME|]. split; [exact WI|]. intros evs CA S.
  eapply (arrives C out_perform in_perform alloc_ok AL rx server [] BO); eauto; try constructor. eapply so_far_in_step; eauto.
Qed.

(** C115, partial: with extensions that keep contexts, when no two threads are in the middle of sending data messages at once (pings and pongs may be sent at any moment). Missing: the program has to see to this itself, the library
    has no lock around the extensions ([C115_order_refuted], [C115_inside_refuted]). *)
Theorem C115_alone_partial : forall C out_perform in_perform alloc_ok server rx exts exts' progs acts, (forall n, alloc_ok n = true) ->
  Forall2 (paired C out_perform in_perform) exts exts' -> bits_apart C exts -> Forall (fun e => e_in_data e = e_out_data e) exts' ->
  (forall e, In e exts -> (exists k, 0 <= k < 8 /\ e_rsv e = 16 * k) /\ (e_enabled e = true -> Z.land rx (e_rsv e) = e_rsv e)) ->
  Forall (Forall (accepted C out_perform alloc_ok server exts)) progs -> alone_all C out_perform alloc_ok server (begin C exts progs) acts ->
  exists s parts w, run C out_perform alloc_ok server (begin C exts progs) acts = Ret s /\ sent_parts progs parts (k_threads s) /\ merged parts (map fst (k_sent s)) /\ List.concat (k_wire s) = block_of w /\
    forall evs, calm evs -> stream evs = w -> exists k, forall is, Forall undisturbed is -> (k <= length is)%nat ->
      map bare (seen (fst (run_x C in_perform alloc_ok (negb server) rx (start evs, exts') is))) = flat_map (fun x => expected (snd (fst x)) (snd x)) (map fst (k_sent s)).
Proof.
  intros C out_perform in_perform alloc_ok server rx exts exts' progs acts AL P A UD BI ACC AO. assert (BO : Forall (bit_ok C rx) exts) by (apply Forall_forall; exact BI).
  destruct (run_a C out_perform alloc_ok AL rx server exts progs ACC BO acts _ (inv_begin C server exts progs) (begin_a C out_perform exts progs) AO) as (s & E & (CO & _ & _ & parts & ws & wm & SP & ME & WI & FW & ST) & (mid & SF & _)).
  exists s, parts, (List.concat ws). split; [exact E|]. split; [exact SP|]. split; [exact ME|]. split; [exact WI|]. intros evs CA S.
  eapply (arrives C out_perform in_perform alloc_ok AL rx server exts BO); eauto. eapply so_far_in_step; eauto.
Qed.

(** C115, partial: with extensions that make the same data of a message whatever came before (as permessage-deflate when the context is not kept), in every interleaving. Missing: two threads are in the functions of an extension at
    once ([C115_inside_refuted]), so that these must not share memory; the deflate extension of the library does. *)
Theorem C115_memoryless_partial : forall C out_perform in_perform alloc_ok server rx exts exts' progs acts, (forall n, alloc_ok n = true) ->
  Forall2 (paired C out_perform in_perform) exts exts' -> bits_apart C exts -> Forall (fun e => e_in_data e = e_out_data e) exts' ->
  (forall e, In e exts -> (exists k, 0 <= k < 8 /\ e_rsv e = 16 * k) /\ (e_enabled e = true -> Z.land rx (e_rsv e) = e_rsv e)) ->
  Forall (Forall (accepted C out_perform alloc_ok server exts)) progs -> Forall (memoryless C out_perform) exts ->
  exists s parts w, run C out_perform alloc_ok server (begin C exts progs) acts = Ret s /\ sent_parts progs parts (k_threads s) /\ merged parts (map fst (k_sent s)) /\ List.concat (k_wire s) = block_of w /\
    forall evs, calm evs -> stream evs = w -> exists k, forall is, Forall undisturbed is -> (k <= length is)%nat ->
      map bare (seen (fst (run_x C in_perform alloc_ok (negb server) rx (start evs, exts') is))) = flat_map (fun x => expected (snd (fst x)) (snd x)) (map fst (k_sent s)).
Proof.
  intros C out_perform in_perform alloc_ok server rx exts exts' progs acts AL P A UD BI ACC ML. assert (BO : Forall (bit_ok C rx) exts) by (apply Forall_forall; exact BI).
  destruct (run_m C out_perform alloc_ok AL rx server exts progs ACC BO acts _ ML (inv_begin C server exts progs) (begin_m C out_perform exts progs)) as (s & E & (CO & _ & _ & parts & ws & wm & SP & ME & WI & FW & ST) & (mid & _ & SF & _)).
  exists s, parts, (List.concat ws). split; [exact E|]. split; [exact SP|]. split; [exact ME|]. split; [exact WI|]. intros evs CA S.
  eapply (arrives C out_perform in_perform alloc_ok AL rx server exts BO); eauto. eapply so_far_in_step; eauto.
Qed.

(** ** cases *)
Definition q_progs : list (list (chance * Z * list Z)) := [[(ex_chance, 1, bs "hello"); (ex_chance, 9, [7; 8])]; [(ex_chance, 2, [5])]].
Lemma q_fortunate : forall server d, (length d <= 26)%nat -> fortunate server ex_chance d.
Proof.
  intros server d L. split; [apply Forall_forall; intros e I; apply repeat_spec in I; subst; split; [reflexivity|exists 3; split; [reflexivity|lia]]|].
  split; [cbn; lia|]. split; [reflexivity|]. intros _. exists [1; 2; 3; 250]. repeat split; repeat constructor; lia.
Qed.
Lemma q_sendable : forall p x, In p q_progs -> In x p -> sendable (snd (fst x)) (snd x) /\ fst (fst x) = ex_chance /\ (length (snd x) <= 5)%nat.
Proof.
  intros p x [<-|[<-|[]]] I; [destruct I as [<-|[<-|[]]]|destruct I as [<-|[]]]; (split; [|split; [reflexivity|cbn; lia]]); cbn [fst snd].
  - split; [repeat constructor; lia|]. split; [reflexivity|]. left. split; [reflexivity|]. apply Utf8Proofs.utf8_valid_spec; [repeat constructor; lia|]. vm_compute. reflexivity.
  - split; [repeat constructor; lia|]. split; [reflexivity|]. right. right. split; [auto|]. discriminate.
  - split; [repeat constructor; lia|]. split; [reflexivity|]. right. left. reflexivity.
Qed.
(** what the two extensions of TalkExtProps make of a message, whatever their contexts are *)
Lemma q_accepted : forall server, Forall (Forall (accepted Z z_out (fun _ => true) server z_list)) q_progs.
Proof.
  intros server. apply Forall_forall. intros p IP. apply Forall_forall. intros x IX. destruct (q_sendable p x IP IX) as (SE & CH & LE). split; [exact SE|].
  intros l ret rsv d l' L O. rewrite CH. inversion L as [|? e1 ? l1 (c1 & ->) L1]; subst. inversion L1 as [|? e2 ? l2 (c2 & ->) L2]; subst. inversion L2 as [|? e3 ? l3 (c3 & ->) L3]; subst. inversion L3; subst. clear L L1 L2 L3.
  destruct x as [[ch op] data]. cbn [fst snd] in *. destruct SE as (B & LD & SE). unfold out_message in O. cbn [negb andb] in O. rewrite andb_false_r in O.
  assert (LZ : forall k : list Z, (length k <= 7)%nat -> zlen k < 4294967296) by (intros k LK; unfold zlen; lia).
  destruct ((op =? OP_BINARY) || (op =? OP_TEXT)).
  - cbn in O. unfold z_out in O. change (1 =? 1) with true in O. change (2 =? 1) with false in O. cbv iota beta in O. injection O as <- <- <- <-. split; [reflexivity|]. split; [|split; [apply LZ; cbn; lia|apply q_fortunate; cbn; lia]].
    constructor; [lia|]. constructor; [apply Z.mod_pos_bound; lia|exact B].
  - rewrite andb_false_r in O. injection O as <- <- <- <-. split; [reflexivity|]. split; [exact B|]. split; [apply LZ; lia|apply q_fortunate; lia].
Qed.
Example C115_whole_hyps : (forall e, In e z_list -> exists k, 0 <= k < 8 /\ e_rsv e = 16 * k) /\ Forall (Forall (accepted Z z_out (fun _ => true) true z_list)) q_progs.
Proof. split; [|apply q_accepted]. intros e [<-|[<-|[<-|[]]]]; [exists 4|exists 1|exists 2]; split; try reflexivity; lia. Qed.
Example C115_plain_hyps : Forall (Forall (fun x => sendable (snd (fst x)) (snd x) /\ fortunate true (fst (fst x)) (snd x))) q_progs.
Proof. apply Forall_forall. intros p IP. apply Forall_forall. intros x IX. destruct (q_sendable p x IP IX) as (SE & CH & LE). split; [exact SE|]. rewrite CH. apply q_fortunate. lia. Qed.
(** the other hypotheses are those of [C90_extensions_hyps]; the second thread begins when the text of the first one is sent, in the middle of the ping of the first one *)
Definition q_alone := [Enter 0; Leave 0; Send 0; Enter 0; Enter 1; Leave 0; Leave 1; Send 0; Send 1].
Example C115_alone_hyps : alone_all Z z_out (fun _ => true) true (begin Z z_list q_progs) q_alone.
Proof.
  vm_compute. repeat split; try discriminate; intros _ th [<-|[<-|[]]]; reflexivity.
Qed.
Example C115_alone_ex : exists s w, run Z z_out (fun _ => true) true (begin Z z_list q_progs) q_alone = Ret s /\ List.concat (k_wire s) = block_of w /\ map t_rets (k_threads s) = [[0; 0]; [0]] /\
  map fst (k_sent s) = [(ex_chance, 1, bs "hello"); (ex_chance, 9, [7; 8]); (ex_chance, 2, [5])] /\
  seen (fst (run_x Z z_in (fun _ => true) false 96 (start [RData w], z_list) (repeat quiet 9))) = [SMsg 1 96 (bs "hello"); SSend 10 [7; 8]; SMsg 2 96 [5]].
Proof. do 2 eexists. split; [vm_compute; reflexivity|]. split; [vm_compute; instantiate (1 := [_;_;_;_;_;_;_;_;_;_;_;_;_;_;_;_;_;_]); reflexivity|]. vm_compute. auto. Qed.
(** an extension without memory: the second one alone *)
Definition q_list := [mk_ext 32 true (Some 2) 9 (Some 2) 9 0].
Example C115_memoryless_hyps : Forall2 (paired Z z_out z_in) q_list q_list /\ bits_apart Z q_list /\ Forall (memoryless Z z_out) q_list /\ Forall (Forall (accepted Z z_out (fun _ => true) true q_list)) q_progs.
Proof.
  split; [|split; [|split]].
  - constructor; [|constructor]. split; [reflexivity|]. split; [reflexivity|]. split; [discriminate|]. intros _ f [= <-]. exists 2, eq. split; [reflexivity|]. split; [|reflexivity].
    intros s r op d fr x s' -> H. unfold z_out in H. change (2 =? 1) with false in H. cbv iota in H. injection H as <- <-. exists r. split; reflexivity.
  - repeat constructor.
  - constructor; [|constructor]. intros f [= <-] c c' op d fr. reflexivity.
  - apply Forall_forall. intros p IP. apply Forall_forall. intros x IX. destruct (q_sendable p x IP IX) as (SE & CH & LE). split; [exact SE|].
    intros l ret rsv d l' L O. rewrite CH. inversion L as [|? e1 ? l1 (c1 & ->) L1]; subst. inversion L1; subst. clear L L1.
    destruct x as [[ch op] data]. cbn [fst snd] in *. destruct SE as (B & LD & SE). unfold out_message in O. cbn [negb andb] in O. rewrite andb_false_r in O.
    assert (LZ : forall k : list Z, (length k <= 7)%nat -> zlen k < 4294967296) by (intros k LK; unfold zlen; lia).
    destruct ((op =? OP_BINARY) || (op =? OP_TEXT)).
    + cbn in O. unfold z_out in O. change (2 =? 1) with false in O. cbv iota beta in O. injection O as <- <- <- <-. split; [reflexivity|]. split; [|split; [apply LZ; cbn; lia|apply q_fortunate; cbn; lia]].
      constructor; [lia|exact B].
    + rewrite andb_false_r in O. injection O as <- <- <- <-. split; [reflexivity|]. split; [exact B|]. split; [apply LZ; lia|apply q_fortunate; lia].
Qed.

(** ** what fails *)
Definition q_order := [Enter 0; Leave 0; Enter 1; Leave 1; Send 1; Send 0].
(** Two threads send at once on a websocket with an extension that keeps a context from one message to the next, as permessage-deflate does. The extensions are applied before the lock is taken
    (u_websocket.c:1548-1574, the lock is taken in 338-396), so that the message that was encoded second can go out first. Every call returns U_OK; the other end cannot decode the first message it gets, notices
    nothing and closes the connection. *)
Theorem C115_order_refuted : exists exts progs acts s w, Forall2 (paired Z z_out z_in) exts exts /\ Forall (Forall (accepted Z z_out (fun _ => true) true exts)) progs /\
  run Z z_out (fun _ => true) true (begin Z exts progs) acts = Ret s /\ Forall (fun th => t_rets th = [U_OK]) (k_threads s) /\ length (k_sent s) = 2%nat /\ List.concat (k_wire s) = block_of w /\
  forall is, Forall undisturbed is -> seen (fst (run_x Z z_in (fun _ => true) false 96 (start [RData w], exts) is)) = [].
Proof.
  exists z_list, q_progs, q_order. do 2 eexists. split; [apply C90_extensions_hyps|]. split; [apply q_accepted|]. split; [vm_compute; reflexivity|]. split; [repeat constructor|]. split; [reflexivity|].
  split; [vm_compute; instantiate (1 := [_;_;_;_;_;_;_;_;_;_;_;_;_;_]); reflexivity|].
  intros is UN. destruct is as [|i is]; [reflexivity|]. apply Forall_cons_iff in UN as [[U1 U2] UN]. destruct i as [ic ig im]. cbn [i_close i_gone] in U1, U2. subst ic ig.
  match goal with |- context [run_x Z z_in ?al ?sv ?rx ?x (?i :: is)] => change (run_x Z z_in al sv rx x (i :: is)) with (run_x Z z_in al sv rx (step_x Z z_in al sv rx x i) is); remember (step_x Z z_in al sv rx x i) as y eqn:Y end.
  destruct im; vm_compute in Y; subst y; (rewrite inert_x; [reflexivity|right; left; reflexivity]).
Qed.
(** The functions of the extensions are called without a lock (u_websocket.c:1548): two threads that send data messages at once are in the function of the same extension, with the same context, at the same moment. The
    deflate extension keeps its z_stream there (u_websocket.c, websocket_extension_message_out_deflate), and zlib allows one thread at a time for a stream. *)
Theorem C115_inside_refuted : exists acts s f, run Z z_out (fun _ => true) true (begin Z z_list q_progs) acts = Ret s /\
  map t_place (k_threads s) = [Inside; Inside] /\ Forall (fun th => exists x r, t_todo th = x :: r /\ is_data x = true) (k_threads s) /\
  exists e, In e (k_exts s) /\ e_enabled e = true /\ e_out e = Some f.
Proof.
  exists [Enter 0; Enter 1]. do 2 eexists. split; [vm_compute; reflexivity|]. split; [reflexivity|]. split; [repeat constructor; do 2 eexists; split; reflexivity|]. eexists. split; [left; reflexivity|]. split; reflexivity.
Qed.

Print Assumptions C115_whole.
Print Assumptions C115_plain.
Print Assumptions C115_alone_partial.
Print Assumptions C115_memoryless_partial.
Print Assumptions C115_order_refuted.
Print Assumptions C115_inside_refuted.
