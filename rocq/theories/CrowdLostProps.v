(** C115: the calls of several threads when the connection is lost. *)
From Coq Require Import String ZArith Bool List Lia.
From Verif Require Import Base BaseFacts WsFrameModel WsSendModel ExtModel TalkModel CrowdModel WsFrameProofs.
From Verif Require Import CrowdProofs.
Import ListNotations.
Open Scope Z_scope.

Lemma frame_lost : forall server evs rest cs evs' conn', send_frame server evs false rest = (cs, evs', conn') -> conn' = false.
Proof.
  induction evs as [|e evs IH]; intros rest cs evs' conn' E; destruct rest as [|b rest]; cbn [send_frame] in E; try congruence.
  destruct (if server then e_poll e else WReady); try congruence. destruct (e_ret e) as [n|]; [|congruence].
  destruct (send_frame server evs false (zskipn n (b :: rest))) as [[cs1 evs1] conn1] eqn:F. apply IH in F. congruence.
Qed.
Lemma loop_lost : forall server alloc_ok fuel evs m fragment off ret css evs' conn' m', send_loop server alloc_ok fuel evs false m fragment off = Ret (ret, css, evs', conn', m') -> conn' = false.
Proof.
  induction fuel as [|fuel IH]; intros evs m fragment off ret css evs' conn' m' E; cbn [send_loop] in E; [congruence|]. destruct (off <? zlen (m_data m)); [|congruence].
  set (cur := if fragment =? 0 then _ else _) in E. destruct (build_frame m off cur) as [f|]; cbn [bind] in E; [|discriminate]. destruct (alloc_ok (zlen f)); [|congruence].
  destruct (send_frame server evs false f) as [[cs evs1] conn1] eqn:F. apply frame_lost in F. subst conn1.
  destruct (send_loop server alloc_ok fuel evs1 false (set_opcode m OP_CONTINUE) fragment (off + cur)) as [[[[[ret1 css1] evs2] conn2] m2]|] eqn:L; cbn [bind] in E; [|discriminate]. apply IH in L. congruence.
Qed.
Lemma managed_lost : forall server alloc_ok locked evs msg fragment ret css evs' conn' m', send_managed server alloc_ok locked evs false msg fragment = Ret (ret, css, evs', conn', m') -> conn' = false.
Proof.
  intros server alloc_ok locked evs msg fragment ret css evs' conn' m' E. unfold send_managed in E. destruct locked; [|congruence]. destruct msg as [m|]; [|congruence].
  destruct (zlen (m_data m) =? 0).
  - destruct (build_frame m 0 0) as [f|]; cbn [bind] in E; [|discriminate]. destruct (alloc_ok (zlen f)); [|congruence]. destruct (send_frame server evs false f) as [[cs evs1] conn1] eqn:F. apply frame_lost in F. congruence.
  - destruct (send_loop server alloc_ok (length (m_data m)) evs false m fragment 0) as [[[[[ret1 css1] evs2] conn2] m2]|] eqn:L; cbn [bind] in E; [|discriminate]. apply loop_lost in L. congruence.
Qed.

Lemma build_first : forall m off len f, build_frame m off len = Ret f -> f <> [].
Proof.
  intros m off len f E -> . unfold build_frame in E. cbv zeta in E. set (hd := frame_header _ _ _ _ _) in E.
  assert (H0 : exists b h, hd = b :: h) by (unfold hd, frame_header; cbv zeta; do 2 eexists; reflexivity). destruct H0 as (b & h & H0).
  match type of E with bind ?x _ = _ => destruct x as [f1|] eqn:F1 end; cbn [bind] in E; [|discriminate]. rewrite H0 in F1. cbn [block_of map] in F1. apply memcpy_head0 in F1; [|unfold zlen; cbn [length]; lia].
  match type of E with (if ?c then _ else _) = _ => destruct c end; [discriminate|]. match type of E with (if ?c then _ else _) = _ => destruct c end; [discriminate|].
  apply (memcpy_keeps0 _ _ _ _ _ b) in E; [discriminate E|rewrite H0; unfold zlen; cbn [length]; lia|exact F1].
Qed.

Section Lost.
Variable C : Type.
Variable out_perform : Z -> C -> Z -> list Z -> Z -> Z -> option (list Z) * C.
Variable alloc_ok : Z -> bool.
Variable server : bool.
Notation act := (act C out_perform alloc_ok server).
Notation run := (run C out_perform alloc_ok server).

(** what one action does to a thread: nothing, it goes on with its first message, or the first message is done with one result *)
Definition onward (th th' : thread) : Prop := (t_todo th' = t_todo th /\ t_rets th' = t_rets th) \/ exists x ret, t_todo th = x :: t_todo th' /\ t_rets th' = t_rets th ++ [ret].
Lemma act_onward : forall s a s', act s a = Ret s' -> length (k_threads s') = length (k_threads s) /\
  forall t th, nth_error (k_threads s) t = Some th -> exists th', nth_error (k_threads s') t = Some th' /\ onward th th'.
Proof.
  intros s a s' E.
  assert (SAME : length (k_threads s) = length (k_threads s) /\ forall t th, nth_error (k_threads s) t = Some th -> exists th', nth_error (k_threads s) t = Some th' /\ onward th th').
  { split; [reflexivity|]. intros t th N. exists th. split; [exact N|]. left. split; reflexivity. }
  assert (SET : forall u o x, nth_error (k_threads s) u = Some o -> onward o x -> length (with_thread C s u x) = length (k_threads s) /\
    forall t th, nth_error (k_threads s) t = Some th -> exists th', nth_error (with_thread C s u x) t = Some th' /\ onward th th').
  { intros u o x N O1. unfold with_thread. split; [apply set_len|]. intros t th NT. destruct (Nat.eq_dec u t) as [->|NE].
    - rewrite N in NT. injection NT as <-. exists x. split; [|exact O1]. eapply nth_set. exact N.
    - exists th. split; [rewrite nth_other by exact NE; exact NT|]. left. split; reflexivity. }
  destruct a as [u|u|u]; cbn [CrowdModel.act] in E; destruct (nth_error (k_threads s) u) as [[todo pl rets]|] eqn:N; try (injection E as <-; exact SAME);
    destruct todo as [|[[ch op] d] r]; destruct pl as [| |rsv d']; try (injection E as <-; exact SAME).
  - injection E as <-. cbn [k_threads]. apply (SET u _ _ N). destruct (k_conn s); [left; split; reflexivity|right; do 2 eexists; split; reflexivity].
  - destruct (out_message C out_perform alloc_ok op 0 (k_exts s) d) as [[[ret rsv] d'] l]. injection E as <-. cbn [k_threads]. apply (SET u _ _ N). destruct (ret =? U_OK); [left; split; reflexivity|right; do 2 eexists; split; reflexivity].
  - destruct (send_managed server alloc_ok (c_locked ch) (c_evs ch) (k_conn s) (built server op rsv (c_key ch) d') 0) as [[[[[ret css] evs] conn] m]|]; cbn [bind] in E; [|discriminate].
    injection E as <-. cbn [k_threads]. apply (SET u _ _ N). right; do 2 eexists; split; reflexivity.
Qed.
Lemma run_calls : forall acts s s', run s acts = Ret s' -> forall t th, nth_error (k_threads s) t = Some th ->
  exists th' d r, nth_error (k_threads s') t = Some th' /\ t_todo th = d ++ t_todo th' /\ t_rets th' = t_rets th ++ r /\ length r = length d.
Proof.
  induction acts as [|a acts IH]; intros s s' E t th N; cbn [CrowdModel.run] in E.
  - injection E as <-. exists th, [], []. rewrite app_nil_r. auto.
  - destruct (act s a) as [s1|] eqn:A; cbn [bind] in E; [|discriminate]. destruct (act_onward _ _ _ A) as [_ O1]. destruct (O1 t th N) as (th1 & N1 & ON).
    destruct (IH s1 s' E t th1 N1) as (th' & d & r & N' & T & R & L). exists th'. destruct ON as [[T1 R1]|(x & ret & T1 & R1)].
    + exists d, r. rewrite <- T1, <- R1. auto.
    + exists (x :: d), (ret :: r). split; [exact N'|]. split; [rewrite T1, T; reflexivity|]. split; [rewrite R, R1, <- app_assoc; reflexivity|]. cbn [length]. lia.
Qed.

(** what happens to a thread that is in no call once the connection is lost *)
Definition refused (th th' : thread) : Prop := t_place th = Outside -> t_place th' = Outside /\ exists n, t_todo th' = skipn n (t_todo th) /\ t_rets th' = t_rets th ++ repeat U_ERROR_PARAMS n.
Lemma act_lost : forall s a s', k_conn s = false -> act s a = Ret s' -> k_conn s' = false /\ (forall t th, nth_error (k_threads s) t = Some th -> exists th', nth_error (k_threads s') t = Some th' /\ refused th th') /\
  (Forall (fun th => t_place th = Outside) (k_threads s) -> k_wire s' = k_wire s /\ k_sent s' = k_sent s /\ k_exts s' = k_exts s /\ Forall (fun th => t_place th = Outside) (k_threads s')).
Proof.
  intros s a s' LO E.
  assert (RR : forall th, refused th th) by (intros th O1; split; [exact O1|exists O; cbn [skipn repeat]; rewrite app_nil_r; split; reflexivity]).
  assert (SAME : k_conn s = false /\ (forall t th, nth_error (k_threads s) t = Some th -> exists th', nth_error (k_threads s) t = Some th' /\ refused th th') /\
    (Forall (fun th => t_place th = Outside) (k_threads s) -> k_wire s = k_wire s /\ k_sent s = k_sent s /\ k_exts s = k_exts s /\ Forall (fun th => t_place th = Outside) (k_threads s))).
  { split; [exact LO|]. split; [intros t th N; exists th; split; [exact N|apply RR]|]. auto. }
  assert (SET : forall u o x, nth_error (k_threads s) u = Some o -> refused o x ->
    forall t th, nth_error (k_threads s) t = Some th -> exists th', nth_error (with_thread C s u x) t = Some th' /\ refused th th').
  { intros u o x N O1. unfold with_thread. intros t th NT. destruct (Nat.eq_dec u t) as [->|NE].
    - rewrite N in NT. injection NT as <-. exists x. split; [|exact O1]. eapply nth_set. exact N.
    - exists th. split; [rewrite nth_other by exact NE; exact NT|]. apply RR. }
  assert (OUT : forall u o, nth_error (k_threads s) u = Some o -> Forall (fun th => t_place th = Outside) (k_threads s) -> t_place o = Outside).
  { intros u o N F. apply nth_error_In in N. now apply (proj1 (Forall_forall _ _) F) in N. }
  destruct a as [u|u|u]; cbn [CrowdModel.act] in E; destruct (nth_error (k_threads s) u) as [[todo pl rets]|] eqn:N; try (injection E as <-; exact SAME);
    destruct todo as [|[[ch op] d] r]; destruct pl as [| |rsv d']; try (injection E as <-; exact SAME).
  - rewrite LO in E. injection E as <-. cbn [k_threads k_conn k_wire k_sent k_exts]. split; [reflexivity|]. split.
    + apply (SET u _ _ N). intros _. split; [reflexivity|]. exists 1%nat. split; reflexivity.
    + intros F. split; [reflexivity|]. split; [reflexivity|]. split; [reflexivity|]. apply Forall_forall. intros th I. apply in_set in I as [->|I]; [reflexivity|]. now apply (proj1 (Forall_forall _ _) F).
  - destruct (out_message C out_perform alloc_ok op 0 (k_exts s) d) as [[[ret rsv] d'] l]. injection E as <-. cbn [k_threads k_conn]. split; [exact LO|]. split.
    + apply (SET u _ _ N). intros X. discriminate X.
    + intros F. apply (OUT _ _ N) in F. discriminate F.
  - rewrite LO in E. destruct (send_managed server alloc_ok (c_locked ch) (c_evs ch) false (built server op rsv (c_key ch) d') 0) as [[[[[ret css] evs] conn] m]|] eqn:M; cbn [bind] in E; [|discriminate].
    apply managed_lost in M. subst conn. injection E as <-. cbn [k_threads k_conn]. split; [reflexivity|]. split.
    + apply (SET u _ _ N). intros X. discriminate X.
    + intros F. apply (OUT _ _ N) in F. discriminate F.
Qed.
Lemma skipn_more : forall A n m (l : list A), skipn m (skipn n l) = skipn (n + m) l.
Proof. induction n as [|n IH]; intros m l; [reflexivity|]. destruct l as [|x l]; [now rewrite !skipn_nil|]. cbn [skipn Nat.add]. apply IH. Qed.
Lemma refused_trans : forall a b c, refused a b -> refused b c -> refused a c.
Proof.
  intros a b c R1 R2 O1. destruct (R1 O1) as (O2 & n & T & R). destruct (R2 O2) as (O3 & m & T' & R'). split; [exact O3|]. exists (n + m)%nat. rewrite T', T, skipn_more, R', R, repeat_app, app_assoc. split; reflexivity.
Qed.
Lemma run_lost : forall acts s s', k_conn s = false -> run s acts = Ret s' -> k_conn s' = false /\ (forall t th, nth_error (k_threads s) t = Some th -> exists th', nth_error (k_threads s') t = Some th' /\ refused th th') /\
  (Forall (fun th => t_place th = Outside) (k_threads s) -> k_wire s' = k_wire s /\ k_sent s' = k_sent s /\ k_exts s' = k_exts s).
Proof.
  induction acts as [|a acts IH]; intros s s' LO E; cbn [CrowdModel.run] in E.
  - injection E as <-. split; [exact LO|]. split; [|auto]. intros t th N. exists th. split; [exact N|]. intros O1. split; [exact O1|]. exists O. cbn [skipn repeat]. rewrite app_nil_r. split; reflexivity.
  - destruct (act s a) as [s1|] eqn:A; cbn [bind] in E; [|discriminate]. destruct (act_lost _ _ _ LO A) as (L1 & T1 & F1). destruct (IH _ _ L1 E) as (L2 & T2 & F2). split; [exact L2|]. split.
    + intros t th N. destruct (T1 t th N) as (th1 & N1 & R1). destruct (T2 t th1 N1) as (th2 & N2 & R2). exists th2. split; [exact N2|]. eapply refused_trans; eauto.
    + intros F. destruct (F1 F) as (W & S1 & X & F'). destruct (F2 F') as (W2 & S2 & X2). rewrite W2, S2, X2. auto.
Qed.
End Lost.

(** C115. Whatever happens, memory, sockets and extensions failing at any moment: each thread makes its calls in the order of its program, each call returns once, with one result. *)
Theorem C115_calls : forall C out_perform alloc_ok server exts progs acts s, run C out_perform alloc_ok server (begin C exts progs) acts = Ret s ->
  forall t p, nth_error progs t = Some p -> exists th d, nth_error (k_threads s) t = Some th /\ p = d ++ t_todo th /\ length (t_rets th) = length d.
Proof.
  intros C out_perform alloc_ok server exts progs acts s E t p N.
  destruct (run_calls _ _ _ _ _ _ _ E t (mk_thread p Outside [])) as (th & d & r & N' & T & R & L).
  - cbn [begin k_threads]. rewrite nth_error_map, N. reflexivity.
  - exists th, d. cbn [t_todo t_rets] in T, R. split; [exact N'|]. split; [exact T|]. rewrite R. exact L.
Qed.

(** C115. Once a call has found the connection lost, it stays lost, and every call that begins afterwards is refused with U_ERROR_PARAMS; when no call is under way any more, nothing more goes out and the
    extensions are not asked. *)
Theorem C115_lost : forall C out_perform alloc_ok server exts progs acts s acts' s', run C out_perform alloc_ok server (begin C exts progs) acts = Ret s -> k_conn s = false -> run C out_perform alloc_ok server s acts' = Ret s' ->
  k_conn s' = false /\
  (forall t th, nth_error (k_threads s) t = Some th -> t_place th = Outside -> exists th' n, nth_error (k_threads s') t = Some th' /\ t_place th' = Outside /\
     t_todo th' = skipn n (t_todo th) /\ t_rets th' = t_rets th ++ repeat U_ERROR_PARAMS n) /\
  (Forall (fun th => t_place th = Outside) (k_threads s) -> k_wire s' = k_wire s /\ k_sent s' = k_sent s /\ k_exts s' = k_exts s).
Proof.
  intros C out_perform alloc_ok server exts progs acts s acts' s' _ LO E. destruct (run_lost _ _ _ _ _ _ _ LO E) as (L & T & F). split; [exact L|]. split; [|exact F].
  intros t th N O1. destruct (T t th N) as (th' & N' & R). destruct (R O1) as (O2 & n & T' & R'). exists th', n. auto.
Qed.

(** C115. A server whose peer is gone notices it at the first message a thread wants to send, of whatever length; nothing goes out. *)
Theorem C115_noticed : forall C out_perform alloc_ok exts progs acts s t ch opcode data r rsv d rets e evs, run C out_perform alloc_ok true (begin C exts progs) acts = Ret s ->
  nth_error (k_threads s) t = Some (mk_thread ((ch, opcode, data) :: r) (Made rsv d) rets) -> In opcode [1; 2; 9; 10] -> c_locked ch = true -> c_evs ch = e :: evs -> e_poll e = WGone -> (forall n, alloc_ok n = true) ->
  forall s', act C out_perform alloc_ok true s (Send t) = Ret s' -> k_conn s' = false /\ List.concat (k_wire s') = List.concat (k_wire s).
Proof.
  intros C out_perform alloc_ok exts progs acts s t ch opcode data r rsv d rets e evs _ N OP LK EV PO AL s' E. cbn [act] in E. rewrite N, LK, EV in E.
  assert (SF : forall m off len f, build_frame m off len = Ret f -> send_frame true (e :: evs) (k_conn s) f = ([], evs, false)).
  { intros m off len f B. apply build_first in B. destruct f as [|b f]; [contradiction|]. cbn [send_frame]. rewrite PO. reflexivity. }
  unfold built in E. destruct (build_message opcode rsv false [] d) as [m|] eqn:BM.
  2:{ unfold build_message in BM. destruct OP as [<-|[<-|[<-|[<-|[]]]]]; discriminate BM. }
  unfold send_managed in E. destruct (zlen (m_data m) =? 0) eqn:Z0.
  - destruct (build_frame m 0 0) as [f|] eqn:B; cbn [bind] in E; [|discriminate]. rewrite AL, (SF _ _ _ _ B) in E. injection E as <-. cbn [k_conn k_wire List.concat app]. rewrite app_nil_r. split; reflexivity.
  - assert (LE : exists n, length (m_data m) = S n).
    { destruct (m_data m) as [|x l]; [discriminate Z0|]. exists (length l). reflexivity. }
    destruct LE as (n & LE). rewrite LE in E. cbn [send_loop] in E. pose proof (zlen_nonneg _ (m_data m)). apply Z.eqb_neq in Z0. destruct (Z.ltb_spec 0 (zlen (m_data m))); [|lia].
    change (0 =? 0) with true in E. cbv iota in E. rewrite Z.sub_0_r, Z.ltb_irrefl in E. destruct (build_frame m 0 (zlen (m_data m))) as [f|] eqn:B; cbn [bind] in E; [|discriminate]. rewrite AL, (SF _ _ _ _ B) in E.
    destruct n as [|n]; cbn [send_loop bind] in E.
    + injection E as <-. cbn [k_conn k_wire List.concat app]. rewrite app_nil_r. split; reflexivity.
    + cbn [set_opcode m_data] in E. destruct (Z.ltb_spec (0 + zlen (m_data m)) (zlen (m_data m))); [lia|]. cbn [bind] in E. injection E as <-. cbn [k_conn k_wire List.concat app]. rewrite app_nil_r. split; reflexivity.
Qed.

(** ** cases *)
(** two threads of a server; the peer is gone when the second thread sends its first message; afterwards both threads get U_ERROR_PARAMS, the first message of the other one is sent *)
Definition lost_ok : chance := mk_chance (repeat (mk_wev WReady (Some 3)) 40) true None.
Definition lost_gone : chance := mk_chance [mk_wev WGone None] true None.
Definition lost_progs : list (list (chance * Z * list Z)) := [[(lost_ok, 1, bs "one"); (lost_ok, 1, bs "two")]; [(lost_gone, 2, [7]); (lost_ok, 1, bs "four")]].
Definition lost_run (acts : list action) : option (crowd unit) := match run unit (fun _ c _ d _ _ => (Some d, c)) (fun _ => true) true (begin unit [] lost_progs) acts with Ret s => Some s | UB _ => None end.
Definition lost_state := lost_run [Enter 0; Leave 0; Send 0; Enter 1; Leave 1; Send 1].
Example C115_lost_ex : exists s, lost_state = Some s /\ k_conn s = false /\ List.concat (k_wire s) = block_of ([129; 3] ++ bs "one") /\ Forall (fun th => t_place th = Outside) (k_threads s) /\
  exists s', run unit (fun _ c _ d _ _ => (Some d, c)) (fun _ => true) true s [Enter 0; Enter 1; Leave 0; Send 0] = Ret s' /\ map t_rets (k_threads s') = [[0; 3]; [0; 3]] /\ map t_todo (k_threads s') = [[]; []].
Proof. eexists. split; [vm_compute; reflexivity|]. split; [reflexivity|]. split; [vm_compute; reflexivity|]. split; [repeat constructor|]. eexists. split; [vm_compute; reflexivity|]. split; reflexivity. Qed.
Example C115_noticed_ex : exists s, lost_run [Enter 0; Leave 0; Send 0; Enter 1; Leave 1] = Some s /\ nth_error (k_threads s) 1 = Some (mk_thread [(lost_gone, 2, [7]); (lost_ok, 1, bs "four")] (Made 0 [7]) []) /\ k_conn s = true /\
  exists s', act unit (fun _ c _ d _ _ => (Some d, c)) (fun _ => true) true s (Send 1) = Ret s'.
Proof. eexists. split; [vm_compute; reflexivity|]. split; [reflexivity|]. split; [reflexivity|]. eexists. vm_compute. reflexivity. Qed.

Print Assumptions C115_calls.
Print Assumptions C115_lost.
Print Assumptions C115_noticed.
