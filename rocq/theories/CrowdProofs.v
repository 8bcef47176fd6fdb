(** Proofs about several threads that send on one websocket (C115). *)
From Coq Require Import ZArith Bool List Lia.
From Verif Require Import Base BaseFacts WsFrameModel WsRecvModel WsSpec WsFrameProofs WsRecvSpec WsRecvProofs WsProps WsSendModel WsSendSpec WsSendProps
  ExtModel ExtSpec ExtProps TalkModel TalkSpec TalkProofs TalkExtModel TalkExtSpec TalkExtProofs.
From Verif Require Import CrowdModel CrowdSpec.
Import ListNotations.
Open Scope Z_scope.

(** ** lists *)
Lemma nth_set : forall A (l : list A) t x y, nth_error l t = Some x -> nth_error (set_nth l t y) t = Some y.
Proof. induction l as [|z l IH]; intros t x y E; destruct t as [|t]; cbn in E; try discriminate; cbn; [reflexivity|]. eapply IH. exact E. Qed.
Lemma nth_other : forall A (l : list A) t u y, t <> u -> nth_error (set_nth l t y) u = nth_error l u.
Proof. induction l as [|z l IH]; intros t u y N; destruct t as [|t]; destruct u as [|u]; cbn; try reflexivity; [congruence|]. apply IH. congruence. Qed.
Lemma set_set : forall A (l : list A) t x y, set_nth (set_nth l t x) t y = set_nth l t y.
Proof. induction l as [|z l IH]; intros t x y; destruct t as [|t]; cbn; try reflexivity. f_equal. apply IH. Qed.
Lemma set_comm : forall A (l : list A) t u x y, t <> u -> set_nth (set_nth l t x) u y = set_nth (set_nth l u y) t x.
Proof. induction l as [|z l IH]; intros t u x y N; destruct t as [|t]; destruct u as [|u]; cbn; try reflexivity; [congruence|]. f_equal. apply IH. congruence. Qed.
Lemma set_back : forall A (l : list A) t x, nth_error l t = Some x -> set_nth l t x = l.
Proof. induction l as [|z l IH]; intros t x E; destruct t as [|t]; cbn in E; try discriminate; cbn; [now injection E as ->|]. f_equal. now apply IH. Qed.
Lemma set_len : forall A (l : list A) t x, length (set_nth l t x) = length l.
Proof. induction l as [|z l IH]; intros t x; destruct t as [|t]; cbn; try reflexivity. f_equal. apply IH. Qed.
Lemma in_set : forall A (l : list A) t x y, In y (set_nth l t x) -> y = x \/ In y l.
Proof.
  induction l as [|z l IH]; intros t x y I; destruct t as [|t]; cbn in I; try contradiction; destruct I as [<-|I]; auto; [right; now right|right; now left|]. destruct (IH _ _ _ I); auto. right. now right.
Qed.

Lemma merged_more : forall A (ls : list (list A)) l, merged ls l -> forall t a x, nth_error ls t = Some a -> merged (set_nth ls t (a ++ [x])) (l ++ [x]).
Proof.
  intros A ls l M. induction M as [ls F|ls u y r l E M IH]; intros t a x N.
  - assert (a = []) by (rewrite Forall_forall in F; symmetry; apply F; eapply nth_error_In; eauto). subst a. apply mg_next with t []; [eapply nth_set; eauto|]. rewrite set_set, set_back by exact N. now constructor.
  - destruct (Nat.eq_dec t u) as [->|NE].
    + rewrite E in N. injection N as <-. cbn [app]. apply mg_next with u (r ++ [x]); [eapply nth_set; eauto|]. rewrite set_set. specialize (IH u r x (nth_set _ _ _ _ r E)). now rewrite set_set in IH.
    + cbn [app]. apply mg_next with u r; [rewrite nth_other by exact NE; exact E|]. rewrite set_comm by exact NE. apply IH. rewrite nth_other by congruence. exact N.
Qed.

Section Crowd.
Variable C : Type.
Variables out_perform in_perform : Z -> C -> Z -> list Z -> Z -> Z -> option (list Z) * C.
Variable alloc_ok : Z -> bool.
Hypothesis AL : forall n, alloc_ok n = true.
Variable rx : Z.
Variable server : bool.
Notation through := (through C out_perform).
Notation encoded := (encoded C out_perform).
Notation like := (like C).
Notation accepted := (accepted C out_perform alloc_ok server).
Notation act := (act C out_perform alloc_ok server).
Notation run := (run C out_perform alloc_ok server).
Notation bit_ok := (bit_ok C rx).

(** ** the extensions *)
Lemma set_ctx_eta : forall e : ext C, set_ctx e (e_ctx e) = e.
Proof. now intros []. Qed.
Lemma like_refl : forall l, like l l.
Proof. induction l as [|e l IH]; constructor; auto. exists (e_ctx e). symmetry. apply set_ctx_eta. Qed.
Lemma like_trans : forall a b, like a b -> forall c, like b c -> like a c.
Proof. induction 1 as [|x y a b (u & ->) L IH]; intros c M; inversion M as [|? z ? c' (v & ->) M']; subst; constructor; [now exists v|now apply IH]. Qed.
Lemma like_bits : forall a b, like a b -> Forall bit_ok a -> Forall bit_ok b.
Proof. induction 1 as [|x y a b (u & ->) L IH]; intros F; constructor; inversion F; subst; auto. Qed.
Lemma out_loop_like : forall op l rsv d ret rsv' d' l', out_loop C out_perform alloc_ok op 0 l rsv d = (ret, rsv', d', l') -> like l l'.
Proof.
  intros op l. induction l as [|e l IH]; intros rsv d ret rsv' d' l' E; cbn [out_loop] in E.
  - injection E as <- <- <- <-. constructor.
  - destruct (if e_enabled e then e_out e else None) as [f|].
    + destruct (out_perform f (e_ctx e) op d 0 (e_out_data e)) as [[x|] c].
      * rewrite AL in E. destruct (out_loop C out_perform alloc_ok op 0 l (Z.lor rsv (e_rsv e)) x) as [[[r1 r2] r3] r4] eqn:O. injection E as <- <- <- <-. constructor; [now exists c|eapply IH; exact O].
      * injection E as <- <- <- <-. constructor; [now exists c|apply like_refl].
    + destruct (out_loop C out_perform alloc_ok op 0 l rsv d) as [[[r1 r2] r3] r4] eqn:O. injection E as <- <- <- <-. constructor; [exists (e_ctx e); symmetry; apply set_ctx_eta|eapply IH; exact O].
Qed.
Lemma out_loop_through : forall op l rsv d rsv' d' l', out_loop C out_perform alloc_ok op 0 l rsv d = (U_OK, rsv', d', l') -> through op l rsv d rsv' d' l'.
Proof.
  intros op l. induction l as [|e l IH]; intros rsv d rsv' d' l' E; cbn [out_loop] in E.
  - injection E as <- <- <-. constructor.
  - destruct (e_enabled e) eqn:EN; [destruct (e_out e) as [f|] eqn:EO|].
    + destruct (out_perform f (e_ctx e) op d 0 (e_out_data e)) as [[x|] c] eqn:O; [|discriminate]. rewrite AL in E.
      destruct (out_loop C out_perform alloc_ok op 0 l (Z.lor rsv (e_rsv e)) x) as [[[r1 r2] r3] r4] eqn:O2. injection E as -> <- <- <-. eapply th_apply; eauto.
    + destruct (out_loop C out_perform alloc_ok op 0 l rsv d) as [[[r1 r2] r3] r4] eqn:O2. injection E as -> <- <- <-. apply th_skip; auto.
    + destruct (out_loop C out_perform alloc_ok op 0 l rsv d) as [[[r1 r2] r3] r4] eqn:O2. injection E as -> <- <- <-. apply th_skip; auto.
Qed.
Lemma out_like : forall op l d ret rsv d' l', out_message C out_perform alloc_ok op 0 l d = (ret, rsv, d', l') -> like l l'.
Proof.
  intros op l d ret rsv d' l' E. unfold out_message in E. rewrite AL in E. cbn [negb] in E. rewrite andb_false_r in E.
  destruct (negb (zlen l =? 0) && ((op =? OP_BINARY) || (op =? OP_TEXT))); [eapply out_loop_like; eauto|]. injection E as <- <- <- <-. apply like_refl.
Qed.
Lemma out_data : forall op l d rsv d' l', op = 1 \/ op = 2 -> out_message C out_perform alloc_ok op 0 l d = (U_OK, rsv, d', l') -> through op l 0 d rsv d' l'.
Proof.
  intros op l d rsv d' l' O E. unfold out_message in E. rewrite AL in E. cbn [negb] in E. rewrite andb_false_r in E.
  replace ((op =? OP_BINARY) || (op =? OP_TEXT)) with true in E by (symmetry; destruct O as [-> | ->]; reflexivity). rewrite andb_true_r in E. destruct l as [|e l].
  - injection E as <- <- <-. constructor.
  - replace (zlen (e :: l) =? 0) with false in E; [now apply out_loop_through|]. symmetry. apply Z.eqb_neq. unfold zlen. cbn [length]. lia.
Qed.
Lemma through_memoryless : forall op l rsv d rsv' d' l', through op l rsv d rsv' d' l' -> Forall (memoryless C out_perform) l -> forall k, like l k -> exists k', through op k rsv d rsv' d' k' /\ like k k'.
Proof.
  intros op l rsv d rsv' d' l' T. induction T as [rsv d|e r rsv d rsv' d' r' N T IH|e r rsv d f x c rsv' d' r' EN EO P T IH]; intros F k L; inversion L as [|? e' ? k0 (u & ->) L0]; subst.
  - exists []. split; constructor.
  - inversion F; subst. destruct (IH H2 k0 L0) as (k' & T' & L'). exists (set_ctx e u :: k'). split; [apply th_skip; auto|]. constructor; [exists u; now destruct e|exact L'].
  - inversion F as [|? ? ME F']; subst. destruct (IH F' k0 L0) as (k' & T' & L'). destruct (out_perform f u op d 0 (e_out_data e)) as [o c'] eqn:P'.
    assert (o = Some x) by (pose proof (ME f EO u (e_ctx e) op d 0) as X; rewrite P, P' in X; exact X). subst o.
    exists (set_ctx (set_ctx e u) c' :: k'). split; [apply (th_apply C out_perform op (set_ctx e u) k0 rsv d f x c'); auto|]. constructor; [now exists c'|exact L'].
Qed.

(** ** sending with the lock *)
Lemma wire_one : forall ch op rsv d, In op [1; 2; 9; 10] -> rsv_ok rsv -> bytes d -> zlen d < 4294967296 -> fortunate server ch d ->
  exists m w css evs' m', send_managed server alloc_ok (c_locked ch) (c_evs ch) true (built server op rsv (c_key ch) d) 0 = Ret (U_OK, css, evs', true, m') /\
    concat (concat css) = block_of w /\ wire (whole m) w /\ outgoing m /\ m_has_mask m = negb server /\ m_opcode m = op /\ m_data m = d /\ m_rsv m = rsv.
Proof.
  intros ch opcode rsv d OP RO B L (WI & LE & LO & KE).
  assert (X : exists m, built server opcode rsv (c_key ch) d = Some m /\ outgoing m /\ m_has_mask m = negb server /\ m_opcode m = opcode /\ m_data m = d /\ m_rsv m = rsv).
  { unfold built, build_message. replace ((opcode =? OP_TEXT) || (opcode =? OP_BINARY) || (opcode =? OP_CLOSE) || (opcode =? OP_PING) || (opcode =? OP_PONG)) with true
      by (symmetry; cbn in OP; destruct OP as [<-|[<-|[<-|[<-|[]]]]]; reflexivity).
    assert (OR : 0 <= opcode < 16) by (cbn in OP; lia).
    destruct server.
    - eexists. split; [reflexivity|]. repeat split; cbn; auto; try lia; try discriminate.
    - destruct (KE eq_refl) as (k & -> & K4 & KB). eexists. split; [reflexivity|]. repeat split; cbn; auto; try lia. }
  destruct X as (m & BU & OG & HM & MO & MD & MR). destruct (whole_wire m OG) as (w & BF & WW); [rewrite MD; change (2 ^ 54) with 18014398509481984; lia|rewrite MD; auto|].
  destruct (one_frame m w BF) as (m' & MF). pose proof (wire_length _ _ WW (whole_ok m OG)) as LW. cbn [whole f_payload] in LW. rewrite MD in LW.
  destruct (C39_complete_when_willing server alloc_ok (c_evs ch) true m 0 _ _ AL MF WI) as (css & evs' & E & M).
  { cbn [concat]. rewrite app_nil_r. unfold block_of. rewrite map_length. lia. }
  exists m, w, css, evs', (Some m'). split; [rewrite LO, BU; exact E|]. split; [|auto 10].
  replace (concat (concat css)) with (concat (map (@concat _) css)); [rewrite M; cbn; now rewrite app_nil_r|].
  clear. induction css as [|x r IH]; [reflexivity|]. cbn [map concat]. now rewrite concat_app, IH.
Qed.

(** ** the steps *)
Variable exts : list (ext C).
Variable progs : list (list (chance * Z * list Z)).
Hypothesis ACC : Forall (Forall (accepted exts)) progs.
Hypothesis BO : Forall bit_ok exts.

Definition msg (x : chance * Z * list Z) : Z * list Z := (snd (fst x), snd x).
Definition made (x : chance * Z * list Z) (rsv : Z) (d : list Z) : Prop :=
  rsv_ok rsv /\ bytes d /\ zlen d < 4294967296 /\ fortunate server (fst (fst x)) d /\ (is_data x = false -> rsv = 0 /\ d = snd x).
Definition placed (th : thread) : Prop :=
  match t_todo th, t_place th with
  | x :: _, Made rsv d => made x rsv d
  | [], Outside | _ :: _, _ => True
  | _, _ => False
  end.
Definition inv (s : crowd C) : Prop :=
  k_conn s = true /\ like exts (k_exts s) /\ Forall placed (k_threads s) /\
  exists parts ws wm, sent_parts progs parts (k_threads s) /\ merged parts (map fst (k_sent s)) /\
    concat (k_wire s) = block_of (concat ws) /\ Forall2 (fun m w => wire (whole m) w) wm ws /\ stand server (map (fun x => msg (fst x)) (k_sent s)) (map snd (k_sent s)) wm.

Inductive moves (s : crowd C) : crowd C -> Prop :=
| mv_stay : moves s s
| mv_enter : forall t x r rets, nth_error (k_threads s) t = Some (mk_thread (x :: r) Outside rets) ->
    moves s (mk_crowd (k_exts s) (k_conn s) (set_nth (k_threads s) t (mk_thread (x :: r) Inside rets)) (k_sent s) (k_wire s))
| mv_leave : forall t x r rets rsv d l, nth_error (k_threads s) t = Some (mk_thread (x :: r) Inside rets) -> sendable (snd (fst x)) (snd x) -> made x rsv d ->
    out_message C out_perform alloc_ok (snd (fst x)) 0 (k_exts s) (snd x) = (U_OK, rsv, d, l) ->
    moves s (mk_crowd l (k_conn s) (set_nth (k_threads s) t (mk_thread (x :: r) (Made rsv d) rets)) (k_sent s) (k_wire s))
| mv_send : forall t x r rets rsv d pieces, nth_error (k_threads s) t = Some (mk_thread (x :: r) (Made rsv d) rets) -> sendable (snd (fst x)) (snd x) ->
    moves s (mk_crowd (k_exts s) (k_conn s) (set_nth (k_threads s) t (mk_thread r Outside (rets ++ [U_OK]))) (k_sent s ++ [(x, (rsv, d))]) (k_wire s ++ pieces)).

Lemma parts_at : forall parts ths t th, sent_parts progs parts ths -> nth_error ths t = Some th -> exists d, nth_error progs t = Some (d ++ t_todo th) /\ nth_error parts t = Some d /\ t_rets th = map (fun _ => U_OK) d.
Proof.
  intros parts ths t th (L1 & L2 & P) E. assert (T : (t < length ths)%nat) by (apply nth_error_Some; congruence). rewrite L2 in T.
  destruct (nth_error progs t) as [p|] eqn:EP; [|apply nth_error_None in EP; lia]. destruct (P t p EP) as (d & th' & A & B & -> & R). rewrite E in B. injection B as <-. eauto.
Qed.
Lemma acc_at : forall parts ths t x r pl rets, sent_parts progs parts ths -> nth_error ths t = Some (mk_thread (x :: r) pl rets) -> accepted exts x.
Proof.
  intros parts ths t x r pl rets P E. destruct (parts_at _ _ _ _ P E) as (d & EP & _). cbn [t_todo] in EP. apply nth_error_In in EP. rewrite Forall_forall in ACC. specialize (ACC _ EP). rewrite Forall_forall in ACC.
  apply ACC. apply in_or_app. right. now left.
Qed.
Lemma parts_same : forall parts ths t th th', sent_parts progs parts ths -> nth_error ths t = Some th -> t_todo th' = t_todo th -> t_rets th' = t_rets th -> sent_parts progs parts (set_nth ths t th').
Proof.
  intros parts ths t th th' (L1 & L2 & P) E A B. split; [exact L1|]. split; [now rewrite set_len|]. intros u p EU. destruct (P u p EU) as (d & x & X1 & X2 & X3 & X4). exists d. destruct (Nat.eq_dec t u) as [->|NE].
  - rewrite E in X2. injection X2 as <-. exists th'. split; [exact X1|]. split; [eapply nth_set; eauto|]. split; congruence.
  - exists x. rewrite nth_other by exact NE. auto.
Qed.
Lemma place_set : forall ths t th, Forall placed ths -> placed th -> Forall placed (set_nth ths t th).
Proof. intros ths t th F P. apply Forall_forall. intros y I. apply in_set in I as [->|I]; [exact P|]. rewrite Forall_forall in F. now apply F. Qed.
Lemma out_rsv_ok : forall op l rsv d ret rsv' d' l', Forall bit_ok l -> rsv_ok rsv -> out_loop C out_perform alloc_ok op 0 l rsv d = (ret, rsv', d', l') -> rsv_ok rsv'.
Proof.
  intros op l. induction l as [|e l IH]; intros rsv d ret rsv' d' l' F R E; cbn [out_loop] in E.
  - injection E as <- <- <- <-. exact R.
  - inversion F as [|? ? [B1 _] F']; subst. destruct (if e_enabled e then e_out e else None) as [f|].
    + destruct (out_perform f (e_ctx e) op d 0 (e_out_data e)) as [[x|] c]; [|injection E as <- <- <- <-; exact R]. rewrite AL in E.
      destruct (out_loop C out_perform alloc_ok op 0 l (Z.lor rsv (e_rsv e)) x) as [[[r1 r2] r3] r4] eqn:O. injection E as <- <- <- <-. apply (IH _ _ _ _ _ _ F' (rsv_lor _ _ R B1) O).
    + destruct (out_loop C out_perform alloc_ok op 0 l rsv d) as [[[r1 r2] r3] r4] eqn:O. injection E as <- <- <- <-. exact (IH _ _ _ _ _ _ F' R O).
Qed.
Lemma rsv_ok_0 : rsv_ok 0.
Proof. exists 0. lia. Qed.
Lemma made_ok : forall l x ret rsv d l', like exts l -> accepted exts x -> out_message C out_perform alloc_ok (snd (fst x)) 0 l (snd x) = (ret, rsv, d, l') -> ret = U_OK /\ made x rsv d.
Proof.
  intros l x ret rsv d l' L [SE A] E. destruct (A _ _ _ _ _ L E) as (-> & B & Z & F). split; [reflexivity|]. split; [|split; [exact B|split; [exact Z|split; [exact F|]]]].
  - unfold out_message in E. rewrite AL in E. cbn [negb] in E. rewrite andb_false_r in E. destruct (negb (zlen l =? 0) && _).
    + eapply out_rsv_ok; [eapply like_bits; [exact L|exact BO]|apply rsv_ok_0|exact E].
    + injection E as <- <- <-. apply rsv_ok_0.
  - intros N. destruct SE as (_ & _ & [[O _]|[O|[O _]]]).
    + unfold is_data in N. rewrite O in N. discriminate.
    + unfold is_data in N. rewrite O in N. discriminate.
    + rewrite (control_message C out_perform alloc_ok AL _ _ _ O) in E. injection E as <- <- <-. auto.
Qed.
Lemma stand_app : forall xs ps ms x p m, stand server xs ps ms -> stands server x p m -> stand server (xs ++ [x]) (ps ++ [p]) (ms ++ [m]).
Proof.
  induction 1 as [|x0 p0 m0 xs ps ms S0 ST IH]; intros S1; cbn [app].
  - apply sd_cons; [exact S1|apply sd_nil].
  - apply sd_cons; [exact S0|now apply IH].
Qed.
Lemma sendable_op : forall op d, sendable op d -> In op [1; 2; 9; 10].
Proof. intros op d (_ & _ & [[-> _]|[->|[[->| ->] _]]]); cbn; auto. Qed.

Lemma act_ok : forall s a, inv s -> exists s', act s a = Ret s' /\ moves s s' /\ inv s'.
Proof.
  intros s a I. pose proof I as (CO & LI & PL & parts & ws & wm & SP & ME & WI & FW & ST). destruct a as [t|t|t]; cbn [CrowdModel.act].
  - destruct (nth_error (k_threads s) t) as [[[|x r] [| |] rets]|] eqn:E; try (exists s; split; [reflexivity|split; [constructor|exact I]]).
    rewrite CO. eexists. split; [reflexivity|]. split; [rewrite <- CO; eapply mv_enter; eauto|]. split; [reflexivity|]. split; [exact LI|]. split; [apply place_set; [exact PL|exact Logic.I]|].
    exists parts, ws, wm. split; [eapply parts_same; eauto|]. auto.
  - destruct (nth_error (k_threads s) t) as [[[|[[ch op] data] r] [| |] rets]|] eqn:E; try (exists s; split; [reflexivity|split; [constructor|exact I]]).
    pose proof (acc_at _ _ _ _ _ _ _ SP E) as A. destruct (out_message C out_perform alloc_ok op 0 (k_exts s) data) as [[[ret rsv] d] l] eqn:O.
    destruct (made_ok _ _ _ _ _ _ LI A O) as [-> MA]. change (U_OK =? U_OK) with true. cbv iota. eexists. split; [reflexivity|]. split; [eapply mv_leave; eauto; apply A|].
    split; [exact CO|]. split; [eapply like_trans; [exact LI|eapply out_like; eauto]|]. split; [apply place_set; [exact PL|exact MA]|]. exists parts, ws, wm. split; [eapply parts_same; eauto|]. auto.
  - destruct (nth_error (k_threads s) t) as [[[|[[ch op] data] r] [| |rsv d] rets]|] eqn:E; try (exists s; split; [reflexivity|split; [constructor|exact I]]).
    pose proof (acc_at _ _ _ _ _ _ _ SP E) as [SE _]. cbn [fst snd] in SE.
    assert (MA : made (ch, op, data) rsv d) by (rewrite Forall_forall in PL; apply nth_error_In in E; exact (PL _ E)). destruct MA as (RO & BY & LE & FO & _). cbn [fst snd] in FO.
    destruct (wire_one ch op rsv d (sendable_op _ _ SE) RO BY LE FO) as (m & w & css & evs' & m' & SM & CC & WW & OG & HM & MO & MD & MR). rewrite CO, SM. unfold bind.
    eexists. split; [reflexivity|]. split; [rewrite <- CO; eapply mv_send; eauto|]. split; [reflexivity|]. split; [exact LI|]. split; [apply place_set; [exact PL|unfold placed; cbn; destruct r; exact Logic.I]|].
    cbn [k_threads k_sent k_wire]. destruct (parts_at _ _ _ _ SP E) as (d0 & EP & E0 & ER). cbn [t_todo t_rets] in *.
    exists (set_nth parts t (d0 ++ [(ch, op, data)])), (ws ++ [w]), (wm ++ [m]). split; [|split; [|split; [|split]]].
    + destruct SP as (L1 & L2 & P). split; [now rewrite set_len|]. split; [unfold with_thread; now rewrite set_len|]. intros u p EU. destruct (Nat.eq_dec t u) as [->|NE].
      * rewrite EP in EU. injection EU as <-. do 2 eexists. split; [eapply nth_set; eauto|]. split; [unfold with_thread; eapply nth_set; eauto|]. cbn [t_todo t_rets]. split; [rewrite <- app_assoc; reflexivity|]. rewrite map_app, ER. reflexivity.
      * destruct (P u p EU) as (d1 & th & X1 & X2 & X3). exists d1, th. unfold with_thread. rewrite !nth_other by exact NE. auto.
    + rewrite map_app. cbn [map fst]. now apply merged_more.
    + rewrite !concat_app, WI, CC. cbn [concat]. rewrite app_nil_r. unfold block_of. now rewrite map_app.
    + apply Forall2_app; [exact FW|]. constructor; [exact WW|constructor].
    + rewrite !map_app. cbn [map fst snd]. apply stand_app; [exact ST|]. unfold stands. cbn [msg fst snd]. rewrite MD. auto 10.
Qed.
Lemma inv_begin : inv (begin C exts progs).
Proof.
  split; [reflexivity|]. split; [apply like_refl|]. split; [apply Forall_forall; intros th I; apply in_map_iff in I as (p & <- & _); unfold placed; cbn; now destruct p|].
  exists (map (fun _ => []) progs), [], []. split; [|split; [|split; [reflexivity|split; constructor]]].
  - split; [now rewrite map_length|]. split; [cbn; now rewrite map_length|]. intros t p E. exists [], (mk_thread p Outside []). split; [exact (map_nth_error (fun _ => []) _ _ E)|]. split; [exact (map_nth_error _ _ _ E)|]. auto.
  - constructor. apply Forall_forall. intros x I. apply in_map_iff in I as (? & <- & _). reflexivity.
Qed.
Lemma run_app : forall a b s, run s (a ++ b) = bind (run s a) (fun s1 => run s1 b).
Proof. induction a as [|x a IH]; intros b s; [reflexivity|]. cbn [app CrowdModel.run]. destruct (act s x); [|reflexivity]. unfold bind at 1 3. apply IH. Qed.

(** what was sent is what the extensions make of it in this order *)
Definition in_step (s : crowd C) : Prop := encoded exts (map (fun x => msg (fst x)) (k_sent s)) (map snd (k_sent s)).
Definition so_far (s : crowd C) (mid : list (ext C)) : Prop :=
  forall xs ps, encoded mid xs ps -> encoded exts (map (fun x => msg (fst x)) (k_sent s) ++ xs) (map snd (k_sent s) ++ ps).
Lemma so_far_in_step : forall s mid, so_far s mid -> in_step s.
Proof. intros s mid S. specialize (S [] [] (en_nil _ _ _)). now rewrite !app_nil_r in S. Qed.
Lemma data_op : forall x, sendable (snd (fst x)) (snd x) -> is_data x = true -> snd (fst x) = 1 \/ snd (fst x) = 2.
Proof. intros x (_ & _ & _) E. unfold is_data in E. apply orb_true_iff in E as [E|E]; apply Z.eqb_eq in E; auto. Qed.
Lemma control_op : forall x, sendable (snd (fst x)) (snd x) -> is_data x = false -> snd (fst x) = 9 \/ snd (fst x) = 10.
Proof. intros x (_ & _ & [[O _]|[O|[O _]]]) E; unfold is_data in E; [rewrite O in E; discriminate|rewrite O in E; discriminate|exact O]. Qed.
Lemma so_far_control : forall s mid x rsv d ths w, sendable (snd (fst x)) (snd x) -> is_data x = false -> rsv = 0 -> d = snd x -> so_far s mid ->
  so_far (mk_crowd (k_exts s) (k_conn s) ths (k_sent s ++ [(x, (rsv, d))]) w) mid.
Proof.
  intros s mid x rsv d ths w SE N -> -> S xs ps E. cbn [k_sent]. rewrite !map_app, <- !app_assoc. cbn [map app fst snd]. apply S. unfold msg. apply en_control; [now apply control_op|exact E].
Qed.
Lemma so_far_data : forall s mid x rsv d ths w l, sendable (snd (fst x)) (snd x) -> is_data x = true -> through (snd (fst x)) mid 0 (snd x) rsv d l -> so_far s mid ->
  so_far (mk_crowd (k_exts s) (k_conn s) ths (k_sent s ++ [(x, (rsv, d))]) w) l.
Proof.
  intros s mid x rsv d ths w l SE N T S xs ps E. cbn [k_sent]. rewrite !map_app, <- !app_assoc. cbn [map app fst snd]. apply S. unfold msg. eapply en_data; [now apply data_op|exact T|exact E].
Qed.

(** ** extensions without memory *)
Definition inv_m (s : crowd C) : Prop :=
  exists mid, like exts mid /\ so_far s mid /\
    Forall (fun th => match t_todo th, t_place th with x :: _, Made rsv d => is_data x = true -> forall l, like exts l -> exists l', through (snd (fst x)) l 0 (snd x) rsv d l' /\ like l l' | _, _ => True end) (k_threads s).
Lemma moves_m : forall s s', Forall (memoryless C out_perform) exts -> inv s -> inv_m s -> moves s s' -> inv_m s'.
Proof.
  intros s s' ML I (mid & LI & SF & F) M. destruct M as [|t x r rets E|t x r rets rsv d l E SE MA O|t x r rets rsv d pieces E SE].
  - exists mid. auto.
  - exists mid. split; [exact LI|]. split; [exact SF|]. cbn [k_threads]. apply Forall_forall. intros y Y. apply in_set in Y as [->|Y]; [exact Logic.I|]. rewrite Forall_forall in F. now apply F.
  - exists mid. split; [exact LI|]. split; [exact SF|]. cbn [k_threads]. apply Forall_forall. intros y Y. apply in_set in Y as [->|Y]; [|rewrite Forall_forall in F; now apply F].
    cbn [t_todo t_place]. intros D k LK. apply (out_data _ _ _ _ _ _ (data_op _ SE D)) in O.
    assert (LE : like (k_exts s) k /\ Forall (memoryless C out_perform) (k_exts s)).
    { destruct I as (_ & L & _). clear -L LK ML. revert k LK ML. induction L as [|a b p q (u & ->) L IH]; intros k LK ML; inversion LK as [|? c ? k' (v & ->) LK']; subst; [split; constructor|].
      inversion ML as [|? ? M1 M2]; subst. destruct (IH _ LK' M2) as [A B]. split; constructor; auto. exists v. now destruct a. }
    destruct LE as [LE ME]. eapply through_memoryless; eauto.
  - assert (FA : Forall (fun th => match t_todo th, t_place th with x :: _, Made rsv d => is_data x = true -> forall l, like exts l -> exists l', through (snd (fst x)) l 0 (snd x) rsv d l' /\ like l l' | _, _ => True end)
        (set_nth (k_threads s) t (mk_thread r Outside (rets ++ [U_OK])))).
    { apply Forall_forall. intros y Y. apply in_set in Y as [->|Y]; [cbn; destruct r; exact Logic.I|]. rewrite Forall_forall in F. now apply F. }
    assert (IN := nth_error_In _ _ E). destruct (is_data x) eqn:D.
    + rewrite Forall_forall in F. specialize (F _ IN). cbn [t_todo t_place] in F. destruct (F D mid LI) as (l & T & L). exists l. split; [eapply like_trans; eauto|]. split; [eapply so_far_data; eauto|exact FA].
    + exists mid. split; [exact LI|]. split; [|exact FA]. destruct I as (_ & _ & PL & _). rewrite Forall_forall in PL. destruct (PL _ IN) as (_ & _ & _ & _ & MC). destruct (MC D) as [R0 D0]. now apply so_far_control.
Qed.
Lemma run_m : forall acts s, Forall (memoryless C out_perform) exts -> inv s -> inv_m s -> exists s', run s acts = Ret s' /\ inv s' /\ inv_m s'.
Proof.
  induction acts as [|a acts IH]; intros s ML I M; [exists s; auto|]. destruct (act_ok s a I) as (s1 & E & MV & I1). cbn [CrowdModel.run]. rewrite E. unfold bind. exact (IH s1 ML I1 (moves_m s s1 ML I M MV)).
Qed.

(** ** one data message after the other *)
Definition pending (th : thread) (mid now : list (ext C)) : Prop :=
  match t_todo th, t_place th with x :: _, Made rsv d => is_data x = true -> through (snd (fst x)) mid 0 (snd x) rsv d now | _, _ => True end.
Definition holds (th : thread) : bool := match t_todo th, t_place th with x :: _, Made _ _ => is_data x | _, _ => false end.
Definition inv_a (s : crowd C) : Prop :=
  exists mid, so_far s mid /\ Forall (fun th => pending th mid (k_exts s)) (k_threads s) /\ (Forall (fun th => holds th = false) (k_threads s) -> mid = k_exts s) /\
    (forall t u x y, nth_error (k_threads s) t = Some x -> nth_error (k_threads s) u = Some y -> amid x = true -> amid y = true -> t = u).
Lemma holds_amid : forall th, holds th = true -> amid th = true.
Proof. intros [[|x r] [| |]]; cbn; auto; discriminate. Qed.
Lemma unique_set : forall (ths : list thread) t th th', nth_error ths t = Some th -> (amid th' = true -> amid th = true) ->
  (forall t u x y, nth_error ths t = Some x -> nth_error ths u = Some y -> amid x = true -> amid y = true -> t = u) ->
  forall a b x y, nth_error (set_nth ths t th') a = Some x -> nth_error (set_nth ths t th') b = Some y -> amid x = true -> amid y = true -> a = b.
Proof.
  intros ths t th th' E AM U a b x y A B AX AY. destruct (Nat.eq_dec t a) as [->|NA].
  - rewrite (nth_set _ _ _ _ th' E) in A. injection A as <-. destruct (Nat.eq_dec a b) as [->|NB]; [reflexivity|]. rewrite nth_other in B by exact NB. eapply U; [exact E|exact B|auto|auto].
  - rewrite nth_other in A by exact NA. destruct (Nat.eq_dec t b) as [->|NB].
    + rewrite (nth_set _ _ _ _ th' E) in B. injection B as <-. eapply U; [exact A|exact E|auto|auto].
    + rewrite nth_other in B by exact NB. eapply U; eauto.
Qed.
Lemma moves_a : forall s a s', inv s -> inv_a s -> alone C s a -> act s a = Ret s' -> moves s s' -> inv_a s'.
Proof.
  intros s a s' I (mid & SF & F & NH & U) AL1 AC M. destruct M as [|t x r rets E|t x r rets rsv d l E SE MA O|t x r rets rsv d pieces E SE].
  - exists mid. auto.
  - exists mid. split; [exact SF|]. cbn [k_threads k_exts]. split; [|split].
    + apply Forall_forall. intros y Y. apply in_set in Y as [->|Y]; [exact Logic.I|]. rewrite Forall_forall in F. now apply F.
    + intros H. apply NH. apply Forall_forall. intros y Y. apply In_nth_error in Y as (u & Y). destruct (Nat.eq_dec t u) as [->|NE]; [rewrite E in Y; injection Y as <-; reflexivity|].
      rewrite Forall_forall in H. apply H. apply nth_error_In with u. rewrite nth_other by exact NE. exact Y.
    + destruct (is_data x) eqn:D; [|eapply unique_set; [exact E|cbn; congruence|exact U]].
      assert (NO : forall th, In th (k_threads s) -> amid th = false).
      { destruct a as [t'|t'|t']; cbn [CrowdModel.act] in AC.
        - cbn [alone] in AL1. destruct (Nat.eq_dec t t') as [<-|NE]; [rewrite E in AL1; now apply AL1|]. exfalso.
          assert (AC' : nth_error (k_threads (mk_crowd (k_exts s) (k_conn s) (set_nth (k_threads s) t (mk_thread (x :: r) Inside rets)) (k_sent s) (k_wire s))) t = Some (mk_thread (x :: r) Inside rets)) by (cbn; eapply nth_set; eauto).
          injection AC as AC. rewrite <- AC in AC'. destruct (nth_error (k_threads s) t') as [[[|x' r'] [| |] rets']|]; try (rewrite E in AC'; discriminate).
          cbn [k_threads] in AC'. unfold with_thread in AC'. rewrite nth_other in AC' by congruence. rewrite E in AC'. discriminate.
        - exfalso. assert (AC' : nth_error (k_threads (mk_crowd (k_exts s) (k_conn s) (set_nth (k_threads s) t (mk_thread (x :: r) Inside rets)) (k_sent s) (k_wire s))) t = Some (mk_thread (x :: r) Inside rets)) by (cbn; eapply nth_set; eauto).
          injection AC as AC. rewrite <- AC in AC'. destruct (nth_error (k_threads s) t') as [[[|[[ch op] data] r'] [| |] rets']|] eqn:E'; try (rewrite E in AC'; discriminate).
          assert (NE : t' <> t) by (intros ->; rewrite E in E'; discriminate).
          destruct (out_message C out_perform alloc_ok op 0 (k_exts s) data) as [[[ret rsv] d] l]. cbn [k_threads] in AC'. unfold with_thread in AC'. rewrite nth_other in AC' by exact NE. rewrite E in AC'. discriminate.
        - exfalso. assert (AC' : forall s1, Ret s1 = Ret (mk_crowd (k_exts s) (k_conn s) (set_nth (k_threads s) t (mk_thread (x :: r) Inside rets)) (k_sent s) (k_wire s)) -> nth_error (k_threads s1) t = Some (mk_thread (x :: r) Inside rets)) by (intros s1 [= ->]; cbn; eapply nth_set; eauto).
          destruct (nth_error (k_threads s) t') as [[[|[[ch op] data] r'] [| |rsv d] rets']|] eqn:E'; try (apply AC' in AC; rewrite E in AC; discriminate).
          assert (NE : t' <> t) by (intros ->; rewrite E in E'; discriminate).
          destruct (send_managed server alloc_ok (c_locked ch) (c_evs ch) (k_conn s) (built server op rsv (c_key ch) d) 0) as [[[[[ret css] ev] conn] m']|]; [|discriminate]. unfold bind in AC. apply AC' in AC.
          cbn [k_threads] in AC. unfold with_thread in AC. rewrite nth_other in AC by exact NE. rewrite E in AC. discriminate. }
      intros p q y z P Q AY AZ. destruct (Nat.eq_dec t p) as [->|NP]; [|rewrite nth_other in P by exact NP; apply nth_error_In in P; rewrite (NO _ P) in AY; discriminate].
      destruct (Nat.eq_dec p q) as [->|NQ]; [reflexivity|]. rewrite nth_other in Q by exact NQ. apply nth_error_In in Q. rewrite (NO _ Q) in AZ. discriminate.
  - destruct (is_data x) eqn:D.
    + assert (OT : forall u y, nth_error (k_threads s) u = Some y -> u <> t -> amid y = false).
      { intros u y Y N. destruct (amid y) eqn:AY; [|reflexivity]. exfalso. apply N. eapply U; [exact Y|exact E|exact AY|cbn; exact D]. }
      assert (EQ : mid = k_exts s).
      { apply NH. apply Forall_forall. intros y Y. apply In_nth_error in Y as (u & Y). destruct (Nat.eq_dec u t) as [->|NE]; [rewrite E in Y; injection Y as <-; reflexivity|].
        specialize (OT u y Y NE). destruct (holds y) eqn:H; [apply holds_amid in H; congruence|reflexivity]. }
      subst mid. apply (out_data _ _ _ _ _ _ (data_op _ SE D)) in O. exists (k_exts s). split; [exact SF|]. cbn [k_threads k_exts]. split; [|split].
      * apply Forall_forall. intros y Y. apply In_nth_error in Y as (u & Y). destruct (Nat.eq_dec t u) as [->|NE].
        -- rewrite (nth_set _ _ _ _ _ E) in Y. injection Y as <-. unfold pending. cbn [t_todo t_place]. auto.
        -- rewrite nth_other in Y by exact NE. assert (N2 : u <> t) by congruence. specialize (OT u y Y N2). unfold pending. destruct y as [[|z zs] [| |p q] rr]; try exact Logic.I. cbn [amid t_todo t_place] in OT |- *. congruence.
      * intros H. exfalso. rewrite Forall_forall in H. assert (X := H _ (nth_error_In _ _ (nth_set _ _ _ _ (mk_thread (x :: r) (Made rsv d) rets) E))). cbn in X. congruence.
      * eapply unique_set; [exact E|cbn; auto|exact U].
    + assert (L : l = k_exts s) by (rewrite (control_message C out_perform alloc_ok AL _ _ _ (control_op _ SE D)) in O; now injection O as _ _ <-). subst l.
      exists mid. split; [exact SF|]. cbn [k_threads k_exts]. split; [|split].
      * apply Forall_forall. intros y Y. apply in_set in Y as [->|Y]; [unfold pending; cbn; congruence|]. rewrite Forall_forall in F. now apply F.
      * intros H. apply NH. apply Forall_forall. intros y Y. apply In_nth_error in Y as (u & Y). destruct (Nat.eq_dec t u) as [->|NE]; [rewrite E in Y; injection Y as <-; reflexivity|].
        rewrite Forall_forall in H. apply H. apply nth_error_In with u. rewrite nth_other by exact NE. exact Y.
      * eapply unique_set; [exact E|cbn; congruence|exact U].
  - assert (IN := nth_error_In _ _ E). assert (NS : amid (mk_thread r Outside (rets ++ [U_OK])) = false) by now destruct r.
    assert (US : forall a b y z, nth_error (set_nth (k_threads s) t (mk_thread r Outside (rets ++ [U_OK]))) a = Some y -> nth_error (set_nth (k_threads s) t (mk_thread r Outside (rets ++ [U_OK]))) b = Some z -> amid y = true -> amid z = true -> a = b).
    { eapply unique_set; [exact E|congruence|exact U]. }
    destruct (is_data x) eqn:D.
    + assert (OT : forall u y, nth_error (k_threads s) u = Some y -> u <> t -> amid y = false).
      { intros u y Y N. destruct (amid y) eqn:AY; [|reflexivity]. exfalso. apply N. eapply U; [exact Y|exact E|exact AY|cbn; exact D]. }
      assert (T : through (snd (fst x)) mid 0 (snd x) rsv d (k_exts s)) by (rewrite Forall_forall in F; exact (F _ IN D)).
      exists (k_exts s). split; [eapply so_far_data; eauto|]. cbn [k_threads k_exts]. split; [|split; [reflexivity|exact US]].
      apply Forall_forall. intros y Y. apply In_nth_error in Y as (u & Y). destruct (Nat.eq_dec t u) as [->|NE].
      * rewrite (nth_set _ _ _ _ _ E) in Y. injection Y as <-. unfold pending. cbn. now destruct r.
      * rewrite nth_other in Y by exact NE. assert (N2 : u <> t) by congruence. specialize (OT u y Y N2). unfold pending. destruct y as [[|z zs] [| |p q] rr]; try exact Logic.I. cbn [amid t_todo t_place] in OT |- *. congruence.
    + exists mid. split; [destruct I as (_ & _ & PL & _); rewrite Forall_forall in PL; destruct (PL _ IN) as (_ & _ & _ & _ & MC); destruct (MC D) as [R0 D0]; now apply so_far_control|]. cbn [k_threads k_exts]. split; [|split; [|exact US]].
      * apply Forall_forall. intros y Y. apply in_set in Y as [->|Y]; [unfold pending; cbn; now destruct r|]. rewrite Forall_forall in F. now apply F.
      * intros H. apply NH. apply Forall_forall. intros y Y. apply In_nth_error in Y as (u & Y). destruct (Nat.eq_dec t u) as [->|NE]; [rewrite E in Y; injection Y as <-; exact D|].
        rewrite Forall_forall in H. apply H. apply nth_error_In with u. rewrite nth_other by exact NE. exact Y.
Qed.
Lemma run_a : forall acts s, inv s -> inv_a s -> alone_all C out_perform alloc_ok server s acts -> exists s', run s acts = Ret s' /\ inv s' /\ inv_a s'.
Proof.
  induction acts as [|a acts IH]; intros s I A AO; [exists s; auto|]. destruct AO as [A1 AR]. destruct (act_ok s a I) as (s1 & E & MV & I1). cbn [CrowdModel.run]. rewrite E in AR |- *. unfold bind in *. exact (IH s1 I1 (moves_a s a s1 I A A1 E MV) AR).
Qed.
Lemma run_i : forall acts s, inv s -> exists s', run s acts = Ret s' /\ inv s'.
Proof. induction acts as [|a acts IH]; intros s I; [exists s; auto|]. destruct (act_ok s a I) as (s1 & E & MV & I1). cbn [CrowdModel.run]. rewrite E. unfold bind. now apply IH. Qed.
Lemma begin_m : inv_m (begin C exts progs).
Proof.
  exists exts. split; [apply like_refl|]. split; [intros xs ps E; exact E|]. apply Forall_forall. intros th I. apply in_map_iff in I as (p & <- & _). cbn. now destruct p.
Qed.
Lemma begin_a : inv_a (begin C exts progs).
Proof.
  exists exts. split; [intros xs ps E; exact E|]. split; [|split; [reflexivity|]].
  - apply Forall_forall. intros th I. apply in_map_iff in I as (p & <- & _). unfold pending. cbn. now destruct p.
  - intros t u x y T _ AX _. apply nth_error_In, in_map_iff in T as (p & <- & _). destruct p; discriminate.
Qed.

(** ** at the other end *)
Lemma arrives : forall s ws wm exts', in_step s -> Forall2 (fun m w => wire (whole m) w) wm ws -> stand server (map (fun x => msg (fst x)) (k_sent s)) (map snd (k_sent s)) wm ->
  Forall2 (paired C out_perform in_perform) exts exts' -> bits_apart C exts -> Forall (fun e => e_in_data e = e_out_data e) exts' ->
  forall evs, calm evs -> stream evs = concat ws -> exists k, forall is, Forall undisturbed is -> (k <= length is)%nat ->
    map bare (seen (fst (run_x C in_perform alloc_ok (negb server) rx (start evs, exts') is))) = flat_map (fun x => expected (snd (fst x)) (snd x)) (map fst (k_sent s)).
Proof.
  intros s ws wm exts' EN W ST P A UD evs CA S.
  destruct (receive_x C out_perform in_perform alloc_ok AL rx (negb server) _ _ _ EN wm ws) with (l' := exts') (s := start evs) as (k & R); auto; [rewrite negb_involutive; exact ST|].
  exists k. intros is UN L. rewrite R by assumption. cbn [start seen w_out flat_map map app]. rewrite !flat_map_concat_map, !map_map. reflexivity.
Qed.
End Crowd.
