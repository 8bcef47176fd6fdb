(** Proofs about sending and message lists. *)
From Coq Require Import ZArith Bool List Lia.
From Verif Require Import Base BaseFacts WsFrameModel WsSendModel WsSendSpec.
Import ListNotations.
Open Scope Z_scope.

Section S.
Variable server : bool.
Variable alloc_ok : Z -> bool.
Notation send_frame := (send_frame server).
Notation send_loop := (send_loop server alloc_ok).

Lemma send_frame_nil : forall evs conn, send_frame evs conn [] = ([], evs, conn).
Proof. intros [|e evs] conn; reflexivity. Qed.

Lemma send_frame_beginning : forall evs conn f cs evs' c', send_frame evs conn f = (cs, evs', c') -> beginning cs f.
Proof.
  induction evs as [|e evs IH]; intros conn f cs evs' c' H.
  - exists f. destruct f; cbn in H; injection H as <- <- <-; reflexivity.
  - destruct f as [|x f]; [cbn in H; injection H as <- <- <-; exists []; reflexivity|].
    cbn [WsSendModel.send_frame] in H. set (g := x :: f) in *. clearbody g.
    destruct (if server then e_poll e else WReady); try (injection H as <- <- <-; exists g; reflexivity).
    destruct (e_ret e) as [n|]; [|injection H as <- <- <-; exists g; reflexivity].
    destruct (send_frame evs conn (zskipn n g)) as [[cs0 e0] c0] eqn:R. injection H as <- <- <-.
    destruct (IH _ _ _ _ _ R) as (rest & E). exists rest. cbn [concat]. rewrite <- app_assoc, <- E. symmetry. apply zfirstn_zskipn.
Qed.

Lemma send_frame_all : forall evs conn f, Forall willing evs -> (length f <= length evs)%nat ->
  exists cs used evs', send_frame evs conn f = (cs, evs', conn) /\ concat cs = f /\ evs = used ++ evs' /\ (length used <= length f)%nat.
Proof.
  induction evs as [|e evs IH]; intros conn f W L.
  - destruct f; [|cbn in L; lia]. exists [], [], []. auto.
  - apply Forall_cons_iff in W as [[W1 (n & W2 & W3)] W].
    destruct f as [|x f]; [exists [], [], (e :: evs); cbn; auto|].
    cbn [WsSendModel.send_frame]. rewrite W1. replace (if server then WReady else WReady) with WReady by (destruct server; reflexivity).
    rewrite W2. cbn [length] in L. assert (S : (length (zskipn n (x :: f)) <= length f)%nat).
    { unfold zskipn. rewrite skipn_length. cbn [length]. lia. }
    destruct (IH conn (zskipn n (x :: f)) W) as (cs & used & evs' & E & C & U & LU); [lia|].
    rewrite E. exists (zfirstn n (x :: f) :: cs), (e :: used), evs'. split; [reflexivity|]. split.
    + cbn [concat]. rewrite C. apply zfirstn_zskipn.
    + split; [cbn; congruence|]. cbn [length]. lia.
Qed.

Lemma send_loop_ok : forall fuel evs conn m fragment off frames m2, frames_loop fuel m fragment off = Ret (frames, m2) ->
  exists ret css evs' conn' m', send_loop fuel evs conn m fragment off = Ret (ret, css, evs', conn', m') /\
  exists done undone, frames = done ++ undone /\ Forall2 beginning css done /\
    (undone = [] -> ret = U_OK /\ m' = m2) /\ (undone <> [] -> ret = U_ERROR_MEMORY).
Proof.
  induction fuel as [|fuel IH]; intros evs conn m fragment off frames m2 H; cbn [frames_loop WsSendModel.send_loop] in *.
  - injection H as <- <-. exists U_OK, [], evs, conn, m. split; [reflexivity|]. exists [], []. split; [reflexivity|]. split; [constructor|]. split; [auto|congruence].
  - destruct (off <? zlen (m_data m)); [|injection H as <- <-; exists U_OK, [], evs, conn, m; split; [reflexivity|]; exists [], []; split; [reflexivity|]; split; [constructor|]; split; [auto|congruence]].
    cbv zeta in H |- *. set (cur := if fragment =? 0 then _ else _) in *.
    destruct (build_frame m off cur) as [f|]; [|discriminate]. cbn [bind] in H |- *.
    destruct (frames_loop fuel (set_opcode m OP_CONTINUE) fragment (off + cur)) as [[fr m3]|] eqn:FL; [|discriminate].
    cbn [bind fst snd] in H. injection H as <- <-.
    destruct (alloc_ok (zlen f)).
    + destruct (send_frame evs conn f) as [[cs e1] c1] eqn:SF.
      destruct (IH e1 c1 _ _ _ _ _ FL) as (ret & css & e2 & c2 & m' & E & done & undone & D1 & D2 & D3 & D4).
      rewrite E. cbn [bind]. exists ret, (cs :: css), e2, c2, m'. split; [reflexivity|]. exists (f :: done), undone.
      split; [cbn; congruence|]. split; [constructor; auto; eapply send_frame_beginning; eauto|]. auto.
    + exists U_ERROR_MEMORY, [], evs, conn, m. split; [reflexivity|]. exists [], (f :: fr).
      split; [reflexivity|]. split; [constructor|]. split; [discriminate|auto].
Qed.

Definition total (frames : list buf) : nat := length (concat frames).

Lemma send_loop_all : (forall n, alloc_ok n = true) -> forall fuel evs conn m fragment off frames m2, frames_loop fuel m fragment off = Ret (frames, m2) ->
  Forall willing evs -> (total frames <= length evs)%nat ->
  exists css evs', send_loop fuel evs conn m fragment off = Ret (U_OK, css, evs', conn, m2) /\ map (@concat _) css = frames.
Proof.
  intros AL. induction fuel as [|fuel IH]; intros evs conn m fragment off frames m2 H W L; cbn [frames_loop WsSendModel.send_loop] in *.
  - injection H as <- <-. exists [], evs. auto.
  - destruct (off <? zlen (m_data m)); [|injection H as <- <-; exists [], evs; auto].
    cbv zeta in H |- *. set (cur := if fragment =? 0 then _ else _) in *.
    destruct (build_frame m off cur) as [f|]; [|discriminate]. cbn [bind] in H |- *.
    destruct (frames_loop fuel (set_opcode m OP_CONTINUE) fragment (off + cur)) as [[fr m3]|] eqn:FL; [|discriminate].
    cbn [bind fst snd] in H. injection H as <- <-. rewrite AL. unfold total in L. cbn [concat] in L. rewrite app_length in L.
    destruct (send_frame_all evs conn f W) as (cs & used & e1 & SF & C & U & LU); [lia|]. rewrite SF.
    assert (W1 : Forall willing e1) by (rewrite U in W; apply Forall_app in W; tauto).
    destruct (IH e1 conn _ _ _ _ _ FL W1) as (css & e2 & E & M).
    { assert (X := f_equal (@length _) U). rewrite app_length in X. unfold total. lia. }
    rewrite E. cbn [bind]. exists (cs :: css), e2. split; [reflexivity|]. cbn [map]. f_equal; [exact C|exact M].
Qed.
End S.

(** ** several senders *)

(** pieces of the frames [frames] so far, [rest] of the frames still to be sent *)
Inductive pieces : list buf -> list buf -> list buf -> Prop :=
| pi_none : forall frames, pieces frames frames []
| pi_piece : forall frames f rest cs n, pieces frames (f :: rest) cs -> pieces frames (zskipn n f :: rest) (cs ++ [zfirstn n f])
| pi_next : forall frames f rest cs, pieces frames (f :: rest) cs -> pieces frames rest cs.

Lemma pieces_beginning : forall frames rest cs, pieces frames rest cs ->
  exists done part tail, frames = done ++ tail /\ (exists parts, Forall2 beginning parts done /\ cs = concat parts ++ part) /\
    match tail with
    | [] => rest = [] /\ part = []
    | f :: more => (exists g, rest = g :: more /\ f = concat part ++ g)
    end.
Proof.
  induction 1 as [frames|frames f rest cs n H IH|frames f rest cs H IH].
  - exists [], [], frames. split; [reflexivity|]. split; [exists []; split; [constructor|reflexivity]|].
    destruct frames as [|f more]; [auto|]. exists f. auto.
  - destruct IH as (done & part & tail & E & (parts & P1 & P2) & T). destruct tail as [|f0 more]; [destruct T as [T _]; discriminate|].
    destruct T as (g & T & F). injection T as <- <-. exists done, (part ++ [zfirstn n f]), (f0 :: rest). split; [exact E|].
    split; [exists parts; split; [exact P1|rewrite P2, app_assoc; reflexivity]|].
    exists (zskipn n f). split; [reflexivity|]. rewrite concat_app. cbn [concat]. rewrite app_nil_r, <- app_assoc, zfirstn_zskipn. exact F.
  - destruct IH as (done & part & tail & E & (parts & P1 & P2) & T). destruct tail as [|f0 more]; [destruct T as [T _]; discriminate|].
    destruct T as (g & T & F). injection T as <- <-. exists (done ++ [f0]), [], rest. split; [rewrite <- app_assoc; exact E|].
    split.
    + exists (parts ++ [part]). split; [apply Forall2_app; [exact P1|constructor; [exists f; exact F|constructor]]|].
      rewrite concat_app. cbn [concat]. rewrite !app_nil_r. exact P2.
    + destruct rest as [|f1 more]; [auto|]. exists f1. auto.
Qed.

Definition tagged (id : nat * nat) (cs : list buf) : list (nat * nat * buf) := map (fun c => (id, c)) cs.

(** what the log looks like *)
Record sound (w : world) : Prop := {
  sd_lock : forall t, match fst (senders w t) with Away => lock w <> Some t | Sending _ => lock w = Some t end;
  sd_ids : forall t k fr, In (t, k, fr) (started w) -> match fst (senders w t) with Away => (k < snd (senders w t))%nat | Sending _ => (k <= snd (senders w t))%nat end;
  sd_log : exists old parts, log w = concat parts /\
    match lock w with
    | None => started w = old /\ Forall2 (fun o p => exists cs rest, p = tagged (fst o) cs /\ pieces (snd o) rest cs) old parts
    | Some t => exists k frames rest, senders w t = (Sending rest, k) /\ started w = old ++ [(t, k, frames)] /\
        exists parts' cs, parts = parts' ++ [tagged (t, k) cs] /\ pieces frames rest cs /\
          Forall2 (fun o p => exists cs rest, p = tagged (fst o) cs /\ pieces (snd o) rest cs) old parts' /\
          (forall fr, ~ In (t, k, fr) old)
    end;
  sd_nodup : NoDup (map fst (started w))
}.

Lemma set_same : forall s t x, set_sender s t x t = x.
Proof. intros. unfold set_sender. now rewrite Nat.eqb_refl. Qed.
Lemma set_other : forall s t x u, u <> t -> set_sender s t x u = s u.
Proof. intros s t x u N. unfold set_sender. apply Nat.eqb_neq in N. now rewrite N. Qed.

Lemma sound_step : forall w w', sound w -> sstep w w' -> sound w'.
Proof.
  intros w w' [SL SI SG SN] ST. destruct ST as [w t k frames LK SE|w t k f frames n SE|w t k f frames SE|w t k SE].
  - (* lock *)
    rewrite LK in SG. destruct SG as (old & parts & EL & ES & F2).
    assert (NEW : forall fr, ~ In (t, k, fr) (started w)).
    { intros fr I. apply SI in I. rewrite SE in I. cbn in I. lia. }
    constructor; cbn [lock senders started log].
    + intros u. destruct (Nat.eq_dec u t) as [->|N]; [rewrite set_same; reflexivity|]. rewrite set_other by auto.
      specialize (SL u). rewrite LK in SL. destruct (fst (senders w u)); [congruence|discriminate].
    + intros u j fr I. apply in_app_or in I. destruct (Nat.eq_dec u t) as [->|N].
      * rewrite set_same. cbn. destruct I as [I|[I|[]]]; [apply SI in I; rewrite SE in I; cbn in I; lia|]. injection I. lia.
      * rewrite set_other by auto. destruct I as [I|[I|[]]]; [exact (SI _ _ _ I)|congruence].
    + exists old, (parts ++ [tagged (t, k) []]). split; [rewrite concat_app; cbn; rewrite app_nil_r; exact EL|].
      exists k, frames, frames. rewrite set_same. split; [reflexivity|]. split; [congruence|].
      exists parts, []. split; [reflexivity|]. split; [constructor|]. split; [exact F2|]. rewrite <- ES. exact NEW.
    + rewrite map_app. cbn [map]. apply NoDup_rev in SN. apply NoDup_rev in SN. rewrite rev_involutive in SN.
      apply NoDup_Add with (a := (t, k)) (l := map fst (started w)).
      * rewrite <- (app_nil_r (map fst (started w))) at 1. apply Add_app.
      * split; [exact SN|]. intros I. apply in_map_iff in I as (((u, j), fr) & E & I). cbn in E. injection E as -> ->. now apply NEW in I.
  - (* piece *)
    assert (LK : lock w = Some t) by (specialize (SL t); rewrite SE in SL; exact SL).
    rewrite LK in SG. destruct SG as (old & parts & EL & k' & fr & rest & SE' & ES & parts' & cs & EP & PI & F2 & NI).
    rewrite SE in SE'. injection SE' as <- <-. constructor; cbn [lock senders started log].
    + intros u. destruct (Nat.eq_dec u t) as [->|N]; [rewrite set_same; exact LK|]. rewrite set_other by auto. apply SL.
    + intros u j g I. destruct (Nat.eq_dec u t) as [->|N]; [rewrite set_same|rewrite set_other by auto; now apply (SI u j g)].
      cbn. apply SI in I. rewrite SE in I. exact I.
    + rewrite LK. exists old, (parts' ++ [tagged (t, k) (cs ++ [zfirstn n f])]). split.
      { rewrite EL, EP, !concat_app. cbn [concat]. rewrite !app_nil_r, <- app_assoc. f_equal. unfold tagged. rewrite map_app. reflexivity. }
      exists k, fr, (zskipn n f :: frames). rewrite set_same. split; [reflexivity|]. split; [exact ES|].
      exists parts', (cs ++ [zfirstn n f]). split; [reflexivity|]. split; [now constructor|]. auto.
    + exact SN.
  - (* next frame *)
    assert (LK : lock w = Some t) by (specialize (SL t); rewrite SE in SL; exact SL).
    rewrite LK in SG. destruct SG as (old & parts & EL & k' & fr & rest & SE' & ES & parts' & cs & EP & PI & F2 & NI).
    rewrite SE in SE'. injection SE' as <- <-. constructor; cbn [lock senders started log].
    + intros u. destruct (Nat.eq_dec u t) as [->|N]; [rewrite set_same; exact LK|]. rewrite set_other by auto. apply SL.
    + intros u j g I. destruct (Nat.eq_dec u t) as [->|N]; [rewrite set_same|rewrite set_other by auto; now apply (SI u j g)].
      cbn. apply SI in I. rewrite SE in I. exact I.
    + rewrite LK. exists old, parts. split; [exact EL|].
      exists k, fr, frames. rewrite set_same. split; [reflexivity|]. split; [exact ES|].
      exists parts', cs. split; [exact EP|]. split; [eapply pi_next; eauto|]. auto.
    + exact SN.
  - (* unlock *)
    assert (LK : lock w = Some t) by (specialize (SL t); rewrite SE in SL; exact SL).
    rewrite LK in SG. destruct SG as (old & parts & EL & k' & fr & rest & SE' & ES & parts' & cs & EP & PI & F2 & NI).
    rewrite SE in SE'. injection SE' as <- <-. constructor; cbn [lock senders started log].
    + intros u. destruct (Nat.eq_dec u t) as [->|N]; [rewrite set_same; discriminate|]. rewrite set_other by auto.
      specialize (SL u). rewrite LK in SL. destruct (fst (senders w u)); [discriminate|congruence].
    + intros u j g I. destruct (Nat.eq_dec u t) as [->|N]; [rewrite set_same|rewrite set_other by auto; now apply (SI u j g)].
      cbn. apply SI in I. rewrite SE in I. cbn in I. lia.
    + exists (started w), parts. split; [exact EL|]. split; [reflexivity|]. rewrite ES, EP. apply Forall2_app; [exact F2|].
      constructor; [|constructor]. exists cs, []. auto.
    + exact SN.
Qed.

Lemma sound_steps : forall w w', ssteps w w' -> sound w -> sound w'.
Proof. induction 1 as [w|w w' w'' H IH ST]; intros S; [exact S|]. exact (sound_step _ _ (IH S) ST). Qed.

Lemma sound_nobody : sound nobody.
Proof.
  constructor; cbn; auto; try discriminate; try contradiction.
  - exists [], []. repeat split; constructor.
  - constructor.
Qed.

(** the log as one block per started message *)
Lemma sound_blocks : forall w, sound w -> NoDup (map fst (started w)) /\
  exists parts, log w = concat parts /\ Forall2 (fun o p => exists cs rest, p = tagged (fst o) cs /\ pieces (snd o) rest cs) (started w) parts.
Proof.
  intros w [_ _ (old & parts & EL & SG) SN]. split; [exact SN|]. exists parts. split; [exact EL|].
  destruct (lock w) as [t|]; [|destruct SG as [-> F2]; exact F2].
  destruct SG as (k & fr & rest & _ & ES & parts' & cs & EP & PI & F2 & _). rewrite ES, EP. apply Forall2_app; [exact F2|].
  constructor; [|constructor]. exists cs, rest. auto.
Qed.

Lemma contiguous_app : forall A (i : nat * nat) (p l : list (nat * nat * A)), Forall (fun z => fst z = i) p ->
  Forall (fun z => fst z <> i) l -> contiguous l -> contiguous (p ++ l).
Proof.
  intros A i p l FP FL C a x b y c E ID. apply app_eq_app in E as (m & [[E1 E2]|[E1 E2]]).
  - destruct m as [|x' m].
    + cbn in E2. apply (C [] x b y c); auto.
    + cbn in E2. injection E2 as <- E2. symmetry in E2. rewrite E1 in FP. apply Forall_app in FP as [_ FP]. apply Forall_cons_iff in FP as [FX FP].
      apply app_eq_app in E2 as (d & [[E3 E4]|[E3 E4]]).
      * rewrite E3 in FP. apply Forall_app in FP as [FP _]. rewrite FX. exact FP.
      * rewrite E4 in FL. apply Forall_app in FL as [_ FL]. apply Forall_inv in FL. congruence.
  - apply (C m x b y c); auto.
Qed.

Lemma blocks_contiguous : forall (ids : list (nat * nat * list buf)) parts, NoDup (map fst ids) ->
  Forall2 (fun o p => exists cs rest, p = tagged (fst o) cs /\ pieces (snd o) rest cs) ids parts -> contiguous (concat parts).
Proof.
  intros ids parts ND F2. induction F2 as [|o p ids parts (cs & rest & P & _) F2 IH].
  - intros a x b y c E. destruct a; discriminate.
  - cbn [map] in ND. apply NoDup_cons_iff in ND as [NI ND]. cbn [concat]. apply (contiguous_app _ (fst o)).
    + rewrite P. apply Forall_forall. intros z I. apply in_map_iff in I as (q & <- & _). reflexivity.
    + apply Forall_forall. intros z I EZ. apply in_concat in I as (q & I1 & I2). apply NI.
      clear -F2 I1 I2 EZ. induction F2 as [|o' p' ids parts (cs & rest & P & _) F2 IH]; [destruct I1|].
      destruct I1 as [->|I1]; [|right; now apply IH]. left. rewrite <- EZ. rewrite P in I2. apply in_map_iff in I2 as (q' & <- & _). reflexivity.
    + now apply IH.
Qed.

(** ** message lists *)
Definition holds_queue (l : mlist) (q : list Z) : Prop :=
  ml_len l = length q /\ match q with [] => True | _ => ml_list l = Some (map Some q) end.

Lemma push_ok : forall l q m, holds_queue l q -> exists l', push true l m = Ret (U_OK, l') /\ holds_queue l' (q ++ [m]).
Proof.
  intros l q m [L H]. unfold push, push1. cbn [ml_list]. unfold push2. cbn [ml_list ml_len].
  assert (R : exists r, resize (ml_list l) (S (ml_len l)) = map Some q ++ r :: []).
  { unfold resize. destruct q as [|x q].
    - cbn in L. rewrite L. destruct (ml_list l) as [[|y b]|]; cbn; eauto.
    - rewrite H, L. replace (S (length (x :: q))) with (length (map Some (x :: q)) + 1)%nat by (rewrite map_length; lia).
      rewrite firstn_all2 by lia. replace (length (map Some (x :: q)) + 1 - length (map Some (x :: q)))%nat with 1%nat by lia. cbn. eauto. }
  destruct R as (r & R). rewrite R, L. rewrite <- (map_length Some q). rewrite aset_mid. cbn [bind]. eexists. split; [reflexivity|].
  unfold push3. cbn [ml_len ml_list]. split.
  - cbn. rewrite app_length, map_length. cbn. lia.
  - destruct (q ++ [m]) eqn:E; [destruct q; discriminate|]. rewrite <- E, map_app. reflexivity.
Qed.

Lemma shift_all : forall rest done (x : option Z), exists z,
  shift (length rest) (length done) (done ++ x :: rest) = Ret (done ++ rest ++ [z]).
Proof.
  induction rest as [|y rest IH]; intros done x; cbn [length shift].
  - exists x. reflexivity.
  - replace (aget (done ++ x :: y :: rest) (S (length done))) with (Ret y).
    + cbn [bind]. rewrite aset_mid. cbn [bind]. destruct (IH (done ++ [y]) y) as (z & E). exists z.
      rewrite app_length in E. cbn [length] in E. replace (S (length done)) with (length done + 1)%nat by lia.
      rewrite <- app_assoc in E. cbn [app] in E. rewrite E. rewrite <- app_assoc. reflexivity.
    + replace (S (length done)) with (length (done ++ [x])) by (rewrite app_length; cbn; lia).
      replace (done ++ x :: y :: rest) with ((done ++ [x]) ++ y :: rest) by (rewrite <- app_assoc; reflexivity). symmetry. apply aget_mid.
Qed.

Lemma pop_ok : forall l x q, holds_queue l (x :: q) -> exists l', pop true l = Ret (Some x, l') /\ holds_queue l' q.
Proof.
  intros l x q [L H]. unfold pop, pop1. rewrite L, H. cbn [length map]. unfold aget. cbn [nth_error bind].
  unfold pop2. rewrite H, L. cbn [length map]. rewrite Nat.sub_succ, Nat.sub_0_r.
  destruct (shift_all (map Some q) [] (Some x)) as (z & E). cbn [length app] in E. rewrite map_length in E. rewrite E. cbn [bind].
  eexists. split; [reflexivity|]. unfold pop3, pop4. cbn [ml_len ml_list]. split; [cbn; lia|].
  destruct q as [|y q]; [auto|]. replace (1 <? S (length (y :: q)))%nat with true by (symmetry; apply Nat.ltb_lt; cbn; lia).
  unfold resize. rewrite Nat.sub_succ, Nat.sub_0_r. rewrite <- (map_length Some (y :: q)).
  rewrite firstn_app, firstn_all, Nat.sub_diag. cbn [firstn]. rewrite app_nil_r, app_length.
  replace (length (map Some (y :: q)) - (length (map Some (y :: q)) + length [z]))%nat with 0%nat by lia. cbn [repeat]. rewrite app_nil_r. reflexivity.
Qed.

Lemma lrun_ok : forall ops l q, holds_queue l q -> exists l', lrun l ops = Ret (fst (queue q ops), l') /\ holds_queue l' (snd (queue q ops)).
Proof.
  induction ops as [|[m|] ops IH]; intros l q H; cbn [lrun queue].
  - exists l. auto.
  - destruct (push_ok l q m H) as (l1 & E & H1). rewrite E. cbn [bind snd]. now apply IH.
  - destruct q as [|x q].
    + destruct H as [L _]. cbn in L. unfold pop, pop1. rewrite L. cbn [bind fst snd].
      destruct (IH l [] (conj L I)) as (l2 & E2 & H2). rewrite E2. cbn [bind fst snd]. destruct (queue [] ops). exists l2. auto.
    + destruct (pop_ok l x q H) as (l1 & E & H1). rewrite E. cbn [bind fst snd].
      destruct (IH l1 q H1) as (l2 & E2 & H2). rewrite E2. cbn [bind fst snd]. destruct (queue q ops). exists l2. auto.
Qed.
