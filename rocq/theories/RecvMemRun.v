(** Proofs about the memory of requests that come in (C105): whole runs. *)
From Coq Require Import String ZArith Bool List Lia.
From Verif Require Import Base BaseFacts UMapModel UMapProofs Utf8Model OwnModel OwnSpec OwnProofs MapMemModel MapMemSpec MapMemProofs MapMemPut MapMemRun MapMemSteps
  RespMemModel RespMemSpec RespMemProofs RespMemSteps ReqMemModel ReqMemSpec ReqMemProofs ReqMemCalls ReqMemCopy ReqMemSteps RecvMemModel RecvMemSpec RecvMemProofs RecvMemPieces RecvMemSteps.
Import ListNotations.
Open Scope Z_scope.

Definition rinv (g : rconf) (N : Z) (s : rprog) (l : list acon) (gone : list nat) : Prop :=
  Forall2 (cinv g N) (s_conns s) l /\ mowns (s_mem s) (flat_map conn_blocks (s_conns s) ++ gone).
Lemma cinvs_mono : forall g N N' cs l, N <= N' -> Forall2 (cinv g N) cs l -> Forall2 (cinv g N') cs l.
Proof. intros g N N' cs l L F. induction F; constructor; auto. eapply cinv_mono; eauto. Qed.
Lemma f2_nth : forall A B (R : A -> B -> Prop) l l' i x, Forall2 R l l' -> nth_error l i = Some x -> exists p q p' y q', l = p ++ x :: q /\ l' = p' ++ y :: q' /\ length p = i /\ length p' = i /\
  Forall2 R p p' /\ R x y /\ Forall2 R q q'.
Proof.
  intros A B R l l' i x F. revert i. induction F as [|a b l l' H F IH]; intros [|i] E; cbn [nth_error] in E; try discriminate.
  - injection E as ->. exists [], l, [], b, l'. repeat split; auto.
  - destruct (IH i E) as (p & q & p' & y & q' & -> & -> & L & L' & F1 & R1 & F2). exists (a :: p), q, (b :: p'), y, q'. cbn. repeat split; auto.
Qed.
Lemma f2_none : forall A B (R : A -> B -> Prop) l l' i, Forall2 R l l' -> nth_error l i = None -> nth_error l' i = None.
Proof. intros A B R l l' i F. revert i. induction F as [|a b l l' H F IH]; intros [|i] E; cbn in *; auto; discriminate. Qed.
Lemma set_at : forall A (p : list A) x q y, set_nth (p ++ x :: q) (length p) y = p ++ y :: q.
Proof. intros A p x q y. induction p as [|a p IH]; cbn; [reflexivity|]. now rewrite IH. Qed.
Lemma nth_at : forall A (p : list A) x q, nth_error (p ++ x :: q) (length p) = Some x.
Proof. intros A p x q. induction p as [|a p IH]; cbn; auto. Qed.
Lemma drop_past : forall A (l : list A) i, nth_error l i = None -> drop i l = l.
Proof. intros A l i E. apply nth_error_None in E. unfold drop. rewrite firstn_all2 by exact E. rewrite skipn_all2 by lia. apply app_nil_r. Qed.
Lemma rop_size_nonneg : forall o, 0 <= rop_size o.
Proof.
  intros [v|i ch|i]; cbn [rop_size]; [apply zsum_nonneg; apply pair_size_nonneg| |lia].
  pose proof (zlen_nonneg _ (ch_data ch)). pose proof (zsum_nonneg _ piece_size (ch_pieces ch) piece_size_nonneg). lia.
Qed.

Lemma rstep_ok : forall g N N' s l gone o, rinv g N s l gone -> rop_ok o -> 0 <= N -> N' = N + rop_size o -> N' + 1 < two64 ->
  exists s' l' lost, rstep g s o = Ret s' /\ rinv g N' s' l' (lost ++ gone) /\
    forall r l'' n, rmeans g l' r l'' n -> rmeans g l (o :: r) l'' (length lost + n).
Proof.
  intros g N N' [m cs] l gone o [F O] OK N0 EN LT. cbn [s_mem s_conns] in *. pose proof (rop_size_nonneg o) as RS.
  assert (FM : Forall2 (cinv g N') cs l) by (eapply cinvs_mono; [|exact F]; lia).
  destruct o as [v|i ch|i]; cbn [rstep s_mem s_conns].
  - destruct OK as (G1 & OM & NC & GP & GPP). 
    destruct (connect_ok N (again m (v_open v)) v _ (again_owns _ _ _ O G1) OM N0 NC) as (m1 & oc & -> & H). unfold bind at 1. cbn [fst snd]. destruct oc as [c|].
    + destruct H as (k & p & r & ik & iv & il & -> & z & m2 & r2 & q & FC & I & O2 & UK & UP & EZ & Q).
      destruct (begin_ok g N N' m1 v k p r ik iv il z m2 r2 q _ N0 EN LT GP GPP UK UP FC I O2 EZ Q) as (m3 & c & a & -> & CO & CI & O3). unfold bind at 1.
      exists (mk_rprog m3 (cs ++ [c])), (l ++ [a]), []. split; [reflexivity|]. split.
      * split; cbn [s_mem s_conns]; [apply Forall2_app; auto|]. rewrite flat_map_app. cbn [flat_map]. mowns_by O3.
      * intros r' l'' n M. cbn [length]. eapply (rm_comes g l v a r' l'' 0); eauto.
    + destruct H as [[HD O1]|(SH & HD & lost & L3 & O1)].
      * exists (mk_rprog m1 cs), l, []. split; [reflexivity|]. split; [split; auto|]. intros r' l'' n M. apply (rm_none g l v r' l'' 0); auto. now apply cm_no_connection.
      * exists (mk_rprog m1 cs), l, lost. split; [reflexivity|]. split; [split; [auto|]; cbn [s_mem s_conns]; mowns_by O1|]. intros r' l'' n M. rewrite L3. apply (rm_none g l v r' l'' 3); auto. now apply cm_no_request.
  - destruct (nth_error cs i) as [c|] eqn:EI.
    + destruct (f2_nth _ _ _ _ _ _ _ F EI) as (p & q & p' & a & q' & -> & -> & LP & LP' & F1 & R & F2).
      destruct (k_going c) eqn:KG.
      * assert (O' : mowns m (conn_blocks c ++ (flat_map conn_blocks p ++ flat_map conn_blocks q ++ gone))) by (rewrite flat_map_app in O; cbn [flat_map] in O; mowns_by O).
        destruct (chunk_ok g N N' m c a ch i _ R KG O' OK N0 EN LT) as (m1 & c1 & a1 & -> & SE & CI & O1). unfold bind at 1. cbn [fst snd].
        exists (mk_rprog m1 (set_nth (p ++ c :: q) i c1)), (set_nth (p' ++ a :: q') i a1), []. split; [reflexivity|]. split.
        -- split; cbn [s_mem s_conns].
           ++ rewrite <- LP at 1. rewrite <- LP'. rewrite !set_at. apply Forall2_app; [eapply cinvs_mono; [|exact F1]; lia|]. constructor; [exact CI|]. eapply cinvs_mono; [|exact F2]; lia.
           ++ rewrite <- LP. rewrite set_at, flat_map_app. cbn [flat_map]. mowns_by O1.
        -- intros r' l'' n M. cbn [length plus]. eapply rm_sends; [|exact SE|exact M]. rewrite <- LP'. apply nth_at.
      * exists (mk_rprog m (p ++ c :: q)), (p' ++ a :: q'), []. split; [reflexivity|]. split; [split; auto|]. intros r' l'' n M. cbn [length plus]. apply rm_stopped; [|exact M].
        intros b B. rewrite <- LP', nth_at in B. injection B as <-. destruct R as (_ & G & _). congruence.
    + exists (mk_rprog m cs), l, []. split; [reflexivity|]. split; [split; auto|]. intros r' l'' n M. cbn [length plus]. apply rm_stopped; [|exact M]. intros b B. rewrite (f2_none _ _ _ _ _ _ F EI) in B. discriminate.
  - destruct (nth_error cs i) as [c|] eqn:EI.
    + destruct (f2_nth _ _ _ _ _ _ _ F EI) as (p & q & p' & a & q' & -> & -> & LP & LP' & F1 & R & F2).
      assert (O' : mowns m (conn_blocks c ++ (flat_map conn_blocks p ++ flat_map conn_blocks q ++ gone))) by (rewrite flat_map_app in O; cbn [flat_map] in O; mowns_by O).
      destruct (completed_ok g N m c a _ R O') as (m1 & -> & O1). unfold bind at 1.
      exists (mk_rprog m1 (drop i (p ++ c :: q))), (drop i (p' ++ a :: q')), []. split; [reflexivity|]. split.
      * split; cbn [s_mem s_conns].
        -- rewrite <- LP at 1. rewrite <- LP'. rewrite !drop_mid. apply Forall2_app; eapply cinvs_mono; try eassumption; lia.
        -- rewrite <- LP, drop_mid, flat_map_app. mowns_by O1.
      * intros r' l'' n M. cbn [length plus]. now apply rm_ends.
    + exists (mk_rprog m cs), l, []. split; [reflexivity|]. split; [split; auto|]. intros r' l'' n M. cbn [length plus]. apply rm_ends. rewrite drop_past; [exact M|]. eapply f2_none; eauto.
Qed.
Lemma rrun_ok : forall g ops N s l gone, rinv g N s l gone -> Forall rop_ok ops -> 0 <= N -> N + zsum (map rop_size ops) + 1 < two64 ->
  exists s' l' lost N', rrun g s ops = Ret s' /\ rinv g N' s' l' (lost ++ gone) /\ rmeans g l ops l' (length lost).
Proof.
  intros g ops. induction ops as [|o ops IH]; intros N s l gone I OK N0 LT; cbn [rrun].
  - exists s, l, [], N. split; [reflexivity|]. split; [exact I|]. constructor.
  - inversion OK as [|? ? OK1 OK2]; subst. cbn [map zsum fold_right] in LT. fold (zsum (map rop_size ops)) in LT.
    pose proof (rop_size_nonneg o) as R1. pose proof (zsum_nonneg _ rop_size ops rop_size_nonneg) as R2.
    destruct (rstep_ok g N (N + rop_size o) s l gone o I OK1 N0 eq_refl) as (s1 & l1 & lost1 & -> & I1 & M1); [lia|]. unfold bind at 1.
    destruct (IH (N + rop_size o) s1 l1 (lost1 ++ gone) I1 OK2) as (s2 & l2 & lost2 & N2 & -> & I2 & M2); [lia|lia|].
    exists s2, l2, (lost1 ++ lost2), N2. split; [reflexivity|]. split.
    + destruct I2 as [A B]. split; [exact A|]. mowns_by B.
    + rewrite app_length. now apply M1.
Qed.

Lemma read_conn_ok : forall g N m ids c a, mowns m ids -> incl (conn_blocks c) ids -> cinv g N c a -> read_conn m c = Ret a.
Proof.
  intros g N m ids c a O C ((ik & iv & il & es & EA & FA & NDA) & GO & PO & RQ). destruct c as [k args rq post go]. cbn [k_block k_args k_req k_post k_going] in *. subst args.
  assert (CC : forall x, (0 < one k x + cnt (fb ik iv il es) x + cnt (match rq with Some q => req_blocks q | None => [] end) x + cnt (match post with Some i => [i] | None => [] end) x)%nat -> In x ids).
  { intros x X. apply C. apply cnt_in. rewrite conn_blocks_cnt. lia. }
  unfold read_conn. cbn [k_block k_args k_req k_post k_going].
  rewrite (use_ok _ _ k (proj1 O)). 2:{ apply CC. assert (X : In k [k]) by now left. apply cnt_in in X. rewrite cnt_cons, cnt_nil in X. lia. }
  unfold bind at 1. rewrite (read_map_ok N m ids ik iv il es (ac_args a) O); [|intros x X; apply CC; apply cnt_in in X; lia|exact FA]. unfold bind at 1.
  assert (RR : (match rq with None => Ret None | Some x => do q <- read_req m x; Ret (Some q) end) = Ret (ac_req a)).
  { destruct rq as [[p r]|]; destruct (ac_req a) as [q|]; try contradiction; [|reflexivity]. destruct RQ as (I & _).
    rewrite (read_req_ok true N m ids p r q O); [reflexivity| |exact I]. intros x X. apply CC. apply cnt_in in X. lia. }
  rewrite RR. unfold bind at 1.
  assert (RP : (match post with None => Ret false | Some i => do _ <- h_use (m_heap m) i; Ret true end) = Ret (ac_form a)).
  { rewrite <- PO. destruct post as [i|]; [|reflexivity]. rewrite (use_ok _ _ i (proj1 O)); [reflexivity|]. apply CC. assert (X : In i [i]) by now left. apply cnt_in in X. lia. }
  rewrite RP. unfold bind at 1. rewrite GO. destruct a; reflexivity.
Qed.
Lemma read_conns_ok : forall g N m ids cs l, mowns m ids -> incl (flat_map conn_blocks cs) ids -> Forall2 (cinv g N) cs l -> read_conns m cs = Ret l.
Proof.
  intros g N m ids cs l O C F. induction F as [|c a cs l R F IH]; [reflexivity|]. cbn [read_conns flat_map] in *.
  rewrite (read_conn_ok g N m ids c a O); [|intros x X; apply C; apply in_or_app; now left|exact R]. unfold bind at 1.
  rewrite IH by (intros x X; apply C; apply in_or_app; now right). reflexivity.
Qed.
