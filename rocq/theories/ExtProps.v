(** C44: extensions are undone in reverse order. C46: the random key. *)
From Coq Require Import String ZArith Bool List Lia.
From Verif Require Import Base BaseFacts UMapModel UMapProofs WsFrameModel WsFrameProofs ExtModel ExtSpec.
Import ListNotations.
Open Scope Z_scope.

Lemma NoDup_app_intro : forall A (a b : list A), NoDup a -> NoDup b -> (forall x, In x a -> ~ In x b) -> NoDup (a ++ b).
Proof.
  intros A a b N. induction N as [|x a NI N IH]; intros B D; [exact B|]. cbn [app]. constructor.
  - intros I. apply in_app_or in I as [I|I]; [contradiction|]. exact (D x (or_introl eq_refl) I).
  - apply IH; auto. intros y I. apply D. now right.
Qed.

Section Pipeline.
Variable C : Type.
Variables out_perform in_perform : Z -> C -> Z -> list Z -> Z -> Z -> option (list Z) * C.
Variable alloc_ok : Z -> bool.
Notation out_loop := (out_loop C out_perform alloc_ok).
Notation in_loop := (in_loop C in_perform (fun _ => true)).
Notation paired := (paired C out_perform in_perform).

Definition applied (e : ext C) : bool := e_enabled e && match e_out e with Some _ => true | None => false end.

Lemma in_loop_app : forall opcode rsv a b d, in_loop opcode rsv (a ++ b) d =
  let '(ret, d1, a') := in_loop opcode rsv a d in
  if ret =? U_OK then let '(ret, d2, b') := in_loop opcode rsv b d1 in (ret, d2, a' ++ b') else (ret, d1, a' ++ b).
Proof.
  intros opcode rsv. induction a as [|e a IH]; intros b d; cbn [app ExtModel.in_loop].
  - change (U_OK =? U_OK) with true. destruct (in_loop opcode rsv b d) as [[r d2] b']. reflexivity.
  - assert (G : forall e1 d1, (let '(ret, d', r') := in_loop opcode rsv (a ++ b) d1 in (ret, d', e1 :: r')) =
      (let '(ret, d2, a') := (let '(ret, d', r') := in_loop opcode rsv a d1 in (ret, d', e1 :: r')) in
       if ret =? U_OK then let '(ret0, d3, b') := in_loop opcode rsv b d2 in (ret0, d3, a' ++ b') else (ret, d2, a' ++ b))).
    { intros e1 d1. rewrite IH. destruct (in_loop opcode rsv a d1) as [[r d2] a']. destruct (r =? U_OK); [|reflexivity].
      destruct (in_loop opcode rsv b d2) as [[r' d3] b']. reflexivity. }
    destruct (if e_enabled e then e_in e else None) as [f|]; [|apply G].
    destruct (Z.land rsv (e_rsv e) =? 0); [apply G|].
    destruct (in_perform f (e_ctx e) opcode d 0 (e_out_data e)) as [[d1|] c]; [|reflexivity]. rewrite orb_true_r. apply G.
Qed.

(** R: the RSV bits of the message; each receiving extension finds its bit iff the sending one was applied *)
Lemma undone : forall opcode fragment R l l' rsv data rsv' wire l1,
  Forall2 paired l l' -> Forall (fun e => e_in_data e = e_out_data e) l' ->
  Forall (fun e => e_enabled e = true -> (Z.land R (e_rsv e) <> 0 <-> applied e = true)) l ->
  out_loop opcode fragment l rsv data = (U_OK, rsv', wire, l1) ->
  exists l1', in_loop opcode R (rev l') wire = (U_OK, data, rev l1') /\ Forall2 paired l1 l1' /\
    map e_rsv l1 = map e_rsv l /\ map e_enabled l1 = map e_enabled l /\ map e_out l1 = map e_out l /\ map e_in_data l1' = map e_in_data l' /\ map e_out_data l1' = map e_out_data l'.
Proof.
  intros opcode fragment R. induction l as [|e l IH]; intros l' rsv data rsv' wire l1 P UD AP H.
  - inversion P; subst. injection H as <- <- <-. exists []. split; [reflexivity|]. repeat (split; auto).
  - inversion P as [|? e' ? r' PE P']; subst. apply Forall_cons_iff in UD as [UE UD]. apply Forall_cons_iff in AP as [AE AP].
    cbn [ExtModel.out_loop] in H. cbn [rev].
    destruct (e_enabled e) eqn:EN.
    + destruct (e_out e) as [f|] eqn:EO.
      * destruct (out_perform f (e_ctx e) opcode data fragment (e_out_data e)) as [[d|] c] eqn:OP; [|discriminate].
        destruct (alloc_ok (zlen d)); [|discriminate].
        destruct (out_loop opcode fragment l (Z.lor rsv (e_rsv e)) d) as [[[ret rsv1] d1] l2] eqn:OL. injection H as -> <- <- <-.
        destruct (IH _ _ _ _ _ _ P' UD AP OL) as (l1' & IL & P1 & M1 & M2 & M3 & M4 & M5).
        pose proof PE as (PR & PEN & NZ & PI). destruct (PI EN f EO) as (g & I & G & INV & IC). pose proof INV as INV0.
        destruct (INV _ _ _ _ _ _ _ IC OP) as (c' & IP & I').
        exists (set_ctx e' c' :: l1'). rewrite in_loop_app, IL. change (U_OK =? U_OK) with true. cbv iota. cbn [ExtModel.in_loop]. rewrite <- PEN, EN, G.
        assert (B : (Z.land R (e_rsv e') =? 0) = false).
        { apply Z.eqb_neq. rewrite <- PR. apply (AE eq_refl). unfold applied. now rewrite EN, EO. }
        rewrite B, <- UE, IP. rewrite orb_true_r. split; [reflexivity|]. split.
        -- constructor; auto. repeat split; try assumption. intros _ f0 F0. cbn [set_ctx e_out] in F0. rewrite EO in F0. injection F0 as <-.
           exists g, I. split; [exact G|]. split; [exact INV0|exact I'].
        -- cbn [map set_ctx e_rsv e_enabled e_out e_in_data e_out_data]. rewrite M1, M2, M3, M4, M5. auto.
      * destruct (out_loop opcode fragment l rsv data) as [[[ret rsv1] d1] l2] eqn:OL. injection H as -> <- <- <-.
        destruct (IH _ _ _ _ _ _ P' UD AP OL) as (l1' & IL & P1 & M1 & M2 & M3 & M4 & M5).
        exists (e' :: l1'). rewrite in_loop_app, IL. change (U_OK =? U_OK) with true. cbv iota. cbn [ExtModel.in_loop].
        pose proof PE as (PR & PEN & NZ & PI).
        assert (B : (Z.land R (e_rsv e') =? 0) = true).
        { apply Z.eqb_eq. rewrite <- PR. destruct (Z.eq_dec (Z.land R (e_rsv e)) 0) as [Q|Q]; [exact Q|]. exfalso. apply (AE eq_refl) in Q. unfold applied in Q. rewrite EN, EO in Q. discriminate. }
        rewrite <- PEN, EN, B. destruct (e_in e'); (split; [reflexivity|split; [constructor; auto|cbn [map]; rewrite M1, M2, M3, M4, M5; auto]]).
    + destruct (out_loop opcode fragment l rsv data) as [[[ret rsv1] d1] l2] eqn:OL. injection H as -> <- <- <-.
      destruct (IH _ _ _ _ _ _ P' UD AP OL) as (l1' & IL & P1 & M1 & M2 & M3 & M4 & M5).
      exists (e' :: l1'). rewrite in_loop_app, IL. change (U_OK =? U_OK) with true. cbv iota. cbn [ExtModel.in_loop].
      pose proof PE as (PR & PEN & NZ & PI). rewrite <- PEN, EN. split; [reflexivity|]. split; [constructor; auto|]. cbn [map]. rewrite M1, M2, M3, M4, M5. auto.
Qed.

(** the RSV bits are those of the extensions applied *)
Lemma out_rsv : forall opcode fragment l rsv data rsv' wire l1, out_loop opcode fragment l rsv data = (U_OK, rsv', wire, l1) ->
  rsv' = fold_left (fun r e => Z.lor r (e_rsv e)) (filter applied l) rsv.
Proof.
  intros opcode fragment. induction l as [|e l IH]; intros rsv data rsv' wire l1 H.
  - injection H as <- _ _. reflexivity.
  - cbn [ExtModel.out_loop] in H. cbn [filter]. unfold applied at 1.
    assert (G : forall r d e1, (let '(ret, rsv1, d1, r') := out_loop opcode fragment l r d in (ret, rsv1, d1, e1 :: r')) = (U_OK, rsv', wire, l1) ->
      rsv' = fold_left (fun r e => Z.lor r (e_rsv e)) (filter applied l) r).
    { intros r d e1 X. destruct (out_loop opcode fragment l r d) as [[[ret rsv1] d1] l2] eqn:OL. injection X as -> <- _ _. eapply IH. exact OL. }
    destruct (e_enabled e); [|cbn [andb]; exact (G _ _ _ H)]. destruct (e_out e) as [f|]; [|cbn [andb]; exact (G _ _ _ H)]. cbn [andb].
    destruct (out_perform f (e_ctx e) opcode data fragment (e_out_data e)) as [[d|] c]; [|discriminate]. destruct (alloc_ok (zlen d)); [|discriminate].
    exact (G _ _ _ H).
Qed.

Lemma fold_lor : forall l r0 b, Z.land (fold_left (fun r (e : ext C) => Z.lor r (e_rsv e)) l r0) b = 0 <-> Z.land r0 b = 0 /\ Forall (fun e => Z.land (e_rsv e) b = 0) l.
Proof.
  induction l as [|e l IH]; intros r0 b; cbn [fold_left].
  - split; [auto|tauto].
  - rewrite IH, Forall_cons_iff, Z.land_lor_distr_l, Z.lor_eq_0_iff. tauto.
Qed.

Lemma apart_in : forall l, bits_apart C l -> forall a b, In a l -> In b l -> e_enabled a = true -> e_enabled b = true ->
  a = b \/ Z.land (e_rsv a) (e_rsv b) = 0.
Proof.
  intros l A a b IA IB EA EB. unfold bits_apart in A. destruct (ForallOrdPairs_In A a b IA IB) as [->|[H|H]]; auto.
  right. rewrite Z.land_comm. auto.
Qed.

Lemma found_bits : forall l, bits_apart C l -> Forall (fun e => e_rsv e <> 0) l ->
  Forall (fun e => e_enabled e = true -> (Z.land (fold_left (fun r e => Z.lor r (e_rsv e)) (filter applied l) 0) (e_rsv e) <> 0 <-> applied e = true)) l.
Proof.
  intros l A NZ. apply Forall_forall. intros e I EN. split.
  - intros H. destruct (applied e) eqn:AP; auto. exfalso. apply H. apply fold_lor. split; [apply Z.land_0_l|]. apply Forall_forall.
    intros x J. apply filter_In in J as [J AX]. assert (EX : e_enabled x = true) by (unfold applied in AX; now apply andb_true_iff in AX as [? _]).
    destruct (apart_in l A x e J I EX EN) as [->|D]; auto. congruence.
  - intros AP H. apply fold_lor in H as [_ H]. rewrite Forall_forall in H. specialize (H e). rewrite Z.land_diag in H.
    rewrite Forall_forall in NZ. apply (NZ e I). apply H. apply filter_In. auto.
Qed.

Lemma map_apart : forall l l1, map e_rsv l1 = map e_rsv l -> map e_enabled l1 = map e_enabled l -> bits_apart C l -> bits_apart C l1.
Proof.
  unfold bits_apart. induction l as [|e l IH]; intros [|e1 l1] M1 M2 A; try discriminate; [constructor|].
  cbn [map] in *. injection M1 as R1 M1. injection M2 as E1 M2. inversion A; subst. constructor; auto.
  rewrite R1, E1. clear -H1 M1 M2. revert l1 M1 M2. induction l as [|x l IH]; intros [|x1 l1] M1 M2; try discriminate; constructor.
  - inversion H1; subst. cbn [map] in *. injection M1 as R M1. injection M2 as E M2. now rewrite R, E.
  - inversion H1; subst. cbn [map] in *. injection M1 as R M1. injection M2 as E M2. auto.
Qed.
Lemma map_udata : forall l1 l : list (ext C), map e_in_data l1 = map e_in_data l -> map e_out_data l1 = map e_out_data l ->
  Forall (fun e => e_in_data e = e_out_data e) l -> Forall (fun e => e_in_data e = e_out_data e) l1.
Proof.
  induction l1 as [|e1 l1 IH]; intros [|e l] M1 M2 F; try discriminate; constructor; cbn [map] in *; injection M1 as A M1; injection M2 as B M2; apply Forall_cons_iff in F as [F0 F]; [congruence|eauto].
Qed.
Lemma paired_nz : forall l l', Forall2 paired l l' -> Forall (fun e => e_rsv e <> 0) l.
Proof. intros l l' F. induction F as [|e e' l l' (_ & _ & NZ & _) F IH]; constructor; auto. Qed.

Lemma pairs_length : forall l l', Forall2 paired l l' -> length l = length l'.
Proof. intros l l' F. induction F; cbn [length]; auto. Qed.

Lemma one_message : forall l l' opcode fragment data rsv wire l1, Forall2 paired l l' -> bits_apart C l -> Forall (fun e => e_in_data e = e_out_data e) l' ->
  out_message C out_perform alloc_ok opcode fragment l data = (U_OK, rsv, wire, l1) ->
  exists l1', in_message C in_perform (fun _ => true) opcode rsv l' wire = (U_OK, data, l1') /\ Forall2 paired l1 l1' /\ bits_apart C l1 /\ Forall (fun e => e_in_data e = e_out_data e) l1'.
Proof.
  intros l l' opcode fragment data rsv wire l1 P A UD H. unfold out_message in H.
  destruct (negb (zlen data =? 0) && negb (alloc_ok (zlen data))); [discriminate|].
  assert (EQL : (zlen l =? 0) = (zlen l' =? 0)) by (unfold zlen; now rewrite (pairs_length _ _ P)).
  unfold in_message. rewrite orb_true_r.
  destruct (zlen l =? 0) eqn:ZL; cbn [negb andb] in H.
  - injection H as <- <- <-. rewrite <- EQL. exists l'. auto.
  - rewrite <- EQL. destruct ((opcode =? OP_BINARY) || (opcode =? OP_TEXT)).
    + pose proof (out_rsv _ _ _ _ _ _ _ _ H) as RS. pose proof (found_bits l A (paired_nz _ _ P)) as FB. rewrite <- RS in FB.
      destruct (undone _ _ rsv _ _ _ _ _ _ _ P UD FB H) as (l1' & IL & P1 & M1 & M2 & M3 & M4 & M5). rewrite IL. exists l1'. rewrite rev_involutive.
      split; [reflexivity|]. split; [exact P1|]. split; [eapply map_apart; eauto|]. eapply map_udata; eauto.
    + injection H as <- <- <-. assert (N : forall m d, in_loop opcode 0 m d = (U_OK, d, m)).
      { induction m as [|e m IHm]; intros d; [reflexivity|]. cbn [ExtModel.in_loop]. rewrite Z.land_0_l, IHm. change (0 =? 0) with true. cbv iota. destruct (if e_enabled e then e_in e else None); reflexivity. }
      rewrite N. rewrite rev_involutive. exists l'. auto.
Qed.

(** C44. A conversation of any length, the extensions having state: every message is restored exactly. Partial: the full statement
    gives every incoming function its own user data, and the code gives it the user data of the outgoing function: so
    they must be the same. Both sides must list their extensions in the same order. *)
Theorem C44_restored_partial : forall l l' ms res, conversation C out_perform in_perform alloc_ok l l' ms res ->
  Forall2 paired l l' -> bits_apart C l -> Forall (fun e => e_in_data e = e_out_data e) l' ->
  res = map (fun m => (U_OK, snd m)) ms.
Proof.
  intros l l' ms res V. induction V as [|l l' opcode fragment data rsv wire l1 ret got l1' ms res O I V IH]; intros P A UD; [reflexivity|].
  destruct (one_message _ _ _ _ _ _ _ _ P A UD O) as (l2' & I2 & P1 & A1 & UD1). rewrite I in I2. injection I2 as -> -> ->.
  cbn [map snd]. f_equal. now apply IH.
Qed.
End Pipeline.
Print Assumptions C44_restored_partial.

(** two extensions with state: adding a running counter, and putting a byte (the user data) in front *)
Definition x_out (f c opcode : Z) (d : list Z) (fragment u : Z) : option (list Z) * Z :=
  if f =? 1 then (Some (map (fun b => Z.modulo (b + c) 256) d), c + 1) else (Some (u :: d), c).
Definition x_in (f c opcode : Z) (d : list Z) (fragment u : Z) : option (list Z) * Z :=
  if f =? 1 then (Some (map (fun b => Z.modulo (b - c) 256) d), c + 1) else match d with v :: r => if u =? v then (Some r, c) else (None, c) | [] => (None, c) end.
Definition x_list := [mk_ext 64 true (Some 1) 0 (Some 1) 0 7; mk_ext 16 false (Some 1) 0 (Some 1) 0 7; mk_ext 32 true (Some 2) 9 (Some 2) 9 0].
Example C44_example : conversation Z x_out x_in (fun _ => true) x_list x_list [(OP_TEXT, 0, [1; 2]); (OP_BINARY, 0, [255]); (OP_PING, 0, [3])]
  [(U_OK, [1; 2]); (U_OK, [255]); (U_OK, [3])].
Proof.
  eapply v_msg; [vm_compute; reflexivity|vm_compute; reflexivity|].
  eapply v_msg; [vm_compute; reflexivity|vm_compute; reflexivity|].
  eapply v_msg; [vm_compute; reflexivity|vm_compute; reflexivity|]. constructor.
Qed.
Example C44_example_on_the_wire : exists l1, out_message Z x_out (fun _ => true) OP_TEXT 0 x_list [1; 2] = (U_OK, 96, [9; 8; 9], l1).
Proof. eexists. vm_compute. reflexivity. Qed.

(** the same without the reduction modulo 256, so that the functions are inverse on all lists of numbers *)
Definition y_out (f c opcode : Z) (d : list Z) (fragment u : Z) : option (list Z) * Z :=
  if f =? 1 then (Some (map (fun b => b + c) d), c + 1) else (Some (u :: d), c).
Definition y_in (f c opcode : Z) (d : list Z) (fragment u : Z) : option (list Z) * Z :=
  if f =? 1 then (Some (map (fun b => b - c) d), c + 1) else match d with v :: r => if u =? v then (Some r, c) else (None, c) | [] => (None, c) end.
Example C44_hypotheses_met : Forall2 (paired Z y_out y_in) x_list x_list /\ bits_apart Z x_list /\ Forall (fun e => e_in_data e = e_out_data e) x_list.
Proof.
  assert (I1 : inverse Z y_out y_in 1 0 1 0 eq).
  { intros s r op d fr x s' -> H. unfold y_out in H. change (1 =? 1) with true in H. cbv iota in H. injection H as <- <-. exists (r + 1). split; auto.
    unfold y_in. change (1 =? 1) with true. cbv iota. rewrite map_map. f_equal. f_equal. rewrite <- (map_id d) at 2. apply map_ext. intros. lia. }
  assert (I2 : inverse Z y_out y_in 2 9 2 9 eq).
  { intros s r op d fr x s' -> H. vm_compute in H. injection H as <- <-. exists r. split; auto. }
  split; [|split].
  - unfold x_list. constructor; [|constructor; [|constructor; [|constructor]]]; (split; [reflexivity|split; [reflexivity|split; [discriminate|]]]).
    + intros _ f [= <-]. exists 1, eq. auto.
    + discriminate.
    + intros _ f [= <-]. exists 2, eq. auto.
  - unfold x_list. repeat constructor; discriminate.
  - repeat constructor.
Qed.

(** C44, refuted: with another user data for the incoming than for the outgoing function, the message is not restored although
    each function is the inverse of the other side's with its own user data *)
Theorem C44_user_data_refuted : exists l l' : list (ext Z), Forall2 (paired Z y_out y_in) l l' /\ bits_apart Z l /\
  exists l1, out_message Z y_out (fun _ => true) OP_TEXT 0 l [65] = (U_OK, 32, [9; 65], l1) /\
    fst (fst (in_message Z y_in (fun _ => true) OP_TEXT 32 l' [9; 65])) = U_ERROR.
Proof.
  exists [mk_ext 32 true (Some 2) 9 (Some 2) 5 0], [mk_ext 32 true (Some 2) 5 (Some 2) 9 0]. split; [|split].
  - constructor; [|constructor]. repeat split; try discriminate. intros _ f [= <-]. exists 2, eq. split; [reflexivity|]. split; [|reflexivity].
    intros s r op d fr x s' -> H. vm_compute in H. injection H as <- <-. exists r. split; auto.
  - repeat constructor.
  - eexists. split; vm_compute; reflexivity.
Qed.
Print Assumptions C44_user_data_refuted.

(** C44, refuted: the two sides go through their own lists; with the same extensions in another order the message is not restored *)
Theorem C44_order_refuted : exists a b : ext Z, paired Z y_out y_in a a /\ paired Z y_out y_in b b /\ bits_apart Z [a; b] /\
  e_in_data a = e_out_data a /\ e_in_data b = e_out_data b /\
  exists wire l1, out_message Z y_out (fun _ => true) OP_TEXT 0 [a; b] [65] = (U_OK, 96, wire, l1) /\
    fst (fst (in_message Z y_in (fun _ => true) OP_TEXT 96 [b; a] wire)) = U_ERROR.
Proof.
  exists (mk_ext 64 true (Some 1) 0 (Some 1) 0 7), (mk_ext 32 true (Some 2) 9 (Some 2) 9 0).
  destruct C44_hypotheses_met as (P & _ & _). unfold x_list in P. inversion P as [|? ? ? ? P1 Q]; subst. inversion Q as [|? ? ? ? P2 Q2]; subst. inversion Q2 as [|? ? ? ? P3 _]; subst.
  split; [exact P1|]. split; [exact P3|]. split; [repeat constructor|]. split; [reflexivity|]. split; [reflexivity|].
  eexists. eexists. split; vm_compute; reflexivity.
Qed.
Print Assumptions C44_order_refuted.

(** ** C46 *)
Definition byte (x : Z) : Prop := 0 <= x < 256.
Definition obyte (x : option Z) : Prop := match x with Some b => byte b | None => True end.

Lemma random_ok : forall rnd, Forall obyte rnd -> match usable rnd with
  | x :: r => exists rnd', random_at_most rnd = (Some (x / 4), rnd') /\ usable rnd' = r /\ 0 <= x < 248 /\ Forall obyte rnd'
  | [] => exists rnd', random_at_most rnd = (None, rnd')
  end.
Proof.
  induction rnd as [|[x|] rnd IH]; intros F.
  - eexists. reflexivity.
  - apply Forall_cons_iff in F as [B F]. cbn [usable random_at_most]. change (255 - defect) with 248. change bin_size with 4. cbn in B. unfold byte in B.
    destruct (x <? 248) eqn:L.
    + replace (248 <=? x) with false by (symmetry; apply Z.leb_gt; lia). eexists. split; [reflexivity|]. split; [reflexivity|]. split; [lia|exact F].
    + replace (248 <=? x) with true by (symmetry; apply Z.leb_le; lia). exact (IH F).
  - eexists. reflexivity.
Qed.

Lemma letter_read : forall x, 0 <= x < 248 -> aget (charset ++ [0]) (Z.to_nat (x / 4)) = Ret (letter x) /\ In (letter x) charset.
Proof.
  intros x B. assert (L : (Z.to_nat (x / 4) < length charset)%nat).
  { change (length charset) with 62%nat. assert (x / 4 < 62) by (apply Z.div_lt_upper_bound; lia). lia. }
  split; [|unfold letter; now apply nth_In]. unfold aget, letter. rewrite nth_error_app1 by exact L.
  destruct (nth_error charset (Z.to_nat (x / 4))) eqn:E; [|apply nth_error_None in E; lia].
  f_equal. symmetry. now apply nth_error_nth with (d := 0) in E.
Qed.

Lemma store_at : forall (a : buf) x b c, store (a ++ x :: b) (zlen a) c = Ret (a ++ Some c :: b).
Proof.
  intros a x b c. rewrite store_ok; [|apply zlen_nonneg|unfold zlen; rewrite app_length; cbn [length]; lia].
  f_equal. unfold zfirstn, zskipn, zlen. rewrite Nat2Z.id, firstn_app, firstn_all, Nat.sub_diag. cbn [firstn]. rewrite app_nil_r.
  replace (Z.to_nat (Z.of_nat (length a) + 1)) with (length a + 1)%nat by lia.
  rewrite skipn_app, skipn_all2 by lia. replace (length a + 1 - length a)%nat with 1%nat by lia. reflexivity.
Qed.

Lemma rand_loop_ok : forall n rnd a b, Forall obyte rnd -> (n < length b)%nat ->
  let u := usable rnd in
  if (n <=? length u)%nat then exists b2, rand_loop n (zlen a) rnd (a ++ b) = Ret (Some (zlen a + Z.of_nat n), a ++ map Some (map letter (firstn n u)) ++ Some 0 :: b2) /\ length b = (n + 1 + length b2)%nat
  else exists b', rand_loop n (zlen a) rnd (a ++ b) = Ret (None, b').
Proof.
  induction n as [|n IH]; intros rnd a b F L; cbv zeta.
  - destruct b as [|x b]; [cbn in L; lia|]. cbn [Nat.leb rand_loop firstn map app]. rewrite store_at. cbn [bind]. exists b. rewrite Z.add_0_r. auto.
  - destruct b as [|x b]; [cbn in L; lia|]. cbn [rand_loop]. pose proof (random_ok rnd F) as R. destruct (usable rnd) as [|y u].
    + destruct R as (rnd' & ->). cbn [length Nat.leb]. eexists. reflexivity.
    + destruct R as (rnd' & -> & U & B & F'). destruct (letter_read y B) as [-> _]. cbn [bind]. rewrite store_at. cbn [bind].
      specialize (IH rnd' (a ++ [Some (letter y)]) b F' ltac:(cbn in L; lia)). cbv zeta in IH. rewrite U in IH.
      assert (ZA : zlen (a ++ [Some (letter y)]) = zlen a + 1) by (unfold zlen; rewrite app_length; cbn [length]; lia).
      rewrite ZA, <- app_assoc in IH. cbn [app] in IH. cbn [length Nat.leb].
      destruct (n <=? length u)%nat.
      * destruct IH as (b2 & E & LB). exists b2. rewrite E. split; [|cbn [length]; lia]. f_equal. f_equal; [f_equal; lia|]. cbn [firstn map app]. now rewrite <- app_assoc.
      * destruct IH as (b' & E). exists b'. exact E.
Qed.

(** C46. Every stream of random bytes: the key consists of the letters of the first bytes below 248; it is complete and terminated, or the
    function fails because the generator failed. Nothing is read or written out of bounds. *)
Theorem C46_key : forall size rnd dst, Forall obyte rnd -> 0 < size -> size < zlen dst ->
  let u := usable rnd in
  if size <=? zlen u then exists r b2, rand_string size rnd dst = Ret (Some r, map Some (map letter (zfirstn size u)) ++ Some 0 :: b2) /\ zlen dst = size + 1 + zlen b2
  else exists b', rand_string size rnd dst = Ret (None, b').
Proof.
  intros size rnd dst F S L. cbv zeta. unfold rand_string. replace (0 <? size) with true by (symmetry; now apply Z.ltb_lt).
  pose proof (rand_loop_ok (Z.to_nat size) rnd [] dst F ltac:(unfold zlen in L; lia)) as H. cbv zeta in H. cbn [app] in H. change (zlen (@nil (option Z))) with 0 in H.
  destruct (size <=? zlen (usable rnd)) eqn:B.
  - replace (Z.to_nat size <=? length (usable rnd))%nat with true in H by (symmetry; apply Nat.leb_le; apply Z.leb_le in B; unfold zlen in B; lia).
    destruct H as (b2 & E & LB). eexists. exists b2. split; [exact E|]. unfold zlen. lia.
  - replace (Z.to_nat size <=? length (usable rnd))%nat with false in H by (symmetry; apply Nat.leb_gt; apply Z.leb_gt in B; unfold zlen in B; lia). exact H.
Qed.
Print Assumptions C46_key.

(** every usable byte gives a letter of the alphabet *)
Theorem C46_alphabet : forall x, 0 <= x < 248 -> 0 <= x / 4 < 62 /\ In (letter x) charset.
Proof.
  intros x B. split; [|now apply letter_read]. split; [apply Z.div_pos; lia|apply Z.div_lt_upper_bound; lia].
Qed.
Print Assumptions C46_alphabet.

Lemma charset_nodup : NoDup charset.
Proof.
  assert (G : forall l : list Z, (fix nd l := match l with [] => true | x :: r => negb (existsb (Z.eqb x) r) && nd r end) l = true -> NoDup l).
  { induction l as [|x l IH]; intros H; constructor; apply andb_true_iff in H as [H1 H2]; auto.
    intros I. apply negb_true_iff in H1. rewrite <- not_true_iff_false in H1. apply H1. apply existsb_exists. exists x. split; auto. apply Z.eqb_refl. }
  apply G. vm_compute. reflexivity.
Qed.

Lemma four : forall c, In c charset -> exists l, NoDup l /\ length l = 4%nat /\ forall x, In x l <-> 0 <= x < 248 /\ letter x = c.
Proof.
  intros c I. apply In_nth with (d := 0) in I as (i & L & E). change (length charset) with 62%nat in L.
  exists [4 * Z.of_nat i; 4 * Z.of_nat i + 1; 4 * Z.of_nat i + 2; 4 * Z.of_nat i + 3]. split; [|split; [reflexivity|]].
  - repeat constructor; cbn [In]; intuition lia.
  - intros x. assert (D : 4 * Z.of_nat i <= x < 4 * Z.of_nat i + 4 <-> x / 4 = Z.of_nat i).
    { split; intros H; [symmetry; apply Z.div_unique with (r := x - 4 * Z.of_nat i); lia|].
      pose proof (Z.div_mod x 4 ltac:(lia)). pose proof (Z.mod_pos_bound x 4 ltac:(lia)). lia. }
    cbn [In]. split.
    + intros H. assert (R : 4 * Z.of_nat i <= x < 4 * Z.of_nat i + 4) by lia. split; [lia|]. apply D in R. unfold letter. now rewrite R, Nat2Z.id.
    + intros [B H]. assert (x / 4 = Z.of_nat i) as R; [|apply D in R; lia].
      assert (0 <= x / 4 < 62) by (split; [apply Z.div_pos; lia|apply Z.div_lt_upper_bound; lia]).
      unfold letter in H. rewrite <- E in H. pose proof (proj1 (NoDup_nth charset 0) charset_nodup (Z.to_nat (x / 4)) i) as N.
      change (length charset) with 62%nat in N. specialize (N ltac:(lia) L H). lia.
Qed.

(** every word over the alphabet comes from the same number, 4^n, of sequences of usable bytes *)
Theorem C46_uniform : forall w, Forall (fun c => In c charset) w ->
  exists l, NoDup l /\ Z.of_nat (length l) = 4 ^ zlen w /\ forall xs, In xs l <-> Forall (fun x => 0 <= x < 248) xs /\ map letter xs = w.
Proof.
  induction w as [|c w IH]; intros F.
  - exists [[]]. split; [repeat constructor; intros []|]. split; [reflexivity|]. intros xs. split.
    + intros [<-|[]]. auto.
    + intros [_ E]. destruct xs; [now left|discriminate].
  - apply Forall_cons_iff in F as [I F]. destruct (IH F) as (l & N & L & H). destruct (four c I) as (h & NH & LH & HH).
    exists (flat_map (fun x => map (cons x) l) h). split; [|split].
    + clear -N NH. induction NH as [|x h NI NH IHh]; [constructor|]. cbn [flat_map]. apply NoDup_app_intro; auto.
      * clear -N. induction N as [|y l NI N IHl]; constructor; auto. intros J. apply in_map_iff in J as (z & E & J). injection E as ->. contradiction.
      * intros y J K. apply in_map_iff in J as (z & <- & _). apply in_flat_map in K as (x' & X & K). apply in_map_iff in K as (z' & E & _). injection E as -> _. contradiction.
    + assert (G : forall k : list Z, length (flat_map (fun x => map (cons x) l) k) = (length k * length l)%nat).
      { induction k as [|x k IHk]; [reflexivity|]. cbn [flat_map length]. rewrite app_length, map_length, IHk. lia. }
      rewrite G, LH, Nat2Z.inj_mul, L. unfold zlen. cbn [length]. rewrite (Nat2Z.inj_succ (length w)), Z.pow_succ_r by lia. reflexivity.
    + intros xs. rewrite in_flat_map. split.
      * intros (x & X & J). apply in_map_iff in J as (ys & <- & J). apply HH in X as [B E]. apply H in J as [FJ EJ]. split; [constructor; auto|]. cbn [map]. now rewrite E, EJ.
      * intros [FX E]. destruct xs as [|x ys]; [discriminate|]. apply Forall_cons_iff in FX as [B FY]. cbn [map] in E. injection E as E1 E2.
        exists x. split; [apply HH; auto|]. apply in_map. apply H. auto.
Qed.
Print Assumptions C46_uniform.

Example C46_example : rand_string 3 [Some 0; Some 255; Some 5; Some 248; Some 247; None] (malloc 4) = Ret (Some 3, map Some (bs "ab9") ++ [Some 0]) /\ rand_string 3 [Some 0; Some 5; None; Some 7] (malloc 4) = Ret (None, [Some 97; Some 98; None; None]).
Proof. vm_compute. auto. Qed.
