(** utf8_check accepts exactly UTF-8. *)
From Coq Require Import ZArith Bool List Lia.
From Verif Require Import Base BaseFacts UrlProofs Utf8Model Utf8Spec.
Import ListNotations.
Open Scope Z_scope.

Ltac byte_fact := intros b B; match goal with |- ?X = ?Y =>
  let f := eval pattern b in (Bool.eqb X Y) in
  match f with ?P _ => assert (Q : P b = true) by (apply (byte_forall P); [vm_compute; reflexivity|exact B]);
    cbv beta in Q; now apply Bool.eqb_prop in Q end end.

Lemma m_e0_c0 : forall b, 0 <= b < 256 -> (Z.land b 224 =? 192) = ((192 <=? b) && (b <? 224)). Proof. byte_fact. Qed.
Lemma m_f0_e0 : forall b, 0 <= b < 256 -> (Z.land b 240 =? 224) = ((224 <=? b) && (b <? 240)). Proof. byte_fact. Qed.
Lemma m_f8_f0 : forall b, 0 <= b < 256 -> (Z.land b 248 =? 240) = ((240 <=? b) && (b <? 248)). Proof. byte_fact. Qed.
Lemma m_c0_80 : forall b, 0 <= b < 256 -> (Z.land b 192 =? 128) = ((128 <=? b) && (b <? 192)). Proof. byte_fact. Qed.
Lemma m_fe_c0 : forall b, 0 <= b < 256 -> (Z.land b 254 =? 192) = ((192 <=? b) && (b <? 194)). Proof. byte_fact. Qed.
Lemma m_e0_80 : forall b, 0 <= b < 256 -> (Z.land b 224 =? 128) = ((128 <=? b) && (b <? 160)). Proof. byte_fact. Qed.
Lemma m_e0_a0 : forall b, 0 <= b < 256 -> (Z.land b 224 =? 160) = ((160 <=? b) && (b <? 192)). Proof. byte_fact. Qed.
Lemma m_fe_be : forall b, 0 <= b < 256 -> (Z.land b 254 =? 190) = ((190 <=? b) && (b <? 192)). Proof. byte_fact. Qed.
Lemma m_f0_80 : forall b, 0 <= b < 256 -> (Z.land b 240 =? 128) = ((128 <=? b) && (b <? 144)). Proof. byte_fact. Qed.

(** one character of the specification, by shape *)
Inductive char1 : list Z -> Prop :=
| ch1 : forall b, 0 <= b < 128 -> char1 [b]
| ch2 : forall b0 b1, 194 <= b0 < 224 -> 128 <= b1 < 192 -> char1 [b0; b1]
| ch3 : forall b0 b1 b2, 224 <= b0 < 240 -> 128 <= b1 < 192 -> 128 <= b2 < 192 ->
    ~ (b0 = 224 /\ b1 < 160) -> ~ (b0 = 237 /\ 160 <= b1) -> char1 [b0; b1; b2]
| ch4 : forall b0 b1 b2 b3, 240 <= b0 < 245 -> 128 <= b1 < 192 -> 128 <= b2 < 192 -> 128 <= b3 < 192 ->
    ~ (b0 = 240 /\ b1 < 144) -> ~ (b0 = 244 /\ 143 < b1) -> char1 [b0; b1; b2; b3].

Lemma char1_enc : forall l, char1 l <-> exists c, scalar c /\ l = utf8_enc c.
Proof.
  assert (DM : forall a b, 0 <= b < 64 -> (a * 64 + b) / 64 = a /\ (a * 64 + b) mod 64 = b).
  { intros a b B. split.
    - rewrite Z.div_add_l by lia. rewrite Z.div_small by lia. lia.
    - rewrite Z.add_comm, Z.mod_add by lia. apply Z.mod_small; lia. }
  assert (D4 : forall c, c / 4096 = c / 64 / 64) by (intro; rewrite Zdiv.Zdiv_Zdiv by lia; reflexivity).
  assert (D2 : forall c, c / 262144 = c / 64 / 64 / 64) by (intro; rewrite !Zdiv.Zdiv_Zdiv by lia; reflexivity).
  intros l. split.
  - intros H. inversion H; subst.
    + exists b. unfold scalar, utf8_enc. replace (b <? 128) with true by (symmetry; apply Z.ltb_lt; lia). split; [lia|auto].
    + exists ((b0 - 192) * 64 + (b1 - 128)). unfold scalar, utf8_enc.
      destruct (DM (b0 - 192) (b1 - 128) ltac:(lia)) as [E1 E2].
      set (c := (b0 - 192) * 64 + (b1 - 128)) in *.
      replace (c <? 128) with false by (symmetry; apply Z.ltb_ge; lia).
      replace (c <? 2048) with true by (symmetry; apply Z.ltb_lt; lia).
      rewrite E1, E2. split; [lia|]. repeat f_equal; lia.
    + exists (((b0 - 224) * 64 + (b1 - 128)) * 64 + (b2 - 128)). unfold scalar, utf8_enc.
      destruct (DM ((b0 - 224) * 64 + (b1 - 128)) (b2 - 128) ltac:(lia)) as [E1 E2].
      destruct (DM (b0 - 224) (b1 - 128) ltac:(lia)) as [E3 E4].
      set (c := ((b0 - 224) * 64 + (b1 - 128)) * 64 + (b2 - 128)) in *.
      replace (c <? 128) with false by (symmetry; apply Z.ltb_ge; lia).
      replace (c <? 2048) with false by (symmetry; apply Z.ltb_ge; lia).
      replace (c <? 65536) with true by (symmetry; apply Z.ltb_lt; lia).
      rewrite D4, E1, E2, E3, E4. split; [lia|]. repeat f_equal; lia.
    + exists ((((b0 - 240) * 64 + (b1 - 128)) * 64 + (b2 - 128)) * 64 + (b3 - 128)). unfold scalar, utf8_enc.
      destruct (DM (((b0 - 240) * 64 + (b1 - 128)) * 64 + (b2 - 128)) (b3 - 128) ltac:(lia)) as [E1 E2].
      destruct (DM ((b0 - 240) * 64 + (b1 - 128)) (b2 - 128) ltac:(lia)) as [E3 E4].
      destruct (DM (b0 - 240) (b1 - 128) ltac:(lia)) as [E5 E6].
      set (c := (((b0 - 240) * 64 + (b1 - 128)) * 64 + (b2 - 128)) * 64 + (b3 - 128)) in *.
      replace (c <? 128) with false by (symmetry; apply Z.ltb_ge; lia).
      replace (c <? 2048) with false by (symmetry; apply Z.ltb_ge; lia).
      replace (c <? 65536) with false by (symmetry; apply Z.ltb_ge; lia).
      rewrite D2, D4, E1, E2, E3, E4, E5, E6. split; [lia|]. repeat f_equal; lia.
  - intros (c & S & ->). unfold scalar in S. unfold utf8_enc.
    pose proof (Z.mod_pos_bound c 64 ltac:(lia)).
    pose proof (Z.mod_pos_bound (c / 64) 64 ltac:(lia)).
    pose proof (Z.mod_pos_bound (c / 4096) 64 ltac:(lia)).
    pose proof (Z.div_mod c 64 ltac:(lia)) as M1.
    pose proof (Z.div_mod (c / 64) 64 ltac:(lia)) as M2. rewrite <- D4 in M2.
    pose proof (Z.div_mod (c / 4096) 64 ltac:(lia)) as M3.
    assert (E : c / 4096 / 64 = c / 262144) by (rewrite D2, D4; reflexivity). rewrite E in M3.
    destruct (c <? 128) eqn:C1; zb.
    { apply ch1. lia. }
    destruct (c <? 2048) eqn:C2; zb.
    { apply ch2; lia. }
    destruct (c <? 65536) eqn:C3; zb.
    { apply ch3; lia. }
    apply ch4; lia.
Qed.

Lemma utf8_text_char1 : forall l, utf8_text l <-> exists cs, Forall char1 cs /\ concat cs = l.
Proof.
  intros l. split.
  - intros (cps & F & <-). exists (map utf8_enc cps). split.
    + apply Forall_map. eapply Forall_impl; [|exact F]. intros c S. apply char1_enc. eauto.
    + symmetry. apply flat_map_concat_map.
  - intros (cs & F & <-). induction F as [|c cs C F IH].
    + exists []. split; [constructor|reflexivity].
    + destruct IH as (cps & F' & E). apply char1_enc in C as (x & S & ->). exists (x :: cps). split.
      * constructor; auto.
      * simpl. now rewrite E.
Qed.

Lemma starts_char1 : forall l, starts_char l <-> exists c r, char1 c /\ l = c ++ r.
Proof.
  intros l. split.
  - intros (c & r & S & ->). exists (utf8_enc c), r. split; auto. apply char1_enc; eauto.
  - intros (c & r & C & ->). apply char1_enc in C as (x & S & ->). exists x, r. auto.
Qed.

(** the loop, one step: either the window is exhausted, or one well-formed character is
    consumed, or the window does not start with a character *)
Lemma utf8_step : forall s i len, bytes s -> 0 <= i < len -> len - i <= zlen s ->
  (exists c r, char1 c /\ s = c ++ r /\ zlen c <= len - i /\
     utf8_loop s i len = utf8_loop r (i + zlen c) len) \/
  ((forall c r, char1 c -> s = c ++ r -> len - i < zlen c) /\ utf8_loop s i len = Ret (Some i)).
Proof.
  intros s i len B R L. destruct s as [|b0 s1]; [unfold zlen in L; simpl in L; lia|].
  inversion B as [|? ? B0 B1]; subst. rewrite zlen_cons in L.
  assert (UNF : utf8_loop (b0 :: s1) i len =
        if b0 <? 128 then utf8_loop s1 (i + 1) len
        else if Z.land b0 224 =? 192 then
          if (len <=? i + 1) then Ret (Some i)
          else match s1 with
               | [] => UB OutOfBounds
               | b1 :: s2 =>
                   if negb (Z.land b1 192 =? 128) || (Z.land b0 254 =? 192) then Ret (Some i)
                   else utf8_loop s2 (i + 2) len
               end
        else if Z.land b0 240 =? 224 then
          if (len <=? i + 2) then Ret (Some i)
          else match s1 with
               | b1 :: b2 :: s3 =>
                   if negb (Z.land b1 192 =? 128) || negb (Z.land b2 192 =? 128)
                      || ((b0 =? 224) && (Z.land b1 224 =? 128))
                      || ((b0 =? 237) && (Z.land b1 224 =? 160))
                      || ((b0 =? 239) && (b1 =? 191) && (Z.land b2 254 =? 190) && negb (b2 =? 191) && negb (b2 =? 190))
                   then Ret (Some i)
                   else utf8_loop s3 (i + 3) len
               | _ => UB OutOfBounds
               end
        else if Z.land b0 248 =? 240 then
          if (len <=? i + 3) then Ret (Some i)
          else match s1 with
               | b1 :: b2 :: b3 :: s4 =>
                   if negb (Z.land b1 192 =? 128) || negb (Z.land b2 192 =? 128) || negb (Z.land b3 192 =? 128)
                      || ((b0 =? 240) && (Z.land b1 240 =? 128))
                      || ((b0 =? 244) && (143 <? b1)) || (244 <? b0)
                   then Ret (Some i)
                   else utf8_loop s4 (i + 4) len
               | _ => UB OutOfBounds
               end
        else Ret (Some i)).
  { cbn [utf8_loop]. replace (i <? len) with true by (symmetry; apply Z.ltb_lt; lia). reflexivity. }
  rewrite UNF. clear UNF. rewrite m_e0_c0, m_f0_e0, m_f8_f0, m_fe_c0 by auto.
  destruct (b0 <? 128) eqn:E0; zb.
  { left. exists [b0], s1. split; [apply ch1; lia|]. split; auto. split; [unfold zlen; simpl; lia|reflexivity]. }
  (* no character shape matches *)
  Ltac nochar := right; split; [intros c r C E; inversion C; subst; simpl in E; inversion E; subst;
                                unfold zlen; simpl; try lia|reflexivity].
  destruct ((192 <=? b0) && (b0 <? 224)) eqn:E1; [zb|assert (b0 < 192 \/ 224 <= b0) by (zb; lia); clear E1].
  - destruct (len <=? i + 1) eqn:E2; zb.
    { nochar. }
    destruct s1 as [|b1 s2]; [unfold zlen in L; simpl in L; lia|]. inversion B1; subst.
    rewrite m_c0_80 by auto.
    destruct (negb ((128 <=? b1) && (b1 <? 192)) || ((192 <=? b0) && (b0 <? 194))) eqn:E3.
    + right; split; [|reflexivity]. intros c r C E.
      assert (~ (128 <= b1 < 192) \/ b0 < 194).
      { apply orb_true_iff in E3 as [E3|E3]; [apply negb_true_iff in E3|]; zb; lia. }
      inversion C; subst; simpl in E; inversion E; subst; lia.
    + apply orb_false_iff in E3 as [E3 E4]. apply negb_false_iff in E3. zb; try lia.
      left. exists [b0; b1], s2. split; [apply ch2; lia|]. split; auto. split; [unfold zlen; simpl; lia|reflexivity].
  - destruct ((224 <=? b0) && (b0 <? 240)) eqn:E2; [zb|assert (b0 < 224 \/ 240 <= b0) by (zb; lia); clear E2].
    + destruct (len <=? i + 2) eqn:E3; zb.
      { nochar. }
      destruct s1 as [|b1 [|b2 s3]]; try (unfold zlen in L; simpl in L; lia). inversion B1 as [|? ? B1a B1b]; subst. inversion B1b; subst.
      rewrite !m_c0_80, m_e0_80, m_e0_a0 by auto.
      assert (FF : ((b0 =? 239) && (b1 =? 191) && (Z.land b2 254 =? 190) && negb (b2 =? 191) && negb (b2 =? 190)) = false).
      { rewrite m_fe_be by auto. destruct (b2 =? 191) eqn:X1; [now rewrite !andb_false_r|].
        destruct (b2 =? 190) eqn:X2; [now rewrite !andb_false_r|]. zb.
        replace ((190 <=? b2) && (b2 <? 192)) with false; [now rewrite !andb_false_r|].
        symmetry. apply andb_false_iff. rewrite Z.leb_gt, Z.ltb_ge. lia. }
      rewrite FF, orb_false_r. clear FF.
      match goal with |- context [if ?b then Ret (Some i) else _] => destruct b eqn:E4 end.
      * right; split; [|reflexivity]. intros c r C E.
        assert (~ (128 <= b1 < 192) \/ ~ (128 <= b2 < 192) \/ (b0 = 224 /\ b1 < 160) \/ (b0 = 237 /\ 160 <= b1)).
        { rewrite !orb_true_iff, !negb_true_iff, !andb_true_iff, !andb_false_iff, !Z.eqb_eq, !Z.leb_gt, !Z.ltb_ge, !Z.leb_le, !Z.ltb_lt in E4. lia. }
        inversion C; subst; simpl in E; inversion E; subst; lia.
      * rewrite !orb_false_iff, !negb_false_iff, !andb_true_iff, !andb_false_iff, !Z.eqb_neq, !Z.leb_gt, !Z.ltb_ge, !Z.leb_le, !Z.ltb_lt in E4.
        left. exists [b0; b1; b2], s3. split; [apply ch3; lia|]. split; auto. split; [unfold zlen; simpl; lia|reflexivity].
    + destruct ((240 <=? b0) && (b0 <? 248)) eqn:E3; [zb|assert (b0 < 240 \/ 248 <= b0) by (zb; lia); clear E3].
      * destruct (len <=? i + 3) eqn:E4; zb.
        { nochar. }
        destruct s1 as [|b1 [|b2 [|b3 s4]]]; try (unfold zlen in L; simpl in L; lia).
        inversion B1 as [|? ? B1a B1b]; subst. inversion B1b as [|? ? B2a B2b]; subst. inversion B2b; subst.
        rewrite !m_c0_80, m_f0_80 by auto.
        match goal with |- context [if ?b then Ret (Some i) else _] => destruct b eqn:E5 end.
        -- right; split; [|reflexivity]. intros c r C E.
           assert (~ (128 <= b1 < 192) \/ ~ (128 <= b2 < 192) \/ ~ (128 <= b3 < 192) \/ (b0 = 240 /\ b1 < 144) \/ (b0 = 244 /\ 143 < b1) \/ 244 < b0).
           { rewrite !orb_true_iff, !negb_true_iff, !andb_true_iff, !andb_false_iff, !Z.eqb_eq, !Z.leb_gt, !Z.ltb_ge, !Z.leb_le, !Z.ltb_lt in E5. lia. }
           inversion C; subst; simpl in E; inversion E; subst; lia.
        -- rewrite !orb_false_iff, !negb_false_iff, !andb_true_iff, !andb_false_iff, !Z.eqb_neq, !Z.leb_gt, !Z.ltb_ge, !Z.leb_le, !Z.ltb_lt in E5.
           left. exists [b0; b1; b2; b3], s4. split; [apply ch4; lia|]. split; auto. split; [unfold zlen; simpl; lia|reflexivity].
      * nochar.
Qed.

Lemma char1_len : forall c, char1 c -> 0 < zlen c.
Proof. intros c C; inversion C; unfold zlen; simpl; lia. Qed.

Lemma bytes_app : forall a b, bytes (a ++ b) -> bytes b.
Proof. intros a b H. unfold bytes in *. apply Forall_app in H. tauto. Qed.

Lemma zfirstn_app_plus : forall A (a b : list A) n, zlen a <= n -> zfirstn n (a ++ b) = a ++ zfirstn (n - zlen a) b.
Proof.
  intros A a b n H. unfold zfirstn, zlen in *. rewrite firstn_app, firstn_all2 by lia. f_equal. f_equal. lia.
Qed.

Lemma utf8_loop_spec : forall n s i len, (length s <= n)%nat -> bytes s -> 0 <= i <= len -> len - i <= zlen s ->
  match utf8_loop s i len with
  | UB _ => False
  | Ret None => exists cs, Forall char1 cs /\ concat cs = zfirstn (len - i) s
  | Ret (Some p) => i <= p < len /\
      (exists cs, Forall char1 cs /\ concat cs = zfirstn (p - i) s) /\
      (forall c r, char1 c -> zskipn (p - i) (zfirstn (len - i) s) <> c ++ r)
  end.
Proof.
  induction n as [|n IH]; intros s i len LN B R L.
  - destruct s; [|simpl in LN; lia]. change (zlen (@nil Z)) with 0 in L. assert (i = len) by lia. subst. simpl.
    rewrite Z.ltb_irrefl. exists []. split; [constructor|]. now rewrite Z.sub_diag.
  - destruct (Z.eq_dec i len) as [->|NE].
    + destruct s; cbn [utf8_loop]; rewrite Z.ltb_irrefl; exists []; (split; [constructor|]); now rewrite Z.sub_diag.
    + destruct (utf8_step s i len B ltac:(lia) L) as [(c & r & C & E & Lc & U)|[N U]]; rewrite U; clear U.
      * pose proof (char1_len c C) as PC. subst s. rewrite zlen_app in L.
        specialize (IH r (i + zlen c) len). rewrite app_length in LN. assert (PN : (0 < length c)%nat) by (unfold zlen in PC; lia).
        specialize (IH ltac:(lia) (bytes_app _ _ B) ltac:(lia) ltac:(lia)).
        destruct (utf8_loop r (i + zlen c) len) as [[p|]|]; auto.
        -- destruct IH as (P1 & (cs & F & Ecs) & P3). split; [lia|]. split.
           ++ exists (c :: cs). split; [constructor; auto|]. simpl. rewrite Ecs.
              rewrite zfirstn_app_plus by lia. do 2 f_equal. lia.
           ++ intros c0 r0 C0 E0. apply (P3 c0 r0 C0). rewrite <- E0.
              rewrite (zfirstn_app_plus _ c r) by lia. unfold zskipn. rewrite skipn_app.
              assert (Hc : (length c <= Z.to_nat (p - i))%nat) by (unfold zlen in *; lia).
              rewrite (skipn_all2 c Hc). simpl. f_equal.
              ** unfold zlen in *; lia.
              ** f_equal. lia.
        -- destruct IH as (cs & F & Ecs). exists (c :: cs). split; [constructor; auto|]. simpl. rewrite Ecs.
           rewrite zfirstn_app_plus by lia. do 2 f_equal. lia.
      * split; [lia|]. split.
        -- exists []. split; [constructor|]. now rewrite Z.sub_diag.
        -- rewrite Z.sub_diag. intros c r C E. unfold zskipn in E; simpl in E.
           specialize (N c (r ++ zskipn (len - i) s) C).
           assert (s = c ++ r ++ zskipn (len - i) s).
           { rewrite <- (zfirstn_zskipn _ s (len - i)) at 1. rewrite E. now rewrite <- app_assoc. }
           specialize (N H). assert (zlen (zfirstn (len - i) s) = len - i) by (apply zlen_zfirstn; lia).
           rewrite E, zlen_app in H0. pose proof (zlen_nonneg _ r). lia.
Qed.

(** a text of characters parses uniquely: if the whole window is a text, no position stops it *)
Lemma char1_prefix_unique : forall c d r q, char1 c -> char1 d -> c ++ r = d ++ q -> c = d.
Proof.
  intros c d r q C D E. inversion C; inversion D; subst; simpl in E; inversion E; subst; auto; lia.
Qed.

Lemma texts_prefix : forall cs ds r, Forall char1 cs -> Forall char1 ds -> concat cs = concat ds ++ r ->
  r = [] \/ exists c q, char1 c /\ r = c ++ q.
Proof.
  intros cs ds. revert cs. induction ds as [|d ds IH]; intros cs r FC FD E; simpl in E.
  - destruct cs as [|c cs]; simpl in E; [auto|]. inversion FC; subst. right. eauto.
  - inversion FD; subst. destruct cs as [|c cs]; simpl in E.
    + pose proof (char1_len d H1) as Ld. destruct d; [unfold zlen in Ld; simpl in Ld; lia|discriminate].
    + inversion FC; subst. rewrite <- app_assoc in E.
      assert (c = d) by (eapply char1_prefix_unique; eauto). subst c. apply app_inv_head in E. eapply IH; eauto.
Qed.

Lemma C14_lemma : forall s len, bytes s -> 0 <= len <= zlen s ->
  match utf8_check s len with
  | UB _ => False
  | Ret None => utf8_text (zfirstn len s)
  | Ret (Some p) => 0 <= p < len /\ utf8_text (zfirstn p s) /\
      ~ starts_char (zskipn p (zfirstn len s)) /\ ~ utf8_text (zfirstn len s)
  end.
Proof.
  intros s len B L. unfold utf8_check.
  pose proof (utf8_loop_spec (length s) s 0 len (le_n _) B ltac:(lia) ltac:(lia)) as H.
  rewrite Z.sub_0_r in H. destruct (utf8_loop s 0 len) as [[p|]|]; auto.
  - rewrite Z.sub_0_r in H. destruct H as (P & (cs & F & E) & N). split; auto. split; [|split].
    + apply utf8_text_char1. eauto.
    + intros S. apply starts_char1 in S as (c & r & C & E2). eapply N; eauto.
    + intros T. apply utf8_text_char1 in T as (ds & FD & ED).
      assert (SP : zfirstn len s = zfirstn p s ++ zskipn p (zfirstn len s)).
      { rewrite <- (zfirstn_zskipn _ (zfirstn len s) p) at 1. f_equal.
        unfold zfirstn. rewrite firstn_firstn. f_equal. lia. }
      rewrite SP in ED. rewrite <- E in ED.
      destruct (texts_prefix ds cs _ FD F ED) as [R|(c & q & C & R)].
      * assert (zlen (zskipn p (zfirstn len s)) = len - p).
        { rewrite zlen_zskipn; rewrite zlen_zfirstn; lia. }
        rewrite R in H. unfold zlen in H; simpl in H; lia.
      * eapply N; eauto.
  - destruct H as (cs & F & E). apply utf8_text_char1. eauto.
Qed.

Lemma utf8_valid_spec : forall s, bytes s -> utf8_valid s = true <-> utf8_text s.
Proof.
  intros s B. unfold utf8_valid. pose proof (C14_lemma s (zlen s) B ltac:(pose proof (zlen_nonneg _ s); lia)) as H.
  rewrite zfirstn_all in H.
  destruct (utf8_check s (zlen s)) as [[p|]|]; [|tauto|tauto].
  destruct H as (_ & _ & _ & H). split; [discriminate|contradiction].
Qed.
