(** Proofs about the memory of responses (C97). *)
From Coq Require Import ZArith Bool List Lia.
From Verif Require Import Base BaseFacts UMapModel UMapProofs OwnModel OwnSpec OwnProofs MapMemModel MapMemSpec MapMemProofs MapMemPut MapMemRun MapMemSteps
  RespMemModel RespMemSpec.
Import ListNotations.
Open Scope Z_scope.

Lemma later_refl : forall m ids, mowns m ids -> later m m.
Proof. intros m ids O. split; [auto|apply O]. Qed.
Ltac chain := repeat (first [eassumption | eapply later_trans; [eassumption|]]).

(** ** texts *)
Definition ptext (p : ptr str) : option str := match p with Some (_, s) => Some s | None => None end.
Lemma x_strdup_ok : forall m s ids, mowns m ids -> exists p m', x_strdup m s = (p, m') /\ later m m' /\ mowns m' (ptr_blocks p ++ ids) /\
  (ptext p = s \/ (p = None /\ short m /\ s <> None)).
Proof.
  intros m [t|] ids O; cbn [x_strdup].
  - destruct (x_malloc_ok _ _ O) as (p & m' & -> & L & [(i & -> & O1)|(-> & S1 & O1)]); do 2 eexists; (split; [reflexivity|]);
      (split; [exact L|]); cbn [at_block ptr_blocks app ptext]; (split; [exact O1|]); auto. right. split; auto. split; auto. discriminate.
  - do 2 eexists. split; [reflexivity|]. split; [eapply later_refl; eauto|]. split; [exact O|]. auto.
Qed.
Lemma x_dup_ok : forall m p ids, mowns m ids -> incl (ptr_blocks p) ids -> exists q m', x_dup m p = Ret (q, m') /\ later m m' /\ mowns m' (ptr_blocks q ++ ids) /\
  (ptext q = ptext p \/ (q = None /\ short m /\ p <> None)).
Proof.
  intros m [[i t]|] ids O C; cbn [x_dup].
  - rewrite (x_deref_ok _ m i t ids O) by (apply C; now left). unfold bind at 1. cbn [snd].
    destruct (x_strdup_ok m (Some t) ids O) as (p & m' & -> & L & O1 & [E|(-> & S1 & _)]); do 2 eexists; (split; [reflexivity|]); (split; [exact L|]); (split; [exact O1|]); auto.
    right. split; auto. split; auto. discriminate.
  - do 2 eexists. split; [reflexivity|]. split; [eapply later_refl; eauto|]. split; [exact O|]. auto.
Qed.
Lemma ptext_none : forall p, ptext p = None -> p = None.
Proof. intros [[i s]|]; [discriminate|auto]. Qed.
Lemma missing_text : forall s p, ptext p = s -> missing s p = false.
Proof. intros [t|] [[i u]|]; cbn; congruence. Qed.

(** ** cookies *)
Definition vcookie (c : hcookie) : acookie := mk_acookie (ptext (k_key c)) (ptext (k_value c)) (ptext (k_expires c)) (ptext (k_domain c)) (ptext (k_path c)).
Definition whole (c : hcookie) : Prop :=
  (k_value c <> None /\ k_expires c <> None /\ k_domain c <> None /\ k_path c <> None) \/ c = null_cookie.
Ltac countc := let x := fresh "x" in intros x; rewrite ?flat_map_app; cbn [flat_map ptr_blocks]; rewrite ?flat_map_app; unfold cookie_blocks; cbn [k_key k_value k_expires k_domain k_path]; repeat rewrite ?cnt_app, ?cnt_cons, ?cnt_nil; lia.
Ltac cby H := eapply mowns_ext; [exact H|countc].

Lemma x_clean_cookie_ok : forall m c ids, mowns m (cookie_blocks c ++ ids) -> exists m', x_clean_cookie m c = Ret (m', null_cookie) /\ mowns m' ids /\ later m m'.
Proof.
  intros m c ids O. unfold x_clean_cookie, cookie_blocks in *. repeat rewrite <- app_assoc in O.
  destruct (x_free_ptr _ _ _ _ O) as (m1 & -> & O1 & L1). unfold bind at 1.
  destruct (x_free_ptr _ _ _ _ O1) as (m2 & -> & O2 & L2). unfold bind at 1.
  destruct (x_free_ptr _ _ _ _ O2) as (m3 & -> & O3 & L3). unfold bind at 1.
  destruct (x_free_ptr _ _ _ _ O3) as (m4 & -> & O4 & L4). unfold bind at 1.
  destruct (x_free_ptr _ _ _ _ O4) as (m5 & -> & O5 & L5). unfold bind at 1.
  exists m5. split; [reflexivity|]. split; [exact O5|]. chain.
Qed.
Lemma aget_app : forall A (a : list A) x b, aget (a ++ x :: b) (length a) = Ret x.
Proof. intros. unfold aget. now rewrite nth_mid. Qed.
Lemma x_clean_cookies_ok : forall i extra suf pre m ids, mowns m (flat_map cookie_blocks suf ++ ids) -> In i ids ->
  exists m', x_clean_cookies m (Some (i, pre ++ suf ++ extra)) (length pre) (length suf) = Ret m' /\ mowns m' ids /\ later m m'.
Proof.
  intros i extra. induction suf as [|c suf IH]; intros pre m ids O I.
  - exists m. split; [reflexivity|]. split; [exact O|]. eapply later_refl; eauto.
  - cbn [length x_clean_cookies]. rewrite (x_deref_ok _ m i _ _ O) by (apply in_or_app; auto). unfold bind at 1. cbn [snd app].
    rewrite aget_app. unfold bind at 1. cbn [flat_map] in O. rewrite <- app_assoc in O.
    destruct (x_clean_cookie_ok _ _ _ O) as (m1 & -> & O1 & L1). unfold bind at 1. cbn [fst].
    specialize (IH (pre ++ [c]) m1 ids O1 I). rewrite <- app_assoc in IH. cbn [app] in IH. rewrite app_length in IH. cbn [length] in IH.
    replace (length pre + 1)%nat with (S (length pre)) in IH by lia. destruct IH as (m2 & R & O2 & L2). exists m2. split; [exact R|]. split; [exact O2|]. chain.
Qed.
(** copying a cookie when there is memory *)
Lemma x_copy_cookie_ok : forall m c ids, mowns m ids -> incl (cookie_blocks c) ids -> ~ short m -> whole c ->
  exists z m' n, x_copy_cookie m c = Ret (z, (m', n)) /\ later m m' /\ mowns m' (cookie_blocks n ++ ids) /\ vcookie n = vcookie c /\ whole n.
Proof.
  intros m c ids O C NS W. unfold x_copy_cookie.
  assert (CK : incl (ptr_blocks (k_key c)) ids) by (intros x X; apply C; unfold cookie_blocks; apply in_or_app; auto).
  assert (CV : incl (ptr_blocks (k_value c)) ids) by (intros x X; apply C; unfold cookie_blocks; apply in_or_app; right; apply in_or_app; auto).
  assert (CE : incl (ptr_blocks (k_expires c)) ids) by (intros x X; apply C; unfold cookie_blocks; do 2 (apply in_or_app; right); apply in_or_app; auto).
  assert (CD : incl (ptr_blocks (k_domain c)) ids) by (intros x X; apply C; unfold cookie_blocks; do 3 (apply in_or_app; right); apply in_or_app; auto).
  assert (CP : incl (ptr_blocks (k_path c)) ids) by (intros x X; apply C; unfold cookie_blocks; do 3 (apply in_or_app; right); apply in_or_app; auto).
  destruct (x_dup_ok m (k_key c) ids O CK) as (a & m1 & -> & L1 & O1 & T1). unfold bind at 1. cbn [fst snd].
  destruct T1 as [T1|(_ & S1 & _)]; [|now elim NS].
  destruct (x_dup_ok m1 (k_value c) _ O1) as (b & m2 & -> & L2 & O2 & T2); [intros x X; apply in_or_app; auto|]. unfold bind at 1. cbn [fst snd].
  destruct T2 as [T2|(_ & S1 & _)]; [|elim NS; now apply L1].
  destruct (x_dup_ok m2 (k_expires c) _ O2) as (d & m3 & -> & L3 & O3 & T3); [intros x X; do 2 (apply in_or_app; right); auto|]. unfold bind at 1. cbn [fst snd].
  destruct T3 as [T3|(_ & S1 & _)]; [|elim NS; now apply L1, L2].
  destruct (x_dup_ok m3 (k_domain c) _ O3) as (e & m4 & -> & L4 & O4 & T4); [intros x X; do 3 (apply in_or_app; right); auto|]. unfold bind at 1. cbn [fst snd].
  destruct T4 as [T4|(_ & S1 & _)]; [|elim NS; now apply L1, L2, L3].
  destruct (x_dup_ok m4 (k_path c) _ O4) as (f & m5 & -> & L5 & O5 & T5); [intros x X; do 4 (apply in_or_app; right); auto|]. unfold bind at 1. cbn [fst snd].
  destruct T5 as [T5|(_ & S1 & _)]; [|elim NS; now apply L1, L2, L3, L4].
  cbn [k_value k_expires k_domain k_path].
  assert (LL : later m m5) by chain.
  destruct W as [(Wv & We & Wd & Wp)|W].
  - assert (G : forall p q : ptr str, ptext q = ptext p -> p <> None -> q <> None /\ is_null q = false).
    { intros p q E N. destruct q; [split; [discriminate|reflexivity]|]. symmetry in E. apply ptext_none in E. contradiction. }
    destruct (G _ _ T2 Wv) as [Nb ->], (G _ _ T3 We) as [Nd ->], (G _ _ T4 Wd) as [Ne ->], (G _ _ T5 Wp) as [Nf ->]. cbn [orb].
    do 3 eexists. split; [reflexivity|]. split; [exact LL|]. split; [cby O5|]. split; [unfold vcookie; cbn; congruence|]. left. auto.
  - subst c. cbn in T1, T2, T3, T4, T5. apply ptext_none in T1, T2, T3, T4, T5. subst. cbn [is_null orb addr x_free]. unfold bind.
    do 3 eexists. split; [reflexivity|]. split; [exact LL|]. split; [exact O5|]. split; [reflexivity|]. right. reflexivity.
Qed.
Lemma x_copy_cookies_ok : forall i extra suf pre m ids, mowns m ids -> In i ids -> incl (flat_map cookie_blocks suf) ids -> ~ short m -> Forall whole suf ->
  exists m' l, x_copy_cookies m (Some (i, pre ++ suf ++ extra)) (length pre) (length suf) = Ret (m', l) /\ later m m' /\
    mowns m' (flat_map cookie_blocks l ++ ids) /\ map vcookie l = map vcookie suf /\ Forall whole l.
Proof.
  intros i extra. induction suf as [|c suf IH]; intros pre m ids O I C NS W.
  - exists m, []. split; [reflexivity|]. split; [eapply later_refl; eauto|]. split; [exact O|]. auto.
  - cbn [length x_copy_cookies]. rewrite (x_deref_ok _ m i _ _ O I). unfold bind at 1. cbn [snd app].
    rewrite aget_app. unfold bind at 1. inversion W as [|? ? Wc Ws]; subst.
    destruct (x_copy_cookie_ok m c ids O) as (z & m1 & n & -> & L1 & O1 & V1 & W1); auto; [intros x X; apply C; cbn [flat_map]; apply in_or_app; auto|].
    unfold bind at 1. cbn [fst snd].
    destruct (IH (pre ++ [c]) m1 (cookie_blocks n ++ ids) O1) as (m2 & l & R & L2 & O2 & V2 & W2); auto.
    { apply in_or_app; auto. } { intros x X. apply in_or_app. right. apply C. cbn [flat_map]. apply in_or_app; auto. } { intros S1. apply NS. now apply L1. }
    rewrite <- app_assoc in R. cbn [app] in R. rewrite app_length in R. cbn [length] in R. replace (length pre + 1)%nat with (S (length pre)) in R by lia.
    rewrite R. unfold bind at 1. cbn [fst snd]. exists m2, (n :: l). split; [reflexivity|]. split; [chain|].
    split; [cby O2|]. split; [cbn [map]; congruence|]. constructor; auto.
Qed.

(** ** the extensions *)
Lemma x_free_exts_ok : forall es m ids, mowns m (flat_map ext_blocks (map Some es) ++ ids) -> exists m', x_free_exts m (map Some es) = Ret m' /\ mowns m' ids /\ later m m'.
Proof.
  induction es as [|[i e] es IH]; intros m ids O.
  - exists m. split; [reflexivity|]. split; [exact O|]. eapply later_refl; eauto.
  - cbn [map x_free_exts x_free_ext]. cbn [map flat_map ext_blocks app] in O. rewrite (x_deref_ok _ m i e _ O) by now left. unfold bind at 2. cbn [fst snd].
    assert (O0 : mowns m (ptr_blocks (e_server e) ++ (ptr_blocks (e_client e) ++ (i :: (flat_map ext_blocks (map Some es) ++ ids))))).
    { eapply mowns_ext; [exact O|]. intros x. repeat rewrite ?cnt_app, ?cnt_cons, ?cnt_nil. lia. }
    destruct (x_free_ptr _ _ _ _ O0) as (m1 & -> & O1 & L1). unfold bind at 2.
    destruct (x_free_ptr _ _ _ _ O1) as (m2 & -> & O2 & L2). unfold bind at 2.
    destruct (x_free_ok _ _ _ O2) as (m3 & -> & O3 & L3 & _). unfold bind at 1.
    destruct (IH m3 ids O3) as (m4 & -> & O4 & L4). exists m4. split; [reflexivity|]. split; [exact O4|]. chain.
Qed.
Definition exrel (ex : ptr (list (ptr hext))) (l : list (option str)) : Prop :=
  match ex with
  | None => l = []
  | Some (_, arr) => exists es, arr = map Some es /\ l = map (fun e : nat * hext => ptext (e_server (snd e))) es
  end.
Lemma x_clean_handle_ok : forall m iw wp we pl ex l ids, exrel ex l -> mowns m (handle_blocks (Some (iw, mk_hhandle wp we (Some (pl, ex)))) ++ ids) ->
  exists m', x_clean_handle m (Some (iw, mk_hhandle wp we (Some (pl, ex)))) = Ret m' /\ mowns m' ids /\ later m m'.
Proof.
  intros m iw wp we pl ex l ids X O. unfold x_clean_handle. cbn [handle_blocks w_protocol w_extensions w_list] in O.
  rewrite (x_deref_ok _ m iw _ _ O) by now left. unfold bind at 1. cbn [fst snd w_protocol w_extensions w_list].
  assert (O0 : mowns m (ptr_blocks wp ++ (ptr_blocks we ++ (list_blocks (Some (pl, ex)) ++ (iw :: ids))))).
  { eapply mowns_ext; [exact O|]. intros x. cbn [app]. repeat rewrite ?cnt_app, ?cnt_cons, ?cnt_nil. lia. }
  destruct (x_free_ptr _ _ _ _ O0) as (m1 & -> & O1 & L1). unfold bind at 1.
  destruct (x_free_ptr _ _ _ _ O1) as (m2 & -> & O2 & L2). unfold bind at 1.
  assert (G : exists m3, x_clean_list m2 (Some (pl, ex)) = Ret m3 /\ mowns m3 (pl :: iw :: ids) /\ later m2 m3).
  { unfold x_clean_list. destruct ex as [[j arr]|]; cbn [list_blocks app] in O2.
    - destruct X as (es & -> & _). rewrite (x_deref_ok _ m2 pl _ _ O2) by now left. unfold bind at 1. cbn [snd].
      rewrite (x_deref_ok _ m2 j _ _ O2) by (right; now left). unfold bind at 1. cbn [fst snd].
      assert (O3 : mowns m2 (flat_map ext_blocks (map Some es) ++ (j :: pl :: iw :: ids))).
      { eapply mowns_ext; [exact O2|]. intros x. repeat rewrite ?cnt_app, ?cnt_cons, ?cnt_nil. lia. }
      destruct (x_free_exts_ok _ _ _ O3) as (m3 & -> & O4 & L3). unfold bind at 1.
      destruct (x_free_ok _ _ _ O4) as (m4 & -> & O5 & L4 & _). exists m4. split; [reflexivity|]. split; [exact O5|]. chain.
    - rewrite (x_deref_ok _ m2 pl _ _ O2) by now left. unfold bind at 1. cbn [snd]. exists m2. split; [reflexivity|]. split; [exact O2|]. eapply later_refl; eauto. }
  destruct G as (m3 & -> & O3 & L3). unfold bind at 1. cbn [addr].
  destruct (x_free_ok _ _ _ O3) as (m4 & -> & O4 & L4 & _). unfold bind at 1.
  destruct (x_free_ok _ _ _ O4) as (m5 & -> & O5 & L5 & _). exists m5. split; [reflexivity|]. split; [exact O5|]. chain.
Qed.

(** ** a response in memory *)
Definition mkr pr ih ik iv il es rl ck nb bd ln iw wp we pl ex : hresp :=
  mk_hresp (Some pr) (Some (Some (ih, mkf ik iv il es))) (Some rl) (Some ck) (Some nb) (Some bd) (Some ln)
           (Some (Some (iw, mk_hhandle wp we (Some (pl, ex))))).
Definition ckb (ck : ptr (list hcookie)) : list nat := match ck with Some (i, l) => i :: flat_map cookie_blocks l | None => [] end.
Definition exb (ex : ptr (list (ptr hext))) : list nat := match ex with Some (j, a) => j :: flat_map ext_blocks a | None => [] end.
Definition rb (pr : ptr str) ih ik iv il es (rl : ptr str) ck (bd : ptr (list Z)) (iw : nat) (wp we : ptr str) (pl : nat) ex : list nat :=
  ptr_blocks pr ++ (ih :: fb ik iv il es) ++ ptr_blocks rl ++ ckb ck ++ ptr_blocks bd ++ (iw :: ptr_blocks wp ++ ptr_blocks we ++ pl :: exb ex).
Definition inner (r : hresp) : list nat := tl (resp_blocks (0%nat, r)).
Lemma resp_inner : forall p r, resp_blocks (p, r) = p :: inner r.
Proof. reflexivity. Qed.
Lemma inner_mkr : forall pr ih ik iv il es rl ck nb bd ln iw wp we pl ex x,
  cnt (inner (mkr pr ih ik iv il es rl ck nb bd ln iw wp we pl ex)) x = cnt (rb pr ih ik iv il es rl ck bd iw wp we pl ex) x.
Proof.
  intros. unfold inner, rb, resp_blocks, mkr, of_member.
  cbn [tl fst snd q_protocol q_header q_realm q_cookies q_body q_handle]. unfold handle_blocks. cbn [w_protocol w_extensions w_list].
  assert (E : list_blocks (Some (pl, ex)) = pl :: exb ex) by (destruct ex as [[j a]|]; reflexivity). rewrite E.
  repeat rewrite ?cnt_app, ?cnt_cons. rewrite blocks_mkf. rewrite cnt_cons. unfold ckb. destruct ck as [[i l]|]; lia.
Qed.

Definition cok (dups : bool) (ck : ptr (list hcookie)) (nb : nat) (l : list acookie) : Prop :=
  exists cs extra, nb = length cs /\ map vcookie cs = l /\ (dups = true -> Forall whole cs) /\
    match ck with None => cs = [] | Some (_, arr) => arr = cs ++ extra /\ cs <> [] /\ Forall (eq null_cookie) extra end.
Definition brel (bd : ptr (list Z)) (ln : Z) (b : option (list Z)) : Prop :=
  match bd with None => b = None | Some (_, x) => 0 <= ln <= zlen x /\ b = Some (zfirstn ln x) end.
Record rfit (dups : bool) (N : Z) pr es rl ck nb bd ln wp we ex (a : aresp) : Prop := mk_rfit {
  r_protocol : ptext pr = ar_protocol a;
  r_realm : ptext rl = ar_realm a;
  r_header : Forall2 (erel N) es (ar_header a);
  r_nodup : NoDup (map fst (ar_header a));
  r_cookies : cok dups ck nb (ar_cookies a);
  r_body : brel bd ln (ar_body a);
  r_socket : (ptext wp, ptext we) = ar_socket a;
  r_exts : exrel ex (ar_exts a)
}.
Definition rinv (dups : bool) (N : Z) (r : hresp) (a : aresp) : Prop :=
  exists pr ih ik iv il es rl ck nb bd ln iw wp we pl ex, r = mkr pr ih ik iv il es rl ck nb bd ln iw wp we pl ex /\
    rfit dups N pr es rl ck nb bd ln wp we ex a.
Ltac countr := let x := fresh "x" in intros x; rewrite ?inner_mkr; unfold rb, cookie_blocks; cbn [ckb exb k_key k_value k_expires k_domain k_path];
  rewrite ?cnt_app, ?inner_mkr; unfold rb; cbn [ckb exb]; rewrite ?flat_map_app; cbn [flat_map ptr_blocks app]; repeat rewrite ?cnt_app, ?cnt_cons, ?cnt_nil; lia.
Ltac rby H := eapply mowns_ext; [exact H|countr].

Lemma null_blocks : forall extra, Forall (eq null_cookie) extra -> flat_map cookie_blocks extra = [].
Proof. intros extra F. induction F as [|c r E F IH]; [reflexivity|]. subst c. cbn [flat_map]. rewrite IH. reflexivity. Qed.

(** what a call gives *)
Definition rcall (dups : bool) (N : Z) (m : mem) (a : aresp) (fr : list nat) (o : rop) (res : outcome (Z * (mem * hresp))) : Prop :=
  exists c m' r' a', res = Ret (c, (m', r')) /\ later m m' /\ rinv dups N r' a' /\ mowns m' (inner r' ++ fr) /\
    ((c, a') = ar_call a o \/ (short m /\ ar_fail a o c a')).

Lemma clean_ok : forall dups N m r a ids, rinv dups N r a -> mowns m (inner r ++ ids) -> exists m' r', x_clean_resp m r = Ret (m', r') /\ mowns m' ids /\ later m m'.
Proof.
  intros dups N m r a ids (pr & ih & ik & iv & il & es & rl & ck & nb & bd & ln & iw & wp & we & pl & ex & -> & F) O.
  assert (O0 : mowns m (ptr_blocks pr ++ ((ih :: fb ik iv il es ++ (ptr_blocks rl ++ ckb ck ++ ptr_blocks bd ++ (iw :: ptr_blocks wp ++ ptr_blocks we ++ pl :: exb ex) ++ ids))))) by rby O.
  unfold x_clean_resp, mkr. cbn [x_member q_protocol q_header q_realm q_cookies q_nb q_body q_len q_handle]. unfold bind at 1.
  destruct (x_free_ptr _ _ _ _ O0) as (m1 & -> & O1 & L1). unfold bind at 1. unfold bind at 1.
  destruct (x_clean_full_ok _ _ _ _ _ _ _ O1) as (m2 & -> & O2 & L2). unfold bind at 1. unfold bind at 1.
  destruct (r_cookies _ _ _ _ _ _ _ _ _ _ _ _ _ F) as (cs & extra & EN & _ & _ & CK).
  assert (G : exists m3, (match nb with O => Ret m2 | S _ => do cs <- Ret ck; x_clean_cookies m2 cs 0 nb end) = Ret m3 /\
     mowns m3 (ptr_blocks rl ++ (ptr_blocks ck ++ (ptr_blocks bd ++ (iw :: ptr_blocks wp ++ ptr_blocks we ++ pl :: exb ex) ++ ids))) /\ later m2 m3).
  { destruct ck as [[i arr]|].
    - destruct CK as (-> & CN & FE). destruct nb as [|nb]; [destruct cs; [contradiction|discriminate]|]. unfold bind at 1. rewrite EN.
      destruct (x_clean_cookies_ok i extra cs [] m2 (ptr_blocks rl ++ (ptr_blocks (Some (i, cs ++ extra)) ++ (ptr_blocks bd ++ (iw :: ptr_blocks wp ++ ptr_blocks we ++ pl :: exb ex) ++ ids))))
        as (m3 & R & O3 & L3).
      + eapply mowns_ext; [exact O2|]. intros x. cbn [ckb ptr_blocks]. rewrite flat_map_app, (null_blocks _ FE). repeat rewrite ?cnt_app, ?cnt_cons, ?cnt_nil. lia.
      + apply in_or_app. right. now left.
      + cbn [app length] in R. exists m3. split; [exact R|]. auto.
    - subst cs. cbn in EN. subst nb. exists m2. split; [reflexivity|]. split; [exact O2|]. eapply later_refl; eauto. }
  destruct G as (m3 & -> & O3 & L3). unfold bind at 1. unfold bind at 1.
  destruct (x_free_ptr _ _ _ _ O3) as (m4 & -> & O4 & L4). unfold bind at 1. unfold bind at 1.
  destruct (x_free_ptr _ _ _ _ O4) as (m5 & -> & O5 & L5). unfold bind at 1. unfold bind at 1.
  destruct (x_free_ptr _ _ _ _ O5) as (m6 & -> & O6 & L6). unfold bind at 1. unfold bind at 1.
  destruct (x_clean_handle_ok m6 iw wp we pl ex (ar_exts a) ids) as (m7 & -> & O7 & L7); [apply F| |].
  { eapply mowns_ext; [exact O6|]. intros x. cbn [handle_blocks w_protocol w_extensions w_list].
    replace (list_blocks (Some (pl, ex))) with (pl :: exb ex) by (destruct ex as [[j q]|]; reflexivity). reflexivity. }
  unfold bind. do 2 eexists. split; [reflexivity|]. split; [exact O7|]. chain.
Qed.
Lemma clean_full_ok : forall dups N m p r a ids, rinv dups N r a -> mowns m (resp_blocks (p, r) ++ ids) -> exists m', x_clean_resp_full m p r = Ret m' /\ mowns m' ids /\ later m m'.
Proof.
  intros dups N m p r a ids I O. rewrite resp_inner in O. unfold x_clean_resp_full.
  destruct (clean_ok dups N m r a (p :: ids) I) as (m1 & r1 & -> & O1 & L1); [mowns_by O|]. unfold bind at 1. cbn [fst].
  destruct (x_free_ok _ _ _ O1) as (m2 & -> & O2 & L2 & _). exists m2. split; [reflexivity|]. split; [exact O2|]. chain.
Qed.
