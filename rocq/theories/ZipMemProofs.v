(** Proofs about the memory of the callback that compresses the body of a response (C111). *)
From Coq Require Import String ZArith Bool List Lia.
From Verif Require Import Base BaseFacts StrModel CompressModel OwnModel OwnSpec OwnProofs MapMemModel MapMemSpec MapMemProofs
  RespMemModel RespMemProofs DefMemModel DefMemSpec DefMemProofs SiteMemModel SiteMemProofs ZipMemModel ZipMemSpec.
Import ListNotations.
Open Scope Z_scope.

Lemma replace_has : forall m old z ids, has m (ptr_blocks old ++ ids) -> z <> [] -> exists m' p, x_replace m old z = Ret (m', p) /\ after m m' /\ has m' (ptr_blocks p ++ ids) /\
  ((exists i, p = Some (i, z)) \/ (p = None /\ short m)).
Proof.
  intros m old z ids O N. unfold x_replace. destruct z as [|c z]; [congruence|]. destruct (free_has _ _ _ _ O) as (m1 & -> & O1 & A1). unfold bind.
  destruct (malloc_has _ _ O1) as (q & m2 & -> & A2 & [(i & -> & O2)|(-> & S2 & O2)]); do 2 eexists; (split; [reflexivity|]); (split; [follow|]); (split; [exact O2|]).
  - left. now exists i.
  - right. split; [reflexivity|]. now apply A1.
Qed.
Lemma relabel_has : forall m old gz ids, has m (ptr_blocks old ++ ids) -> exists m' p, x_relabel m old gz = Ret (m', p) /\ after m m' /\ has m' (ptr_blocks p ++ ids) /\
  ((exists i, p = Some (i, gz)) \/ (p = old /\ short m)).
Proof.
  intros m old gz ids O. unfold x_relabel. destruct (malloc_has _ _ O) as (q & m1 & -> & A1 & [(i & -> & O1)|(-> & S1 & O1)]).
  - assert (O1' : has m1 (ptr_blocks old ++ (i :: ids))) by has_by O1. destruct (free_has _ _ _ _ O1') as (m2 & -> & O2 & A2). unfold bind. do 2 eexists. split; [reflexivity|]. split; [follow|]. split; [exact O2|]. left. now exists i.
  - do 2 eexists. split; [reflexivity|]. split; [exact A1|]. split; [exact O1|]. right. auto.
Qed.
(** x_chunks leaves the list for malloc, and shortens the one for realloc *)
Lemma chunks_after : forall err calls m p len z m' q len', x_chunks err m p len calls = Ret (z, (m', (q, len'))) -> after m m'.
Proof.
  intros err. induction calls as [|[code out] r IH]; intros m p len z m' q len' E; cbn [x_chunks] in E.
  all: destruct (x_realloc m (addr p)) as [[[i|] m1]|] eqn:RE; unfold bind at 1 in E; try discriminate.
  all: assert (A1 : after m m1) by (revert RE; clear; unfold x_realloc, after, short; destruct (m_grow m) as [|[] g]; cbn [next_answer]; destruct (addr p) as [j|]; unfold bind;
    try (destruct (h_free (m_heap m) j)); try (destruct (h_use (m_heap m) j)); intros E0; inversion E0; subst; cbn [m_new m_grow In]; tauto).
  2, 4: injection E as <- <- <- <-; exact A1.
  - injection E as <- <- <- <-. exact A1.
  - destruct (memcpy _ _ _ _) as [b1|]; unfold bind in E; [|discriminate]. destruct (z_fair code).
    + destruct (zlen out =? _); [apply IH in E; follow|]. injection E as <- <- <- <-. exact A1.
    + injection E as <- <- <- <-. exact A1.
Qed.

Definition zipped (p : parcel) (gz : bool) (calls : list zcall) (sh gr : Prop) (a : Z) (n : nat) (p' : parcel) : Prop :=
  (n = 0%nat /\ exists z, produced calls = Some z /\ a = U_CALLBACK_IGNORE /\ p' = (Some z, Some gz)) \/
  (n = 0%nat /\ produced calls = None /\ a = U_CALLBACK_ERROR /\ p' = p) \/
  (gr /\ a = U_CALLBACK_ERROR /\ p' = p /\ (n <= 1)%nat) \/
  (sh /\ n = 0%nat /\ ((p' = p /\ a = U_CALLBACK_ERROR) \/ exists z, produced calls = Some z /\ a = U_CALLBACK_IGNORE /\ (fst p' = None \/ fst p' = Some z) /\ (snd p' = snd p \/ snd p' = Some gz))).
Lemma zip_ok : forall r gz calls ids, has (r_mem r) (parcel_blocks r ++ ids) -> Forall (fun x : zcall => zlen (snd x) <= 256) calls -> produced calls <> Some [] ->
  exists a r' lost, x_zip r gz calls = Ret (a, r') /\ after (r_mem r) (r_mem r') /\ has (r_mem r') (parcel_blocks r' ++ lost ++ ids) /\
    zipped (parcel_of r) gz calls (short (r_mem r)) (In false (m_grow (r_mem r))) a (List.length lost) (parcel_of r').
Proof.
  intros r gz calls ids O F N. unfold x_zip, parcel_blocks in *. destruct (malloc_has _ _ O) as (q & m1 & -> & A1 & [(st & -> & O1)|(-> & S1 & O1)]).
  2:{ do 2 eexists. exists []. split; [reflexivity|]. cbn [r_mem r_body r_label]. split; [exact A1|]. split; [exact O1|]. do 3 right. split; [exact S1|]. split; [reflexivity|]. left. split; reflexivity. }
  assert (O1' : owns (m_heap m1) (ptr_blocks (@None (nat * buf)) ++ (st :: (ptr_blocks (r_body r) ++ ptr_blocks (r_label r)) ++ ids))) by exact O1.
  destruct (chunks_mem U_ERROR_MEMORY calls m1 None [] _ O1' F eq_refl) as (z & m2 & p & len & E & N1 & C). change (zlen (@nil Z)) with 0 in E. rewrite E. unfold bind at 1.
  pose proof (chunks_after _ _ _ _ _ _ _ _ _ E) as A2. destruct C as [(-> & b & i & k & P & -> & K & -> & O2)|[(-> & P & O2)|(-> & G2 & -> & lost & B & O2)]].
  - change (U_OK =? U_OK) with true. cbn iota. cbn [app]. rewrite (deref_has _ m2 i _ _ O2) by now left. unfold bind at 2. cbn [snd]. unfold zlen at 1. rewrite Nat2Z.id.
    match goal with |- context [read_bytes ?a ?n] => replace (read_bytes a n) with (Ret b) by (symmetry; apply read_holds) end. unfold bind at 2.
    assert (O2' : has m2 (ptr_blocks (r_body r) ++ (ptr_blocks (r_label r) ++ i :: st :: ids))) by has_by O2.
    destruct (replace_has m2 (r_body r) b _ O2') as (m3 & nb & -> & A3 & O3 & NB); [intros ->; contradiction|]. unfold bind at 2. cbn [fst snd].
    assert (O3' : has m3 (ptr_blocks (r_label r) ++ (st :: i :: ptr_blocks nb ++ ids))) by has_by O3.
    destruct (relabel_has m3 (r_label r) gz _ O3') as (m4 & nl & -> & A4 & O4 & NL). unfold bind at 2. unfold bind at 1. cbn [fst snd r_mem r_body r_label].
    assert (O4' : has m4 (st :: i :: ptr_blocks nb ++ ptr_blocks nl ++ ids)) by has_by O4.
    destruct (free_id _ _ _ O4') as (m5 & -> & O5 & A5). unfold bind at 1. cbn [addr]. destruct (free_id _ _ _ O5) as (m6 & -> & O6 & A6). unfold bind.
    do 2 eexists. exists []. split; [reflexivity|]. cbn [r_mem r_body r_label app]. split; [follow|]. split; [rewrite <- app_assoc; exact O6|]. unfold zipped, parcel_of. cbn [fst snd r_body r_label].
    destruct NB as [(j & ->)|(-> & S3)].
    + destruct NL as [(j' & ->)|(-> & S4)].
      * left. split; [reflexivity|]. eauto.
      * do 3 right. split; [now apply A1, A2, A3|]. split; [reflexivity|]. right. exists b. auto.
    + do 3 right. split; [now apply A1, A2|]. split; [reflexivity|]. right. exists b. split; [exact P|]. split; [reflexivity|]. split; [now left|]. destruct NL as [(j' & ->)|(-> & S4)]; auto.
  - change (U_ERROR =? U_OK) with false. cbn iota. unfold bind at 1. cbn [fst snd r_mem r_body r_label].
    assert (O2' : has m2 (st :: ptr_blocks p ++ (ptr_blocks (r_body r) ++ ptr_blocks (r_label r)) ++ ids)) by has_by O2.
    destruct (free_id _ _ _ O2') as (m5 & -> & O5 & A5). unfold bind at 1. destruct (free_has _ _ p _ O5) as (m6 & E6 & O6 & A6).
    match goal with |- context [x_free m5 ?a] => replace (x_free m5 a) with (Ret m6) by (symmetry; exact E6) end. unfold bind.
    do 2 eexists. exists []. split; [reflexivity|]. cbn [r_mem r_body r_label app]. split; [follow|]. split; [exact O6|]. right. left. auto.
  - change (U_ERROR_MEMORY =? U_OK) with false. cbn iota. unfold bind at 1. cbn [fst snd r_mem r_body r_label].
    assert (O2' : has m2 (st :: (ptr_blocks (r_body r) ++ ptr_blocks (r_label r)) ++ lost ++ ids)) by has_by O2.
    destruct (free_id _ _ _ O2') as (m5 & -> & O5 & A5). unfold bind at 1. cbn [addr]. unfold x_free, bind.
    do 2 eexists. exists lost. split; [reflexivity|]. cbn [r_mem r_body r_label]. split; [follow|]. split; [exact O5|]. right. right. left. split; [now apply A1|]. auto.
Qed.

Lemma turn_has : forall r t ids, has (r_mem r) (parcel_blocks r ++ ids) -> turn_ok t -> exists a r' lost, x_turn r t = Ret (a, r') /\ has (r_mem r') (parcel_blocks r' ++ lost ++ ids) /\
  turned t (parcel_of r) a (List.length lost) (parcel_of r').
Proof.
  intros [m [[bi bd]|] rl] t ids O (F & N); unfold x_turn, x_press; cbn [r_body r_mem r_label]; unfold turned, pressed, chosen.
  2:{ unfold bind. do 2 eexists. exists []. split; [reflexivity|]. split; [exact O|]. left. split; reflexivity. }
  set (p0 := parcel_of (mk_zresp m (Some (bi, bd)) rl)). change (fst p0) with (Some bd). destruct (z_accept t) as [a|].
  2:{ unfold bind. do 2 eexists. exists []. split; [reflexivity|]. split; [exact O|]. left. split; reflexivity. }
  set (m0 := armed m (z_new t) (z_grow t)). assert (O0 : has m0 (bi :: ptr_blocks rl ++ ids)) by exact O.
  destruct (malloc_has _ _ O0) as (q & m1 & -> & A1 & [(l & -> & O1)|(-> & S1 & O1)]).
  2:{ unfold bind. do 2 eexists. exists []. split; [reflexivity|]. cbn [snd r_mem r_body r_label]. split; [exact O1|]. right. right. split; [exact S1|]. split; [reflexivity|]. left. split; [reflexivity|]. now left. }
  destruct (CompressModel.wanted (z_conf t) a) as [gz|].
  - rewrite (deref_has _ m1 bi bd _ O1) by (right; now left). unfold bind at 3.
    assert (O1' : has (r_mem (mk_zresp m1 (Some (bi, bd)) rl)) (parcel_blocks (mk_zresp m1 (Some (bi, bd)) rl) ++ (l :: ids))) by (change (has m1 ((bi :: ptr_blocks rl) ++ l :: ids)); has_by O1).
    destruct (zip_ok (mk_zresp m1 (Some (bi, bd)) rl) gz (z_out t) _ O1' F N) as (x & r' & lost & -> & A2 & O2 & Z1). unfold bind at 2. cbn [fst snd].
    assert (O2' : has (r_mem r') (l :: (parcel_blocks r' ++ lost ++ ids))) by has_by O2. destruct (free_id _ _ _ O2') as (m3 & -> & O3 & A3). unfold bind. cbn [fst snd r_mem r_body r_label].
    do 2 eexists. exists lost. split; [reflexivity|]. split; [exact O3|].
    change (parcel_of (mk_zresp (armed m3 [] []) (r_body r') (r_label r'))) with (parcel_of r'). cbn [r_mem] in Z1. unfold zipped in Z1. change (parcel_of (mk_zresp m1 (Some (bi, bd)) rl)) with p0 in Z1.
    destruct Z1 as [(E & z & P & -> & ->)|[(E & P & -> & ->)|[(G & -> & -> & LN)|(S2 & E & D)]]].
    + left. rewrite P. auto.
    + left. rewrite P. auto.
    + right. left. split; [apply A1; exact G|]. split; [discriminate|]. auto.
    + right. right. split; [apply A1; exact S2|]. split; [exact E|]. destruct D as [(-> & ->)|(z & P & -> & D1 & D2)]; [left; auto|]. right. exists gz, z. auto 6.
  - unfold bind at 2. cbn [fst snd r_mem r_body r_label]. destruct (free_id _ _ _ O1) as (m3 & -> & O3 & A3). unfold bind. cbn [fst snd r_mem r_body r_label].
    do 2 eexists. exists []. split; [reflexivity|]. split; [exact O3|]. left. split; reflexivity.
Qed.
Lemma turns_has : forall l r ids, has (r_mem r) (parcel_blocks r ++ ids) -> Forall turn_ok l -> exists rs r' lost, x_turns r l = Ret (rs, r') /\ has (r_mem r') (parcel_blocks r' ++ lost ++ ids) /\
  all_turned (parcel_of r) l rs (List.length lost) (parcel_of r').
Proof.
  induction l as [|t l IH]; intros r ids O F; cbn [x_turns].
  { exists [], r, []. split; [reflexivity|]. split; [exact O|]. constructor. }
  inversion F as [|? ? F1 F2]; subst. destruct (turn_has r t ids O F1) as (a & r1 & lost & -> & O1 & T1). unfold bind at 1. cbn [fst snd].
  destruct (IH r1 (lost ++ ids) O1 F2) as (rs & r2 & lost2 & -> & O2 & T2). unfold bind. cbn [fst snd]. exists (a :: rs), r2, (lost ++ lost2). split; [reflexivity|]. split; [has_by O2|]. rewrite app_length. econstructor; eauto.
Qed.
Lemma done_has : forall r ids, has (r_mem r) (parcel_blocks r ++ ids) -> exists m, x_done r = Ret m /\ has m ids.
Proof.
  intros r ids O. unfold x_done, parcel_blocks in *. rewrite <- app_assoc in O. destruct (free_has _ _ _ _ O) as (m1 & -> & O1 & _). unfold bind. destruct (free_has _ _ _ _ O1) as (m2 & -> & O2 & _). eauto.
Qed.
Lemma zstart_has : forall b l, has (r_mem (zstart b l)) (parcel_blocks (zstart b l) ++ []).
Proof.
  assert (O : has (mk_mem (mk_heap 0 []) [] []) []) by (split; [intros x; reflexivity|]; split; [intros x; apply Nat.le_0_l|intros; reflexivity]).
  intros b l. unfold zstart. destruct (malloc_has _ _ O) as (q & m1 & E1 & _ & C). cbn [x_malloc m_new next_answer] in E1. injection E1 as <- <-.
  destruct C as [(i & [= <-] & O1)|(X & _)]; [|discriminate].
  destruct l as [gz|]; cbn [x_malloc m_new next_answer at_block].
  - destruct (malloc_has _ _ O1) as (q & m2 & E2 & _ & C). cbn [x_malloc m_new next_answer m_heap m_grow] in E2. injection E2 as <- <-. destruct C as [(j & [= <-] & O2)|(X & _)]; [|discriminate].
    unfold parcel_blocks. cbn [r_mem r_body r_label ptr_blocks app]. eapply has_ext; [exact O2|]. intros [|[|x]]; reflexivity.
  - exact O1.
Qed.
