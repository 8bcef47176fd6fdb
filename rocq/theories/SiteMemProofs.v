(** Proofs about the memory and the open files of the compressed web site (C110). *)
From Coq Require Import String ZArith Bool List Lia.
From Verif Require Import Base BaseFacts UMapModel UMapProofs StrModel StaticModel StaticProofs DeflateStreamProps OwnModel OwnSpec OwnProofs MapMemModel MapMemSpec MapMemProofs
  RespMemModel RespMemProofs DefMemModel DefMemSpec DefMemProofs SiteMemModel SiteMemSpec.
Import ListNotations.
Open Scope Z_scope.

(** ** the name *)
Lemma until_up_to : forall s, until 63 (until 35 s) = up_to s.
Proof. induction s as [|c s IH]; [reflexivity|]. cbn [until up_to]. destruct (Z.eqb_spec c 35); [reflexivity|]. cbn [orb until]. destruct (c =? 63); [reflexivity|]. now rewrite IH. Qed.
Lemma drop_no_slash : forall s, drop_slash s = no_slash s.
Proof.
  induction s as [|c s IH]; [reflexivity|]. cbn [drop_slash]. destruct (Z.eqb_spec c 47) as [->|N]; [exact IH|].
  destruct c as [|p|p]; try reflexivity. repeat (destruct p as [p|p|]; try reflexivity). exfalso. now apply N.
Qed.
Definition cut_of (c : gconfig) (url : str) : str := up_to (no_slash (skipn (olen (g_prefix c)) url)).
Lemma skipn_cstr : forall n s, cstr s -> cstr (skipn n s).
Proof. intros n s C. unfold cstr in *. rewrite Forall_forall in *. intros x I1. apply C. rewrite <- (firstn_skipn n s). apply in_or_app. now right. Qed.
Lemma cut_name_ok : forall c url, cstr url -> (olen (g_prefix c) <= List.length url)%nat -> cut_name (g_prefix c) url = Ret (cut_of c url).
Proof.
  intros c url C L. unfold cut_name, cut_of, cblock. set (n := olen (g_prefix c)) in *. unfold advance.
  assert (E : block_of (url ++ [0]) = block_of url ++ [Some 0]) by (unfold block_of; now rewrite map_app).
  replace (List.length (block_of (url ++ [0%Z])) <? n)%nat with false by (symmetry; apply Nat.ltb_ge; unfold block_of; rewrite map_length, app_length; lia). unfold bind at 1.
  rewrite E, skipn_app. replace (n - List.length (block_of url))%nat with 0%nat by (unfold block_of; rewrite map_length; lia). cbn [skipn].
  replace (skipn n (block_of url)) with (block_of (skipn n url)) by (unfold block_of; now rewrite skipn_map).
  rewrite skip_slash_drop. unfold bind at 1. rewrite read_cstr_block by (apply drop_slash_cstr, skipn_cstr, C). unfold bind. now rewrite until_up_to, drop_no_slash.
Qed.

(** ** allocations, the list for realloc not being empty *)
Definition after (m m' : mem) : Prop := (short m' -> short m) /\ (In false (m_grow m') -> In false (m_grow m)).
Lemma after_refl : forall m, after m m.
Proof. intros m. split; auto. Qed.
Lemma after_trans : forall a b c, after a b -> after b c -> after a c.
Proof. intros a b c [A B] [C D]. split; auto. Qed.
Ltac follow := repeat (first [apply after_refl | eassumption | eapply after_trans; [eassumption|]]).
Definition has (m : mem) (ids : list nat) : Prop := owns (m_heap m) ids.
Lemma has_ext : forall m a b, has m a -> (forall x, cnt a x = cnt b x) -> has m b.
Proof. intros m a b H E. eapply owns_ext; eauto. Qed.
Ltac has_by H := eapply has_ext; [exact H|count].
Lemma malloc_has : forall m ids, has m ids -> exists p m', x_malloc m = (p, m') /\ after m m' /\
  ((exists i, p = Some i /\ has m' (i :: ids)) \/ (p = None /\ short m /\ has m' ids)).
Proof.
  intros m ids O. unfold x_malloc, after, has, short. destruct (m_new m) as [|[] r] eqn:E; cbn [next_answer]; do 2 eexists; (split; [reflexivity|]); cbn [m_heap m_new m_grow In]; (split; [tauto|]).
  1, 2: left; eexists; (split; [reflexivity|]); exact (malloc_ok _ _ O). right. split; [reflexivity|]. split; [now left|exact O].
Qed.
Lemma free_has : forall A m (p : ptr A) ids, has m (ptr_blocks p ++ ids) -> exists m', x_free m (addr p) = Ret m' /\ has m' ids /\ after m m'.
Proof. intros A m p ids O. destruct (free_own A m p ids O) as (m' & E & O' & N & G). exists m'. split; [exact E|]. split; [exact O'|]. unfold after, short. rewrite N, G. auto. Qed.
Lemma free_id : forall m i ids, has m (i :: ids) -> exists m', x_free m (Some i) = Ret m' /\ has m' ids /\ after m m'.
Proof. intros m i ids O. exact (free_has unit m (Some (i, tt)) ids O). Qed.
Lemma deref_has : forall A m i (a : A) ids, has m ids -> In i ids -> x_deref m (Some (i, a)) = Ret (i, a).
Proof. intros. eapply deref_own; eauto. Qed.
Lemma strdup_has : forall m s ids, has m ids -> exists p m', x_strdup m s = (p, m') /\ after m m' /\ has m' (ptr_blocks p ++ ids) /\ (ptext p = s \/ (p = None /\ short m)).
Proof.
  intros m [t|] ids O; cbn [x_strdup].
  - destruct (malloc_has _ _ O) as (p & m' & -> & L & [(i & -> & O1)|(-> & S1 & O1)]); do 2 eexists; (split; [reflexivity|]); (split; [exact L|]); cbn [at_block ptr_blocks app ptext]; auto.
  - do 2 eexists. split; [reflexivity|]. split; [apply after_refl|]. auto.
Qed.

(** ** the name and the path *)
Lemma name_has : forall m c url ids, has m ids -> cstr url -> (olen (g_prefix c) <= List.length url)%nat ->
  (x_name m c url = UB NullDeref /\ short m) \/
  exists m' p, x_name m c url = Ret (m', p) /\ after m m' /\ has m' (ptr_blocks p ++ ids) /\ (ptext p = Some (name_of c url) \/ (p = None /\ short m)).
Proof.
  intros m c url ids O C L. unfold x_name. destruct (malloc_has _ _ O) as (q & m1 & -> & A1 & [(i & -> & O1)|(-> & S1 & O1)]); [|left; auto].
  right. rewrite (cut_name_ok c url C L). unfold bind at 1. unfold name_of. fold (cut_of c url). destruct (cut_of c url) as [|x s].
  - destruct (free_id _ _ _ O1) as (m2 & -> & O2 & A2). unfold bind at 1. destruct (strdup_has m2 (Some (bs "index.html")) _ O2) as (p & m3 & -> & A3 & O3 & T).
    exists m3, p. split; [reflexivity|]. split; [follow|]. split; [exact O3|]. destruct T as [T|(-> & S3)]; [left; exact T|right]. split; [reflexivity|]. now apply A1, A2.
  - exists m1, (Some (i, x :: s)). split; [reflexivity|]. split; [exact A1|]. split; [exact O1|]. left. reflexivity.
Qed.
(** the paths and the file *)
Definition path_is (root s : str) (short : Prop) (p : ptr str) : Prop := ptext p = Some (root ++ bs "/" ++ s) \/ (p = None /\ short).
Lemma path_has : forall m root name s ids, has m ids -> incl (ptr_blocks name) ids -> ptext name = Some s ->
  exists m' p, x_path m root name = Ret (m', p) /\ after m m' /\ has m' (ptr_blocks p ++ ids) /\ path_is root s (short m) p.
Proof.
  intros m root [[i n]|] s ids O C T; [|discriminate]. cbn [ptext] in T. injection T as ->. unfold x_path. rewrite (deref_has _ m i s ids O) by (apply C; now left). unfold bind. cbn [snd].
  destruct (strdup_has m (Some (file_path root s)) _ O) as (p & m1 & -> & A1 & O1 & T1). exists m1, p. split; [reflexivity|]. split; [exact A1|]. split; [exact O1|]. destruct T1 as [T1|T1]; [left; exact T1|right; exact T1].
Qed.
Lemma real_has : forall m w p ids, has m ids -> exists m' q, x_real m w p = (m', q) /\ after m m' /\ has m' (ptr_blocks q ++ ids) /\
  (ptext q = match ptext p with Some t => fs_real w t | None => None end \/ (q = None /\ short m)).
Proof.
  intros m w [[i t]|] ids O; cbn [x_real ptext].
  - destruct (strdup_has m (fs_real w t) _ O) as (q & m1 & -> & A1 & O1 & T1). exists m1, q. auto.
  - exists m, None. split; [reflexivity|]. split; [apply after_refl|]. auto.
Qed.
Lemma fopen_has : forall m w p ids, has m ids -> exists m' f, x_fopen m w p = (m', f) /\ after m m' /\ has m' (ptr_blocks f ++ ids) /\
  ((exists t i x, ptext p = Some t /\ fs_open w t = Some x /\ f = Some (i, x)) \/ (f = None /\ match ptext p with Some t => fs_open w t = None \/ short m | None => True end)).
Proof.
  intros m w [[i t]|] ids O; cbn [x_fopen ptext].
  - destruct (fs_open w t) as [x|] eqn:E.
    + destruct (malloc_has _ _ O) as (q & m1 & -> & A1 & [(j & -> & O1)|(-> & S1 & O1)]); do 2 eexists; (split; [reflexivity|]); (split; [exact A1|]); cbn [at_block ptr_blocks app]; (split; [exact O1|]).
      * left. eauto 8.
      * right. auto.
    + exists m, None. split; [reflexivity|]. split; [apply after_refl|]. auto.
  - exists m, None. split; [reflexivity|]. split; [apply after_refl|]. auto.
Qed.
Lemma below_text : forall root q, below root q = match ptext q with Some t => prefixb root t | None => false end.
Proof. intros root [[i t]|]; reflexivity. Qed.

(** from a path to the file: both callbacks *)
Definition fetched (w : fsystem) (c : gconfig) (s : str) (sh : Prop) (f : ptr (Z * list Z)) : Prop :=
  (exists i x, f = Some (i, x) /\ readable w c s = Some x) \/ (f = None /\ (readable w c s = None \/ sh)).
Lemma open_has : forall m w c root s p ids, g_root c = Some root -> has m ids -> path_is root s (short m) p ->
  exists m1 q m2 f, x_real m w p = (m1, q) /\ (if below root q then x_fopen m1 w p else (m1, None)) = (m2, f) /\ after m m1 /\ after m1 m2 /\
    has m1 (ptr_blocks q ++ ids) /\ has m2 (ptr_blocks f ++ ptr_blocks q ++ ids) /\ fetched w c s (short m) f.
Proof.
  intros m w c root s p ids R O P. destruct (real_has m w p ids O) as (m1 & q & E & A1 & O1 & T). exists m1, q. unfold fetched, readable. rewrite R. rewrite below_text.
  destruct P as [P|(-> & S1)].
  - rewrite P in T. destruct T as [T|(-> & S1)].
    + rewrite T. destruct (fs_real w (root ++ bs "/" ++ s)) as [t|].
      * destruct (prefixb root t).
        -- destruct (fopen_has m1 w p _ O1) as (m2 & f & -> & A2 & O2 & F). exists m2, f. split; [exact E|]. split; [reflexivity|]. split; [exact A1|]. split; [exact A2|]. split; [exact O1|]. split; [exact O2|].
           rewrite P in F. destruct F as [(u & i & x & U & F & ->)|(-> & F)].
           ++ injection U as <-. left. exists i, x. auto.
           ++ right. split; [reflexivity|]. destruct F as [F|F]; [left; exact F|right; now apply A1].
        -- exists m1, None. split; [exact E|]. split; [reflexivity|]. split; [exact A1|]. split; [apply after_refl|]. split; [exact O1|]. split; [exact O1|]. right. auto.
      * exists m1, None. split; [exact E|]. split; [reflexivity|]. split; [exact A1|]. split; [apply after_refl|]. split; [exact O1|]. split; [exact O1|]. right. auto.
    + exists m1, None. split; [exact E|]. split; [reflexivity|]. split; [exact A1|]. split; [apply after_refl|]. split; [exact O1|]. split; [exact O1|]. right. auto.
  - cbn [ptext] in T. assert (Q : q = None) by (destruct T as [T|(T & _)]; [destruct q as [[? ?]|]; [discriminate|reflexivity]|exact T]). subst q. cbn [ptext].
    exists m1, None. split; [exact E|]. split; [reflexivity|]. split; [exact A1|]. split; [apply after_refl|]. split; [exact O1|]. split; [exact O1|]. right. auto.
Qed.

(** ** the plain file *)
Definition resp_blocks (p : gresp) : list nat := ptr_blocks (p_file p) ++ ptr_blocks (p_body p) ++ ptr_blocks (p_encoding p).
Definition shown (p : gresp) : ganswer := mk_ganswer (p_ret p) (p_status p) (sent_body p) (match p_encoding p with Some (_, gz) => Some gz | None => None end).
Lemma gone_shown : forall c, shown (gone c) = gone_answer c /\ resp_blocks (gone c) = [].
Proof. intros c. unfold gone, gone_answer. destruct (g_redirect c); split; reflexivity. Qed.
Lemma plain_has : forall m w c root url ids, g_root c = Some root -> has m ids -> cstr url -> (olen (g_prefix c) <= List.length url)%nat ->
  (x_plain m w c url = UB NullDeref /\ short m) \/
  exists m' p, x_plain m w c url = Ret (m', p) /\ after m m' /\ has m' (resp_blocks p ++ ids) /\
    (shown p = plain_answer w c (name_of c url) \/ (short m /\ shown p = gone_answer c)).
Proof.
  intros m w c root url ids R O C L. unfold x_plain. rewrite R. destruct (name_has m c url ids O C L) as [(-> & S1)|(m1 & n & -> & A1 & O1 & T1)]; [left; auto|].
  unfold bind at 1 6. cbn [fst snd]. destruct T1 as [T1|(-> & S1)]; [|left; split; [reflexivity|exact S1]]. right.
  destruct (path_has m1 root n _ _ O1 (incl_appl _ (incl_refl _)) T1) as (m2 & p & -> & A2 & O2 & P2). unfold bind at 1. cbn [fst snd].
  assert (P2' : path_is root (name_of c url) (short m2) p \/ p = None /\ short m1) by (destruct P2 as [P2|P2]; [left; left; exact P2|right; exact P2]).
  assert (F : exists m3 q m4 f, x_real m2 w p = (m3, q) /\ (if below root q then x_fopen m3 w p else (m3, None)) = (m4, f) /\ after m2 m3 /\ after m3 m4 /\
    has m4 (ptr_blocks f ++ ptr_blocks q ++ ptr_blocks p ++ ptr_blocks n ++ ids) /\ fetched w c (name_of c url) (short m1) f).
  { destruct P2' as [P2'|(-> & S2)].
    - destruct (open_has m2 w c root _ p _ R O2 P2') as (m3 & q & m4 & f & E1 & E2 & A3 & A4 & O3 & O4 & F). exists m3, q, m4, f. repeat (split; [assumption|]). unfold fetched in *.
      destruct F as [F|(F & [G|G])]; [left; exact F|right; auto|right; split; [exact F|right; now apply A2]].
    - cbn [x_real]. exists m2, None, m2, None. cbn [below]. repeat (split; [reflexivity|]). split; [apply after_refl|]. split; [apply after_refl|]. split; [exact O2|]. right. auto. }
  destruct F as (m3 & q & m4 & f & -> & -> & A3 & A4 & O4 & F).
  assert (O4' : has m4 (ptr_blocks n ++ (ptr_blocks p ++ ptr_blocks q ++ ptr_blocks f ++ ids))) by has_by O4.
  destruct (free_has _ _ _ _ O4') as (m5 & -> & O5 & A5). unfold bind at 1.
  destruct (free_has _ _ _ _ O5) as (m6 & -> & O6 & A6). unfold bind at 1.
  destruct (free_has _ _ _ _ O6) as (m7 & -> & O7 & A7). unfold bind.
  do 2 eexists. split; [reflexivity|]. split; [follow|]. destruct F as [(i & x & -> & RD)|(-> & G)].
  - split; [cbn [resp_blocks p_file p_body p_encoding ptr_blocks app] in *; exact O7|]. left. unfold shown, plain_answer. cbn [p_ret p_status p_encoding sent_body p_file]. rewrite RD. destruct x. reflexivity.
  - destruct (gone_shown c) as [G1 G2]. rewrite G1, G2. split; [exact O7|]. destruct G as [G|G]; [left; unfold plain_answer; now rewrite G|right; split; [now apply A1|reflexivity]].
Qed.

(** ** compressing *)
Lemma realloc_none : forall done k, realloc (block_of done ++ repeat None k) (zlen done + 256) = block_of done ++ repeat None 256.
Proof.
  intros done k. unfold realloc. pose proof (zlen_nonneg _ done) as N.
  assert (L : List.length (block_of done ++ repeat None k) = (List.length done + k)%nat) by (unfold block_of; rewrite app_length, map_length, repeat_length; reflexivity).
  assert (F : zfirstn (zlen done + 256) (block_of done ++ repeat None k) = block_of done ++ repeat None (Nat.min 256 k)).
  { unfold zfirstn, zlen. replace (Z.to_nat (Z.of_nat (List.length done) + 256)) with (List.length (block_of done) + 256)%nat by (unfold block_of; rewrite map_length; lia).
    rewrite firstn_app_2. f_equal. clear. generalize 256%nat as n. induction k as [|k IH]; intros [|n]; cbn [repeat firstn Nat.min]; auto. now rewrite IH. }
  rewrite F, L. unfold zlen. rewrite <- app_assoc. f_equal. rewrite <- repeat_app. f_equal. lia.
Qed.
Lemma realloc_has : forall m i ids, has m (i :: ids) ->
  (exists j m1, x_realloc m (Some i) = Ret (Some j, m1) /\ has m1 (j :: ids) /\ after m m1) \/
  (exists m1, x_realloc m (Some i) = Ret (None, m1) /\ has m1 (i :: ids) /\ after m m1 /\ In false (m_grow m)).
Proof.
  intros m i ids O. unfold x_realloc, after, short, has in *. destruct (m_grow m) as [|[] g] eqn:G; cbn [next_answer].
  1, 2: left; destruct (free_ok _ _ _ O) as (h & -> & O1); unfold bind; do 2 eexists; (split; [reflexivity|]); cbn [m_heap m_new m_grow]; (split; [exact (malloc_ok _ _ O1)|]); cbn [In]; tauto.
  right. rewrite (use_ok _ _ i O) by now left. unfold bind. eexists. (split; [reflexivity|]). cbn [m_heap m_new m_grow]. (split; [exact O|]). cbn [In]. tauto.
Qed.
Lemma squeeze_has : forall calls whole m i done k ids, has m (i :: ids) -> Forall (fun c : zcall => zlen (snd c) <= 256) calls ->
  (x_squeeze whole m (Some (i, block_of done ++ repeat None k)) (zlen done) calls = UB Uninit /\ whole = false) \/
  exists z m' p len, x_squeeze whole m (Some (i, block_of done ++ repeat None k)) (zlen done) calls = Ret (z, (m', (p, len))) /\ after m m' /\
   ((z = U_CALLBACK_CONTINUE /\ exists b j e, produced calls = Some b /\ p = Some (j, block_of (done ++ b) ++ repeat None e) /\ len = zlen (done ++ b) /\ has m' (j :: ids)) \/
    (z = U_CALLBACK_ERROR /\ produced calls = None /\ has m' (ptr_blocks p ++ ids)) \/
    (z = U_CALLBACK_ERROR /\ In false (m_grow m) /\ p = None /\ exists j, has m' (j :: ids))).
Proof.
  induction calls as [|[code out] r IH]; intros whole m i done k ids O F; cbn [x_squeeze].
  all: pose proof (realloc_has m i ids O) as RO.
  all: cbn [addr]; destruct RO as [(j & m1 & -> & O1 & A1)|(m1 & -> & O1 & A1 & G1)]; unfold bind at 1.
  2, 4: right; do 4 eexists; (split; [reflexivity|]); (split; [exact A1|]); right; right; (split; [reflexivity|]); (split; [exact G1|]); (split; [reflexivity|]); eauto.
  all: destruct whole; [|left; unfold bind; split; reflexivity]; right; rewrite realloc_none.
  - unfold bind. do 4 eexists. split; [reflexivity|]. split; [exact A1|]. left. split; [reflexivity|]. exists [], j, 256%nat. rewrite app_nil_r. repeat split; auto; apply O1.
  - inversion F as [|? ? F1 F2]; subst. cbn [snd] in F1. pose proof (zlen_nonneg _ done) as ND. pose proof (zlen_nonneg _ out) as NP.
    assert (L256 : zlen (repeat (@None Z) 256) = 256) by reflexivity. unfold bind at 1.
    rewrite memcpy_ok; [|lia|lia|rewrite zlen_app, zlen_block, L256; lia|rewrite zlen_block; lia]. unfold bind at 1.
    rewrite (zfirstn_app_exact _ (block_of done)) by (now rewrite zlen_block).
    rewrite (zfirstn_more _ (block_of out)) by (rewrite zlen_block; lia).
    assert (SK : zskipn (zlen done + zlen out) (block_of done ++ repeat None 256) = repeat None (256 - Z.to_nat (zlen out))).
    { rewrite <- (zlen_block done), zskipn_app_plus by lia. apply zskipn_rep. lia. }
    rewrite SK. rewrite app_assoc, <- block_app. cbn [produced]. unfold z_fair.
    destruct ((code =? 0) || (code =? 1) || (code =? -5)) eqn:FC.
    + destruct (Z.eqb_spec (zlen out) 256) as [E|E].
      * replace (zlen done + zlen out) with (zlen (done ++ out)) by (rewrite zlen_app; lia).
        destruct (IH true m1 j (done ++ out) (256 - Z.to_nat (zlen out))%nat ids O1 F2) as [(_ & X)|(z & m2 & p' & len' & E2 & A2 & C)]; [discriminate|]. exists z, m2, p', len'. split; [exact E2|]. split; [follow|].
        destruct C as [(-> & b & j2 & e & P & -> & -> & O2)|[(-> & P & O2)|(-> & G2 & -> & j2 & O2)]].
        -- left. split; [reflexivity|]. exists (out ++ b), j2, e. rewrite P. split; [reflexivity|]. rewrite app_assoc. auto.
        -- right. left. split; [reflexivity|]. rewrite P. split; [reflexivity|exact O2].
        -- right. right. split; [reflexivity|]. split; [now apply A1|]. split; [reflexivity|]. eauto.
      * do 4 eexists. split; [reflexivity|]. split; [exact A1|]. left. split; [reflexivity|]. exists out, j, (256 - Z.to_nat (zlen out))%nat. split; [reflexivity|]. split; [reflexivity|].
        split; [rewrite zlen_app; reflexivity|exact O1].
    + do 4 eexists. split; [reflexivity|]. split; [exact A1|]. right. left. split; [reflexivity|]. split; [reflexivity|exact O1].
Qed.

(** ** body, header and cache *)
Lemma set_body_has : forall m z ids, has m ids -> exists m' st b, x_set_body m (Some z) = (m', (st, b)) /\ after m m' /\ has m' (ptr_blocks b ++ ids) /\
  ((st = match z with [] => 0 | _ => 200 end /\ match b with Some (_, x) => x = z /\ z <> [] | None => z = [] end) \/ (st = 0 /\ b = None /\ short m)).
Proof.
  intros m [|c z] ids O; cbn [x_set_body].
  - exists m, 0, None. split; [reflexivity|]. split; [apply after_refl|]. auto.
  - destruct (malloc_has _ _ O) as (q & m1 & -> & A1 & [(i & -> & O1)|(-> & S1 & O1)]); do 3 eexists; (split; [reflexivity|]); (split; [exact A1|]); (split; [exact O1|]).
    + left. split; [reflexivity|]. split; [reflexivity|discriminate].
    + right. auto.
Qed.
Lemma set_encoding_has : forall m gz ids, has m ids -> exists m' h, x_set_encoding m gz = (m', h) /\ after m m' /\ has m' (ptr_blocks h ++ ids) /\ ((exists i, h = Some (i, gz)) \/ (h = None /\ short m)).
Proof.
  intros m gz ids O. unfold x_set_encoding. destruct (malloc_has _ _ O) as (q & m1 & -> & A1 & [(i & -> & O1)|(-> & S1 & O1)]); do 2 eexists; (split; [reflexivity|]); (split; [exact A1|]); (split; [exact O1|]).
  - left. now exists i.
  - right. auto.
Qed.
(** the response with the compressed data *)
Lemma zip_has : forall m gz z ids, has m ids -> exists m1 st b m2 h, x_set_body m (Some z) = (m1, (st, b)) /\ x_set_encoding m1 gz = (m2, h) /\ after m m2 /\
  has m2 (resp_blocks (mk_gresp U_CALLBACK_CONTINUE st b h None) ++ ids) /\
  (shown (mk_gresp U_CALLBACK_CONTINUE st b h None) = zip_answer gz z \/ (short m /\ torn_answer gz z (shown (mk_gresp U_CALLBACK_CONTINUE st b h None)))).
Proof.
  intros m gz z ids O. destruct (set_body_has m z ids O) as (m1 & st & b & E1 & A1 & O1 & B). destruct (set_encoding_has m1 gz _ O1) as (m2 & h & E2 & A2 & O2 & H).
  exists m1, st, b, m2, h. split; [exact E1|]. split; [exact E2|]. split; [follow|]. split; [unfold resp_blocks; cbn [p_file p_body p_encoding ptr_blocks app]; has_by O2|].
  unfold shown, sent_body, torn_answer. cbn [p_ret p_status p_file p_body p_encoding v_ret v_status v_body v_encoding].
  destruct B as [(-> & B)|(-> & -> & S1)].
  - destruct H as [(i & ->)|(-> & S2)].
    + left. unfold zip_answer. destruct b as [[j x]|]; [destruct B as [-> NE]; destruct z; [congruence|reflexivity]|subst z; reflexivity].
    + right. split; [now apply A1|]. split; [reflexivity|]. split; [|auto]. destruct b as [[j x]|]; [destruct B as [-> NE]; right; destruct z; [congruence|auto]|subst z; left; auto].
  - right. split; [exact S1|]. split; [reflexivity|]. split; [left; auto|]. destruct H as [(i & ->)|(-> & _)]; auto.
Qed.
Lemma entries_app : forall k n e, entries (k ++ [(n, e)]) = entries k ++ [(n, snd e)].
Proof. intros. unfold entries. rewrite map_app. reflexivity. Qed.
Definition same_caches (s s' : site) : Prop := t_gzip s' = t_gzip s /\ t_deflate s' = t_deflate s.
Lemma same_blocks : forall s s', same_caches s s' -> site_blocks s' = site_blocks s /\ site_caches s' = site_caches s.
Proof. intros s s' [A B]. unfold site_blocks, site_caches. rewrite A, B. auto. Qed.
Lemma store_has : forall s m c gz name z ids, has m (site_blocks s ++ ids) -> exists s' p, x_store s m c gz name z = (s', p) /\ after m (t_mem s') /\ has (t_mem s') (resp_blocks p ++ site_blocks s' ++ ids) /\
  ((shown p = zip_answer gz z /\ site_caches s' = (if g_cache c then enter gz name z (site_caches s) else site_caches s)) \/
   (short m /\ torn_answer gz z (shown p) /\ (site_caches s' = site_caches s \/ site_caches s' = enter gz name z (site_caches s)))).
Proof.
  intros s m c gz name z ids O. unfold x_store. destruct (g_cache c).
  - destruct (malloc_has _ _ O) as (q & m1 & -> & A1 & [(i & -> & O1)|(-> & S1 & O1)]).
    + assert (TM : t_mem (with_entry gz s m1 name (i, z)) = m1) by (destruct gz; reflexivity). rewrite TM.
      destruct (zip_has m1 gz z _ O1) as (m2 & st & b & m3 & h & -> & -> & A2 & O2 & SH). do 2 eexists. split; [reflexivity|]. split; [cbn [t_mem with_mem]; follow|].
      split.
      { cbn [with_mem t_mem]. unfold site_blocks in *. destruct gz; cbn [with_entry with_mem t_gzip t_deflate]; unfold cache_blocks in *; rewrite map_app; cbn [map fst snd]; has_by O2. }
      assert (CC : site_caches (with_mem (with_entry gz s m1 name (i, z)) m3) = enter gz name z (site_caches s)).
      { unfold site_caches, enter. destruct gz; cbn [with_entry with_mem t_gzip t_deflate fst snd]; rewrite entries_app; reflexivity. }
      rewrite CC. destruct SH as [SH|(S2 & SH)]; [left; auto|right]. split; [now apply A1|auto].
    + cbn [with_mem t_mem x_set_body]. destruct (set_encoding_has m1 gz _ O1) as (m2 & h & -> & A2 & O2 & H). do 2 eexists. split; [reflexivity|]. cbn [with_mem t_mem]. split; [follow|].
      split; [unfold resp_blocks; cbn [p_file p_body p_encoding ptr_blocks app]; exact O2|]. right. split; [exact S1|]. split; [|left; reflexivity].
      split; [reflexivity|]. cbn. split; [left; auto|]. destruct H as [(i & ->)|(-> & _)]; auto.
  - cbn [with_mem t_mem]. destruct (zip_has m gz z _ O) as (m2 & st & b & m3 & h & -> & -> & A2 & O2 & SH). do 2 eexists. split; [reflexivity|]. cbn [with_mem t_mem]. split; [exact A2|]. split; [exact O2|].
    destruct SH as [SH|(S2 & SH)]; [left; auto|right; auto].
Qed.

(** ** loading *)
Definition loaded (s : site) (m0 : mem) (c : gconfig) (gz : bool) (name : str) (f : Z * list Z) (calls : list zcall) (s' : site) (p : gresp) (lost : list nat) : Prop :=
  (lost = [] /\ fst f = 0 /\ shown p = mk_ganswer U_CALLBACK_CONTINUE 0 NoBytes None /\ site_caches s' = site_caches s) \/
  (lost = [] /\ fst f < 0 /\ shown p = error_answer /\ site_caches s' = site_caches s) \/
  (lost = [] /\ 0 < fst f /\ produced calls = None /\ shown p = error_answer /\ site_caches s' = site_caches s) \/
  (lost = [] /\ 0 < fst f /\ exists z, produced calls = Some z /\ shown p = zip_answer gz z /\ site_caches s' = (if g_cache c then enter gz name z (site_caches s) else site_caches s)) \/
  (List.length lost = 1%nat /\ In false (m_grow m0) /\ shown p = error_answer /\ site_caches s' = site_caches s) \/
  (lost = [] /\ short m0 /\ ((shown p = error_answer /\ site_caches s' = site_caches s) \/
     exists z, produced calls = Some z /\ torn_answer gz z (shown p) /\ (site_caches s' = site_caches s \/ site_caches s' = enter gz name z (site_caches s)))).
Lemma load_has : forall s c gz name f calls ids, has (t_mem s) (site_blocks s ++ ids) -> Forall (fun x : zcall => zlen (snd x) <= 256) calls ->
  (x_load s c gz name f calls = UB Uninit /\ (short (t_mem s) \/ zlen (snd f) < fst f)) \/
  exists s' p lost, x_load s c gz name f calls = Ret (s', p) /\ after (t_mem s) (t_mem s') /\ has (t_mem s') (resp_blocks p ++ site_blocks s' ++ lost ++ ids) /\
    loaded s (t_mem s) c gz name f calls s' p lost.
Proof.
  intros s c gz name f calls ids O F. unfold x_load. destruct (Z.eqb_spec (fst f) 0) as [E0|E0].
  { right. do 2 eexists. exists []. split; [reflexivity|]. split; [apply after_refl|]. split; [exact O|]. left. auto. }
  destruct (Z.ltb_spec (fst f) 0) as [E1|E1].
  { right. do 2 eexists. exists []. split; [reflexivity|]. split; [apply after_refl|]. split; [exact O|]. right. left. auto. }
  assert (FAIL : forall m', after (t_mem s) m' -> has m' (site_blocks s ++ ids) -> short (t_mem s) -> exists s' p lost, Ret (with_mem s m', failed) = Ret (s', p) /\ after (t_mem s) (t_mem s') /\
    has (t_mem s') (resp_blocks p ++ site_blocks s' ++ lost ++ ids) /\ loaded s (t_mem s) c gz name f calls s' p lost).
  { intros m' A' O' S'. do 2 eexists. exists []. split; [reflexivity|]. split; [exact A'|]. split; [exact O'|]. do 5 right. split; [reflexivity|]. split; [exact S'|]. left. split; reflexivity. }
  destruct (malloc_has _ _ O) as (q & m1 & -> & A1 & [(fc & -> & O1)|(-> & S1 & O1)]); [|right; apply FAIL; auto].
  destruct (malloc_has _ _ O1) as (q & m2 & -> & A2 & [(dz & -> & O2)|(-> & S2 & O2)]).
  2:{ right. destruct (free_id _ _ _ O2) as (m3 & -> & O3 & A3). unfold bind. apply FAIL; [follow|exact O3|now apply A1]. }
  destruct (malloc_has _ _ O2) as (q & m3 & -> & A3 & [(st & -> & O3)|(-> & S3 & O3)]).
  2:{ left. unfold x_end, x_member, bind. split; [reflexivity|]. left. now apply A1, A2. }
  assert (O3' : has m3 (dz :: (st :: fc :: site_blocks s ++ ids))) by has_by O3.
  destruct (squeeze_has calls (fst f <=? zlen (snd f)) m3 dz [] (Z.to_nat (2 * fst f + 20)) _ O3' F) as [(E & W)|(z & m4 & p & len & E & A4 & C)].
  { left. change (zlen (@nil Z)) with 0 in E. cbn [block_of map app] in E. rewrite E. unfold bind. split; [reflexivity|]. right. now apply Z.leb_gt in W. }
  right. change (zlen (@nil Z)) with 0 in E. cbn [block_of map app] in E. rewrite E. unfold bind at 1.
  destruct C as [(-> & b & j & e & P & -> & -> & O4)|[(-> & P & O4)|(-> & G4 & -> & j & O4)]].
  - change (U_CALLBACK_CONTINUE =? U_CALLBACK_CONTINUE) with true. cbn iota. cbn [app].
    rewrite (deref_has _ m4 j _ _ O4) by now left. unfold bind at 2. cbn [snd]. unfold zlen at 1. rewrite Nat2Z.id.
    match goal with |- context [read_bytes ?a ?n] => replace (read_bytes a n) with (Ret b) by (symmetry; apply read_holds) end. unfold bind at 2.
    assert (O4' : has m4 (site_blocks s ++ (j :: st :: fc :: ids))) by has_by O4.
    destruct (store_has s m4 c gz name b _ O4') as (s' & p & -> & A5 & O5 & SH). unfold bind at 1. cbn [fst snd]. unfold x_end, x_member. unfold bind at 2.
    assert (O5' : has (t_mem s') (st :: j :: fc :: (resp_blocks p ++ site_blocks s' ++ ids))) by has_by O5.
    destruct (free_id _ _ _ O5') as (m6 & -> & O6 & A6). unfold bind at 1. cbn [addr].
    destruct (free_id _ _ _ O6) as (m7 & -> & O7 & A7). unfold bind at 1.
    destruct (free_id _ _ _ O7) as (m8 & -> & O8 & A8). unfold bind.
    do 2 eexists. exists []. split; [reflexivity|]. cbn [with_mem t_mem]. split; [follow|]. split; [exact O8|].
    destruct SH as [(SH & CC)|(S4 & SH & CC)].
    + do 3 right. left. split; [reflexivity|]. split; [lia|]. exists b. auto.
    + do 5 right. split; [reflexivity|]. split; [now apply A1, A2, A3, A4|]. right. exists b. auto.
  - change (U_CALLBACK_ERROR =? U_CALLBACK_CONTINUE) with false. cbn iota. unfold bind at 1. cbn [fst snd with_mem t_mem]. unfold x_end, x_member. unfold bind at 2.
    assert (O5' : has m4 (st :: ptr_blocks p ++ fc :: site_blocks s ++ ids)) by has_by O4.
    destruct (free_id _ _ _ O5') as (m6 & -> & O6 & A6). unfold bind at 1.
    destruct (free_has _ _ p _ O6) as (m7 & E7 & O7 & A7). match goal with |- context [x_free m6 ?a] => replace (x_free m6 a) with (Ret m7) by (symmetry; exact E7) end. unfold bind at 1.
    destruct (free_id _ _ _ O7) as (m8 & -> & O8 & A8). unfold bind.
    do 2 eexists. exists []. split; [reflexivity|]. cbn [with_mem t_mem]. split; [follow|]. split; [exact O8|].
    do 2 right. left. split; [reflexivity|]. split; [lia|]. split; [exact P|]. split; reflexivity.
  - change (U_CALLBACK_ERROR =? U_CALLBACK_CONTINUE) with false. cbn iota. unfold bind at 1. cbn [fst snd with_mem t_mem]. unfold x_end, x_member. unfold bind at 2.
    assert (O5' : has m4 (st :: fc :: j :: site_blocks s ++ ids)) by has_by O4.
    destruct (free_id _ _ _ O5') as (m6 & -> & O6 & A6). unfold bind at 1. cbn [addr]. unfold x_free at 1. unfold bind at 1.
    destruct (free_id _ _ _ O6) as (m8 & -> & O8 & A8). unfold bind.
    do 2 eexists. exists [j]. split; [reflexivity|]. cbn [with_mem t_mem]. split; [follow|]. split; [change (has m8 (site_blocks s ++ [j] ++ ids)); has_by O8|].
    do 4 right. left. split; [reflexivity|]. split; [now apply A1, A2, A3|]. split; reflexivity.
Qed.

(** ** the callback *)
(** [served], for any reasons *)
Definition got (c : gconfig) (k : acaches) (v : gvisit) (sh gr : Prop) (a : ganswer) (n : nat) (k' : acaches) : Prop :=
  let s := name_of c (q_url (n_req v)) in
  (a, n, k') = ideal c k v \/
  (gr /\ a = error_answer /\ n = 1%nat /\ k' = k) \/
  (sh /\ (n <= left_open c k v)%nat /\
     (k' = k /\ (a = plain_answer (n_fs v) c s \/ a = gone_answer c \/ a = error_answer) \/
      exists gz z, wants c (n_req v) = Some gz /\ torn_answer gz z a /\
        (known c gz s k = Some z /\ k' = k \/ known c gz s k = None /\ produced (n_calls v) = Some z /\ (k' = k \/ k' = enter gz s z k)))).
Lemma got_mono : forall c k v (sh gr sh' gr' : Prop) a n k', (sh -> sh') -> (gr -> gr') -> got c k v sh gr a n k' -> got c k v sh' gr' a n k'.
Proof. intros c k v sh gr sh' gr' a n k' H G [E|[(X & E)|(X & E)]]; [left; exact E|right; left; split; auto|right; right; split; auto]. Qed.
Definition answered (c : gconfig) (v : gvisit) (s : site) (ids : list nat) (r : outcome (site * gresp)) : Prop :=
  (r = UB NullDeref /\ short (t_mem s)) \/ (r = UB Uninit /\ (short (t_mem s) \/ truncated c v)) \/
  exists s' p lost, r = Ret (s', p) /\ after (t_mem s) (t_mem s') /\ has (t_mem s') (resp_blocks p ++ site_blocks s' ++ lost ++ ids) /\
    got c (site_caches s) v (short (t_mem s)) (In false (m_grow (t_mem s))) (shown p) (List.length lost) (site_caches s').

Lemma ideal_fetch : forall c k v gz, (0 <? q_pos (n_req v)) = false -> wants c (n_req v) = Some gz -> known c gz (name_of c (q_url (n_req v))) k = None ->
  ideal c k v = match readable (n_fs v) c (name_of c (q_url (n_req v))) with
          | None => (gone_answer c, 0%nat, k)
          | Some (n, l) =>
              if g_squeeze c (name_of c (q_url (n_req v))) then
                if n =? 0 then (mk_ganswer U_CALLBACK_CONTINUE 0 NoBytes None, 0%nat, k)
                else if n <? 0 then (error_answer, 0%nat, k)
                else match produced (n_calls v) with
                     | None => (error_answer, 0%nat, k)
                     | Some z => (zip_answer gz z, 0%nat, if g_cache c then enter gz (name_of c (q_url (n_req v))) z k else k)
                     end
              else (plain_answer (n_fs v) c (name_of c (q_url (n_req v))), 1%nat, k)
          end.
Proof. intros c k v gz P W K. unfold ideal. now rewrite P, W, K. Qed.

Lemma fetch_has : forall s c root v gz name ids, g_root c = Some root -> visit_ok c v -> (0 <? q_pos (n_req v)) = false -> wants c (n_req v) = Some gz ->
  known c gz (name_of c (q_url (n_req v))) (site_caches s) = None -> has (t_mem s) (site_blocks s ++ ids) -> incl (ptr_blocks name) ids ->
  (ptext name = Some (name_of c (q_url (n_req v))) \/ (name = None /\ short (t_mem s))) ->
  answered c v s ids (x_fetch s (n_fs v) c gz name (q_url (n_req v)) (n_calls v)).
Proof.
  intros s c root v gz name ids R (C & L & F) Q W K O IN T. unfold x_fetch. rewrite R. destruct T as [T|(-> & S1)]; [|left; split; [reflexivity|exact S1]].
  set (nm := name_of c (q_url (n_req v))) in *. pose proof (ideal_fetch c (site_caches s) v gz Q W K) as ID. fold nm in ID.
  destruct (path_has (t_mem s) root name nm _ O (incl_appr _ IN) T) as (m1 & p & E1 & A1 & O1 & P1). rewrite E1. clear E1. unfold bind at 1. cbn [fst snd].
  assert (P1' : path_is root nm (short m1) p \/ p = None /\ short (t_mem s)) by (destruct P1 as [P1|P1]; [left; left; exact P1|right; exact P1]).
  destruct P1' as [P1'|(-> & S1)].
  2:{ cbn [x_real]. cbn [below]. right. right. cbn [addr]. unfold x_free, bind. cbn [fst snd with_mem t_mem]. destruct (gone_shown c) as [G1 G2].
      do 2 eexists. exists []. split; [reflexivity|]. cbn [with_mem t_mem fst snd]. split; [exact A1|]. rewrite G1, G2. split; [exact O1|]. right. right. split; [exact S1|]. split; [cbn; lia|]. left. split; [reflexivity|auto]. }
  destruct (open_has m1 (n_fs v) c root nm p _ R O1 P1') as (m2 & q & m3 & f & -> & E3 & A2 & A3 & O2 & O3 & FT).
  assert (SH1 : short m1 -> short (t_mem s)) by apply A1. fold nm in FT.
  (* nothing is opened *)
  assert (NONE : f = None -> forall m3', has m3' (ptr_blocks q ++ ptr_blocks p ++ site_blocks s ++ ids) -> after (t_mem s) m3' -> exists s' p0 lost,
    (do m4 <- x_free m3' (addr p); do m5 <- x_free m4 (addr q); Ret (with_mem s m5, gone c)) = Ret (s', p0) /\ after (t_mem s) (t_mem s') /\
    has (t_mem s') (resp_blocks p0 ++ site_blocks s' ++ lost ++ ids) /\ got c (site_caches s) v (short (t_mem s)) (In false (m_grow (t_mem s))) (shown p0) (Datatypes.length lost) (site_caches s')).
  { intros -> m3' O' A'. destruct FT as [(i & x & X & _)|(_ & FT)]; [discriminate|].
    assert (O4' : has m3' (ptr_blocks p ++ ptr_blocks q ++ site_blocks s ++ ids)) by has_by O'.
    destruct (free_has _ _ _ _ O4') as (m4 & -> & O4 & A4). unfold bind at 1. destruct (free_has _ _ _ _ O4) as (m5 & -> & O5 & A5). unfold bind.
    destruct (gone_shown c) as [G1 G2]. do 2 eexists. exists []. split; [reflexivity|]. cbn [with_mem t_mem]. split; [follow|]. rewrite G1, G2. split; [exact O5|].
    destruct FT as [FT|FT]; [left; rewrite ID, FT; reflexivity|]. right. right. split; [auto|]. split; [cbn; lia|]. left. split; [reflexivity|auto]. }
  destruct (below root q) eqn:B.
  2:{ right. right. unfold bind at 1. cbn [fst snd with_mem t_mem]. injection E3 as <- <-. apply NONE; [reflexivity| exact O2 | follow]. }
  rewrite E3. destruct f as [[i f]|].
  2:{ right. right. unfold bind at 1. cbn [fst snd with_mem t_mem]. apply NONE; [reflexivity|exact O3|follow]. }
  clear NONE. destruct FT as [(i' & x & X & RD)|(X & _)]; [|discriminate]. injection X as <- <-.
  destruct name as [[nn nt]|]; [|discriminate]. cbn [ptext] in T. injection T as ->.
  rewrite (deref_has _ m3 nn nm _ O3) by (do 4 (apply in_or_app; right); apply IN; now left).
  change (ptr_blocks (Some (i, f))) with [i] in O3. unfold bind at 2. cbn [snd]. destruct (g_squeeze c nm) eqn:SQ.
  - assert (O3' : has (t_mem (with_mem s m3)) (site_blocks (with_mem s m3) ++ (i :: ptr_blocks q ++ ptr_blocks p ++ ids))) by (change (has m3 (site_blocks s ++ (i :: ptr_blocks q ++ ptr_blocks p ++ ids))); has_by O3).
    assert (A03 : after (t_mem s) m3) by follow.
    destruct (load_has (with_mem s m3) c gz nm f (n_calls v) _ O3' F) as [(E4 & S4)|(s' & r & lost & E4 & A4 & O4 & LD)].
    + rewrite E4. right. left. unfold bind. split; [reflexivity|]. destruct S4 as [S4|S4]; [left; now apply A03|]. right. destruct f as [n l]. exists n, l. split; [exact RD|exact S4].
    + right. right. rewrite E4. unfold bind at 2. cbn [fst snd].
      assert (O4' : has (t_mem s') (i :: (ptr_blocks p ++ ptr_blocks q ++ resp_blocks r ++ site_blocks s' ++ lost ++ ids))) by has_by O4.
      destruct (free_id _ _ _ O4') as (m5 & -> & O5 & A5). unfold bind at 2. unfold bind at 1. cbn [fst snd with_mem t_mem].
      destruct (free_has _ _ _ _ O5) as (m6 & -> & O6 & A6). unfold bind at 1. destruct (free_has _ _ _ _ O6) as (m7 & -> & O7 & A7). unfold bind.
      do 2 eexists. exists lost. split; [reflexivity|]. cbn [with_mem t_mem] in *. split; [follow|]. split; [exact O7|].
      change (site_caches (with_mem (with_mem s' m5) m7)) with (site_caches s'). cbn [with_mem t_mem] in LD. unfold loaded in LD. change (site_caches (with_mem s m3)) with (site_caches s) in LD. destruct A03 as [SH GR].
      unfold got. fold nm. destruct f as [n l]. cbn [fst] in LD. rewrite RD in ID. 
      destruct LD as [(-> & E & -> & ->)|[(-> & E & -> & ->)|[(-> & E & P & -> & ->)|[(-> & E & z & P & -> & ->)|[(LN & G & -> & ->)|(-> & S5 & D)]]]]].
      * left. rewrite ID. subst n. reflexivity.
      * left. rewrite ID. destruct (Z.eqb_spec n 0); [lia|]. destruct (Z.ltb_spec n 0); [reflexivity|lia].
      * left. rewrite ID. destruct (Z.eqb_spec n 0); [lia|]. destruct (Z.ltb_spec n 0); [lia|]. now rewrite P.
      * left. rewrite ID. destruct (Z.eqb_spec n 0); [lia|]. destruct (Z.ltb_spec n 0); [lia|]. now rewrite P.
      * right. left. auto.
      * right. right. split; [auto|]. split; [cbn; lia|]. destruct D as [(-> & ->)|(z & P & TA & CC)].
        -- left. auto.
        -- right. exists gz, z. split; [exact W|]. split; [exact TA|]. right. auto.
  - assert (A03 : after (t_mem s) m3) by follow.
    destruct (plain_has m3 (n_fs v) c root (q_url (n_req v)) _ R O3 C L) as [(E4 & S4)|(m4 & r & E4 & A4 & O4 & SH)].
    + rewrite E4. left. unfold bind. split; [reflexivity|now apply A03].
    + right. right. rewrite E4. unfold bind at 2. unfold bind at 1. cbn [fst snd with_mem t_mem].
      assert (O4' : has m4 (ptr_blocks p ++ ptr_blocks q ++ resp_blocks r ++ site_blocks s ++ [i] ++ ids)) by has_by O4.
      destruct (free_has _ _ _ _ O4') as (m6 & -> & O6 & A6). unfold bind at 1. destruct (free_has _ _ _ _ O6) as (m7 & -> & O7 & A7). unfold bind.
      do 2 eexists. exists [i]. split; [reflexivity|]. cbn [with_mem t_mem]. split; [follow|]. split; [exact O7|].
      unfold got. fold nm in SH |- *. destruct f as [n l]. rewrite RD in ID. 
      assert (LO : left_open c (site_caches s) v = 1%nat) by (unfold left_open; now rewrite ID).
      destruct SH as [->|(S4 & ->)].
      * left. rewrite ID. reflexivity.
      * right. right. split; [now apply A03|]. rewrite LO. split; [cbn; lia|]. left. auto.
Qed.

Lemma lookup_known : forall nm i k, glookup (Some (i, nm)) k = option_map snd (find (fun e => str_eqb (fst e) nm) (entries k)).
Proof. intros nm i k. cbn [glookup]. induction k as [|[n [j z]] k IH]; [reflexivity|]. cbn [find entries map fst snd]. destruct (str_eqb n nm); [reflexivity|exact IH]. Qed.
Lemma cached_pick : forall gz s, entries (cached gz s) = pick gz (site_caches s).
Proof. intros [] s; reflexivity. Qed.

Lemma plain_answered : forall s c root v ids m, g_root c = Some root -> visit_ok c v -> has m (site_blocks s ++ ids) -> after (t_mem s) m ->
  ((ideal c (site_caches s) v = (plain_answer (n_fs v) c (name_of c (q_url (n_req v))), 0%nat, site_caches s)) \/ short (t_mem s)) ->
  answered c v s ids (do y <- x_plain m (n_fs v) c (q_url (n_req v)); Ret (with_mem s (fst y), snd y)).
Proof.
  intros s c root v ids m R (C & L & F) O A ID. unfold answered. destruct (plain_has m (n_fs v) c root (q_url (n_req v)) _ R O C L) as [(-> & S1)|(m1 & p & -> & A1 & O1 & SH)].
  - left. split; [reflexivity|now apply A].
  - right. right. unfold bind. cbn [fst snd]. do 2 eexists. exists []. split; [reflexivity|]. cbn [with_mem t_mem]. split; [follow|]. split; [exact O1|].
    unfold got. change (site_caches (with_mem s m1)) with (site_caches s). destruct SH as [->|(S1 & ->)].
    + destruct ID as [ID|ID]; [left; rewrite ID; reflexivity|]. right. right. split; [exact ID|]. split; [cbn; lia|]. left. auto.
    + right. right. split; [now apply A|]. split; [cbn; lia|]. left. auto.
Qed.
Lemma choose_has : forall s c root v name ids, g_root c = Some root -> visit_ok c v -> (0 <? q_pos (n_req v)) = false -> has (t_mem s) (site_blocks s ++ ids) -> incl (ptr_blocks name) ids ->
  (ptext name = Some (name_of c (q_url (n_req v))) \/ name = None) ->
  answered c v s ids (x_choose s (n_fs v) c (n_req v) name (n_calls v)) \/ (name = None /\ x_choose s (n_fs v) c (n_req v) name (n_calls v) = UB NullDeref).
Proof.
  intros s c root v name ids R V Q O IN T. unfold x_choose.
  assert (WN : wants c (n_req v) = match (if q_encoded (n_req v) then None else q_accept (n_req v)) with None => None | Some a => gmode c a end) by (unfold wants; destruct (q_encoded (n_req v)); reflexivity).
  assert (IDN : wants c (n_req v) = None -> ideal c (site_caches s) v = (plain_answer (n_fs v) c (name_of c (q_url (n_req v))), 0%nat, site_caches s)) by (intros N; unfold ideal; now rewrite Q, N).
  destruct (if q_encoded (n_req v) then None else q_accept (n_req v)) as [a|].
  2:{ left. eapply plain_answered; eauto using after_refl. }
  destruct (malloc_has _ _ O) as (q & m1 & -> & A1 & [(l & -> & O1)|(-> & S1 & O1)]).
  2:{ left. cbn [with_mem t_mem]. exact (plain_answered s c root v ids m1 R V O1 A1 (or_intror S1)). }
  (* releasing the list *)
  assert (REL : forall r, answered c v (with_mem s m1) (l :: ids) r -> answered c v s ids (do y <- r; do m2 <- x_free (t_mem (fst y)) (Some l); Ret (with_mem (fst y) m2, snd y))).
  { intros r [(-> & S1)|[(-> & S1)|(s' & p & lost & -> & A2 & O2 & G)]]; unfold answered; cbn [with_mem t_mem] in *.
    - left. split; [reflexivity|now apply A1].
    - right. left. split; [reflexivity|]. destruct S1 as [S1|S1]; [left; now apply A1|now right].
    - right. right. unfold bind at 1. cbn [fst snd]. assert (O2' : has (t_mem s') (l :: (resp_blocks p ++ site_blocks s' ++ lost ++ ids))) by has_by O2.
      destruct (free_id _ _ _ O2') as (m3 & -> & O3 & A3). unfold bind. do 2 eexists. exists lost. split; [reflexivity|]. cbn [with_mem t_mem]. split; [follow|]. split; [exact O3|].
      change (site_caches (with_mem s' m3)) with (site_caches s'). eapply got_mono; [| |exact G]; apply A1. }
  assert (O1' : has m1 (site_blocks s ++ (l :: ids))) by has_by O1.
  destruct (gmode c a) as [gz|] eqn:GM.
  2:{ left. apply REL. cbn [with_mem t_mem]. exact (plain_answered (with_mem s m1) c root v (l :: ids) m1 R V O1' (after_refl _) (or_introl (IDN WN))). }
  destruct (if g_cache c then glookup name (cached gz s) else None) as [z|] eqn:KN.
  - left. assert (KN' : known c gz (name_of c (q_url (n_req v))) (site_caches s) = Some z).
    { unfold known. destruct (g_cache c); [|discriminate]. destruct name as [[i nm]|]; [|discriminate]. destruct T as [T|T]; [|discriminate]. cbn [ptext] in T. injection T as <-. rewrite lookup_known, cached_pick in KN. exact KN. }
    destruct (zip_has m1 gz z _ O1') as (m2 & st & b & m3 & h & -> & -> & A2 & O2 & SH). apply REL. unfold answered. cbn [with_mem t_mem]. right. right. do 2 eexists. exists []. split; [reflexivity|].
    cbn [with_mem t_mem]. split; [exact A2|]. split; [exact O2|]. unfold got. change (site_caches (with_mem s m1)) with (site_caches s). change (site_caches (with_mem s m3)) with (site_caches s).
    destruct SH as [->|(S2 & SH)].
    + left. unfold ideal. rewrite Q, WN, KN'. reflexivity.
    + right. right. split; [exact S2|]. split; [cbn; lia|]. right. exists gz, z. split; [exact WN|]. split; [exact SH|]. left. auto.
  - destruct T as [T| ->].
    + left. apply REL. eapply (fetch_has (with_mem s m1)); eauto.
      * cbn [with_mem t_mem]. change (site_caches (with_mem s m1)) with (site_caches s). unfold known. destruct (g_cache c); [|reflexivity]. destruct name as [[i nm]|]; [|discriminate].
        cbn [ptext] in T. injection T as <-. now rewrite lookup_known, cached_pick in KN.
      * intros x X. right. now apply IN.
    + right. split; [reflexivity|]. unfold x_fetch. rewrite R. reflexivity.
Qed.

Lemma site_has : forall s c root v ids, g_root c = Some root -> visit_ok c v -> has (t_mem s) (site_blocks s ++ ids) -> answered c v s ids (x_site s (n_fs v) c (n_req v) (n_calls v)).
Proof.
  intros s c root v ids R V O. unfold x_site. destruct (0 <? q_pos (n_req v)) eqn:Q.
  { right. right. do 2 eexists. exists []. split; [reflexivity|]. split; [apply after_refl|]. split; [exact O|]. left. unfold ideal. now rewrite Q. }
  destruct (name_has (t_mem s) c (q_url (n_req v)) _ O (proj1 V) (proj1 (proj2 V))) as [(-> & S1)|(m1 & n & -> & A1 & O1 & T)]; [left; auto|].
  unfold bind at 1. cbn [fst snd].
  assert (O1' : has (t_mem (with_mem s m1)) (site_blocks (with_mem s m1) ++ (ptr_blocks n ++ ids))) by (change (has m1 (site_blocks s ++ (ptr_blocks n ++ ids))); has_by O1).
  destruct (choose_has (with_mem s m1) c root v n (ptr_blocks n ++ ids) R V Q O1' (incl_appl _ (incl_refl _))) as [AN|(-> & AN)].
  - destruct T as [T|(T & _)]; auto.
  - unfold answered in *. cbn [with_mem t_mem] in AN. destruct AN as [(-> & S1)|[(-> & S1)|(s' & p & lost & -> & A2 & O2 & G)]].
    + left. split; [reflexivity|now apply A1].
    + right. left. split; [reflexivity|]. destruct S1 as [S1|S1]; [left; now apply A1|now right].
    + right. right. unfold bind at 1. cbn [fst snd]. assert (O2' : has (t_mem s') (ptr_blocks n ++ (resp_blocks p ++ site_blocks s' ++ lost ++ ids))) by has_by O2.
      destruct (free_has _ _ _ _ O2') as (m3 & -> & O3 & A3). unfold bind. do 2 eexists. exists lost. split; [reflexivity|]. cbn [with_mem t_mem]. split; [follow|]. split; [exact O3|].
      change (site_caches (with_mem s' m3)) with (site_caches s'). eapply got_mono; [| |exact G]; apply A1.
  - left. rewrite AN. split; [reflexivity|]. destruct T as [T|(_ & T)]; [discriminate|exact T].
Qed.

(** ** a request and its answer *)
Lemma visit_has : forall s c root v ids, g_root c = Some root -> visit_ok c v -> has (t_mem s) (site_blocks s ++ ids) ->
  (x_visit c s v = UB NullDeref /\ starved v) \/ (x_visit c s v = UB Uninit /\ (starved v \/ truncated c v)) \/
  exists s' a lost, x_visit c s v = Ret (s', a) /\ has (t_mem s') (site_blocks s' ++ lost ++ ids) /\ served c (site_caches s) v a (List.length lost) (site_caches s').
Proof.
  intros s c root v ids R V O. unfold x_visit. set (s0 := with_mem s (armed (t_mem s) (n_new v) (n_grow v))).
  assert (O0 : has (t_mem s0) (site_blocks s0 ++ ids)) by exact O.
  destruct (site_has s0 c root v ids R V O0) as [(-> & S1)|[(-> & S1)|(s' & p & lost & -> & A & O1 & G)]].
  - left. split; [reflexivity|exact S1].
  - right. left. split; [reflexivity|exact S1].
  - right. right. unfold bind at 1. cbn [fst snd]. unfold x_answered. unfold resp_blocks in O1. rewrite <- !app_assoc in O1.
    destruct (free_has _ _ _ _ O1) as (m2 & -> & O2 & A2). unfold bind at 2.
    destruct (free_has _ _ _ _ O2) as (m3 & -> & O3 & A3). unfold bind at 2.
    destruct (free_has _ _ _ _ O3) as (m4 & -> & O4 & A4). unfold bind. cbn [fst snd].
    do 2 eexists. exists lost. split; [reflexivity|]. cbn [with_mem t_mem]. split; [exact O4|]. exact G.
Qed.
Lemma visits_has : forall c root l s ids, g_root c = Some root -> Forall (visit_ok c) l -> has (t_mem s) (site_blocks s ++ ids) ->
  (x_visits c s l = UB NullDeref /\ Exists starved l) \/ (x_visits c s l = UB Uninit /\ Exists (fun v => starved v \/ truncated c v) l) \/
  exists s' rs lost, x_visits c s l = Ret (s', rs) /\ has (t_mem s') (site_blocks s' ++ lost ++ ids) /\ all_served c (site_caches s) l rs (List.length lost) (site_caches s').
Proof.
  intros c root l. induction l as [|v l IH]; intros s ids R F O; cbn [x_visits].
  { right. right. exists s, [], []. split; [reflexivity|]. split; [exact O|]. constructor. }
  inversion F as [|? ? F1 F2]; subst. destruct (visit_has s c root v ids R F1 O) as [(-> & S1)|[(-> & S1)|(s1 & a & lost & -> & O1 & G)]].
  - left. split; [reflexivity|now left].
  - right. left. split; [reflexivity|now left].
  - unfold bind at 1 3 5. cbn [fst snd]. destruct (IH s1 (lost ++ ids) R F2 O1) as [(-> & S1)|[(-> & S1)|(s2 & rs & lost2 & -> & O2 & G2)]].
    + left. split; [reflexivity|now right].
    + right. left. split; [reflexivity|now right].
    + right. right. unfold bind. cbn [fst snd]. exists s2, (a :: rs), (lost ++ lost2). split; [reflexivity|]. split; [has_by O2|]. rewrite app_length. econstructor; eauto.
Qed.

(** ** the caches are released *)
Lemma free_cache_has : forall k m ids, has m (cache_blocks k ++ ids) -> exists m', x_free_cache m k = Ret m' /\ has m' ids.
Proof.
  induction k as [|[n [i z]] k IH]; intros m ids O; cbn [x_free_cache]; [exists m; auto|].
  destruct (free_id m i _ O) as (m1 & -> & O1 & _). unfold bind. exact (IH m1 ids O1).
Qed.
Lemma close_has : forall s ids, has (t_mem s) (site_blocks s ++ ids) -> exists m, x_close s = Ret m /\ has m ids.
Proof.
  intros s ids O. unfold x_close, site_blocks in *. rewrite <- app_assoc in O. destruct (free_cache_has _ _ _ O) as (m1 & -> & O1). unfold bind. exact (free_cache_has _ _ _ O1).
Qed.
Lemma new_site_has : has (t_mem new_site) (site_blocks new_site ++ []).
Proof. split; [intros x; reflexivity|]. split; [intros x; apply Nat.le_0_l|intros; reflexivity]. Qed.
