(** C61: compressing and decompressing messages with zlib streams. *)
From Coq Require Import String ZArith Bool List Lia.
From Verif Require Import Base BaseFacts UMapProofs DeflateModel.
Import ListNotations.
Open Scope Z_scope.

Definition flush_tail : list Z := [0; 0; 255; 255].
Definition LIMIT := 4294967296.
(** the first [n] bytes of the block are [x] *)
Definition holds (b : buf) (n : Z) (x : list Z) : Prop := n = zlen x /\ exists rest, b = block_of x ++ rest.

Lemma zlen_block : forall l, zlen (block_of l) = zlen l.
Proof. intros. unfold zlen, block_of. now rewrite map_length. Qed.
Lemma block_app : forall a b, block_of (a ++ b) = block_of a ++ block_of b.
Proof. intros. apply map_app. Qed.

Lemma zlen_rep : forall A (x : A) n, zlen (repeat x n) = Z.of_nat n.
Proof. intros. unfold zlen. now rewrite repeat_length. Qed.
Lemma zskipn_rep : forall A (x : A) k n, 0 <= k <= Z.of_nat n -> zskipn k (repeat x n) = repeat x (n - Z.to_nat k).
Proof.
  intros A x k n R. unfold zskipn. assert (Z.to_nat k <= n)%nat by lia. clear R. generalize dependent (Z.to_nat k). intros m. revert n. induction m as [|m IH]; intros n H; [now rewrite Nat.sub_0_r|].
  destruct n; [lia|]. cbn [repeat skipn]. rewrite IH by lia. f_equal.
Qed.
Lemma zskipn_app_plus : forall A (a b : list A) k, 0 <= k -> zskipn (zlen a + k) (a ++ b) = zskipn k b.
Proof.
  intros A a b k H. unfold zskipn, zlen. replace (Z.to_nat (Z.of_nat (length a) + k)) with (length a + Z.to_nat k)%nat by lia.
  rewrite skipn_app. rewrite skipn_all2 by lia. cbn [app]. f_equal. lia.
Qed.
Lemma zfirstn_more : forall A (l : list A) n, zlen l <= n -> zfirstn n l = l.
Proof. intros. unfold zfirstn. apply firstn_all2. unfold zlen in H. lia. Qed.

Lemma chunks_ok : forall fuel pend done, (length pend < fuel)%nat ->
  exists k, (1 <= k <= 256)%nat /\ chunks fuel pend (block_of done) (zlen done) = Ret (block_of (done ++ pend) ++ repeat None k, zlen done + zlen pend).
Proof.
  induction fuel as [|fuel IH]; intros pend done F; [lia|]. cbn [chunks]. unfold W_BUFF_LEN in *.
  assert (RA : realloc (block_of done) (zlen done + 256) = block_of done ++ repeat None 256).
  { unfold realloc. rewrite zfirstn_more by (rewrite zlen_block; lia). f_equal. f_equal. unfold zlen, block_of. rewrite map_length. lia. }
  rewrite RA. clear RA. pose proof (zlen_nonneg _ done) as ND. pose proof (zlen_nonneg _ pend) as NP.
  set (out := zfirstn 256 pend). assert (LO : zlen out = Z.min 256 (zlen pend)).
  { unfold out. destruct (Z.leb_spec 256 (zlen pend)); [rewrite zlen_zfirstn; lia|rewrite zfirstn_more; lia]. }
  assert (L256 : zlen (repeat (@None Z) 256) = 256) by reflexivity.
  rewrite memcpy_ok; [|lia|lia|rewrite zlen_app, zlen_block, L256; lia|change (map Some out) with (block_of out); rewrite zlen_block; lia]. cbn [bind].
  rewrite (zfirstn_app_exact _ (block_of done)) by (now rewrite zlen_block).
  rewrite (zfirstn_more _ (map Some out)) by (change (map Some out) with (block_of out); rewrite zlen_block; lia).
  change (map Some out) with (block_of out).
  assert (SK : zskipn (zlen done + zlen out) (block_of done ++ repeat None 256) = repeat None (256 - Z.to_nat (zlen out))).
  { rewrite <- (zlen_block done), zskipn_app_plus by lia. apply zskipn_rep. lia. }
  rewrite SK. rewrite app_assoc, <- block_app.
  destruct (Z.eqb_spec (zlen out) 256) as [E|E].
  - rewrite E. change (256 - Z.to_nat 256)%nat with 0%nat. cbn [repeat]. rewrite app_nil_r.
    replace (zlen done + 256) with (zlen (done ++ out)) by (rewrite zlen_app; lia).
    destruct (IH (zskipn 256 pend) (done ++ out)) as (k & R & K).
    { unfold zskipn. rewrite skipn_length. unfold zlen in *. lia. }
    exists k. split; [exact R|]. rewrite K. rewrite <- (app_assoc done out). unfold out at 1. rewrite zfirstn_zskipn. f_equal. f_equal.
    rewrite zlen_app, E, zlen_zskipn by lia. lia.
  - exists (256 - Z.to_nat (zlen out))%nat. split; [lia|]. assert (OE : out = pend) by (apply zfirstn_more; lia). rewrite OE. reflexivity.
Qed.

Lemma chunks_all : forall pend, exists k, (1 <= k <= 256)%nat /\ chunks (Datatypes.S (length pend)) pend [] 0 = Ret (block_of pend ++ repeat None k, zlen pend).
Proof. intros pend. destruct (chunks_ok (Datatypes.S (length pend)) pend []) as (k & R & H); [lia|]. exists k. split; [exact R|exact H]. Qed.

Lemma rd_ok : forall a c b, rd (block_of (a ++ [c]) ++ b) (zlen a) = Ret c.
Proof.
  intros a c b. unfold rd. rewrite block_app, zlen_app, zlen_app, zlen_block. change (zlen (block_of [c])) with 1. pose proof (zlen_nonneg _ a). pose proof (zlen_nonneg _ b).
  replace (0 <=? zlen a) with true by (symmetry; apply Z.leb_le; lia). replace (zlen a <? zlen a + 1 + zlen b) with true by (symmetry; apply Z.ltb_lt; lia). cbn [andb].
  assert (N : Z.to_nat (zlen a) = length (block_of a)) by (unfold zlen, block_of; rewrite map_length; lia).
  rewrite N, <- app_assoc, app_nth2, Nat.sub_diag by lia. reflexivity.
Qed.

(** what goes on the wire for the complete output [pend] of zlib *)
Definition wire (pend x : list Z) : Prop :=
  pend = x ++ flush_tail \/ ((forall y, pend <> y ++ flush_tail) /\ x = pend ++ [0]).

Lemma snoc4 : forall l : list Z, 4 <= zlen l -> exists x a b c d, l = x ++ [a; b; c; d].
Proof.
  intros l H. assert (N : (4 <= length l)%nat) by (unfold zlen in H; lia). clear H.
  destruct l as [|z l] using rev_ind; [cbn in N; lia|]. rewrite app_length in N; cbn [length] in N. clear IHl.
  destruct l as [|y l] using rev_ind; [cbn in N; lia|]. rewrite app_length in N; cbn [length] in N. clear IHl.
  destruct l as [|x l] using rev_ind; [cbn in N; lia|]. rewrite app_length in N; cbn [length] in N. clear IHl.
  destruct l as [|w l] using rev_ind; [cbn in N; lia|]. clear IHl N. exists l, w, x, y, z. rewrite <- !app_assoc. reflexivity.
Qed.

Lemma strip_ok : forall pend k, 4 <= zlen pend -> (1 <= k)%nat -> exists b n x, strip (block_of pend ++ repeat None k) (zlen pend) = Ret (b, n) /\ holds b n x /\ wire pend x.
Proof.
  intros pend k L K. destruct (snoc4 pend L) as (x & a & b & c & d & ->). clear L.
  set (B := block_of (x ++ [a; b; c; d]) ++ repeat None k). assert (ZL : zlen (x ++ [a; b; c; d]) = zlen x + 4) by (rewrite zlen_app; reflexivity).
  assert (Z1 : zlen (x ++ [a]) = zlen x + 1) by (rewrite zlen_app; reflexivity).
  assert (Z2 : zlen (x ++ [a; b]) = zlen x + 2) by (rewrite zlen_app; reflexivity).
  assert (Z3 : zlen (x ++ [a; b; c]) = zlen x + 3) by (rewrite zlen_app; reflexivity).
  assert (R1 : rd B (zlen x + 4 - 1) = Ret d).
  { replace (zlen x + 4 - 1) with (zlen (x ++ [a; b; c])) by lia. unfold B. replace (x ++ [a; b; c; d]) with ((x ++ [a; b; c]) ++ [d]) by (rewrite <- app_assoc; reflexivity). apply rd_ok. }
  assert (R2 : rd B (zlen x + 4 - 2) = Ret c).
  { replace (zlen x + 4 - 2) with (zlen (x ++ [a; b])) by lia. unfold B. replace (x ++ [a; b; c; d]) with (((x ++ [a; b]) ++ [c]) ++ [d]) by (rewrite <- !app_assoc; reflexivity). rewrite block_app, <- app_assoc. apply rd_ok. }
  assert (R3 : rd B (zlen x + 4 - 3) = Ret b).
  { replace (zlen x + 4 - 3) with (zlen (x ++ [a])) by lia. unfold B. replace (x ++ [a; b; c; d]) with (((x ++ [a]) ++ [b]) ++ [c; d]) by (rewrite <- !app_assoc; reflexivity). rewrite block_app, <- app_assoc. apply rd_ok. }
  assert (R4 : rd B (zlen x + 4 - 4) = Ret a).
  { replace (zlen x + 4 - 4) with (zlen x) by lia. unfold B. replace (x ++ [a; b; c; d]) with ((x ++ [a]) ++ [b; c; d]) by (rewrite <- !app_assoc; reflexivity). rewrite block_app, <- app_assoc. apply rd_ok. }
  assert (ADD : [a; b; c; d] <> flush_tail -> exists b0 n x0, (do b1 <- store B (zlen x + 4) 0; Ret (b1, zlen x + 4 + 1)) = Ret (b0, n) /\ holds b0 n x0 /\ wire (x ++ [a; b; c; d]) x0).
  { intros NE. pose proof (zlen_nonneg _ x). unfold B. rewrite store_ok; [|lia|rewrite zlen_app, zlen_block, ZL, zlen_rep; lia]. cbn [bind]. do 2 eexists. exists ((x ++ [a; b; c; d]) ++ [0]). split; [reflexivity|].
    split; [split; [rewrite zlen_app, ZL; reflexivity|]|].
    - eexists. rewrite zfirstn_app_exact by (now rewrite zlen_block). rewrite (block_app (x ++ [a; b; c; d]) [0]), <- app_assoc. reflexivity.
    - right. split; [|reflexivity]. intros y Q. apply NE.
      assert (Q2 : rev (x ++ [a; b; c; d]) = rev (y ++ flush_tail)) by (now rewrite Q). rewrite !rev_app_distr in Q2. cbn [rev app flush_tail] in Q2. injection Q2 as -> -> -> -> _. reflexivity. }
  unfold strip. rewrite ZL, R1. cbn [bind]. destruct (Z.eqb_spec d 255) as [->|N]; [|apply ADD; unfold flush_tail; congruence].
  rewrite R2. cbn [bind]. destruct (Z.eqb_spec c 255) as [->|N]; [|apply ADD; unfold flush_tail; congruence].
  rewrite R3. cbn [bind]. destruct (Z.eqb_spec b 0) as [->|N]; [|apply ADD; unfold flush_tail; congruence].
  rewrite R4. cbn [bind]. destruct (Z.eqb_spec a 0) as [->|N]; [|apply ADD; unfold flush_tail; congruence].
  exists B, (zlen x + 4 - 4), x. split; [reflexivity|]. split; [|left; reflexivity]. split; [lia|]. unfold B. rewrite block_app, <- app_assoc. eauto.
Qed.

Section Stream.
Variable St : Type.
Variables zdeflate zinflate : St -> bool -> list Z -> option (list Z) * St.

(** C61. All that zlib produces is sent, however long, without the tail of the flush; *)
Theorem C61_out : forall s full d pend s', 0 < zlen d < LIMIT -> zdeflate s full d = (Some pend, s') -> 4 <= zlen pend ->
  exists b n x, out_deflate St zdeflate s full d = Ret (Some (b, n), s') /\ holds b n x /\ wire pend x.
Proof.
  intros s full d pend s' L Z P. unfold out_deflate, LIMIT in *. replace (zlen d =? 0) with false by (symmetry; apply Z.eqb_neq; lia).
  rewrite Z.mod_small by lia. rewrite zfirstn_all, Z. destruct (chunks_all pend) as (k & K & ->). cbn [bind fst snd].
  destruct (strip_ok pend k P) as (b & n & x & -> & H & W); [lia|]. cbn [bind]. eauto 10.
Qed.

(** all that zlib produces from the message and the tail is delivered; *)
Theorem C61_in : forall r full d pend r', 0 < zlen d -> zlen d + 4 < LIMIT -> zinflate r full (d ++ flush_tail) = (Some pend, r') ->
  exists b, in_inflate St zinflate r full d = Ret (Some (b, zlen pend), r') /\ holds b (zlen pend) pend.
Proof.
  intros s full d pend s' L0 L Z. unfold in_inflate, LIMIT in *. replace (zlen d =? 0) with false by (symmetry; apply Z.eqb_neq; lia).
  rewrite Z.mod_small by lia. replace (zlen d + 4) with (zlen (d ++ flush_tail)) by (rewrite zlen_app; reflexivity). unfold flush_tail in *. rewrite zfirstn_all, Z.
  destruct (chunks_all pend) as (k & K & ->). cbn [bind]. eexists. split; [reflexivity|]. split; [reflexivity|]. eauto.
Qed.

(** and an error of zlib is an error of the function *)
Theorem C61_error : forall s full d s', zlen d <> 0 ->
  (zdeflate s full (zfirstn (zlen d mod LIMIT) d) = (None, s') -> out_deflate St zdeflate s full d = Ret (None, s')) /\
  (zinflate s full (zfirstn ((zlen d + 4) mod LIMIT) (d ++ flush_tail)) = (None, s') -> in_inflate St zinflate s full d = Ret (None, s')).
Proof.
  intros s full d s' L. unfold out_deflate, in_inflate, LIMIT, flush_tail in *. replace (zlen d =? 0) with false by (symmetry; apply Z.eqb_neq; lia).
  split; intros ->; reflexivity.
Qed.

(** messages sent by one side and what the other side makes of them *)
Inductive exchange (full full' : bool) : St -> St -> list (list Z) -> list (list Z) -> Prop :=
| x_nil : forall s r, exchange full full' s r [] []
| x_cons : forall s r d b n s' x b' n' r' y ds ys, out_deflate St zdeflate s full d = Ret (Some (b, n), s') -> holds b n x ->
    in_inflate St zinflate r full' x = Ret (Some (b', n'), r') -> holds b' n' y -> exchange full full' s' r' ds ys ->
    exchange full full' s r (d :: ds) (y :: ys).

(** What zlib promises: while the streams are in step ([I]), a flushed output ends with the tail of the flush and inflating it gives the input;
    the streams are in step again. [max]: messages that long have a compressed form below 2^32 bytes. *)
Definition zlib (full full' : bool) (max : Z) (I : St -> St -> Prop) : Prop :=
  forall s r d, I s r -> 0 < zlen d <= max -> exists x s' r', zdeflate s full d = (Some (x ++ flush_tail), s') /\ 0 < zlen x /\ zlen x + 4 < LIMIT /\
    zinflate r full' (x ++ flush_tail) = (Some d, r') /\ I s' r'.

Lemma holds_inj : forall b n x y, holds b n x -> holds b n y -> x = y.
Proof.
  intros b n x y (L1 & r1 & E1) (L2 & r2 & E2). rewrite E1 in E2.
  assert (E : block_of x = block_of y).
  { apply (f_equal (zfirstn n)) in E2. rewrite !zfirstn_app_exact in E2 by (now rewrite zlen_block). exact E2. }
  clear -E. revert y E. induction x as [|c x IH]; intros [|d y] E; try discriminate; [reflexivity|]. cbn [block_of map] in E. injection E as -> E. f_equal. now apply IH.
Qed.

Lemma step : forall full full' max I s r d, zlib full full' max I -> max < LIMIT -> I s r -> zlen d <= max ->
  exists b n x s' b' n' r', out_deflate St zdeflate s full d = Ret (Some (b, n), s') /\ holds b n x /\
    in_inflate St zinflate r full' x = Ret (Some (b', n'), r') /\ holds b' n' d /\ I s' r'.
Proof.
  intros full full' max I s r d Z M IS L. destruct (Z.eq_dec (zlen d) 0) as [E|N].
  - assert (d = []) by (destruct d; [reflexivity|]; unfold zlen in E; cbn [length] in E; lia). subst d.
    exists [], 0, [], s, [], 0, r. split; [reflexivity|]. split; [split; [reflexivity|exists []; reflexivity]|]. split; [reflexivity|].
    split; [split; [reflexivity|exists []; reflexivity]|exact IS].
  - pose proof (zlen_nonneg _ d) as NN. destruct (Z s r d IS) as (x & s' & r' & D & X0 & X4 & F & I'); [lia|].
    destruct (C61_out s full d (x ++ flush_tail) s') as (b & n & x2 & O & H & W); [lia|exact D|rewrite zlen_app; change (zlen flush_tail) with 4; lia|].
    assert (x2 = x) by (destruct W as [W|[W _]]; [now apply app_inv_tail in W|exfalso; now apply (W x)]). subst x2.
    destruct (C61_in r full' x d r' X0 X4 F) as (b' & IN & H'). exists b, n, x, s', b', (zlen d), r'. auto 10.
Qed.

(** C61. With such a zlib, every message arrives as it was sent, in any conversation. *)
Theorem C61_round_trip : forall full full' max I s r ds, zlib full full' max I -> max < LIMIT -> I s r -> Forall (fun d => zlen d <= max) ds ->
  exchange full full' s r ds ds /\ forall ys, exchange full full' s r ds ys -> ys = ds.
Proof.
  intros full full' max I s r ds Z M IS L. revert s r IS. induction L as [|d ds L _ IH]; intros s r IS.
  - split; [constructor|]. intros ys X. inversion X. reflexivity.
  - destruct (step full full' max I s r d Z M IS L) as (b & n & x & s' & b' & n' & r' & O & H & IN & H' & I'). destruct (IH s' r' I') as [E U]. split.
    + econstructor; eauto.
    + intros ys X. inversion X as [|? ? ? b1 n1 s1 x1 b2 n2 r1 y ds' ys' O1 H1 IN1 H2 X1]; subst. rewrite O in O1. injection O1 as -> -> ->.
      assert (x1 = x) by (eapply holds_inj; eauto). subst x1. rewrite IN in IN1. injection IN1 as -> -> ->.
      assert (y = d) by (eapply holds_inj; eauto). subst y. f_equal. now apply U.
Qed.

(** C61, refuted: for a message of 2^32 bytes nothing is given to zlib, and if it has nothing to say the function looks in front of the block *)
Theorem C61_huge_message_refuted : forall s full s' d, zlen d = LIMIT -> zdeflate s full [] = (Some [], s') ->
  out_deflate St zdeflate s full d = UB OutOfBounds.
Proof.
  intros s full s' d L Z. unfold out_deflate. rewrite L. change (LIMIT =? 0) with false. cbv iota. change (LIMIT mod 4294967296) with 0. rewrite zfirstn_0, Z. reflexivity.
Qed.
End Stream.
Print Assumptions C61_out.
Print Assumptions C61_in.
Print Assumptions C61_error.
Print Assumptions C61_round_trip.
Print Assumptions C61_huge_message_refuted.

(** such messages exist *)
Example C61_huge_exists : exists d : list Z, zlen d = LIMIT.
Proof.
  assert (G : forall n, Z.of_nat n = LIMIT -> zlen (repeat 0 n) = LIMIT) by (intros n H; now rewrite zlen_rep).
  eexists. apply (G (Z.to_nat LIMIT)). rewrite Z2Nat.id; [reflexivity|]. unfold LIMIT. lia.
Qed.

(** a zlib in miniature: bytes are stored with a running key, and the flush puts its tail *)
Definition toy_deflate (s : Z) (full : bool) (d : list Z) : option (list Z) * Z := (Some (map (Z.add s) d ++ flush_tail), s + 1).
Definition toy_inflate (s : Z) (full : bool) (d : list Z) : option (list Z) * Z := (Some (map (fun c => c - s) (firstn (length d - 4) d)), s + 1).
Lemma toy_zlib : zlib Z toy_deflate toy_inflate true false 1000000 eq.
Proof.
  intros s r d <- L. exists (map (Z.add s) d), (s + 1), (s + 1). split; [reflexivity|]. unfold zlen in *. rewrite map_length. split; [lia|]. split; [unfold LIMIT; lia|]. split; [|reflexivity].
  unfold toy_inflate. f_equal. f_equal. rewrite app_length. change (length flush_tail) with 4%nat. rewrite Nat.add_sub, firstn_app, Nat.sub_diag, firstn_all. cbn [firstn]. rewrite app_nil_r, map_map.
  clear L. induction d as [|c d IH]; [reflexivity|]. cbn [map]. f_equal; [lia|exact IH].
Qed.
Example C61_example : exchange Z toy_deflate toy_inflate true false 7 7 [bs "first message"; repeat 33 600; []] [bs "first message"; repeat 33 600; []].
Proof. apply (C61_round_trip Z toy_deflate toy_inflate true false 1000000 eq); [exact toy_zlib|reflexivity|reflexivity|]. repeat constructor; vm_compute; discriminate. Qed.
