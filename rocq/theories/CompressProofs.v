(** Lemmas for C80. *)
From Coq Require Import String ZArith Bool List Lia.
From Verif Require Import Base BaseFacts UMapModel UMapSpec SMap SMapCase StrModel StrProofs NegoSpec CopyModel TokenSpec CompressModel CompressSpec.
From Verif Require NegoProofs ClientModel InputProofs ClientProofs CopyProofs TokenProps TokenProofs.
Import ListNotations.
Open Scope Z_scope.

Lemma bytes_of_block : forall l, bytes_of (block_of l) = Ret l.
Proof. induction l as [|x l IH]; [reflexivity|]. cbn [block_of map bytes_of]. change (map Some l) with (block_of l). now rewrite IH. Qed.
Lemma read_bytes_eq : forall l t n, 0 <= n <= zlen l -> read_bytes (block_of l ++ t) n = Ret (zfirstn n l).
Proof.
  intros l t n N. unfold read_bytes. unfold block_of at 1. rewrite zlen_app, zlen_map. pose proof (zlen_nonneg _ t). replace (n <=? zlen l + zlen t) with true by (symmetry; apply Z.leb_le; lia).
  rewrite <- (bytes_of_block (zfirstn n l)). f_equal. unfold zfirstn, zlen in *. rewrite firstn_app. replace (Z.to_nat n - length (block_of l))%nat with O by (unfold block_of; rewrite map_length; lia).
  cbn [firstn]. rewrite app_nil_r. unfold block_of. apply firstn_map.
Qed.

Lemma wanted_iff : forall c a gz, wanted c a = Some gz <-> enabled c gz /\ value_of 44 a (coding gz) /\ (gz = false -> ~ (enabled c true /\ value_of 44 a (coding true))).
Proof.
  intros c a gz. unfold wanted.
  assert (G : has_trimmed (split_string 44 a) (bs "gzip") = true <-> value_of 44 a (coding true)) by apply has_trimmed_iff.
  assert (D : has_trimmed (split_string 44 a) (bs "deflate") = true <-> value_of 44 a (coding false)) by apply has_trimmed_iff.
  assert (EG : match c with Some c => z_gzip c | None => true end = true <-> enabled c true) by (destruct c; cbn; tauto).
  assert (ED : match c with Some c => z_deflate c | None => true end = true <-> enabled c false) by (destruct c; cbn; tauto).
  cbv zeta. destruct (match c with Some c => z_gzip c | None => true end && has_trimmed (split_string 44 a) (bs "gzip")) eqn:X.
  - apply andb_true_iff in X as [X1 X2]. apply EG in X1. apply G in X2. split; [intros H; injection H as <-; split; [exact X1|split; [exact X2|discriminate]]|].
    intros (A & B & C). destruct gz; [reflexivity|]. exfalso. apply C; auto.
  - assert (NG : ~ (enabled c true /\ value_of 44 a (coding true))) by (intros [A B]; apply EG in A; apply G in B; rewrite A, B in X; discriminate).
    destruct (match c with Some c => z_deflate c | None => true end && has_trimmed (split_string 44 a) (bs "deflate")) eqn:Y.
    + apply andb_true_iff in Y as [Y1 Y2]. apply ED in Y1. apply D in Y2. split; [intros H; injection H as <-; auto|]. intros (A & B & C). destruct gz; [tauto|reflexivity].
    + split; [discriminate|]. intros (A & B & C). destruct gz; [tauto|]. apply ED in A. apply D in B. rewrite A, B in Y. discriminate.
Qed.
Lemma single_one : forall d k a b, single d k a -> single d k b -> a = b.
Proof. intros d k a b A B. apply TokenProps.single_val in A as [_ A], B as [_ B]. congruence. Qed.
Lemma chosen_iff : forall c d a gz, single d (bs "Accept-Encoding") a -> (wanted c a = Some gz <-> chosen c d gz).
Proof.
  intros c d a gz S. rewrite wanted_iff. unfold chosen, accepts.
  assert (V : forall g, value_of 44 a (coding g) <-> exists b, single d (bs "Accept-Encoding") b /\ value_of 44 b (coding g)).
  { intros g. split; [eauto|]. intros (b & B & W). now rewrite (single_one _ _ _ _ S B). }
  rewrite (V gz), (V true). tauto.
Qed.

Section Zlib.
Variable S : Type.
Variable zinit : bool -> list Z -> option S.
Variable zfinish : S -> Z -> Z * list Z * S.
Variables (zip : bool -> list Z -> list Z) (left : S -> list Z).
Hypothesis ZL : zlib_ok S zinit zfinish zip left.
Lemma squeeze_eq : forall fuel s a, zlen (left s) < Z.of_nat fuel * 256 -> zlen a + zlen (left s) + 512 < two64 ->
  exists x, squeeze S zfinish fuel s (block_of a) (zlen a) (zlen a) = Ret x /\ (x = None /\ (exists s n code out s', zfinish s n = (code, out, s') /\ ~ In code [0; 1; -5]) \/ exists t, x = Some (block_of (a ++ left s) ++ t, zlen (a ++ left s))).
Proof.
  induction fuel as [|fuel IH]; intros s a F L. { pose proof (zlen_nonneg _ (left s)). lia. }
  cbn [squeeze]. cbv zeta. pose proof (zlen_nonneg _ a) as P1. pose proof (zlen_nonneg _ (left s)) as P2. unfold BLOCK. rewrite (add64_small (zlen a) 256) by lia.
  destruct (zfinish s 256) as [[code out] s'] eqn:Z. destruct (proj2 ZL s 256 code out s' ltac:(lia) Z) as [W Q]. pose proof (zlen_nonneg _ out) as P3.
  rewrite InputProofs.realloc_exact by lia. replace (Z.to_nat (zlen a + 256) - length a)%nat with 256%nat by (unfold zlen; lia).
  assert (M : memcpy (block_of a ++ repeat None 256) (zlen a) (block_of out) (zlen out) = Ret (block_of (a ++ out) ++ repeat None (256 - length out))).
  { replace (zlen a) with (zlen (block_of a)) by apply zlen_map. rewrite ClientProofs.memcpy_app; [|exact P3|exact W|unfold block_of; rewrite zlen_map; lia].
    f_equal. unfold block_of. rewrite map_app, <- app_assoc. f_equal. f_equal.
    - unfold zfirstn, zlen. rewrite Nat2Z.id. rewrite <- (map_length Some out) at 1. apply firstn_all.
    - unfold zskipn, zlen. rewrite Nat2Z.id. clear -W. unfold zlen in W. assert (N : (length out <= 256)%nat) by lia. clear W. revert N. generalize (length out) as k, 256%nat as m. induction k as [|k IHk]; intros m N; [now rewrite Nat.sub_0_r|]. destruct m as [|m]; [lia|]. cbn [repeat skipn Nat.sub]. apply IHk. lia. }
  rewrite M. cbn [bind]. replace (256 - (256 - zlen out)) with (zlen out) by lia. rewrite (add64_small (zlen a) (zlen out)) by lia.
  destruct (fair code) eqn:FC. 2:{ eexists. split; [reflexivity|]. left. split; [reflexivity|]. exists s, BLOCK. do 3 eexists. split; [eassumption|]. intros IN. unfold fair in FC. cbn in IN. destruct IN as [<-|[<-|[<-|[]]]]; discriminate. }
  destruct (Q eq_refl) as [-> LS]. destruct (Z.eqb_spec (256 - zlen (zfirstn 256 (left s))) 0) as [E|E].
  - assert (G : 256 <= zlen (left s)) by (unfold zlen, zfirstn in E; rewrite firstn_length in E; unfold zlen; lia).
    assert (LL : zlen (left s') = zlen (left s) - 256) by (rewrite LS; apply zlen_zskipn; lia).
    replace (256 - length (zfirstn 256 (left s)))%nat with O by (unfold zlen in E; lia). cbn [repeat]. rewrite app_nil_r.
    replace (zlen a + zlen (zfirstn 256 (left s))) with (zlen (a ++ zfirstn 256 (left s))) by apply zlen_app.
    destruct (IH s' (a ++ zfirstn 256 (left s))) as (x & X & D); [lia|rewrite zlen_app; lia|]. exists x. split; [exact X|].
    destruct D as [D|D]; [now left|right]. rewrite <- app_assoc, LS, zfirstn_zskipn in D. exact D.
  - assert (A : zfirstn 256 (left s) = left s). { unfold zfirstn. apply firstn_all2. unfold zlen, zfirstn in E. rewrite firstn_length in E. lia. }
    rewrite A in *. eexists. split; [reflexivity|]. right. eexists. rewrite zlen_app. reflexivity.
Qed.
End Zlib.
