(** C80: the callback that compresses the body of a response. *)
From Coq Require Import String ZArith Bool List Lia.
From Verif Require Import Base BaseFacts UMapModel UMapSpec SMap SMapCase StrModel StrProofs NegoSpec CopyModel SendProps TokenSpec CompressModel CompressSpec CompressProofs.
From Verif Require NegoProofs ClientModel CopyProofs TokenProps TokenProofs.
Import ListNotations.
Open Scope Z_scope.

Section Props.
Variable S : Type.
Variable zinit : bool -> list Z -> option S.
Variable zfinish : S -> Z -> Z * list Z * S.
Variables (zip : bool -> list Z -> list Z) (left : S -> list Z).
(** something is wrong in zlib *)
Definition zlib_fails : Prop := (exists gz x, zinit gz x = None) \/ exists s n code out s', zfinish s n = (code, out, s') /\ ~ In code [0; 1; -5].
Hypothesis ZL : zlib_ok S zinit zfinish zip left.
Hypothesis ZN : forall gz x, zip gz x <> [].
(** every configuration, request and response: the body becomes the compressed body, labelled so, exactly when there is a body and the client names a coding that is enabled; otherwise
    nothing changes. Bodies of 4 GiB are compressed in part. *)
Theorem C80_decision_partial : forall fuel c h dh r d body, repr h dh -> repr (z_headers r) d -> holds_body (z_msg r) body -> zlen body < two64 ->
  (forall gz, let x := zip gz (zfirstn (zlen body mod 4294967296) body) in zlen x < Z.of_nat fuel * 256 /\ zlen x + 512 < two64) ->
  exists ret r', compress S zinit zfinish fuel c h r = Ret (ret, r') /\
    (ret = 4 /\ r' = r /\ zlib_fails \/
     ret = 1 /\ r' = r /\ (body = [] \/ forall gz, ~ chosen c dh gz) \/
     ret = 1 /\ exists gz, body <> [] /\ chosen c dh gz /\ holds_body (z_msg r') (zip gz (zfirstn (zlen body mod 4294967296) body)) /\ m_status (z_msg r') = m_status (z_msg r) mod 4294967296 /\
       repr (z_headers r') (sput (bs "Content-Encoding") (Some (coding gz)) d)).
Proof.
  intros fuel c h dh r d body RH RD (BL & t & BB) LB FU. unfold compress. rewrite BL. destruct (Z.eqb_spec (zlen body) 0) as [E0|E0].
  { apply zlen_0 in E0. eexists _, _. split; [reflexivity|]. right. left. auto. }
  assert (NB : body <> []) by (intros ->; now apply E0).
  assert (NOT : (forall a, ~ single dh (bs "Accept-Encoding") a) -> forall gz, ~ chosen c dh gz) by (intros N gz (_ & (a & A & _) & _); now apply N in A).
  rewrite (NegoProofs.repr_count_case _ _ _ RH). cbn [bind]. destruct (Z.eqb_spec (zlen (filter (fun p => str_caseeqb (fst p) (bs "Accept-Encoding")) dh)) 1) as [E1|E1].
  2:{ eexists _, _. split; [reflexivity|]. right. left. split; [reflexivity|]. split; [reflexivity|]. right. apply NOT. intros a A. apply TokenProps.single_val in A as [A _]. contradiction. }
  rewrite (SMapCase.repr_get_case _ _ _ RH). cbn [bind]. destruct (sval_case dh (bs "Accept-Encoding")) as [a|] eqn:SV.
  2:{ eexists _, _. split; [reflexivity|]. right. left. split; [reflexivity|]. split; [reflexivity|]. right. apply NOT. intros a A. apply TokenProps.single_val in A as [_ A]. congruence. }
  assert (SI : single dh (bs "Accept-Encoding") a) by (apply TokenProps.single_val; auto).
  destruct (wanted c a) as [gz|] eqn:WA.
  2:{ eexists _, _. split; [reflexivity|]. right. left. split; [reflexivity|]. split; [reflexivity|]. right. intros gz C. apply (chosen_iff c dh a gz SI) in C. congruence. }
  apply (chosen_iff c dh a gz SI) in WA. rewrite BB. pose proof (zlen_nonneg _ body) as PB.
  assert (MB : 0 <= zlen body mod 4294967296 <= zlen body) by (split; [apply Z.mod_pos_bound; lia|apply Z.mod_le; lia]).
  rewrite read_bytes_eq by exact MB. cbn [bind]. set (input := zfirstn (zlen body mod 4294967296) body) in *. destruct (zinit gz input) as [s|] eqn:ZI.
  2:{ eexists _, _. split; [reflexivity|]. left. split; [reflexivity|]. split; [reflexivity|]. left. eauto. }
  pose proof (proj1 ZL gz input s ZI) as LS. destruct (FU gz) as [FU1 FU2]. fold input in FU1, FU2. destruct (squeeze_eq S zinit zfinish zip left ZL fuel s []) as (x & X & D); [rewrite LS; exact FU1|rewrite LS; exact FU2|].
  change (block_of []) with (@nil (option Z)) in X. change (zlen []) with 0 in X. rewrite X. cbn [bind]. destruct D as [[-> D]|[t' ->]].
  { eexists _, _. split; [reflexivity|]. left. split; [reflexivity|]. split; [reflexivity|]. right. exact D. }
  cbn [app]. rewrite LS. unfold set_block. destruct (Z.eqb_spec (zlen (zip gz input)) 0) as [EZ|EZ]; [apply zlen_0 in EZ; now apply ZN in EZ|].
  rewrite CopyProofs.memcpy_fresh_buf by (unfold block_of; rewrite zlen_app, zlen_map; pose proof (zlen_nonneg _ t'); pose proof (zlen_nonneg _ (zip gz input)); lia).
  rewrite zfirstn_app_exact by (unfold block_of; now rewrite zlen_map). cbn [bind].
  destruct (repr_put _ _ (bs "Content-Encoding") (Some (coding gz)) RD ltac:(discriminate)) as (m' & PU & RP). { split; [destruct gz; apply cstrb_true; reflexivity|destruct gz; reflexivity]. }
  rewrite PU. cbn [bind snd]. eexists _, _. split; [reflexivity|]. right. right. split; [reflexivity|]. exists gz. cbn [z_msg z_headers m_status]. split; [exact NB|]. split; [exact WA|]. split; [|auto].
  split; [reflexivity|]. exists []. cbn [m_body]. now rewrite app_nil_r.
Qed.
Lemma lacks_sput : forall k v d, lacks d k -> single (sput k (Some v) d) k v.
Proof.
  intros k v d L. assert (E : sput k (Some v) d = d ++ [(k, Some v)]).
  { clear -L. induction d as [|[k0 v0] d IH]; [reflexivity|]. cbn [sput fst]. destruct (str_eqb k0 k) eqn:E.
    - apply str_eqb_eq in E. subst k0. exfalso. apply (L (k, v0)); [now left|reflexivity].
    - cbn [app]. f_equal. apply IH. intros p I. apply L. now right. }
  rewrite E. exists d, k, (Some v), []. split; [reflexivity|]. split; [reflexivity|]. split; [reflexivity|]. intros p I. rewrite app_nil_r in I. now apply L.
Qed.
(** the client reads the same content as before *)
Theorem C80_same_content_partial : forall unzip fuel c h dh r d body ret r', (forall gz x, unzip gz (zip gz x) = Some x) -> repr h dh -> repr (z_headers r) d -> holds_body (z_msg r) body ->
  (forall gz, zlen (zip gz body) < Z.of_nat fuel * 256 /\ zlen (zip gz body) + 512 < two64) -> zlen body < 4294967296 -> 0 <= m_status (z_msg r) < 4294967296 -> lacks d (bs "Content-Encoding") ->
  compress S zinit zfinish fuel c h r = Ret (ret, r') ->
  exists d' body', repr (z_headers r') d' /\ holds_body (z_msg r') body' /\ content unzip d' body' body /\ m_status (z_msg r') = m_status (z_msg r) /\
    (forall k, k <> bs "Content-Encoding" -> sget d' k = sget d k) /\ (body' <> body -> exists gz, accepts dh gz /\ enabled c gz).
Proof.
  intros unzip fuel c h dh r d body ret r' UZ RH RD HB FU LB ST LA H. destruct (C80_decision_partial fuel c h dh r d body RH RD HB) as (ret1 & r1 & E & D); [unfold two64; lia|pose proof (zlen_nonneg _ body); rewrite Z.mod_small by lia; rewrite zfirstn_all; exact FU|]. rewrite E in H. injection H as -> ->.
  assert (SAME : r' = r -> exists d' body', repr (z_headers r') d' /\ holds_body (z_msg r') body' /\ content unzip d' body' body /\ m_status (z_msg r') = m_status (z_msg r) /\
    (forall k, k <> bs "Content-Encoding" -> sget d' k = sget d k) /\ (body' <> body -> exists gz, accepts dh gz /\ enabled c gz)).
  { intros ->. exists d, body. split; [exact RD|]. split; [exact HB|]. split; [left; auto|]. split; [reflexivity|]. split; [reflexivity|]. congruence. }
  destruct D as [(_ & -> & _)|[(_ & -> & _)|(_ & gz & NB & CH & HB' & ST' & RP)]]; [now apply SAME|now apply SAME|]. clear SAME.
  pose proof (zlen_nonneg _ body). rewrite Z.mod_small in HB' by lia. rewrite zfirstn_all in HB'. rewrite Z.mod_small in ST' by lia. exists (sput (bs "Content-Encoding") (Some (coding gz)) d), (zip gz body).
  split; [exact RP|]. split; [exact HB'|]. split; [right; exists gz; split; [now apply lacks_sput|apply UZ]|]. split; [exact ST'|]. split; [intros k N; apply sget_sput_other; congruence|]. intros _. destruct CH as (A & B & _). eauto.
Qed.
(** without errors of zlib the callback does what the client asks for *)
Theorem C80_compresses : forall fuel c h dh r d body gz, ~ zlib_fails -> repr h dh -> repr (z_headers r) d -> holds_body (z_msg r) body -> zlen body < 4294967296 -> body <> [] -> chosen c dh gz ->
  (forall gz, zlen (zip gz body) < Z.of_nat fuel * 256 /\ zlen (zip gz body) + 512 < two64) ->
  exists r', compress S zinit zfinish fuel c h r = Ret (1, r') /\ holds_body (z_msg r') (zip gz body) /\ repr (z_headers r') (sput (bs "Content-Encoding") (Some (coding gz)) d).
Proof.
  intros fuel c h dh r d body gz NF RH RD HB LB NB CH FU. destruct (C80_decision_partial fuel c h dh r d body RH RD HB) as (ret1 & r1 & E & D); [unfold two64; lia|pose proof (zlen_nonneg _ body); rewrite Z.mod_small by lia; rewrite zfirstn_all; exact FU|].
  destruct D as [(_ & _ & F)|[(_ & _ & [N|N])|(-> & g & _ & C2 & HB' & _ & RP)]]; [contradiction|contradiction|now apply N in CH|].
  assert (g = gz) as ->. { destruct CH as (X1 & X2 & P), C2 as (Y1 & Y2 & Q). destruct g, gz; auto; exfalso; [now apply P|now apply Q]. }
  pose proof (zlen_nonneg _ body). rewrite Z.mod_small, zfirstn_all in HB' by lia. eauto.
Qed.
End Props.

(** a toy zlib: the stream is the coding's first letter, the bytes, and a final 0 *)
Definition toy_zip (gz : bool) (x : list Z) : list Z := (if gz then 103 else 100) :: x ++ [0].
Definition toy_unzip (gz : bool) (y : list Z) : option (list Z) := match y with t :: r => if t =? (if gz then 103 else 100) then Some (removelast r) else None | [] => None end.
Definition toy_init (gz : bool) (x : list Z) : option (list Z) := Some (toy_zip gz x).
Definition toy_finish (s : list Z) (n : Z) : Z * list Z * list Z := (match zskipn n s with [] => 1 | _ => 0 end, zfirstn n s, zskipn n s).
Lemma toy_ok : zlib_ok (list Z) toy_init toy_finish toy_zip (fun s => s).
Proof.
  split; [intros gz x s H; injection H as <-; reflexivity|]. intros s n code out s' N H. unfold toy_finish in H. injection H as _ <- <-. split; [|auto]. unfold zlen, zfirstn. rewrite firstn_length. lia.
Qed.
Lemma toy_round : forall gz x, toy_unzip gz (toy_zip gz x) = Some x.
Proof. intros gz x. unfold toy_unzip, toy_zip. rewrite Z.eqb_refl. now rewrite removelast_last. Qed.
Lemma toy_fine : ~ zlib_fails (list Z) toy_init toy_finish.
Proof. intros [(gz & x & H)|(s & n & code & out & s' & H & F)]; [discriminate|]. unfold toy_finish in H. injection H as <- _ _. apply F. destruct (zskipn n s); cbn; auto. Qed.
Definition ex_accept : smap := [(bs "accept-encoding", Some (bs "br, deflate , gzip"))].
Definition ex_body : list Z := repeat 65 700.
Definition ex_response (d : smap) (l : list Z) : zresponse := mk_zresponse (mk_msg (Some (block_of l)) (zlen l) 200) (map_of d).
Example C80_holds : match compress (list Z) toy_init toy_finish 10 None (map_of ex_accept) (ex_response [] ex_body) with
  | Ret (ret, r) => ret = 1 /\ m_body (z_msg r) = Some (block_of (toy_zip true ex_body)) /\ m_length (z_msg r) = 702 /\ get_str (z_headers r) (bs "Content-Encoding") = Ret (Some (bs "gzip")) | _ => False end /\
  chosen None ex_accept true /\ (forall gz, zlen (toy_zip gz ex_body) < 10 * 256).
Proof.
  split; [vm_compute; auto|]. split.
  - apply (chosen_iff None ex_accept (bs "br, deflate , gzip") true); [|reflexivity]. exists [], (bs "accept-encoding"), (Some (bs "br, deflate , gzip")), []. split; [reflexivity|]. split; [reflexivity|]. split; [reflexivity|]. intros p [].
  - intros [|]; reflexivity.
Qed.
(** a body that is already encoded is encoded again and the first coding forgotten *)
Theorem C80_encoded_refuted : exists dh d body x r', repr (map_of d) d /\ content toy_unzip d body x /\ compress (list Z) toy_init toy_finish 10 None (map_of dh) (ex_response d body) = Ret (1, r') /\
  forall d' body' x', repr (z_headers r') d' -> holds_body (z_msg r') body' -> content toy_unzip d' body' x' -> x' <> x.
Proof.
  exists ex_accept, [(bs "Content-Encoding", Some (bs "deflate"))], (toy_zip false (bs "hello")), (bs "hello"). eexists. split; [exact (repr_map_of [(bs "Content-Encoding", Some (bs "deflate"))] eq_refl)|]. split.
  { right. exists false. split; [|apply toy_round]. exists [], (bs "Content-Encoding"), (Some (bs "deflate")), []. split; [reflexivity|]. split; [reflexivity|]. split; [reflexivity|]. intros p []. }
  split; [vm_compute; reflexivity|]. intros d' body' x' R (L & t & B) C.
  cbn [z_msg z_headers m_length m_body] in L, B.
  assert (EB : body' = toy_zip true (toy_zip false (bs "hello"))).
  { injection B as B. assert (K : block_of body' = zfirstn (zlen body') (block_of body' ++ t)) by (symmetry; apply zfirstn_app_exact; unfold block_of; now rewrite zlen_map). rewrite <- B, <- L in K.
    assert (I : forall a b : list Z, block_of a = block_of b -> a = b) by (clear; induction a as [|p a IH]; destruct b; intros H; try discriminate; [reflexivity|]; injection H as -> H; f_equal; auto). apply I. rewrite K. reflexivity. }
  assert (ED : sval_case d' (bs "Content-Encoding") = Some (bs "gzip")) by (pose proof (SMapCase.repr_get_case _ _ (bs "Content-Encoding") R) as G; vm_compute in G; injection G as G; symmetry; exact G).
  destruct C as [[LA _]|(gz & SI & U)]; [apply TokenProps.lacks_iff in LA; congruence|]. apply TokenProps.single_val in SI as [_ SI]. rewrite ED in SI. destruct gz; [|discriminate]. subst body'. rewrite toy_round in U. injection U as <-. discriminate.
Qed.
(** a body of 4 GiB or more is cut to its length modulo 2^32 before it is compressed *)
Theorem C80_large_refuted : forall n : Z, 0 <= n < 4294967296 -> exists body, zlen body = 4294967296 + n /\ exists r', (exists fuel, compress (list Z) toy_init toy_finish fuel None (map_of ex_accept) (ex_response [] body) = Ret (1, r')) /\
  holds_body (z_msg r') (toy_zip true (zfirstn n body)) /\ zlen (zfirstn n body) = n.
Proof.
  intros n N. set (body := repeat 65 (Z.to_nat (4294967296 + n))). assert (LB : zlen body = 4294967296 + n) by (unfold body, zlen; rewrite repeat_length; lia). exists body. split; [exact LB|].
  assert (MO : zlen body mod 4294967296 = n) by (rewrite LB, <- (Z.mod_unique (4294967296 + n) 4294967296 1 n); lia).
  assert (RH : repr (map_of ex_accept) ex_accept) by exact (repr_map_of ex_accept eq_refl).
  assert (SI : single ex_accept (bs "Accept-Encoding") (bs "br, deflate , gzip")) by (exists [], (bs "accept-encoding"), (Some (bs "br, deflate , gzip")), []; split; [reflexivity|]; split; [reflexivity|]; split; [reflexivity|]; intros p []).
  set (fuel := Z.to_nat (n + 10)). set (out := toy_zip true (zfirstn n body)).
  assert (LN : zlen (zfirstn n body) = n) by (apply zlen_zfirstn; lia).
  assert (LO : zlen out = n + 2) by (unfold out, toy_zip; rewrite zlen_cons, zlen_app; change (zlen [0]) with 1; lia).
  unfold compress, ex_response. cbn [z_msg m_length m_body m_status z_headers]. rewrite MO. replace (zlen body =? 0) with false by (symmetry; apply Z.eqb_neq; lia).
  rewrite (NegoProofs.repr_count_case _ _ _ RH). cbn [bind]. change (zlen (filter (fun p => str_caseeqb (fst p) (bs "Accept-Encoding")) ex_accept) =? 1) with true. cbv iota. rewrite (SMapCase.repr_get_case _ _ _ RH). cbn [bind].
  replace (sval_case ex_accept (bs "Accept-Encoding")) with (Some (bs "br, deflate , gzip")) by reflexivity. replace (wanted None (bs "br, deflate , gzip")) with (Some true) by reflexivity.
  rewrite <- (app_nil_r (block_of body)). rewrite read_bytes_eq by lia. cbn [bind]. unfold toy_init at 1. fold out.
  destruct (squeeze_eq (list Z) toy_init toy_finish toy_zip (fun s => s) toy_ok fuel out []) as (x & X & D); [unfold fuel; lia|unfold two64; cbn [zlen length]; change (zlen (@nil Z)) with 0; lia|].
  destruct D as [[-> (s & k & code & o & s' & H & F)]|[t ->]]. { exfalso. unfold toy_finish in H. injection H as <- _ _. apply F. destruct (zskipn k s); cbn; auto. }
  change (block_of []) with (@nil (option Z)) in X. change (zlen []) with 0 in X. cbn [app] in X.
  destruct (repr_put _ _ (bs "Content-Encoding") (Some (coding true)) (repr_map_of [] eq_refl) ltac:(discriminate)) as (m' & PU & RP). { split; [apply cstrb_true; reflexivity|reflexivity]. }
  exists (mk_zresponse (mk_msg (Some (block_of out)) (zlen out) 200) m'). split; [|split; [split; [reflexivity|exists []; now rewrite app_nil_r]|exact LN]].
  exists fuel. rewrite X. cbn [bind]. unfold set_block. replace (zlen out =? 0) with false by (symmetry; apply Z.eqb_neq; lia).
  rewrite CopyProofs.memcpy_fresh_buf by (unfold block_of; rewrite zlen_app, zlen_map; pose proof (zlen_nonneg _ t); lia). rewrite zfirstn_app_exact by (unfold block_of; now rewrite zlen_map). cbn [bind]. rewrite PU. cbn [bind snd]. reflexivity.
Qed.
(** a Content-Length set by the callbacks before keeps the old length *)
Theorem C80_length_refuted : exists r', compress (list Z) toy_init toy_finish 10 None (map_of ex_accept) (ex_response [(bs "Content-Length", Some (bs "700"))] ex_body) = Ret (1, r') /\ get_str (z_headers r') (bs "Content-Length") = Ret (Some (bs "700")) /\ m_length (z_msg r') = 702.
Proof. eexists. split; [vm_compute; reflexivity|]. split; vm_compute; reflexivity. Qed.

(** an error of zlib, here at the first block, is answered as an error and leaves the response alone *)
Theorem C80_zlib_error : forall S zinit zfinish fuel c h dh r body gz (s s' : S) code out, repr h dh -> holds_body (z_msg r) body -> zlen body < 4294967296 -> body <> [] -> chosen c dh gz ->
  zinit gz body = Some s -> zfinish s 256 = (code, out, s') -> zlen out <= 256 -> ~ In code [0; 1; -5] -> compress S zinit zfinish (Datatypes.S fuel) c h r = Ret (4, r).
Proof.
  intros S zinit zfinish fuel c h dh r body gz s s' code out RH (BL & t & BB) LB NB CH ZI ZF LO NC. unfold compress. rewrite BL.
  destruct (Z.eqb_spec (zlen body) 0) as [E0|E0]; [apply zlen_0 in E0; contradiction|].
  pose proof CH as (_ & (a & SI & _) & _). rewrite (NegoProofs.repr_count_case _ _ _ RH). cbn [bind]. pose proof SI as SI2. apply TokenProps.single_val in SI2 as [N V]. rewrite N, Z.eqb_refl.
  rewrite (SMapCase.repr_get_case _ _ _ RH). cbn [bind]. rewrite V. apply (chosen_iff c dh a gz SI) in CH. rewrite CH, BB. pose proof (zlen_nonneg _ body) as PB. rewrite Z.mod_small by lia.
  rewrite read_bytes_eq by lia. cbn [bind]. rewrite zfirstn_all, ZI. cbn [squeeze]. change (zfinish s BLOCK) with (zfinish s 256). rewrite ZF.
  assert (M : exists d, memcpy (realloc [] (add64 0 BLOCK)) 0 (block_of out) (zlen out) = Ret d).
  { unfold memcpy. replace (zlen (realloc [] (add64 0 BLOCK))) with 256 by reflexivity. unfold block_of. rewrite !zlen_map. pose proof (zlen_nonneg _ out).
    repeat match goal with |- context [(?x <=? ?y)] => replace (x <=? y) with true by (symmetry; apply Z.leb_le; lia) end. cbn [andb]. eexists. reflexivity. }
  destruct M as (dd & ->). cbn [bind].
  assert (F : fair code = false).
  { unfold fair. destruct (Z.eqb_spec code 0) as [->|]; [exfalso; apply NC; cbn; auto|]. destruct (Z.eqb_spec code 1) as [->|]; [exfalso; apply NC; cbn; auto|].
    destruct (Z.eqb_spec code (-5)) as [->|]; [exfalso; apply NC; cbn; auto|reflexivity]. }
  rewrite F. reflexivity.
Qed.
Print Assumptions C80_decision_partial.
Print Assumptions C80_same_content_partial.
Print Assumptions C80_compresses.
Print Assumptions C80_encoded_refuted.
Print Assumptions C80_large_refuted.
Print Assumptions C80_length_refuted.
Print Assumptions C80_zlib_error.
