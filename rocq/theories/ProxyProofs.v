(** Proofs for C119. *)
From Coq Require Import String ZArith Bool List Lia.
From Verif Require Import Base BaseFacts UMapModel UMapSpec UMapProofs UMapReach SMap SMapCase CopyModel CopySpec CopyProofs CopyProps CookieModel CookieSpec ClientModel ClientSpec SendModel SendSpec SendProofs SendProps YuarelSpec HttpText.
From Verif Require Import ProxyModel ProxySpec.
Import ListNotations.
Open Scope Z_scope.

Lemma repr_remove : forall m d k, repr m d ->
  exists m', u_map_remove_from_key m (Some k) = Ret (if shas d k then U_OK else U_ERROR_NOT_FOUND, m') /\ repr m' (filter (fun p => negb (str_eqb (fst p) k)) d).
Proof.
  intros m d k (es & L & (OK & ND) & W & F & T). destruct (remove_key_layout m es k L) as (m' & R & L').
  exists m'. split.
  - rewrite R. do 2 f_equal. clear - F. unfold shas. induction F as [|e p es d V F IH]; [reflexivity|]. cbn [existsb]. unfold key_is at 1. rewrite (proj1 V). destruct (str_eqb (fst p) k); [reflexivity|exact IH].
  - exists (filter (fun e => negb (key_is k e)) es). split; [exact L'|]. split; [split|split; [|split]].
    + now apply Forall_filter.
    + clear - ND. induction es as [|e es IH]; cbn; [constructor|]. inversion ND as [|x l N1 N2]; subst. destruct (negb (key_is k e)); [|auto]. cbn. constructor; [|auto].
      intros J. apply N1. apply in_map_iff in J as (e' & E & J). apply filter_In in J as [J _]. rewrite <- E. now apply in_map.
    + now apply Forall_filter.
    + clear - F. induction F as [|e p es d V F IH]; cbn; [constructor|]. unfold key_is at 1. rewrite (proj1 V). destruct (str_eqb (fst p) k); cbn; auto.
    + now apply Forall_filter.
Qed.

Lemma same_repr : forall a b d, same_text a b -> repr b d -> repr a d.
Proof.
  intros a b d (e & A & B) R. assert (e = d) as <-; [|exact A].
  destruct B as (es & L & _ & _ & F & _), R as (es' & L' & _ & _ & F' & _).
  assert (E : es = es') by (eapply layout_unique; eauto). subst es'. clear - F F'. revert d F'. induction F as [|e p es d V F IH]; intros d' F'; inversion F' as [|? q ? d2 V' F2]; subst; [reflexivity|].
  f_equal; [|now apply IH]. destruct V as [V1 V2], V' as [V1' V2']. destruct p, q. cbn [fst snd] in *. rewrite V2 in V2'. injection V2' as <-. congruence.
Qed.

(** ** The request that is passed on *)
Lemma nth_put_same : forall A (l : list A) i x d, (i < List.length l)%nat -> nth i (put_at i x l) d = x.
Proof.
  unfold put_at. intros A l i x d H. rewrite app_nth2; rewrite firstn_length_le by lia; [|lia]. now rewrite Nat.sub_diag.
Qed.
Lemma nth_put_other : forall A (l : list A) i j x d, (i < List.length l)%nat -> i <> j -> nth j (put_at i x l) d = nth j l d.
Proof.
  unfold put_at. induction l as [|y l IH]; intros i j x d H N; [cbn in H; lia|]. destruct i as [|i]; [destruct j; [congruence|reflexivity]|].
  destruct j as [|j]; [reflexivity|]. cbn [firstn skipn app nth]. apply IH; [cbn in H; lia|congruence].
Qed.
Lemma length_put : forall A (l : list A) i x, (i < List.length l)%nat -> List.length (put_at i x l) = List.length l.
Proof. unfold put_at. intros A l i x H. rewrite app_length, firstn_length_le by lia. cbn [List.length]. rewrite skipn_length. lia. Qed.

Definition same_body (a b : request) : Prop :=
  q_body_length a = q_body_length b /\ body_bytes (q_body a) (q_body_length a) = body_bytes (q_body b) (q_body_length b).
Lemma dup_ok : forall q x, has_dicts q x ->
  exists r, duplicate_request q = Ret (Some r) /\ q_strs r = q_strs q /\ q_ints r = q_ints q /\ has_dicts r x /\ same_body r q.
Proof.
  intros q x (U & H & C & F & B & L1 & L2).
  destruct (copy_request_ok init_request q) as (r & E & S & N & _ & TU & TH & TC & TF & BB).
  { repeat split; eauto. }
  exists r. unfold duplicate_request. rewrite E. cbn [bind fst snd]. change (U_OK =? U_OK) with true. split; [reflexivity|]. split; [exact S|]. split; [exact N|].
  assert (X : same_body r q /\ match q_body r with Some b => 0 <= q_body_length r <= zlen b | None => q_body_length r = 0 end).
  { unfold same_body. destruct (Z.eqb_spec (q_body_length q) 0) as [Z0|NZ].
    - destruct BB as [-> ->]. cbn [init_request q_body q_body_length]. rewrite Z0. repeat split.
    - destruct BB as [E1 E2]. rewrite E1 in *. split; [split; [reflexivity|exact E2]|]. unfold body_bytes in E2. replace (q_body_length q =? 0) with false in E2 by (symmetry; now apply Z.eqb_neq).
      destruct (q_body q) as [b|]; [|lia]. destruct (q_body r) as [b'|]; [|discriminate]. injection E2 as E2. apply (f_equal (@List.length _)) in E2. unfold zfirstn in E2. rewrite !firstn_length in E2. unfold zlen in *. lia. }
  split; [|exact (proj1 X)]. split; [eapply same_repr; eauto|]. split; [eapply same_repr; eauto|]. split; [eapply same_repr; eauto|]. split; [eapply same_repr; eauto|].
  split; [exact (proj2 X)|]. rewrite S, N. auto.
Qed.

Definition without_host (x : qdicts) : qdicts := mk_qdicts (qd_url x) (not_host (qd_header x)) (qd_cookie x) (qd_form x).
Lemma passed_ok : forall q x url, has_dicts q x -> q_text q 2 = Some url ->
  exists r, passed q = Ret r /\ q_strs r = put_at 2 (Some (DEST ++ url)) (q_strs q) /\ q_ints r = put_at 6 30 (q_ints q) /\ has_dicts r (without_host x) /\ same_body r q.
Proof.
  intros q x url H U. destruct (dup_ok q x H) as (r & E & S & N & (RU & RH & RC & RF & B & L1 & L2) & SB).
  destruct (repr_remove (q_header r) (qd_header x) (bs "Host") RH) as (m' & R & RH').
  unfold passed. rewrite E. cbn [bind]. rewrite R. cbn [bind]. rewrite U. eexists. split; [reflexivity|]. cbn [q_strs q_ints]. split; [now rewrite S|]. split; [now rewrite N|].
  split; [|exact SB]. repeat (split; [assumption|]). cbn [q_strs q_ints]. split; [refine (eq_trans (length_put _ _ _ _ _) L1); change (2 < List.length (q_strs r))%nat; rewrite L1|refine (eq_trans (length_put _ _ _ _ _) L2); rewrite L2]; apply PeanoNat.Nat.ltb_lt; reflexivity.
Qed.

Definition sent_dicts (x : qdicts) : dicts := mk_dicts (not_host (qd_header x)) (qd_url x) (qd_form x) (qd_cookie x).
Lemma forward_ok : forall c q x url, has_dicts q x -> q_text q 2 = Some url ->
  exists r, forward c q = send_request c (sendable r) true true true /\ holds_dicts (sendable r) (sent_dicts x) /\ same_body r q /\
    h_url (sendable r) = Some (DEST ++ url) /\ h_timeout (sendable r) = 30 /\ h_verb (sendable r) = q_text q 1 /\ h_body (sendable r) = q_body r /\ h_length (sendable r) = q_body_length r /\
    h_check_server (sendable r) = q_int q 1 /\ h_server_flag (sendable r) = q_int q 2 /\ h_follow (sendable r) = q_int q 5.
Proof.
  intros c q x url H U. destruct (passed_ok q x url H U) as (p & E & S & N & HP & SB).
  destruct (dup_ok p _ HP) as (r & E2 & S2 & N2 & HR & SB2). exists r. unfold forward. rewrite E. cbn [bind]. rewrite E2. cbn [bind]. split; [reflexivity|].
  destruct H as (_ & _ & _ & _ & _ & L1 & L2). destruct HR as (RU & RH & RC & RF & _).
  split; [repeat split; assumption|]. split; [unfold same_body in *; destruct SB as [A1 A2], SB2 as [B1 B2]; split; congruence|].
  unfold sendable, q_text, q_int. cbn [h_url h_timeout h_verb h_body h_length h_check_server h_server_flag h_follow]. rewrite S2, N2, S, N.
  assert (K1 : (2 < List.length (q_strs q))%nat) by (rewrite L1; apply PeanoNat.Nat.ltb_lt; reflexivity). assert (K2 : (6 < List.length (q_ints q))%nat) by (rewrite L2; apply PeanoNat.Nat.ltb_lt; reflexivity).
  rewrite !nth_put_same by (first [exact K1|exact K2]). rewrite !nth_put_other by (first [exact K1|exact K2|discriminate]). repeat split.
Qed.

(** ** The answer *)
Lemma put_text_ok : forall h s, exists h' p, put_text h s = (h', p) /\ ext h h' (addr p) /\ ptr_value h' p = s /\ (s <> None -> p <> None).
Proof.
  intros h [s|]; cbn [put_text].
  - eexists _, _. split; [reflexivity|]. split; [apply ext_one|]. split; [|discriminate]. cbn [ptr_value]. rewrite nth_error_app2, Nat.sub_diag by auto. reflexivity.
  - exists h, None. split; [reflexivity|]. split; [apply ext_nil|]. split; [reflexivity|congruence].
Qed.
Lemma put_cookie_ok : forall h c, ck_expires c <> None -> ck_domain c <> None -> ck_path c <> None ->
  exists h' d, put_cookie h c = (h', d) /\ ext h h' (cookie_addrs d) /\ view_cookie h' d = cookie_seen c /\ full_cookie d.
Proof.
  intros h c NE ND NP. unfold put_cookie.
  destruct (put_text_ok h (Some (ck_key c))) as (h1 & p1 & -> & E1 & V1 & N1). cbn [fst snd].
  destruct (put_text_ok h1 (Some (ck_value c))) as (h2 & p2 & -> & E2 & V2 & N2). cbn [fst snd].
  destruct (put_text_ok h2 (ck_expires c)) as (h3 & p3 & -> & E3 & V3 & N3). cbn [fst snd].
  destruct (put_text_ok h3 (ck_domain c)) as (h4 & p4 & -> & E4 & V4 & N4). cbn [fst snd].
  destruct (put_text_ok h4 (ck_path c)) as (h5 & p5 & -> & E5 & V5 & N5). cbn [fst snd].
  eexists _, _. split; [reflexivity|].
  pose proof (ext_app _ _ _ _ _ E4 E5) as E45. pose proof (ext_app _ _ _ _ _ E3 E45) as E35. pose proof (ext_app _ _ _ _ _ E2 E35) as E25. pose proof (ext_app _ _ _ _ _ E1 E25) as E15.
  split; [exact E15|]. split.
  - unfold view_cookie, cookie_seen. cbn [hc_key hc_value hc_expires hc_domain hc_path hc_ints].
    rewrite (value_keep h1 h5 _ p1 E25), (value_keep h2 h5 _ p2 E35), (value_keep h3 h5 _ p3 E45), (value_keep h4 h5 _ p4 E5) by (eapply ext_live; eauto). rewrite V1, V2, V3, V4, V5. reflexivity.
  - repeat split; cbn [hc_value hc_expires hc_domain hc_path]; auto. apply N2. discriminate.
Qed.
Definition attributed (c : cookie) : Prop := ck_expires c <> None /\ ck_domain c <> None /\ ck_path c <> None.
Lemma put_cookies_ok : forall rs h, Forall attributed rs ->
  exists h' ds, put_cookies h (map Some rs) = (h', ds) /\ ext h h' (flat_map cookie_addrs ds) /\ map (view_cookie h') ds = map cookie_seen rs /\ Forall full_cookie ds.
Proof.
  induction rs as [|c rs IH]; intros h F.
  - exists h, []. split; [reflexivity|]. split; [apply ext_nil|]. split; [reflexivity|constructor].
  - inversion F as [|? ? (A1 & A2 & A3) F']; subst. cbn [map put_cookies]. destruct (put_cookie_ok h c A1 A2 A3) as (h1 & d & -> & E1 & V1 & G1). cbn [fst snd].
    destruct (IH h1 F') as (h2 & ds & -> & E2 & V2 & G2). cbn [fst snd]. eexists _, _. split; [reflexivity|]. cbn [flat_map map]. split; [eapply ext_app; eauto|]. split; [|constructor; assumption].
    rewrite V2. f_equal. rewrite (cookie_value_keep h1 h2 _ d E2); [exact V1|eapply ext_live; eauto].
Qed.
Lemma put_jar_ok : forall rs h, Forall attributed rs ->
  exists h' j ds, put_jar h (map Some rs) = (h', j, ds) /\ ext h h' (addr j ++ flat_map cookie_addrs ds) /\ map (view_cookie h') ds = map cookie_seen rs /\ Forall full_cookie ds.
Proof.
  intros [|c rs] h F.
  - exists h, None, []. split; [reflexivity|]. split; [apply ext_nil|]. split; [reflexivity|constructor].
  - destruct (put_cookies_ok (c :: rs) (h ++ [Some []]) F) as (h' & ds & E & X & V & G). exists h', (Some (List.length h)), ds. unfold put_jar. cbn [map]. cbn [map] in E. unfold halloc. cbn [fst snd]. rewrite E. cbn [fst snd].
    split; [reflexivity|]. split; [|split; assumption]. eapply ext_app; [apply ext_one|exact X].
Qed.
Lemma put_response_ok : forall status s m d rs body, repr m d -> Forall attributed rs ->
  exists h r, put_response [] status (Some s) m (map Some rs) body = (h, r) /\ ext [] h (addrs r) /\ owned h r /\ complete r /\ repr (hr_header r) d /\
    hr_status r = status /\ view_body h (hr_body r) (hr_body_length r) = (match body with Some b => b | None => [] end) /\ hr_body_length r = zlen (match body with Some b => b | None => [] end) /\
    map (view_cookie h) (hr_cookies r) = map cookie_seen rs.
Proof.
  intros status s m d rs body R F. unfold put_response.
  destruct (put_text_ok [] (Some s)) as (h1 & p1 & -> & E1 & V1 & N1). cbn [fst snd].
  destruct (put_jar_ok rs h1 F) as (h2 & j & ds & -> & E2 & V2 & G2). cbn [fst snd].
  destruct (put_text_ok h2 body) as (h3 & p3 & -> & E3 & V3 & N3). cbn [fst snd].
  eexists _, _. split; [reflexivity|]. pose proof (ext_app _ _ _ _ _ E1 (ext_app _ _ _ _ _ E2 E3)) as X.
  match goal with |- ext _ _ (addrs ?r) /\ _ => assert (A : addrs r = addr p1 ++ (addr j ++ flat_map cookie_addrs ds) ++ addr p3) by (unfold addrs; cbn [hr_protocol hr_realm hr_jar hr_cookies hr_body hr_ws_protocol hr_ws_extensions addr]; rewrite !app_nil_r; cbn [app]; now rewrite <- !app_assoc) end.
  rewrite A. split; [exact X|]. split.
  - unfold owned. rewrite A. split; [eapply ext_nodup; eauto|]. split; [eapply ext_live; eauto|]. cbn [hr_body hr_body_length]. rewrite V3. destruct body as [b|]; [|reflexivity]. pose proof (zlen_nonneg _ b). lia.
  - split; [|split; [exact R|split; [reflexivity|split; [|split]]]].
    + split; cbn [hr_protocol hr_cookies]; [apply N1; discriminate|exact G2].
    + unfold view_body. cbn [hr_body hr_body_length]. rewrite V3. destruct body as [b|]; [|reflexivity]. unfold zfirstn. apply firstn_all2. unfold zlen. lia.
    + cbn [hr_body_length]. destruct body; reflexivity.
    + cbn [hr_cookies]. rewrite <- V2. eapply view_cookies_keep; [exact E3|]. pose proof (ext_live _ _ _ E2) as L. apply Forall_app in L. tauto.
Qed.

Lemma relay_ok : forall h r d, ext [] h (addrs r) -> owned h r -> complete r -> repr (hr_header r) d ->
  exists h' c, relay (h, r) = Ret (h', c) /\ only_own h' c /\ repr (hr_header c) d /\ view_resp h' c = view_resp h r.
Proof.
  intros h r d X O C R. destruct (duplicate_ok h r d O C R) as (h1 & c & D & E & V & RC). pose proof D as D0.
  unfold duplicate_response in D. unfold relay. cbn [fst snd]. destruct (copy_response h init_hresp r) as [[[h2 code] c2]|k] eqn:CR; [|discriminate]. cbn [bind fst snd] in *.
  destruct (code =? U_OK) eqn:OKc.
  2:{ destruct (clean_response h2 c2); discriminate. }
  injection D as -> ->. destruct O as (ND & L & B).
  destruct (clean_ok h1 r ND (live_keep _ _ _ _ E L)) as (h3 & CL & LEN & FR & KP). rewrite CL. cbn [bind].
  assert (DJ : forall a, In a (addrs c) -> ~ In a (addrs r)).
  { intros a I J. apply (ext_in _ _ _ a E) in I. rewrite Forall_forall in L. apply L in J. apply live_lt in J. lia. }
  assert (VS : view_resp h3 c = view_resp h1 c) by (apply view_same; intros a I; apply KP; now apply DJ).
  assert (OB : match ptr_value h3 (hr_body c) with Some x => 0 <= hr_body_length c <= zlen x | None => hr_body_length c = 0 end).
  { destruct (C30_duplicate_independent_partial h r d) as (g & c' & D' & _ & _ & _ & _ & _ & _ & _ & (g2 & CL2 & _ & (_ & _ & OB))); [repeat split; assumption|assumption|assumption|].
    rewrite D0 in D'. injection D' as <- <-. rewrite CL in CL2. injection CL2 as <-. exact OB. }
  exists h3, c. split; [reflexivity|]. split; [|split; [exact RC|congruence]]. split.
  - split; [eapply ext_nodup; eauto|]. split.
    + apply Forall_forall. intros a I. pose proof (ext_live _ _ _ E) as LV. rewrite Forall_forall in LV. destruct (LV a I) as (b & Hb). exists b. rewrite KP; [exact Hb|now apply DJ].
    + exact OB.
  - intros a (b & Hb). destruct (in_dec Nat.eq_dec a (addrs r)) as [J|J]; [rewrite (FR a J) in Hb; discriminate|]. rewrite (KP a J) in Hb.
    apply (ext_in _ _ _ a E). split; [|apply nth_error_Some; congruence]. destruct (Nat.lt_ge_cases a (List.length h)) as [LT|]; [|assumption].
    exfalso. apply J. apply (ext_in _ _ _ a X). cbn. lia.
Qed.

Lemma written_block : forall l, written (block_of l) = Ret l.
Proof. induction l as [|c l IH]; [reflexivity|]. cbn [block_of map written]. change (map Some l) with (block_of l). rewrite IH. reflexivity. Qed.
