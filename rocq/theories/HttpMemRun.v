(** Proofs about the memory of requests that are sent (C107): the loop, and the copy around it. *)
From Coq Require Import String ZArith Bool List Lia.
From Verif Require Import Base BaseFacts UMapModel UMapProofs OwnModel OwnSpec OwnProofs MapMemModel MapMemSpec MapMemProofs MapMemPut MapMemRun MapMemSteps
  RespMemModel RespMemSpec RespMemProofs RespMemSteps ReqMemModel ReqMemSpec ReqMemProofs ReqMemCalls ReqMemCopy ReqMemSteps RecvMemModel RecvMemSpec RecvMemProofs RecvMemSteps
  HttpMemModel HttpMemSpec HttpMemProofs HttpMemLists HttpMemSteps.
From Verif Require SendModel ClientModel.
Import ListNotations.
Open Scope Z_scope.

Definition says (c : call) (a : areq) (s : sent) : Prop :=
  (s_accept s = field (bs "Accept-Encoding") (pairs a M_HEADER) \/ (s_accept s = Some [] /\ field (bs "Accept-Encoding") (pairs a M_HEADER) = None)) /\
  s_auth s = both (txt (aq_texts a) T_USER) (txt (aq_texts a) T_PASSWORD) /\
  s_proxy s = txt (aq_texts a) T_PROXY /\
  s_ca s = txt (aq_texts a) T_CA /\
  s_verb s = match txt (aq_texts a) T_VERB with Some v => v | None => bs "GET" end /\
  (exists u, (u = option_map SendModel.no_space (txt (aq_texts a) T_URL) \/ (lacks (l_url c) /\ u = None)) /\
     grown (lacks (l_url c)) behind u (pieces (query_sep u) (pairs a M_URL)) (s_url s)) /\
  match pairs a M_POST with
  | [] => s_body s = nonempty (aq_body a)
  | l => exists t, grown (lacks (l_form c)) behind None (pieces [] l) t /\ s_body s = nonempty t
  end /\
  s_headers s = map header_line (headers_of a) /\
  grown (lacks (l_cookies c)) after_semicolon None (map cookie_line (pairs a M_COOKIE)) (s_cookies s).

Lemma all_headers_ok : forall N c m r a fr, qinv true N r a -> mowns m (insides r ++ fr) -> grows (l_headers c) -> every 3 (fst (l_headers c)) ->
  exists z m' l, x_all_headers c m r = Ret (z, (m', l)) /\
    ((z = U_OK /\ mowns m' (nb l ++ insides r ++ fr) /\ lines l = map header_line (pairs a M_HEADER)) \/
     (z = U_ERROR_LIBCURL /\ l = [] /\ lacks (l_headers c) /\ exists gone, mowns m' (gone ++ insides r ++ fr) /\ (length gone <= 2 * length (pairs a M_HEADER))%nat)).
Proof.
  intros N c m r a fr I O G EV. unfold x_all_headers.
  destruct (map_there _ _ m r a _ M_HEADER I O (fun x X => in_or_app _ _ x (or_introl X))) as (p & ik & iv & il & es & EX & ED & CF & FR & ND); [unfold M_HEADER; lia|].
  rewrite EX. unfold bind at 1. rewrite ED. unfold bind at 1. cbn [snd]. unfold pairs. destruct es as [|e es].
  - inversion FR as [E|]. cbn [mkf f_nb length]. exists U_OK, m, []. split; [reflexivity|]. left. split; [reflexivity|]. split; [exact O|reflexivity].
  - cbn [mkf f_nb length f_keys]. fold (mkf ik iv il (e :: es)).
    rewrite (x_deref_ok _ m ik _ _ O) by (apply in_or_app; left; apply CF; now left). unfold bind at 1. cbn [snd].
    assert (O1 : mowns (again m (l_headers c)) (nb [] ++ insides r ++ fr)) by (apply again_owns; assumption).
    destruct (headers_ok N ik iv il (e :: es) _ (insides r ++ fr) (e :: es) _ [] [] _ [] eq_refl eq_refl FR FR ND (fun x X => in_or_app _ _ x (or_introl (CF x X))) O1 EV) as (z & m' & l & E & _ & K).
    exists z, m', l. split; [exact E|]. destruct K as [(-> & O2 & LN)|(-> & -> & SH & gone & O2 & LG)]; [left|right].
    + split; [reflexivity|]. split; [exact O2|]. exact LN.
    + split; [reflexivity|]. split; [reflexivity|]. split; [exact SH|]. exists gone. split; [exact O2|].
      rewrite map_length, <- (f2_length _ _ _ _ _ FR). cbn [length] in LG |- *. lia.
Qed.
Lemma all_cookies_ok : forall N c m r a fr, qinv true N r a -> mowns m (insides r ++ fr) -> grows (l_cookies c) -> every 2 (fst (l_cookies c)) -> o_cookies c = true ->
  exists m' s, x_all_cookies c m r = Ret (U_OK, (m', s)) /\ mowns m' (insides r ++ fr) /\ grown (lacks (l_cookies c)) after_semicolon None (map cookie_line (pairs a M_COOKIE)) s.
Proof.
  intros N c m r a fr I O G EV OC. unfold x_all_cookies. rewrite OC.
  destruct (map_there _ _ m r a _ M_COOKIE I O (fun x X => in_or_app _ _ x (or_introl X))) as (p & ik & iv & il & es & EX & ED & CF & FR & ND); [unfold M_COOKIE; lia|].
  rewrite EX. unfold bind at 1. rewrite ED. unfold bind at 1. cbn [snd]. unfold pairs. destruct es as [|e es].
  - inversion FR as [E|]. cbn [mkf f_nb length]. exists m, None. split; [reflexivity|]. split; [exact O|]. apply gr_end.
  - cbn [mkf f_nb length f_keys]. fold (mkf ik iv il (e :: es)).
    rewrite (x_deref_ok _ m ik _ _ O) by (apply in_or_app; left; apply CF; now left). unfold bind at 1. cbn [snd].
    assert (O1 : mowns (again m (l_cookies c)) (ptr_blocks (None : ptr str) ++ insides r ++ fr)) by (apply again_owns; assumption).
    destruct (cookies_ok N ik iv il (e :: es) _ (insides r ++ fr) (e :: es) _ [] [] _ None None eq_refl eq_refl FR FR ND (fun x X => in_or_app _ _ x (or_introl (CF x X))) O1 EV) as (m1 & t & last & E & L1 & O2 & GR).
    unfold keys_left in E. rewrite E. unfold bind at 1. rewrite (string_ok m1 t _ O2) by (intros x X; apply in_or_app; now left). unfold bind at 1. unfold bind at 1.
    destruct (x_free_ptr _ _ _ _ O2) as (m2 & -> & O3 & L2). unfold bind at 1. exists m2, (ptext t). split; [reflexivity|]. split; [exact O3|exact GR].
Qed.
Lemma four_list : forall A (l : list A), length l = 4%nat -> exists a b c d, l = [a; b; c; d].
Proof. intros A [|a [|b [|c [|d [|]]]]] L; try discriminate. eauto. Qed.
Lemma form_no_zero : ~ In 0 SendModel.form_type.
Proof. intros H. apply (in_map (Z.eqb 0)) in H. vm_compute in H. repeat (destruct H as [H|H]; [discriminate|]). exact H. Qed.
Lemma typed_pairs : forall a t k, length (aq_maps a) = 4%nat -> pairs (typed (put_body a t)) k =
  if (k =? M_HEADER)%nat then put_pair (bs "Content-Type") SendModel.form_type (pairs a M_HEADER) else pairs a k.
Proof.
  intros a t k L. unfold pairs, typed. cbn [put_maps put_body aq_maps]. destruct (four_list _ _ L) as (x0 & x1 & x2 & x3 & ->).
  unfold M_HEADER. cbn [set_nth nth]. destruct k as [|[|k]]; cbn [nth Nat.eqb]; try reflexivity. apply put_view. exact form_no_zero.
Qed.

Lemma prepare_ok : forall N c m r a fr, qinv true N r a -> mowns m (insides r ++ fr) -> 60 <= N -> N + 1 < two64 -> call_ok c ->
  exists m' z gone a', x_prepare c m r = Ret (m', z) /\ qinv true N (z_req z) a' /\
    mowns m' (ptr_blocks (z_url z) ++ nb (z_list z) ++ insides (z_req z) ++ gone ++ fr) /\
    match z_sent z with
    | Some s => gone = [] /\ says c a s /\ o_first c = true /\ o_rest c = true /\ (o_body c = false -> s_body s = None)
    | None => (lacking c \/ refused c) /\ (gone = [] \/ (lacks (l_headers c) /\ (length gone <= 2 * length (headers_of a))%nat))
    end.
Proof.
  intros N c m r a fr I O N0 NT [GR GC HH HC HT].
  inversion GR as [|? ? G1 GR1]; subst. inversion GR1 as [|? ? G2 GR2]; subst. inversion GR2 as [|? ? G3 GR3]; subst. inversion GR3 as [|? ? G4 GR4]; subst.
  inversion GR4 as [|? ? G5 GR5]; subst. inversion GR5 as [|? ? G6 GR6]; subst. inversion GR6 as [|? ? G7 GR7]; subst. clear GR GR1 GR2 GR3 GR4 GR5 GR6 GR7.
  assert (CI : forall l, incl (insides r) (insides r ++ l)) by (intros l x X; apply in_or_app; now left).
  pose proof (four_maps _ _ _ _ I) as L4.
  unfold x_prepare.
  destruct (map_there _ _ m r a _ M_HEADER I O (CI fr)) as (hp & hk1 & hv1 & hl1 & hes & EX & ED & CF & FR & ND); [unfold M_HEADER; lia|].
  rewrite EX. unfold bind at 1. rewrite ED. unfold bind at 1. cbn [snd].
  destruct (case_there N m _ hk1 hv1 hl1 hes _ (bs "Accept-Encoding") O (fun x X => CI fr x (CF x X)) FR) as (av & accept & EA & EAT & AC). rewrite EA. unfold bind at 1. rewrite EAT. unfold bind at 1.
  clear EX ED CF FR ND EA EAT.
  destruct (text_there _ _ m r a _ T_USER I O (CI fr)) as (pu & E1 & E2); [unfold T_USER; lia|]. rewrite E1. unfold bind at 1. rewrite E2. unfold bind at 1. clear E1 E2.
  destruct (text_there _ _ m r a _ T_PASSWORD I O (CI fr)) as (pp & E1 & E2); [unfold T_PASSWORD; lia|]. rewrite E1. unfold bind at 1. rewrite E2. unfold bind at 1. clear E1 E2.
  destruct (text_there _ _ m r a _ T_PROXY I O (CI fr)) as (px & E1 & E2); [unfold T_PROXY; lia|]. rewrite E1. unfold bind at 1. rewrite E2. unfold bind at 1. clear E1 E2.
  destruct (o_first c) eqn:OF; cbn [negb].
  2:{ exists m, (mk_prep r None [] None), [], a. split; [reflexivity|]. cbn [z_req z_url z_list z_sent]. split; [exact I|]. split; [exact O|]. split; [right; now left|now left]. }
  destruct (text_there _ _ m r a _ T_URL I O (CI fr)) as (ph & E1 & E2); [unfold T_URL; lia|]. rewrite E1. unfold bind at 1. rewrite E2. unfold bind at 1. clear E1 E2.
  assert (O1 : mowns (again m (l_url c)) (insides r ++ fr)) by (apply again_owns; assumption).
  destruct (x_strdup_ok (again m (l_url c)) (option_map SendModel.no_space (txt (aq_texts a) T_URL)) _ O1) as (url0 & m1 & EU & L1 & O2 & T1). rewrite EU.
  rewrite (string_ok m1 url0 _ O2) by (intros x X; apply in_or_app; now left). unfold bind at 1.
  assert (CI2 : incl (insides r) (ptr_blocks url0 ++ insides r ++ fr)) by (intros x X; apply in_or_app; right; now apply CI).
  destruct (map_there _ _ m1 r a _ M_URL I O2 CI2) as (up & uk & uv & ul & ues & EX & ED & CF & FR & ND); [unfold M_URL; lia|].
  rewrite EX. unfold bind at 1. rewrite ED. unfold bind at 1. cbn [snd].
  assert (QS : (if match ptext url0 with Some u => ClientModel.has_char 63 u | None => false end then [38] else [63]) = query_sep (ptext url0)) by (unfold query_sep, ClientModel.has_char; destruct (ptext url0); reflexivity).
  match goal with |- context [x_all_pairs m1 _ ?q _] => replace q with (query_sep (ptext url0)) by (symmetry; exact QS) end.
  destruct (all_pairs_ok N uk uv ul ues _ _ m1 (query_sep (ptext url0)) url0 FR ND (fun x X => CI fr x (CF x X)) O2) as (z & m2 & url & EP & L2 & O3 & CASE). rewrite EP. unfold bind at 1. clear EX ED CF FR ND EP.
  destruct CASE as [(-> & GU)|(-> & SH)].
  2:{ change (negb (U_ERROR_LIBCURL =? U_OK)) with true. cbn iota. exists m2, (mk_prep r url [] None), [], a. split; [reflexivity|]. cbn [z_req z_url z_list z_sent]. split; [exact I|].
      split; [exact O3|]. split; [|now left]. left. do 2 right. left. apply L1. exact SH. }
  change (negb (U_OK =? U_OK)) with false. cbn iota.
  assert (US : exists u, (u = option_map SendModel.no_space (txt (aq_texts a) T_URL) \/ (lacks (l_url c) /\ u = None)) /\ grown (lacks (l_url c)) behind u (pieces (query_sep u) (pairs a M_URL)) (ptext url)).
  { exists (ptext url0). split.
    - destruct T1 as [T1|(-> & SH & _)]; [now left|right; auto].
    - eapply grown_mono; [|exact GU]. intros X. apply L1. exact X. }
  assert (O3' : mowns m2 (insides r ++ (ptr_blocks url ++ fr))) by mowns_by O3.
  destruct (form_ok N c m2 r a _ I O3' N0 NT G4 G5) as (z1 & m3 & r1 & a1 & EF & O4 & I1 & KF). rewrite EF. unfold bind at 1. fold (pairs a M_POST) in KF. unfold view in KF. change (map _ (nth M_POST (aq_maps a) [])) with (pairs a M_POST) in KF.
  assert (KK : (z1 = U_ERROR_LIBCURL /\ lacking c) \/ (z1 = U_OK /\ pairs a1 M_HEADER = headers_of a /\ pairs a1 M_COOKIE = pairs a M_COOKIE /\ aq_texts a1 = aq_texts a /\
    match pairs a M_POST with [] => nonempty (aq_body a1) = nonempty (aq_body a) | l => exists t, grown (lacks (l_form c)) behind None (pieces [] l) t /\ nonempty (aq_body a1) = nonempty t end)).
  { unfold headers_of. destruct (pairs a M_POST) as [|e0 l0].
    - destruct KF as (-> & ->). right. auto.
    - destruct KF as [(-> & t & GT & ->)|(-> & KL)].
      + right. split; [reflexivity|]. rewrite !typed_pairs by exact L4. split; [reflexivity|]. split; [reflexivity|]. split; [reflexivity|]. exists t. split; [exact GT|reflexivity].
      + left. split; [reflexivity|]. destruct KL; [do 3 right; now left|do 4 right; now left]. }
  destruct KK as [(-> & LK)|(-> & PH & PC & PT & PB)].
  { change (negb (U_ERROR_LIBCURL =? U_OK)) with true. cbn iota. exists m3, (mk_prep r1 url [] None), [], a1. split; [reflexivity|]. cbn [z_req z_url z_list z_sent]. split; [exact I1|].
    split; [cbn [nb flat_map app]; mowns_by O4|]. split; [now left|now left]. }
  change (negb (U_OK =? U_OK)) with false. cbn iota.
  rewrite (sent_body_ok N m3 r1 a1 _ I1 O4) by (intros x X; apply in_or_app; now left). unfold bind at 1.
  destruct (match nonempty (aq_body a1) with Some _ => negb (o_body c) | None => false end) eqn:OB.
  { exists m3, (mk_prep r1 url [] None), [], a1. split; [reflexivity|]. cbn [z_req z_url z_list z_sent]. split; [exact I1|].
    split; [cbn [nb flat_map app]; mowns_by O4|]. split; [|now left]. right. right. left. destruct (nonempty (aq_body a1)); [|discriminate]. destruct (o_body c); [discriminate|reflexivity]. }
  destruct (all_headers_ok N c m3 r1 a1 _ I1 O4 G6 HH) as (z2 & m4 & l & EH & KH). rewrite EH. unfold bind at 1.
  destruct KH as [(-> & O5 & LN)|(-> & -> & LH & gone & O5 & LG)].
  2:{ change (negb (U_ERROR_LIBCURL =? U_OK)) with true. cbn iota. exists m4, (mk_prep r1 url [] None), gone, a1. split; [reflexivity|]. cbn [z_req z_url z_list z_sent]. split; [exact I1|].
      split; [cbn [nb flat_map app]; mowns_by O5|]. split; [left; do 5 right; now left|]. right. split; [exact LH|]. rewrite <- PH. exact LG. }
  change (negb (U_OK =? U_OK)) with false. cbn iota.
  assert (O5' : mowns m4 (insides r1 ++ (nb l ++ ptr_blocks url ++ fr))) by mowns_by O5.
  destruct (all_cookies_ok N c m4 r1 a1 _ I1 O5' G7 HC HT) as (m5 & cs & EC & O6 & GC2). rewrite EC. unfold bind at 1. change (negb (U_OK =? U_OK)) with false. cbn iota.
  rewrite (string_ok m5 url _ O6) by (intros x X; apply in_or_app; right; apply in_or_app; right; apply in_or_app; now left). unfold bind at 1.
  assert (CI3 : incl (insides r1) (insides r1 ++ (nb l ++ ptr_blocks url ++ fr))) by (intros x X; apply in_or_app; now left).
  destruct (text_there _ _ m5 r1 a1 _ T_VERB I1 O6 CI3) as (pv & E1 & E2); [unfold T_VERB; lia|]. rewrite E1. unfold bind at 1. rewrite E2. unfold bind at 1. clear E1 E2.
  destruct (text_there _ _ m5 r1 a1 _ T_CA I1 O6 CI3) as (pa & E1 & E2); [unfold T_CA; lia|]. rewrite E1. unfold bind at 1. rewrite E2. unfold bind at 1. clear E1 E2.
  match goal with |- context [Ret (m5, ?zz)] => exists m5, zz, [], a1 end. split; [reflexivity|]. cbn [z_req z_url z_list z_sent]. split; [exact I1|]. split; [mowns_by O6|].
  destruct (o_rest c) eqn:OR; [|split; [right; right; now right|now left]].
  split; [reflexivity|]. split; [|split; [reflexivity|split; [reflexivity|]]].
  - unfold says. cbn [s_accept s_auth s_proxy s_ca s_verb s_url s_body s_headers s_cookies]. rewrite PT.
    split; [unfold pairs; rewrite (field_view (bs "Accept-Encoding")); exact AC|]. split; [reflexivity|]. split; [reflexivity|]. split; [reflexivity|]. split; [reflexivity|]. split; [exact US|].
    split; [exact PB|]. split; [rewrite <- PH; exact LN|]. rewrite <- PC. exact GC2.
  - cbn [s_body]. intros X. rewrite X in OB. destruct (nonempty (aq_body a1)); [discriminate OB|reflexivity].
Qed.

(** ** the copy *)
Lemma nth_map_copy : forall (l : list amap) k, nth k (map (fun h => a_copy_into h []) l) [] = a_copy_into (nth k l []) [].
Proof. intros l k. exact (map_nth (fun h => a_copy_into h []) l [] k). Qed.
Lemma copy_pairs : forall dups N r a ts k, qinv dups N r a -> pairs (put_texts (duplicate_req a) ts) k = pairs a k.
Proof.
  intros dups N r a txs k I. unfold pairs. cbn [put_texts duplicate_req aq_maps]. rewrite nth_map_copy. change (view (a_copy_into (nth k (aq_maps a) []) []) = view (nth k (aq_maps a) [])).
  rewrite copy_view; [reflexivity|]. cbn [app]. openq I. pose proof (four_nth _ _ _ _ _ _ _ _ _ k F) as K4. destruct (k <? 4)%nat.
  - destruct K4 as (p & f & ik & iv & il & es & h & E1 & E2 & -> & FR & ND). now rewrite (nth_error_nth _ _ _ E2).
  - apply nth_error_None in K4. rewrite nth_overflow by exact K4. constructor.
Qed.
Lemma says_carries : forall dups N r c a ts s, qinv dups N r a -> (ts = aq_texts a \/ (lacks (l_copy c) /\ some_missing (aq_texts a) ts)) ->
  says c (put_texts (duplicate_req a) ts) s -> carries c a s.
Proof.
  intros dups N r c a ts s I T H. exists ts. split; [exact T|]. unfold says, headers_of in H. rewrite !(copy_pairs _ _ _ _ _ _ I) in H. cbn [put_texts duplicate_req aq_texts aq_body] in H.
  unfold headers_of. destruct H as (H1 & H2 & H3 & H4 & H5 & H6 & H7 & H8 & H9). repeat (split; [assumption|]). split; [|split; assumption].
  destruct (pairs a M_POST); [|exact H7]. rewrite H7. destruct (aq_body a) as [[|]|]; reflexivity.
Qed.

Lemma send_ok : forall N c m s a ids, qinv true N s a -> 0 <= N -> N + 64 < two64 -> mowns m ids -> incl (insides s) ids -> call_ok c ->
  exists z m' o gone, x_send c m s = Ret (z, (m', o)) /\ mowns m' (gone ++ ids) /\
    match o with
    | Some sn => carries c a sn /\ length gone = lost_cert (aq_cert a) /\ aq_cert a <> Some None /\ z = (if o_perform c then U_OK else U_ERROR_LIBCURL) /\
        o_first c = true /\ o_rest c = true /\ (o_body c = false -> s_body sn = None)
    | None => no_call c a z (length gone)
    end.
Proof.
  intros N c m s a ids I N0 NT O C OK. pose proof OK as [GR GC HH HC HT].
  inversion GR as [|? ? G1 GR1]; subst. inversion GR1 as [|? ? G2 GR2]; subst. clear GR GR1 GR2.
  unfold x_send. assert (O0 : mowns (again m (l_copy c)) ids) by (apply again_owns; assumption).
  destruct (duplicate_ok N (again m (l_copy c)) s a ids I N0) as (m1 & o & gone & -> & L1 & K); auto; [lia|]. unfold bind at 1. cbn [fst snd]. destruct o as [[p r]|].
  2:{ destruct K as (O1 & LG & K). exists U_ERROR_MEMORY, m1, None, gone. split; [reflexivity|]. split; [exact O1|]. left. split; [reflexivity|]. split; [|exact LG].
      destruct K as [K|(K & _)]; [left; exact K|now right]. }
  destruct K as (O1 & NC & LG & txs & I1 & TX). assert (I2 : qinv true (N + 60) r (put_texts (duplicate_req a) txs)) by (eapply qinv_mono; [|exact I1]; lia).
  assert (O2 : mowns (again m1 (l_handle c)) (insides r ++ (p :: gone ++ ids))) by (apply again_owns; [mowns_by O1|assumption]).
  destruct (x_malloc_ok _ _ O2) as (h & m2 & EM & L2 & [(handle & -> & O3)|(-> & SH & O3)]); rewrite EM.
  2:{ destruct (qinv_clean true (N + 60) m2 p r _ (gone ++ ids) I2) as (m3 & -> & O4 & L4); [rewrite req_insides; mowns_by O3|]. unfold bind at 1.
      exists U_ERROR_LIBCURL, m3, None, gone. split; [reflexivity|]. split; [exact O4|]. right. split; [reflexivity|]. split; [exact NC|]. split; [left; right; now left|]. now left. }
  assert (O3' : mowns m2 (insides r ++ (handle :: p :: gone ++ ids))) by mowns_by O3.
  destruct (prepare_ok (N + 60) c m2 r _ _ I2 O3') as (m3 & z & gone2 & a' & -> & I3 & O4 & K); [lia|lia|exact OK|]. unfold bind at 1.
  destruct (x_free_ptr _ _ _ _ O4) as (m4 & -> & O5 & L5). unfold bind at 1.
  destruct (qinv_clean true (N + 60) m4 p (z_req z) a' (nb (z_list z) ++ handle :: gone2 ++ gone ++ ids) I3) as (m5 & -> & O6 & L6); [rewrite req_insides; mowns_by O5|]. unfold bind at 1.
  assert (O6' : mowns m5 (handle :: nb (z_list z) ++ gone2 ++ gone ++ ids)) by mowns_by O6.
  destruct (x_free_ok _ _ _ O6') as (m6 & -> & O7 & L7 & _). unfold bind at 1.
  destruct (slist_free_ok _ _ _ O7) as (m7 & -> & O8 & L8). unfold bind at 1.
  exists (match z_sent z with Some _ => if o_perform c then U_OK else U_ERROR_LIBCURL | None => U_ERROR_LIBCURL end), m7, (z_sent z), (gone2 ++ gone). split; [reflexivity|]. split; [rewrite <- app_assoc; exact O8|].
  destruct (z_sent z) as [sn|].
  - destruct K as (-> & SY & K). split; [eapply says_carries; [exact I| |exact SY]; destruct TX as [TX|(SH & TX)]; [now left|right; auto]|].
    split; [exact LG|]. split; [exact NC|]. split; [reflexivity|exact K].
  - destruct K as (LR & K). right. split; [reflexivity|]. split; [exact NC|]. split; [exact LR|]. rewrite app_length, LG.
    destruct K as [->|(LH & LE)]; [now left|].
    assert (HO : headers_of (put_texts (duplicate_req a) txs) = headers_of a) by (unfold headers_of; now rewrite !(copy_pairs _ _ _ _ _ _ I)). rewrite HO in LE.
    destruct gone2 as [|g0 g]; [now left|]. right. split; [exact LH|]. cbn [length] in LE |- *. lia.
Qed.
