(** Lemmas for C51-C54. *)
From Coq Require Import String ZArith Bool List Lia.
From Verif Require Import Base BaseFacts UMapModel UMapSpec UMapProofs UMapReach SMap StrModel NegoSpec StrProofs CopyProofs CookieModel CookieSpec CookieProofs ClientModel ClientSpec SMapCase.
Import ListNotations.
Open Scope Z_scope.

(** ** C51 *)
Definition holds_body (limit : Z) (k : list Z) (b : body) : Prop :=
  b_limit b = limit /\ b_size b = zlen k /\ (b_data b = block_of k ++ [Some 0] \/ (k = [] /\ b_data b = [])).

Lemma memcpy_app : forall (a t : buf) src len, 0 <= len -> len <= zlen t -> len <= zlen src -> memcpy (a ++ t) (zlen a) src len = Ret (a ++ zfirstn len src ++ zskipn len t).
Proof.
  intros a t src len L1 L2 L3. rewrite memcpy_ok; [|apply zlen_nonneg|exact L1|rewrite zlen_app; lia|exact L3].
  rewrite zfirstn_app_exact by reflexivity. do 3 f_equal. unfold zskipn, zlen. rewrite skipn_app. rewrite skipn_all2 by lia. cbn [app]. f_equal. lia.
Qed.

Lemma realloc_keeps : forall k data n, (data = block_of k ++ [Some 0] \/ (k = [] /\ data = [])) -> zlen k < n -> exists t, realloc data n = block_of k ++ t /\ zlen t = n - zlen k.
Proof.
  intros k data n [E|[-> ->]] L.
  - subst data. unfold realloc. exists ([Some 0] ++ repeat None (Z.to_nat n - length (block_of k ++ [Some 0]))). split.
    + rewrite app_assoc. f_equal. unfold zfirstn. apply firstn_all2. rewrite app_length. unfold block_of. rewrite map_length. cbn [length]. unfold zlen in L. lia.
    + rewrite zlen_app. unfold zlen in *. rewrite repeat_length, app_length. unfold block_of. rewrite map_length. cbn [length]. lia.
  - exists (realloc [] n). split; [reflexivity|]. unfold realloc, zfirstn, zlen. rewrite firstn_nil. cbn [app length]. rewrite repeat_length. cbn [length] in *. unfold zlen in L. cbn in L. lia.
Qed.

Lemma zfirstn_block_of : forall n l, zfirstn n (block_of l) = block_of (zfirstn n l).
Proof. intros. unfold zfirstn, block_of. apply firstn_map. Qed.
Lemma block_of_app : forall a b, block_of (a ++ b) = block_of a ++ block_of b.
Proof. intros. apply map_app. Qed.
Lemma zlen_block_of : forall l, zlen (block_of l) = zlen l.
Proof. intros. apply zlen_map. Qed.
Lemma mul64_small : forall a b, 0 <= a * b < two64 -> mul64 a b = a * b.
Proof. intros. unfold mul64. now apply Z.mod_small. Qed.

(** the number of bytes taken from a chunk of length n *)
Definition taken (limit have n : Z) : Z :=
  if limit =? 0 then n else if have <? limit then (if limit <? have + n + 1 then limit - have else n) else 0.

Lemma write_body_step : forall limit k b data c, holds_body limit k b -> delivers c data -> 0 <= limit -> zlen k + zlen data + 1 < two64 ->
  exists b', write_body b (fst (fst c)) (snd (fst c)) (snd c) = Ret (zlen data, b') /\ holds_body limit (k ++ zfirstn (taken limit (zlen k) (zlen data)) data) b'.
Proof.
  intros limit k b data [[blk size] nmemb] (HL & HS & HD) (D1 & D2 & D3 & D4) L0 W. cbn [fst snd] in *. subst blk.
  pose proof (zlen_nonneg _ k) as NK. pose proof (zlen_nonneg _ data) as ND.
  unfold write_body. rewrite mul64_small by (rewrite D4; lia). rewrite D4, HS, HL. rewrite (add64_small (zlen k) (zlen data)) by lia. rewrite (add64_small (zlen k + zlen data) 1) by lia.
  replace (if negb (limit =? 0) then if zlen k <? limit then if limit <? zlen k + zlen data + 1 then limit - zlen k else zlen data else 0 else zlen data) with (taken limit (zlen k) (zlen data))
    by (unfold taken; destruct (limit =? 0); reflexivity).
  assert (T : 0 <= taken limit (zlen k) (zlen data) <= zlen data).
  { unfold taken. destruct (limit =? 0); [lia|]. destruct (zlen k <? limit) eqn:E1; [|lia]. apply Z.ltb_lt in E1. destruct (limit <? zlen k + zlen data + 1) eqn:E2; [apply Z.ltb_lt in E2|]; lia. }
  set (t := taken limit (zlen k) (zlen data)) in *. clearbody t. destruct (Z.eqb_spec t 0) as [->|TN]; cbn [negb].
  - exists b. split; [reflexivity|]. rewrite zfirstn_0, app_nil_r. split; [exact HL|]. split; [exact HS|exact HD].
  - rewrite (add64_small (zlen k) t) by lia. rewrite (add64_small (zlen k + t) 1) by lia.
    destruct (realloc_keeps k (b_data b) (zlen k + t + 1) HD ltac:(lia)) as (r & -> & RL).
    assert (M : memcpy (block_of k ++ r) (zlen k) (block_of data) t = Ret (block_of k ++ zfirstn t (block_of data) ++ zskipn t r)).
    { rewrite <- (zlen_block_of k) at 1. apply memcpy_app; [lia|lia|rewrite zlen_block_of; lia]. }
    rewrite M. cbn [bind].
    assert (RS : exists x, zskipn t r = [x]). { assert (Q : zlen (zskipn t r) = 1) by (rewrite zlen_zskipn; lia). destruct (zskipn t r) as [|x [|y q]]; [discriminate Q|eauto|exfalso; unfold zlen in Q; cbn [length] in Q; lia]. }
    destruct RS as (x & ->). rewrite zfirstn_block_of, app_assoc, <- block_of_app.
    assert (ZL : zlen (zfirstn t data) = t) by (apply zlen_zfirstn; lia).
    assert (S0 : store (block_of (k ++ zfirstn t data) ++ [x]) (zlen k + t) 0 = Ret (block_of (k ++ zfirstn t data) ++ [Some 0])).
    { unfold store. replace (zlen k + t) with (zlen (block_of (k ++ zfirstn t data))) by (rewrite zlen_block_of, zlen_app; lia). rewrite memcpy_app; [|lia|reflexivity|reflexivity]. reflexivity. }
    rewrite S0. cbn [bind]. eexists. split; [reflexivity|]. split; [reflexivity|]. cbn [b_size b_data]. split; [rewrite zlen_app; lia|]. left. reflexivity.
Qed.

Lemma taken_kept : forall limit s d, 0 <= limit -> kept limit (s ++ d) = kept limit s ++ zfirstn (taken limit (zlen (kept limit s)) (zlen d)) d.
Proof.
  intros limit s d L. unfold kept, taken. pose proof (zlen_nonneg _ s). pose proof (zlen_nonneg _ d). destruct (Z.eqb_spec limit 0) as [->|N]; [now rewrite zfirstn_all|].
  destruct (Z.le_gt_cases limit (zlen s)) as [A|A].
  - rewrite zlen_zfirstn by lia. rewrite Z.ltb_irrefl, zfirstn_0, app_nil_r. unfold zfirstn, zlen in *. rewrite firstn_app. replace (Z.to_nat limit - length s)%nat with 0%nat by lia. cbn [firstn]. now rewrite app_nil_r.
  - assert (E : zfirstn limit s = s) by (unfold zfirstn, zlen in *; apply firstn_all2; lia). rewrite E. replace (zlen s <? limit) with true by (symmetry; apply Z.ltb_lt; lia).
    assert (F : zfirstn limit (s ++ d) = s ++ zfirstn (limit - zlen s) d).
    { unfold zfirstn, zlen in *. rewrite firstn_app. rewrite firstn_all2 by lia. do 2 f_equal. lia. }
    rewrite F. f_equal. destruct (limit <? zlen s + zlen d + 1) eqn:Q; [reflexivity|]. apply Z.ltb_ge in Q. rewrite zfirstn_all. unfold zfirstn, zlen in *. apply firstn_all2. lia.
Qed.

Lemma kept_le : forall limit s, 0 <= limit -> zlen (kept limit s) <= zlen s.
Proof. intros. unfold kept. destruct (limit =? 0); [lia|]. unfold zfirstn, zlen. rewrite firstn_length. lia. Qed.

Lemma write_bodies_all : forall limit chunks calls s b, 0 <= limit -> Forall2 delivers calls chunks -> holds_body limit (kept limit s) b -> zlen s + zlen (concat chunks) + 1 < two64 ->
  exists b', write_bodies b calls = Ret (map zlen chunks, b') /\ holds_body limit (kept limit (s ++ concat chunks)) b'.
Proof.
  intros limit chunks. induction chunks as [|d chunks IH]; intros calls s b L0 F H W.
  - inversion F; subst. cbn [concat]. rewrite app_nil_r. exists b. split; [reflexivity|exact H].
  - inversion F as [|c ? r ? D F']; subst. cbn [concat] in *. rewrite zlen_app in W. pose proof (zlen_nonneg _ (concat chunks)). pose proof (kept_le limit s L0).
    destruct (write_body_step limit (kept limit s) b d c H D L0 ltac:(lia)) as (b1 & E1 & HB1). rewrite <- taken_kept in HB1 by exact L0.
    destruct (IH r (s ++ d) b1 L0 F' HB1 ltac:(rewrite zlen_app; lia)) as (b2 & E2 & HB2). destruct c as [[blk size] nm]. cbn [fst snd] in E1. cbn [write_bodies]. rewrite E1. cbn [bind snd fst]. rewrite E2. cbn [bind snd fst map].
    exists b2. rewrite <- app_assoc in HB2. split; [reflexivity|exact HB2].
Qed.

Lemma skipn_plus : forall {A} a b (l : list A), skipn a (skipn b l) = skipn (b + a) l.
Proof. intros A a b. induction b as [|b IH]; intros l; [reflexivity|]. destruct l; cbn [skipn Nat.add]; [destruct a; reflexivity|apply IH]. Qed.

(** ** C54 *)
Definition takes (n left : Z) : Z := if n <? left then n else left.
(** a request of libcurl: the block has at least size * nmemb bytes *)
Definition asks (c : buf * Z * Z) (n : Z) : Prop := 0 <= snd (fst c) /\ 0 <= snd c /\ snd (fst c) * snd c = n /\ n <= zlen (fst (fst c)) /\ n < two64.

Lemma payload_step : forall text off c n, 0 <= off <= zlen text -> zlen text < two64 -> asks c n ->
  let len := takes n (zlen text - off) in
  exists blk, payload_source (mk_payload off (zlen text) (cblock text)) (fst (fst c)) (snd (fst c)) (snd c) = Ret (len, blk, mk_payload (off + len) (zlen text) (cblock text)) /\
    zfirstn len blk = block_of (zfirstn len (zskipn off text)).
Proof.
  intros text off [[blk size] nm] n O T (A1 & A2 & A3 & A4 & A5). cbn [fst snd] in *. unfold payload_source. cbn [p_len p_offset p_data].
  assert (N0 : 0 <= n) by (rewrite <- A3; apply Z.mul_nonneg_nonneg; assumption).
  rewrite mul64_small by lia. rewrite A3. rewrite (Z.mod_small (zlen text - off) two64) by lia. fold (takes n (zlen text - off)). set (len := takes n (zlen text - off)). cbv zeta.
  assert (L : 0 <= len <= n /\ len <= zlen text - off) by (unfold len, takes; destruct (n <? zlen text - off) eqn:E; [apply Z.ltb_lt in E|apply Z.ltb_ge in E]; lia).
  assert (SL : zlen (zskipn off (cblock text)) = zlen text + 1 - off) by (rewrite zlen_zskipn; rewrite zlen_cblock; lia).
  rewrite memcpy_ok by lia. cbn [bind]. rewrite add64_small by lia. eexists. split; [reflexivity|]. rewrite zfirstn_0. cbn [app].
  rewrite zfirstn_app_exact by (symmetry; apply zlen_zfirstn; lia).
  unfold cblock, zskipn, zfirstn, block_of. rewrite skipn_map, firstn_map, skipn_app. f_equal. rewrite firstn_app, skipn_length. unfold zlen in *. replace (Z.to_nat len - (length text - Z.to_nat off))%nat with 0%nat by lia.
  cbn [firstn]. now rewrite app_nil_r.
Qed.

Fixpoint zsum (l : list Z) : Z := match l with [] => 0 | x :: r => x + zsum r end.
Lemma payload_all : forall text ns calls off, 0 <= off <= zlen text -> zlen text < two64 -> Forall2 asks calls ns -> Forall (fun n => 0 <= n) ns ->
  exists blocks, payload_run (mk_payload off (zlen text) (cblock text)) calls = Ret (map block_of blocks, mk_payload (Z.min (zlen text) (off + zsum ns)) (zlen text) (cblock text)) /\
    concat blocks = zfirstn (zsum ns) (zskipn off text) /\ Forall2 (fun b n => zlen b <= n) blocks ns /\
    (off = zlen text -> Forall (fun b => b = []) blocks).
Proof.
  intros text ns. induction ns as [|n ns IH]; intros calls off O T F P.
  - inversion F; subst. exists []. cbn [payload_run map zsum concat]. rewrite Z.add_0_r, Z.min_r by lia. split; [reflexivity|]. split; [now rewrite zfirstn_0|]. split; constructor.
  - inversion F as [|c ? r ? A F']; subst. pose proof (payload_step text off c n O T A) as (blk & E & B). set (len := takes n (zlen text - off)) in *.
    assert (P1 : 0 <= n) by (apply Forall_inv in P; exact P). assert (P2 := Forall_inv_tail P).
    assert (L : 0 <= len <= n /\ len <= zlen text - off) by (unfold len, takes; destruct (n <? zlen text - off) eqn:Q; [apply Z.ltb_lt in Q|apply Z.ltb_ge in Q]; lia).
    destruct (IH r (off + len) ltac:(lia) T F' P2) as (bl & E2 & C2 & S2 & D2).
    assert (ZS : 0 <= zsum ns) by (clear - P2; induction P2; cbn [zsum]; lia).
    exists (zfirstn len (zskipn off text) :: bl). destruct c as [[b0 size] nm]. cbn [fst snd] in E. cbn [payload_run]. rewrite E. cbn [bind snd fst]. rewrite E2. cbn [bind snd fst map concat zsum]. rewrite B.
    assert (LL : zlen (zfirstn len (zskipn off text)) = len) by (apply zlen_zfirstn; rewrite zlen_zskipn; lia).
    split; [|split; [|split]].
    + f_equal. f_equal. f_equal. unfold len, takes in *. destruct (n <? zlen text - off) eqn:Q; [lia|]. apply Z.ltb_ge in Q. lia.
    + rewrite C2. unfold zfirstn, zskipn in *. unfold len, takes in *. destruct (n <? zlen text - off) eqn:Q.
      * rewrite (Z2Nat.inj_add n (zsum ns)) by lia. replace (skipn (Z.to_nat (off + n)) text) with (skipn (Z.to_nat n) (skipn (Z.to_nat off) text)) by (rewrite skipn_plus; f_equal; lia).
        generalize (skipn (Z.to_nat off) text). intros l. generalize (Z.to_nat n) (Z.to_nat (zsum ns)). clear. intros a b. revert l. induction a as [|a IH]; intros l; [reflexivity|]. destruct l as [|x l]; cbn [firstn skipn app Nat.add]; [now rewrite firstn_nil|]. f_equal. apply IH.
      * apply Z.ltb_ge in Q. replace (off + (zlen text - off)) with (zlen text) by lia. unfold zlen. rewrite Nat2Z.id, skipn_all, firstn_nil, app_nil_r.
        rewrite !firstn_all2; [reflexivity| |]; rewrite skipn_length; unfold zlen in *; lia.
    + constructor; [lia|exact S2].
    + intros OE. assert (len = 0) by lia. constructor; [|apply D2; lia]. replace len with 0 by lia. apply zfirstn_0.
Qed.

(** ** C52 *)
Lemma bare_trim : forall a t b, bare t -> spaces a -> spaces b -> trim (a ++ t ++ b) = t.
Proof.
  intros a t b [B1 B2] A B. symmetry. apply trimmed_trim. exists a, b. split; [reflexivity|].
  assert (S : forall l, spaces l -> Forall space l) by (intros l H; eapply Forall_impl; [|exact H]; intros c; apply isspace_spec).
  split; [auto|]. split; [auto|]. split; intros; apply isspace_false; eauto.
Qed.
Lemma bare_trim0 : forall t, bare t -> trim t = t.
Proof. intros t B. pose proof (bare_trim [] t [] B ltac:(constructor) ltac:(constructor)) as H. cbn [app] in H. now rewrite app_nil_r in H. Qed.

Lemma token_app : forall d n c r, Forall (fun x => d x = false) n -> d c = true -> token d (n ++ c :: r) = (n, r).
Proof. induction n as [|x n IH]; intros c r F C; cbn [app token]; [now rewrite C|]. rewrite (Forall_inv F), IH; [reflexivity|exact (Forall_inv_tail F)|exact C]. Qed.
Lemma token_all : forall d n, Forall (fun x => d x = false) n -> token d n = (n, []).
Proof. induction n as [|x n IH]; intros F; cbn [token]; [reflexivity|]. rewrite (Forall_inv F), IH; [reflexivity|exact (Forall_inv_tail F)]. Qed.
Lemma strtok_app : forall d n c r, n <> [] -> Forall (fun x => d x = false) n -> d c = true -> strtok d (n ++ c :: r) = (Some n, r).
Proof.
  intros d n c r N F C. unfold strtok. destruct n as [|x n]; [congruence|]. cbn [app skip_seps]. rewrite (Forall_inv F). change (x :: n ++ c :: r) with ((x :: n) ++ c :: r). now rewrite token_app.
Qed.
Lemma strtok_all : forall d n, n <> [] -> Forall (fun x => d x = false) n -> strtok d n = (Some n, []).
Proof. intros d n N F. unfold strtok. destruct n as [|x n]; [congruence|]. cbn [skip_seps]. rewrite (Forall_inv F). change (x :: n) with ((x :: n)). now rewrite token_all. Qed.

Lemma has_char_true : forall c s, has_char c s = true <-> In c s.
Proof. intros c s. unfold has_char. rewrite existsb_exists. split; [intros (x & I & E); apply Z.eqb_eq in E; now subst|intros I; exists c; split; [exact I|apply Z.eqb_refl]]. Qed.

Lemma sput_absent : forall d k v, shas d k = false -> sput k v d = d ++ [(k, v)].
Proof. induction d as [|p d IH]; intros k v H; cbn [sput app]; [reflexivity|]. unfold shas in H. cbn [existsb] in H. apply orb_false_iff in H as [H1 H2]. rewrite H1. f_equal. now apply IH. Qed.
Lemma shas_case_no : forall d k, shas_case d k = false -> shas d k = false.
Proof.
  intros d k H. unfold shas, shas_case in *. induction d as [|p d IH]; [reflexivity|]. cbn [existsb] in *. apply orb_false_iff in H as [H1 H2]. rewrite IH by exact H2. rewrite orb_false_r.
  destruct (str_eqb (fst p) k) eqn:E; [|reflexivity]. apply str_eqb_eq in E. unfold is_case in H1. rewrite E, str_caseeqb_refl in H1. discriminate.
Qed.
Lemma shas_case_removed : forall d k, shas_case (sremove_case k d) k = false.
Proof.
  intros d k. unfold shas_case, sremove_case. induction d as [|p d IH]; [reflexivity|]. cbn [filter]. destruct (is_case k p) eqn:E; cbn [negb]; [exact IH|]. cbn [existsb]. now rewrite E.
Qed.
Lemma sremove_none : forall d k, shas_case d k = false -> sremove_case k d = d.
Proof.
  intros d k H. apply filter_all. intros p I. destruct (is_case k p) eqn:E; [|reflexivity]. exfalso. unfold shas_case in H. assert (existsb (is_case k) d = true) by (apply existsb_exists; eauto). congruence.
Qed.
Lemma shas_sval_case : forall d k, shas_case d k = match sval_case d k with Some _ => true | None => false end.
Proof. intros. unfold shas_case, sval_case. rewrite existsb_find. destruct (find (is_case k) d); reflexivity. Qed.
Lemma find_none_iff_local : forall {A} (p : A -> bool) l, (forall x, In x l -> p x = false) -> find p l = None.
Proof. induction l as [|x l IH]; intros H; cbn [find]; [reflexivity|]. rewrite (H x) by (now left). apply IH. intros; apply H; now right. Qed.
Lemma sval_case_new : forall d k w x, sval_case (sremove_case k d ++ [(k, Some w)]) x = if str_eqb (lowers k) (lowers x) then Some w else sval_case d x.
Proof.
  intros d k w x. unfold sval_case, sremove_case. rewrite find_app. cbn [find]. unfold is_case at 3. cbn [fst]. unfold str_caseeqb at 1.
  destruct (str_eqb (lowers k) (lowers x)) eqn:E.
  - replace (find (is_case x) (filter (fun p => negb (is_case k p)) d)) with (@None (str * option str)); [reflexivity|]. symmetry. apply find_none_iff_local. intros p I. apply filter_In in I as [_ I]. apply str_eqb_eq in E.
    unfold is_case, str_caseeqb in *. rewrite <- E. destruct (str_eqb (lowers (fst p)) (lowers k)); [discriminate|reflexivity].
  - replace (find (is_case x) (filter (fun p => negb (is_case k p)) d)) with (find (is_case x) d); [destruct (find (is_case x) d); reflexivity|].
    induction d as [|p d IH]; [reflexivity|]. cbn [find filter]. destruct (is_case x p) eqn:X.
    + assert (is_case k p = false) as ->. { unfold is_case, str_caseeqb in *. apply str_eqb_eq in X. rewrite X. rewrite str_eqb_sym. exact E. } cbn [negb find]. now rewrite X.
    + destruct (is_case k p); cbn [negb find]; [exact IH|]. rewrite X. exact IH.
Qed.

Definition lookup (fs : list (str * str)) (name : str) : option str := match values_of name fs with [] => None | vs => Some (joined vs) end.

Lemma joined_snoc : forall vs v, vs <> [] -> joined (vs ++ [v]) = joined vs ++ bs ", " ++ v.
Proof.
  induction vs as [|x vs IH]; intros v N; [congruence|]. destruct vs as [|y vs]; [reflexivity|]. change ((x :: y :: vs) ++ [v]) with (x :: (y :: vs) ++ [v]).
  assert (E : joined (x :: (y :: vs) ++ [v]) = x ++ bs ", " ++ joined ((y :: vs) ++ [v])) by reflexivity. rewrite E, IH by discriminate.
  assert (E2 : joined (x :: y :: vs) = x ++ bs ", " ++ joined (y :: vs)) by reflexivity. rewrite E2, <- !app_assoc. reflexivity.
Qed.
Lemma lookup_snoc : forall fs n v x, lookup (fs ++ [(n, v)]) x =
  if str_eqb (lowers n) (lowers x) then Some (match lookup fs n with None => v | Some o => o ++ bs ", " ++ v end) else lookup fs x.
Proof.
  intros fs n v x. unfold lookup, values_of. rewrite filter_app, map_app. cbn [filter fst]. destruct (str_eqb (lowers n) (lowers x)) eqn:E.
  - apply str_eqb_eq in E. rewrite E. cbn [map snd]. set (vs := map snd (filter (fun p => str_eqb (lowers (fst p)) (lowers x)) fs)). destruct vs as [|a vs0] eqn:Q; [reflexivity|].
    rewrite <- joined_snoc by discriminate. reflexivity.
  - cbn [map]. now rewrite app_nil_r.
Qed.

Lemma cstr_app : forall a b, cstr a -> cstr b -> cstr (a ++ b).
Proof. intros. apply Forall_app. now split. Qed.
Definition weight (fs : list (str * str)) : Z := fold_right (fun p n => @zlen Z (@snd str str p) + 2 + n) 0 fs.
Lemma weight_app : forall a b, weight (a ++ b) = weight a + weight b.
Proof. induction a as [|p a IH]; intros b; cbn [app weight fold_right]; [reflexivity|]. fold (weight (a ++ b)) (weight a). rewrite IH. lia. Qed.
Lemma joined_size : forall vs, zlen (joined vs) <= fold_right (fun v n => zlen v + 2 + n) 0 vs.
Proof.
  induction vs as [|v vs IH]; [cbn; lia|]. destruct vs as [|y vs]; [cbn; lia|]. assert (E : joined (v :: y :: vs) = v ++ bs ", " ++ joined (y :: vs)) by reflexivity. rewrite E, !zlen_app.
  cbn [fold_right] in *. change (zlen (bs ", ")) with 2. lia.
Qed.
Lemma lookup_size : forall fs x w, lookup fs x = Some w -> zlen w <= weight fs.
Proof.
  intros fs x w H. assert (E : w = joined (values_of x fs)) by (unfold lookup in H; destruct (values_of x fs); [discriminate|congruence]). subst w.
  eapply Z.le_trans; [apply joined_size|]. clear H. unfold values_of. induction fs as [|p fs IH]; [cbn; lia|]. cbn [filter weight fold_right]. fold (weight fs). assert (0 <= @zlen Z (@snd str str p)) by apply zlen_nonneg.
  destruct (str_eqb (lowers (fst p)) (lowers x)); cbn [map fold_right]; [apply Z.add_le_mono_l; exact IH|eapply Z.le_trans; [exact IH|lia]].
Qed.
Lemma lookup_cstr : forall fs x w, Forall (fun p => cstr (snd p)) fs -> lookup fs x = Some w -> cstr w.
Proof.
  intros fs x w F H. assert (E : w = joined (values_of x fs)) by (unfold lookup in H; destruct (values_of x fs); [discriminate|congruence]). subst w. clear H.
  assert (G : Forall cstr (values_of x fs)). { unfold values_of. apply Forall_forall. intros v I. apply in_map_iff in I as (p & <- & I). apply filter_In in I as [I _]. rewrite Forall_forall in F. now apply F. }
  induction G as [|v vs V G IH]; [constructor|]. destruct vs as [|y vs]; [exact V|]. assert (E : joined (v :: y :: vs) = v ++ bs ", " ++ joined (y :: vs)) by reflexivity. rewrite E.
  apply cstr_app; [exact V|]. apply cstr_app; [|exact IH]. apply cstrb_true. reflexivity.
Qed.

(** the map holds the fields [fs] *)
Definition holds_fields (fs : list (str * str)) (m : umap) : Prop :=
  exists d, repr m d /\ (forall x, sval_case d x = lookup fs x) /\ NoDup (map (fun p => lowers (fst p)) d).

Lemma nodup_new : forall d k (w : option str), NoDup (map (fun p : str * option str => lowers (fst p)) d) -> NoDup (map (fun p => lowers (fst p)) (sremove_case k d ++ [(k, w)])).
Proof.
  intros d k w N. rewrite map_app. cbn [map fst].
  assert (A : NoDup (map (fun p => lowers (fst p)) (sremove_case k d))) by (apply (NoDup_map_filter _ _ (fun p : str * option str => lowers (fst p)) (fun p => negb (is_case k p))); exact N).
  assert (B : ~ In (lowers k) (map (fun p => lowers (fst p)) (sremove_case k d))).
  { intros I. apply in_map_iff in I as (p & E & I). apply filter_In in I as [_ I]. unfold is_case, str_caseeqb in I. rewrite E, str_eqb_refl in I. discriminate. }
  revert A B. generalize (map (fun p => lowers (fst p)) (sremove_case k d)) (lowers k). intros l x A B. induction A as [|y l Y A IH]; cbn [app]; [constructor; [intros []|constructor]|].
  constructor; [|apply IH; intros I; apply B; now right]. intros I. apply in_app_iff in I as [I|[I|[]]]; [auto|]. apply B. left. now symmetry.
Qed.

Lemma write_field : forall fs h n v text size nitems, holds_fields fs (h_map h) -> Forall (fun p => cstr (snd p)) fs -> written_as (Field n v) text ->
  (h_max h = 0 \/ h_counter h < h_max h) -> weight fs + zlen v + 4 < two64 -> 0 <= h_counter h -> h_counter h + 1 < two64 ->
  exists m, write_header h text size nitems = Ret (mul64 nitems size, mk_headers m (h_protocol h) (h_max h) (h_counter h + 1)) /\ holds_fields (fs ++ [(n, v)]) m.
Proof.
  intros fs h n v text size nitems (d & R & G & N) FC WA MX WT C0 C1. remember (Field n v) as l eqn:EL.
  destruct WA as [n' v' w eol N0 N1 N2 V1 SW SE EN NC VC| |]; try discriminate EL. injection EL as -> ->.
  unfold write_header. replace (has_char 58 (n ++ [58] ++ w ++ v ++ eol)) with true by (symmetry; apply has_char_true; apply in_app_iff; right; now left).
  replace ((h_max h =? 0) || (h_counter h <? h_max h)) with true by (symmetry; apply orb_true_iff; destruct MX; [left; now apply Z.eqb_eq|right; now apply Z.ltb_lt]).
  assert (NS : Forall (fun x => colon x = false) n). { apply Forall_forall. intros x I. unfold colon. apply Z.eqb_neq. intros ->. auto. }
  change (n ++ [58] ++ w ++ v ++ eol) with (n ++ 58 :: (w ++ v ++ eol)). rewrite (strtok_app colon n 58 _ N0 NS eq_refl).
  assert (RN : w ++ v ++ eol <> []). { intros E. apply EN. apply app_eq_nil in E as [_ E]. now apply app_eq_nil in E as [_ E]. }
  rewrite (strtok_all no_sep _ RN) by (apply Forall_forall; reflexivity). cbn [fst otrim].
  rewrite (bare_trim0 n N1), (bare_trim w v eol V1 SW SE). rewrite (repr_has_case _ d n R). cbn [bind].
  rewrite (add64_small (h_counter h) 1) by lia.
  assert (OK : ovalue_ok (Some (match lookup fs n with None => v | Some o => o ++ bs ", " ++ v end))).
  { destruct (lookup fs n) as [o|] eqn:LK; split.
    - apply cstr_app; [eapply lookup_cstr; eauto|]. apply cstr_app; [apply cstrb_true; reflexivity|exact VC].
    - pose proof (lookup_size fs n o LK). rewrite !zlen_app. change (zlen (bs ", ")) with 2. lia.
    - exact VC.
    - assert (0 <= weight fs); [|lia]. clear. induction fs as [|p fs IH]; cbn [weight fold_right]; [lia|]. fold (weight fs). assert (0 <= @zlen Z (@snd str str p)) by apply zlen_nonneg. lia. }
  rewrite shas_sval_case, G. destruct (lookup fs n) as [o|] eqn:LK; cbn [negb].
  - rewrite (repr_get_case _ d n R). rewrite G, LK. cbn [bind]. destruct (repr_remove_case _ d n R) as (m1 & E1 & R1).
    rewrite E1. cbn [bind fst snd]. rewrite shas_sval_case, G, LK. change (U_OK =? U_OK) with true. cbn [negb].
    destruct (repr_put m1 _ n (Some (o ++ bs ", " ++ v)) R1 N0 OK) as (m2 & E2 & R2). rewrite E2. cbn [bind snd]. exists m2. split; [reflexivity|].
    rewrite sput_absent in R2 by (apply shas_case_no, shas_case_removed). eexists. split; [exact R2|]. split; [|now apply nodup_new].
    intros x. rewrite sval_case_new, lookup_snoc, LK, G. reflexivity.
  - assert (NO : shas_case d n = false) by (rewrite shas_sval_case, G, LK; reflexivity).
    destruct (repr_put _ d n (Some v) R N0 OK) as (m2 & E2 & R2). rewrite E2. cbn [bind snd]. exists m2. split; [reflexivity|].
    rewrite sput_absent in R2 by (now apply shas_case_no). rewrite <- (sremove_none d n NO) in R2. eexists. split; [exact R2|]. split; [|now apply nodup_new].
    intros x. rewrite sval_case_new, lookup_snoc, LK, G. reflexivity.
Qed.

Lemma at_most_snoc : forall {A} max (l : list A) x, 0 <= max -> at_most max (l ++ [x]) = at_most max l ++ (if (max =? 0) || (zlen (at_most max l) <? max) then [x] else []).
Proof.
  intros A max l x M. unfold at_most. destruct (Z.eqb_spec max 0) as [->|N]; [reflexivity|]. cbn [orb]. unfold zfirstn. rewrite firstn_app. f_equal. unfold zlen. rewrite firstn_length.
  destruct (Z.ltb_spec (Z.of_nat (Nat.min (Z.to_nat max) (length l))) max) as [L|L].
  - assert (length l < Z.to_nat max)%nat by lia. destruct (Z.to_nat max - length l)%nat eqn:Q; [lia|]. cbn [firstn]. now rewrite firstn_nil.
  - replace (Z.to_nat max - length l)%nat with 0%nat by lia. reflexivity.
Qed.

Lemma fields_of_app : forall a b, fields_of (a ++ b) = fields_of a ++ fields_of b.
Proof. induction a as [|[n v|s|] a IH]; intros b; cbn [app fields_of]; rewrite ?IH; reflexivity. Qed.
Lemma last_status_snoc : forall a l, last_status (a ++ [l]) = match l with Status s => Some s | _ => last_status a end.
Proof.
  induction a as [|x a IH]; intros l; cbn [app last_status]; [destruct l; reflexivity|]. rewrite IH. destruct l; try reflexivity.
Qed.

Definition fields_weight (max : Z) (ls : list line) : Z := weight (at_most max (fields_of ls)).
Lemma weight_nonneg : forall fs, 0 <= weight fs.
Proof. induction fs as [|p fs IH]; cbn [weight fold_right]; [lia|]. fold (weight fs). assert (0 <= @zlen Z (@snd str str p)) by apply zlen_nonneg. lia. Qed.
Lemma weight_count : forall fs, 2 * zlen fs <= weight fs.
Proof. induction fs as [|p fs IH]; [cbn; lia|]. cbn [weight fold_right]. fold (weight fs). rewrite zlen_cons. assert (0 <= @zlen Z (@snd str str p)) by apply zlen_nonneg. lia. Qed.
Lemma text_weight : forall n v text, written_as (Field n v) text -> zlen v + 3 <= zlen text.
Proof.
  intros n v text W. remember (Field n v) as l eqn:EL. destruct W as [n' v' w eol N0 N1 N2 V1 SW SE EN NC VC| |]; try discriminate EL. injection EL as -> ->.
  rewrite !zlen_app. change (zlen [58]) with 1. pose proof (zlen_nonneg _ w). destruct n; [congruence|]. destruct eol; [congruence|]. rewrite !zlen_cons. pose proof (zlen_nonneg _ n). pose proof (zlen_nonneg _ eol). lia.
Qed.

Lemma lines_all : forall max ls texts done h, 0 <= max -> Forall2 written_as ls texts ->
  holds_fields (at_most max (fields_of done)) (h_map h) -> Forall (fun p => cstr (snd p)) (at_most max (fields_of done)) ->
  h_max h = max -> h_counter h = zlen (at_most max (fields_of done)) -> h_protocol h = last_status done ->
  weight (at_most max (fields_of done)) + zlen (concat texts) + 2 < two64 ->
  exists h', write_headers h texts = Ret (map zlen texts, h') /\ holds_fields (at_most max (fields_of (done ++ ls))) (h_map h') /\ h_protocol h' = last_status (done ++ ls).
Proof.
  intros max ls. induction ls as [|l ls IH]; intros texts done h M0 F H FC HM HC HP W.
  - inversion F; subst. rewrite app_nil_r. exists h. split; [reflexivity|]. split; [exact H|exact HP].
  - inversion F as [|? t ? ts WA F']; subst. cbn [concat] in W. rewrite zlen_app in W. pose proof (zlen_nonneg _ (concat ts)) as NT. pose proof (weight_nonneg (at_most (h_max h) (fields_of done))) as NW. pose proof (zlen_nonneg _ t) as NT2.
    assert (SZ : mul64 (zlen t) 1 = zlen t) by (rewrite mul64_small; lia).
    assert (STEP : exists h1, write_header h t 1 (zlen t) = Ret (zlen t, h1) /\ holds_fields (at_most (h_max h) (fields_of (done ++ [l]))) (h_map h1) /\
      Forall (fun p => cstr (snd p)) (at_most (h_max h) (fields_of (done ++ [l]))) /\ h_max h1 = h_max h /\ h_counter h1 = zlen (at_most (h_max h) (fields_of (done ++ [l]))) /\
      h_protocol h1 = last_status (done ++ [l]) /\ weight (at_most (h_max h) (fields_of (done ++ [l]))) <= weight (at_most (h_max h) (fields_of done)) + zlen t).
    { rewrite last_status_snoc, fields_of_app. destruct l as [n v|s|]; cbn [fields_of].
      - rewrite at_most_snoc by exact M0. destruct ((h_max h =? 0) || (zlen (at_most (h_max h) (fields_of done)) <? h_max h)) eqn:Q.
        + pose proof (text_weight n v t WA) as TW. pose proof (weight_count (at_most (h_max h) (fields_of done))) as WC. pose proof (zlen_nonneg _ v) as NV.
          assert (MX : h_max h = 0 \/ h_counter h < h_max h) by (rewrite HC; apply orb_true_iff in Q as [Q|Q]; [left; now apply Z.eqb_eq|right; now apply Z.ltb_lt]).
          destruct (write_field _ h n v t 1 (zlen t) H FC WA MX) as (m & E & HF).
          * lia.
          * rewrite HC. apply zlen_nonneg.
          * rewrite HC. pose proof (zlen_nonneg _ (at_most (h_max h) (fields_of done))). lia.
          * exists (mk_headers m (h_protocol h) (h_max h) (h_counter h + 1)). rewrite SZ in E. split; [exact E|]. split; [exact HF|]. split; [|split; [reflexivity|split; [|split; [exact HP|]]]].
            -- apply Forall_app. split; [exact FC|]. constructor; [|constructor]. inversion WA; subst; assumption.
            -- cbn [h_counter]. rewrite HC, zlen_app. reflexivity.
            -- rewrite weight_app. cbn [weight fold_right snd]. lia.
        + exists h. split; [|rewrite app_nil_r; split; [exact H|split; [exact FC|split; [reflexivity|split; [exact HC|split; [exact HP|lia]]]]]].
          unfold write_header. replace (has_char 58 t) with true. 2: { symmetry. apply has_char_true. inversion WA; subst. apply in_app_iff. right. now left. }
          rewrite HC, Q, SZ. reflexivity.
      - assert (E : exists h1, write_header h t 1 (zlen t) = Ret (zlen t, h1) /\ h_map h1 = h_map h /\ h_max h1 = h_max h /\ h_counter h1 = h_counter h /\ h_protocol h1 = Some s).
        { inversion WA as [|s' eol S0 SB SN SE E1 E2|]; subst. unfold write_header. replace (has_char 58 (s ++ eol)) with false.
          2: { symmetry. destruct (has_char 58 (s ++ eol)) eqn:X; [|reflexivity]. apply has_char_true, in_app_iff in X as [X|X]; [contradiction|]. unfold spaces in SE. rewrite Forall_forall in SE. apply SE in X. discriminate. }
          pose proof (bare_trim [] s eol SB ltac:(constructor) SE) as BT. cbn [app] in BT. rewrite BT. replace (str_eqb s []) with false by (symmetry; apply str_eqb_neq; exact S0). cbn [negb]. rewrite SZ.
          eexists. split; [reflexivity|]. cbn. split; [reflexivity|]. split; [reflexivity|]. split; [reflexivity|]. f_equal. unfold trim_left.
          destruct s as [|c s]; [congruence|]. assert (SC : isspace c = false) by (destruct SB as [SB _]; eauto). cbn [app forallb]. rewrite SC. cbn [andb].
          unfold trim in BT. cbn [app lstrip] in BT. rewrite SC in BT. exact BT. }
        destruct E as (h1 & E & E1 & E2 & E3 & E4). exists h1. rewrite app_nil_r, E1, E2, E3. split; [exact E|]. split; [exact H|]. split; [exact FC|]. split; [reflexivity|]. split; [exact HC|]. split; [exact E4|lia].
      - exists h. rewrite app_nil_r. split; [|split; [exact H|split; [exact FC|split; [reflexivity|split; [exact HC|split; [exact HP|lia]]]]]].
        inversion WA as [| |eol SE E1 E2]; subst. unfold write_header. replace (has_char 58 t) with false.
        2: { symmetry. destruct (has_char 58 t) eqn:X; [|reflexivity]. apply has_char_true in X. unfold spaces in SE. rewrite Forall_forall in SE. apply SE in X. discriminate. }
        pose proof (bare_trim t [] [] ltac:(split; intros c r E; [discriminate|destruct r; discriminate]) SE ltac:(constructor)) as BT. cbn [app] in BT. rewrite app_nil_r in BT. rewrite BT, SZ. reflexivity. }
    destruct STEP as (h1 & E & HF & FC1 & HM1 & HC1 & HP1 & W1).
    destruct (IH ts (done ++ [l]) h1 M0 F' HF FC1 HM1 HC1 HP1 ltac:(lia)) as (h2 & E2 & HF2 & HP2).
    cbn [write_headers map]. rewrite E. cbn [bind snd fst]. rewrite E2. cbn [bind snd fst]. exists h2. rewrite <- app_assoc in HF2, HP2. cbn [app] in HF2, HP2. split; [reflexivity|]. split; [exact HF2|exact HP2].
Qed.
