(** C76: which coding the compressed web site uses, and for which files. *)
From Coq Require Import String ZArith Bool List Lia.
From Verif Require Import Base BaseFacts UMapModel UMapSpec SMap SMapCase StrModel StrProofs NegoSpec SendProps StaticModel StaticSpec StaticProofs StaticProps.
Import ListNotations.
Open Scope Z_scope.

Definition coding_name (gz : bool) : str := if gz then bs "gzip" else bs "deflate".
(** the coding is allowed by the configuration and named in Accept-Encoding *)
Definition may_use (c : config) (gz : bool) (a : str) : Prop := (if gz then f_gzip c else f_deflate c) = true /\ value_of 44 a (coding_name gz).
(** the coding to use: the response has none yet, and it is deflate only if gzip cannot be used *)
Definition due (c : config) (request response : smap) (gz : bool) : Prop :=
  shas_case response (bs "Content-Encoding") = false /\ exists a, sval_case request (bs "Accept-Encoding") = Some a /\ may_use c gz a /\ (gz = false -> ~ may_use c true a).
Lemma mode_iff : forall c a gz, mode c (Some a) = Some gz <-> may_use c gz a /\ (gz = false -> ~ may_use c true a).
Proof.
  intros c a gz. unfold mode. assert (G : has_trimmed (split_string 44 a) (bs "gzip") = true <-> value_of 44 a (coding_name true)) by apply has_trimmed_iff.
  assert (D : has_trimmed (split_string 44 a) (bs "deflate") = true <-> value_of 44 a (coding_name false)) by apply has_trimmed_iff. unfold may_use. cbv zeta.
  destruct (f_gzip c && has_trimmed (split_string 44 a) (bs "gzip")) eqn:X.
  - apply andb_true_iff in X. destruct X as [X1 X2]. apply G in X2. split; [intros [= <-]; split; [auto|discriminate]|]. intros [_ N]. destruct gz; [reflexivity|]. exfalso. now apply N.
  - assert (N : ~ (f_gzip c = true /\ value_of 44 a (coding_name true))) by (intros [A B]; apply G in B; rewrite A, B in X; discriminate). destruct (f_deflate c && has_trimmed (split_string 44 a) (bs "deflate")) eqn:Y.
    + apply andb_true_iff in Y. destruct Y as [Y1 Y2]. apply D in Y2. split; [intros [= <-]; split; [split; auto|auto]|]. intros [A _]. destruct gz; [contradiction|reflexivity].
    + split; [discriminate|]. intros [[A B] _]. destruct gz; [exfalso; apply N; split; assumption|]. apply D in B. rewrite A, B in Y. discriminate.
Qed.
Lemma due_iff : forall c h d gz, (if shas_case d (bs "Content-Encoding") then None else mode c (sval_case h (bs "Accept-Encoding"))) = Some gz <-> due c h d gz.
Proof.
  intros c h d gz. unfold due. destruct (shas_case d (bs "Content-Encoding")); [split; [discriminate|intros [X _]; discriminate]|].
  destruct (sval_case h (bs "Accept-Encoding")) as [a|]; [|split; [discriminate|intros (_ & a & X & _); discriminate]].
  rewrite mode_iff. split; [intros [A B]; split; [reflexivity|]; exists a; auto|]. intros (_ & a' & [= <-] & A & B). auto.
Qed.
Lemma coding_ok : forall gz, ovalue_ok (Some (encoding_name gz)).
Proof. intros []; (split; [apply cstrb_true; reflexivity|reflexivity]). Qed.

(** a request for a file below the directory whose type is compressed, not in the cache: the bytes that zlib gives, with the header that names the coding, and they are kept if the configuration says so *)
Theorem C76_fresh : forall zip w c root mime own k headers h url r d name t l z gz x, f_root c = Some root -> settled c mime own -> repr headers h -> repr (s_headers r) d ->
  file_requested false (f_prefix c) url = Ret name -> due c h d gz -> realpath w (root ++ bs "/" ++ name) = Some (root ++ t) -> contents w (root ++ bs "/" ++ name) = Some l -> l <> [] ->
  type_of mime name = Some x -> In x (f_compressed c) -> zip gz l = Some z -> z <> [] -> (f_cache c = true -> lookup name (cache_of gz k) = None) ->
  exists r' dr, compressed zip w c k 0 headers url r = Ret (0, r', [root ++ bs "/" ++ name], if f_cache c then keep_in gz name z k else k) /\
    s_status r' = 200 /\ s_body r' = Bytes z /\ repr (s_headers r') dr /\ sval dr (bs "Content-Encoding") = Some (coding_name gz).
Proof.
  intros zip w c root mime own k headers h url r d name t l z gz x FR S RH R FN DU RP CO NL TY IN ZP NZ CA. unfold compressed. change (0 <? 0) with false. cbv iota.
  rewrite FN. cbn [bind]. rewrite (repr_has_case _ _ _ R). unfold bind at 1. rewrite (repr_get_case _ _ _ RH). unfold bind at 1. rewrite (proj2 (due_iff c h d gz) DU).
  replace (if f_cache c then lookup name (cache_of gz k) else None) with (@None (list Z)) by (destruct (f_cache c); [now rewrite CA|reflexivity]).
  rewrite FR. cbv zeta. unfold file_path, allowed. rewrite RP, app_prefixb, CO.
  destruct (type_eq c mime own name S) as [T1 T2]. rewrite T1. unfold bind at 1. rewrite TY in *.
  replace (existsb (str_eqb x) (f_compressed c)) with true by (symmetry; apply existsb_exists; exists x; split; [exact IN|apply str_eqb_refl]).
  destruct (put_header_eq r d (bs "Content-Type") (Some x) R ltac:(discriminate) T2) as (r1 & E1 & R1 & B1 & S1). rewrite E1. unfold bind at 1.
  destruct (copy_headers_eq r1 _ c mime own R1 S) as (m & E2 & R2). rewrite E2. unfold bind at 1.
  replace (zlen l =? 0) with false by (symmetry; apply Z.eqb_neq; destruct l; [congruence|unfold zlen; cbn; lia]). rewrite ZP.
  assert (RS : repr (s_headers (set_bytes (with_headers r1 (snd m)) z)) (scopy_into (sput (bs "Content-Type") (Some x) d) own)) by (destruct z; [congruence|exact R2]).
  destruct (put_header_eq _ _ (bs "Content-Encoding") (Some (encoding_name gz)) RS ltac:(discriminate) (coding_ok gz)) as (r3 & E3 & R3 & B3 & S3). rewrite E3. cbn [bind].
  exists r3. eexists. split; [reflexivity|]. split; [rewrite S3; destruct z; [congruence|reflexivity]|]. split; [rewrite B3; destruct z; [congruence|reflexivity]|].
  split; [exact R3|]. unfold sval. rewrite sget_sput_same. destruct gz; reflexivity.
Qed.
(** the next request for it is answered with the bytes that were kept, and no file is opened *)
Theorem C76_cached : forall zip w c mime own k headers h url r d name z gz, settled c mime own -> repr headers h -> repr (s_headers r) d -> shas own (bs "Content-Encoding") = false ->
  file_requested false (f_prefix c) url = Ret name -> due c h d gz -> f_cache c = true -> z <> [] ->
  exists r' dr, compressed zip w c (keep_in gz name z k) 0 headers url r = Ret (0, r', [], keep_in gz name z k) /\
    s_status r' = 200 /\ s_body r' = Bytes z /\ repr (s_headers r') dr /\ sval dr (bs "Content-Encoding") = Some (coding_name gz).
Proof.
  intros zip w c mime own k headers h url r d name z gz S RH R NO FN DU CA NZ. unfold compressed. change (0 <? 0) with false. cbv iota.
  rewrite FN. cbn [bind]. rewrite (repr_has_case _ _ _ R). unfold bind at 1. rewrite (repr_get_case _ _ _ RH). unfold bind at 1. rewrite (proj2 (due_iff c h d gz) DU), CA.
  assert (LR : forall dd, lookup name (remember name z dd) = Some z).
  { intro dd. induction dd as [|p dd IH]; cbn [remember]; unfold lookup in *; cbn [find fst]; [rewrite str_eqb_refl; reflexivity|]. destruct (str_eqb (fst p) name) eqn:E; cbn [find fst]; [rewrite str_eqb_refl; reflexivity|rewrite E; exact IH]. }
  replace (lookup name (cache_of gz (keep_in gz name z k))) with (Some z) by (destruct gz; symmetry; apply LR).
  assert (RS : repr (s_headers (set_bytes r z)) d) by (destruct z; exact R).
  destruct (put_header_eq (set_bytes r z) d (bs "Content-Encoding") (Some (encoding_name gz)) RS ltac:(discriminate) (coding_ok gz)) as (r1 & E1 & R1 & B1 & S1). rewrite E1. unfold bind at 1.
  destruct (describe_eq c mime own r1 _ name S R1) as (r3 & E3 & R3 & B3 & S3). rewrite E3. cbn [bind]. exists r3. eexists. split; [reflexivity|].
  split; [rewrite S3, S1; destruct z; [congruence|reflexivity]|]. split; [rewrite B3, B1; destruct z; [congruence|reflexivity]|]. split; [exact R3|].
  unfold sval. rewrite sget_copy by exact NO. rewrite sget_sput_other by discriminate. rewrite sget_sput_same. destruct gz; reflexivity.
Qed.
(** when no coding is due, the file is sent as it is and the caches stay as they are *)
Theorem C76_plain : forall zip w c k headers h url r d name, repr headers h -> repr (s_headers r) d -> file_requested false (f_prefix c) url = Ret name -> (forall gz, ~ due c h d gz) ->
  compressed zip w c k 0 headers url r = do x <- uncompressed w c url r; Ret (x, k).
Proof.
  intros zip w c k headers h url r d name RH R FN ND. unfold compressed. change (0 <? 0) with false. cbv iota.
  rewrite FN. cbn [bind]. rewrite (repr_has_case _ _ _ R). unfold bind at 1. rewrite (repr_get_case _ _ _ RH). unfold bind at 1.
  destruct (if shas_case d (bs "Content-Encoding") then None else mode c (sval_case h (bs "Accept-Encoding"))) as [gz|] eqn:E; [|reflexivity]. apply due_iff in E. destruct (ND gz E).
Qed.

(** a browser that only knows deflate, one that knows nothing *)
Example C76_coding_ex : due web [(bs "accept-encoding", Some (bs "br, deflate"))] [] false /\ ~ due web [(bs "accept-encoding", Some (bs "br, deflate"))] [] true /\
  match compressed ex_zip ex_world web (mk_caches [] []) 0 (map_of [(bs "accept-encoding", Some (bs "br, deflate"))]) (Some (bs "/app/a.html")) blank with
  | Ret (0, r, [_], k) => s_body r = Bytes (120 :: bs "olleh") /\ k = mk_caches [] [(bs "a.html", 120 :: bs "olleh")]
  | _ => False end /\
  match compressed ex_zip ex_world web (mk_caches [] []) 0 (map_of [(bs "accept-encoding", Some (bs "br"))]) (Some (bs "/app/a.html")) blank with
  | Ret (0, r, [_], k) => s_body r = Stream (bs "hello") 5 /\ k = mk_caches [] []
  | _ => False end.
Proof.
  assert (E : forall gz, due web [(bs "accept-encoding", Some (bs "br, deflate"))] [] gz <-> gz = false) by (intro gz; rewrite <- due_iff; vm_compute; split; [intros [= <-]; reflexivity|intros ->; reflexivity]).
  split; [now apply E|]. split; [intro X; apply E in X; discriminate|]. split; vm_compute; auto.
Qed.

Print Assumptions C76_fresh.
Print Assumptions C76_cached.
Print Assumptions C76_plain.
