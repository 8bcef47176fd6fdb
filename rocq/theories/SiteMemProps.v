(** C110: the answers, the memory and the open files of the compressed web site, also when allocations fail. *)
From Coq Require Import String ZArith Bool List Lia.
From Verif Require Import NegoSpec StrProofs CompressModel.
From Verif Require Import Base BaseFacts StrModel StaticModel OwnModel OwnSpec OwnProofs MapMemModel MapMemSpec MapMemProofs
  RespMemModel HttpMemSpec DefMemModel DefMemSpec DefMemProofs SiteMemModel SiteMemSpec SiteMemProofs.
Import ListNotations.
Open Scope Z_scope.

Lemma has_blocks : forall m l, has m l -> blocks_are m l.
Proof. intros m l O. destruct (owns_spec _ _ O) as (A & B & C). split; [exact B|]. split; [exact C|exact A]. Qed.

(** C110. Any requests, each with the file system of its time, with what the allocations answer and with what zlib writes, then the
    release of the configuration. Either a NULL pointer is followed, and an allocation failed; or bytes that were never written are read,
    and an allocation failed or a file is shorter than ftell says; or every callback comes back, the answers are those that [all_served]
    says, the blocks in use are those of the caches and those (or the open files) that [all_served] counts as lost, and when the
    configuration is released only the lost ones are left. *)
Theorem C110_history_partial : forall c root l, g_root c = Some root -> Forall (visit_ok c) l ->
  (x_visits c new_site l = UB NullDeref /\ Exists starved l) \/
  (x_visits c new_site l = UB Uninit /\ Exists (fun v => starved v \/ truncated c v) l) \/
  exists s rs lost, x_visits c new_site l = Ret (s, rs) /\ all_served c ([], []) l rs (List.length lost) (site_caches s) /\
    blocks_are (t_mem s) (site_blocks s ++ lost) /\ exists m, x_close s = Ret m /\ blocks_are m lost.
Proof.
  intros c root l R F. destruct (visits_has c root l new_site [] R F new_site_has) as [H|[H|(s & rs & lost & E & O & G)]]; [left; exact H|right; left; exact H|right; right].
  rewrite app_nil_r in O. exists s, rs, lost. split; [exact E|]. split; [exact G|]. split; [now apply has_blocks|].
  destruct (close_has s lost O) as (m & C & OM). exists m. split; [exact C|now apply has_blocks].
Qed.
Print Assumptions C110_history_partial.

Lemma fed_served : forall c k v a n k', fed v -> served c k v a n k' -> (a, n, k') = ideal c k v.
Proof. intros c k v a n k' [A B] [E|[(X & _)|(X & _)]]; [exact E|contradiction|contradiction]. Qed.
Lemma fed_all : forall c k l rs n k', Forall fed l -> all_served c k l rs n k' -> (rs, n, k') = ideals c k l.
Proof.
  intros c k l rs n k' F S1. induction S1 as [k|k v l a rs n n' k1 k2 SV SA IH]; [reflexivity|]. inversion F; subst. cbn [ideals].
  rewrite <- (fed_served _ _ _ _ _ _ H1 SV), <- (IH H2). reflexivity.
Qed.
(** With memory, and files that are as long as ftell says: nothing undefined happens, the answers and the caches are exactly those of
    [ideals], and as many files are left open at the end as it counts. *)
Theorem C110_memory_partial : forall c root l, g_root c = Some root -> Forall (visit_ok c) l -> Forall fed l -> Forall (fun v => ~ truncated c v) l ->
  exists s rs lost m, x_visits c new_site l = Ret (s, rs) /\ (rs, List.length lost, site_caches s) = ideals c ([], []) l /\
    blocks_are (t_mem s) (site_blocks s ++ lost) /\ x_close s = Ret m /\ blocks_are m lost.
Proof.
  intros c root l R F FD T. destruct (C110_history_partial c root l R F) as [(_ & H)|[(_ & H)|(s & rs & lost & E & G & B & m & C & BM)]].
  1, 2: exfalso; apply Exists_exists in H; destruct H as (v & I1 & H); rewrite Forall_forall in FD, T; specialize (FD v I1); specialize (T v I1); unfold fed, starved in *; tauto.
  exists s, rs, lost, m. split; [exact E|]. split; [now apply fed_all|]. auto.
Qed.
Print Assumptions C110_memory_partial.

Lemma none_open : forall c l k, Forall (fun v => g_squeeze c (name_of c (q_url (n_req v))) = true) l -> snd (fst (ideals c k l)) = 0%nat.
Proof.
  intros c l. induction l as [|v l IH]; intros k F; [reflexivity|]. inversion F as [|? ? F1 F2]; subst. cbn [ideals].
  assert (Z0 : snd (fst (ideal c k v)) = 0%nat).
  { unfold ideal. destruct (0 <? q_pos (n_req v)); [reflexivity|]. destruct (wants c (n_req v)) as [gz|]; [|reflexivity]. destruct (known c gz (name_of c (q_url (n_req v))) k); [reflexivity|].
    destruct (readable (n_fs v) c (name_of c (q_url (n_req v)))) as [[n b]|]; [|reflexivity]. rewrite F1. destruct (n =? 0); [reflexivity|]. destruct (n <? 0); [reflexivity|]. destruct (produced (n_calls v)); reflexivity. }
  destruct (ideal c k v) as [[a n] k1]. specialize (IH k1 F2). destruct (ideals c k1 l) as [[rs n'] k2]. cbn [fst snd] in *. lia.
Qed.
(** If moreover every file that is asked for has a type that is compressed, everything is released. *)
Theorem C110_clean_partial : forall c root l, g_root c = Some root -> Forall (visit_ok c) l -> Forall fed l -> Forall (fun v => ~ truncated c v) l ->
  Forall (fun v => g_squeeze c (name_of c (q_url (n_req v))) = true) l ->
  exists s rs m, x_visits c new_site l = Ret (s, rs) /\ (rs, 0%nat, site_caches s) = ideals c ([], []) l /\ blocks_are (t_mem s) (site_blocks s) /\ x_close s = Ret m /\ blocks_are m [].
Proof.
  intros c root l R F FD T Q. destruct (C110_memory_partial c root l R F FD T) as (s & rs & lost & m & E & G & B & C & BM).
  pose proof (none_open c l ([], []) Q) as N. rewrite <- G in N. cbn [fst snd] in N. destruct lost; [|discriminate]. rewrite app_nil_r in B. exists s, rs, m. auto.
Qed.
Print Assumptions C110_clean_partial.

(** the codings that a request can have: allowed by the configuration, named in Accept-Encoding of a request that is not encoded yet, gzip if possible *)
Definition may_use (c : gconfig) (gz : bool) (a : str) : Prop := (if gz then g_gzip c else g_deflate c) = true /\ value_of 44 a (coding gz).
Definition due (c : gconfig) (q : greq) (gz : bool) : Prop := q_encoded q = false /\ exists a, q_accept q = Some a /\ may_use c gz a /\ (gz = false -> ~ may_use c true a).
Lemma gmode_due : forall c a gz, gmode c a = Some gz <-> may_use c gz a /\ (gz = false -> ~ may_use c true a).
Proof.
  intros c a gz. unfold gmode. assert (G : has_trimmed (split_string 44 a) (bs "gzip") = true <-> value_of 44 a (coding true)) by apply has_trimmed_iff.
  assert (D : has_trimmed (split_string 44 a) (bs "deflate") = true <-> value_of 44 a (coding false)) by apply has_trimmed_iff. unfold may_use.
  destruct (g_gzip c && has_trimmed (split_string 44 a) (bs "gzip")) eqn:X.
  - apply andb_true_iff in X. destruct X as [X1 X2]. apply G in X2. split; [intros [= <-]; split; [auto|discriminate]|]. intros [_ N]. destruct gz; [reflexivity|]. exfalso. now apply N.
  - assert (N : ~ (g_gzip c = true /\ value_of 44 a (coding true))) by (intros [A B]; apply G in B; rewrite A, B in X; discriminate). destruct (g_deflate c && has_trimmed (split_string 44 a) (bs "deflate")) eqn:Y.
    + apply andb_true_iff in Y. destruct Y as [Y1 Y2]. apply D in Y2. split; [intros [= <-]; split; [split; auto|auto]|]. intros [A _]. destruct gz; [contradiction|reflexivity].
    + split; [discriminate|]. intros [[A B] _]. destruct gz; [exfalso; apply N; split; assumption|]. apply D in B. rewrite A, B in Y. discriminate.
Qed.
Lemma wants_due : forall c q gz, wants c q = Some gz <-> due c q gz.
Proof.
  intros c q gz. unfold wants, due. destruct (q_encoded q); [split; [discriminate|intros [X _]; discriminate]|]. destruct (q_accept q) as [a|]; [|split; [discriminate|intros (_ & a & X & _); discriminate]].
  rewrite gmode_due. split; [intros [A B]; split; [reflexivity|]; exists a; auto|]. intros (_ & a' & [= <-] & A & B). auto.
Qed.
(** Whatever allocation fails: an answer that says that it is encoded is one to a request that names the coding, the configuration allows it, and it is deflate only if gzip cannot be used. *)
Theorem C110_coding : forall c root l s rs, g_root c = Some root -> Forall (visit_ok c) l -> x_visits c new_site l = Ret (s, rs) ->
  Forall2 (fun v a => forall gz, v_encoding a = Some gz -> due c (n_req v) gz) l rs.
Proof.
  intros c root l s rs R F E. destruct (C110_history_partial c root l R F) as [(X & _)|[(X & _)|(s' & rs' & lost & X & A & _)]]; rewrite E in X; try discriminate. injection X as <- <-.
  clear - A. induction A as [|k v l a rs n n' k1 k2 SV A IH]; constructor; [|exact IH]. intros gz V. apply wants_due.
  assert (PL : forall w s0, v_encoding (plain_answer w c s0) = None) by (intros w s0; unfold plain_answer, gone_answer; destruct (readable w c s0) as [[x y]|]; [reflexivity|destruct (g_redirect c); reflexivity]).
  assert (GN : v_encoding (gone_answer c) = None) by (unfold gone_answer; destruct (g_redirect c); reflexivity).
  assert (ZP : forall g z, v_encoding (zip_answer g z) = Some g) by (intros g [|? ?]; reflexivity).
  destruct SV as [I1|[(_ & -> & _)|(_ & _ & [(_ & [->|[->| ->]])|(g & z & W & (_ & _ & [T|T]) & _)])]]; try discriminate; try (rewrite ?PL, ?GN in V; discriminate); [|rewrite T in V; discriminate|rewrite T in V; injection V as <-; exact W].
  unfold ideal in I1. destruct (0 <? q_pos (n_req v)); [injection I1 as -> _ _; discriminate|]. destruct (wants c (n_req v)) as [g|]; [|injection I1 as -> _ _; rewrite PL in V; discriminate].
  assert (Q : v_encoding a = None \/ v_encoding a = Some g).
  { destruct (known c g (name_of c (q_url (n_req v))) k); [injection I1 as -> _ _; auto|]. destruct (readable (n_fs v) c (name_of c (q_url (n_req v)))) as [[x y]|]; [|injection I1 as -> _ _; auto].
    destruct (g_squeeze c (name_of c (q_url (n_req v)))); [|injection I1 as -> _ _; auto]. destruct (x =? 0); [injection I1 as -> _ _; auto|]. destruct (x <? 0); [injection I1 as -> _ _; auto|]. destruct (produced (n_calls v)); injection I1 as -> _ _; auto. }
  destruct Q as [Q|Q]; rewrite Q in V; [discriminate|exact V].
Qed.
Print Assumptions C110_coding.

(** ** Examples *)
Definition text := bs "body { color: red; } body { color: blue; }".
Definition disk : fsystem := mk_fs Some
  (fun p => if str_eqb p (bs "/srv/a.css") then Some (zlen text, text)
            else if str_eqb p (bs "/srv/b.png") then Some (4, [137; 80; 78; 71])
            else if str_eqb p (bs "/srv/cut.css") then Some (9, bs "body")
            else if str_eqb p (bs "/srv/dir") then Some (9223372036854775807, [])
            else None).
Definition conf : gconfig := mk_gconfig (Some (bs "/srv")) (Some (bs "/web")) None true true true (fun n => str_eqb n (bs "a.css") || str_eqb n (bs "cut.css")).
Definition zips : list zcall := [(0, repeat 7 256); (1, [1; 2; 3])].
Definition asks (url accept : str) (new grow : list bool) : gvisit := mk_gvisit disk (mk_greq 0 url (Some accept) false) new grow zips.
Definition css_visit := asks (bs "/web/a.css?x=1#top") (bs "br, gzip").
Definition png_visit := asks (bs "/web/b.png") (bs "gzip").

Ltac no_false := split; [cbn; intros H; repeat destruct H as [H|H]; try discriminate; exact H|cbn; intros H; repeat destruct H as [H|H]; try discriminate; exact H].
Example conf_root : g_root conf = Some (bs "/srv").
Proof. reflexivity. Qed.
Example visits_fine : Forall (visit_ok conf) [css_visit [] []; css_visit [] []; png_visit [] []].
Proof. repeat constructor; cbn; try discriminate; try lia; apply Nat.leb_le; reflexivity. Qed.
Example visits_fed : Forall fed [css_visit [] []; css_visit [] []; png_visit [] []].
Proof. repeat constructor; cbn; tauto. Qed.
Example visits_whole : Forall (fun v => ~ truncated conf v) [css_visit [] []; css_visit [] []; png_visit [] []].
Proof. repeat constructor; intros (n & l & E & L); vm_compute in E; injection E as <- <-; vm_compute in L; discriminate. Qed.
(** compressed and kept, then from the cache, then the picture, the file of which stays open *)
Example visits_seen : match x_visits conf new_site [css_visit [] []; css_visit [] []; png_visit [] []] with
  | Ret (s, rs) => rs = [mk_ganswer U_CALLBACK_CONTINUE 200 (Body (repeat 7 256 ++ [1; 2; 3])) (Some true); mk_ganswer U_CALLBACK_CONTINUE 200 (Body (repeat 7 256 ++ [1; 2; 3])) (Some true);
                         mk_ganswer U_CALLBACK_CONTINUE 200 (Streamed [137; 80; 78; 71]) None] /\ List.length (h_live (m_heap (t_mem s))) = 2%nat
  | UB _ => False end.
Proof. vm_compute. split; reflexivity. Qed.
Example visits_clean : Forall (fun v => g_squeeze conf (name_of conf (q_url (n_req v))) = true) [css_visit [] []; css_visit [] []].
Proof. repeat constructor. Qed.

Lemma repeat_open : forall n, ideals conf ([], []) (repeat (png_visit [] []) n) = (repeat (mk_ganswer U_CALLBACK_CONTINUE 200 (Streamed [137; 80; 78; 71]) None) n, n, ([], [])).
Proof.
  induction n as [|n IH]; [reflexivity|]. cbn [repeat ideals].
  replace (ideal conf ([], []) (png_visit [] [])) with (mk_ganswer U_CALLBACK_CONTINUE 200 (Streamed [137; 80; 78; 71]) None, 1%nat, (@nil (str * list Z), @nil (str * list Z))) by (vm_compute; reflexivity).
  rewrite IH. reflexivity.
Qed.
(** static_compressed_inmemory_website_callback.c:371-380, 465: a request that accepts gzip (every browser does), for a file the type of
    which is not compressed (a picture), leaves its FILE open: fclose is only called in the branch that compresses. With enough memory, n
    such requests are all answered with the file and leave n files open, for every n; no function closes them, so the process runs out of
    descriptors. *)
Theorem C110_files_refuted : exists c v, Forall (visit_ok c) [v] /\ fed v /\ ~ truncated c v /\ forall n, exists s rs lost m,
  x_visits c new_site (repeat v n) = Ret (s, rs) /\ rs = repeat (mk_ganswer U_CALLBACK_CONTINUE 200 (Streamed [137; 80; 78; 71]) None) n /\
  List.length lost = n /\ x_close s = Ret m /\ blocks_are m lost.
Proof.
  pose proof visits_fine as V. pose proof visits_fed as F. pose proof visits_whole as W.
  inversion V as [|? ? _ V1]; subst. inversion V1 as [|? ? _ V2]; subst. inversion F as [|? ? _ F1]; subst. inversion F1 as [|? ? _ F2]; subst. inversion W as [|? ? _ W1]; subst. inversion W1 as [|? ? _ W2]; subst.
  apply Forall_inv in F2. apply Forall_inv in W2.
  exists conf, (png_visit [] []). split; [exact V2|]. split; [exact F2|]. split; [exact W2|]. apply Forall_inv in V2. intros n.
  destruct (C110_memory_partial conf (bs "/srv") (repeat (png_visit [] []) n)) as (s & rs & lost & m & E & G & B & C & BM); try reflexivity.
  1, 2, 3: apply Forall_forall; intros x X; apply repeat_spec in X; subst x; assumption.
  assert (G' : (rs, List.length lost, site_caches s) = (repeat (mk_ganswer U_CALLBACK_CONTINUE 200 (Streamed [137; 80; 78; 71]) None) n, n, ([], []))) by (transitivity (ideals conf ([], []) (repeat (png_visit [] []) n)); [exact G|apply repeat_open]).
  injection G' as G1 G2 _. exists s, rs, lost, m. auto.
Qed.
Print Assumptions C110_files_refuted.

(** :192-206, 139-146: a directory of the site can be opened with fopen(.., "rb"); ftell at its end gives 2^63 - 1 (ext4) and no byte can be read.
    The request is answered with a stream of that length, the callback of which gives 0 for ever: the request never ends. *)
Theorem C110_directory_refuted : exists c v s a, visit_ok c v /\ fed v /\ x_visit c new_site v = Ret (s, a) /\ v_status a = 200 /\ v_body a = Hangs.
Proof.
  exists conf, (asks (bs "/web/dir") (bs "identity") [] []). do 2 eexists.
  split; [repeat constructor; cbn; try discriminate; try lia; apply Nat.leb_le; reflexivity|]. split; [split; cbn; tauto|]. split; [vm_compute; reflexivity|]. split; reflexivity.
Qed.
Print Assumptions C110_directory_refuted.

(** :385-398: the file is read into a block of the size that ftell gave, by a loop that ends early when fread gives less; the whole block is then
    compressed and sent (and kept in the cache), so for a file that is cut between the two the end of what is sent is memory that was never written. *)
Theorem C110_truncated_refuted : exists c v, visit_ok c v /\ fed v /\ x_visit c new_site v = UB Uninit.
Proof.
  exists conf, (asks (bs "/web/cut.css") (bs "gzip") [] []).
  split; [repeat constructor; cbn; try discriminate; try lia; apply Nat.leb_le; reflexivity|]. split; [split; cbn; tauto|]. vm_compute. reflexivity.
Qed.
Print Assumptions C110_truncated_refuted.

(** :401-414, 457: when deflateInit2 fails for lack of memory deflateEnd is called nevertheless, on a z_stream the state of which was never written. *)
Theorem C110_init_refuted : exists c v, visit_ok c v /\ ~ truncated c v /\ n_grow v = [] /\ x_visit c new_site v = UB Uninit.
Proof.
  exists conf, (css_visit [true; true; true; true; true; true; true; false] []).
  split; [repeat constructor; cbn; try discriminate; try lia; apply Nat.leb_le; reflexivity|]. split; [intros (n & l & E & L); vm_compute in E; injection E as <- <-; vm_compute in L; discriminate|]. split; [reflexivity|]. vm_compute. reflexivity.
Qed.
Print Assumptions C110_init_refuted.

(** :442-454, 347-348: neither the result of ulfius_set_binary_body_response nor that of u_map_put is looked at. When the header cannot be stored
    the compressed bytes are sent without Content-Encoding; when the body cannot, an empty answer says that it is compressed. Both have the
    result that says that all is well. *)
Theorem C110_label_refuted : exists c v v' s s' z, visit_ok c v /\ visit_ok c v' /\ produced (n_calls v) = Some z /\
  x_visit c new_site v = Ret (s, mk_ganswer U_CALLBACK_CONTINUE 200 (Body z) None) /\
  x_visit c new_site v' = Ret (s', mk_ganswer U_CALLBACK_CONTINUE 0 NoBytes (Some true)).
Proof.
  exists conf, (css_visit (repeat true 10 ++ [false]) []), (css_visit (repeat true 9 ++ [false]) []). do 3 eexists.
  split; [repeat constructor; cbn; try discriminate; try lia; apply Nat.leb_le; reflexivity|]. split; [repeat constructor; cbn; try discriminate; try lia; apply Nat.leb_le; reflexivity|].
  split; [vm_compute; reflexivity|]. split; vm_compute; reflexivity.
Qed.
Print Assumptions C110_label_refuted.

(** :168-172, 316-320: o_strdup(http_request->http_url) is moved along and read without being looked at: when it fails a NULL pointer is followed. *)
Theorem C110_null_refuted : exists c v, visit_ok c v /\ ~ truncated c v /\ n_new v = [false] /\ n_grow v = [] /\ x_visit c new_site v = UB NullDeref.
Proof.
  exists conf, (css_visit [false] []).
  split; [repeat constructor; cbn; try discriminate; try lia; apply Nat.leb_le; reflexivity|]. split; [intros (n & l & E & L); vm_compute in E; injection E as <- <-; vm_compute in L; discriminate|]. split; [reflexivity|]. split; [reflexivity|]. vm_compute. reflexivity.
Qed.
Print Assumptions C110_null_refuted.

(** :418: data_zip = o_realloc(data_zip, ..) loses the block when it fails: nothing releases it any more. *)
Theorem C110_grow_refuted : exists c v s m, visit_ok c v /\ n_new v = [] /\ n_grow v = [true; false] /\ x_visit c new_site v = Ret (s, error_answer) /\ x_close s = Ret m /\ List.length (h_live (m_heap m)) = 1%nat.
Proof.
  exists conf, (css_visit [] [true; false]). do 2 eexists.
  split; [repeat constructor; cbn; try discriminate; try lia; apply Nat.leb_le; reflexivity|]. split; [reflexivity|]. split; [reflexivity|]. split; [vm_compute; reflexivity|]. split; vm_compute; reflexivity.
Qed.
Print Assumptions C110_grow_refuted.

(** static_compressed_inmemory_website_callback.c:366-369: a configuration without files_path is not looked at before a file is compressed; with memory, the first request that accepts a coding writes NULL with "%s". *)
Theorem C110_root_refuted : exists c v, g_root c = None /\ visit_ok c v /\ fed v /\ x_visit c new_site v = UB NullDeref.
Proof.
  exists (mk_gconfig None (Some (bs "/web")) None true true true (fun _ => true)), (css_visit [] []). split; [reflexivity|]. split; [|split; [split; cbn; tauto|vm_compute; reflexivity]].
  repeat constructor; cbn; try discriminate; try lia; apply Nat.leb_le; reflexivity.
Qed.
Print Assumptions C110_root_refuted.
(** C110_coding: deflate is not used when it is not allowed, although it is the only coding that the request names *)
Example coding_refused : let c := mk_gconfig (Some (bs "/srv")) (Some (bs "/web")) None true false true (fun _ => true) in
  match x_visits c new_site [asks (bs "/web/a.css") (bs "deflate") [] []] with Ret (_, [a]) => v_encoding a = None /\ v_body a = Streamed text | _ => False end.
Proof. vm_compute. split; reflexivity. Qed.
Example coding_used : due conf (n_req (asks (bs "/web/a.css") (bs " deflate ,br") [] [])) false.
Proof. apply wants_due. vm_compute. reflexivity. Qed.
