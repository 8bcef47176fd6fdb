(** C56 and C76: the callbacks that serve files. *)
From Coq Require Import String ZArith Bool List Lia.
From Verif Require Import Base BaseFacts UMapModel UMapSpec SMap SMapCase SendProps StaticModel StaticSpec StaticProofs.
Import ListNotations.
Open Scope Z_scope.

(** ** C56 *)
(** whatever the request, the configuration and the file system: a file that is opened resolves to a path that begins with files_path, and what is sent is
    that file and its length. Missing for C56: the byte after files_path need not be a slash (see C56_sibling_refuted). *)
Theorem C56_opened_partial : forall w c root pos url r ret r' o, f_root c = Some root -> s_body r = NoBody -> static_file w (Some c) pos url r = Ret (ret, r', o) ->
  (forall p, In p o -> exists t, realpath w p = Some (root ++ t)) /\
  (forall l n, s_body r' = Stream l n -> exists p t, realpath w p = Some (root ++ t) /\ contents w p = Some l /\ n = zlen l).
Proof.
  intros w c root pos url r ret r' o FR NB H. destruct (static_opened w c root pos url r ret r' o FR H) as [A B]. split.
  - intros p I. destruct A as [->|(q & -> & (x & t & R & ->))]; [destruct I|]. destruct I as [<-|[]]. eauto.
  - intros l n E. destruct A as [->|(q & -> & (x & t & R & ->))].
    + exfalso. clear B. unfold static_file in H. destruct (0 <? pos); [injection H as _ <- ; congruence|]. rewrite FR in H. inv H.
      assert (NF : forall r1, not_found c r = Ret r1 -> s_body r1 = Stream l n -> False).
      { intros r1 F S. unfold not_found in F. destruct (f_redirect c); [|injection F as <-; discriminate]. inv F. unfold put_header in X0. inv X0. injection X0 as <-. injection F as <-. cbn [with_headers s_body] in S. congruence. }
      destruct (allowed w root (file_path root a)).
      * destruct (accessible w (file_path root a)).
        -- destruct (contents w (file_path root a)); [inv H; discriminate|]. injection H as _ <-. congruence.
        -- inv H. injection H as _ <-. eapply NF; eauto.
      * inv H. injection H as _ <-. eapply NF; eauto.
    + rewrite E in B. destruct (B ltac:(discriminate)) as (p & P & C & ->). injection P as <-. eauto.
Qed.
(** C56 for a files_path that ends with a slash *)
Theorem C56_slash : forall w c dir pos url r ret r' o, f_root c = Some (dir ++ bs "/") -> static_file w (Some c) pos url r = Ret (ret, r', o) ->
  forall p, In p o -> exists q, realpath w p = Some q /\ inside dir q.
Proof.
  intros w c dir pos url r ret r' o FR H p I. destruct (static_opened _ _ _ _ _ _ _ _ _ FR H) as [[->|(q & -> & (x & t & R & ->))] _]; [destruct I|]. destruct I as [<-|[]].
  eexists. split; [exact R|]. right. exists t. now rewrite <- app_assoc.
Qed.
(** C56 without the slash, when nothing beside the directory has a name that begins with its name *)
Theorem C56_no_sibling_partial : forall w c root pos url r ret r' o, f_root c = Some root -> (forall p c t, realpath w p = Some (root ++ c :: t) -> c = 47) -> static_file w (Some c) pos url r = Ret (ret, r', o) ->
  forall p, In p o -> exists q, realpath w p = Some q /\ inside root q.
Proof.
  intros w c root pos url r ret r' o FR NS H p I. destruct (static_opened _ _ _ _ _ _ _ _ _ FR H) as [[->|(q & -> & (x & t & R & ->))] _]; [destruct I|]. destruct I as [<-|[]].
  eexists. split; [exact R|]. destruct t as [|d t]; [left; now rewrite app_nil_r|]. right. pose proof (NS _ _ _ R) as ->. now exists t.
Qed.
(** a file of the directory is served whole, with its type and the configured headers *)
Theorem C56_served : forall w c root mime own pos pre n m name q l r d, f_root c = Some root -> settled c mime own -> f_prefix c = Some pre -> pre <> [] -> ~ In 47 pre -> plain_name name -> pos <= 0 ->
  realpath w (root ++ bs "/" ++ name) = Some (root ++ q) -> accessible w (root ++ bs "/" ++ name) = true -> contents w (root ++ bs "/" ++ name) = Some l -> repr (s_headers r) d ->
  exists r', static_file w (Some c) pos (Some (repeat 47 n ++ pre ++ repeat 47 m ++ name)) r = Ret (0, r', [root ++ bs "/" ++ name]) /\ s_status r' = 200 /\ s_body r' = Stream l (zlen l) /\
    repr (s_headers r') (scopy_into (sput (bs "Content-Type") (type_of mime name) d) own).
Proof.
  intros w c root mime own pos pre n m name q l r d FR S FP PN P47 PL POS RP AC CO R. unfold static_file. replace (0 <? pos) with false by (symmetry; apply Z.ltb_ge; exact POS). rewrite FR, FP.
  pose proof (name_of true n m pre name PL P47 PN) as NM. cbn [app] in NM. unfold str in *. rewrite NM. cbn [bind]. unfold file_path, allowed. rewrite RP, app_prefixb, AC, CO. destruct (describe_eq c mime own r d name S R) as (r1 & E1 & R1 & _). rewrite E1. cbn [bind].
  eexists. split; [reflexivity|]. auto.
Qed.
(** the request is read without leaving the memory of the URL exactly when the URL, without its first slashes, is at least as long as url_prefix *)
Theorem C56_url_partial : forall prefix u, cstr u -> ((olen prefix <= length (drop_slash u))%nat <-> exists n, file_requested true prefix (Some u) = Ret n).
Proof. intros prefix u C. exact (requested_iff true prefix u C). Qed.

(** a small file system: the names of its regular files, no links and no dot segments *)
Definition files (l : list (str * list Z)) : world :=
  let get p := option_map snd (find (fun x => str_eqb (fst x) p) l) in
  mk_world (fun p => match get p with Some _ => Some p | None => None end) (fun p => match get p with Some _ => true | None => false end) get.
Definition blank : sres := mk_sres 200 u_map_init NoBody.
Definition ex_mime : smap := [(bs ".html", Some (bs "text/html")); (bs "*", Some (bs "application/octet-stream"))].
Definition ex_config (root : str) : config := mk_config (Some root) (Some (bs "app")) (map_of ex_mime) (map_of [(bs "X-A", Some (bs "1"))]) None true true [bs "text/html"] true.
Definition ex_world : world := files [(bs "/srv/www/a.html", bs "hello")].
Example C56_served_holds : settled (ex_config (bs "/srv/www")) ex_mime [(bs "X-A", Some (bs "1"))] /\ plain_name (bs "a.html") /\
  match static_file ex_world (Some (ex_config (bs "/srv/www"))) 0 (Some (bs "/app//a.html?x=1#y")) blank with
  | Ret (0, r, [p]) => p = bs "/srv/www/a.html" /\ s_status r = 200 /\ s_body r = Stream (bs "hello") 5 /\ get_str (s_headers r) (bs "Content-Type") = Ret (Some (bs "text/html"))
  | _ => False end.
Proof.
  split; [split; [exact (repr_map_of ex_mime eq_refl)|split; [exact (repr_map_of [(bs "X-A", Some (bs "1"))] eq_refl)|exact I]]|].
  split; [split; [apply cstrb_true; reflexivity|]; repeat split; try discriminate; intros X; cbn in X; intuition discriminate|]. vm_compute. auto.
Qed.
Definition slash_world : world :=
  let name p := if str_eqb p (bs "/srv/www//a.html") then Some (bs "/srv/www/a.html") else None in
  mk_world name (fun p => match name p with Some _ => true | None => false end) (fun p => match name p with Some _ => Some (bs "hello") | None => None end).
Example C56_slash_holds : match static_file slash_world (Some (ex_config (bs "/srv/www" ++ bs "/"))) 0 (Some (bs "/app//a.html")) blank with Ret (0, r, [p]) => realpath slash_world p = Some (bs "/srv/www/a.html") | _ => False end.
Proof. vm_compute. reflexivity. Qed.
Example C56_no_sibling_holds : forall p c t, realpath ex_world p = Some (bs "/srv/www" ++ c :: t) -> c = 47.
Proof.
  intros p c t H. unfold ex_world, files in H. cbn [realpath option_map find fst snd] in H. destruct (str_eqb (bs "/srv/www/a.html") p) eqn:E; cbn [option_map] in H; [|discriminate].
  apply str_eqb_eq in E. subst p. injection H as H _. congruence.
Qed.
Example C56_url_holds : (olen (Some (bs "app")) <= length (drop_slash (bs "//app/x")))%nat /\ file_requested true (Some (bs "app")) (Some (bs "//app/x")) = Ret (bs "x").
Proof. split; [vm_compute; repeat constructor|vm_compute; reflexivity]. Qed.
(** C56 as stated fails: a directory beside files_path whose name begins with the same letters. The world resolves "/srv/www/../www-secret/key". *)
Definition sibling_world : world :=
  let name p := if str_eqb p (bs "/srv/www/../www-secret/key") then Some (bs "/srv/www-secret/key") else None in
  mk_world name (fun p => match name p with Some _ => true | None => false end) (fun p => match name p with Some _ => Some (bs "secret") | None => None end).
Theorem C56_sibling_refuted : exists w c url r r' p q, static_file w (Some c) 0 (Some url) r = Ret (0, r', [p]) /\ f_root c = Some (bs "/srv/www") /\ realpath w p = Some q /\ ~ inside (bs "/srv/www") q /\ s_body r' = Stream (bs "secret") 6.
Proof.
  exists sibling_world, (ex_config (bs "/srv/www")), (bs "/app/../www-secret/key"), blank. eexists _, _, _. split; [vm_compute; reflexivity|]. split; [reflexivity|]. split; [vm_compute; reflexivity|]. split; [|reflexivity].
  intros [X|(t & X)]; vm_compute in X; discriminate.
Qed.
(** a files_path that is not absolute, or not resolved, never serves anything *)
Theorem C56_relative_refuted : forall w c root pos url r ret r' o, f_root c = Some root -> hd 0 root <> 47 -> root <> [] -> (forall p q, realpath w p = Some q -> hd 0 q = 47) ->
  static_file w (Some c) pos url r = Ret (ret, r', o) -> o = [].
Proof.
  intros w c root pos url r ret r' o FR H NE RP E. destruct (static_opened _ _ _ _ _ _ _ _ _ FR E) as [[->|(q & -> & (x & t & R & ->))] _]; [reflexivity|exfalso].
  apply RP in R. destruct root; [congruence|]. cbn [app hd] in R. now apply H.
Qed.
Example C56_relative_holds : (forall p q, realpath ex_world p = Some q -> hd 0 q = 47) /\ match static_file ex_world (Some (ex_config (bs "www"))) 0 (Some (bs "/app/a.html")) blank with Ret (0, r, []) => s_status r = 404 | _ => False end.
Proof.
  split; [|vm_compute; reflexivity]. intros p q H. unfold ex_world, files in H. cbn [realpath option_map find fst snd] in H. destruct (str_eqb (bs "/srv/www/a.html") p) eqn:E; cbn [option_map] in H; [|discriminate].
  apply str_eqb_eq in E. subst p. injection H as <-. reflexivity.
Qed.
(** a URL shorter than url_prefix: with url_prefix "/static" (as in the examples) and the URL "/static", the memory after the URL is read *)
Theorem C56_short_url_refuted : exists w c, f_prefix c = Some (bs "/static") /\ static_file w (Some c) 0 (Some (bs "/static")) blank = UB OutOfBounds.
Proof. exists ex_world, (mk_config (Some (bs "/srv/www")) (Some (bs "/static")) u_map_init u_map_init None false false [] false). split; vm_compute; reflexivity. Qed.

(** ** C76: the compressed web site in memory *)
Section Props.
Variable zip : bool -> list Z -> option (list Z).
Hypothesis zip_nonempty : forall gz l z, zip gz l = Some z -> z <> [].

(** what may be answered to a request: nothing, a file that may be opened, or the compressed content of a file that was, with the header that says so *)
Definition answered (ws : list world) (w : world) (root : str) (x : list str * sres) : Prop :=
  Forall (may_open w root) (fst x) /\
  (s_body (snd x) = NoBody \/ (exists p l, may_open w root p /\ contents w p = Some l /\ s_body (snd x) = Stream l (zlen l)) \/ labelled zip ws root (snd x)).
Lemma Forall2_impl_simple : forall {A B} (P Q : A -> B -> Prop) l l', Forall2 P l l' -> (forall x y, P x y -> Q x y) -> Forall2 Q l l'.
Proof. intros A B P Q l l' F H. induction F; constructor; auto. Qed.
Lemma labelled_more : forall ws ws' root r, incl ws ws' -> labelled zip ws root r -> labelled zip ws' root r.
Proof. intros ws ws' root r IN (gz & z & d & B & (w & p & l & I & M) & R & S). exists gz, z, d. split; [exact B|]. split; [exists w, p, l; split; [now apply IN|exact M]|auto]. Qed.
(** a request that can be read: a URL long enough for the prefix, headers and a response that are dictionaries *)
Definition readable (c : config) (a : ask) : Prop :=
  (exists name, file_requested false (f_prefix c) (a_url a) = Ret name) /\ (exists d, repr (a_headers a) d) /\ (exists d, repr (s_headers (a_response a)) d) /\ s_body (a_response a) = NoBody.

(** every run, from any caches that hold compressed contents, with a file system that may change between requests: nothing outside is ever sent *)
Theorem C76_run_partial : forall c root mime own l ws k, f_root c = Some root -> settled c mime own -> shas own (bs "Content-Encoding") = false -> cache_ok zip ws root k -> Forall (readable c) l ->
  exists out k', serve zip c k l = Ret (out, k') /\ Forall2 (fun a x => answered (map a_world l ++ ws) (a_world a) root x) l out /\ cache_ok zip (map a_world l ++ ws) root k'.
Proof.
  intros c root mime own l. induction l as [|a l IH]; intros ws k FR S NO K F; [exists [], k; split; [reflexivity|split; [constructor|exact K]]|].
  inversion F as [|? ? ((name & FN) & (hd0 & RH) & (d & R) & NB) F2]; subst.
  destruct (compressed_step zip ws (a_world a) c root mime own k (a_position a) (a_headers a) hd0 (a_url a) (a_response a) d name FR S NO K R RH NB FN zip_nonempty) as (ret & r1 & o & k1 & E & OP & K1 & B).
  destruct (IH (a_world a :: ws) k1 FR S NO K1 F2) as (out & k2 & E2 & F3 & K2). cbn [serve]. rewrite E. cbn [bind]. rewrite E2. cbn [bind fst snd]. eexists _, _. split; [reflexivity|].
  assert (P : forall x, In x (map a_world l ++ a_world a :: ws) -> In x (map a_world (a :: l) ++ ws)).
  { intros x I. cbn [map app]. apply in_app_or in I as [I|[<-|I]]; [right; apply in_or_app; now left|now left|right; apply in_or_app; now right]. }
  split; [|intros gz n z I; destruct (K2 gz n z I) as (w & p & x & I2 & M); exists w, p, x; split; [now apply P|exact M]].
  constructor.
  - split; [exact OP|]. cbn [snd]. destruct B as [B|[B|B]]; [now left|right; now left|right; right]. eapply labelled_more; [|exact B]. intros x I. apply P. apply in_or_app. now right.
  - clear - F3 P. revert F3. generalize (map a_world l ++ a_world a :: ws) (map a_world (a :: l) ++ ws) P. intros A B AB F. apply (Forall2_impl_simple _ _ _ _ F). intros x y H.
    destruct H as [H1 [H2|[H2|H2]]]; (split; [exact H1|]); [now left|right; now left|right; right]. eapply labelled_more; [exact AB|exact H2].
Qed.
End Props.

(** an example of the hypotheses: two requests, the second answered from the cache after the file has gone *)
Definition ex_zip (gz : bool) (l : list Z) : option (list Z) := Some ((if gz then 31 else 120) :: rev l).
Definition ex_ask (w : world) (url : str) : ask := mk_ask w 0 (map_of [(bs "accept-encoding", Some (bs "br, gzip"))]) (Some url) blank.
Definition web : config := mk_config (Some (bs "/srv/www")) (Some (bs "/app")) (map_of ex_mime) u_map_init None true true [bs "text/html"] true.
Definition ex_run : list ask := [ex_ask ex_world (bs "/app/a.html"); ex_ask (files []) (bs "/app/a.html")].
Example C76_run_holds : Forall (readable web) ex_run /\ match serve ex_zip web (mk_caches [] []) ex_run with
  | Ret ([(o1, r1); (o2, r2)], k) => o1 = [bs "/srv/www/a.html"] /\ o2 = [] /\ s_body r1 = Bytes (31 :: bs "olleh") /\ s_body r2 = s_body r1 /\ get_str (s_headers r2) (bs "Content-Encoding") = Ret (Some (bs "gzip"))
  | _ => False end.
Proof.
  split; [|vm_compute; auto 9]. assert (R : forall w, readable web (ex_ask w (bs "/app/a.html"))) by (intros w; split; [eexists; vm_compute; reflexivity|split; [eexists; exact (repr_map_of [(bs "accept-encoding", Some (bs "br, gzip"))] eq_refl)|split; [eexists; apply repr_init|reflexivity]]]).
  repeat constructor; apply R.
Qed.

(** the caches have no bound: a file system that resolves "." keeps one copy for every way of writing the name of one file *)
Fixpoint undots (s : str) : str := match s with c :: ((d :: r) as t) => if (c =? 46) && (d =? 47) then undots r else s | _ => s end.
Definition dot_world : world :=
  let name p := if prefixb (bs "/srv/www/") p && str_eqb (undots (skipn 9 p)) (bs "a.html") then Some (bs "/srv/www/a.html") else None in
  mk_world name (fun p => match name p with Some _ => true | None => false end) (fun p => match name p with Some _ => Some (bs "hello") | None => None end).
Fixpoint dotted (n : nat) : str := match n with O => bs "a.html" | S n => 46 :: 47 :: dotted n end.
Lemma undots_dotted : forall n, undots (dotted n) = bs "a.html".
Proof. induction n as [|n IH]; [reflexivity|]. cbn [dotted undots]. exact IH. Qed.
Lemma dotted_plain : forall n, plain_name (dotted n).
Proof.
  intros n. assert (C : cstr (dotted n) /\ ~ In 35 (dotted n) /\ ~ In 63 (dotted n)).
  { induction n as [|n (C & A & B)]; [split; [apply cstrb_true; reflexivity|split; intros X; cbn in X; intuition discriminate]|]. cbn [dotted]. split.
    - constructor; [lia|constructor; [lia|exact C]].
    - split; intros [X|[X|X]]; try discriminate; auto. }
  destruct C as (C & A & B). split; [exact C|]. split; [destruct n; discriminate|]. split; [destruct n; discriminate|auto].
Qed.
Lemma dotted_length : forall n, length (dotted n) = (2 * n + 6)%nat.
Proof. induction n as [|n IH]; [reflexivity|]. cbn [dotted length]. rewrite IH. lia. Qed.
Lemma ext_dotted : forall n, filename_ext (dotted n) = bs ".html".
Proof.
  intros n. unfold filename_ext. assert (L : last_dot (dotted n) = Some (bs ".html")).
  { induction n as [|n IH]; [reflexivity|]. cbn [dotted last_dot]. rewrite IH. reflexivity. }
  rewrite L, dotted_length. replace (length (bs ".html") =? 2 * n + 6)%nat with false; [reflexivity|]. symmetry. apply Nat.eqb_neq. cbn [bs String.length length]. change (length (bs ".html")) with 5%nat. lia.
Qed.
Definition copies (i : nat) : cache := map (fun j => (dotted j, 31 :: bs "olleh")) (seq 0 i).
Lemma not_kept : forall i j, (i <= j)%nat -> lookup (dotted j) (copies i) = None /\ remember (dotted j) (31 :: bs "olleh") (copies i) = copies i ++ [(dotted j, 31 :: bs "olleh")].
Proof.
  intros i j L. unfold copies. assert (G : forall n, (forall x, In x n -> (x < j)%nat) -> lookup (dotted j) (map (fun j => (dotted j, 31 :: bs "olleh")) n) = None /\
    remember (dotted j) (31 :: bs "olleh") (map (fun j => (dotted j, 31 :: bs "olleh")) n) = map (fun j => (dotted j, 31 :: bs "olleh")) n ++ [(dotted j, 31 :: bs "olleh")]).
  { induction n as [|x n IH]; intros H; [split; reflexivity|]. destruct (IH (fun y I => H y (or_intror I))) as [A B]. assert (N : str_eqb (dotted x) (dotted j) = false).
    { destruct (str_eqb (dotted x) (dotted j)) eqn:E; [|reflexivity]. apply str_eqb_eq in E. pose proof (H x (or_introl eq_refl)). apply (f_equal (@length Z)) in E. rewrite !dotted_length in E. lia. }
    unfold lookup in *. cbn [map find remember fst]. rewrite N. split; [exact A|]. rewrite B. reflexivity. }
  apply G. intros x I. apply in_seq in I. lia.
Qed.
Definition many (i n : nat) : list ask := map (fun j => ex_ask dot_world (bs "/app/" ++ dotted j)) (seq i n).
Lemma many_step : forall i, exists ret r, compressed ex_zip dot_world web (mk_caches (copies i) []) 0 (map_of [(bs "accept-encoding", Some (bs "br, gzip"))]) (Some (bs "/app/" ++ dotted i)) blank = Ret (ret, r, [bs "/srv/www" ++ bs "/" ++ dotted i], mk_caches (copies (S i)) []).
Proof.
  intros i. pose proof (name_of false 1 1 (bs "app") (dotted i) (dotted_plain i) ltac:(intros X; cbn in X; intuition discriminate) ltac:(discriminate)) as N. unfold compressed. change (0 <? 0) with false. cbv iota.
  assert (N2 : file_requested false (f_prefix web) (Some (bs "/app/" ++ dotted i)) = Ret (dotted i)) by exact N. rewrite N2. unfold bind at 1.
  assert (H1 : u_map_has_key_case (s_headers blank) (Some (bs "Content-Encoding")) = Ret false) by (vm_compute; reflexivity). rewrite H1. unfold bind at 1.
  assert (H2 : ClientModel.get_case_str (map_of [(bs "accept-encoding", Some (bs "br, gzip"))]) (Some (bs "Accept-Encoding")) = Ret (Some (bs "br, gzip"))) by (vm_compute; reflexivity). rewrite H2. unfold bind at 1.
  assert (H3 : mode web (Some (bs "br, gzip")) = Some true) by (vm_compute; reflexivity). rewrite H3. change (f_cache web) with true. cbv iota. cbn [cache_of k_gzip].
  destruct (not_kept i i (le_n i)) as [K1 K2]. rewrite K1. change (f_root web) with (Some (bs "/srv/www")). cbv iota zeta.
  assert (RP : realpath dot_world (file_path (bs "/srv/www") (dotted i)) = Some (bs "/srv/www/a.html")).
  { unfold dot_world, file_path. cbn [realpath]. change (prefixb (bs "/srv/www/") (bs "/srv/www" ++ bs "/" ++ dotted i)) with (prefixb [] (dotted i)). change (skipn 9 (bs "/srv/www" ++ bs "/" ++ dotted i)) with (dotted i). rewrite undots_dotted. reflexivity. }
  assert (CO : contents dot_world (file_path (bs "/srv/www") (dotted i)) = Some (bs "hello")).
  { unfold dot_world in RP |- *. cbn [realpath contents] in RP |- *. rewrite RP. reflexivity. }
  unfold allowed. rewrite RP. change (prefixb (bs "/srv/www") (bs "/srv/www/a.html")) with true. cbv iota. rewrite CO.
  assert (T : content_type (f_mime web) (dotted i) = Ret (Some (bs "text/html"))) by (unfold content_type; rewrite ext_dotted; vm_compute; reflexivity). rewrite T. unfold bind at 1.
  assert (P : exists r, put_header blank (bs "Content-Type") (Some (bs "text/html")) = Ret r) by (eexists; vm_compute; reflexivity).
  change (existsb (str_eqb (bs "text/html")) (f_compressed web)) with true. cbv iota.
  assert (Q : exists r1 m r2, put_header blank (bs "Content-Type") (Some (bs "text/html")) = Ret r1 /\ u_map_copy_into (s_headers r1) (f_headers web) = Ret m /\ put_header (set_bytes (with_headers r1 (snd m)) (31 :: bs "olleh")) (bs "Content-Encoding") (Some (encoding_name true)) = Ret r2).
  { eexists _, _, _. split; [vm_compute; reflexivity|]. split; [vm_compute; reflexivity|]. vm_compute. reflexivity. }
  destruct Q as (r1 & m & r2 & Q1 & Q2 & Q3). rewrite Q1. unfold bind at 1. rewrite Q2. unfold bind at 1. cbv zeta. change (zlen (bs "hello") =? 0) with false. cbv iota.
  change (ex_zip true (bs "hello")) with (Some (31 :: bs "olleh")). cbv iota. rewrite Q3. unfold bind at 1. eexists _, _. unfold keep_in. cbn [k_gzip k_deflate]. rewrite K2.
  unfold copies. rewrite seq_S, map_app. reflexivity.
Qed.
Theorem C76_growth_refuted : forall n, exists out k, serve ex_zip web (mk_caches [] []) (many 0 n) = Ret (out, k) /\ length (k_gzip k) = n /\
  (forall name z, In (name, z) (k_gzip k) -> realpath dot_world (bs "/srv/www/" ++ name) = Some (bs "/srv/www/a.html") /\ length z = 6%nat).
Proof.
  assert (G : forall n i, exists out, serve ex_zip web (mk_caches (copies i) []) (many i n) = Ret (out, mk_caches (copies (i + n)) [])).
  { induction n as [|n IH]; intros i; [exists []; rewrite Nat.add_0_r; reflexivity|]. destruct (many_step i) as (ret & r & E). destruct (IH (S i)) as (out & E2).
    set (A := ex_ask dot_world (bs "/app/" ++ dotted i)). change (many i (S n)) with (A :: many (S i) n). cbn [serve].
    assert (E3 : compressed ex_zip (a_world A) web (mk_caches (copies i) []) (a_position A) (a_headers A) (a_url A) (a_response A) = Ret (ret, r, [bs "/srv/www" ++ bs "/" ++ dotted i], mk_caches (copies (S i)) [])) by exact E.
    rewrite E3. unfold bind at 1. rewrite E2. cbn [bind fst snd]. eexists. replace (i + S n)%nat with (S i + n)%nat by lia. reflexivity. }
  intros n. destruct (G n O) as (out & E). exists out, (mk_caches (copies n) []). split; [exact E|]. cbn [k_gzip]. split; [unfold copies; now rewrite map_length, seq_length|].
  intros name z I. unfold copies in I. apply in_map_iff in I as (j & J & _). injection J as <- <-. split; [|reflexivity]. unfold dot_world. cbn [realpath].
  change (prefixb (bs "/srv/www/") (bs "/srv/www/" ++ dotted j)) with (prefixb [] (dotted j)). change (skipn 9 (bs "/srv/www/" ++ dotted j)) with (dotted j). rewrite undots_dotted. reflexivity.
Qed.

Print Assumptions C56_opened_partial.
Print Assumptions C56_slash.
Print Assumptions C56_no_sibling_partial.
Print Assumptions C56_served.
Print Assumptions C56_url_partial.
Print Assumptions C56_sibling_refuted.
Print Assumptions C56_relative_refuted.
Print Assumptions C56_short_url_refuted.
Print Assumptions C76_run_partial.
Print Assumptions C76_growth_refuted.
