(** The example programs that are asked for a secure server start one, or say that they did not (C126). *)
From Coq Require Import String ZArith Bool List Lia.
From Verif Require Import Base UMapModel RouterModel RouterSpec RouterProps LifeModel LifeSpec LifeProps.
From Verif Require Import SafeModel.
Import ListNotations.
Open Scope Z_scope.

(** a regular file with a text, which does not change *)
Definition text_file (files : str -> option source) (path text : str) : Prop :=
  cstr text /\ zlen text < LONG_MAX /\ files path = Some (mk_source (zlen text) text).
(** one more server runs in [s'] than in [s], and it is [d] *)
Definition one_more (s s' : system) (d : daemon) : Prop := s_live s' = s_live s ++ [d].
(** nothing was started *)
Definition none_more (s s' : system) : Prop := s_live s' = s_live s.
Definition encrypted (d : daemon) (key cert : str) : Prop := In Ssl (d_flags d) /\ In (MemKey key) (d_options d) /\ In (MemCert cert) (d_options d).
(** its clients need a certificate of this authority *)
Definition checks_clients (d : daemon) (ca : str) : Prop := In (MemTrust ca) (d_options d).
Definition all_ok (n : Z) : bool := true.

Lemma firstn_repeat {A} : forall n m (x : A), (n <= m)%nat -> firstn n (repeat x m) = repeat x n.
Proof. induction n; intros [|m] x H; cbn; [reflexivity|reflexivity|lia|]. f_equal. apply IHn. lia. Qed.
Lemma skipn_repeat {A} : forall n m (x : A), skipn n (repeat x m) = repeat x (m - n).
Proof. induction n; intros [|m] x; cbn; auto. Qed.
Lemma load_text : forall alloc_ok files path text, (forall n, alloc_ok n = true) -> text_file files path text -> load alloc_ok files path = Ret (Some text).
Proof.
  intros alloc_ok files path text AL (C & L & F). unfold load. rewrite F. unfold read_source. cbn [s_told s_bytes].
  assert (P : 0 <= zlen text) by (unfold zlen; lia). assert (two64 = 18446744073709551616) by reflexivity. unfold LONG_MAX in *.
  destruct (Z.eqb_spec (zlen text) 9223372036854775807); [lia|]. rewrite AL, Z.mod_small, Z.min_id by lia.
  assert (Z1 : zfirstn (zlen text) text = text) by (unfold zfirstn, zlen; apply firstn_all2; lia). rewrite Z1.
  assert (LM : zlen (malloc (zlen text + 1)) = zlen text + 1) by (unfold malloc, zlen at 1; rewrite repeat_length, Z2Nat.id; lia).
  assert (LB : zlen (block_of text) = zlen text) by (unfold zlen, block_of; now rewrite map_length).
  unfold memcpy at 1. rewrite LM, LB, Z.add_0_l. replace (0 <=? 0) with true by reflexivity. rewrite !(proj2 (Z.leb_le _ _)) by lia. cbn [andb bind].
  assert (Z2 : zfirstn (zlen text) (block_of text) = block_of text) by (unfold zfirstn; apply firstn_all2; unfold zlen, block_of; rewrite map_length; lia). rewrite Z2.
  replace (zfirstn 0 (malloc (zlen text + 1))) with (@nil (option Z)) by reflexivity. cbn [app].
  assert (Z3 : zskipn (zlen text) (malloc (zlen text + 1)) = [None]).
  { unfold zskipn, malloc. rewrite skipn_repeat. replace (Z.to_nat (zlen text + 1) - Z.to_nat (zlen text))%nat with 1%nat by lia. reflexivity. }
  rewrite Z3. unfold store, memcpy. replace (zlen (block_of text ++ [None])) with (zlen text + 1) by (unfold zlen, block_of; rewrite app_length, map_length; cbn [length]; lia).
  replace (zlen [Some 0]) with 1 by reflexivity. rewrite !(proj2 (Z.leb_le _ _)) by lia. cbn [andb bind].
  assert (Z4 : zfirstn (zlen text) (block_of text ++ [None]) = block_of text).
  { unfold zfirstn, zlen, block_of. rewrite Nat2Z.id. rewrite <- (map_length (@Some Z) text). now rewrite firstn_app, firstn_all, Nat.sub_diag, app_nil_r. }
  rewrite Z4. assert (Z5 : zskipn (zlen text + 1) (block_of text ++ [None]) = []) by (unfold zskipn, zlen, block_of; apply skipn_all2; rewrite app_length, map_length; cbn [length]; lia).
  rewrite Z5. replace (zfirstn 1 [Some 0]) with [Some 0] by reflexivity. cbn [app pem].
  assert (R : read_cstr (block_of text ++ [Some 0]) = Ret text); [|now rewrite R].
  clear - C. induction text as [|c t IH]; [reflexivity|]. inversion C; subst. cbn [block_of map app read_cstr].
  destruct (Z.eqb_spec c 0); [lia|]. fold (block_of t). now rewrite IH.
Qed.
Lemma load_missing : forall alloc_ok files path, files path = None -> load alloc_ok files path = Ret None.
Proof. intros alloc_ok files path E. unfold load. now rewrite E. Qed.

(** the program answers with a secure server, as it was asked, or an error *)
Definition secured (ok : bool) (s : system) (es : list endpoint) (key cert : str) (ca : option str) (r : outcome (said * system)) : Prop :=
  exists w s', r = Ret (w, s') /\ w <> Clear /\
    (w = Secure <-> startable (s_inst s) es /\ l_daemon (s_inst s) = None /\ ok = true) /\
    (w = Secure -> exists d, one_more s s' d /\ encrypted d key cert /\ forall a, checks_clients d a <-> ca = Some a) /\
    (w = Error -> none_more s s').
Lemma secured_start : forall ok s es key cert ca, holds (l_endpoints (s_inst s)) es -> secured ok s es key cert ca (do r <- start ok s (Some key) (Some cert) ca; Ret (says true r)).
Proof.
  intros ok s es key cert ca H. destruct (C81_start ok s (Some key) (Some cert) ca es H) as (r & s' & E & OK & PA & ON & OFF). rewrite E. cbn [bind]. unfold says. cbn [fst snd].
  assert (CR : credentials (Some key) (Some cert) ca) by (right; split; discriminate).
  exists (if r =? U_OK then Secure else Error), s'. split; [reflexivity|].
  destruct (Z.eqb_spec r U_OK) as [->|N].
  - split; [discriminate|]. split; [split; [intros _; apply OK; reflexivity|reflexivity]|]. split; [|discriminate]. intros _.
    destruct (ON eq_refl) as (d & L & _ & _ & A & _). exists d. split; [exact L|]. split; [|intro a; apply (asked_trust _ _ _ _ _ A)].
    split; [apply (asked_tls _ _ _ _ _ A); split; discriminate|]. split; [now apply (asked_key _ _ _ _ _ A)|now apply (asked_cert _ _ _ _ _ A)].
  - split; [discriminate|]. split; [|split; [discriminate|intros _; apply OFF, N]]. split; [discriminate|]. intros X. exfalso. apply N, OK. tauto.
Qed.
(** C126, partial: with texts in the files, each program says that its server is secure iff it runs, and then the server is, with the key and the certificate of the files; else it says that there was an error, and
    nothing was started. Missing: other files ([C126_simple_refuted], [C126_auth_refuted], [C126_pipe_refuted], [C126_directory_refuted], [C126_shrinks_refuted]) and other arguments ([C126_websocket_refuted]). *)
Theorem C126_texts_partial : forall alloc_ok files ok s es k c a key cert ca more, (forall n, alloc_ok n = true) -> holds (l_endpoints (s_inst s)) es ->
  text_file files k key -> text_file files c cert -> text_file files a ca ->
  secured ok s es key cert None (simple_main alloc_ok files ok [bs "-secure"; k; c] s) /\
  secured ok s es key cert (Some ca) (auth_main alloc_ok files ok (k :: c :: a :: more) s) /\
  secured ok s es key cert None (websocket_main alloc_ok files ok (bs "-https" :: k :: c :: more) s).
Proof.
  intros alloc_ok files ok s es k c a key cert ca more AL H K C A. pose proof (load_text _ _ _ _ AL K) as LK. pose proof (load_text _ _ _ _ AL C) as LC. pose proof (load_text _ _ _ _ AL A) as LA. split; [|split].
  - unfold simple_main. replace (str_eqb (bs "-secure") (bs "-secure")) with true by reflexivity. rewrite LK, LC. now apply secured_start.
  - unfold auth_main. rewrite LK, LC, LA. now apply secured_start.
  - unfold websocket_main. replace (str_eqb (bs "-https") (bs "-https")) with true by reflexivity. unfold load in LK, LC.
    destruct (read_source alloc_ok (files k)) as [[bk|]|]; cbn in LK; try discriminate. destruct (read_source alloc_ok (files c)) as [[bc|]|]; cbn in LC; try discriminate.
    cbn [bind]. destruct (read_cstr bk); cbn in LK; [injection LK as ->|discriminate]. destruct (read_cstr bc); cbn in LC; [injection LC as ->|discriminate]. cbn [bind]. now apply secured_start.
Qed.

(** a file that is not there, with one that is: an error, and nothing is started; websocket_server checks both itself *)
Theorem C126_one_missing : forall alloc_ok files ok s k c a t more, (forall n, alloc_ok n = true) ->
  (files k = None /\ text_file files c t \/ files c = None /\ text_file files k t) ->
  simple_main alloc_ok files ok [bs "-secure"; k; c] s = Ret (Error, s) /\
  ((exists u, text_file files a u) \/ files a = None -> auth_main alloc_ok files ok (k :: c :: a :: more) s = Ret (Error, s)) /\
  websocket_main alloc_ok files ok (bs "-https" :: k :: c :: more) s = Ret (Error, s).
Proof.
  intros alloc_ok files ok s k c a t more AL M.
  assert (L : (load alloc_ok files k = Ret None /\ load alloc_ok files c = Ret (Some t)) \/ (load alloc_ok files k = Ret (Some t) /\ load alloc_ok files c = Ret None)).
  { destruct M as [[N T]|[N T]]; [left|right]; split; auto using load_missing, load_text. }
  split; [|split].
  - unfold simple_main. replace (str_eqb (bs "-secure") (bs "-secure")) with true by reflexivity. destruct L as [[-> ->]|[-> ->]]; reflexivity.
  - intros A. assert (X : exists o, load alloc_ok files a = Ret o) by (destruct A as [[u U]|N]; eauto using load_missing, load_text). destruct X as [o X].
    unfold auth_main. destruct L as [[-> ->]|[-> ->]]; rewrite X; reflexivity.
  - unfold websocket_main. replace (str_eqb (bs "-https") (bs "-https")) with true by reflexivity. unfold load in L.
    destruct L as [[LK LC]|[LK LC]]; destruct (read_source alloc_ok (files k)) as [[bk|]|]; cbn in LK; try discriminate; try (destruct (read_cstr bk); discriminate);
      destruct (read_source alloc_ok (files c)) as [[bc|]|]; cbn in LC; try discriminate; try (destruct (read_cstr bc); discriminate); reflexivity.
Qed.

(** whatever the files and the arguments, a server that is said to be in clear is; and one that is said to be secure is, if one of the files could be read (simple_example, auth_server) or both are named (websocket_server) *)
Theorem C126_clear : forall alloc_ok files ok s es argv s', holds (l_endpoints (s_inst s)) es ->
  (simple_main alloc_ok files ok argv s = Ret (Clear, s') \/ auth_main alloc_ok files ok argv s = Ret (Clear, s') \/ websocket_main alloc_ok files ok argv s = Ret (Clear, s')) ->
  exists d, one_more s s' d /\ ~ In Ssl (d_flags d).
Proof.
  intros alloc_ok files ok s es argv s' H E. assert (X : start ok s None None None = Ret (U_OK, s')).
  { assert (SF : forall r, says false r = (Clear, s') -> r = (U_OK, s')) by (intros [r s0]; unfold says; cbn; destruct (Z.eqb_spec r U_OK); intros Y; [injection Y as ->; congruence|discriminate]).
    assert (ST : forall r, says true r = (Clear, s') -> False) by (intros [r s0]; unfold says; cbn; destruct (r =? U_OK); discriminate).
    assert (SB : (do r <- start ok s None None None; Ret (says false r)) = Ret (Clear, s') -> start ok s None None None = Ret (U_OK, s')).
    { destruct (start ok s None None None) as [r|] eqn:Y; cbn [bind]; [|discriminate]. intros W. rewrite (SF r); [reflexivity|congruence]. }
    destruct E as [E|[E|E]].
    - unfold simple_main in E. destruct argv as [|o [|k [|c [|x y]]]]; try (now apply SB). destruct (str_eqb _ _); [|now apply SB].
      destruct (load _ _ k); [|discriminate]. destruct (load _ _ c); [|discriminate]. cbn [bind] in E. destruct (start ok s a a0 None) as [r|]; [|discriminate]. cbn [bind] in E. exfalso. apply (ST r). congruence.
    - unfold auth_main in E. destruct argv as [|k [|c [|x y]]]; try (now apply SB).
      destruct (load _ _ k); [|discriminate]. destruct (load _ _ c); [|discriminate]. destruct (load _ _ x); [|discriminate]. cbn [bind] in E.
      match type of E with context [start ?o ?s0 ?k0 ?c0 ?a0] => destruct (start o s0 k0 c0 a0) as [r|] end; [|discriminate]. cbn [bind] in E. exfalso. apply (ST r). congruence.
    - unfold websocket_main in E. destruct (match argv with [] => false | o :: _ => str_eqb o (bs "-https") end) eqn:A.
      + match type of E with bind ?x _ = _ => destruct x end; [|discriminate]. cbn [bind] in E. assert (E2 : says true a = (Clear, s')) by congruence. now apply ST in E2.
      + destruct argv as [|o [|k [|c y]]]; now apply SB. }
  destruct (C81_start ok s None None None es H) as (r & s2 & E2 & _ & _ & ON & _). rewrite X in E2. injection E2 as <- <-. destruct (ON eq_refl) as (d & L & _ & _ & A & _).
  exists d. split; [exact L|]. intros T. apply (asked_tls _ _ _ _ _ A) in T. now destruct T.
Qed.
Theorem C126_secure : forall alloc_ok files ok s es argv s', holds (l_endpoints (s_inst s)) es ->
  (simple_main alloc_ok files ok argv s = Ret (Secure, s') /\ (exists p, In p (tl argv) /\ load alloc_ok files p <> Ret None) \/
   auth_main alloc_ok files ok argv s = Ret (Secure, s') /\ (exists p, In p (firstn 3 argv) /\ load alloc_ok files p <> Ret None) \/
   websocket_main alloc_ok files ok argv s = Ret (Secure, s') /\ (3 <= length argv)%nat) ->
  exists d, one_more s s' d /\ In Ssl (d_flags d).
Proof.
  intros alloc_ok files ok s es argv s' H E.
  assert (X : exists key cert ca, start ok s key cert ca = Ret (U_OK, s') /\ (key <> None \/ cert <> None \/ ca <> None)).
  { assert (SF : forall r, says true r = (Secure, s') -> r = (U_OK, s')) by (intros [r s0]; unfold says; cbn; destruct (Z.eqb_spec r U_OK); intros Y; [injection Y as ->; congruence|discriminate]).
    assert (ST : forall r, says false r = (Secure, s') -> False) by (intros [r s0]; unfold says; cbn; destruct (r =? U_OK); discriminate).
    assert (SB : (do r <- start ok s None None None; Ret (says false r)) = Ret (Secure, s') -> False).
    { destruct (start ok s None None None) as [r|] eqn:Y; cbn [bind]; [|discriminate]. intros W. apply (ST r). congruence. }
    assert (SS : forall k c a, (do r <- start ok s k c a; Ret (says true r)) = Ret (Secure, s') -> start ok s k c a = Ret (U_OK, s')).
    { intros k c a. destruct (start ok s k c a) as [r|] eqn:Y; cbn [bind]; [|discriminate]. intros W. rewrite (SF r); [reflexivity|congruence]. }
    destruct E as [[E (p & IN & LD)]|[[E (p & IN & LD)]|[E LN]]].
    - unfold simple_main in E. destruct argv as [|o [|k [|c [|x y]]]]; try (now apply SB in E). destruct (str_eqb _ _); [|now apply SB in E].
      destruct (load alloc_ok files k) as [lk|] eqn:LK; [|discriminate]. destruct (load alloc_ok files c) as [lc|] eqn:LC; [|discriminate]. cbn [bind] in E. apply SS in E.
      exists lk, lc, None. split; [exact E|]. destruct IN as [<-|[<-|[]]]; [left|right; left]; congruence.
    - unfold auth_main in E. destruct argv as [|k [|c [|a y]]]; try (now apply SB in E).
      destruct (load alloc_ok files k) as [lk|] eqn:LK; [|discriminate]. destruct (load alloc_ok files c) as [lc|] eqn:LC; [|discriminate]. destruct (load alloc_ok files a) as [la|] eqn:LA; [|discriminate].
      cbn [bind] in E. apply SS in E. exists lk, lc, la. split; [exact E|]. destruct IN as [<-|[<-|[<-|[]]]]; [left|right; left|right; right]; congruence.
    - unfold websocket_main in E. destruct argv as [|o [|k [|c y]]]; try (cbn in LN; lia). destruct (str_eqb o (bs "-https")); [|now apply SB in E].
      destruct (read_source _ (files k)) as [[bk|]|]; try discriminate; [|destruct (read_source _ (files c)); discriminate]. destruct (read_source _ (files c)) as [[bc|]|]; try discriminate.
      cbn [bind] in E. destruct (read_cstr bk) as [sk|]; [|discriminate]. destruct (read_cstr bc) as [sc|]; [|discriminate]. cbn [bind] in E. apply SS in E.
      exists (Some sk), (Some sc), None. split; [exact E|]. left. discriminate. }
  destruct X as (key & cert & ca & X & N). destruct (C81_start ok s key cert ca es H) as (r & s2 & E2 & OK & _ & ON & _). rewrite X in E2. injection E2 as <- <-. destruct (ON eq_refl) as (d & L & _ & _ & A & _).
  exists d. split; [exact L|]. apply (asked_tls _ _ _ _ _ A). destruct (proj1 OK eq_refl) as (CR & _). destruct CR as [(-> & -> & ->)|C]; [|exact C]. destruct N as [N|[N|N]]; now destruct N.
Qed.

Definition two_files (p : str) : option source :=
  if str_eqb p (bs "key.pem") then Some (mk_source 3 (bs "KEY")) else if str_eqb p (bs "cert.pem") then Some (mk_source 4 (bs "CERT")) else if str_eqb p (bs "ca.pem") then Some (mk_source 2 (bs "CA")) else None.
Definition server : system := fresh (with_eps u0 [e1]).
Definition heard (r : outcome (said * system)) : option (said * list (list flag * list mhd_option)) :=
  match r with Ret (w, s) => Some (w, map (fun d => (skipn 4 (d_flags d), skipn 4 (d_options d))) (s_live s)) | UB _ => None end.
Example C126_texts_hyps : holds (l_endpoints (s_inst server)) [e1] /\ text_file two_files (bs "key.pem") (bs "KEY") /\ text_file two_files (bs "cert.pem") (bs "CERT") /\ text_file two_files (bs "ca.pem") (bs "CA") /\
  heard (simple_main all_ok two_files true [bs "-secure"; bs "key.pem"; bs "cert.pem"] server) = Some (Secure, [([Ssl], [MemKey (bs "KEY"); MemCert (bs "CERT"); Timeout 30])]) /\
  heard (auth_main all_ok two_files true [bs "key.pem"; bs "cert.pem"; bs "ca.pem"] server) = Some (Secure, [([Ssl], [MemKey (bs "KEY"); MemCert (bs "CERT"); MemTrust (bs "CA"); Timeout 30])]) /\
  heard (websocket_main all_ok two_files true [bs "-https"; bs "key.pem"; bs "cert.pem"] server) = Some (Secure, [([Ssl], [MemKey (bs "KEY"); MemCert (bs "CERT"); Timeout 30])]) /\
  heard (websocket_main all_ok two_files true [bs "-http"; bs "key.pem"; bs "cert.pem"] server) = Some (Clear, [([], [Timeout 30])]) /\
  heard (simple_main all_ok two_files true [bs "-secure"; bs "key.pem"; bs "crt.pem"] server) = Some (Error, []).
Proof.
  split; [|split; [|split; [|split; [|vm_compute; repeat split]]]].
  - split; [reflexivity|]. intros arr E. cbn in E. inversion E; subst. now exists [Some empty_endpoint].
  - split; [repeat constructor; discriminate|]. split; reflexivity.
  - split; [repeat constructor; discriminate|]. split; reflexivity.
  - split; [repeat constructor; discriminate|]. split; reflexivity.
Qed.

(** C126, refuted: simple_example, asked for a secure server with files that cannot be read, serves in clear and logs "Start secure framework"; *)
Theorem C126_simple_refuted : exists k c, two_files k = None /\ two_files c = None /\
  heard (simple_main all_ok two_files true [bs "-secure"; k; c] server) = Some (Secure, [([], [Timeout 30])]).
Proof. exists (bs "kye.pem"), (bs "crt.pem"). vm_compute. repeat split. Qed.
(** auth_server, given three files that cannot be read, serves in clear (the passwords of the clients too) and prints "Start secure framework"; *)
Theorem C126_auth_refuted : exists k c a, heard (auth_main all_ok two_files true [k; c; a] server) = Some (Secure, [([], [Timeout 30])]).
Proof. exists (bs "kye.pem"), (bs "crt.pem"), (bs "root.pem"). vm_compute. reflexivity. Qed.
(** if only the file of the authority cannot be read, auth_server starts without asking the clients for a certificate, and says nothing of it; *)
Theorem C126_trust_refuted : exists a, two_files a = None /\
  heard (auth_main all_ok two_files true [bs "key.pem"; bs "cert.pem"; a] server) = Some (Secure, [([Ssl], [MemKey (bs "KEY"); MemCert (bs "CERT"); Timeout 30])]).
Proof. exists (bs "root.pem"). vm_compute. split; reflexivity. Qed.
(** websocket_server with the option -https and fewer than two files serves in clear and logs "https mode"; *)
Theorem C126_websocket_refuted : forall k, heard (websocket_main all_ok two_files true [bs "-https"] server) = Some (Secure, [([], [Timeout 30])]) /\
  heard (websocket_main all_ok two_files true [bs "-https"; k] server) = Some (Secure, [([], [Timeout 30])]).
Proof. intros k. split; vm_compute; reflexivity. Qed.
(** a pipe (the shell's <(...)), for which ftell gives -1: a block of no bytes is written to, before and after its bounds; *)
Theorem C126_pipe_refuted : forall bytes, read_source all_ok (Some (mk_source (-1) bytes)) = UB OutOfBounds.
Proof.
  intros bytes. unfold read_source. cbn [s_told s_bytes]. replace (-1 =? LONG_MAX) with false by reflexivity. replace (all_ok (-1 + 1)) with true by reflexivity.
  replace (malloc (-1 + 1)) with (@nil (option Z)) by reflexivity. unfold memcpy. destruct (_ && _); [|reflexivity]. cbn [bind]. unfold store, memcpy. reflexivity.
Qed.
(** a directory, which fopen opens and for which ftell gives LONG_MAX on Linux: the size of the block overflows; *)
Theorem C126_directory_refuted : read_source all_ok (Some (mk_source LONG_MAX [])) = UB Overflow.
Proof. reflexivity. Qed.
(** a file that is truncated between ftell and fread, or of which the reading fails: the key given to the TLS library has bytes that were never written *)
Theorem C126_shrinks_refuted : load all_ok (fun _ => Some (mk_source 3 (bs "K"))) (bs "key.pem") = UB Uninit.
Proof. reflexivity. Qed.

Print Assumptions C126_texts_partial.
Print Assumptions C126_one_missing.
Print Assumptions C126_clear.
Print Assumptions C126_secure.
Print Assumptions C126_simple_refuted.
Print Assumptions C126_auth_refuted.
Print Assumptions C126_trust_refuted.
Print Assumptions C126_websocket_refuted.
Print Assumptions C126_pipe_refuted.
Print Assumptions C126_directory_refuted.
Print Assumptions C126_shrinks_refuted.
