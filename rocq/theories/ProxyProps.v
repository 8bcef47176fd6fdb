(** C119: the program proxy_example passes the request on and gives the answer back. *)
From Coq Require Import String ZArith Bool List Lia.
From Verif Require Import Base BaseFacts UMapModel SMap SMapCase CopyModel CopySpec CopyProofs CookieModel CookieSpec ClientModel ClientSpec ClientProofs ClientProps UMapProofs SendModel SendSpec SendProofs SendProps HttpText.
From Verif Require Import ProxyModel ProxySpec ProxyProofs.
Import ListNotations.
Open Scope Z_scope.

(** ** The request *)
(** The request is passed on with its method, its header fields except "Host", its cookies and its body, with a limit of 30 seconds; the certificate of the
    origin is checked when the flags say so. Never undefined. Refuted: the query, "host" in another case, the fields of one connection, forms. *)
Theorem C119_forward_partial : forall c q x url, has_dicts q x -> q_text q 2 = Some url ->
  forward c q = Ret None \/
  exists opts, forward c q = Ret (Some opts) /\
    last_of o_verb opts = Some (match q_text q 1 with Some v => v | None => bs "GET" end) /\ last_of o_timeout opts = Some 30 /\
    (q_int q 1 <> 0 -> Z.testbit (q_int q 2) 0 = true -> last_of o_peer opts = None) /\ (q_int q 1 <> 0 -> Z.testbit (q_int q 2) 4 = true -> last_of o_host opts = None) /\
    (qd_form x = [] -> last_of o_headers opts = Some (map field_line (not_host (qd_header x)))) /\
    (qd_form x = [] -> last_of o_size opts = (if q_body_length q =? 0 then None else Some (q_body_length q)) /\
       option_map (zfirstn (q_body_length q)) (last_of o_body opts) = body_bytes (q_body q) (q_body_length q)) /\
    (Forall cookie_ok (qd_cookie x) -> match last_of o_cookies opts with Some (Some t) => read_cookies t = Some (map plain_field (qd_cookie x)) | Some None => False | None => qd_cookie x = [] end).
Proof.
  intros c q x url H U. destruct (forward_ok c q x url H U) as (r & F & HD & (SL & SB) & HU & HT & HV & HB & HL & HC & HS & HF). rewrite F.
  destruct (request_url_any (h_url (sendable r)) _ _ (proj1 (proj2 HD))) as (u & UU). rewrite (send_request_wanted c (sendable r) true true true _ u HD UU).
  destruct (set_all c [] (wanted (sendable r) true true true (texts_of (sendable r) (sent_dicts x) u))) as [opts|] eqn:SA; [|now left]. right. exists opts. split; [reflexivity|].
  assert (SR : send_request c (sendable r) true true true = Ret (Some opts)) by (rewrite (send_request_wanted c (sendable r) true true true _ u HD UU), SA; reflexivity).
  apply set_all_some in SA as [E _]. cbn [app] in E. subst opts.
  split; [rewrite wanted_verb, HV; reflexivity|]. split; [rewrite wanted_timeout, HT; reflexivity|].
  assert (K : forall n chk fl, chk <> 0 -> Z.testbit fl n = true -> (n = 0 -> last_of o_peer (checks VerifyPeer VerifyHost chk fl) = None) /\ (n = 4 -> last_of o_host (checks VerifyPeer VerifyHost chk fl) = None)).
  { intros n chk fl NZ T. unfold checks, SSL_VERIFY_PEER, SSL_VERIFY_HOSTNAME. rewrite bit0, bit4. unfold is_set. replace (chk =? 0) with false by (symmetry; now apply Z.eqb_neq).
    split; intros ->; rewrite T; [destruct (Z.testbit fl 4)|destruct (Z.testbit fl 0)]; reflexivity. }
  split; [intros N T; rewrite wanted_peer, HC, HS; exact (proj1 (K 0 _ _ N T) eq_refl)|]. split; [intros N T; rewrite wanted_host, HC, HS; exact (proj2 (K 4 _ _ N T) eq_refl)|].
  split; [intros N; rewrite wanted_headers; unfold final_headers; cbn [sent_dicts df dh]; rewrite N; f_equal; apply map_ext; intros [k [v|]]; reflexivity|].
  split.
  - intros N. pose proof (C67_body_sent c (sendable r) true true true (sent_dicts x) _ HD N SR) as B. rewrite HB, HL, SL in B. rewrite SL in SB. unfold body_bytes in *.
    destruct H as (_ & _ & _ & _ & BQ & _). destruct (Z.eqb_spec (q_body_length q) 0) as [Z0|NZ].
    + destruct (q_body r); injection B as B1 B2; rewrite B1, B2; split; reflexivity.
    + destruct (q_body q) as [bq|]; [|lia]. destruct (q_body r) as [br|]; [|discriminate]. injection B as B1 B2. rewrite B1, B2. split; [reflexivity|]. cbn [option_map]. exact SB.
  - intros K2. destruct (qd_cookie x) as [|p d] eqn:DC.
    + rewrite wanted_cookies. cbn [sent_dicts dc]. rewrite DC. reflexivity.
    + assert (DC1 : dc (sent_dicts x) <> []) by (cbn [sent_dicts dc]; rewrite DC; discriminate). assert (DC2 : Forall cookie_ok (dc (sent_dicts x))) by (cbn [sent_dicts dc]; rewrite DC; exact K2).
      destruct (C68_cookies_sent_partial _ _ _ _ _ _ _ HD DC1 DC2 SR) as (t & T1 & T2).
      rewrite T1. cbn [sent_dicts dc] in T2. rewrite DC in T2. exact T2.
Qed.
Print Assumptions C119_forward_partial.

(** a request as the server makes it *)
Definition ask (verb url : string) (params headers cookies form : smap) (body : option (list Z)) : request :=
  mk_request [Some (bs "1.1"); Some (bs verb); Some (bs url); None; None; None; None; None; None; None; None] [17; 1; 17; 1; 17; 0; 0; 0] None
    (map_of params) (map_of headers) (map_of cookies) (map_of form) (option_map block_of body) (match body with Some b => zlen b | None => 0 end).
Lemma ask_dicts : forall verb url p h c f body, forallb entry_okb (p ++ h ++ c ++ f) = true ->
  has_dicts (ask verb url p h c f body) (mk_qdicts (scopy_into [] p) (scopy_into [] h) (scopy_into [] c) (scopy_into [] f)).
Proof.
  intros verb url p h c f body B. rewrite !forallb_app in B. apply andb_prop in B as [B1 B]. apply andb_prop in B as [B2 B]. apply andb_prop in B as [B3 B4].
  split; [now apply repr_map_of|]. split; [now apply repr_map_of|]. split; [now apply repr_map_of|]. split; [now apply repr_map_of|]. split; [|split; reflexivity].
  destruct body as [b|]; [|reflexivity]. cbn [ask q_body q_body_length option_map]. rewrite zlen_block_of. pose proof (zlen_nonneg _ b). lia.
Qed.
Definition ex_headers : smap := [(bs "Host", Some (bs "localhost:7799")); (bs "Accept", Some (bs "text/html")); (bs "Content-Length", Some (bs "2"))].
Definition ex_q : request := ask "GET" "/wiki/A" [] ex_headers [(bs "s", Some (bs "1")); (bs "t", Some (bs "2"))] [] (Some (bs "hi")).
Example C119_forward_ex : has_dicts ex_q (mk_qdicts [] ex_headers [(bs "s", Some (bs "1")); (bs "t", Some (bs "2"))] []) /\
  exists opts, forward yes ex_q = Ret (Some opts) /\ last_of o_url opts = Some (Some (bs "https://www.wikipedia.org/wiki/A")) /\ last_of o_verb opts = Some (bs "GET") /\
    last_of o_headers opts = Some [bs "Accept:text/html"; bs "Content-Length:2"] /\ last_of o_cookies opts = Some (Some (bs "s=1;t=2")) /\
    last_of o_body opts = Some (block_of (bs "hi")) /\ last_of o_size opts = Some 2 /\ last_of o_peer opts = None /\ last_of o_host opts = None.
Proof. split; [apply (ask_dicts "GET" "/wiki/A" [] ex_headers [(bs "s", Some (bs "1")); (bs "t", Some (bs "2"))] [] (Some (bs "hi"))); reflexivity|]. eexists. vm_compute. repeat split. Qed.

(** The path is asked of the fixed server; the query that is sent is the query of the request and once more its parameters. So with no parameters
    the URL is the one of the request. *)
Theorem C119_query_partial : forall c q x url opts, has_dicts q x -> q_text q 2 = Some url -> names_ok (qd_url x) -> ~ In 35 url -> forward c q = Ret (Some opts) ->
  exists sent, last_of o_url opts = Some (Some sent) /\ fst (split_url sent) = DEST ++ no_blanks (fst (split_url url)) /\
    forall old, query_pairs (option_map no_blanks (snd (split_url url))) = Some old -> query_pairs (snd (split_url sent)) = Some (old ++ qd_url x).
Proof.
  intros c q x url opts H U K N S. destruct (forward_ok c q x url H U) as (r & F & HD & _ & HU & _). rewrite F in S.
  assert (ND : ~ In 35 (DEST ++ url)) by (intros I; apply in_app_or in I as [I|I]; [cbn in I; intuition discriminate|tauto]).
  destruct (C66_query_sent_partial c _ true true true _ opts _ HD K HU ND S) as (sent & A & _ & B & C). exists sent. split; [exact A|].
  assert (SU : split_url (DEST ++ url) = (DEST ++ fst (split_url url), snd (split_url url))).
  { unfold split_url. destruct (YuarelSpec.cut 63 url) as [a o] eqn:E. unfold DEST, bs. cbn [app String.list_ascii_of_string map]. repeat (cbn [YuarelSpec.cut app]; match goal with |- context [?x =? 63] => change (x =? 63) with false; cbv iota end). rewrite E. reflexivity. }
  rewrite SU in B, C. cbn [fst snd] in B, C. split; [|exact C]. rewrite B, <- !no_space_blanks, no_space_app. reflexivity.
Qed.
Print Assumptions C119_query_partial.

(** Refuted: the query. http_url is the whole URI with its query (ulfius.c:229), and the parameters read from it are added again: the origin gets each twice. *)
Theorem C119_query_refuted : exists q opts, has_dicts q (mk_qdicts [(bs "q", Some (bs "1"))] [] [] []) /\ q_text q 2 = Some (bs "/s?q=1") /\ forward yes q = Ret (Some opts) /\
  last_of o_url opts = Some (Some (bs "https://www.wikipedia.org/s?q=1&q=1")).
Proof. exists (ask "GET" "/s?q=1" [(bs "q", Some (bs "1"))] [] [] [] None). eexists. split; [apply (ask_dicts "GET" "/s?q=1" [(bs "q", Some (bs "1"))] [] [] [] None); reflexivity|]. split; [reflexivity|]. split; vm_compute; reflexivity. Qed.
Print Assumptions C119_query_refuted.
(** Refuted: "Host". Names of header fields are the same in any case, but only the spelling "Host" is left out: with "host" the origin is asked for the site of
    the proxy. *)
Theorem C119_host_refuted : exists q opts, has_dicts q (mk_qdicts [] [(bs "host", Some (bs "localhost:7799"))] [] []) /\ forward yes q = Ret (Some opts) /\
  last_of o_headers opts = Some [bs "host:localhost:7799"].
Proof. exists (ask "GET" "/" [] [(bs "host", Some (bs "localhost:7799"))] [] [] None). eexists. split; [apply (ask_dicts "GET" "/" [] [(bs "host", Some (bs "localhost:7799"))] [] [] None); reflexivity|]. split; vm_compute; reflexivity. Qed.
Print Assumptions C119_host_refuted.
(** Refuted: the fields that are about one connection (RFC 9110 7.6.1) are passed on, and the fields that "Connection" names too. *)
Theorem C119_hop_refuted : exists q opts, has_dicts q (mk_qdicts [] [(bs "Connection", Some (bs "X-Secret")); (bs "X-Secret", Some (bs "1")); (bs "Proxy-Authorization", Some (bs "Basic dTpw"))] [] []) /\
  forward yes q = Ret (Some opts) /\ last_of o_headers opts = Some [bs "Connection:X-Secret"; bs "X-Secret:1"; bs "Proxy-Authorization:Basic dTpw"].
Proof.
  exists (ask "GET" "/" [] [(bs "Connection", Some (bs "X-Secret")); (bs "X-Secret", Some (bs "1")); (bs "Proxy-Authorization", Some (bs "Basic dTpw"))] [] [] None). eexists.
  split; [apply (ask_dicts "GET" "/" [] [(bs "Connection", Some (bs "X-Secret")); (bs "X-Secret", Some (bs "1")); (bs "Proxy-Authorization", Some (bs "Basic dTpw"))] [] [] None); reflexivity|]. split; vm_compute; reflexivity.
Qed.
Print Assumptions C119_hop_refuted.
(** Refuted: forms. The form is written again, but the Content-Length of the client's text is passed on: here 7 is announced and 5 bytes are sent. *)
Theorem C119_form_refuted : exists q opts, has_dicts q (mk_qdicts [] [(bs "Content-Length", Some (bs "7")); (bs "Content-Type", Some (bs "application/x-www-form-urlencoded"))] [] [(bs "a", Some (bs "AbC"))]) /\
  q_body q = Some (block_of (bs "a=%41bC")) /\ forward yes q = Ret (Some opts) /\
  last_of o_headers opts = Some [bs "Content-Length:7"; bs "Content-Type:application/x-www-form-urlencoded"] /\ last_of o_size opts = Some 5 /\ last_of o_body opts = Some (block_of (bs "a=AbC") ++ [Some 0]).
Proof.
  exists (ask "GET" "/" [] [(bs "Content-Length", Some (bs "7")); (bs "Content-Type", Some (bs "application/x-www-form-urlencoded"))] [] [(bs "a", Some (bs "AbC"))] (Some (bs "a=%41bC"))). eexists.
  split; [apply (ask_dicts "GET" "/" [] [(bs "Content-Length", Some (bs "7")); (bs "Content-Type", Some (bs "application/x-www-form-urlencoded"))] [] [(bs "a", Some (bs "AbC"))] (Some (bs "a=%41bC"))); reflexivity|].
  split; [vm_compute; reflexivity|]. split; [vm_compute; reflexivity|]. repeat split; vm_compute; reflexivity.
Qed.
Print Assumptions C119_form_refuted.

(** ** The answer *)
(** The client is given the status, the fields, the whole body and the cookies of the origin, whatever pieces libcurl hands over; all other memory is released. *)
Theorem C119_answer_partial : forall c origin q opts y ls chunks empty valued s,
  forward c q = Ret (Some opts) -> origin opts = y -> y_done y = true ->
  Forall2 written_as ls (y_lines y) -> zlen (concat (y_lines y)) + 2 < two64 -> last_status ls = Some s ->
  Forall2 delivers (y_pieces y) chunks -> zlen (concat chunks) + 1 < two64 ->
  y_cookies y = map netscape (empty ++ valued) -> Forall curl_ok (empty ++ valued) -> Forall (fun c => c_value c = []) empty -> Forall (fun c => c_value c <> []) valued ->
  exists h r d rs, callback_get c origin q = Ret (h, r) /\ only_own h r /\ shows h r (mk_seen (y_status y) d (concat chunks) (map cookie_seen rs)) /\
    (forall name, sval_case d name = match values_of name (fields_of ls) with [] => None | vs => Some (joined vs) end) /\ NoDup (map (fun p => lowers (fst p)) d) /\
    NoDup (map ck_key rs) /\ (forall k, last_named (empty ++ valued) k -> exists r, In r rs /\ records k r) /\ (forall r, In r rs -> exists k, last_named (empty ++ valued) k /\ records k r).
Proof.
  intros c origin q opts y ls chunks empty valued s F OG DN WA WL ST DV DL YC OK EE VV.
  destruct (lines_all 0 ls (y_lines y) [] (headers0 0) ltac:(lia) WA) as (hh & WH & (d & R & G & N) & P).
  { exists []. split; [apply repr_init|]. split; [reflexivity|constructor]. } { constructor. } { reflexivity. } { reflexivity. } { reflexivity. } { change (weight (at_most 0 (fields_of []))) with 0. lia. }
  cbn [app] in *. change (at_most 0 (fields_of ls)) with (fields_of ls) in G. rewrite ST in P.
  destruct (C51_body_exact 0 (y_pieces y) chunks ltac:(lia) DV DL) as (b & WB & GB & _). change (kept 0 (concat chunks)) with (concat chunks) in GB.
  destruct (C53_cookies_partial empty valued OK EE VV) as (j & rs & RC & MC & _ & ND & C1 & C2).
  assert (AT : Forall attributed rs) by (apply Forall_forall; intros k I; destruct (C2 k I) as (cc & _ & _ & _ & E1 & E2 & E3); unfold attributed; rewrite E1, E2, E3; repeat split; discriminate).
  set (body := match concat chunks with [] => None | k => Some k end).
  assert (OW : owritten (match concat chunks with [] => None | k => Some (block_of k) end) = Ret body) by (unfold body; destruct (concat chunks) as [|z l]; [reflexivity|]; cbn [owritten]; rewrite written_block; reflexivity).
  assert (BE : match body with Some b => b | None => [] end = concat chunks) by (unfold body; destruct (concat chunks); reflexivity).
  destruct (put_response_ok (y_status y) s (h_map hh) d rs body R AT) as (h & r & PR & X & O & CO & RR & V1 & V2 & V3 & V4).
  destruct (relay_ok h r d X O CO RR) as (h' & r' & RL & OO & RR' & VW).
  exists h', r', d, rs. split.
  { unfold callback_get. rewrite F. cbn [bind]. rewrite OG. unfold receive. rewrite WH. cbn [bind snd fst]. rewrite DN, WB. cbn [bind snd fst]. rewrite GB. cbn [bind snd fst]. rewrite OW. cbn [bind]. rewrite YC, RC. cbn [bind]. rewrite P, MC, PR. exact RL. }
  split; [exact OO|]. unfold view_resp in VW. injection VW as W1 _ _ _ _ W2 W3 W4 _ _. rewrite BE in V2, V3.
  split; [split; [|split; [|split; [|split]]]; cbn [sn_status sn_fields sn_body sn_cookies]; [congruence|exact RR'|congruence|congruence|congruence]|].
  split; [intros name; rewrite G; reflexivity|]. auto.
Qed.
Print Assumptions C119_answer_partial.

Definition text_lines (l : list string) : list str := map (fun s => bs s ++ [13; 10]) l.
Definition ex_reply : reply := mk_reply (text_lines ["HTTP/1.1 404 Not Found"; "X-A: 1"; "x-a: 2"; "Server: w"; ""])%string [(block_of (bs "no"), 1, 2); (block_of (bs "ne"), 2, 1)] true 404 (map netscape [ck "e" "" false; ck "a" "1" true]).
(** what a client sees *)
Definition seen (x : outcome (heap * hresp)) :=
  do y <- x; do v <- each (hr_header (snd y)) (fun l k v => Ret (l ++ [(k, v)])) (keys (hr_header (snd y))) [];
  Ret (hr_status (snd y), v, view_body (fst y) (hr_body (snd y)) (hr_body_length (snd y)), map (fun k => (ptr_value (fst y) (hc_key k), ptr_value (fst y) (hc_value k))) (hr_cookies (snd y))).
Lemma bare_text : forall s, match s with [] => true | c :: _ => negb (StrModel.isspace c) end = true -> match rev s with [] => true | c :: _ => negb (StrModel.isspace c) end = true -> bare s.
Proof. intros s A B. split; intros c r E; rewrite E in *; [now apply negb_true_iff|rewrite rev_app_distr in B; now apply negb_true_iff]. Qed.
Lemma field_text : forall n v : string, bs n <> [] -> bare (bs n) -> ~ In 58 (bs n) -> bare (bs v) -> cstrb (bs n) = true -> cstrb (bs v) = true -> written_as (Field (bs n) (bs v)) (bs n ++ [58] ++ [32] ++ bs v ++ [13; 10]).
Proof. intros n v A B C D E F. apply wa_field; try assumption; try discriminate; try (repeat constructor); now apply cstrb_cstr. Qed.
Lemma status_text : forall s : string, bs s <> [] -> bare (bs s) -> ~ In 58 (bs s) -> written_as (Status (bs s)) (bs s ++ [13; 10]).
Proof. intros s A B C. apply wa_status; try assumption. repeat constructor. Qed.
Ltac plain_text := try apply bare_text; try reflexivity; try discriminate; cbn; intuition discriminate.
Example C119_answer_ex : seen (callback_get yes (fun _ => ex_reply) ex_q) =
  Ret (404, [(bs "x-a", Some (bs "1, 2")); (bs "Server", Some (bs "w"))], bs "none", [(Some (bs "e"), Some []); (Some (bs "a"), Some (bs "1"))]) /\
  (exists opts, forward yes ex_q = Ret (Some opts)) /\ Forall2 delivers (y_pieces ex_reply) [bs "no"; bs "ne"] /\
  Forall2 written_as [Status (bs "HTTP/1.1 404 Not Found"); Field (bs "X-A") (bs "1"); Field (bs "x-a") (bs "2"); Field (bs "Server") (bs "w"); Blank] (y_lines ex_reply).
Proof.
  split; [vm_compute; reflexivity|]. split; [eexists; vm_compute; reflexivity|]. split; [repeat (apply Forall2_cons; [repeat split; vm_compute; congruence|]); apply Forall2_nil|].
  apply Forall2_cons; [apply (status_text "HTTP/1.1 404 Not Found"); plain_text|].
  apply Forall2_cons; [apply (field_text "X-A" "1")%string; plain_text|].
  apply Forall2_cons; [apply (field_text "x-a" "2")%string; plain_text|].
  apply Forall2_cons; [apply (field_text "Server" "w")%string; plain_text|].
  apply Forall2_cons; [apply (wa_blank [13; 10]); repeat constructor|apply Forall2_nil].
Qed.

(** Refuted: an origin that does not answer. For every request and whatever the server does, when the transfer fails the client gets the status 200, none of the
    body and no cookie; when no header came the answer is empty. *)
Theorem C119_down_refuted : forall c origin q opts h, forward c q = Ret (Some opts) -> y_done (origin opts) = false -> write_headers (headers0 0) (y_lines (origin opts)) = Ret h -> 
  (exists d, repr (h_map (snd h)) d) -> exists g r, callback_get c origin q = Ret (g, r) /\ hr_status r = 200 /\ hr_body r = None /\ hr_body_length r = 0 /\ hr_cookies r = [].
Proof.
  intros c origin q opts h F DN W (d & R). unfold callback_get. rewrite F. cbn [bind]. unfold receive. rewrite W. cbn [bind]. rewrite DN.
  destruct (h_protocol (snd h)) as [s|].
  - destruct R as (es & L & OK & _). destruct (copy_layout _ _ L OK) as (nm & M & _). unfold relay, put_response, copy_response. cbn [put_text put_jar halloc fst snd bind hr_protocol hr_realm hr_header hr_cookies hstrdup hread nth_error app].
    cbn. rewrite M. cbn. eexists _, _. split; [reflexivity|]. repeat split.
  - cbn. eexists _, _. split; [reflexivity|]. repeat split.
Qed.
Print Assumptions C119_down_refuted.
(** in the middle of the body, after the header fields *)
Example C119_down_ex : seen (callback_get yes (fun _ => mk_reply (text_lines ["HTTP/1.1 404 Not Found"; "Content-Length: 9"])%string [(block_of (bs "part"), 1, 4)] false 404 []) ex_q) = Ret (200, [(bs "Content-Length", Some (bs "9"))], [], []) /\
  seen (callback_get yes (fun _ => no_reply) ex_q) = Ret (200, [], [], []).
Proof. split; vm_compute; reflexivity. Qed.

(** Refuted: compressed answers. "Accept-Encoding" of the client becomes CURLOPT_ACCEPT_ENCODING, so libcurl hands over the plain text, and the field
    Content-Encoding of the origin is given to the client with it, and the length of the compressed text. For every decoder and every body. *)
Theorem C119_gzip_refuted : exists q opts, forward yes q = Ret (Some opts) /\ decodes opts = true /\
  forall unzip raw, zlen (unzip raw) + 1 < two64 ->
  let y := mk_reply (text_lines ["HTTP/1.1 200 OK"; "Content-Encoding: gzip"])%string [(block_of (handed unzip opts raw), 1, zlen (handed unzip opts raw))] true 200 [] in
  exists h r d, callback_get yes (fun _ => y) q = Ret (h, r) /\ repr (hr_header r) d /\ sval_case d (bs "Content-Encoding") = Some (bs "gzip") /\
    view_body h (hr_body r) (hr_body_length r) = unzip raw.
Proof.
  exists (ask "GET" "/" [] [(bs "Accept-Encoding", Some (bs "gzip"))] [] [] None). eexists. split; [vm_compute; reflexivity|]. split; [vm_compute; reflexivity|]. intros unzip raw W y.
  edestruct (C119_answer_partial yes (fun _ => y) (ask "GET" "/" [] [(bs "Accept-Encoding", Some (bs "gzip"))] [] [] None)) with (ls := [Status (bs "HTTP/1.1 200 OK"); Field (bs "Content-Encoding") (bs "gzip")]) (chunks := [unzip raw]) (empty := @nil curl_cookie) (valued := @nil curl_cookie)
    as (h & r & d & rs & CB & _ & (_ & RR & VB & _) & G & _); [vm_compute; reflexivity|reflexivity|reflexivity| | |reflexivity| | |reflexivity|constructor|constructor|constructor|].
  - apply Forall2_cons; [apply (status_text "HTTP/1.1 200 OK"); plain_text|]. apply Forall2_cons; [apply (field_text "Content-Encoding" "gzip")%string; plain_text|apply Forall2_nil].
  - vm_compute. reflexivity.
  - apply Forall2_cons; [|apply Forall2_nil]. pose proof (zlen_nonneg _ (unzip raw)). split; [reflexivity|]. split; [vm_compute; discriminate|]. split; [exact H|]. apply Z.mul_1_l.
  - cbn [concat]. rewrite app_nil_r. exact W.
  - exists h, r, d. split; [exact CB|]. split; [exact RR|]. split; [rewrite G; vm_compute; reflexivity|]. cbn [sn_body concat] in VB. rewrite app_nil_r in VB. exact VB.
Qed.
Print Assumptions C119_gzip_refuted.

(** Refuted: cookies. The field Set-Cookie is given to the client as the other fields are, two of them joined by a comma, and every cookie is given once more,
    with Expires a number, Secure for a cookie that is not secure, and without what only the field says (SameSite, HttpOnly, Max-Age). *)
Theorem C119_cookies_refuted : exists y h r, y_done y = true /\
  y_lines y = text_lines ["HTTP/1.1 200 OK"; "Set-Cookie: a=1; Path=/; SameSite=Lax"; "Set-Cookie: b=2; Path=/"]%string /\ y_cookies y = map netscape [ck "a" "1" false; ck "b" "2" false] /\
  callback_get yes (fun _ => y) ex_q = Ret (h, r) /\ get_case_str (hr_header r) (Some (bs "Set-Cookie")) = Ret (Some (bs "a=1; Path=/; SameSite=Lax, b=2; Path=/")) /\
  map (view_cookie h) (hr_cookies r) = map (fun p => (Some (bs (fst p)), Some (bs (snd p)), Some (bs "0"), Some (bs "example.com"), Some (bs "/"), [0; 1; 0; 0])) [("a", "1"); ("b", "2")]%string.
Proof.
  eexists (mk_reply (text_lines ["HTTP/1.1 200 OK"; "Set-Cookie: a=1; Path=/; SameSite=Lax"; "Set-Cookie: b=2; Path=/"])%string [] true 200 (map netscape [ck "a" "1" false; ck "b" "2" false])), _, _.
  split; [reflexivity|]. split; [reflexivity|]. split; [reflexivity|]. split; [vm_compute; reflexivity|].
  split; vm_compute; reflexivity.
Qed.
Print Assumptions C119_cookies_refuted.

(** Refuted: status lines. With a colon in the reason phrase (which RFC 9112 allows) no protocol is recorded, ulfius_copy_response takes that for a lack of
    memory, its result is not looked at, and the client gets the status and nothing else: for every body. *)
Theorem C119_reason_refuted : forall chunks, zlen (concat chunks) + 1 < two64 ->
  let y := mk_reply (text_lines ["HTTP/1.1 200 OK: fine"; "Content-Type: text/html"])%string (map (fun c => (block_of c, 1, zlen c)) chunks) true 200 [] in
  exists h r, callback_get yes (fun _ => y) ex_q = Ret (h, r) /\ hr_status r = 200 /\ hr_header r = u_map_init /\ hr_body r = None /\ hr_body_length r = 0.
Proof.
  intros chunks W y. destruct (C51_body_exact 0 (y_pieces y) chunks ltac:(lia)) as (b & WB & GB & _); [|exact W|].
  { unfold y. cbn [y_pieces]. clear. induction chunks as [|c l IH]; [constructor|]. cbn [map]. constructor; [|exact IH]. pose proof (zlen_nonneg _ c). split; [reflexivity|]. cbn [fst snd]. split; [lia|]. split; [assumption|lia]. }
  change (kept 0 (concat chunks)) with (concat chunks) in GB. unfold callback_get. destruct (forward yes ex_q) as [o|k] eqn:F; [|vm_compute in F; discriminate]. cbn [bind].
  assert (RY : match o with Some _ => y | None => no_reply end = y) by (destruct o; [reflexivity|vm_compute in F; discriminate]). rewrite RY.
  unfold receive. destruct (write_headers (headers0 0) (y_lines y)) as [hh|k] eqn:WH; [|vm_compute in WH; discriminate]. cbn [bind]. change (y_done y) with true. cbv iota. rewrite WB. cbn [bind snd fst]. rewrite GB. cbn [bind snd fst].
  assert (OW : exists t, owritten (match concat chunks with [] => None | k => Some (block_of k) end) = Ret t) by (destruct (concat chunks) as [|z l]; [eexists; reflexivity|]; cbn [owritten]; rewrite written_block; eexists; reflexivity). destruct OW as (t & ->). cbn [bind].
  change (response_cookies (y_cookies y)) with (Ret empty_jar). cbn [bind].
  assert (HP : h_protocol (snd hh) = None) by (vm_compute in WH; injection WH as <-; reflexivity). rewrite HP. clear.
  unfold relay, put_response, copy_response. cbn [put_text fst snd]. destruct t as [t|]; cbn; eexists _, _; (split; [reflexivity|]); repeat split.
Qed.
Print Assumptions C119_reason_refuted.


