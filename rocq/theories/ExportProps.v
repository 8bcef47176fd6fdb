(** C74 and C75: requests and responses written as HTTP messages. *)
From Coq Require Import String ZArith Bool List Lia.
From Verif Require CookieSpec.
From Verif Require Import Base BaseFacts Dec UMapModel UMapSpec SMap SMapCase Utf8Spec YuarelModel YuarelSpec YuarelProofs YuarelProps HttpText CookieModel SendModel SendSpec SendProofs SendProps OpenModel OpenSpec OpenProofs
  ExportModel ExportSpec ExportProofs.
Import ListNotations.
Open Scope Z_scope.

Section Props.
Variable ah : Z -> bool.
Variable base64 : str -> option str.
Hypothesis base64_ok : forall s e, s <> [] -> base64 s = Some e -> e <> [] /\ Forall (fun c => 33 <= c) e.

(** a request whose texts can be written in a message *)
Definition sound (r : xreq) (u : url) (dp dh dc : smap) : Prop :=
  shape r u dp dh dc /\ oall one_line (x_verb r) /\ oall one_line (u_path u) /\ oall one_line (u_query u) /\ plain_host u /\ Forall field_ok dh /\ Forall cookie_ok dc.
Lemma sound_read : forall r u dp dh dc, sound r u dp dh dc -> 0 <= x_length r ->
  exists b fs, export_request ah base64 r = rest_of ah r (start_line ah (x_verb r) u dp ++ eol ++ W (lines ah base64 u dh dc (x_length r) (u_map_count (x_form r)) (x_user r) (x_password r))) b /\
    Forall2 writes (lines ah base64 u dh dc (x_length r) (u_map_count (x_form r)) (x_user r) (x_password r)) fs /\
    ~ In 13 (start_line ah (x_verb r) u dp) /\ start_ok (x_verb r) u dp (start_line ah (x_verb r) u dp) /\
    fields_ok u base64 dh dc (x_length r) (negb (u_map_count (x_form r) =? 0)) (user_of (x_user r) (x_password r)) fs.
Proof.
  intros r u dp dh dc (S & OV & OP & OQ & PH & FH & FC) N. destruct (export_eq ah base64 r u dp dh dc S) as (b & E). destruct S as (EU & U & L & P & PA & RP & NP & RH & RC).
  destruct (lines_read ah base64 base64_ok u dh dc (x_length r) (u_map_count (x_form r)) (x_user r) (x_password r) U P PH FH FC (repr_ovalues _ _ RC) N) as (fs & F1 & F2).
  exists b, fs. split; [exact E|split; [exact F1|]]. pose proof (target_fine ah u dp U NP (repr_ovalues _ _ RP) OP OQ) as T. split; [|split; [|exact F2]].
  - unfold start_line. destruct T as (T & _). rewrite !in_app_iff. intros [I|[I|[I|I]]]; [|cbn in I; intuition discriminate|now apply T|cbn in I; intuition discriminate].
    destruct (x_verb r); [now apply OV|cbn in I; intuition discriminate].
  - eexists. split; [reflexivity|exact T].
Qed.

(** C74, with a body: the message reads as the request, its content is the body followed by a line end that does not belong to it *)
Theorem C74_body_partial : forall r u dp dh dc body rest, sound r u dp dh dc -> x_body r = Some (block_of body ++ rest) -> x_length r = zlen body -> body <> [] -> ~ In 0 body -> zlen body < 2147483648 ->
  exists out b start fs, export_request ah base64 r = Ret (Some out, b) /\ read_message out = Some (start, fs, body ++ eol) /\
    start_ok (x_verb r) u dp start /\ fields_ok u base64 dh dc (zlen body) (negb (u_map_count (x_form r) =? 0)) (user_of (x_user r) (x_password r)) fs.
Proof.
  intros r u dp dh dc body rest S EB EL NE N0 L. assert (LP : 0 < zlen body) by (destruct body; [congruence|unfold zlen; cbn [length]; lia]).
  destruct (sound_read r u dp dh dc S ltac:(lia)) as (b & fs & E & F1 & F2 & F3 & F4). rewrite E. unfold rest_of. rewrite EL in *. replace (zlen body =? 0) with false by (symmetry; apply Z.eqb_neq; lia). cbn [negb].
  rewrite EB, (print_block body rest N0 L). cbn [bind]. eexists _, _, _, _. split; [reflexivity|]. split; [|split; [exact F3|exact F4]].
  change nl with eol. rewrite <- !app_assoc. apply read_message_intro; [exact F2|exact F1].
Qed.
(** C74, with a form and no body: the content is the form *)
Theorem C74_form_partial : forall r u dp dh dc df, sound r u dp dh dc -> x_length r = 0 -> repr (x_form r) df -> df <> [] -> Forall (form_entry (x_form r)) df -> sval dh (bs "Content-Type") = None ->
  exists out b start fs body, export_request ah base64 r = Ret (Some out, b) /\ read_message out = Some (start, fs ++ [(bs "Content-Length", udec (zlen body))], body) /\
    start_ok (x_verb r) u dp start /\ fields_ok u base64 dh dc 0 true (user_of (x_user r) (x_password r)) fs /\ read_pairs body = Some df.
Proof.
  intros r u dp dh dc df S EL RF NE FE CT. destruct (sound_read r u dp dh dc S ltac:(lia)) as (b & fs & E & F1 & F2 & F3 & F4). rewrite E. unfold rest_of. rewrite EL in *. cbn [Z.eqb negb].
  assert (CN : u_map_count (x_form r) =? 0 = false) by (rewrite (repr_count _ _ RF); apply Z.eqb_neq; destruct df; [congruence|unfold zlen; cbn [length]; lia]). rewrite CN in *. cbn [negb] in *.
  destruct S as ((_ & _ & _ & _ & _ & _ & _ & RH & _) & _). rewrite (repr_get _ _ _ RH), CT. cbn [bind].
  destruct (form_text ah (x_form r) df RF NE FE) as (T1 & T2 & T3). rewrite T1. cbn [bind]. rewrite T2. eexists _, _, (start_line ah (x_verb r) u dp), fs, _. split; [reflexivity|]. split; [|split; [exact F3|split; [exact F4|exact T3]]].
  set (body := join_with [38] (map (etext ah) df)). destruct (udec_line (zlen body) ltac:(unfold zlen; lia)) as (D1 & D2 & _).
  assert (X : Forall2 writes (lines ah base64 u dh dc 0 (u_map_count (x_form r)) (x_user r) (x_password r) ++ [bs "Content-Length" ++ bs ": " ++ udec (zlen body)]) (fs ++ [(bs "Content-Length", udec (zlen body))])).
  { apply Forall2_app; [exact F1|]. constructor; [|constructor]. now apply name_line. }
  pose proof (read_message_intro _ _ _ body F2 X) as Y. fold (W (lines ah base64 u dh dc 0 (u_map_count (x_form r)) (x_user r) (x_password r) ++ [bs "Content-Length" ++ bs ": " ++ udec (zlen body)])) in Y. rewrite W_app, W1 in Y. etransitivity; [|exact Y]. f_equal. unfold nl, eol. rewrite <- !app_assoc. reflexivity.
Qed.
(** C74 fails for every request without a body and without a form: the empty line that ends the header is not written. With it, the text would be the request. *)
Theorem C74_no_body_refuted : forall r u dp dh dc, sound r u dp dh dc -> x_length r = 0 -> repr (x_form r) [] ->
  exists out b, export_request ah base64 r = Ret (Some out, b) /\ read_message out = None /\
    exists start fs, read_message (out ++ eol) = Some (start, fs, []) /\ start_ok (x_verb r) u dp start /\ fields_ok u base64 dh dc 0 false (user_of (x_user r) (x_password r)) fs.
Proof.
  intros r u dp dh dc S EL RF. destruct (sound_read r u dp dh dc S ltac:(lia)) as (b & fs & E & F1 & F2 & F3 & F4). rewrite E. unfold rest_of. rewrite EL in *. cbn [Z.eqb negb].
  assert (CN : u_map_count (x_form r) = 0) by (rewrite (repr_count _ _ RF); reflexivity). rewrite CN in *. cbn [Z.eqb negb] in *. eexists _, _. split; [reflexivity|]. split; [now apply (read_message_open _ _ fs)|].
  exists (start_line ah (x_verb r) u dp), fs. split; [|split; [exact F3|exact F4]]. pose proof (read_message_intro _ _ _ [] F2 F1) as Y. rewrite app_nil_r in Y. etransitivity; [|exact Y]. f_equal. unfold W. rewrite <- !app_assoc. reflexivity.
Qed.
End Props.
Print Assumptions C74_body_partial.
Print Assumptions C74_form_partial.
Print Assumptions C74_no_body_refuted.

(** ** A concrete request *)
Definition asciis (b : Z) : bool := false.
Definition b64_one (s : str) : option str := if str_eqb s (bs "al:pw") then Some (bs "YWw6cHc=") else None.
Lemma b64_one_ok : forall s e, s <> [] -> b64_one s = Some e -> e <> [] /\ Forall (fun c => 33 <= c) e.
Proof. intros s e _. unfold b64_one. destruct (str_eqb s (bs "al:pw")); [|discriminate]. intros H. injection H as <-. split; [discriminate|]. repeat constructor; discriminate. Qed.
Definition ex_u : url := mk_url (bs "http") None (bs "h.org") (Some 8080) (Some (bs "a b")) (Some (bs "x=1")) None.
Definition ex_headers : smap := [(bs "X-A", Some (bs "one")); (bs "X-B", None)].
Definition ex_cookies : smap := [(bs "sid", Some (bs "a b;c"))].
Definition ex_params : smap := [(bs "k&", Some (bs "v=1")); (bs "flag", None)].
Definition ex_form : smap := [(bs "name", Some (bs "J D")); (bs "e", Some [])].
Definition xr (form : smap) (body : option buf) (n : Z) : xreq :=
  mk_xreq (Some (bs "POST")) (Some (cblock (url_text ex_u))) (map_of ex_params) (map_of ex_headers) (map_of ex_cookies) (map_of form) body n (Some (bs "al")) (Some (bs "pw")).
Ltac none := let I := fresh in intros I; cbn in I; intuition discriminate.
Lemma ex_url_ok : url_ok ex_u.
Proof.
  assert (W : forall (chars : string) s, cstrb s = true -> forallb (fun c => negb (existsb (Z.eqb c) s)) (bs chars) = true -> without chars s).
  { intros chars s C H. split; [now apply cstrb_true|]. rewrite forallb_forall in H. apply Forall_forall. intros c I J. apply H in I. apply negb_true_iff in I. rewrite <- not_true_iff_false in I. apply I. apply existsb_exists. exists c. split; [exact J|apply Z.eqb_refl]. }
  unfold url_ok, ex_u. cbn [u_scheme u_user u_host u_port u_path u_query u_fragment oall]. repeat (split; [first [discriminate | exact I | apply W; reflexivity | lia]|]). exact I.
Qed.
Lemma ex_sound : forall form body n, sound (xr form body n) ex_u ex_params ex_headers ex_cookies.
Proof.
  intros form body n. unfold sound, shape. cbn [x_url x_verb x_params x_headers x_cookies xr].
  split; [split; [reflexivity|split; [exact ex_url_ok|split; [reflexivity|split; [unfold port_ok; cbn [u_port ex_u]; lia|split; [discriminate|]]]]]|].
  - split; [exact (repr_map_of ex_params eq_refl)|]. split; [repeat constructor; vm_compute; try discriminate; reflexivity|]. split; [exact (repr_map_of ex_headers eq_refl)|exact (repr_map_of ex_cookies eq_refl)].
  - cbn [u_path u_query ex_u oall]. split; [none|split; [none|split; [none|split; [split; [none|vm_compute; repeat split; discriminate]|]]]]. split.
    + repeat constructor; cbn [fst snd value]; try discriminate; try none; vm_compute; discriminate.
    + constructor; [|constructor]. unfold cookie_ok. cbn [fst]. split; [apply cstrb_true; reflexivity|]. split; [none|]. vm_compute. repeat split; discriminate.
Qed.
Example C74_example : sound (xr [] (Some (block_of (bs "hello"))) 5) ex_u ex_params ex_headers ex_cookies /\
  exists out b, export_request asciis b64_one (xr [] (Some (block_of (bs "hello"))) 5) = Ret (Some out, b) /\
  read_message out = Some (bs "POST /a%20b?x=1&k%26=v%3D1&flag HTTP/1.1",
    [(bs "Host", bs "h.org:8080"); (bs "X-A", bs "one"); (bs "X-B", []); (bs "Cookie", bs "sid=a+b%3Bc"); (bs "Content-Length", bs "5"); (bs "Authorization", bs "Basic YWw6cHc=")], bs "hello" ++ eol).
Proof. split; [apply ex_sound|]. eexists _, _. split; vm_compute; reflexivity. Qed.
Example C74_form_example : Forall (form_entry (map_of ex_form)) ex_form /\ exists out b fs body, export_request asciis b64_one (xr ex_form None 0) = Ret (Some out, b) /\
  read_message out = Some (bs "POST /a%20b?x=1&k%26=v%3D1&flag HTTP/1.1", fs, body) /\ body = bs "name=J+D&e=" /\ last fs ([], []) = (bs "Content-Length", bs "11").
Proof.
  split.
  - constructor; [|constructor; [|constructor]]; (split; [apply cstrb_true; reflexivity|]).
    + exists (bs "J D"), 4. split; [reflexivity|]. split; [exists (bs "J D"); split; [repeat constructor; lia|reflexivity]|]. split; [vm_compute; reflexivity|]. split; [lia|right; reflexivity].
    + exists [], 1. split; [reflexivity|]. split; [exists []; split; [constructor|reflexivity]|]. split; [vm_compute; reflexivity|]. split; [lia|right; reflexivity].
  - eexists _, _, _, _. split; [vm_compute; reflexivity|]. split; [vm_compute; reflexivity|]. split; vm_compute; reflexivity.
Qed.

(** ** What does not hold *)
(** The URL of the request is cut into pieces: exporting twice gives a message, then nothing. *)
Theorem C74_url_kept_refuted : exists r out b, sound r ex_u ex_params ex_headers ex_cookies /\ export_request asciis b64_one r = Ret (Some out, Some b) /\ read_cstr b = Ret (bs "http") /\
  export_request asciis b64_one (mk_xreq (x_verb r) (Some b) (x_params r) (x_headers r) (x_cookies r) (x_form r) (x_body r) (x_length r) (x_user r) (x_password r)) = Ret (None, Some b).
Proof.
  exists (xr [] (Some (block_of (bs "hello"))) 5). eexists _, _. split; [apply ex_sound|]. split; [vm_compute; reflexivity|]. split; vm_compute; reflexivity.
Qed.
(** A URL with neither path, query nor parameters: NULL is printed. *)
Definition bare (url : string) (params headers form : smap) (body : option buf) (n : Z) : xreq := mk_xreq None (Some (cblock (bs url))) (map_of params) (map_of headers) u_map_init (map_of form) body n None None.
Theorem C74_no_path_refuted : export_request asciis b64_one (bare "http://h.org" [] [] [] None 0) = UB NullDeref.
Proof. vm_compute. reflexivity. Qed.
(** A URL that is only a path, as a server sees it *)
Theorem C74_relative_refuted : export_request asciis b64_one (bare "/a" [] [] [] None 0) = UB NullDeref.
Proof. vm_compute. reflexivity. Qed.
(** A body with a NUL: fewer bytes than the length announced *)
Theorem C74_nul_refuted : exists out b fs, export_request asciis b64_one (bare "http://h/p" [] [] [] (Some (block_of [97; 0; 98])) 3) = Ret (Some out, b) /\
  read_message out = Some (bs "GET /p HTTP/1.1", fs, bs "a" ++ eol) /\ In (bs "Content-Length", bs "3") fs.
Proof. eexists _, _, _. split; [vm_compute; reflexivity|]. split; [vm_compute; reflexivity|]. repeat split; vm_compute; repeat (first [left; reflexivity | right]). Qed.
(** A NULL value in a form, or one that is not UTF-8: the name is written as it is behind a question mark *)
Theorem C74_form_refuted : exists out b fs, export_request asciis b64_one (bare "http://h/p" [] [] [(bs "a&b", None)] None 0) = Ret (Some out, b) /\ read_message out = Some (bs "GET /p HTTP/1.1", fs, bs "?a&b").
Proof. eexists _, _, _. split; vm_compute; reflexivity. Qed.
Theorem C74_form_binary_refuted : exists out b fs, export_request asciis b64_one (bare "http://h/p" [] [] [(bs "k", Some [255])] None 0) = Ret (Some out, b) /\ read_message out = Some (bs "GET /p HTTP/1.1", fs, bs "?k").
Proof. eexists _, _, _. split; vm_compute; reflexivity. Qed.
(** The length of the content given twice, with different values *)
Theorem C74_length_twice_refuted : exists out b fs body, export_request asciis b64_one (bare "http://h/p" [] [(bs "content-length", Some (bs "99"))] [(bs "k", Some (bs "v"))] None 0) = Ret (Some out, b) /\
  read_message out = Some (bs "GET /p HTTP/1.1", fs, body) /\ In (bs "content-length", bs "99") fs /\ In (bs "Content-Length", bs "3") fs.
Proof. eexists _, _, _, _. split; [vm_compute; reflexivity|]. split; [vm_compute; reflexivity|]. repeat split; vm_compute; repeat (first [left; reflexivity | right]). Qed.
(** A line end in a header starts a new field *)
Theorem C74_injection_refuted : exists out b fs body, export_request asciis b64_one (bare "http://h/p" [] [(bs "X", Some (bs "1" ++ eol ++ bs "Y: 2"))] [] (Some (block_of (bs "b"))) 1) = Ret (Some out, b) /\
  read_message out = Some (bs "GET /p HTTP/1.1", fs, body) /\ In (bs "Y", bs "2") fs.
Proof. eexists _, _, _, _. split; [vm_compute; reflexivity|]. split; [vm_compute; reflexivity|]. repeat split; vm_compute; repeat (first [left; reflexivity | right]). Qed.
Print Assumptions C74_url_kept_refuted.

(** ** C75 *)
Definition sound_response (r : xres) (dh : smap) : Prop := repr (z_headers r) dh /\ 0 <= z_status r /\ Forall field_ok dh /\ Forall line_cookie (z_cookies r) /\ named dh (bs "Set-Cookie") = false.
Lemma status_line : forall n, 0 <= n -> bs "HTTP/1.1 " ++ sdec n = bs "HTTP/1.1 " ++ udec n /\ ~ In 13 (bs "HTTP/1.1 " ++ udec n).
Proof.
  intros n N. unfold sdec. replace (n <? 0) with false by (symmetry; apply Z.ltb_ge; lia). split; [reflexivity|]. rewrite in_app_iff. intros [I|I]; [cbn in I; intuition discriminate|]. now apply (proj1 (udec_line n N)).
Qed.
Theorem C75_body_partial : forall r dh body rest, sound_response r dh -> z_body r = Some (block_of body ++ rest) -> z_length r = zlen body -> body <> [] -> ~ In 0 body -> zlen body < 2147483648 ->
  exists out fs, export_response r = Ret out /\ read_message out = Some (bs "HTTP/1.1 " ++ udec (z_status r), fs, body ++ eol) /\ response_fields_ok dh (z_cookies r) (zlen body) fs.
Proof.
  intros r dh body rest (RH & N & FH & FC & NC) EB EL NE N0 L. assert (LP : 0 < zlen body) by (destruct body; [congruence|unfold zlen; cbn [length]; lia]).
  destruct (rlines_read dh (z_cookies r) (zlen body) FH NC FC ltac:(lia)) as (fs & F1 & F2). rewrite (export_response_eq r dh RH). unfold rest_response. rewrite EL. replace (zlen body =? 0) with false by (symmetry; apply Z.eqb_neq; lia). cbn [negb].
  rewrite EB, (print_block body rest N0 L). cbn [bind]. eexists _, fs. split; [reflexivity|]. split; [|exact F2]. destruct (status_line (z_status r) N) as [S1 S2]. rewrite S1. pose proof (read_message_intro _ _ _ (body ++ eol) S2 F1) as Y. etransitivity; [|exact Y]. f_equal. unfold W. rewrite <- !app_assoc. reflexivity.
Qed.
Theorem C75_no_body_partial : forall r dh, sound_response r dh -> z_length r = 0 ->
  exists out fs, export_response r = Ret out /\ read_message out = Some (bs "HTTP/1.1 " ++ udec (z_status r), fs, []) /\ response_fields_ok dh (z_cookies r) 0 fs.
Proof.
  intros r dh (RH & N & FH & FC & NC) EL. destruct (rlines_read dh (z_cookies r) 0 FH NC FC ltac:(lia)) as (fs & F1 & F2). rewrite (export_response_eq r dh RH). unfold rest_response. rewrite EL. cbn [Z.eqb negb].
  eexists _, fs. split; [reflexivity|]. split; [|exact F2]. destruct (status_line (z_status r) N) as [S1 S2]. rewrite S1. pose proof (read_message_intro _ _ _ [] S2 F1) as Y. rewrite app_nil_r in Y. etransitivity; [|exact Y]. f_equal. unfold W. rewrite <- !app_assoc. reflexivity.
Qed.
Print Assumptions C75_body_partial.
Print Assumptions C75_no_body_partial.
Definition ex_cookie : cookie := mk_cookie (bs "sid") (bs "a1") (Some (bs "Wed, 21 Oct 2026 07:28:00 GMT")) 60 None (Some (bs "/")) 1 0 2.
Definition ex_res (headers : smap) : xres := mk_xres 200 (map_of headers) [ex_cookie] (Some (block_of (bs "hi"))) 2.
Example C75_example : sound_response (ex_res ex_headers) ex_headers /\ exists out, export_response (ex_res ex_headers) = Ret out /\
  read_message out = Some (bs "HTTP/1.1 200", [(bs "X-A", bs "one"); (bs "X-B", []); (bs "Set-Cookie", bs "sid=a1; Expires=Wed, 21 Oct 2026 07:28:00 GMT; Max-Age=60; Path=/; Secure; SameSite=Lax"); (bs "Content-Length", bs "2")], bs "hi" ++ eol).
Proof.
  split.
  - split; [exact (repr_map_of ex_headers eq_refl)|]. split; [cbn; lia|]. split; [repeat constructor; cbn [fst snd value]; try discriminate; try none; vm_compute; discriminate|]. split; [|reflexivity].
    constructor; [|constructor]. unfold line_cookie, ex_cookie. cbn [ck_key ck_value ck_expires ck_domain ck_path ck_max_age oall]. split.
    + unfold CookieSpec.plain_cookie, CookieSpec.no_semicolon. cbn [ck_key ck_value ck_expires ck_domain ck_path]. repeat split; try none; intros s H; try discriminate; injection H as <-; none.
    + split; [lia|]. split; [discriminate|]. repeat (split; [first [exact I | split; [none|vm_compute; repeat split; discriminate]]|]). split; [none|vm_compute; repeat split; discriminate].
  - eexists. split; vm_compute; reflexivity.
Qed.
(** With a Set-Cookie header of its own the response loses all its cookies. *)
Theorem C75_cookies_lost_refuted : exists out fs body, export_response (ex_res [(bs "set-cookie", Some (bs "x=1"))]) = Ret out /\ read_message out = Some (bs "HTTP/1.1 200", fs, body) /\
  fs = [(bs "set-cookie", bs "x=1"); (bs "Content-Length", bs "2")].
Proof. eexists _, _, _. split; [vm_compute; reflexivity|]. split; [vm_compute; reflexivity|]. vm_compute. reflexivity. Qed.
Theorem C75_nul_refuted : exists out fs, export_response (mk_xres 200 u_map_init [] (Some (block_of [97; 0; 98])) 3) = Ret out /\ read_message out = Some (bs "HTTP/1.1 200", fs, bs "a" ++ eol) /\ fs = [(bs "Content-Length", bs "3")].
Proof. eexists _, _. split; [vm_compute; reflexivity|]. split; vm_compute; reflexivity. Qed.
