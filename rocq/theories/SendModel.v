(** Model of the HTTP and mail client: src/u_send_request.c, the part before curl_easy_perform. No proofs. *)
From Coq Require Import String ZArith Bool List.
From Verif Require Import Base UMapModel SMap ClientModel Dec.
Import ListNotations.
Open Scope Z_scope.

(** One call of curl_easy_setopt: the option and its value. NULL is [None]. The option names are libcurl's. *)
Inductive opt :=
| AcceptEncoding (s : option str) | RedirProtocols (s : str) | Protocols (s : str)
| HttpAuthBasic | Username (s : str) | Password (s : str)
| SslCert (s : str) | SslKey (s : str) | KeyPasswd (s : str)
| NoProgress | Proxy (s : str) | FollowLocation | IpResolve (n : Z)
| PostFieldSize (n : Z) | PostFieldSizeLarge (n : Z) | PostFields (b : buf)
| CookieText (s : option str) | Url (s : option str) | CustomRequest (s : str) | HttpHeader (l : list str)
| WriteFunction | WriteData
| VerifyPeer (n : Z) | VerifyHost (n : Z) | ProxyVerifyPeer (n : Z) | ProxyVerifyHost (n : Z)
| CaPath (s : str) | Timeout (n : Z) | HeaderFunction | WriteHeader | NoSignal | CookieFile (s : str)
| UseSsl | MailFrom (s : str) | MailRcpt (l : list str) | ReadFunction | ReadData (s : str) | Upload.

(** libcurl's answer to each call may depend on the calls before it; true is CURLE_OK *)
Definition curl := list opt -> opt -> bool.

(** [None]: an option was refused, the function leaves its loop with U_ERROR_LIBCURL *)
Definition obind {A B} (e : outcome (option A)) (f : A -> outcome (option B)) : outcome (option B) :=
  do x <- e; match x with None => Ret None | Some a => f a end.
Notation "'try' x <- e ; f" := (obind e (fun x => f)) (at level 61, x pattern, e at next level, right associativity).

(** a series of curl_easy_setopt calls, left at the first refusal; the list is all the options set so far *)
Fixpoint set_all (c : curl) (done todo : list opt) : option (list opt) :=
  match todo with
  | [] => Some done
  | o :: r => if c done o then set_all c (done ++ [o]) r else None
  end.
Definition setopts (c : curl) (done todo : list opt) : outcome (option (list opt)) := Ret (set_all c done todo).

(** libcurl's documentation of curl_easy_escape: bytes other than A-Z a-z 0-9 - . _ ~ become %NN with upper case digits
    (length 0: the length is strlen). It is taken from libcurl, not from /repo; memory does not run out. *)
Definition unreserved (c : Z) : bool :=
  ((48 <=? c) && (c <=? 57)) || ((65 <=? c) && (c <=? 90)) || ((97 <=? c) && (c <=? 122)) || (c =? 45) || (c =? 46) || (c =? 95) || (c =? 126).
Definition hexd (n : Z) : Z := if n <? 10 then 48 + n else 55 + n.
Fixpoint curl_escape (s : str) : str :=
  match s with
  | [] => []
  | c :: r => (if unreserved c then [c] else [37; hexd (c / 16); hexd (c mod 16)]) ++ curl_escape r
  end.

(** orcania's str_replace of a space by %20 (NULL stays NULL) *)
Fixpoint no_space (s : str) : str := match s with [] => [] | c :: r => (if c =? 32 then bs "%20" else [c]) ++ no_space r end.
(** orcania's mstrcatf: a NULL source counts as the empty text *)
Definition catf (s : option str) (t : str) : option str := Some (match s with Some x => x ++ t | None => t end).

(** The loop "for (i=0; keys[i] != NULL; i++) { value = u_map_get(map, keys[i]); ... }" shared by the functions below; [ks] is what
    is left of the array of keys *)
Fixpoint each {S} (m : umap) (step : S -> str -> option str -> outcome S) (ks : list (option str)) (s : S) : outcome S :=
  match ks with
  | [] => UB OutOfBounds
  | None :: _ => Ret s
  | Some k :: r => do v <- get_str m k; do s' <- step s k v; each m step r s'
  end.

(** u_send_request.c:418-462 the URL and its parameters; fp is '?' (63), np is '&' (38) *)
Definition add_param (s : bool * option str) (k : str) (v : option str) : outcome (bool * option str) :=
  let (has_params, url) := s in
  let sep := if has_params then 38 else 63 in
  Ret (true, catf url (match v with Some v => sep :: curl_escape k ++ 61 :: curl_escape v | None => sep :: curl_escape k end)).
Definition request_url (http_url : option str) (map_url : umap) : outcome (option str) :=
  let url := option_map no_space http_url in
  let has_params := match url with Some u => has_char 63 u | None => false end in
  if 0 <? u_map_count map_url then do x <- each map_url add_param (keys map_url) (has_params, url); Ret (snd x) else Ret url.

(** u_send_request.c:464-504 the form; the first pair has no separator. The state is "i is not 0" and the body. *)
Definition add_form (s : bool * option str) (k : str) (v : option str) : outcome (bool * option str) :=
  let (next, body) := s in
  let sep := if next then [38] else [] in
  Ret (true, catf body (sep ++ match v with Some v => curl_escape k ++ 61 :: curl_escape v | None => curl_escape k end)).

(** u_send_request.c:541-570 the list of headers *)
Definition add_header (l : list str) (k : str) (v : option str) : outcome (list str) :=
  Ret (l ++ [match v with Some v => k ++ 58 :: v | None => k ++ [58] end]).

(** u_send_request.c:572-590 the text of the cookies *)
Definition add_cookie (cookies : option str) (k : str) (v : option str) : outcome (option str) :=
  let cookie := match v with Some v => k ++ 61 :: v | None => k ++ [58] end in
  Ret (match cookies with None => Some cookie | Some c => Some (c ++ 59 :: cookie) end).

(** ulfius.h: the fields of struct _u_request read by the client, as ulfius_duplicate_request copies them (CopyModel).
    The body is its block and its length. *)
Record hreq := mk_hreq { h_verb : option str; h_url : option str; h_user : option str; h_password : option str;
  h_cert : option str; h_key : option str; h_key_password : option str; h_proxy : option str; h_follow : Z; h_network : Z;
  h_headers : umap; h_params : umap; h_form : umap; h_cookies : umap; h_body : option buf; h_length : Z;
  h_check_server : Z; h_server_flag : Z; h_check_proxy : Z; h_proxy_flag : Z; h_ca_path : option str; h_timeout : Z }.

(** an optional text that is set only when it is not NULL *)
Definition when_some (f : str -> opt) (v : option str) : list opt := match v with Some x => [f x] | None => [] end.
Definition is_set (n : Z) : bool := negb (n =? 0).
(** U_SSL_VERIFY_PEER 0x0001, U_SSL_VERIFY_HOSTNAME 0x0010, U_USE_IPV6 0x0010, U_USE_ALL 0x0011 (ulfius.h:130-135) *)
Definition SSL_VERIFY_PEER : Z := 1.
Definition SSL_VERIFY_HOSTNAME : Z := 16.
Definition USE_IPV4 : Z := 1.
Definition USE_IPV6 : Z := 16.
Definition USE_ALL : Z := 17.
(** curl.h: CURL_IPRESOLVE_WHATEVER 0, V4 1, V6 2 *)
Definition IPRESOLVE_WHATEVER : Z := 0.
Definition IPRESOLVE_V4 : Z := 1.
Definition IPRESOLVE_V6 : Z := 2.

(** u_send_request.c:617-639 and 641-664 *)
Definition checks (peer host : Z -> opt) (check flag : Z) : list opt :=
  if negb (is_set check) then [peer 0; host 0]
  else (if is_set (Z.land flag SSL_VERIFY_PEER) then [] else [peer 0]) ++ (if is_set (Z.land flag SSL_VERIFY_HOSTNAME) then [] else [host 0]).

Definition form_type : str := bs "application/x-www-form-urlencoded".
Definition only_http : str := bs "http,https".

(** u_send_request.c:464-517 the body that is sent, its length and the headers: those of the request, or the form; [None]: the
    headers refuse the content type *)
Definition body_of (r : hreq) : outcome (option (option buf * Z * umap)) :=
  if 0 <? u_map_count (h_form r)
  then do x <- each (h_form r) add_form (keys (h_form r)) (false, None);
       do p <- u_map_put (h_headers r) (Some (bs "Content-Type")) (Some form_type);
       Ret (if fst p =? U_OK then Some (option_map cblock (snd x), match snd x with Some b => zlen b | None => 0 end, snd p) else None)
  else Ret (Some (h_body r, h_length r, h_headers r)).

(** u_send_request.c:281-703 ulfius_send_http_streaming_request_max_header up to curl_easy_perform, in the build with libcurl
    7.85 or later, GnuTLS and MHD 0.9.52.8 or later. [Some opts]: curl_easy_perform is called on a handle with these options,
    in the order they were set; [None]: it is not called and U_ERROR_LIBCURL is returned. [writer], [data], [heads]: a write
    function, write data and a response map are given. ulfius_duplicate_request and curl_easy_init succeed; curl_slist_append
    and curl_easy_escape do not run out of memory. Values passed to libcurl as int where a long is expected read as the same number. *)
Definition send_request (c : curl) (r : hreq) (writer data heads : bool) : outcome (option (list opt)) :=
  do has_accept <- u_map_has_key_case (h_headers r) (Some (bs "Accept-Encoding"));
  do accept <- (if has_accept then do v <- get_case_str (h_headers r) (Some (bs "Accept-Encoding")); Ret [AcceptEncoding v] else Ret []);
  try o <- setopts c [] (accept ++ [RedirProtocols only_http; Protocols only_http]);
  try o <- setopts c o (match h_user r, h_password r with Some u, Some p => [HttpAuthBasic; Username u; Password p] | _, _ => [] end);
  try o <- setopts c o (match h_cert r, h_key r with Some a, Some b => SslCert a :: SslKey b :: when_some KeyPasswd (h_key_password r) | _, _ => [] end);
  try o <- setopts c o (NoProgress :: when_some Proxy (h_proxy r) ++ (if is_set (h_follow r) then [FollowLocation] else []));
  try o <- setopts c o [IpResolve (if is_set (Z.land (h_network r) USE_ALL) then IPRESOLVE_WHATEVER
                                   else if is_set (Z.land (h_network r) USE_IPV6) then IPRESOLVE_V6 else IPRESOLVE_V4)];
  do url <- request_url (h_url r) (h_params r);
  do f <- body_of r;
  match f with
  | None => Ret None
  | Some (body, len, headers) =>
      try o <- setopts c o (match body with
                            | Some b => if is_set len then [if len <? 2147483648 then PostFieldSize len else PostFieldSizeLarge len; PostFields b] else []
                            | None => []
                            end);
      do hl <- (if 0 <? u_map_count headers then each headers add_header (keys headers) [] else Ret []);
      do ck <- (if 0 <? u_map_count (h_cookies r) then do t <- each (h_cookies r) add_cookie (keys (h_cookies r)) None; Ret [CookieText t] else Ret []);
      try o <- setopts c o ck;
      try o <- setopts c o [Url url; CustomRequest (match h_verb r with Some v => v | None => bs "GET" end); HttpHeader hl];
      try o <- setopts c o ((if writer then [WriteFunction] else []) ++ (if data then [WriteData] else []));
      try o <- setopts c o (checks VerifyPeer VerifyHost (h_check_server r) (h_server_flag r));
      try o <- setopts c o (checks ProxyVerifyPeer ProxyVerifyHost (h_check_proxy r) (h_proxy_flag r));
      try o <- setopts c o (when_some CaPath (h_ca_path r) ++ (if is_set (h_timeout r) then [Timeout (h_timeout r)] else []));
      try o <- setopts c o (if heads then [HeaderFunction; WriteHeader] else []);
      setopts c o [NoSignal; CookieFile []]
  end.

(** u_send_request.c:838-985 ulfius_send_smtp_rich_email up to curl_easy_perform. [date] is the text of strftime, the line
    "Date: ...". printf of a NULL content type is undefined behaviour. *)
Record mail := mk_mail { m_host : option str; m_port : Z; m_tls : Z; m_verify : Z; m_user : option str; m_password : option str;
  m_from : option str; m_to : option str; m_cc : option str; m_bcc : option str; m_type : option str; m_subject : option str; m_body : option str }.
Definition ln : str := [13; 10].
(** [Some (Some opts)]: curl_easy_perform is called; [Some None]: refused by libcurl; [None]: U_ERROR_PARAMS *)
Definition send_mail (c : curl) (date : str) (e : mail) : outcome (option (option (list opt))) :=
  match m_host e, m_from e, m_to e, m_body e with
  | Some host, Some from, Some to, Some body =>
      let port := if (m_port e =? 0) && negb (is_set (m_tls e)) then 25 else if (m_port e =? 0) && is_set (m_tls e) then 587 else m_port e in
      let url := bs "smtp" ++ (if is_set (m_tls e) then bs "s" else []) ++ bs "://" ++ host ++ bs ":" ++ sdec port in
      do x <- (try o <- setopts c [] [Url (Some url)];
               try o <- setopts c o (if is_set (m_tls e) then [UseSsl] else []);
               try o <- setopts c o (if is_set (m_tls e) && negb (is_set (m_verify e)) then [VerifyPeer 0; VerifyHost 0] else []);
               try o <- setopts c o (match m_user e, m_password e with Some u, Some p => [Username u; Password p] | _, _ => [] end);
               try o <- setopts c o [MailFrom from];
               let rcpt := [to] ++ (match m_cc e with Some x => [x] | None => [] end) ++ (match m_bcc e with Some x => [x] | None => [] end) in
               try o <- setopts c o [MailRcpt rcpt];
               let cc := match m_cc e with Some x => bs "Cc: " ++ x ++ ln | None => [] end in
               match m_type e with
               | None => UB NullDeref
               | Some ty =>
                   let text := date ++ ln ++ bs "To: " ++ to ++ ln ++ bs "From: " ++ from ++ ln ++ cc
                               ++ bs "Subject: " ++ (match m_subject e with Some s => s | None => [] end) ++ ln
                               ++ bs "Content-Type: " ++ ty ++ ln ++ ln ++ body ++ ln in
                   setopts c o [ReadFunction; ReadData text; Upload]
               end);
      Ret (Some x)
  | _, _, _, _ => Ret None
  end.
