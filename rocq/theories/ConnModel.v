(** Model of what the library keeps for one HTTP request, from the first callback of MHD to the last: /repo/src/ulfius.c:204-247 ulfius_uri_logger, 500-563 the first call of
    ulfius_webservice_dispatcher, 305-331 mhd_request_completed, and /repo/src/u_request.c:267-375 ulfius_init_request, ulfius_clean_request, ulfius_clean_request_full.
    Simplifications: of the blocks a request owns only the request itself and its client certificate are followed (the texts, maps and the body are in CopyModel);
    the header and query maps are in InputModel, so the content type that was found in them is an input here; the later calls (InputModel, DispatchModel) only matter by the fact
    that they use the request and say MHD_YES or MHD_NO. Which allocations succeed is an input. *)
From Coq Require Import String ZArith Bool List.
From Verif Require Import Base.
Import ListNotations.
Open Scope Z_scope.

(** what is allocated for a request *)
Inductive resource := Info | UrlMap | Request | Cert | Post.
Inductive event := New (r : resource) | Release (r : resource).
(** a pointer to a certificate: NULL, to a certificate, to one that was released *)
Inductive cert := NoCert | Held | Dangling.
(** the fields of struct _u_request set here; [rq_address]: the bytes of the block client_address *)
Record req := mk_req { rq_url : option str; rq_path : option str; rq_verb : option str; rq_protocol : option str; rq_address : option (list Z); rq_cert : cert }.
(** struct connection_info_struct: include/u_private.h; [cn_post]: the post processor is not NULL; the map is always initialised *)
Record con := mk_con { cn_first : bool; cn_has_post : bool; cn_post : bool; cn_request : option req }.

(** strchr: the position of the first [c] *)
Fixpoint find_char (c : Z) (s : str) (i : Z) : option Z :=
  match s with [] => None | x :: r => if x =? c then Some i else find_char c r (i + 1) end.

(** the allocations of ulfius_uri_logger *)
Record allocs := mk_allocs { al_info : bool; al_request : bool; al_maps : bool; al_url : bool; al_path : bool }.
(** 207-247. 230-235 with 275-279: when a map of the request cannot be allocated, ulfius_init_request cleans a request whose texts were never set *)
Definition uri_logger (al : allocs) (uri : str) : outcome (option con * list event) :=
  if negb (al_info al) then Ret (None, [])
  else if negb (al_request al) then Ret (None, [New Info; New UrlMap; Release Info])
  else if negb (al_maps al) then UB Uninit
  else
    let url := if al_url al then Some uri else None in
    let path := if al_path al then Some (match find_char 63 uri 0 with Some n => zfirstn n uri | None => uri end) else None in
    match url, path with
    | Some _, Some _ => Ret (Some (mk_con true false false (Some (mk_req url path None None None NoCert))), [New Info; New UrlMap; New Request])
    | _, _ => Ret (None, [New Info; New UrlMap; New Request; Release Request; Release Info])
    end.

(** u_request.c:323-375, on a request with all its fields set; gnutls_x509_crt_deinit(NULL) does nothing *)
Definition clean_request (q : option req) : outcome (list event) :=
  match q with
  | None => Ret []
  | Some q => match rq_cert q with NoCert => Ret [Release Request] | Held => Ret [Release Cert; Release Request] | Dangling => UB DoubleFree end
  end.

(** the TLS session of a connection, as GnuTLS describes it: the result and the status of gnutls_certificate_verify_peers2, the number of certificates of the peer,
    the results of gnutls_x509_crt_init (NULL is stored on failure) and gnutls_x509_crt_import *)
Record tls := mk_tls { t_verify : Z; t_status : Z; t_peers : Z; t_init : Z; t_import : Z }.
(** GNUTLS_E_NO_CERTIFICATE_FOUND *)
Definition E_NO_CERTIFICATE : Z := -49.
(** 507-527 *)
Definition take_certificate (auth : bool) (t : option tls) : cert * list event :=
  match t with
  | Some t =>
      if auth then
        if (negb (t_verify t =? 0) && negb (t_verify t =? E_NO_CERTIFICATE)) || negb (t_status t =? 0) then (NoCert, [])
        else if t_verify t =? 0 then
          if t_peers t =? 0 then (NoCert, [])
          else if negb (t_init t =? 0) then (NoCert, [])
          else if negb (t_import t =? 0) then (Dangling, [New Cert; Release Cert])
          else (Held, [New Cert])
        else (NoCert, [])
      else (NoCert, [])
  | None => (NoCert, [])
  end.
(** 548-550: which bodies are read as forms *)
Definition FORM : str := bs "application/x-www-form-urlencoded".
Definition MULTIPART : str := bs "multipart/form-data".
Definition wants_post (allowed : Z) (content : option str) : bool :=
  match content with
  | None => false
  | Some c => (negb (Z.land allowed 1 =? 0) && prefixb FORM c) || (negb (Z.land allowed 16 =? 0) && prefixb MULTIPART c)
  end.
(** sizeof(struct sockaddr) *)
Definition ADDRESS : Z := 16.

(** what the first call of the dispatcher is given: the instance's use_client_cert_auth and allowed_post_processor, the session, the method, the version, the address of the client, the
    content type, and whether the block for the address, the copy of the method, the copy of the version, and the post processor can be made *)
Record call1 := mk_call1 { f_auth : bool; f_allowed : Z; f_tls : option tls; f_method : str; f_version : str; f_peer : list Z; f_content : option str;
  f_al_address : bool; f_al_verb : bool; f_al_version : bool; f_al_post : bool }.
(** 500-563: the answer to MHD, the information, the events. client_cert was NULL before *)
Definition first_call (i : call1) (c : con) : outcome (bool * con * list event) :=
  match cn_request c with
  | None => UB NullDeref
  | Some q =>
      let (crt, ev) := take_certificate (f_auth i) (f_tls i) in
      let verb := if f_al_verb i then Some (f_method i) else None in
      let protocol := if f_al_version i then Some (f_version i) else None in
      if negb (f_al_address i && f_al_verb i) then
        (* the address is not copied: the block stays as malloc made it *)
        Ret (false, mk_con false false (cn_post c) (Some (mk_req (rq_url q) (rq_path q) verb protocol None crt)), ev)
      else if zlen (f_peer i) <? ADDRESS then UB OutOfBounds
      else
        let q := mk_req (rq_url q) (rq_path q) verb protocol (Some (zfirstn ADDRESS (f_peer i))) crt in
        if wants_post (f_allowed i) (f_content i) then
          if f_al_post i then Ret (true, mk_con false true true (Some q), ev ++ [New Post])
          else do e <- clean_request (Some q); Ret (false, mk_con false true false None, ev ++ e)
        else Ret (true, mk_con false false (cn_post c) (Some q), ev)
  end.
(** a later call: it uses the request, and gives an answer *)
Definition later_call (answer : bool) (c : con) : outcome bool := match cn_request c with None => UB NullDeref | Some _ => Ret answer end.
(** MHD calls the dispatcher until it says MHD_NO or the request is answered *)
Fixpoint later_calls (l : list bool) (c : con) : outcome unit :=
  match l with [] => Ret tt | a :: r => do x <- later_call a c; if x then later_calls r c else Ret tt end.
(** 305-331 *)
Definition request_completed (c : option con) : outcome (list event) :=
  match c with
  | None => Ret []
  | Some c =>
      do e <- clean_request (cn_request c);
      Ret ((if cn_has_post c && cn_post c then [Release Post] else []) ++ e ++ [Release UrlMap; Release Info])
  end.
(** a request of MHD from its first line to its end; [l]: the answers of the later calls *)
Definition life (al : allocs) (uri : str) (i : call1) (l : list bool) : outcome (list event) :=
  do x <- uri_logger al uri;
  match fst x with
  | None => do e <- request_completed None; Ret (snd x ++ e)       (* 495-498: the dispatcher says MHD_NO *)
  | Some c =>
      do y <- first_call i c;
      do u <- (if fst (fst y) then later_calls l (snd (fst y)) else Ret tt);
      do e <- request_completed (Some (snd (fst y)));
      Ret (snd x ++ snd y ++ e)
  end.
