(** Model of example_programs/proxy_example/proxy.c: a callback that sends the request it got to another server and gives the answer of that server to its
    client. The parts are the models of ulfius_duplicate_request and ulfius_copy_response (CopyModel), of what libcurl is told (SendModel) and of the
    functions that libcurl calls back (ClientModel). Every allocation succeeds. *)
From Coq Require Import String ZArith Bool List.
From Verif Require Import Base UMapModel CopyModel CookieModel ClientModel SendModel.
Import ListNotations.
Open Scope Z_scope.

(** proxy.c:21 *)
Definition DEST : str := bs "https://www.wikipedia.org".

(** the fields of struct _u_request in the lists of CopyModel: 1 http_verb, 2 http_url, 4 proxy, 5 ca_path, 6 auth_basic_user, 7 auth_basic_password,
    8 client_cert_file, 9 client_key_file, 10 client_key_password; 0 network_type, 1 to 4 the certificate checks, 5 follow_redirect, 6 timeout *)
Definition q_text (r : request) (i : nat) : option str := nth i (q_strs r) None.
Definition q_int (r : request) (i : nat) : Z := nth i (q_ints r) 0.
Definition put_at {A} (i : nat) (x : A) (l : list A) : list A := firstn i l ++ x :: skipn (S i) l.
(** what the client reads in a request *)
Definition sendable (r : request) : hreq :=
  mk_hreq (q_text r 1) (q_text r 2) (q_text r 6) (q_text r 7) (q_text r 8) (q_text r 9) (q_text r 10) (q_text r 4) (q_int r 5) (q_int r 0)
    (q_header r) (q_url r) (q_post r) (q_cookie r) (q_body r) (q_body_length r) (q_int r 1) (q_int r 2) (q_int r 3) (q_int r 4) (q_text r 5) (q_int r 6).

(** proxy.c:67-79: the request that is passed on. ulfius_duplicate_request answers NULL only without memory; the result is used at once. snprintf of a NULL
    http_url with %s is undefined. *)
Definition passed (q : request) : outcome request :=
  do d <- duplicate_request q;
  match d with
  | None => UB NullDeref
  | Some r =>
      do h <- u_map_remove_from_key (q_header r) (Some (bs "Host"));
      match q_text q 2 with
      | None => UB NullDeref
      | Some url => Ret (mk_request (put_at 2 (Some (DEST ++ url)) (q_strs r)) (put_at 6 30 (q_ints r)) (q_address r) (q_url r) (snd h) (q_cookie r) (q_post r) (q_body r) (q_body_length r))
      end
  end.
(** proxy.c:80, u_send_request.c:281-708: another copy is made, and libcurl is told to send it; [None]: curl_easy_perform is not called *)
Definition forward (c : curl) (q : request) : outcome (option (list opt)) :=
  do r <- passed q;
  do d <- duplicate_request r;
  match d with None => Ret None | Some r => send_request c (sendable r) true true true end.

(** What libcurl does in curl_easy_perform: the lines of the header, the pieces of the body that it hands over; then whether it succeeded, the status and its
    list of cookies. *)
Record reply := mk_reply { y_lines : list str; y_pieces : list (buf * Z * Z); y_done : bool; y_status : Z; y_cookies : list str }.
(** nothing came *)
Definition no_reply : reply := mk_reply [] [] false 0 [].

(** ** The response of the client in a heap *)
Definition put_text (h : heap) (s : option (list Z)) : heap * ptr := match s with Some x => halloc h x | None => (h, None) end.
Definition put_cookie (h : heap) (c : cookie) : heap * hcookie :=
  let a := put_text h (Some (ck_key c)) in let b := put_text (fst a) (Some (ck_value c)) in let e := put_text (fst b) (ck_expires c) in
  let d := put_text (fst e) (ck_domain c) in let p := put_text (fst d) (ck_path c) in
  (fst p, mk_hcookie (snd a) (snd b) (snd e) (snd d) (snd p) [ck_max_age c; ck_secure c; ck_http_only c; ck_same_site c]).
Fixpoint put_cookies (h : heap) (l : list (option cookie)) : heap * list hcookie :=
  match l with
  | [] => (h, [])
  | None :: r => put_cookies h r
  | Some c :: r => let x := put_cookie h c in let y := put_cookies (fst x) r in (fst y, snd x :: snd y)
  end.
Definition put_jar (h : heap) (l : list (option cookie)) : heap * ptr * list hcookie :=
  match l with [] => (h, None, []) | _ => let a := halloc h [] in let y := put_cookies (fst a) l in (fst y, snd a, snd y) end.
Definition put_response (h : heap) (status : Z) (protocol : option str) (headers : umap) (cookies : list (option cookie)) (body : option (list Z)) : heap * hresp :=
  let a := put_text h protocol in let j := put_jar (fst a) cookies in let b := put_text (fst (fst j)) body in
  (fst b, mk_hresp status None (repeat 0 8) (snd a) None headers (snd (fst j)) (snd j) (snd b) (match body with Some x => zlen x | None => 0 end) None None).

(** the bytes of a block that was written *)
Fixpoint written (b : buf) : outcome (list Z) :=
  match b with [] => Ret [] | None :: _ => UB Uninit | Some c :: r => do l <- written r; Ret (c :: l) end.
Definition owritten (b : option buf) : outcome (option (list Z)) := match b with None => Ret None | Some x => do l <- written x; Ret (Some l) end.

(** proxy.c:68-69, 80; u_send_request.c:192-221, 717-795: an initialised response receives the answer. Without success the status stays 200, the header lines
    that came stay, and there are no cookies and no body. *)
Definition receive (y : reply) : outcome (heap * hresp) :=
  do h <- write_headers (headers0 0) (y_lines y);
  if y_done y then
    do b <- write_bodies (body0 0) (y_pieces y);
    do g <- give_body (snd b);
    do l <- owritten (fst g);
    do j <- response_cookies (y_cookies y);
    Ret (put_response [] (y_status y) (h_protocol (snd h)) (h_map (snd h)) (map_cookie j) l)
  else Ret (put_response [] 200 (h_protocol (snd h)) (h_map (snd h)) [] None).
(** proxy.c:81-82: the result of ulfius_copy_response is not looked at; then the response of the client is released *)
Definition relay (x : heap * hresp) : outcome (heap * hresp) :=
  do c <- copy_response (fst x) init_hresp (snd x);
  do h <- clean_response (fst (fst c)) (snd x);
  Ret (h, snd c).
(** proxy.c:66-85 callback_get: the response of the server, which was initialised before; [origin] says what libcurl does with the options it was given *)
Definition callback_get (c : curl) (origin : list opt -> reply) (q : request) : outcome (heap * hresp) :=
  do s <- forward c q;
  do r <- receive (match s with Some l => origin l | None => no_reply end);
  relay r.
