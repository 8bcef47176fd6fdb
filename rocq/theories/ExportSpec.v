(** What the textual export of a request or a response has to say (C74, C75). *)
From Coq Require Import String ZArith Bool List.
From Verif Require CookieSpec.
From Verif Require Import Base Dec SMap CookieModel YuarelSpec HttpText SendSpec OpenSpec.
Import ListNotations.
Open Scope Z_scope.

(** a header with this name, whatever its case *)
Definition named (d : smap) (name : str) : bool := existsb (fun p => str_eqb (lowers (fst p)) (lowers name)) d.
Definition unless (b : bool) {A} (l : list A) : list A := if b then [] else l.
(** the host of the URL, with the port when the URL has one *)
Definition host_of (u : url) : str := u_host u ++ part (bs ":") (option_map udec (u_port u)).
(** a field that carries a cookie: its value is percent-encoded *)
Definition cookie_field (p : str * option str) (f : str * str) : Prop :=
  fst f = bs "Cookie" /\ match snd p with Some v => exists e, snd f = fst p ++ bs "=" ++ e /\ unescape e = Some v | None => snd f = fst p end.
Definition cookie_ok (p : str * option str) : Prop := cstr (fst p) /\ one_line (fst p) /\ hd 0 (fst p) <> 32 /\ hd 0 (fst p) <> 9 /\ fst p <> [] /\ last (fst p) 0 <> 32 /\ last (fst p) 0 <> 9.

(** the request line: the path of the URL, its query followed by the parameters of the request *)
Definition target_ok (u : url) (params : smap) (target : str) : Prop :=
  ~ In 13 target /\ fst (split_url target) = concat (map (fun c => if c =? 32 then bs "%20" else [c]) (value (u_path u))) /\
  forall old, query_pairs (u_query u) = Some old -> query_pairs (snd (split_url target)) = Some (old ++ params).
Definition start_ok (verb : option str) (u : url) (params : smap) (start : str) : Prop :=
  exists target, start = (match verb with Some v => v | None => bs "GET" end) ++ bs " /" ++ target ++ bs " HTTP/1.1" /\ target_ok u params target.
(** RFC 7617 *)
Definition auth_fields (user : option (str * str)) (base64 : str -> option str) : list (str * str) :=
  match user with Some (n, p) => match base64 (n ++ bs ":" ++ p) with Some e => [(bs "Authorization", basic e)] | None => [] end | None => [] end.
(** the fields of a request with a body of [n] bytes; [form]: it has a form *)
Definition fields_ok (u : url) (base64 : str -> option str) (headers cookies : smap) (n : Z) (form : bool) (user : option (str * str)) (fs : list (str * str)) : Prop :=
  exists cs, Forall2 cookie_field cookies cs /\
    fs = unless (named headers (bs "Host")) [(bs "Host", host_of u)] ++ fields_of headers ++ cs
         ++ unless (named headers (bs "Content-Length") || (n =? 0)) [(bs "Content-Length", udec n)]
         ++ unless (named headers (bs "Content-Type") || negb form) [(bs "Content-type", bs "application/x-www-form-urlencoded")]
         ++ unless (named headers (bs "Authorization")) (auth_fields user base64).

(** ** Responses: [n] is the length of the body *)
Definition set_cookie_field (c : cookie) (f : str * str) : Prop := fst f = bs "Set-Cookie" /\ CookieSpec.read_set_cookie (snd f) = Some (CookieSpec.view_of c).
Definition response_fields_ok (headers : smap) (cookies : list cookie) (n : Z) (fs : list (str * str)) : Prop :=
  exists cs, Forall2 set_cookie_field cookies cs /\
    fs = fields_of headers ++ cs ++ unless (named headers (bs "Content-Length") || (n =? 0)) [(bs "Content-Length", udec n)].
(** texts that can be written on a line, without blanks at their ends *)
Definition line_text (s : str) : Prop := one_line s /\ tight s.
Definition line_cookie (c : cookie) : Prop :=
  CookieSpec.plain_cookie c /\ 0 <= ck_max_age c < 2147483648 /\ ck_key c <> [] /\ line_text (ck_key c) /\ line_text (ck_value c) /\
  oall line_text (ck_expires c) /\ oall line_text (ck_domain c) /\ oall line_text (ck_path c).
