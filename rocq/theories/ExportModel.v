(** Model of the textual export of requests and responses: src/u_request.c:792-944 and src/u_response.c:726-761. Allocation succeeds. *)
From Coq Require Import String ZArith Bool List.
From Verif Require Import Base Dec UMapModel SMap StrModel ClientModel UrlModel Utf8Model YuarelModel CookieModel SendModel OpenModel.
Import ListNotations.
Open Scope Z_scope.

(** printf("%.*s", (int)len, p): at most that many bytes, up to a NUL; a precision that is negative as an int counts as none *)
Fixpoint up_to (b : buf) (n : Z) : outcome str :=
  if n <=? 0 then Ret []
  else match b with
       | [] => UB OutOfBounds
       | None :: _ => UB Uninit
       | Some c :: r => if c =? 0 then Ret [] else do t <- up_to r (n - 1); Ret (c :: t)
       end.
Definition print_n (p : option buf) (len : Z) : outcome str :=
  match p with
  | None => UB NullDeref
  | Some b => let n := len mod 4294967296 in if n <? 2147483648 then up_to b n else read_cstr b
  end.
(** the first [n] bytes of a block *)
Fixpoint read_n (n : nat) (b : buf) : outcome (list Z) :=
  match n with
  | O => Ret []
  | S n => match b with [] => UB OutOfBounds | None :: _ => UB Uninit | Some c :: r => do t <- read_n n r; Ret (c :: t) end
  end.

Definition nl : str := [13; 10].
(** u_request.c:864-871, u_response.c:734-742: one header *)
Definition header_out (out : str) (k : str) (v : option str) : outcome str :=
  Ret (out ++ match v with Some v => k ++ bs ": " ++ v ++ nl | None => k ++ bs ":" ++ nl end).

(** the fields of struct _u_request that are read; http_url is a block because it is written to *)
Record xreq := mk_xreq { x_verb : option str; x_url : option buf; x_params : umap; x_headers : umap; x_cookies : umap; x_form : umap;
  x_body : option buf; x_length : Z; x_user : option str; x_password : option str }.

Section Export.
(** isalnum of bytes above 127 (UrlModel) *)
Variable ah : Z -> bool.
(** o_base64_encode_alloc *)
Variable base64 : str -> option str.

(** ulfius_url_encode, its result read as a text *)
Definition enc (s : str) : outcome str := do l <- url_encode ah s; Ret (removelast l).

(** u_request.c:806-848 the parameters *)
Definition param_out (s : bool * option str) (k : str) (v : option str) : outcome (bool * option str) :=
  let (has_params, url) := s in
  let sep := if has_params then 38 else 63 in
  do ke <- enc k;
  match v with
  | Some v => do ve <- enc v; Ret (true, catf url (sep :: ke ++ 61 :: ve))
  | None => Ret (true, catf url (sep :: ke))
  end.
(** u_request.c:801-848; y_url.path NULL: str_replace gives NULL *)
Definition url_out (path query : option str) (params : umap) : outcome (option str) :=
  let url := option_map no_space path in
  let (has, url) := match query with Some q => (true, catf url (63 :: q)) | None => (false, url) end in
  if 0 <? u_map_count params then do x <- each params param_out (keys params) (has, url); Ret (snd x) else Ret url.

(** u_request.c:873-884 *)
Definition cookie_out (out : str) (k : str) (v : option str) : outcome str :=
  match v with
  | Some v => do ve <- enc v; Ret (out ++ bs "Cookie: " ++ k ++ bs "=" ++ ve ++ nl)
  | None => Ret (out ++ bs "Cookie: " ++ k ++ nl)
  end.

(** u_request.c:910-934 one pair of the form; the state is "i is not 0" and the body *)
Definition form_out (form : umap) (s : bool * str) (k : str) (v : option str) : outcome (bool * str) :=
  let (next, body) := s in
  let body := if next then body ++ bs "&" else [] in
  do ke <- enc k;
  do len <- u_map_get_length form (Some k);
  do p <- u_map_get form (Some k);
  do ok <- match p with
           | Some b => if 0 <? len then do l <- read_n (Z.to_nat len) b; do x <- utf8_check l len; Ret (match x with None => true | Some _ => false end) else Ret false
           | None => Ret false
           end;
  match v with
  | Some v => if (ok : bool) then do ve <- enc v; Ret (true, body ++ ke ++ bs "=" ++ ve) else Ret (true, body ++ bs "?" ++ k)
  | None => Ret (true, body ++ bs "?" ++ k)
  end.

(** u_request.c:792-944 ulfius_export_request_http, request != NULL: the text, and http_url afterwards. *)
Definition export_request (r : xreq) : outcome (option str * option buf) :=
  match x_url r with
  | None => Ret (None, None)
  | Some b0 =>
      do (x, y) <- yuarel_parse b0;
      let (code, b) := x in
      if negb (code =? 0) then Ret (None, Some b)
      else
        do path <- field b (y_path y); do query <- field b (y_query y); do host <- field b (y_host y);
        do url <- url_out path query (x_params r);
        do url <- arg url;
        let out := (match x_verb r with Some v => v ++ bs " /" | None => bs "GET /" end) ++ url ++ bs " HTTP/1.1" ++ nl in
        do has_host <- u_map_has_key_case (x_headers r) (Some (bs "Host"));
        do out <- (if (has_host : bool) then Ret out
                   else do h <- arg host; Ret (out ++ bs "Host: " ++ h ++ (if negb (y_port y =? 0) then bs ":" ++ sdec (y_port y) else []) ++ nl));
        do out <- each (x_headers r) header_out (keys (x_headers r)) out;
        do out <- each (x_cookies r) cookie_out (keys (x_cookies r)) out;
        do has_length <- u_map_has_key_case (x_headers r) (Some (bs "Content-Length"));
        let out := if negb has_length && negb (x_length r =? 0) then out ++ bs "Content-Length: " ++ udec (x_length r) ++ nl else out in
        do has_type <- u_map_has_key_case (x_headers r) (Some (bs "Content-Type"));
        let out := if negb has_type && negb (u_map_count (x_form r) =? 0) then out ++ bs "Content-type: " ++ form_type ++ nl else out in
        do has_auth <- u_map_has_key_case (x_headers r) (Some (bs "Authorization"));
        let out := match x_user r, x_password r with
                   | Some u, Some p => if has_auth then out else match base64 (u ++ bs ":" ++ p) with Some e => out ++ bs "Authorization: Basic " ++ e ++ nl | None => out end
                   | _, _ => out
                   end in
        if negb (x_length r =? 0) then do t <- print_n (x_body r) (x_length r); Ret (Some (out ++ nl ++ t ++ nl), Some b)
        else if negb (u_map_count (x_form r) =? 0) then
          do ct <- get_str (x_headers r) (bs "Content-Type");
          if match ct with Some v => containsb v form_type | None => true end then
            do s <- each (x_form r) (form_out (x_form r)) (keys (x_form r)) (false, []);
            let body := snd s in
            Ret (Some (out ++ bs "Content-Length: " ++ udec (zlen body) ++ nl ++ nl ++ body), Some b)
          else Ret (Some out, Some b)
        else Ret (Some out, Some b)
  end.
End Export.

(** ** Responses *)
Record xres := mk_xres { z_status : Z; z_headers : umap; z_cookies : list cookie; z_body : option buf; z_length : Z }.
(** u_response.c:726-761 ulfius_export_response_http, response != NULL. status is a long. u_map_get_case is NULL when there is no such header. *)
Definition export_response (r : xres) : outcome str :=
  let out := bs "HTTP/1.1 " ++ sdec (z_status r) ++ nl in
  do out <- each (z_headers r) header_out (keys (z_headers r)) out;
  do has_cookie <- u_map_has_key_case (z_headers r) (Some (bs "Set-Cookie"));
  let out := if (has_cookie : bool) then out else out ++ concat (map (fun c => bs "Set-Cookie: " ++ generate_cookie_header c ++ nl) (z_cookies r)) in
  do len <- ClientModel.get_case_str (z_headers r) (Some (bs "Content-Length"));
  let out := if negb (z_length r =? 0) && (match len with None => true | Some _ => false end) then out ++ bs "Content-Length: " ++ udec (z_length r) ++ nl else out in
  let out := out ++ nl in
  if negb (z_length r =? 0) then do t <- print_n (z_body r) (z_length r); Ret (out ++ t ++ nl) else Ret out.
