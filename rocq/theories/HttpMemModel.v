(** The memory of a request that is sent by the HTTP client, /repo/src/u_send_request.c:281-822
    ulfius_send_http_streaming_request_max_header up to curl_easy_perform and from the end of the loop on: the copy of the request,
    the url, the escaped texts, the form, the list of headers, the cookies and the handle of libcurl are blocks of the heap, and
    an allocation may fail. SendModel describes the values when nothing fails; the response is in PullMemModel.
    Simplifications: the options that do not come from a text made here are one answer of libcurl; client_cert_file, client_key_file
    and client_key_password, which are read from the request itself, are left out; the memory that libcurl keeps for the options
    belongs to the handle; a text of msprintf, str_replace or curl_easy_escape is one block; mstrcatf of orcania makes the new text
    and releases the text it is given. *)
From Coq Require Import String ZArith Bool List.
From Verif Require Import Base UMapModel OwnModel MapMemModel RespMemModel ReqMemModel RecvMemModel.
From Verif Require SendModel ClientModel.
Import ListNotations.
Open Scope Z_scope.

(** reading a text of the request *)
Definition x_string (m : mem) (p : ptr str) : outcome (option str) :=
  match p with None => Ret None | Some _ => do x <- x_deref m p; Ret (Some (snd x)) end.
(** mstrcatf: NULL counts as the empty text *)
Definition x_catf (m : mem) (p : ptr str) (t : str) : outcome (mem * ptr str) :=
  do old <- x_string m p;
  let '(n, m1) := x_strdup m (Some (match old with Some s => s ++ t | None => t end)) in
  do m2 <- x_free m1 (addr p); Ret (m2, n).

(** u_send_request.c:427-456, 473-509 the loop over the pairs of map_url and of map_post_body; [ks] is the rest of the array of keys,
    [sep] what comes before this pair: the others have '&' (38). An escaped text that is missing ends the loop. *)
Fixpoint x_pairs (m : mem) (f : fmap) (ks : list (ptr str)) (sep : str) (text : ptr str) : outcome (Z * (mem * ptr str)) :=
  match ks with
  | [] => UB OutOfBounds
  | None :: _ => Ret (U_OK, (m, text))
  | k :: r =>
      do x <- x_deref m k;
      let '(ke, m1) := x_strdup m (Some (SendModel.curl_escape (snd x))) in
      match ke with
      | None => Ret (U_ERROR_LIBCURL, (m1, text))
      | Some (_, ek) =>
          do p <- x_get m1 f (snd x); do v <- x_text m1 p;
          match v with
          | Some t =>
              let '(ve, m2) := x_strdup m1 (Some (SendModel.curl_escape t)) in
              match ve with
              | None => do m3 <- x_free m2 (addr ke); Ret (U_ERROR_LIBCURL, (m3, text))
              | Some (_, ev) =>
                  do g <- x_catf m2 text (sep ++ ek ++ [61] ++ ev);
                  do m3 <- x_free (fst g) (addr ve); do m4 <- x_free m3 (addr ke);
                  x_pairs m4 f r [38] (snd g)
              end
          | None =>
              do g <- x_catf m1 text (sep ++ ek);
              do m3 <- x_free (fst g) (addr ke);
              x_pairs m3 f r [38] (snd g)
          end
      end
  end.
(** 423-425, 464-471: nothing is done for an empty map *)
Definition x_all_pairs (m : mem) (f : fmap) (sep : str) (text : ptr str) : outcome (Z * (mem * ptr str)) :=
  match f_nb f with
  | O => Ret (U_OK, (m, text))
  | S _ => do ks <- x_deref m (f_keys f); x_pairs m f (snd ks) sep text
  end.

(** a struct curl_slist: each node and each text is a block *)
Record node := mk_node { n_block : nat; n_data : nat * str }.
(** curl_slist_append: it copies the text; [None] is NULL. A NULL text is read. *)
Definition x_slist_append (m : mem) (l : list node) (s : ptr str) : outcome (mem * option (list node)) :=
  do x <- x_deref m s;
  match x_strdup m (Some (snd x)) with
  | (None, m1) => Ret (m1, None)
  | (Some d, m1) =>
      match x_malloc m1 with
      | (None, m2) => do m3 <- x_free m2 (Some (fst d)); Ret (m3, None)
      | (Some n, m2) => Ret (m2, Some (l ++ [mk_node n d]))
      end
  end.
Fixpoint x_slist_free (m : mem) (l : list node) : outcome mem :=
  match l with
  | [] => Ret m
  | n :: r => do m1 <- x_free m (Some (fst (n_data n))); do m2 <- x_free m1 (Some (n_block n)); x_slist_free m2 r
  end.
(** 544-566 the headers: msprintf is not looked at; when curl_slist_append answers NULL, header_list is NULL *)
Definition header_text (k : str) (v : option str) : str := k ++ [58] ++ match v with Some t => t | None => [] end.
Fixpoint x_headers (m : mem) (f : fmap) (ks : list (ptr str)) (l : list node) : outcome (Z * (mem * list node)) :=
  match ks with
  | [] => UB OutOfBounds
  | None :: _ => Ret (U_OK, (m, l))
  | k :: r =>
      do x <- x_deref m k;
      do p <- x_get m f (snd x); do v <- x_text m p;
      let '(h, m1) := x_strdup m (Some (header_text (snd x) v)) in
      do g <- x_slist_append m1 l h;
      do m2 <- x_free (fst g) (addr h);
      match snd g with
      | None => Ret (U_ERROR_LIBCURL, (m2, []))
      | Some l2 => x_headers m2 f r l2
      end
  end.
(** 576-590 the text of the cookies; printf of a NULL text is undefined. [last]: the variable cookie after the loop *)
Definition cookie_text (k : str) (v : option str) : str := match v with Some t => k ++ [61] ++ t | None => k ++ [58] end.
Fixpoint x_cookies (m : mem) (f : fmap) (ks : list (ptr str)) (text last : ptr str) : outcome (mem * (ptr str * ptr str)) :=
  match ks with
  | [] => UB OutOfBounds
  | None :: _ => Ret (m, (text, last))
  | k :: r =>
      do x <- x_deref m k;
      do p <- x_get m f (snd x); do v <- x_text m p;
      let '(c, m1) := x_strdup m (Some (cookie_text (snd x) v)) in
      do g <- (match text with
               | None => do d <- x_dup m1 c; Ret (snd d, fst d)
               | Some _ => do s <- x_deref m1 c; x_catf m1 text ([59] ++ snd s)
               end);
      do m2 <- x_free (fst g) (addr c);
      x_cookies m2 f r (snd g) c
  end.

(** what libcurl is asked to send *)
Record sent := mk_sent {
  s_accept : option str; s_auth : option (str * str); s_proxy : option str; s_url : option str; s_verb : str;
  s_headers : list str; s_cookies : option str; s_body : option (list Z); s_ca : option str
}.
(** The answers of the allocations: of ulfius_duplicate_request; of curl_easy_init; of the url and its parameters; of the form; of
    its content type; of the headers; of the cookies. The answers of libcurl: to the options before the url, to the body, to the
    cookies, to the others, and of curl_easy_perform with what comes after it. *)
Record call := mk_call {
  l_copy : answers; l_handle : answers; l_url : answers; l_form : answers; l_type : answers; l_headers : answers; l_cookies : answers;
  o_first : bool; o_body : bool; o_cookies : bool; o_rest : bool; o_perform : bool
}.
(** where the loop is left: the request, the url, the list of headers, and what is to be sent if curl_easy_perform is called *)
Record prep := mk_prep { z_req : hreq; z_url : ptr str; z_list : list node; z_sent : option sent }.

Definition body_of_text (t : ptr str) : ptr (list Z) * Z := match t with Some (i, s) => (Some (i, s ++ [0]), zlen s) | None => (None, 0) end.
(** 464-519 the form *)
Definition x_form (c : call) (m : mem) (r : hreq) : outcome (Z * (mem * hreq)) :=
  do h <- x_at (rq_maps r) M_POST; do y <- x_deref m h;
  match f_nb (snd y) with
  | O => Ret (U_OK, (m, r))
  | S _ =>
      do b <- x_member (rq_body r); do m1 <- x_free m (addr b);
      do x <- x_all_pairs (again m1 (l_form c)) (snd y) [] None;
      let '(z, (m2, t)) := x in
      let r1 := with_req_body r (fst (body_of_text t)) (snd (body_of_text t)) in
      if z =? U_OK then
        do w <- x_on_req_map (again m2 (l_type c)) r1 M_HEADER (fun m f => x_put m f (Some (bs "Content-Type")) (Some SendModel.form_type));
        Ret (if fst w =? U_OK then U_OK else U_ERROR_LIBCURL, snd w)
      else Ret (z, (m2, r1))
  end.
(** 521-540 the body that is sent *)
Definition x_sent_body (m : mem) (r : hreq) : outcome (option (list Z)) :=
  do n <- x_member (rq_len r); do b <- x_member (rq_body r);
  if n =? 0 then Ret None
  else match b with None => Ret None | Some _ => do y <- x_deref m b; if zlen (snd y) <? n then UB OutOfBounds else Ret (Some (zfirstn n (snd y))) end.
Definition x_all_headers (c : call) (m : mem) (r : hreq) : outcome (Z * (mem * list node)) :=
  do h <- x_at (rq_maps r) M_HEADER; do y <- x_deref m h;
  match f_nb (snd y) with
  | O => Ret (U_OK, (m, []))
  | S _ => do ks <- x_deref m (f_keys (snd y)); x_headers (again m (l_headers c)) (snd y) (snd ks) []
  end.
(** 572-601; the answer, and the text given to libcurl. The log of 594 reads the variable cookie. *)
Definition x_all_cookies (c : call) (m : mem) (r : hreq) : outcome (Z * (mem * option str)) :=
  do h <- x_at (rq_maps r) M_COOKIE; do y <- x_deref m h;
  match f_nb (snd y) with
  | O => Ret (U_OK, (m, None))
  | S _ =>
      do ks <- x_deref m (f_keys (snd y));
      do x <- x_cookies (again m (l_cookies c)) (snd y) (snd ks) None None;
      let '(m1, (text, last)) := x in
      do s <- x_string m1 text;
      do _ <- (if o_cookies c then Ret tt else do _ <- x_deref m1 last; Ret tt);
      do m2 <- x_free m1 (addr text);
      Ret (if o_cookies c then U_OK else U_ERROR_LIBCURL, (m2, s))
  end.
(** 296-702 the loop, on the copy [r] *)
Definition x_prepare (c : call) (m : mem) (r : hreq) : outcome (mem * prep) :=
  do hm <- x_at (rq_maps r) M_HEADER; do hy <- x_deref m hm;
  do av <- x_get_case m (snd hy) (bs "Accept-Encoding"); do accept <- x_text m av;
  do pu <- x_at (rq_texts r) T_USER; do user <- x_string m pu; do pp <- x_at (rq_texts r) T_PASSWORD; do password <- x_string m pp;
  do px <- x_at (rq_texts r) T_PROXY; do proxy <- x_string m px;
  if negb (o_first c) then Ret (m, mk_prep r None [] None)
  else
    do ph <- x_at (rq_texts r) T_URL; do http_url <- x_string m ph;
    let '(url0, m1) := x_strdup (again m (l_url c)) (option_map SendModel.no_space http_url) in
    do text <- x_string m1 url0;
    let has_params := match text with Some u => ClientModel.has_char 63 u | None => false end in
    do um <- x_at (rq_maps r) M_URL; do uy <- x_deref m1 um;
    do x <- x_all_pairs m1 (snd uy) (if has_params then [38] else [63]) url0;
    let '(z, (m2, url)) := x in
    if negb (z =? U_OK) then Ret (m2, mk_prep r url [] None)
    else
      do y <- x_form c m2 r;
      let '(z1, (m3, r1)) := y in
      if negb (z1 =? U_OK) then Ret (m3, mk_prep r1 url [] None)
      else
        do body <- x_sent_body m3 r1;
        if match body with Some _ => negb (o_body c) | None => false end then Ret (m3, mk_prep r1 url [] None)
        else
          do hl <- x_all_headers c m3 r1;
          let '(z2, (m4, l)) := hl in
          if negb (z2 =? U_OK) then Ret (m4, mk_prep r1 url l None)
          else
            do ck <- x_all_cookies c m4 r1;
            let '(z3, (m5, cookies)) := ck in
            if negb (z3 =? U_OK) then Ret (m5, mk_prep r1 url l None)
            else
              do u <- x_string m5 url;
              do pv <- x_at (rq_texts r1) T_VERB; do verb <- x_string m5 pv;
              do pa <- x_at (rq_texts r1) T_CA; do ca <- x_string m5 pa;
              Ret (m5, mk_prep r1 url l (if o_rest c then
                Some (mk_sent accept (match user, password with Some a, Some b => Some (a, b) | _, _ => None end) proxy u
                        (match verb with Some v => v | None => bs "GET" end) (map (fun n => snd (n_data n)) l) cookies body ca) else None)).

(** 281-822 for the request [s], with a response that is not looked at here: the result, and what was sent when curl_easy_perform
    was called *)
Definition x_send (c : call) (m : mem) (s : hreq) : outcome (Z * (mem * option sent)) :=
  do d <- x_duplicate_req (again m (l_copy c)) s;
  match snd d with
  | None => Ret (U_ERROR_MEMORY, (fst d, None))
  | Some (p, r) =>
      match x_malloc (again (fst d) (l_handle c)) with
      | (None, m1) => do m2 <- x_clean_req_full m1 p r; Ret (U_ERROR_LIBCURL, (m2, None))
      | (Some handle, m1) =>
          do x <- x_prepare c m1 r;
          let '(m2, z) := x in
          do m3 <- x_free m2 (addr (z_url z));
          do m4 <- x_clean_req_full m3 p (z_req z);
          do m5 <- x_free m4 (Some handle);
          do m6 <- x_slist_free m5 (z_list z);
          Ret (match z_sent z with Some _ => if o_perform c then U_OK else U_ERROR_LIBCURL | None => U_ERROR_LIBCURL end, (m6, z_sent z))
      end
  end.
