(** Model of the memory of a response that the HTTP client receives, with failing allocations:
    /repo/src/u_send_request.c:64-171, 187-260, 263-264, 690-700, 715-790. What libcurl does is given: the calls of
    write_header and ulfius_write_body, the result of curl_easy_perform, the list of cookies. The response was initialised
    by ulfius_init_response, so that its map of headers is not NULL (RespMemModel). *)
From Coq Require Import String ZArith Bool List.
From Verif Require Import Base UMapModel StrModel ClientModel OwnModel MapMemModel MapMemSpec RespMemModel RecvMemModel.
Import ListNotations.
Open Scope Z_scope.

(** a call by libcurl with size = 1: write_header with a line, and what the allocations answer meanwhile; ulfius_write_body
    with some bytes, and what o_realloc answers *)
Inductive event := Line (answers : list bool) (text : str) | Chunk (grow : bool) (data : list Z).
(** the response, counter of struct _u_response_header (u_send_request.c:79-84), data and size of struct _u_body (64-68) *)
Record puller := mk_puller { u_mem : mem; u_resp : hresp; u_counter : Z; u_data : ptr buf; u_size : Z }.

(** u_map.c:395-405 u_map_has_key_case *)
Definition x_has_key_case (m : mem) (f : fmap) (key : str) : outcome bool :=
  do ks <- x_deref m (f_keys f); do r <- x_scan_null m (snd ks) (fun x => str_caseeqb x key) 0;
  Ret (match r with Some _ => true | None => false end).

(** u_send_request.c:147-156: the results of u_map_put are only logged; msprintf is one allocation, and prints NULL with %s *)
Definition x_header_field (m : mem) (r : hresp) (key value : option str) : outcome (mem * hresp) :=
  match key with
  | None => Ret (m, r)
  | Some k =>
      do h <- x_member (q_header r); do f <- x_deref m h;
      do found <- x_has_key_case m (snd f) k;
      if negb found then do x <- x_on_header m r (fun m f => x_put m f (Some k) value); Ret (snd x)
      else
        do p <- x_get_case m (snd f) k; do old <- x_text m p;
        match old, value with
        | Some o, Some v =>
            let '(tmp, m1) := x_malloc m in
            do x <- x_on_header m1 r (fun m f => x_remove_key m f (matches true k));
            let '(c, (m2, r1)) := x in
            do y <- (if c =? U_OK then
                       x_on_header m2 r1 (fun m f => x_put m f (Some k) (match tmp with Some _ => Some (o ++ bs ", " ++ v) | None => None end))
                     else Ret (c, (m2, r1)));
            let '(_, (m3, r2)) := y in
            do m4 <- x_free m3 tmp; Ret (m4, r2)
        | _, _ => UB NullDeref
        end
  end.
(** u_send_request.c:136-171 write_header: the number of bytes said to be handled. As in ClientModel the line is taken to be
    NUL-terminated. *)
Definition x_write_header (max : Z) (s : puller) (text : str) : outcome (Z * puller) :=
  if has_char 58 text then
    if (max =? 0) || (u_counter s <? max) then
      let (t, rest) := strtok colon text in
      do x <- x_header_field (u_mem s) (u_resp s) (otrim t) (otrim (fst (strtok no_sep rest)));
      Ret (zlen text, mk_puller (fst x) (snd x) (add64 (u_counter s) 1) (u_data s) (u_size s))
    else Ret (zlen text, s)
  else if negb (str_eqb (trim text) []) then
    do x <- x_set_protocol (u_mem s) (u_resp s) (trim_left text);
    let '(c, (m, r)) := x in
    Ret (if c =? U_OK then zlen text else 0, mk_puller m r (u_counter s) (u_data s) (u_size s))
  else Ret (zlen text, s).

(** u_send_request.c:90-119 ulfius_write_body: when o_realloc fails body_data->data is NULL and the old block stays *)
Definition x_write_body (limit : Z) (s : puller) (data : list Z) : outcome (Z * puller) :=
  let realsize := zlen data in
  let cur_size :=
    if negb (limit =? 0) then
      if u_size s <? limit then
        if limit <? add64 (add64 (u_size s) realsize) 1 then limit - u_size s else realsize
      else 0
    else realsize in
  if negb (cur_size =? 0) then
    do x <- x_realloc (u_mem s) (addr (u_data s));
    match x with
    | (None, m) => Ret (0, mk_puller m (u_resp s) (u_counter s) None (u_size s))
    | (Some i, m) =>
        let block := realloc (match u_data s with Some (_, b) => b | None => [] end) (add64 (add64 (u_size s) cur_size) 1) in
        do b <- memcpy block (u_size s) (block_of data) cur_size;
        let size' := add64 (u_size s) cur_size in
        do b1 <- store b size' 0;
        Ret (realsize, mk_puller m (u_resp s) (u_counter s) (Some (i, b1)) size')
    end
  else Ret (realsize, s).

(** an answer that was not asked for is dropped *)
Definition rested (s : puller) : puller := mk_puller (again (u_mem s) ([], [])) (u_resp s) (u_counter s) (u_data s) (u_size s).
(** curl_easy_perform: libcurl goes on while all bytes are said to be handled *)
Definition x_event (max limit : Z) (s : puller) (e : event) : outcome (bool * puller) :=
  match e with
  | Line answers text =>
      do x <- x_write_header max (mk_puller (again (u_mem s) (answers, [])) (u_resp s) (u_counter s) (u_data s) (u_size s)) text;
      Ret (fst x =? zlen text, snd x)
  | Chunk grow data =>
      do x <- x_write_body limit (mk_puller (again (u_mem s) ([], [grow])) (u_resp s) (u_counter s) (u_data s) (u_size s)) data;
      Ret (fst x =? zlen data, rested (snd x))
  end.
Fixpoint x_perform (max limit : Z) (s : puller) (l : list event) : outcome (bool * puller) :=
  match l with
  | [] => Ret (true, s)
  | e :: r => do x <- x_event max limit s e; if fst x : bool then x_perform max limit (snd x) r else Ret x
  end.

(** ** The cookies, u_send_request.c:736-790 *)
Record cvars := mk_cvars { v_key : ptr str; v_value : ptr str; v_expires : ptr str; v_domain : ptr str; v_path : ptr str }.
Definition cvars0 : cvars := mk_cvars None None None None None.
(** 747-773; secure and http_only take no memory *)
Definition x_field (m : mem) (v : cvars) (counter : nat) (elt : str) : cvars * mem :=
  match counter with
  | 0%nat => let '(p, m1) := x_strdup m (Some elt) in (mk_cvars (v_key v) (v_value v) (v_expires v) p (v_path v), m1)
  | 2%nat => let '(p, m1) := x_strdup m (Some elt) in (mk_cvars (v_key v) (v_value v) (v_expires v) (v_domain v) p, m1)
  | 4%nat => let '(p, m1) := x_strdup m (Some elt) in (mk_cvars (v_key v) (v_value v) p (v_domain v) (v_path v), m1)
  | 5%nat => let '(p, m1) := x_strdup m (Some elt) in (mk_cvars p (v_value v) (v_expires v) (v_domain v) (v_path v), m1)
  | 6%nat => let '(p, m1) := x_strdup m (Some elt) in (mk_cvars (v_key v) p (v_expires v) (v_domain v) (v_path v), m1)
  | _ => (v, m)
  end.
(** one strtok_r per step; [fuel]: more than the length of the line *)
Fixpoint x_fields (fuel : nat) (m : mem) (v : cvars) (counter : nat) (rest : str) : cvars * mem :=
  match fuel with
  | O => (v, m)
  | S f => match strtok tab rest with
           | (None, _) => (v, m)
           | (Some elt, rest') => let '(v1, m1) := x_field m v counter elt in x_fields f m1 v1 (S counter) rest'
           end
  end.
(** a text, or NULL *)
Definition x_arg (m : mem) (p : ptr str) : outcome (option str) :=
  match p with None => Ret None | Some _ => do x <- x_deref m p; Ret (Some (snd x)) end.
(** a text for %s *)
Definition x_printed (m : mem) (p : ptr str) : outcome unit := do _ <- x_deref m p; Ret tt.
(** 741-785 one line, [fields]: what o_strdup answers for the line and its parts, [adding]: for
    ulfius_add_cookie_to_response, which refuses a NULL name; the variables keep their pointers *)
Definition x_cookie (m : mem) (r : hresp) (v : cvars) (c : list bool * list bool * str) : outcome (mem * hresp * cvars) :=
  let '(fields, adding, text) := c in
  let '(dup, m1) := x_strdup (again m (fields, [])) (Some text) in
  match dup with
  | None => Ret (m1, r, v)
  | Some _ =>
      let '(v1, m2) := x_fields (S (List.length text)) m1 v 0 text in
      do key <- x_arg m2 (v_key v1);
      do x <- (match key with
               | None => Ret (U_ERROR_PARAMS, (m2, r))
               | Some k =>
                   do value <- x_arg m2 (v_value v1); do expires <- x_arg m2 (v_expires v1); do domain <- x_arg m2 (v_domain v1);
                   do path <- x_arg m2 (v_path v1);
                   x_add_cookie (again m2 (adding, [])) r k value expires domain path
               end);
      let '(z, (m3, r1)) := x in
      do _ <- (if z =? U_OK then Ret tt else do _ <- x_printed m3 (v_key v1); x_printed m3 (v_value v1));
      do m4 <- x_free m3 (addr (v_key v1)); do m5 <- x_free m4 (addr (v_value v1)); do m6 <- x_free m5 (addr (v_domain v1));
      do m7 <- x_free m6 (addr (v_path v1)); do m8 <- x_free m7 (addr (v_expires v1));
      do m9 <- x_free m8 (addr dup);
      Ret (m9, r1, v1)
  end.
Fixpoint x_cookies (m : mem) (r : hresp) (v : cvars) (l : list (list bool * list bool * str)) : outcome (mem * hresp) :=
  match l with
  | [] => Ret (m, r)
  | c :: rest => do x <- x_cookie m r v c; let '(m1, r1, v1) := x in x_cookies m1 r1 v1 rest
  end.

(** ** The whole *)
(** max_header and response_body_limit; the calls of libcurl; whether curl_easy_perform succeeds when all its calls did; whether
    curl_easy_getinfo gives the status; the cookies, if it gives them; whether there is memory for the body *)
Record pull := mk_pull {
  p_max : Z; p_limit : Z; p_events : list event; p_performs : bool; p_status : bool;
  p_cookies : option (list (list bool * list bool * str)); p_body : bool }.
(** u_send_request.c:720-790: the result of ulfius_send_http_streaming_request_max_header *)
Definition x_received (m : mem) (r : hresp) (p : pull) (performed : bool) : outcome (Z * (mem * hresp)) :=
  if negb (performed && p_performs p) then Ret (U_ERROR_LIBCURL, (m, r))
  else if negb (p_status p) then Ret (U_ERROR_LIBCURL, (m, r))
  else match p_cookies p with
       | None => Ret (U_ERROR_LIBCURL, (m, r))
       | Some l => do x <- x_cookies m r cvars0 l; Ret (U_OK, x)
       end.
(** u_send_request.c:192-260 ulfius_send_http_request and ulfius_send_http_request_with_limit: the bytes go to response->binary_body,
    whose old block is not looked at *)
Definition x_pull (m : mem) (r : hresp) (p : pull) : outcome (Z * (mem * hresp)) :=
  do x <- x_perform (p_max p) (p_limit p) (mk_puller m r 0 None 0) (p_events p);
  let s := snd x in
  do y <- x_received (u_mem s) (u_resp s) p (fst x);
  let '(z, (m1, r1)) := y in
  if z =? U_OK then
    match u_data s with
    | Some (i, b) =>
        if negb (u_size s =? 0) then
          let '(q, m2) := x_malloc (again m1 ([p_body p], [])) in
          match q with
          | None => do l <- x_member (q_len r1); do m3 <- x_free m2 (Some i); Ret (U_ERROR_MEMORY, (m3, with_body r1 None l))
          | Some j =>
              do d <- x_deref m2 (u_data s);
              do bytes <- read_bytes (snd d) (Z.to_nat (u_size s));
              do m3 <- x_free m2 (Some i); Ret (U_OK, (m3, with_body r1 (Some (j, bytes)) (u_size s)))
          end
        else do m2 <- x_free m1 (Some i); Ret (U_OK, (m2, r1))
    | None => Ret (U_OK, (m1, r1))
    end
  else do m2 <- x_free m1 (addr (u_data s)); Ret (z, (m2, r1)).
(** a program receives responses into the structures of its list, one after the other *)
Fixpoint x_pulls (m : mem) (rs : list (nat * hresp)) (l : list (nat * pull)) : outcome (list Z * (mem * list (nat * hresp))) :=
  match l with
  | [] => Ret ([], (m, rs))
  | (i, p) :: rest =>
      match nth_error rs i with
      | None => x_pulls m rs rest
      | Some (id, r) =>
          do _ <- h_use (m_heap m) id;
          do x <- x_pull m r p;
          let '(z, (m1, r1)) := x in
          do y <- x_pulls m1 (set_nth rs i (id, r1)) rest; Ret (z :: fst y, snd y)
      end
  end.
