(** Model of the functions of the HTTP and SMTP clients that libcurl calls back, and of the loop that reads the cookies of the
    response: /repo/src/u_send_request.c. libcurl itself is not modelled: it may call these functions in any way. *)
From Coq Require Import String ZArith Bool List.
From Verif Require Import Base UMapModel SMap StrModel CookieModel.
Import ListNotations.
Open Scope Z_scope.

Definition mul64 (a b : Z) : Z := (a * b) mod two64.

(** ** Body, u_send_request.c:64-68 struct _u_body. data == NULL is the empty block. *)
Record body := mk_body { b_data : buf; b_size : Z; b_limit : Z }.
(** 196-198, 232-234 *)
Definition body0 (limit : Z) : body := mk_body [] 0 limit.

(** u_send_request.c:90-119 ulfius_write_body; o_realloc succeeds. Returns the number of bytes said to be handled. *)
Definition write_body (b : body) (contents : buf) (size nmemb : Z) : outcome (Z * body) :=
  let realsize := mul64 size nmemb in
  let cur_size :=
    if negb (b_limit b =? 0) then
      if b_size b <? b_limit b then
        if b_limit b <? add64 (add64 (b_size b) realsize) 1 then b_limit b - b_size b else realsize
      else 0
    else realsize in
  if negb (cur_size =? 0) then
    let data := realloc (b_data b) (add64 (add64 (b_size b) cur_size) 1) in
    do data <- memcpy data (b_size b) contents cur_size;
    let size' := add64 (b_size b) cur_size in
    do data <- store data size' 0;
    Ret (realsize, mk_body data size' (b_limit b))
  else Ret (realsize, b).

(** the calls made by libcurl: contents, size, nmemb *)
Fixpoint write_bodies (b : body) (calls : list (buf * Z * Z)) : outcome (list Z * body) :=
  match calls with
  | [] => Ret ([], b)
  | (c, size, nmemb) :: r => do x <- write_body b c size nmemb; do y <- write_bodies (snd x) r; Ret (fst x :: fst y, snd y)
  end.

(** u_send_request.c:204-214, 240-250: the body given to the response, which was empty: binary_body and binary_body_length *)
Definition give_body (b : body) : outcome (option buf * Z) :=
  if negb (zlen (b_data b) =? 0) && negb (b_size b =? 0) then
    do d <- memcpy (malloc (b_size b)) 0 (b_data b) (b_size b); Ret (Some d, b_size b)
  else Ret (None, 0).

(** ** Tokens: strtok_r(s, d, &saveptr): the token, and the text at saveptr *)
Fixpoint skip_seps (d : Z -> bool) (s : str) : str := match s with c :: r => if d c then skip_seps d r else s | [] => [] end.
Fixpoint token (d : Z -> bool) (s : str) : str * str :=
  match s with
  | [] => ([], [])
  | c :: r => if d c then ([], r) else let (t, rest) := token d r in (c :: t, rest)
  end.
Definition strtok (d : Z -> bool) (s : str) : option str * str :=
  match skip_seps d s with [] => (None, []) | s' => let (t, rest) := token d s' in (Some t, rest) end.
Definition colon (c : Z) : bool := c =? 58.
Definition tab (c : Z) : bool := c =? 9.
Definition no_sep (c : Z) : bool := false.

(** ** Headers, u_send_request.c:79-84 struct _u_response_header and the fields map_header and protocol of the response *)
Record headers := mk_headers { h_map : umap; h_protocol : option str; h_max : Z; h_counter : Z }.
(** 263-264, 694-695; ulfius_init_response *)
Definition headers0 (max : Z) : headers := mk_headers u_map_init None max 0.

(** read of u_map_get_case's result as a C string *)
Definition get_case_str (m : umap) (k : option str) : outcome (option str) := do p <- u_map_get_case m k; deref_cstr p.
(** trimwhitespace(NULL) is NULL *)
Definition otrim (s : option str) : option str := match s with Some x => Some (trim x) | None => None end.
(** o_strchr(s, c) != NULL *)
Definition has_char (c : Z) (s : str) : bool := existsb (Z.eqb c) s.

(** u_send_request.c:136-171 write_header. [line]: the text at buffer, taken to be NUL-terminated (libcurl does not promise it; the
    function relies on it). msprintf with a NULL argument for %s is undefined. Allocation succeeds. *)
Definition write_header (h : headers) (line : str) (size nitems : Z) : outcome (Z * headers) :=
  if has_char 58 line then
    if (h_max h =? 0) || (h_counter h <? h_max h) then
      let (t, rest) := strtok colon line in
      let key := otrim t in
      let value := otrim (fst (strtok no_sep rest)) in
      do found <- u_map_has_key_case (h_map h) key;
      do m <- (if negb found then do r <- u_map_put (h_map h) key value; Ret (snd r)
               else
                 do old <- get_case_str (h_map h) key;
                 match old, value with
                 | Some o, Some v =>
                     do r <- u_map_remove_from_key_case (h_map h) key;
                     if negb (fst r =? U_OK) then Ret (snd r)
                     else do r <- u_map_put (snd r) key (Some (o ++ bs ", " ++ v)); Ret (snd r)
                 | _, _ => UB NullDeref
                 end);
      Ret (mul64 nitems size, mk_headers m (h_protocol h) (h_max h) (add64 (h_counter h) 1))
    else Ret (mul64 nitems size, h)
  else if negb (str_eqb (trim line) []) then Ret (mul64 nitems size, mk_headers (h_map h) (Some (trim_left line)) (h_max h) (h_counter h))
  else Ret (mul64 nitems size, h).

(** libcurl's calls for the lines of a response: the values returned and the final state *)
Fixpoint write_headers (h : headers) (lines : list str) : outcome (list Z * headers) :=
  match lines with
  | [] => Ret ([], h)
  | l :: r => do x <- write_header h l 1 (zlen l); do y <- write_headers (snd x) r; Ret (fst x :: fst y, snd y)
  end.

(** ** Cookies, u_send_request.c:736-781. A [char *] variable: NULL, an allocated text, or a pointer to a released block *)
Inductive slot := Null | Live (s : str) | Dangling.
Record vars := mk_vars { v_key : slot; v_value : slot; v_expires : slot; v_domain : slot; v_path : slot; v_secure : Z; v_http_only : Z }.
(** 738-739 *)
Definition vars0 : vars := mk_vars Null Null Null Null Null 0 0.

(** 747-773: the tokens of a line, [counter] *)
Definition is_true (s : str) : Z := if str_eqb s (bs "TRUE") then 1 else 0.
Definition set_field (v : vars) (counter : nat) (elt : str) : vars :=
  match counter with
  | 0%nat => mk_vars (v_key v) (v_value v) (v_expires v) (Live elt) (v_path v) (v_secure v) (v_http_only v)
  | 1%nat => mk_vars (v_key v) (v_value v) (v_expires v) (v_domain v) (v_path v) (is_true elt) (v_http_only v)
  | 2%nat => mk_vars (v_key v) (v_value v) (v_expires v) (v_domain v) (Live elt) (v_secure v) (v_http_only v)
  | 3%nat => mk_vars (v_key v) (v_value v) (v_expires v) (v_domain v) (v_path v) (v_secure v) (is_true elt)
  | 4%nat => mk_vars (v_key v) (v_value v) (Live elt) (v_domain v) (v_path v) (v_secure v) (v_http_only v)
  | 5%nat => mk_vars (Live elt) (v_value v) (v_expires v) (v_domain v) (v_path v) (v_secure v) (v_http_only v)
  | 6%nat => mk_vars (v_key v) (Live elt) (v_expires v) (v_domain v) (v_path v) (v_secure v) (v_http_only v)
  | _ => v
  end.
(** one strtok_r per step; [fuel]: the length of the line is enough *)
Fixpoint read_fields (fuel : nat) (v : vars) (counter : nat) (rest : str) : vars :=
  match fuel with
  | O => v
  | S f => match strtok tab rest with
           | (None, _) => v
           | (Some elt, rest') => read_fields f (set_field v counter elt) (S counter) rest'
           end
  end.

(** use of a pointer as a text or NULL *)
Definition use (p : slot) : outcome (option str) :=
  match p with Null => Ret None | Live s => Ret (Some s) | Dangling => UB UseAfterFree end.
(** o_free *)
Definition release (p : slot) : outcome slot := match p with Null => Ret Null | Live _ => Ret Dangling | Dangling => UB DoubleFree end.

(** 774: ulfius_add_cookie_to_response does nothing for a NULL name, otherwise it reads all its texts *)
Definition record_cookie (j : jar) (v : vars) : outcome jar :=
  do key <- use (v_key v);
  match key with
  | None => Ret j
  | Some _ =>
      do value <- use (v_value v); do expires <- use (v_expires v); do domain <- use (v_domain v); do path <- use (v_path v);
      do r <- add_cookie j (mk_args key value expires 0 domain path (v_secure v) (v_http_only v) 0); Ret (snd r)
  end.
(** 777-781 *)
Definition release_all (v : vars) : outcome vars :=
  do key <- release (v_key v); do value <- release (v_value v); do domain <- release (v_domain v); do path <- release (v_path v);
  do expires <- release (v_expires v); Ret (mk_vars key value expires domain path (v_secure v) (v_http_only v)).

(** 741-785: the loop over the list given by libcurl *)
Fixpoint read_cookies (j : jar) (v : vars) (lines : list str) : outcome jar :=
  match lines with
  | [] => Ret j
  | l :: r =>
      let v1 := read_fields (S (length l)) v 0 l in
      do j <- record_cookie j v1;
      do v2 <- release_all v1;
      read_cookies j v2 r
  end.
Definition response_cookies (lines : list str) : outcome jar := read_cookies empty_jar vars0 lines.

(** ** Mail, u_send_request.c:73-77 struct _u_smtp_payload; [p_len] = o_strlen(data) (962) *)
Record payload := mk_payload { p_offset : Z; p_len : Z; p_data : buf }.
Definition payload0 (text : str) : payload := mk_payload 0 (zlen text) (cblock text).

(** u_send_request.c:173-185 smtp_payload_source. [block]: the block at ptr. *)
Definition payload_source (p : payload) (block : buf) (size nmemb : Z) : outcome (Z * buf * payload) :=
  let left := (p_len p - p_offset p) mod two64 in
  let len := if mul64 size nmemb <? left then mul64 size nmemb else left in
  do block <- memcpy block 0 (zskipn (p_offset p) (p_data p)) len;
  Ret (len, block, mk_payload (add64 (p_offset p) len) (p_len p) (p_data p)).

(** the blocks given to libcurl for the requests [calls]: block, size, nmemb *)
Fixpoint payload_run (p : payload) (calls : list (buf * Z * Z)) : outcome (list buf * payload) :=
  match calls with
  | [] => Ret ([], p)
  | (block, size, nmemb) :: r =>
      do x <- payload_source p block size nmemb;
      do y <- payload_run (snd x) r;
      Ret (zfirstn (fst (fst x)) (snd (fst x)) :: fst y, snd y)
  end.
