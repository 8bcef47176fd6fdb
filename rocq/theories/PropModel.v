(** Model of the functions that set several properties of a request or of a response at once, and of the JSON bodies: /repo/src/u_request.c:492-696, 954-1000,
    /repo/src/u_response.c:567-720. MHD >= 0.9.52, jansson and GnuTLS available; allocation succeeds. *)
From Coq Require Import String ZArith Bool List.
From Verif Require Import Base UMapModel SMap SendModel CopyModel ClientModel.
From Verif Require TokenModel CompressModel.
Import ListNotations.
Open Scope Z_scope.

(** the text fields, the numbers and the maps of struct _u_request: include/ulfius.h:233-270 *)
Inductive tfield := Verb | Url | Proxy | CaPath | User | Password | CertFile | KeyFile | KeyPassword.
Inductive ifield := Network | CheckServer | CheckServerFlag | CheckProxy | CheckProxyFlag | Follow | Timeout.
Inductive mfield := MUrl | MHeader | MCookie | MPost.
Scheme Equality for tfield. Scheme Equality for ifield. Scheme Equality for mfield.
(** the blocks of the request a caller may have a pointer to *)
Inductive block := BText (f : tfield) | BBody.
(** a pointer passed by the caller: NULL, memory of its own, or a block the request holds at the call *)
Inductive ptr := PNull | PMem (b : buf) | PHeld (b : block).
(** the variable arguments: pointers to bytes, to JSON values, to anything; int and unsigned int; long and size_t. The types as the caller passes them. *)
Inductive varg := VPtr (p : ptr) | VJson (j : option TokenModel.json) | VVoid (p : option Z) | VInt (z : Z) | VLong (z : Z).
(** va_arg: the type must be the one that was passed; signed and unsigned agree on the values both have (C11 7.16.1.1) *)
Definition va_uint (l : list varg) : outcome (Z * list varg) :=
  match l with VInt z :: r => if 0 <=? z then Ret (z, r) else UB BadArgument | _ => UB BadArgument end.
Definition va_int (l : list varg) : outcome (Z * list varg) :=
  match l with VInt z :: r => if z <? 2147483648 then Ret (z, r) else UB BadArgument | _ => UB BadArgument end.
Definition va_size (l : list varg) : outcome (Z * list varg) :=
  match l with VLong z :: r => if 0 <=? z then Ret (z, r) else UB BadArgument | _ => UB BadArgument end.
Definition va_long (l : list varg) : outcome (Z * list varg) :=
  match l with VLong z :: r => if z <? 9223372036854775808 then Ret (z, r) else UB BadArgument | _ => UB BadArgument end.
Definition va_ptr (l : list varg) : outcome (ptr * list varg) := match l with VPtr p :: r => Ret (p, r) | _ => UB BadArgument end.
Definition va_json (l : list varg) : outcome (option TokenModel.json * list varg) := match l with VJson j :: r => Ret (j, r) | _ => UB BadArgument end.
Definition va_void (l : list varg) : outcome (option Z * list varg) := match l with VVoid p :: r => Ret (p, r) | _ => UB BadArgument end.

(** the request; [q_freed]: which of the blocks it held at the call were freed since *)
Record preq := mk_preq { q_text : tfield -> option str; q_int : ifield -> Z; q_map : mfield -> umap; q_body : msg; q_freed_text : tfield -> bool; q_freed_body : bool }.

Section Request.
(** json_dumps(j, JSON_COMPACT) *)
Variable dumps : TokenModel.json -> option str.
(** the request at the call *)
Variable held_text : tfield -> option str.
Variable held_body : option buf.

(** the bytes a pointer points to *)
Definition mem_of (freed_text : tfield -> bool) (freed_body : bool) (p : ptr) : outcome (option buf) :=
  match p with
  | PNull => Ret None
  | PMem b => Ret (Some b)
  | PHeld (BText f) => match held_text f with None => Ret None | Some s => if freed_text f then UB UseAfterFree else Ret (Some (cblock s)) end
  | PHeld BBody => match held_body with None => Ret None | Some b => if freed_body then UB UseAfterFree else Ret (Some b) end
  end.
Definition text_of (ft : tfield -> bool) (fb : bool) (p : ptr) : outcome (option str) :=
  do b <- mem_of ft fb p; match b with None => Ret None | Some b => do s <- read_cstr b; Ret (Some s) end.

Definition upd_t {A} (g : tfield -> A) (f : tfield) (v : A) : tfield -> A := fun x => if tfield_beq x f then v else g x.
Definition upd_i (g : ifield -> Z) (f : ifield) (v : Z) : ifield -> Z := fun x => if ifield_beq x f then v else g x.
Definition upd_m (g : mfield -> umap) (f : mfield) (v : umap) : mfield -> umap := fun x => if mfield_beq x f then v else g x.
(** o_free(field); field = !o_strnullempty(value) ? o_strdup(value) : NULL: u_request.c:510-517 and the other text options *)
Definition set_text (q : preq) (f : tfield) (p : ptr) : outcome preq :=
  let ft := upd_t (q_freed_text q) f true in
  do v <- text_of ft (q_freed_body q) p;
  Ret (mk_preq (upd_t (q_text q) f (match v with Some [] => None | _ => v end)) (q_int q) (q_map q) (q_body q) ft (q_freed_body q)).
(** 528-531: mstrcatf formats, then frees its first argument; %s of NULL is undefined *)
Definition append_url (q : preq) (p : ptr) : outcome preq :=
  do v <- text_of (q_freed_text q) (q_freed_body q) p;
  match v with
  | None => UB NullDeref
  | Some s => Ret (mk_preq (upd_t (q_text q) Url (catf (q_text q Url) s)) (q_int q) (q_map q) (q_body q) (upd_t (q_freed_text q) Url true) (q_freed_body q))
  end.
Definition set_int (q : preq) (f : ifield) (z : Z) : preq := mk_preq (q_text q) (upd_i (q_int q) f z) (q_map q) (q_body q) (q_freed_text q) (q_freed_body q).
Definition put_in (q : preq) (f : mfield) (k v : ptr) : outcome (Z * preq) :=
  do k <- text_of (q_freed_text q) (q_freed_body q) k;
  do v <- text_of (q_freed_text q) (q_freed_body q) v;
  do x <- u_map_put (q_map q f) k v;
  Ret (fst x, mk_preq (q_text q) (q_int q) (upd_m (q_map q) f (snd x)) (q_body q) (q_freed_text q) (q_freed_body q)).
Definition remove_in (q : preq) (f : mfield) (k : ptr) : outcome (Z * preq) :=
  do k <- text_of (q_freed_text q) (q_freed_body q) k;
  do x <- u_map_remove_from_key (q_map q f) k;
  Ret (fst x, mk_preq (q_text q) (q_int q) (upd_m (q_map q) f (snd x)) (q_body q) (q_freed_text q) (q_freed_body q)).
Definition with_body (q : preq) (b : msg) (freed : bool) : preq := mk_preq (q_text q) (q_int q) (q_map q) b (q_freed_text q) freed.
(** ulfius_set_binary_body_request 733-752, with the pointers: the body is freed before the bytes are read *)
Definition binary_body (q : preq) (p : ptr) (n : Z) : outcome (Z * preq) :=
  match p with
  | PNull => Ret (U_ERROR_PARAMS, q)
  | _ =>
      if n =? 0 then Ret (U_ERROR_PARAMS, q)
      else do d <- mem_of (q_freed_text q) true p;
           match d with
           | None => Ret (U_ERROR_PARAMS, q)
           | Some d => do b <- memcpy (malloc n) 0 d n; Ret (U_OK, with_body q (mk_msg (Some b) n (m_status (q_body q))) true)
           end
  end.
(** ulfius_set_string_body_request 704-719; o_strlen is read after o_strdup *)
Definition string_body (q : preq) (p : ptr) : outcome (Z * preq) :=
  match p with
  | PNull => Ret (U_ERROR_PARAMS, q)
  | _ => do s <- text_of (q_freed_text q) true p;
         match s with
         | None => Ret (U_ERROR_PARAMS, q)
         | Some s => do x <- set_string_body true (q_body q) (m_status (q_body q)) (Some s); Ret (fst x, with_body q (snd x) true)
         end
  end.
(** the text json_dumps gives if the value is an array or an object *)
Definition document (j : option TokenModel.json) : option (option str) :=
  match j with Some (TokenModel.JArr l) => Some (dumps (TokenModel.JArr l)) | Some (TokenModel.JObj l) => Some (dumps (TokenModel.JObj l)) | _ => None end.
(** 954-974 ulfius_set_json_body_request and u_response.c:683-703 ulfius_set_json_body_response, on the body and the headers *)
Definition json_body (b : msg) (status : Z) (headers : umap) (j : option TokenModel.json) : outcome (Z * (msg * umap)) :=
  match document j with
  | None => Ret (U_ERROR_PARAMS, (b, headers))
  | Some None => Ret (U_ERROR_MEMORY, (mk_msg None 0 (m_status b), headers))
  | Some (Some t) =>
      do h <- u_map_put headers (Some (bs "Content-Type")) (Some (bs "application/json"));
      Ret (U_OK, (mk_msg (Some (cblock t)) (zlen t) status, snd h))
  end.
Definition json_body_request (q : preq) (j : option TokenModel.json) : outcome (Z * preq) :=
  do x <- json_body (q_body q) (m_status (q_body q)) (q_map q MHeader) j;
  Ret (fst x, mk_preq (q_text q) (q_int q) (upd_m (q_map q) MHeader (snd (snd x))) (fst (snd x)) (q_freed_text q) (match document j with None => q_freed_body q | _ => true end)).

(** one option: the switch of ulfius_set_request_properties, 507-690; the option codes are those of include/ulfius.h:146-184 *)
Definition text_option (q : preq) (f : tfield) (l : list varg) : outcome (Z * preq * list varg) :=
  do a <- va_ptr l; do q <- set_text q f (fst a); Ret (U_OK, q, snd a).
Definition int_option (q : preq) (f : ifield) (conv : Z -> Z) (l : list varg) : outcome (Z * preq * list varg) :=
  do a <- va_int l; Ret (U_OK, set_int q f (conv (fst a)), snd a).
Definition put_option (q : preq) (f : mfield) (l : list varg) : outcome (Z * preq * list varg) :=
  do a <- va_ptr l; do b <- va_ptr (snd a); do x <- put_in q f (fst a) (fst b); Ret (fst x, snd x, snd b).
Definition remove_option (q : preq) (f : mfield) (l : list varg) : outcome (Z * preq * list varg) :=
  do a <- va_ptr l; do x <- remove_in q f (fst a); Ret (fst x, snd x, snd a).
Definition ident (z : Z) : Z := z.
Definition request_option (o : Z) (q : preq) (l : list varg) : outcome (Z * preq * list varg) :=
  if o =? 1 then text_option q Verb l
  else if o =? 2 then text_option q Url l
  else if o =? 32 then do a <- va_ptr l; do q <- append_url q (fst a); Ret (U_OK, q, snd a)
  else if o =? 3 then text_option q Proxy l
  else if o =? 4 then int_option q Network (fun z => z mod 65536) l
  else if o =? 5 then int_option q CheckServer ident l
  else if o =? 6 then int_option q CheckServerFlag ident l
  else if o =? 7 then int_option q CheckProxy ident l
  else if o =? 8 then int_option q CheckProxyFlag ident l
  else if o =? 9 then int_option q Follow ident l
  else if o =? 10 then text_option q CaPath l
  else if o =? 11 then int_option q Timeout (fun z => z mod two64) l
  else if o =? 12 then text_option q User l
  else if o =? 13 then text_option q Password l
  else if o =? 14 then do a <- va_ptr l; do q <- set_text q User (fst a); do b <- va_ptr (snd a); do q <- set_text q Password (fst b); Ret (U_OK, q, snd b)
  else if o =? 15 then put_option q MUrl l
  else if o =? 16 then put_option q MHeader l
  else if o =? 17 then put_option q MCookie l
  else if o =? 18 then put_option q MPost l
  else if o =? 19 then remove_option q MUrl l
  else if o =? 20 then remove_option q MHeader l
  else if o =? 21 then remove_option q MCookie l
  else if o =? 22 then remove_option q MPost l
  else if o =? 23 then do a <- va_ptr l; do n <- va_size (snd a); do x <- binary_body q (fst a) (fst n); Ret (fst x, snd x, snd n)
  else if o =? 24 then do a <- va_ptr l; do x <- string_body q (fst a); Ret (fst x, snd x, snd a)
  else if o =? 25 then do a <- va_json l; do x <- json_body_request q (fst a); Ret (fst x, snd x, snd a)
  else if o =? 26 then text_option q CertFile l
  else if o =? 27 then text_option q KeyFile l
  else if o =? 28 then text_option q KeyPassword l
  else Ret (U_ERROR_PARAMS, q, l).
(** the loop 506-691: the next option is read before the result is looked at. Every round reads an argument, so [n] rounds are enough for [n] arguments. *)
Fixpoint request_loop (n : nat) (ret : Z) (q : preq) (l : list varg) : outcome (Z * preq) :=
  match n with
  | O => UB Endless
  | S n =>
      do o <- va_uint l;
      if negb (fst o =? 0) && (ret =? U_OK) then do x <- request_option (fst o) q (snd o); request_loop n (fst (fst x)) (snd (fst x)) (snd x)
      else Ret (ret, q)
  end.

(** the response: status and body, headers, realm, shared data with its free function, timeout *)
Record presp := mk_presp { p_body : msg; p_headers : umap; p_realm : option str; p_shared : option Z; p_free : option Z; p_timeout : Z }.
End Request.
Definition set_request_properties (dumps : TokenModel.json -> option str) (q : preq) (l : list varg) : outcome (Z * preq) :=
  request_loop dumps (q_text q) (m_body (q_body q)) (S (length l)) U_OK
    (mk_preq (q_text q) (q_int q) (q_map q) (q_body q) (fun _ => false) false) l.

Section Response.
Variable dumps : TokenModel.json -> option str.
(** pointers to the fields of the response itself are left out here: only memory of the caller *)
Definition own (p : ptr) : outcome (option buf) := match p with PNull => Ret None | PMem b => Ret (Some b) | PHeld _ => UB UseAfterFree end.
Definition own_text (p : ptr) : outcome (option str) := do b <- own p; match b with None => Ret None | Some b => do s <- read_cstr b; Ret (Some s) end.
Definition set_body (r : presp) (b : msg) : presp := mk_presp b (p_headers r) (p_realm r) (p_shared r) (p_free r) (p_timeout r).
Definition set_headers (r : presp) (h : umap) : presp := mk_presp (p_body r) h (p_realm r) (p_shared r) (p_free r) (p_timeout r).
Definition uint (z : Z) : Z := z mod 4294967296.
(** u_response.c:608-657, the switch *)
Definition response_option (o : Z) (r : presp) (l : list varg) : outcome (Z * presp * list varg) :=
  if o =? 29 then do a <- va_long l; Ret (U_OK, set_body r (mk_msg (m_body (p_body r)) (m_length (p_body r)) (fst a)), snd a)
  else if o =? 16 then
    do a <- va_ptr l; do b <- va_ptr (snd a);
    do k <- own_text (fst a); do v <- own_text (fst b);
    do x <- u_map_put (p_headers r) k v; Ret (fst x, set_headers r (snd x), snd b)
  else if o =? 20 then
    do a <- va_ptr l; do k <- own_text (fst a);
    do x <- u_map_remove_from_key (p_headers r) k; Ret (fst x, set_headers r (snd x), snd a)
  else if o =? 30 then
    do a <- va_ptr l; do v <- own_text (fst a);
    Ret (U_OK, mk_presp (p_body r) (p_headers r) (match v with Some [] => None | _ => v end) (p_shared r) (p_free r) (p_timeout r), snd a)
  else if o =? 23 then
    do a <- va_ptr l; do n <- va_size (snd a);
    do d <- own (fst a);
    match d with
    | None => Ret (U_ERROR_PARAMS, r, snd n)
    | Some d => if fst n =? 0 then Ret (U_ERROR_PARAMS, r, snd n)
                else do b <- memcpy (malloc (fst n)) 0 d (fst n); Ret (U_OK, set_body r (mk_msg (Some b) (fst n) (uint (m_status (p_body r)))), snd n)
    end
  else if o =? 24 then
    do a <- va_ptr l; do s <- own_text (fst a);
    do x <- set_string_body true (p_body r) (uint (m_status (p_body r))) s; Ret (fst x, set_body r (snd x), snd a)
  else if o =? 25 then
    do a <- va_json l;
    do x <- json_body dumps (p_body r) (uint (m_status (p_body r))) (p_headers r) (fst a); Ret (fst x, set_headers (set_body r (fst (snd x))) (snd (snd x)), snd a)
  else if o =? 31 then do a <- va_void l; Ret (U_OK, mk_presp (p_body r) (p_headers r) (p_realm r) (fst a) (p_free r) (p_timeout r), snd a)
  else if o =? 11 then do a <- va_uint l; Ret (U_OK, mk_presp (p_body r) (p_headers r) (p_realm r) (p_shared r) (p_free r) (fst a), snd a)
  else Ret (U_ERROR_PARAMS, r, l).
Fixpoint response_loop (n : nat) (ret : Z) (r : presp) (l : list varg) : outcome (Z * presp) :=
  match n with
  | O => UB Endless
  | S n =>
      do o <- va_uint l;
      if negb (fst o =? 0) && (ret =? U_OK) then do x <- response_option (fst o) r (snd o); response_loop n (fst (fst x)) (snd (fst x)) (snd x)
      else Ret (ret, r)
  end.
(** u_response.c:595-661 *)
Definition set_response_properties (r : presp) (l : list varg) : outcome (Z * presp) := response_loop (S (length l)) U_OK r l.
End Response.

(** u_request.c:982-1000 ulfius_get_json_body_request and u_response.c:711-716: json_loadb of the body if there is exactly one Content-Type header, with "application/json" in it.
    json_loadb of NULL is an error. [loadb]: jansson's parser *)
Definition get_json_body (loadb : list Z -> option TokenModel.json) (b : msg) (headers : umap) : outcome (option TokenModel.json) :=
  do n <- u_map_count_keys_case headers (Some (bs "Content-Type"));
  if n =? 1 then
    do t <- ClientModel.get_case_str headers (Some (bs "Content-Type"));
    if match t with Some x => containsb x (bs "application/json") | None => false end then
      match m_body b with
      | None => Ret None
      | Some d => do x <- CompressModel.read_bytes d (m_length b); Ret (loadb x)
      end
    else Ret None
  else Ret None.

(** ** shared data *)
(** u_response.c:664-676 ulfius_set_response_shared_data: the result, the response, and the calls of free functions (function, data) *)
Definition set_shared_data (r : presp) (d f : option Z) : Z * presp * list (Z * Z) :=
  match d with
  | None => (U_ERROR_PARAMS, r, [])
  | Some d =>
      (U_OK, mk_presp (p_body r) (p_headers r) (p_realm r) (Some d) f (p_timeout r),
       match p_free r, p_shared r with Some g, Some old => [(g, old)] | _, _ => [] end)
  end.
(** u_response.c:645-647, U_OPT_SHARED_DATA *)
Definition overwrite_shared_data (r : presp) (d : option Z) : presp := mk_presp (p_body r) (p_headers r) (p_realm r) d (p_free r) (p_timeout r).
(** ulfius.c:1035-1041, when a response for MHD was made; otherwise nothing is called *)
Definition release_shared_data (answered : bool) (r : presp) : list (Z * Z) :=
  if answered then match p_free r, p_shared r with Some g, Some d => [(g, d)] | _, _ => [] end else [].
(** what the callbacks of a request do *)
Inductive shared_op := Give (d f : option Z) | Overwrite (d : option Z).
Definition shared_step (x : presp * list (Z * Z)) (o : shared_op) : presp * list (Z * Z) :=
  match o with
  | Give d f => let y := set_shared_data (fst x) d f in (snd (fst y), snd x ++ snd y)
  | Overwrite d => (overwrite_shared_data (fst x) d, snd x)
  end.
Definition shared_life (answered : bool) (r : presp) (l : list shared_op) : list (Z * Z) :=
  let x := fold_left shared_step l (r, []) in snd x ++ release_shared_data answered (fst x).
