(** Model of the body setters and of the copies of requests and responses:
    /repo/src/u_request.c:327-487 and 704-790, /repo/src/u_response.c:290-568, 637-660.
    C30 needs pointers, so responses live in a heap; requests and bodies are values. *)
From Coq Require Import String ZArith Bool List.
From Verif Require Import Base UMapModel.
Import ListNotations.
Open Scope Z_scope.

(** ** bodies (C32) *)

(** binary_body ([None] = NULL), binary_body_length and, for a response, status *)
Record msg := mk_msg { m_body : option buf; m_length : Z; m_status : Z }.
Definition init_msg : msg := mk_msg None 0 200.

(** the calls; [alloc] says whether the allocation made by the call succeeds *)
Inductive body_op :=
| SetString (alloc : bool) (status : Z) (s : option str)
| SetBinary (alloc : bool) (status : Z) (data : option (list Z)) (length : Z)
| SetEmpty (status : Z)
(** [doc]: the text json_dumps gives, if [j_body] is an array or an object *)
| SetJson (alloc : bool) (status : Z) (doc : option str).

(** u_response.c:517-533, 535-555, 557-568, 644-659. The request variants (u_request.c:704-765,
    952-971) are the same without the status. The Content-Type header set for JSON is left out. *)
Definition set_string_body (alloc : bool) (m : msg) (status : Z) (s : option str) : outcome (Z * msg) :=
  match s with
  | Some t => if alloc then Ret (U_OK, mk_msg (Some (cblock t)) (zlen t) status)
              else Ret (U_ERROR_MEMORY, mk_msg None (m_length m) (m_status m))
  | None => Ret (U_ERROR_PARAMS, m)
  end.
Definition set_binary_body (alloc : bool) (m : msg) (status : Z) (data : option (list Z)) (length : Z) : outcome (Z * msg) :=
  match data with
  | Some d => if length =? 0 then Ret (U_ERROR_PARAMS, m)
              else if alloc then
                do b <- memcpy (malloc length) 0 (block_of d) length;
                Ret (U_OK, mk_msg (Some b) length status)
              else Ret (U_ERROR_MEMORY, mk_msg None 0 (m_status m))
  | None => Ret (U_ERROR_PARAMS, m)
  end.
Definition set_empty_body (m : msg) (status : Z) : outcome (Z * msg) := Ret (U_OK, mk_msg None 0 status).
Definition set_json_body (alloc : bool) (m : msg) (status : Z) (doc : option str) : outcome (Z * msg) :=
  match doc with
  | Some t => if alloc then Ret (U_OK, mk_msg (Some (cblock t)) (zlen t) status)
              else Ret (U_ERROR_MEMORY, mk_msg None 0 (m_status m))
  | None => Ret (U_ERROR_PARAMS, m)
  end.

Definition body_step (m : msg) (o : body_op) : outcome (Z * msg) :=
  match o with
  | SetString a st s => set_string_body a m st s
  | SetBinary a st d n => set_binary_body a m st d n
  | SetEmpty st => set_empty_body m st
  | SetJson a st d => set_json_body a m st d
  end.
Fixpoint body_run (m : msg) (ops : list body_op) : outcome (list Z * msg) :=
  match ops with
  | [] => Ret ([], m)
  | o :: r => do x <- body_step m o; do y <- body_run (snd x) r; Ret (fst x :: fst y, snd y)
  end.

(** ** requests (C31) *)

(** include/ulfius.h:233-265. [q_ints]: network_type, the four certificate flags,
    follow_redirect, timeout, callback_position. [q_strs]: http_protocol, http_verb, http_url,
    url_path, proxy, ca_path, auth_basic_user, auth_basic_password, client_cert_file,
    client_key_file, client_key_password. client_cert (an object of GnuTLS) is left out. *)
Record request := mk_request {
  q_strs : list (option str); q_ints : list Z; q_address : option (list Z);
  q_url : umap; q_header : umap; q_cookie : umap; q_post : umap;
  q_body : option buf; q_body_length : Z }.

(** u_request.c:267-314 ulfius_init_request *)
Definition init_request : request :=
  mk_request (repeat None 11) [17; 1; 17; 1; 17; 0; 0; 0] None u_map_init u_map_init u_map_init u_map_init None 0.

(** o_strdup *)
Definition o_strdup (s : option str) : option str := s.

(** u_request.c:413-421 and the like: u_map_clean, u_map_init, u_map_copy_into *)
Definition copy_map (source : umap) : outcome (Z * umap) := u_map_copy_into u_map_init source.

(** u_request.c:380-487 ulfius_copy_request. [q_address] is the 16 bytes of a struct sockaddr.
    The maps are copied in this order and the first failure stops; the failing result is
    simplified to the unchanged [dest] (u_map_copy_into does not fail on an initialised map,
    C31 shows U_OK). *)
Definition copy_request (dest source : request) : outcome (Z * request) :=
  do u <- copy_map (q_url source);
  do h <- copy_map (q_header source);
  do c <- copy_map (q_cookie source);
  do p <- copy_map (q_post source);
  if (fst u =? U_OK) && (fst h =? U_OK) && (fst c =? U_OK) && (fst p =? U_OK) then
    do b <- (if negb (q_body_length source =? 0) then
               match q_body source with
               | None => UB NullDeref
               | Some sb => do nb <- memcpy (malloc (q_body_length source)) 0 sb (q_body_length source);
                            Ret (Some nb, q_body_length source)
               end
             else Ret (q_body dest, q_body_length dest));
    Ret (U_OK, mk_request (map o_strdup (q_strs source)) (q_ints source)
                 (match q_address source with Some a => Some a | None => q_address dest end)
                 (snd u) (snd h) (snd c) (snd p) (fst b) (snd b))
  else Ret (U_ERROR, dest).

(** u_request.c:767-790 ulfius_duplicate_request *)
Definition duplicate_request (source : request) : outcome (option request) :=
  do r <- copy_request init_request source;
  Ret (if fst r =? U_OK then Some (snd r) else None).

(** ** responses in a heap (C30) *)

(** a heap: the block at each address, [None] once freed *)
Definition heap := list (option (list Z)).
Definition ptr := option nat.

Definition hread (h : heap) (p : nat) : outcome (list Z) :=
  match nth_error h p with Some (Some c) => Ret c | _ => UB UseAfterFree end.
Definition halloc (h : heap) (c : list Z) : heap * ptr := (h ++ [Some c], Some (length h)).
Definition hfree (h : heap) (p : ptr) : outcome heap :=
  match p with
  | None => Ret h
  | Some a => match nth_error h a with Some (Some _) => Ret (set_nth h a None) | _ => UB DoubleFree end
  end.
Definition hstrdup (h : heap) (p : ptr) : outcome (heap * ptr) :=
  match p with
  | None => Ret (h, None)
  | Some a => do c <- hread h a; Ret (halloc h c)
  end.

Record hcookie := mk_hcookie {
  hc_key : ptr; hc_value : ptr; hc_expires : ptr; hc_domain : ptr; hc_path : ptr; hc_ints : list Z }.
(** a response whose strings, cookie array and body are heap blocks; the header map is a value
    (C08 is about its copy). [hr_stream]: the five stream fields, [None] if stream_callback is
    NULL; [hr_rest]: timeout, shared_data and the six callback and user data fields of the
    websocket handle. The list of websocket extensions of the handle is not copied by the code
    and is left out, like free_shared_data. *)
Record hresp := mk_hresp {
  hr_status : Z; hr_stream : option (list Z); hr_rest : list Z; hr_protocol : ptr; hr_realm : ptr; hr_header : umap; hr_jar : ptr; hr_cookies : list hcookie;
  hr_body : ptr; hr_body_length : Z; hr_ws_protocol : ptr; hr_ws_extensions : ptr }.

(** u_response.c:374-425 ulfius_init_response *)
Definition init_hresp : hresp := mk_hresp 200 None (repeat 0 8) None None u_map_init None [] None 0 None None.

(** u_response.c:308-331 ulfius_copy_cookie: (heap, code, new cookie). On a missing attribute the
    blocks are freed but the pointers stay. *)
Definition copy_cookie (h : heap) (c : hcookie) : outcome (heap * Z * hcookie) :=
  do x1 <- hstrdup h (hc_key c);
  do x2 <- hstrdup (fst x1) (hc_value c);
  do x3 <- hstrdup (fst x2) (hc_expires c);
  do x4 <- hstrdup (fst x3) (hc_domain c);
  do x5 <- hstrdup (fst x4) (hc_path c);
  let d := mk_hcookie (snd x1) (snd x2) (snd x3) (snd x4) (snd x5) (hc_ints c) in
  match snd x5, snd x4, snd x3, snd x2 with
  | Some _, Some _, Some _, Some _ => Ret (fst x5, U_OK, d)
  | _, _, _, _ =>
      do f1 <- hfree (fst x5) (snd x5); do f2 <- hfree f1 (snd x4); do f3 <- hfree f2 (snd x3); do f4 <- hfree f3 (snd x2);
      Ret (f4, U_ERROR_MEMORY, d)
  end.
Fixpoint copy_cookies (h : heap) (l : list hcookie) : outcome (heap * list hcookie) :=
  match l with
  | [] => Ret (h, [])
  | c :: r => do x <- copy_cookie h c;
              do y <- copy_cookies (fst (fst x)) r;
              Ret (fst y, snd x :: snd y)
  end.

(** u_response.c:443-455 the array of cookies: (heap, map_cookie, cookies) *)
Definition copy_jar (h : heap) (l : list hcookie) : outcome (heap * ptr * list hcookie) :=
  match l with
  | [] => Ret (h, None, [])
  | _ => let a := halloc h [] in do y <- copy_cookies (fst a) l; Ret (fst y, snd a, snd y)
  end.
(** u_response.c:457-465 the body: (heap, binary_body, binary_body_length) *)
Definition copy_body (h : heap) (dest source : hresp) : outcome (heap * ptr * Z) :=
  match hr_body source with
  | Some b => if hr_body_length source =? 0 then Ret (h, hr_body dest, hr_body_length dest)
              else do c <- hread h b;
                   if hr_body_length source <=? zlen c then
                     let a := halloc h (zfirstn (hr_body_length source) c) in
                     Ret (fst a, snd a, hr_body_length source)
                   else UB OutOfBounds
  | None => Ret (h, hr_body dest, hr_body_length dest)
  end.
(** u_response.c:427-492 ulfius_copy_response: (heap, code, dest) *)
Definition copy_response (h : heap) (dest source : hresp) : outcome (heap * Z * hresp) :=
  do x1 <- hstrdup h (hr_protocol source);
  do x2 <- hstrdup (fst x1) (hr_realm source);
  let d1 := mk_hresp (hr_status source) (hr_stream dest) (hr_rest dest) (snd x1) (snd x2) (hr_header dest) (hr_jar dest) (hr_cookies dest)
              (hr_body dest) (hr_body_length dest) (hr_ws_protocol dest) (hr_ws_extensions dest) in
  match snd x1 with
  | None => Ret (fst x2, U_ERROR_MEMORY, d1)
  | Some _ =>
      do m <- u_map_copy (hr_header source);
      match m with
      | None => Ret (fst x2, U_ERROR_MEMORY, d1)
      | Some nm =>
          do x3 <- copy_jar (fst x2) (hr_cookies source);
          do x4 <- copy_body (fst (fst x3)) dest source;
          do x5 <- hstrdup (fst (fst x4)) (hr_ws_protocol source);
          do x6 <- hstrdup (fst x5) (hr_ws_extensions source);
          Ret (fst x6, U_OK,
               mk_hresp (hr_status source)
                 (match hr_stream source with Some x => Some x | None => hr_stream dest end) (hr_rest source) (snd x1) (snd x2) nm (snd (fst x3)) (snd x3)
                 (snd (fst x4)) (snd x4) (snd x5) (snd x6))
      end
  end.

(** u_response.c:290-306 ulfius_clean_cookie *)
Definition clean_cookie (h : heap) (c : hcookie) : outcome heap :=
  do h1 <- hfree h (hc_key c); do h2 <- hfree h1 (hc_value c); do h3 <- hfree h2 (hc_expires c);
  do h4 <- hfree h3 (hc_domain c); hfree h4 (hc_path c).
Fixpoint clean_cookies (h : heap) (l : list hcookie) : outcome heap :=
  match l with [] => Ret h | c :: r => do h1 <- clean_cookie h c; clean_cookies h1 r end.
(** u_response.c:333-362 ulfius_clean_response *)
Definition clean_response (h : heap) (r : hresp) : outcome heap :=
  do h1 <- hfree h (hr_protocol r);
  do h2 <- clean_cookies h1 (hr_cookies r);
  do h3 <- hfree h2 (hr_realm r);
  do h4 <- hfree h3 (hr_jar r);
  do h5 <- hfree h4 (hr_body r);
  do h6 <- hfree h5 (hr_ws_protocol r);
  hfree h6 (hr_ws_extensions r).

(** u_response.c:494-515 ulfius_duplicate_response *)
Definition duplicate_response (h : heap) (source : hresp) : outcome (heap * option hresp) :=
  do x <- copy_response h init_hresp source;
  if snd (fst x) =? U_OK then Ret (fst (fst x), Some (snd x))
  else do h' <- clean_response (fst (fst x)) (snd x); Ret (h', None).
