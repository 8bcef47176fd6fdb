(** The memory of one request in ulfius_webservice_dispatcher, /repo/src/ulfius.c:611-1068: the
    structure of the response, the callbacks, the buffer of the answer, the texts of the cookie
    headers, the structure that libmicrohttpd makes of them, and what is released at the end.
    DispatchModel describes the values only. Simplifications: the callbacks open no websocket
    (HandMemModel); the request, the endpoints and the texts of the URL are not here (ReqMemModel,
    RouteMemModel); the program was built with libmicrohttpd 0.9.61 or later, so that
    MHD_CREATE_RESPONSE_FROM_BUFFER_PIMPED, lines 426-430, gives the buffer to libmicrohttpd, which
    releases it with o_free; the numbers of the cookies are known only by three flags. *)
From Coq Require Import String ZArith Bool List.
From Verif Require Import Base StrModel UMapModel OwnModel MapMemModel RespMemModel.
Import ListNotations.
Open Scope Z_scope.

(** include/ulfius.h:2117-2118 *)
Definition error_text : str := bs "Server Error".
Definition not_found_text : str := bs "Resource not found".
(** include/ulfius.h:119-123 *)
Definition U_CALLBACK_CONTINUE := 0.
Definition U_CALLBACK_IGNORE := 1.
Definition U_CALLBACK_COMPLETE := 2.
Definition U_CALLBACK_UNAUTHORIZED := 3.
Definition U_CALLBACK_ERROR := 4.

(** struct _u_response, include/ulfius.h:273-291: the block, the members of RespMemModel, status,
    stream_user_data (when there is a stream_callback, with its stream_callback_free), shared_data
    and whether there is a free_shared_data *)
Record dresp := mk_dresp {
  d_id : nat;
  d_resp : hresp;
  d_status : Z;
  d_stream : option Z;
  d_shared : option (Z * bool)
}.
Definition with_resp (d : dresp) (r : hresp) : dresp := mk_dresp (d_id d) r (d_status d) (d_stream d) (d_shared d).
Definition with_status (d : dresp) (s : Z) : dresp := mk_dresp (d_id d) (d_resp d) s (d_stream d) (d_shared d).

(** ** The callbacks: calls to the functions of u_response.c, each with what the allocations answer
    while it runs; what comes next may depend on the result. *)
Inductive cop :=
| CRealm (s : option str)
| CHeader (k : str) (v : option str)
| CUnheader (k : str)
| CText (status : Z) (s : str)
| CBytes (status : Z) (b : list Z)
| CEmpty (status : Z)
| CStream (status : Z) (data : Z)
| CCookie (key : str) (value expires domain path : option str)
| CShared (data : Z) (free : bool).
Inductive callback :=
| Stop (code : Z)
| Call (answers : list bool) (o : cop) (next : Z -> callback).

(** a call on the headers: u_map functions return U_ERROR_PARAMS when the map is NULL *)
Definition x_headers_call (m : mem) (r : hresp) (call : mem -> fmap -> outcome (Z * (mem * fmap))) : outcome (Z * (mem * hresp)) :=
  do h <- x_member (q_header r);
  match h with None => Ret (U_ERROR_PARAMS, (m, r)) | Some _ => x_on_header m r call end.
(** u_response.c:517-593, 621-629, 664-675, 207-288: the status is written when the call succeeds.
    The result is the code, the shared data released by free_shared_data, the memory and the
    response. *)
Definition x_cop (m : mem) (d : dresp) (o : cop) : outcome (Z * list Z * (mem * dresp)) :=
  do _ <- h_use (m_heap m) (d_id d);
  let plain x := do y <- x; let '(c, (m1, r1)) := y in Ret (c, @nil Z, (m1, with_resp d r1)) in
  let body status x := do y <- x; let '(c, (m1, r1)) := y in
                       let d1 := with_resp d r1 in Ret (c, @nil Z, (m1, if c =? U_OK then with_status d1 status else d1)) in
  match o with
  | CRealm s => plain (x_set_realm m (d_resp d) s)
  | CHeader k v => plain (x_headers_call m (d_resp d) (fun m f => x_put m f (Some k) v))
  | CUnheader k => plain (x_headers_call m (d_resp d) (fun m f => x_remove_key m f (fun x => str_eqb x k)))
  | CText status s => body status (x_string_body m (d_resp d) s)
  | CBytes status b => body status (x_binary_body m (d_resp d) b)
  | CEmpty status => body status (x_empty_body m (d_resp d))
  | CStream status data =>
      do y <- x_empty_body m (d_resp d);
      let '(c, (m1, r1)) := y in Ret (c, [], (m1, mk_dresp (d_id d) r1 status (Some data) (d_shared d)))
  | CCookie k v e dm p => plain (x_add_cookie m (d_resp d) k v e dm p)
  | CShared data free =>
      let old := match d_shared d with Some (x, true) => [x] | _ => [] end in
      Ret (U_OK, old, (m, mk_dresp (d_id d) (d_resp d) (d_status d) (d_stream d) (Some (data, free))))
  end.
Definition set_answers (m : mem) (answers : list bool) : mem := mk_mem (m_heap m) answers [].
(** ulfius.c:645, 937 the call of a callback_function *)
Fixpoint x_callback (m : mem) (d : dresp) (p : callback) : outcome (Z * list Z * (mem * dresp)) :=
  match p with
  | Stop code => Ret (code, [], (m, d))
  | Call answers o next =>
      do x <- x_cop (set_answers m answers) d o;
      let '(c, log, (m1, d1)) := x in
      do y <- x_callback m1 d1 (next c);
      let '(code, log2, s) := y in Ret (code, log ++ log2, s)
  end.

(** ** What the world answers after a callback: the allocations of the dispatcher, the creation of
    the struct MHD_Response, each header, the header of each cookie; and whether cookie [i] has a
    max_age, is secure, is http_only *)
Record world := mk_world {
  w_memory : list bool;
  w_creates : bool;
  w_header : str -> str -> bool;
  w_cookie : nat -> bool;
  w_flags : nat -> bool * bool * bool
}.

(** u_response.c:151-169 the loop over the keys *)
Fixpoint x_header_loop (m : mem) (f : fmap) (accept : str -> str -> bool) (ks : list (ptr str)) : outcome bool :=
  match ks with
  | [] => UB OutOfBounds
  | None :: _ => Ret true
  | k :: r =>
      do x <- x_deref m k;
      do v <- x_get m f (snd x); do b <- x_block m v; do s <- deref_cstr b;
      match s with
      | None => x_header_loop m f accept r
      | Some t => if accept (snd x) t then x_header_loop m f accept r else Ret false
      end
  end.
(** u_response.c:141-172 ulfius_set_response_header with a response of libmicrohttpd: false for -1 *)
Definition x_set_headers (m : mem) (r : hresp) (accept : str -> str -> bool) : outcome bool :=
  do h <- x_member (q_header r);
  match h with
  | None => Ret false
  | Some _ => do f <- x_deref m h; do ks <- x_deref m (f_keys (snd f)); x_header_loop m (snd f) accept (snd ks)
  end.

(** u_response.c:33-110 one attribute: with a value (a text of the cookie, or a flag) it is written
    by msprintf and NULL ends the function; otherwise o_strdup("") *)
Inductive attr := AText (p : ptr str) | AFlag (b : bool).
Fixpoint x_free_all (m : mem) (l : list (ptr unit)) : outcome mem :=
  match l with [] => Ret m | p :: r => do m1 <- x_free m (addr p); x_free_all m1 r end.
(** the attributes in turn, [got] those already there; [None] when one with a value cannot be
    written, after the release of the others *)
Fixpoint x_attrs (m : mem) (l : list attr) (got : list (ptr unit)) : outcome (mem * option (list (ptr unit))) :=
  match l with
  | [] => Ret (m, Some got)
  | a :: r =>
      do valued <- (match a with
                    | AText None | AFlag false => Ret false
                    | AText p => do _ <- x_deref m p; Ret true
                    | AFlag true => Ret true
                    end);
      let '(i, m1) := x_malloc m in
      match i with
      | None => if valued : bool then do m2 <- x_free_all m1 got; Ret (m2, None) else x_attrs m1 r (got ++ [None])
      | Some i => x_attrs m1 r (got ++ [Some (i, tt)])
      end
  end.
(** %s of a text that may be NULL *)
Definition x_print (m : mem) (p : ptr str) : outcome unit := match p with None => Ret tt | Some _ => do _ <- x_deref m p; Ret tt end.
(** u_response.c:29-139 ulfius_generate_cookie_header *)
Definition x_cookie_header (m : mem) (c : hcookie) (flags : bool * bool * bool) : outcome (mem * ptr unit) :=
  let '(age, secure, only) := flags in
  do x <- x_attrs m [AText (k_expires c); AFlag age; AText (k_domain c); AText (k_path c); AFlag secure; AFlag only] [];
  match snd x with
  | None => Ret (fst x, None)
  | Some got =>
      do y <- (if existsb is_null got then Ret (fst x, None)
               else do _ <- x_print (fst x) (k_key c); do _ <- x_print (fst x) (k_value c);
                    let '(i, m1) := x_malloc (fst x) in Ret (m1, at_block i tt));
      do m2 <- x_free_all (fst y) got; Ret (m2, snd y)
  end.
(** u_response.c:183-199 the loop over the cookies, [n] iterations from [i]; false for -1 *)
Fixpoint x_cookie_loop (m : mem) (cs : ptr (list hcookie)) (w : world) (i n : nat) : outcome (bool * mem) :=
  match n with
  | O => Ret (true, m)
  | S n' =>
      do a <- x_deref m cs; do c <- aget (snd a) i;
      do h <- x_cookie_header m c (w_flags w i);
      match snd h with
      | None => Ret (false, fst h)
      | Some (j, _) =>
          do m1 <- x_free (fst h) (Some j);
          if w_cookie w i then x_cookie_loop m1 cs w (S i) n' else Ret (false, m1)
      end
  end.
(** u_response.c:174-205 ulfius_set_response_cookie *)
Definition x_set_cookies (m : mem) (r : hresp) (w : world) : outcome (bool * mem) :=
  do n <- x_member (q_nb r); do cs <- x_member (q_cookies r); x_cookie_loop m cs w 0 n.
(** the two tests of ulfius.c:658, 860, 882, 944, 998 *)
Definition x_decorate (m : mem) (r : hresp) (w : world) : outcome (bool * mem) :=
  do h <- x_set_headers m r (w_header w);
  if h : bool then x_set_cookies m r w else Ret (false, m).

(** ** The answer *)
(** a struct MHD_Response made of a buffer (and the length given) or of a stream *)
Inductive content := OfBuffer (p : ptr (list Z)) (n : Z) | OfStream (data : Z).
(** MHD_create_response_from_buffer_with_free_callback: NULL for no buffer and a length *)
Definition x_create (w : world) (p : ptr (list Z)) (n : Z) : option content :=
  if negb (w_creates w) || (is_null p && (0 <? n)) then None else Some (OfBuffer p n).
(** the end of a struct MHD_Response: the buffer is released, or stream_callback_free is called *)
Definition x_destroy (m : mem) (c : content) : outcome (mem * list Z) :=
  match c with
  | OfBuffer p _ => do m1 <- x_free m (addr p); Ret (m1, [])
  | OfStream data => Ret (m, [data])
  end.

(** auth_realm: the text of the response, or default_auth_realm of the instance *)
Inductive realm := RealmOf (i : nat) (s : str) | DefaultRealm (s : str).
(** the variables of the dispatcher: response, mhd_response, response_buffer_len, inner_error,
    auth_realm, and the data released so far *)
Record st := mk_st {
  t_mem : mem;
  t_resp : dresp;
  t_mhd : option content;
  t_len : Z;
  t_inner : Z;
  t_realm : option realm;
  t_log : list Z
}.

(** ulfius.c:254-280 ulfius_get_body_from_response: the code, response_buffer and
    response_buffer_len (first [len]), the memory and the response *)
Definition x_get_body (m : mem) (d : dresp) (len : Z) : outcome (Z * (ptr (list Z) * Z) * (mem * dresp)) :=
  let r := d_resp d in
  do b <- x_member (q_body r); do l <- x_member (q_len r);
  if negb (is_null b) && (0 <? l) then
    match x_malloc m with
    | (Some i, m1) =>
        do y <- x_deref m1 b;
        if zlen (snd y) <? l then UB OutOfBounds else Ret (U_OK, (Some (i, zfirstn l (snd y)), l), (m1, d))
    | (None, m1) =>
        let '(i, m2) := x_malloc m1 in
        let d1 := with_status (with_resp d (with_body r (at_block i (error_text ++ [0])) (zlen error_text))) 500 in
        Ret (match i with Some _ => U_OK | None => U_ERROR_MEMORY end, (None, len), (m2, d1))
    end
  else Ret (U_OK, (None, 0), (m, d)).

(** ulfius.c:867-874, 898-907, 919-926, 960-969, 980-987, 1005-1012 response_buffer = o_strdup(ULFIUS_HTTP_ERROR_BODY)
    and the response of libmicrohttpd; true when there was memory *)
Definition x_error_answer (s : st) (w : world) : bool * st :=
  let '(i, m1) := x_malloc (t_mem s) in
  match i with
  | None => (false, mk_st m1 (t_resp s) (t_mhd s) (t_len s) (t_inner s) (t_realm s) (t_log s))
  | Some i => (true, mk_st m1 (t_resp s) (x_create w (Some (i, error_text ++ [0])) (zlen error_text)) (zlen error_text) (t_inner s) (t_realm s) (t_log s))
  end.
(** ulfius.c:852-876, 989-1014 U_CALLBACK_COMPLETE *)
Definition x_complete (s : st) (w : world) : outcome st :=
  do x <- x_get_body (t_mem s) (t_resp s) (t_len s);
  let '(c, (p, n), (m1, d1)) := x in
  if c =? U_OK then
    let mhd := x_create w p n in
    do m2 <- (match mhd with None => Ret m1 | Some _ => do y <- x_decorate m1 (d_resp d1) w; Ret (snd y) end);
    Ret (mk_st m2 d1 mhd n (t_inner s) (t_realm s) (t_log s))
  else Ret (snd (x_error_answer (mk_st m1 (with_status d1 500) (t_mhd s) n (t_inner s) (t_realm s) (t_log s)) w)).
(** ulfius.c:877-914, 940-976 U_CALLBACK_UNAUTHORIZED; [default] is default_auth_realm *)
Definition x_unauthorized (s : st) (w : world) (default : option str) : outcome st :=
  do x <- x_get_body (t_mem s) (t_resp s) (t_len s);
  let '(c, (p, n), (m1, d1)) := x in
  do s1 <- (if c =? U_OK then
              let mhd := x_create w p n in
              do y <- (match mhd with None => Ret (false, m1) | Some _ => x_decorate m1 (d_resp d1) w end);
              if fst y : bool then Ret (mk_st (snd y) d1 mhd n U_CALLBACK_UNAUTHORIZED (t_realm s) (t_log s))
              else
                let '(i, m2) := x_malloc (snd y) in
                let d2 := with_status (with_resp d1 (with_body (d_resp d1) (at_block i (error_text ++ [0])) (zlen error_text))) 500 in
                Ret (mk_st m2 d2 mhd n (match i with Some _ => U_ERROR_PARAMS | None => U_ERROR_MEMORY end) (t_realm s) (t_log s))
            else
              let '(b, s1) := x_error_answer (mk_st m1 d1 (t_mhd s) n (t_inner s) (t_realm s) (t_log s)) w in
              Ret (mk_st (t_mem s1) (t_resp s1) (t_mhd s1) (t_len s1) (if b : bool then U_CALLBACK_UNAUTHORIZED else U_ERROR_MEMORY) (t_realm s1) (t_log s1)));
  do a <- x_member (q_realm (d_resp (t_resp s1)));
  let realm := match a with
               | Some (i, t) => Some (RealmOf i t)
               | None => match default with Some t => Some (DefaultRealm t) | None => t_realm s1 end
               end in
  Ret (mk_st (t_mem s1) (t_resp s1) (t_mhd s1) (t_len s1) (t_inner s1) realm (t_log s1)).
(** ulfius.c:915-927, 977-988 U_CALLBACK_ERROR *)
Definition x_error (s : st) (w : world) : st :=
  snd (x_error_answer (mk_st (t_mem s) (with_status (t_resp s) 500) (t_mhd s) (t_len s) (t_inner s) (t_realm s) (t_log s)) w).
(** ulfius.c:652-662 a stream *)
Definition x_stream (s : st) (w : world) (data : Z) : outcome st :=
  if w_creates w then
    do y <- x_decorate (t_mem s) (d_resp (t_resp s)) w;
    Ret (mk_st (snd y) (t_resp s) (Some (OfStream data)) (t_len s) (t_inner s) (t_realm s) (t_log s))
  else Ret (mk_st (t_mem s) (t_resp s) None (t_len s) (t_inner s) (t_realm s) (t_log s)).

Definition enter (s : st) (m : mem) (d : dresp) (log : list Z) (w : world) : st :=
  mk_st (set_answers m (w_memory w)) d (t_mhd s) (t_len s) (t_inner s) (t_realm s) (t_log s ++ log).
(** ulfius.c:636-930 the loop over the endpoints; [pos] says whether callback_position is not 0 *)
Fixpoint x_endpoints (s : st) (default : option str) (l : list (callback * world)) (pos : bool) : outcome (bool * st) :=
  match l with
  | [] => Ret (pos, s)
  | (p, w) :: r =>
      do x <- x_callback (t_mem s) (t_resp s) p;
      let '(code, log, (m1, d1)) := x in
      let s1 := enter s m1 d1 log w in
      let pos1 := pos || negb (code =? U_CALLBACK_IGNORE) in
      match d_stream d1 with
      | Some data => do s2 <- x_stream s1 w data; Ret (pos1, s2)
      | None =>
          if (code =? U_CALLBACK_CONTINUE) || (code =? U_CALLBACK_IGNORE) then
            match r with [] => do s2 <- x_complete s1 w; Ret (pos1, s2) | _ => x_endpoints s1 default r pos1 end
          else if code =? U_CALLBACK_COMPLETE then do s2 <- x_complete s1 w; Ret (pos1, s2)
          else if code =? U_CALLBACK_UNAUTHORIZED then do s2 <- x_unauthorized s1 w default; Ret (pos1, s2)
          else Ret (pos1, x_error s1 w)
      end
  end.
(** ulfius.c:932-1018 default_endpoint, called when no callback took a position *)
Definition x_default (s : st) (default : option str) (e : callback * world) : outcome st :=
  do y <- (match t_mhd s with None => Ret (t_mem s, []) | Some c => x_destroy (t_mem s) c end);
  let s0 := mk_st (fst y) (t_resp s) None (t_len s) (t_inner s) (t_realm s) (t_log s ++ snd y) in
  do x <- x_callback (t_mem s0) (t_resp s0) (fst e);
  let '(code, log, (m1, d1)) := x in
  let s1 := enter s0 m1 d1 log (snd e) in
  if code =? U_CALLBACK_UNAUTHORIZED then x_unauthorized s1 (snd e) default
  else if code =? U_CALLBACK_ERROR then Ret (x_error s1 (snd e))
  else if (code =? U_CALLBACK_CONTINUE) || (code =? U_CALLBACK_IGNORE) || (code =? U_CALLBACK_COMPLETE) then x_complete s1 (snd e)
  else Ret s1.

(** what libmicrohttpd has queued: the status, the realm, and the struct MHD_Response; the body is
    released when it has been sent *)
Definition queued := option (Z * option str * content).
Definition x_realm (m : mem) (r : option realm) : outcome (option str) :=
  match r with
  | None => Ret None
  | Some (RealmOf i t) => do x <- x_deref m (Some (i, t)); Ret (Some (snd x))
  | Some (DefaultRealm t) => Ret (Some t)
  end.
(** ulfius.c:1020-1041 the answer; [queues] is what the functions MHD_queue answer. The result: what
    is queued, the data released, the memory, and the response if it still is there. *)
Definition x_finish (s : st) (queues : bool) : outcome (queued * list Z * (mem * option dresp)) :=
  match t_mhd s with
  | None => Ret (None, t_log s, (t_mem s, Some (t_resp s)))
  | Some c =>
      let d := t_resp s in
      do status <- (if t_inner s =? U_CALLBACK_UNAUTHORIZED then do r <- x_realm (t_mem s) (t_realm s); Ret (401, r)
                    else Ret (d_status d, None));
      do x <- (if queues then Ret (t_mem s, []) else x_destroy (t_mem s) c);
      let shared := match d_shared d with Some (data, true) => [data] | _ => [] end in
      do m2 <- x_clean_resp_full (fst x) (d_id d) (d_resp d);
      Ret (if queues then Some (status, c) else None, t_log s ++ snd x ++ shared, (m2, None))
  end.

(** ulfius.c:628-631 default_headers *)
Definition x_default_headers (m : mem) (r : hresp) (headers : option (nat * fmap)) : outcome (mem * hresp) :=
  match headers with
  | None => Ret (m, r)
  | Some (i, f) =>
      do y <- x_deref m (Some (i, f));
      if Nat.eqb (f_nb (snd y)) 0 then Ret (m, r)
      else
        do h <- x_member (q_header r);
        do m1 <- (match h with None => Ret m | Some (j, g) => x_clean_full m j g end);
        do c <- x_copy m1 (snd y);
        Ret (fst c, with_header r (snd c))
  end.
(** a request: what the allocations answer while the response is made, and while default_headers is
    copied; the endpoints found, each with the world after it; the default_endpoint; the world when
    no endpoint was found; what the functions MHD_queue answer *)
Record request := mk_request {
  rq_first : list bool;
  rq_second : list bool;
  rq_endpoints : list (callback * world);
  rq_default : option (callback * world);
  rq_world : world;
  rq_queues : bool
}.
(** ulfius.c:617-1054; [headers] and [realm] are default_headers and default_auth_realm *)
Definition x_request (m : mem) (headers : option (nat * fmap)) (realm : option str) (q : request) : outcome (queued * list Z * (mem * option dresp)) :=
  match rq_endpoints q with
  | [] =>
      let w := rq_world q in
      match x_malloc (set_answers m (w_memory w)) with
      | (None, m1) => Ret (None, [], (m1, None))
      | (Some i, m1) =>
          match x_create w (Some (i, not_found_text ++ [0])) (zlen not_found_text) with
          | None => Ret (None, [], (m1, None))
          | Some c => if rq_queues q then Ret (Some (404, None, c), [], (m1, None)) else do x <- x_destroy m1 c; Ret (None, snd x, (fst x, None))
          end
      end
  | _ =>
      match x_malloc (set_answers m (rq_first q)) with
      | (None, m1) => Ret (None, [], (m1, None))
      | (Some p, m1) =>
          do x <- x_init_resp m1 raw_resp;
          let '(c, (m2, r)) := x in
          if negb (c =? U_OK) then do m3 <- x_free m2 (Some p); Ret (None, [], (m3, None))
          else
            do y <- x_default_headers (set_answers m2 (rq_second q)) r headers;
            let s := mk_st (fst y) (mk_dresp p (snd y) 200 None None) None 0 U_OK None [] in
            do z <- x_endpoints s realm (rq_endpoints q) false;
            do s1 <- (match rq_default q with
                      | Some e => if fst z : bool then Ret (snd z) else x_default (snd z) realm e
                      | None => Ret (snd z)
                      end);
            x_finish s1 (rq_queues q)
      end
  end.

(** what a client gets: the bytes of the buffer, or the stream *)
Inductive body := Bytes (b : list Z) | Stream (data : Z).
Definition x_content (m : mem) (c : content) : outcome body :=
  match c with
  | OfBuffer None n => if 0 <? n then UB OutOfBounds else Ret (Bytes [])
  | OfBuffer p n => do x <- x_deref m p; if zlen (snd x) <? n then UB OutOfBounds else Ret (Bytes (zfirstn n (snd x)))
  | OfStream data => Ret (Stream data)
  end.
(** the answer is sent, then libmicrohttpd releases it: the status, the realm and the body; the
    data released *)
Definition x_sent (m : mem) (q : queued) : outcome (option (Z * option str * body) * (mem * list Z)) :=
  match q with
  | None => Ret (None, (m, []))
  | Some (x, c) => do b <- x_content m c; do y <- x_destroy m c; Ret (Some (x, b), y)
  end.
(** any number of requests, one after the other: for each one the answer and the data released *)
Fixpoint x_requests (m : mem) (headers : option (nat * fmap)) (realm : option str) (l : list request)
  : outcome (list (option (Z * option str * body) * list Z) * mem) :=
  match l with
  | [] => Ret ([], m)
  | q :: r =>
      do x <- x_request m headers realm q;
      let '(a, log, (m1, _)) := x in
      do y <- x_sent m1 a;
      let '(b, (m2, log2)) := y in
      do z <- x_requests m2 headers realm r;
      Ret ((b, log ++ log2) :: fst z, snd z)
  end.
