(** The memory of websockets opened by a client, /repo/src/u_websocket.c: the handler of a client
    (struct _websocket_client_handler), ulfius_add_websocket_client_extension_message_perform,
    ulfius_open_websocket_client_connection with the answer of the server in
    ulfius_websocket_connection_handshake, and the functions that look at the handler or close it.
    The structures of WsMemModel are used; the websocket, its manager, the copy of the request, the
    texts of the answer, the extensions with their texts and contexts are blocks of the heap, and an
    allocation may fail. NegoModel and OpenModel describe the values.
    Simplifications: the copy of the request is one block (ReqMemModel has all of them); the headers
    of the request, those put in the response (MapMemModel) and the array that split_string makes are left
    out; whether the answer is one of an upgrade is given; no message is sent or received (WsMemModel);
    the thread of a websocket and the program take turns. *)
From Coq Require Import String ZArith Bool List.
From Verif Require Import Base StrModel UMapModel OwnModel MapMemModel RespMemModel WsMemModel HandMemModel.
Import ListNotations.
Open Scope Z_scope.

(** The functions of the extensions: websocket_extension_client_match, which refuses an element of the
    answer by its name, refuses it after it made a context and released it, or accepts it with a
    context (the text in [MYes] is not used), and whether there is websocket_extension_free_context. *)
Record cenv := mk_cenv { c_match : nat -> option (str -> verdict); c_free : nat -> bool }.

(** struct _websocket, include/ulfius.h:1657-1675, with protocol and extensions of its manager
    (1622-1652): the manager, these texts, the copy of the request *)
Record cws := mk_cws { k_man : hws; k_prot : ptr str; k_text : ptr str; k_req : ptr unit }.
(** struct _websocket_client_handler, include/ulfius.h:1705-1708: NULL, a websocket, or a pointer to a
    websocket that was released *)
Inductive handler := HNull | HStale | HWs (p : nat) (w : cws).

(** u_websocket.c:1828-1835 the contexts of the extensions in use *)
Fixpoint x_free_ccontexts (E : cenv) (m : mem) (l : list (ptr wext)) : outcome mem :=
  match l with
  | [] => Ret m
  | e :: r =>
      do m1 <- (match e with
                | None => Ret m
                | Some _ =>
                    do x <- x_deref m e;
                    if x_on (snd x) && c_free E (x_fun (snd x)) then do c <- x_member (x_context (snd x)); x_free m (addr c) else Ret m
                end);
      x_free_ccontexts E m1 r
  end.
(** u_websocket.c:1811-1840 ulfius_clear_websocket_manager *)
Definition x_clear_cman (E : cenv) (m : mem) (g : hman) (prot text : ptr str) : outcome mem :=
  do i <- x_member (g_in g); do a <- x_clear_list m i; do m1 <- x_free (fst a) (addr i);
  do o <- x_member (g_out g); do b <- x_clear_list m1 o; do m2 <- x_free (fst b) (addr o);
  do m3 <- x_free m2 (addr prot); do m4 <- x_free m3 (addr text);
  do l <- x_member (g_exts g); do es <- x_elements m4 l;
  do m5 <- x_free_ccontexts E m4 es; do m6 <- x_clean_wexts m5 l; x_free m6 (addr l).
(** u_websocket.c:1678-1700 ulfius_clear_websocket *)
Definition x_clear_cws (E : cenv) (m : mem) (p : nat) (w : cws) : outcome mem :=
  do _ <- h_use (m_heap m) p;
  do m1 <- x_free m (addr (k_req w));
  do g <- x_member (k_man w);
  do m2 <- (match g with None => Ret m1 | Some _ => do x <- x_deref m1 g; x_clear_cman E m1 (snd x) (k_prot w) (k_text w) end);
  do m3 <- x_free m2 (addr g); x_free m3 (Some p).

(** u_websocket.c:2483-2533 ulfius_add_websocket_client_extension_message_perform: when the websocket
    has no memory for its manager the handler keeps it all the same *)
Definition x_client_extend (m : mem) (h : handler) (name : str) (rsv : Z) (f : nat) : outcome (Z * (mem * handler)) :=
  do r <- (match h with
           | HStale => UB UseAfterFree
           | HWs p w => Ret (U_OK, (m, h))
           | HNull =>
               match x_malloc m with
               | (None, m1) => Ret (U_ERROR, (m1, HNull))
               | (Some p, m1) =>
                   do i <- x_init_ws m1 true;
                   let '(c, (m2, w)) := i in Ret (if c =? U_OK then U_OK else U_ERROR, (m2, HWs p (mk_cws w None None None)))
               end
           end);
  let '(c, (m1, h1)) := r in
  match h1 with
  | HWs p w =>
      if c =? U_OK then
        do _ <- h_use (m_heap m1) p;
        do g <- x_member (k_man w);
        match g with
        | None => match x_malloc m1 with (None, m2) => Ret (U_ERROR_MEMORY, (m2, h1)) | (Some _, _) => UB NullDeref end
        | Some _ =>
            do y <- x_deref m1 g; do z <- x_add_wext m1 (snd y) name rsv f;
            let '(c2, (m2, g2)) := z in Ret (c2, (m2, HWs p (mk_cws (Some (Some (fst y, g2))) (k_prot w) (k_text w) (k_req w))))
        end
      else Ret (c, (m1, h1))
  | _ => Ret (c, (m1, h1))
  end.

(** u_websocket.c:997-1027 the loop over the extensions of the client for one element of the answer:
    the bits, whether it was enabled, the extensions *)
Fixpoint x_celem (E : cenv) (tok : str) (m : mem) (exp : Z) (l : list (ptr wext)) : outcome (mem * (Z * (bool * list (ptr wext)))) :=
  match l with
  | [] => Ret (m, (exp, (false, [])))
  | e :: r =>
      let next m1 e1 := do x <- x_celem E tok m1 exp r; let '(m2, (b, (ok, r1))) := x in Ret (m2, (b, (ok, e1 :: r1))) in
      match e with
      | None => next m e
      | Some _ =>
          do x <- x_deref m e;
          let w := snd x in
          let put n on c : ptr wext := Some (fst x, mk_wext n (x_client w) (x_rsv w) (x_fun w) on c) in
          let found m1 c := if Z.land (x_rsv w) exp =? 0 then
                              let '(n, m2) := x_strdup m1 (Some (trim_left tok)) in Ret (m2, (Z.lor exp (x_rsv w), (true, put n true c :: r)))
                            else Ret (m1, (exp, (false, put (x_server w) false c :: r))) in
          if x_on w then next m e
          else
            match c_match E (x_fun w) with
            | Some f =>
                match f (trim tok) with
                | MNo => next m e
                | MBad => let '(c, m1) := x_malloc m in do m2 <- x_free m1 c; next m2 (put (x_server w) false (Some None))
                | MYes _ =>
                    match x_malloc m with
                    | (None, m1) => next m1 (put (x_server w) false (Some None))
                    | (Some c, m1) => found m1 (Some (Some (c, tt)))
                    end
                end
            | None =>
                do s <- (match x_client w with None => Ret None | Some _ => do y <- x_deref m (x_client w); Ret (Some (snd y)) end);
                if match s with Some s => str_eqb (trim tok) s | None => false end then found m (x_context w) else next m e
            end
      end
  end.
(** u_websocket.c:995-1035 the loop over the elements: it stops at the first that is not enabled *)
Fixpoint x_celems (E : cenv) (toks : list str) (m : mem) (exp : Z) (l : list (ptr wext)) : outcome (mem * (Z * (bool * list (ptr wext)))) :=
  match toks with
  | [] => Ret (m, (exp, (true, l)))
  | tok :: r =>
      do x <- x_celem E tok m exp l;
      let '(m1, (b, (ok, l1))) := x in if ok then x_celems E r m1 b l1 else Ret (m1, (b, (false, l1)))
  end.

(** a header of the answer: Sec-WebSocket-Protocol, Sec-WebSocket-Extensions or another one *)
Inductive header := HProt (v : str) | HExts (v : str) | HOther (k v : str).
(** u_websocket.c:929-951 one header of the answer: its key and value are copied; the texts of the
    manager are written without releasing those before *)
Definition x_header (m : mem) (w : cws) (h : header) : outcome (mem * cws) :=
  let '(k, v) := match h with HProt v => (bs "Sec-WebSocket-Protocol", v) | HExts v => (bs "Sec-WebSocket-Extensions", v) | HOther k v => (k, v) end in
  let '(pk, m1) := x_strdup m (Some k) in
  let '(pv, m2) := x_strdup m1 (Some v) in
  do t <- (match pk, h with
           | Some _, HProt _ => do t <- x_dup m2 pv; Ret (mk_cws (k_man w) (fst t) (k_text w) (k_req w), snd t)
           | Some _, HExts _ => do t <- x_dup m2 pv; Ret (mk_cws (k_man w) (k_prot w) (fst t) (k_req w), snd t)
           | _, _ => Ret (w, m2)
           end);
  do m4 <- x_free (snd t) (addr pk); do m5 <- x_free m4 (addr pv); Ret (m5, fst t).
Fixpoint x_headers (m : mem) (w : cws) (l : list header) : outcome (mem * cws) :=
  match l with [] => Ret (m, w) | h :: r => do x <- x_header m w h; x_headers (fst x) (snd x) r end.

(** What the client meets when it opens a websocket: the url can be parsed and has a known scheme
    (2545-2549); the connection, with TLS or not, can be made (1049-1166); the headers of the answer; whether
    they are those of an upgrade (960), else the code of the refusal; pthread_create *)
Record opening := mk_opening { o_url : bool; o_connect : bool; o_headers : list header; o_answer : bool; o_code : Z; o_thread : bool }.
(** u_websocket.c:986-1041 the extensions of the answer *)
Definition x_answer (E : cenv) (m : mem) (g : hman) (text : ptr str) : outcome (bool * (mem * hman)) :=
  do s <- (match text with None => Ret [] | Some _ => do y <- x_deref m text; Ret (snd y) end);
  do l <- x_member (g_exts g); do es <- x_elements m l;
  match s, l with
  | _ :: _, Some (pl, Some (pa, _)) =>
      match es with
      | [] => Ret (true, (m, g))
      | _ :: _ =>
          do x <- x_celems E (split_string 44 s) m (g_expected g) es;
          let '(m1, (b, (ok, es1))) := x in Ret (ok, (m1, with_exts g (Some (pl, Some (pa, es1))) b))
      end
  | _, _ => Ret (true, (m, g))
  end.
(** u_websocket.c:2539-2649 ulfius_open_websocket_client_connection: the copy of the request is
    written over the one before; a websocket that cannot be opened is released but the handler keeps its
    address; when no thread can be made, pthread_detach reads a variable that was never written *)
Definition x_open (E : cenv) (m : mem) (h : handler) (u : opening) : outcome (Z * (mem * handler)) :=
  let '(url, m1) := x_malloc m in
  do r <- (if negb (o_url u) || match url with None => true | Some _ => false end then Ret (U_ERROR_PARAMS, (m1, h))
           else
             do n <- (match h with
                      | HStale => UB UseAfterFree
                      | HWs p w => do _ <- h_use (m_heap m1) p; Ret (m1, Some (p, w))
                      | HNull =>
                          do x <- x_new_ws m1 true;
                          Ret (fst x, match snd x with None => None | Some (p, w) => Some (p, mk_cws w None None None) end)
                      end);
             match n with
             | (m2, None) => Ret (U_ERROR_MEMORY, (m2, h))
             | (m2, Some (p, w)) =>
                 let '(q, m3) := x_malloc m2 in
                 do g <- x_member (k_man w); do y <- x_deref m3 g;
                 let w1 := mk_cws (k_man w) (k_prot w) (k_text w) (at_block q tt) in
                 let fail c m w := do m1 <- x_clear_cws E m p w; Ret (c, (m1, HStale)) in
                 if negb (o_connect u) then fail U_ERROR m3 w1
                 else
                   do z <- x_headers m3 w1 (o_headers u);
                   if negb (o_answer u) then fail (o_code u) (fst z) (snd z)
                   else
                     do e <- x_answer E (fst z) (connect (snd y) true) (k_text (snd z));
                     let '(ok, (m4, g1)) := e in
                     let w2 := mk_cws (Some (Some (fst y, g1))) (k_prot (snd z)) (k_text (snd z)) (k_req (snd z)) in
                     if negb ok then fail U_ERROR m4 w2
                     else if negb (o_thread u) then UB Uninit
                     else Ret (U_OK, (m4, HWs p w2))
             end);
  let '(c, (m2, h2)) := r in
  do m3 <- x_free m2 url; Ret (c, (m3, h2)).

(** the manager of a handler, as the functions below find it *)
Definition x_manager (m : mem) (h : handler) : outcome (nat * (cws * ptr hman)) :=
  match h with
  | HNull => UB NullDeref
  | HStale => UB UseAfterFree
  | HWs p w => do _ <- h_use (m_heap m) p; do g <- x_member (k_man w); Ret (p, (w, g))
  end.
Definition STATUS_OPEN := 0. Definition STATUS_CLOSE := 1. Definition STATUS_ERROR := 2.
(** u_websocket.c:2772-2778 ulfius_websocket_client_connection_send_close_signal, 2288-2296
    ulfius_websocket_send_close_signal (close_flag is left out) *)
Definition x_signal (m : mem) (h : handler) : outcome Z :=
  do x <- x_manager m h;
  match snd (snd x) with None => Ret U_ERROR_PARAMS | Some _ => do y <- x_deref m (snd (snd x)); Ret U_OK end.
(** u_websocket.c:2813-2819 ulfius_websocket_client_connection_status, 2303-2309 ulfius_websocket_status *)
Definition x_status (m : mem) (h : handler) : outcome Z :=
  do x <- x_manager m h;
  match snd (snd x) with None => Ret STATUS_ERROR | Some _ => do y <- x_deref m (snd (snd x)); Ret (if g_connected (snd y) then STATUS_OPEN else STATUS_CLOSE) end.
(** u_websocket.c:2317-2350 ulfius_websocket_wait_close: [late] says that the time is over before the
    thread ends; else the thread has ended when the function returns *)
Definition x_wait_close (m : mem) (g : ptr hman) (late : bool) : outcome (Z * ptr hman) :=
  match g with
  | None => Ret (STATUS_ERROR, g)
  | Some _ =>
      do y <- x_deref m g;
      if g_connected (snd y) && late then Ret (STATUS_OPEN, g) else Ret (STATUS_CLOSE, Some (fst y, connect (snd y) false))
  end.
(** u_websocket.c:2827-2840 ulfius_websocket_client_connection_wait_close *)
Definition x_wait (E : cenv) (m : mem) (h : handler) (late : bool) : outcome (Z * (mem * handler)) :=
  do x <- x_manager m h;
  let '(p, (w, g)) := x in
  do r <- x_wait_close m g late;
  let w1 := mk_cws (Some (snd r)) (k_prot w) (k_text w) (k_req w) in
  if fst r =? STATUS_CLOSE then do m1 <- x_clear_cws E m p w1; Ret (fst r, (m1, HNull)) else Ret (fst r, (m, HWs p w1)).
(** u_websocket.c:2785-2806 ulfius_websocket_client_connection_close: the handler keeps the address of the
    websocket it released *)
Definition x_close_client (E : cenv) (m : mem) (h : handler) : outcome (Z * (mem * handler)) :=
  match h with
  | HNull => Ret (U_OK, (m, HNull))
  | _ =>
      do c <- x_signal m h;
      if negb (c =? U_OK) then Ret (U_ERROR, (m, h))
      else
        do x <- x_manager m h;
        let '(p, (w, g)) := x in
        do r <- x_wait_close m g false;
        let w1 := mk_cws (Some (snd r)) (k_prot w) (k_text w) (k_req w) in
        if negb (fst r =? STATUS_CLOSE) then Ret (U_ERROR, (m, HWs p w1)) else do m1 <- x_clear_cws E m p w1; Ret (U_OK, (m1, HStale))
  end.
(** u_websocket.c:801-810, 2850-2862 the thread of a websocket of a client ends *)
Definition x_thread_end (m : mem) (h : handler) : outcome handler :=
  match h with
  | HWs p w =>
      do _ <- h_use (m_heap m) p; do g <- x_member (k_man w);
      match g with
      | None => Ret h
      | Some _ => do y <- x_deref m g; Ret (HWs p (mk_cws (Some (Some (fst y, connect (snd y) false))) (k_prot w) (k_text w) (k_req w)))
      end
  | _ => Ret h
  end.
