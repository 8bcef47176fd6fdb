(** Model of the opening of a websocket by a client: src/u_websocket.c:861-915 (the request sent), 1049-1177, 2407-2447,
    2535-2650 and 2772-2838. The answer is read by [client_handshake] (NegoModel). Allocation succeeds. *)
From Coq Require Import String ZArith Bool List.
From Verif Require Import Base Dec UMapModel SMap StrModel ClientModel YuarelModel NegoModel.
Import ListNotations.
Open Scope Z_scope.

(** the fields of struct _u_request that are read; [c_check] is check_server_certificate *)
Record creq := mk_creq { c_verb : option str; c_protocol : option str; c_url : option str; c_params : umap; c_headers : umap; c_check : bool }.
Definition set_headers (r : creq) (m : umap) : creq := mk_creq (c_verb r) (c_protocol r) (c_url r) (c_params r) m (c_check r).

(** what yuarel_parse leaves in y_url, read as texts. The block it points into is not changed before it is released (2644). *)
Record yurl := mk_yurl { a_scheme : option str; a_user : option str; a_pass : option str; a_host : option str; a_port : Z; a_path : option str; a_query : option str }.
Definition field (b : buf) (o : option Z) : outcome (option str) := match o with None => Ret None | Some i => do s <- text_at b i; Ret (Some s) end.
(** u_websocket.c:2560-2561; None: not 0. yuarel_parse of NULL is -1. *)
Definition parse_url (url : option str) : outcome (option yurl) :=
  match url with
  | None => Ret None
  | Some u =>
      do (r, y) <- yuarel_parse (cblock u);
      let (code, b) := r in
      if negb (code =? 0) then Ret None
      else
        do s <- field b (y_scheme y); do n <- field b (y_username y); do p <- field b (y_password y); do h <- field b (y_host y);
        do pa <- field b (y_path y); do q <- field b (y_query y);
        Ret (Some (mk_yurl s n p h (y_port y) pa q))
  end.

(** msprintf("%s"): a NULL argument is undefined *)
Definition arg (s : option str) : outcome str := match s with Some x => Ret x | None => UB NullDeref end.

(** u_websocket.c:899-909 the lines of the headers; [ks]: what is left of the array of keys *)
Fixpoint header_texts (m : umap) (ks : list (option str)) : outcome (list str) :=
  match ks with
  | [] => UB OutOfBounds
  | None :: _ => Ret []
  | Some k :: r => do v <- ClientModel.get_case_str m (Some k); do v <- arg v; do l <- header_texts m r; Ret ((k ++ bs ": " ++ v ++ [13; 10]) :: l)
  end.
(** u_websocket.c:904-908: the flags looked for in the answer *)
Definition asks (m : umap) (name : str) : bool := existsb (fun k => ostr_eqb k (Some name)) (keys m).

(** u_websocket.c:872-915 the texts given to ulfius_websocket_send_frame, one after the other *)
Definition handshake_texts (r : creq) (y : yurl) : outcome (list str) :=
  do verb <- arg (c_verb r);
  do protocol <- arg (c_protocol r);
  let path := match a_path y with Some p => p | None => [] end in
  let query := match a_query y with Some q => bs "?" ++ q | None => [] end in
  let line := verb ++ bs " /" ++ path ++ query ++ bs " HTTP/" ++ protocol ++ [13; 10] in
  do host <- arg (a_host y);
  let host_line := bs "Host: " ++ host ++ (if negb (a_port y =? 0) then bs ":" ++ sdec (a_port y) else []) ++ [13; 10] in
  do origin <- ClientModel.get_case_str (c_params r) (Some (bs "Origin"));
  let origin_line := match origin with Some o => [bs "Origin: " ++ o ++ [13; 10]] | None => [] end in
  do hs <- header_texts (c_headers r) (keys (c_headers r));
  Ret ([line; host_line; bs "Upgrade: websocket" ++ [13; 10]; bs "Connection: Upgrade" ++ [13; 10]] ++ origin_line ++ hs ++ [[13; 10]]).

(** the connection asked for: TLS or not, the name looked up (and sent as server name with TLS), the port of the address, the name the
    certificate of the server has to be valid for *)
Record target := mk_target { t_tls : bool; t_host : str; t_port : Z; t_verify : option str }.
(** what the function does to the outside *)
Inductive event := Connect (t : target) | Sent (s : str).

(** websocket_client_handler and its websocket: no handler, no websocket, a websocket with its extensions, a released websocket *)
Inductive slot := NoHandler | Empty | Live (exts : list cext) | Gone.

Section Client.
(** the address is found, the connection accepted, the TLS session established *)
Variable reachable : target -> bool.
(** what the server sends back for the texts received, all of them being sent (WsSendModel: sending can fail) *)
Variable answers : target -> list str -> list Z.
(** see NegoModel; [check] also reads the key of the request *)
Variable check : creq -> str -> bool.
Variable client_match : nat -> Z -> str -> bool.
(** o_base64_encode_alloc *)
Variable base64 : str -> option str.
(** pthread_create and pthread_detach succeed *)
Variable thread_ok : bool.

(** u_websocket.c:1049-1085, 1091-1177: return code, extensions, events. sin_port is 16 bits wide. *)
Definition open_websocket (tls : bool) (r : creq) (y : yurl) (exts : list cext) : outcome (Z * list cext * list event) :=
  do host <- arg (a_host y);
  let t := mk_target tls host (a_port y mod 65536) (if tls && c_check r then Some host else None) in
  if reachable t then
    do ts <- handshake_texts r y;
    let '(ret, exts', _, _) := client_handshake (check r) client_match (asks (c_headers r) (bs "Sec-WebSocket-Protocol"))
                                 (asks (c_headers r) (bs "Sec-WebSocket-Extension")) exts (answers t ts) in
    Ret (ret, exts', Connect t :: map Sent ts)
  else Ret (U_ERROR, exts, [Connect t]).

Definition plain_scheme (s : option str) : bool := match s with Some s => str_caseeqb s (bs "http") || str_caseeqb s (bs "ws") | None => false end.
Definition tls_scheme (s : option str) : bool := match s with Some s => str_caseeqb s (bs "https") || str_caseeqb s (bs "wss") | None => false end.

(** u_websocket.c:2570-2582 *)
Definition authorize (r : creq) (y : yurl) : outcome creq :=
  match a_user y, a_pass y with
  | Some n, Some p =>
      match base64 (n ++ bs ":" ++ p) with
      | Some e =>
          do x <- u_map_remove_from_key (c_headers r) (Some (bs "Authorization"));
          do z <- u_map_put (snd x) (Some (bs "Authorization")) (Some (bs "Basic: " ++ e));
          Ret (set_headers r (snd z))
      | None => Ret r
      end
  | _, _ => Ret r
  end.

(** u_websocket.c:2559-2649 ulfius_open_websocket_client_connection: return code, handler, request of the caller, events. response != NULL;
    [callback]: one of both callbacks is given. ulfius_duplicate_request succeeds. *)
Definition open_client (callback : bool) (r : creq) (h : slot) : outcome (Z * slot * creq * list event) :=
  if negb callback then Ret (U_ERROR_PARAMS, h, r, [])
  else
    do p <- parse_url (c_url r);
    match p with
    | None => Ret (U_ERROR_PARAMS, h, r, [])
    | Some y =>
        if plain_scheme (a_scheme y) || tls_scheme (a_scheme y) then
          let y := mk_yurl (a_scheme y) (a_user y) (a_pass y) (a_host y)
                     (if a_port y =? 0 then (if plain_scheme (a_scheme y) then 80 else 443) else a_port y) (a_path y) (a_query y) in
          do r <- authorize r y;
          match h with
          | NoHandler => UB NullDeref
          | Gone => UB UseAfterFree
          | Empty | Live _ =>
              let exts := match h with Live l => l | _ => [] end in
              let tls := negb (plain_scheme (a_scheme y)) in
              do x <- open_websocket tls r y exts;
              let '(ret, exts, evs) := x in
              if negb (ret =? U_OK) then Ret ((if tls then U_ERROR else ret), Gone, r, evs)
              else if thread_ok then Ret (U_OK, Live exts, r, evs)
              else Ret (U_ERROR, Gone, r, evs)
          end
        else Ret (U_ERROR_PARAMS, h, r, [])
    end.
End Client.

(** u_websocket.c:2407-2447 ulfius_set_websocket_request, url and request given; url is not request->http_url itself. [key]: the text made of the random
    bytes in base64, None if there is none; [agent]: U_WEBSOCKET_USER_AGENT with the version. Return code and request. *)
Definition put_if (m : umap) (k : str) (v : option str) : outcome umap :=
  match v with Some _ => do x <- u_map_put m (Some k) v; Ret (snd x) | None => Ret m end.
Definition set_websocket_request (key : option str) (agent : str) (r : creq) (url : str) (protocol extensions : option str) : outcome (Z * creq) :=
  do m <- put_if (c_headers r) (bs "Sec-WebSocket-Protocol") protocol;
  do m <- put_if m (bs "Sec-WebSocket-Extensions") extensions;
  do m <- put_if m (bs "Sec-WebSocket-Version") (Some (bs "13"));
  do m <- put_if m (bs "User-Agent") (Some agent);
  do m <- put_if m (bs "Sec-WebSocket-Key") key;
  Ret (match key with Some _ => U_OK | None => U_ERROR end, mk_creq (Some (bs "GET")) (Some (bs "1.1")) (Some url) (c_params r) m (c_check r)).

(** u_websocket.c:2772-2838, the other functions of a client handler. [st]: the status of the websocket, for those that wait the one it has in the end;
    the signal to close is sent (ConcModel: what it does). ulfius_websocket_client_connection_close does not set handler->websocket to NULL,
    ulfius_websocket_client_connection_wait_close does. *)
Definition live (h : slot) : outcome unit := match h with NoHandler | Empty => UB NullDeref | Gone => UB UseAfterFree | Live _ => Ret tt end.
Definition connection_send_close_signal (h : slot) : outcome (Z * slot) := match h with NoHandler => Ret (U_ERROR_PARAMS, h) | _ => do _ <- live h; Ret (U_OK, h) end.
Definition connection_status (st : Z) (h : slot) : outcome (Z * slot) := match h with NoHandler => Ret (2, h) | _ => do _ <- live h; Ret (st, h) end.
Definition connection_wait_close (st : Z) (h : slot) : outcome (Z * slot) :=
  match h with NoHandler => Ret (2, h) | _ => do _ <- live h; Ret (st, if st =? 1 then Empty else h) end.
Definition connection_close (st : Z) (h : slot) : outcome (Z * slot) :=
  match h with
  | NoHandler => Ret (U_ERROR_PARAMS, h)
  | Empty => Ret (U_OK, h)
  | _ => do _ <- live h; if negb (st =? 1) then Ret (U_ERROR, h) else Ret (U_OK, Gone)
  end.

(** what surrounds a call of ulfius_open_websocket_client_connection *)
Record world := mk_world { w_reachable : target -> bool; w_answers : target -> list str -> list Z; w_check : creq -> str -> bool; w_match : nat -> Z -> str -> bool;
  w_base64 : str -> option str; w_thread : bool }.
Inductive call := Open (w : world) (callback : bool) (r : creq) | Signal | Status (st : Z) | Wait (st : Z) | Close (st : Z).
Definition perform (c : call) (h : slot) : outcome (Z * slot) :=
  match c with
  | Open w cb r => do x <- open_client (w_reachable w) (w_answers w) (w_check w) (w_match w) (w_base64 w) (w_thread w) cb r h; let '(z, h', _, _) := x in Ret (z, h')
  | Signal => connection_send_close_signal h
  | Status st => connection_status st h
  | Wait st => connection_wait_close st h
  | Close st => connection_close st h
  end.
