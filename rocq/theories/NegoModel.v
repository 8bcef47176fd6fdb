(** Model of the websocket handshake: ulfius_check_list_match and ulfius_check_first_match
    (/repo/src/u_websocket.c:1312-1391), the handshake of the server in ulfius_webservice_dispatcher
    (/repo/src/ulfius.c:664-823), the handshake of the client ulfius_websocket_connection_handshake
    (/repo/src/u_websocket.c:818-1043). Allocation succeeds. *)
From Coq Require Import String ZArith Bool List.
From Verif Require Import Base UMapModel SMap StrModel Utf8Model.
Import ListNotations.
Open Scope Z_scope.

(** u_websocket.c:1327-1337 the loop of ulfius_check_list_match; [result] is *result *)
Fixpoint list_match_loop (sep : Z) (source match_list : list str) (result : option str) : option str :=
  match source with
  | [] => result
  | s :: r =>
      list_match_loop sep r match_list
        (if has_trimmed match_list s then
           Some (match result with None => trim s | Some x => x ++ [sep] ++ trim s end)
         else result)
  end.
(** u_websocket.c:1319-1349 ulfius_check_list_match with result != NULL: return code, *result *)
Definition check_list_match (source mtch : option str) (sep : Z) : Z * option str :=
  match mtch, source with
  | Some m, Some s =>
      match list_match_loop sep (split_string sep s) (split_string sep m) None with
      | None => (U_ERROR, None)
      | Some r => (U_OK, Some r)
      end
  | _, _ => (U_OK, None)
  end.

(** u_websocket.c:1372-1378 the loop of ulfius_check_first_match *)
Fixpoint first_match_loop (source match_list : list str) : option str :=
  match source with
  | [] => None
  | s :: r => if has_trimmed match_list s then Some (trim s) else first_match_loop r match_list
  end.
(** u_websocket.c:1356-1391 ulfius_check_first_match with result != NULL *)
Definition check_first_match (source mtch : option str) (sep : Z) : Z * option str :=
  match mtch with
  | None =>
      match source with
      | Some s => (U_OK, match split_string sep s with h :: _ => Some (trim h) | [] => None end)
      | None => (U_OK, None)
      end
  | Some m =>
      match source with
      | Some s =>
          match first_match_loop (split_string sep s) (split_string sep m) with
          | None => (U_ERROR, None)
          | Some r => (U_OK, Some r)
          end
      | None => (U_ERROR, None)
      end
  end.

(** what the server reads of struct _websocket_extension: rsv, websocket_extension_server_match with its
    user data, extension_server, extension_client, enabled *)
Record wext := mk_wext { x_rsv : Z; x_match : option Z; x_server : option str; x_client : option str; x_enabled : bool }.
Definition set_client (e : wext) (c : option str) : wext := mk_wext (x_rsv e) (x_match e) (x_server e) c (x_enabled e).
Definition enable (e : wext) (c : option str) : wext := mk_wext (x_rsv e) (x_match e) (x_server e) c true.

(** struct _websocket_handle: websocket_protocol, websocket_extensions, websocket_extension_list, rsv_expected *)
Record whandle := mk_whandle { h_protocol : option str; h_extensions : option str; h_list : list wext; h_rsv : Z }.

Definition comma := 44.

Section Server.
(** the extensions' own websocket_extension_server_match functions: number of calls made so far (they may have
    state), function, old *extension_server, trimmed element, whole list |-> return code, new *extension_server *)
Variable server_match : nat -> Z -> option str -> str -> list str -> Z * option str.
(** base64 of the SHA-1 of a text, NULL if GnuTLS fails *)
Variable digest : str -> option str.

(** ulfius.c:696-700, 710-714: the text "extension". printf of a NULL string is undefined. *)
Definition add_name (acc : option str) (name : option str) : outcome (option str) :=
  match acc, name with
  | None, n => Ret n
  | Some a, Some n => Ret (Some (a ++ bs ", " ++ n))
  | Some _, None => UB NullDeref
  end.

(** the variables of the loops: extensions, element x of extension_list, calls made, rsv_expected, extension *)
Record neg := mk_neg { n_exts : list wext; n_elem : str; n_calls : nat; n_rsv : Z; n_names : option str }.

(** ulfius.c:688-721 the loop over the extensions of the server for one element of the offer. [before], [after]: the
    other elements of extension_list. *)
Fixpoint ext_loop (before after : list str) (exts : list wext) (elem : str) (calls : nat) (rsv : Z) (names : option str) : outcome neg :=
  match exts with
  | [] => Ret (mk_neg [] elem calls rsv names)
  | e :: r =>
      let continue e' elem' calls' :=
        do n <- ext_loop before after r elem' calls' rsv names;
        Ret (mk_neg (e' :: n_exts n) (n_elem n) (n_calls n) (n_rsv n) (n_names n)) in
      if x_enabled e then continue e elem calls
      else
        match x_match e with
        | Some f =>
            let elem' := trim_left elem in
            let '(ret, c) := server_match calls f (x_client e) (trim elem) (before ++ elem' :: after) in
            if ret =? U_OK then
              if Z.land (x_rsv e) rsv =? 0 then
                do names' <- add_name names c;
                Ret (mk_neg (enable e c :: r) elem' (S calls) (Z.lor rsv (x_rsv e)) names')
              else Ret (mk_neg (set_client e c :: r) elem' (S calls) rsv names)
            else continue (set_client e c) elem' (S calls)
        | None =>
            if ostr_eqb (Some elem) (x_server e) && (Z.land (x_rsv e) rsv =? 0) then
              do names' <- add_name names (Some elem);
              Ret (mk_neg (enable e (Some elem) :: r) elem calls (Z.lor rsv (x_rsv e)) names')
            else continue e elem calls
        end
  end.

(** ulfius.c:687-722 the loop over the elements of the offer *)
Fixpoint offer_loop (before offer : list str) (exts : list wext) (calls : nat) (rsv : Z) (names : option str) : outcome neg :=
  match offer with
  | [] => Ret (mk_neg exts [] calls rsv names)
  | x :: r =>
      do n <- ext_loop before r exts x calls rsv names;
      offer_loop (before ++ [n_elem n]) r (n_exts n) (n_calls n) (n_rsv n) (n_names n)
  end.

(** u_map_get_case, used as a C string *)
Definition get_case_str (m : umap) (k : str) : outcome (option str) := do p <- u_map_get_case m (Some k); deref_cstr p.

(** ulfius.c:673-682 *)
Definition valid_upgrade (m : umap) (protocol verb : option str) : outcome bool :=
  do up <- get_case_str m (bs "upgrade");
  do nup <- u_map_count_keys_case m (Some (bs "upgrade"));
  do key <- get_case_str m (bs "Sec-WebSocket-Key");
  do nkey <- u_map_count_keys_case m (Some (bs "Sec-WebSocket-Key"));
  do conn <- get_case_str m (bs "Connection");
  do nconn <- u_map_count_keys_case m (Some (bs "Connection"));
  do ver <- get_case_str m (bs "Sec-WebSocket-Version");
  do nver <- u_map_count_keys_case m (Some (bs "Sec-WebSocket-Version"));
  Ret (casestr up (bs "websocket") && (1 =? nup) &&
       match key with Some _ => true | None => false end && (1 =? nkey) &&
       casestr conn (bs "Upgrade") && (1 =? nconn) &&
       ostr_eqb protocol (Some (bs "HTTP/1.1")) &&
       ostr_eqb ver (Some (bs "13")) && (1 =? nver) &&
       ostr_eqb verb (Some (bs "GET"))).

Definition nl := [10].
(** ulfius.c:806-813 the text of the answer to an invalid request *)
Definition missing_text (m : umap) (protocol verb : option str) : outcome str :=
  do up <- get_case_str m (bs "upgrade");
  do conn <- get_case_str m (bs "Connection");
  do key <- get_case_str m (bs "Sec-WebSocket-Key");
  do ver <- get_case_str m (bs "Sec-WebSocket-Version");
  Ret ((if casestr up (bs "websocket") then [] else bs "No Upgrade websocket header" ++ nl) ++
       (if casestr conn (bs "Upgrade") then [] else bs "No Connection Upgrade header" ++ nl) ++
       (match key with None => bs "No Sec-WebSocket-Key header" ++ nl | Some _ => [] end) ++
       (if ostr_eqb protocol (Some (bs "HTTP/1.1")) then [] else bs "Wrong HTTP Protocol" ++ nl) ++
       (if ostr_eqb ver (Some (bs "13")) then [] else bs "Wrong websocket version" ++ nl) ++
       (if ostr_eqb verb (Some (bs "GET")) then [] else bs "Method is not GET" ++ nl)).

(** include/ulfius.h:1516 U_WEBSOCKET_MAGIC_STRING *)
Definition magic : str := bs "258EAFA5-E914-47DA-95CA-C5AB0DC85B11".
(** u_websocket.c:1256-1278 ulfius_generate_handshake_answer: out_digest, NULL if it returns 0. The printf of a NULL
    key does not occur: the caller tests it. The 28 characters fit the caller's 32 bytes. *)
Definition generate_handshake_answer (key : str) : option str := digest (key ++ magic).

(** the result of the handshake: the headers set on the upgrade response together with the negotiated
    extensions, or an error answer *)
Definition handshake_result := (list (str * str) * list wext * Z + Z * str)%type.

(** ulfius.c:683-728 negotiation of the extensions: return code, extension, the extensions, rsv_expected *)
Definition negotiate (m : umap) (h : whandle) : outcome (Z * option str * list wext * Z) :=
  do has <- u_map_has_key m (Some (bs "Sec-WebSocket-Extensions"));
  do offer <- get_case_str m (bs "Sec-WebSocket-Extensions");
  if has && negb (zlen (h_list h) =? 0) then
    match offer with
    | None => Ret (U_OK, None, h_list h, h_rsv h)
    | Some o =>
        do n <- offer_loop [] (split_string comma o) (h_list h) 0 (h_rsv h) None;
        Ret (U_OK, n_names n, n_exts n, n_rsv n)
    end
  else let '(ret, e) := check_list_match offer (h_extensions h) comma in Ret (ret, e, h_list h, h_rsv h).

(** ulfius.c:672-818; MHD_add_response_header with a NULL value adds nothing *)
Definition server_handshake (m : umap) (protocol verb : option str) (h : whandle) : outcome handshake_result :=
  do ok <- valid_upgrade m protocol verb;
  if ok then
    do n <- negotiate m h;
    let '(ret_ext, extension, exts, rsv) := n in
    do offered <- get_case_str m (bs "Sec-WebSocket-Protocol");
    let '(ret_proto, proto) := if ret_ext =? U_OK then check_first_match offered (h_protocol h) comma else (U_ERROR, None) in
    if (ret_ext =? U_OK) && (ret_proto =? U_OK) then
      do key <- get_case_str m (bs "Sec-WebSocket-Key");
      match key with
      | None => UB NullDeref
      | Some k =>
          match generate_handshake_answer k with
          | None => Ret (inr (500, bs "Server Error"))
          | Some accept =>
              Ret (inl ([(bs "Upgrade", bs "websocket"); (bs "Sec-WebSocket-Accept", accept)] ++
                        match proto with Some p => [(bs "Sec-WebSocket-Protocol", p)] | None => [] end ++
                        match extension with Some (c :: x) => [(bs "Sec-WebSocket-Extensions", c :: x)] | _ => [] end,
                        exts, rsv))
          end
      end
    else Ret (inr (400, (if ret_proto =? U_OK then [] else bs "Error validating protocol" ++ nl) ++
                        (if ret_ext =? U_OK then [] else bs "Error validating extensions")))
  else
    do t <- missing_text m protocol verb;
    Ret (inr (400, t)).
End Server.

(** u_websocket.c:59 U_WEBSOCKET_RESPONSE_BUFFER_LEN *)
Definition RESPONSE_BUFFER_LEN := 4096.

Fixpoint up_to_nul (s : list Z) : str := match s with [] => [] | c :: r => if c =? 0 then [] else c :: up_to_nul r end.

(** u_websocket.c:824-853 ulfius_get_next_line_from_http_response. [inp]: the bytes the server sends from here on, after
    which it closes the connection (a server that sends nothing more without closing keeps the client waiting; not
    modelled). [acc]: buffer[0..offset), reversed. Result: U_OK with the line, read as a C string, or U_ERROR (None); and
    the bytes not read yet. After a disconnection (846-850) the rest of the buffer is
    written but the caller does not use it. *)
Fixpoint next_line (inp : list Z) (acc : list Z) : option str * list Z :=
  match inp with
  | [] => (None, [])
  | c :: r =>
      match acc with
      | 13 :: line =>
          if c =? 10 then ((if utf8_valid (rev line) then Some (up_to_nul (rev line)) else None), r)
          else if zlen acc + 1 <? RESPONSE_BUFFER_LEN then next_line r (c :: acc) else (None, r)
      | _ => if zlen acc + 1 <? RESPONSE_BUFFER_LEN then next_line r (c :: acc) else (None, r)
      end
  end.

(** the text before and after the first ':' *)
Fixpoint cut_colon (s : str) : option (str * str) :=
  match s with
  | [] => None
  | c :: r => if c =? 58 then Some ([], r) else match cut_colon r with Some (k, v) => Some (c :: k, v) | None => None end
  end.

(** u_websocket.c:63-68 WEBSOCKET_RESPONSE_* *)
Definition W_UPGRADE := 2.
Definition W_CONNECTION := 4.
Definition W_ACCEPT := 8.
Definition W_PROTOCOL := 16.
Definition W_EXTENSION := 32.

(** what is collected from the response: websocket_response, websocket_manager->protocol and ->extensions, and whether the
    socket was closed by the reader (960-965) *)
Record wresp := mk_wresp { p_flags : Z; p_protocol : option str; p_extensions : option str; p_closed : bool }.

Section Client.
(** ulfius_check_handshake_response(Sec-WebSocket-Key of the request, value) == U_OK *)
Variable check : str -> bool.
(** websocket_extension_client_match functions: calls so far, function, trimmed element |-> == U_OK *)
Variable client_match : nat -> Z -> str -> bool.

(** u_websocket.c:935-955 one header line. response->map_header is left out. *)
Definition header_line (line : str) (w : wresp) : wresp :=
  match cut_colon line with
  | None => w
  | Some (key, value) =>
      if str_caseeqb line (bs "Upgrade: websocket") then mk_wresp (Z.lor (p_flags w) W_UPGRADE) (p_protocol w) (p_extensions w) (p_closed w)
      else if str_caseeqb line (bs "Connection: Upgrade") then mk_wresp (Z.lor (p_flags w) W_CONNECTION) (p_protocol w) (p_extensions w) (p_closed w)
      else if str_caseeqb key (bs "Sec-WebSocket-Protocol") then mk_wresp (Z.lor (p_flags w) W_PROTOCOL) (Some value) (p_extensions w) (p_closed w)
      else if str_caseeqb key (bs "Sec-WebSocket-Extensions") then mk_wresp (Z.lor (p_flags w) W_EXTENSION) (p_protocol w) (Some value) (p_closed w)
      else if str_caseeqb line (bs "Sec-WebSocket-Accept") && check value then mk_wresp (Z.lor (p_flags w) W_ACCEPT) (p_protocol w) (p_extensions w) (p_closed w)
      else w
  end.

(** u_websocket.c:932-967 the loop over the header lines. [fuel] bounds the number of lines: every line takes at
    least one byte. *)
Fixpoint header_lines (fuel : nat) (inp : list Z) (w : wresp) : wresp :=
  match fuel with
  | O => w
  | S f =>
      match next_line inp [] with
      | (None, _) => mk_wresp (p_flags w) (p_protocol w) (p_extensions w) true
      | (Some line, rest) =>
          match line with
          | [] => w
          | _ => header_lines f rest (header_line line w)
          end
      end
  end.

(** struct _websocket_extension on the client: rsv, client_match, extension_client, extension_server, enabled *)
Record cext := mk_cext { y_rsv : Z; y_match : option Z; y_client : option str; y_server : option str; y_enabled : bool }.
Definition yenable (e : cext) (s : str) : cext := mk_cext (y_rsv e) (y_match e) (y_client e) (Some s) true.

(** u_websocket.c:997-1024 the loop over the client's extensions for one element: extensions, calls, rsv_expected,
    extension_enabled *)
Fixpoint cext_loop (exts : list cext) (elem : str) (calls : nat) (rsv : Z) : list cext * nat * Z * bool :=
  match exts with
  | [] => ([], calls, rsv, false)
  | e :: r =>
      let continue calls' := let '(l, c, v, b) := cext_loop r elem calls' rsv in (e :: l, c, v, b) in
      if y_enabled e then continue calls
      else
        let '(matched, calls') :=
          match y_match e with
          | Some f => (client_match calls f (trim elem), S calls)
          | None => (ostr_eqb (Some (trim elem)) (y_client e), calls)
          end in
        if matched then
          if Z.land (y_rsv e) rsv =? 0 then (yenable e (trim_left elem) :: r, calls', Z.lor rsv (y_rsv e), true)
          else (e :: r, calls', rsv, false)
        else continue calls'
  end.

(** u_websocket.c:994-1030 *)
Fixpoint coffer_loop (offer : list str) (exts : list cext) (calls : nat) (rsv : Z) : Z * list cext * Z :=
  match offer with
  | [] => (U_OK, exts, rsv)
  | x :: r =>
      let '(l, c, v, b) := cext_loop exts x calls rsv in
      if b then coffer_loop r l c v else (U_ERROR, l, v)
  end.

(** u_websocket.c:861-1043 ulfius_websocket_connection_handshake, the part that reads the response [inp]. [asked_protocol]: the
    request has a header Sec-WebSocket-Protocol; [asked_extension]: it has a header "Sec-WebSocket-Extension" (sic).
    Result: return code, extensions, rsv_expected, whether the socket is still open. *)
Definition client_handshake (asked_protocol asked_extension : bool) (exts : list cext) (inp : list Z) : Z * list cext * Z * bool :=
  let check_websocket := Z.lor (Z.lor (Z.lor W_UPGRADE (Z.lor W_CONNECTION W_ACCEPT)) (if asked_protocol then W_PROTOCOL else 0))
                               (if asked_extension then W_EXTENSION else 0) in
  let '(l, rest) := next_line inp [] in
  let '(http, status) :=
    match l with
    | Some line => match split_string 32 line with
                   | v :: s :: _ => if str_eqb v (bs "HTTP/1.1") then (true, strtol s) else (false, 0)
                   | _ => (false, 0)
                   end
    | None => (false, 0)
    end in
  let w := if http && (status =? 101) then header_lines (S (length rest)) rest (mk_wresp 0 None None false) else mk_wresp 0 None None false in
  if negb http || (Z.land (p_flags w) check_websocket =? 0) || negb (status =? 101) then
    ((if (400 <=? status) && (status <=? 499) then U_ERROR_PARAMS else U_ERROR), exts, 0, false)
  else
    match p_extensions w with
    | Some (c :: x) =>
        if zlen exts =? 0 then (U_OK, exts, 0, negb (p_closed w))
        else let '(ret, l, v) := coffer_loop (split_string comma (c :: x)) exts 0 0 in (ret, l, v, negb (p_closed w))
    | _ => (U_OK, exts, 0, negb (p_closed w))
    end.
End Client.
