(** Model of the last call of ulfius_webservice_dispatcher, /repo/src/ulfius.c:590-1068, and of
    ulfius_set_response_header / ulfius_set_response_cookie, /repo/src/u_response.c:153-205.
    Allocation and the creation of MHD responses succeed, so the branches that answer MHD_NO
    without queueing anything are left out. *)
From Coq Require Import String ZArith Bool List.
From Verif Require Import Base UMapModel SMap RouterModel CookieModel.
Import ListNotations.
Open Scope Z_scope.

(** include/ulfius.h:119-123 *)
Definition U_CALLBACK_CONTINUE := 0.
Definition U_CALLBACK_IGNORE := 1.
Definition U_CALLBACK_COMPLETE := 2.
Definition U_CALLBACK_UNAUTHORIZED := 3.
Definition U_CALLBACK_ERROR := 4.

(** include/ulfius.h:2117-2118 ULFIUS_HTTP_NOT_FOUND_BODY, ULFIUS_HTTP_ERROR_BODY *)
Definition not_found_body : str := bs "Resource not found".
Definition error_body : str := bs "Server Error".

(** what the dispatcher reads of struct _u_response. [r_body]: the binary_body_length bytes of
    binary_body, empty for NULL. [r_stream]: the stream fields if stream_callback is set.
    [r_ws]: the websocket handle if websocket_manager_callback or
    websocket_incoming_message_callback is set. shared_data and timeout are left out. *)
Record response := mk_resp {
  r_status : Z; r_header : umap; r_cookies : list cookie; r_body : list Z; r_realm : option str;
  r_stream : option Z; r_ws : option Z }.

(** struct MHD_Response: what it is created from, and its headers in the order they were added *)
Inductive content := CBuffer (b : list Z) | CStream (s : Z) | CUpgrade (h : Z).
Record mhd := mk_mhd { c_content : content; c_headers : list (str * str) }.

(** a call of MHD_queue_response or MHD_queue_basic_auth_fail_response *)
Inductive answer := Queue (status : Z) (m : mhd) | QueueBasic (realm : str) (m : mhd).

Section Dispatch.
(** state outside of the library that the callbacks may use *)
Variable W : Type.
(** tolower on bytes above 127 *)
Variable tl : Z -> Z.
Variable qsort : list endpoint -> list endpoint.
(** the user's callbacks: function, user_data, request->callback_position, request->map_url,
    response, state |-> return code, response, state. The rest of the request is constant. *)
Variable cb : Z -> Z -> Z -> umap -> response -> W -> Z * response * W.
(** MHD_add_response_header(response, name, value) == MHD_YES *)
Variable accepts : str -> str -> bool.
(** ulfius.c:665-823 the websocket handshake for a handle (WsHandshakeModel): the headers of the
    upgrade answer, or an error status and text *)
Variable handshake : Z -> list (str * str) + (Z * list Z).

(** struct _u_instance and the request: default_endpoint, default_headers, default_auth_realm,
    check_utf8; url_path, map_url_initial *)
Variable default_endpoint : option endpoint.
Variable default_headers : option umap.
Variable default_auth_realm : option str.
Variable check_utf8 : bool.
Variable url : str.
Variable map_url_initial : umap.

(** u_response.c:164-174 the loop of ulfius_set_response_header: false when a header is refused *)
Fixpoint header_loop (m : umap) (ks : list (option str)) (hs : list (str * str)) : outcome (bool * list (str * str)) :=
  match ks with
  | [] => UB OutOfBounds
  | None :: _ => Ret (true, hs)
  | Some k :: t =>
      do v <- get_str m k;
      match v with
      | None => header_loop m t hs
      | Some x => if accepts k x then header_loop m t (hs ++ [(k, x)]) else Ret (false, hs)
      end
  end.
(** u_response.c:187-200 the loop of ulfius_set_response_cookie *)
Fixpoint cookie_loop (l : list cookie) (hs : list (str * str)) : bool * list (str * str) :=
  match l with
  | [] => (true, hs)
  | c :: t => let h := generate_cookie_header c in
              if accepts (bs "Set-Cookie") h then cookie_loop t (hs ++ [(bs "Set-Cookie", h)]) else (false, hs)
  end.
(** ulfius_set_response_header(..) == -1 || ulfius_set_response_cookie(..) == -1, negated *)
Definition set_headers (r : response) (hs : list (str * str)) : outcome (bool * list (str * str)) :=
  do h <- header_loop (r_header r) (keys (r_header r)) hs;
  Ret (if fst h then cookie_loop (r_cookies r) (snd h) else h).

Definition set_status (r : response) (s : Z) : response :=
  mk_resp s (r_header r) (r_cookies r) (r_body r) (r_realm r) (r_stream r) (r_ws r).

(** one call of a callback, for the statements: endpoint, callback_position seen, return code,
    response and state afterwards *)
Record event := mk_event { ev_ep : endpoint; ev_pos : Z; ev_code : Z; ev_resp : response; ev_world : W }.

(** the local variables of the dispatcher *)
Record st := mk_st {
  s_pos : Z; s_map : umap; s_resp : response; s_world : W;
  s_mhd : option mhd; s_upgrade : bool; s_inner : Z; s_realm : option str; s_trace : list event }.

Definition with_mhd (s : st) (r : response) (m : mhd) (upgrade : bool) (inner : Z) (realm : option str) : st :=
  mk_st (s_pos s) (s_map s) r (s_world s) (Some m) upgrade inner realm (s_trace s).

(** ulfius.c:652-662 stream response *)
Definition stream_answer (s : st) (x : Z) : outcome st :=
  do h <- set_headers (s_resp s) [];
  Ret (with_mhd s (s_resp s) (mk_mhd (CStream x) (snd h)) (s_upgrade s) (s_inner s) (s_realm s)).

(** ulfius.c:664-842 websocket response; the results of the four MHD_add_response_header calls are
    not checked *)
Definition ws_answer (s : st) (h : Z) : outcome st :=
  match handshake h with
  | inl hs =>
      do x <- set_headers (s_resp s) (filter (fun p => accepts (fst p) (snd p)) hs);
      Ret (with_mhd s (s_resp s) (mk_mhd (CUpgrade h) (snd x)) (if fst x then true else s_upgrade s) (s_inner s) (s_realm s))
  | inr (status, text) =>
      Ret (with_mhd s (set_status (s_resp s) status) (mk_mhd (CBuffer text) []) (s_upgrade s) (s_inner s) (s_realm s))
  end.

(** ulfius.c:853-876 U_CALLBACK_COMPLETE; ulfius_get_body_from_response (254-280) copies the body *)
Definition complete_answer (s : st) : outcome st :=
  do h <- set_headers (s_resp s) [];
  Ret (with_mhd s (s_resp s) (mk_mhd (CBuffer (r_body (s_resp s))) (snd h)) (s_upgrade s) (s_inner s) (s_realm s)).

(** ulfius.c:877-912 U_CALLBACK_UNAUTHORIZED. If a header is refused, response->binary_body is
    replaced but mhd_response keeps the copy of the old body; inner_error = U_ERROR_PARAMS is the
    same number as U_CALLBACK_UNAUTHORIZED, so 401 is still sent. *)
Definition unauthorized_answer (s : st) : outcome st :=
  let realm := match r_realm (s_resp s) with
               | Some r => Some r
               | None => match default_auth_realm with Some r => Some r | None => s_realm s end
               end in
  do h <- set_headers (s_resp s) [];
  let m := mk_mhd (CBuffer (r_body (s_resp s))) (snd h) in
  Ret (if fst h then with_mhd s (s_resp s) m (s_upgrade s) U_CALLBACK_UNAUTHORIZED realm
       else with_mhd s (set_status (s_resp s) 500) m (s_upgrade s) U_ERROR_PARAMS realm).

(** ulfius.c:913-926 U_CALLBACK_ERROR *)
Definition error_answer (s : st) : st :=
  with_mhd s (set_status (s_resp s) 500) (mk_mhd (CBuffer error_body) []) (s_upgrade s) (s_inner s) (s_realm s).

(** calling a callback and recording it *)
Definition run_callback (s : st) (e : endpoint) (map_url : umap) (count : bool) : outcome (Z * st) :=
  match callback e with
  | None => UB NullDeref
  | Some f =>
      let '(ret, r, w) := cb f (user_data e) (s_pos s) map_url (s_resp s) (s_world s) in
      let pos := if count && negb (ret =? U_CALLBACK_IGNORE) then (s_pos s + 1) mod 4294967296 else s_pos s in
      Ret (ret, mk_st pos map_url r w (s_mhd s) (s_upgrade s) (s_inner s) (s_realm s)
                  (s_trace s ++ [mk_event e (s_pos s) ret r w]))
  end.

(** ulfius.c:636-930 the loop over the selected endpoints *)
Fixpoint callback_loop (l : list endpoint) (s : st) : outcome st :=
  match l with
  | [] => Ret s
  | e :: rest =>
      do p <- prepare_map_url tl (s_map s) map_url_initial url e check_utf8;
      do x <- run_callback s e (snd p) true;
      let '(ret, s1) := x in
      match r_stream (s_resp s1), r_ws (s_resp s1) with
      | Some str, _ => stream_answer s1 str
      | None, Some h => ws_answer s1 h
      | None, None =>
          let last := match rest with [] => true | _ => false end in
          let ret1 := if ((ret =? U_CALLBACK_CONTINUE) || (ret =? U_CALLBACK_IGNORE)) && last then U_CALLBACK_COMPLETE else ret in
          if (ret1 =? U_CALLBACK_CONTINUE) || (ret1 =? U_CALLBACK_IGNORE) then callback_loop rest s1
          else if ret1 =? U_CALLBACK_COMPLETE then complete_answer s1
          else if ret1 =? U_CALLBACK_UNAUTHORIZED then unauthorized_answer s1
          else Ret (error_answer s1)
      end
  end.

(** default_endpoint != NULL && default_endpoint->callback_function != NULL *)
Definition the_default : option endpoint :=
  match default_endpoint with
  | Some e => match callback e with Some _ => Some e | None => None end
  | None => None
  end.

(** ulfius.c:932-1018 the default endpoint once more when callback_position is 0; an unknown return
    code leaves mhd_response NULL *)
Definition default_step (s : st) : outcome st :=
  match the_default with
  | Some e =>
      if s_pos s =? 0 then
        let s0 := mk_st (s_pos s) (s_map s) (s_resp s) (s_world s) None (s_upgrade s) (s_inner s) (s_realm s) (s_trace s) in
        do x <- run_callback s0 e (s_map s0) false;
        let '(ret, s1) := x in
        if ret =? U_CALLBACK_UNAUTHORIZED then unauthorized_answer s1
        else if ret =? U_CALLBACK_ERROR then Ret (error_answer s1)
        else if (ret =? U_CALLBACK_CONTINUE) || (ret =? U_CALLBACK_IGNORE) || (ret =? U_CALLBACK_COMPLETE) then complete_answer s1
        else Ret s1
      else Ret s
  | None => Ret s
  end.

(** ulfius.c:1020-1034 *)
Definition queue_answer (s : st) : list answer :=
  match s_mhd s with
  | None => []
  | Some m =>
      [if s_inner s =? U_CALLBACK_UNAUTHORIZED then
         match s_realm s with Some r => QueueBasic r m | None => Queue 401 m end
       else if s_upgrade s then Queue 101 m
       else Queue (r_status (s_resp s)) m]
  end.

(** ulfius.c:618-628 response and default headers. u_map_copy of a map only fails when memory runs
    out; that case is left out. *)
Definition first_response : outcome response :=
  do h <- match default_headers with
          | Some m => if 0 <? u_map_count m then u_map_copy m else Ret (Some u_map_init)
          | None => Ret (Some u_map_init)
          end;
  Ret (mk_resp 200 (match h with Some m => m | None => u_map_init end) [] [] None None None).

(** the answers queued, the callbacks run in the loop, and the callbacks run afterwards *)
Record result := mk_result { answers : list answer; calls : list event; extra : list event }.

Definition dispatch (method : str) (table : option (list (option endpoint))) (map_url : umap) (w : W) : outcome result :=
  do l0 <- endpoint_match qsort (Some method) (Some url) table;
  let l := match l0 with [] => match the_default with Some e => [e] | None => [] end | _ => l0 end in
  match l with
  | [] => Ret (mk_result [Queue 404 (mk_mhd (CBuffer not_found_body) [])] [] [])
  | _ =>
      do r <- first_response;
      do s <- callback_loop l (mk_st 0 map_url r w None false 0 None []);
      do s1 <- default_step s;
      Ret (mk_result (queue_answer s1) (s_trace s) (skipn (length (s_trace s)) (s_trace s1)))
  end.
End Dispatch.

Arguments mk_event {W}.
Arguments ev_ep {W}.
Arguments ev_pos {W}.
Arguments ev_code {W}.
Arguments ev_resp {W}.
Arguments ev_world {W}.
Arguments mk_result {W}.
Arguments answers {W}.
Arguments calls {W}.
Arguments extra {W}.
