(** The callbacks of a websocket of the server, from the request to the end: the part of ulfius_webservice_dispatcher that opens a websocket (/repo/src/ulfius.c:664-840, 930-1041),
    ulfius_start_websocket_cb (/repo/src/u_websocket.c:1193-1235) and ulfius_thread_websocket (659-815, WsRecvModel).
    Simplifications: the values of the handshake are in NegoModel and HandshakeModel, its memory in HandMemModel; here each test has succeeded or failed. The pages that tell the client of an error can
    always be made; the default endpoint answers with a page. The thread of the manager callback has begun before the first message is read. *)
From Coq Require Import ZArith Bool List.
From Verif Require Import Base WsFrameModel WsRecvModel.
Import ListNotations.
Open Scope Z_scope.

(** a call of websocket_manager_callback, websocket_incoming_message_callback, websocket_onclose_callback *)
Inductive call := CManager | CMessage (m : wmsg) | CClose.

(** A request for which a callback has called ulfius_set_websocket_response: how many callbacks before it did not ignore the request; what it returns; the status of its response; which callbacks
    it has set; whether the instance has a default endpoint. Then what happens: the struct _websocket can be allocated; ulfius_init_websocket; the headers are those of a handshake (673-682); extensions
    and protocol are agreed upon (683-731); ulfius_generate_handshake_answer; ulfius_duplicate_request; MHD_create_response_for_upgrade; the headers and cookies of the response can be set; the
    connection still is there when libmicrohttpd has sent the answer; pthread_create for the websocket and for the manager; what comes from the socket and what the program does. *)
Record offer := mk_offer {
  o_before : Z; o_code : Z; o_status : Z; o_manager : bool; o_incoming : bool; o_close : bool; o_default : bool;
  o_alloc : bool; o_init : bool; o_valid : bool; o_agreed : bool; o_key : bool; o_copy : bool; o_create : bool; o_headers : bool;
  o_alive : bool; o_thread : bool; o_mthread : bool; o_evs : list rd; o_inps : list inp
}.

(** the struct MHD_Response of the dispatcher: a page, or an upgrade with the websocket, which has been cleared or not *)
Inductive reply := Page | Upgrade (cleared : bool).

(** 670-840: the calls, whether the websocket is in the list of the instance, mhd_response, upgrade_protocol, response->status *)
Definition greet (o : offer) : outcome (list call * bool * option reply * bool * Z) :=
  let closing := if o_close o then [CClose] else [] in
  if negb (o_alloc o) then if o_close o then UB NullDeref else Ret ([], false, Some Page, false, 500)
  else if negb (o_init o) then Ret (closing, false, Some Page, false, 500)
  else if negb (o_valid o) || negb (o_agreed o) then Ret (closing, false, Some Page, false, 400)
  else if negb (o_key o) || negb (o_copy o) then Ret (closing, false, Some Page, false, 500)
  else if negb (o_create o) then Ret ([], false, None, false, o_status o)
  else if negb (o_headers o) then Ret (closing, false, Some (Upgrade true), false, o_status o)
  else Ret ([], true, Some (Upgrade false), true, o_status o).

Section Once.
(** what MHD_queue_response says of a response that is an upgrade or not, with a status *)
Variable accepts : bool -> Z -> bool.
Variable alloc_ok : Z -> bool.
Variable ext_in : Z -> Z -> list Z -> option (list Z).
Variable rsv_expected : Z.

(** u_websocket.c:659-815; the thread of the manager that cannot be made: 671-672. The state of the thread *)
Definition talk (o : offer) : wst :=
  let s := start (o_evs o) in run alloc_ok true ext_in rsv_expected (if o_manager o && negb (o_mthread o) then set_conn s false else s) (o_inps o).
Definition calls_of (o : offer) (x : out) : list call :=
  match x with Deliver m => if o_incoming o then [CMessage m] else [] | OnClose => if o_close o then [CClose] else [] | _ => [] end.
(** the calls and whether the websocket is in the list of the instance: ulfius_clear_websocket removes it *)
Definition opened (o : offer) : list call * bool :=
  ((if o_manager o && o_mthread o then [CManager] else []) ++ flat_map (calls_of o) (w_out (talk o)), match w_phase (talk o) with PEnd => false | _ => true end).

(** the whole request: the websocket callback, the default endpoint (932-936: an answer that is there is destroyed), the answer (1020-1041), and the websocket if libmicrohttpd calls
    ulfius_start_websocket_cb; pthread_detach on a thread that was not made is undefined *)
Definition life (o : offer) : outcome (list call * bool) :=
  do g <- greet o;
  let '(calls, active, answer, upgrade, status) := g in
  let position := o_before o + (if o_code o =? 1 then 0 else 1) in    (* U_CALLBACK_IGNORE *)
  let answer := if (position =? 0) && o_default o then Some Page else answer in
  match answer with
  | None => Ret (calls, active)
  | Some a =>
      let is_upgrade := match a with Upgrade _ => true | Page => false end in
      if accepts is_upgrade (if upgrade then 101 else status) then
        match a with
        | Page => Ret (calls, active)
        | Upgrade cleared =>
            if o_alive o then
              if cleared then UB UseAfterFree
              else if negb (o_thread o) then UB Uninit
              else Ret (calls ++ fst (opened o), snd (opened o))
            else Ret (calls, active)
        end
      else Ret (calls, active)
  end.

(** several requests: the calls for each, and nb_websocket_active, for which ulfius_stop_framework waits to be 0 (ulfius.c:1336-1339) *)
Fixpoint lives (l : list offer) : outcome (list (list call) * Z) :=
  match l with
  | [] => Ret ([], 0)
  | o :: r => do x <- life o; do y <- lives r; Ret (fst x :: fst y, (if snd x then 1 else 0) + snd y)
  end.
End Once.
