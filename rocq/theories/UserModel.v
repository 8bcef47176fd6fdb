(** The user data of the websocket examples: callback_websocket and callback_websocket_echo of /repo/example_programs/websocket_example/websocket_server.c (144-152, 172-174, 243-245, 288-316) and main of
    websocket_client.c (39-41, 87-146), with the part of ulfius_open_websocket_client_connection (/repo/src/u_websocket.c:2559-2640) that decides which callbacks are called.
    Simplifications: ulfius_set_websocket_response cannot fail here, because both lists are NULL (u_websocket.c:1861-1886); o_strdup of the user data succeeds (otherwise the callbacks get NULL and do nothing);
    what the callbacks send is not looked at; a thread that was made can be detached. *)
From Coq Require Import ZArith Bool List.
From Verif Require Import Base WsFrameModel WsRecvModel OnceModel.
Import ListNotations.
Open Scope Z_scope.

(** what a callback does with the user data: y_log_message with %s; o_free *)
Inductive use := Reads | Frees.
(** websocket_server.c:172-174, 243-245, 149-151; websocket_client.c:39-41, 94-96, 110-113. The callbacks of the echo (262-273) do not read: [reads] *)
Definition uses (reads : bool) (c : call) : list use := match c with CManager | CMessage _ => if reads then [Reads] else [] | CClose => [Reads; Frees] end.
(** the block of the user data: there or not *)
Fixpoint happen (there : bool) (l : list use) : outcome bool :=
  match l with
  | [] => Ret there
  | Reads :: r => if there then happen there r else UB UseAfterFree
  | Frees :: r => if there then happen false r else UB DoubleFree
  end.
(** the manager callback has a thread of its own: it reads the user data after [k] other calls, at the latest before the close callback, which is called after its thread was joined (u_websocket.c:782-784) *)
Fixpoint before_close (k : nat) (l : list call) {struct l} : list call :=
  match l with
  | [] => [CManager]
  | CClose :: _ => CManager :: l
  | c :: r => match k with O => CManager :: l | S k => c :: before_close k r end
  end.
Definition moment (k : nat) (l : list call) : list call := match l with CManager :: r => before_close k r | _ => l end.

(** callback_websocket: all three callbacks; callback_websocket_echo: no manager. Both return U_CALLBACK_CONTINUE *)
Definition example_offer (echo : bool) (o : offer) : Prop := o_manager o = negb echo /\ o_incoming o = true /\ o_close o = true /\ o_code o = 0.

Section User.
Variable accepts : bool -> Z -> bool.
Variable alloc_ok : Z -> bool.
Variable ext_in : Z -> Z -> list Z -> option (list Z).
Variable rsv_expected : Z.

(** a request for the server: whether its user data still are there, whether the instance counts the websocket *)
Definition served (echo : bool) (k : nat) (o : offer) : outcome (bool * bool) :=
  do x <- life accepts alloc_ok ext_in rsv_expected o;
  do d <- happen true (flat_map (uses (negb echo)) (moment k (fst x)));
  Ret (d, snd x).
(** requests one after the other: how many user data are there, nb_websocket_active *)
Fixpoint serves (l : list (bool * nat * offer)) : outcome (Z * Z) :=
  match l with
  | [] => Ret (0, 0)
  | (echo, k, o) :: r =>
      do x <- served echo k o;
      do y <- serves r;
      Ret ((if fst x then 1 else 0) + fst y, (if snd x then 1 else 0) + snd y)
  end.

(** an attempt of the client: ulfius_set_websocket_request; the url can be read and has a known scheme; the struct _websocket is there; ulfius_open_websocket or ulfius_open_websocket_tls; pthread_create for
    the websocket and for the manager; what comes from the socket and what the program does *)
Record attempt := mk_attempt { t_request : bool; t_url : bool; t_ws : bool; t_open : bool; t_thread : bool; t_mthread : bool; t_evs : list rd; t_inps : list inp }.
Definition client_talk (t : attempt) : wst :=
  let s := start (t_evs t) in run alloc_ok false ext_in rsv_expected (if t_mthread t then s else set_conn s false) (t_inps t).
Definition client_call (x : out) : list call := match x with Deliver m => [CMessage m] | OnClose => [CClose] | _ => [] end.
(** ulfius_open_websocket_client_connection: its result, the calls it leads to, whether the thread has ended (or was never made) *)
Definition open_client (t : attempt) : outcome (Z * list call * bool) :=
  if negb (t_url t) then Ret (3, [], true)            (* U_ERROR_PARAMS *)
  else if negb (t_ws t) then Ret (2, [], true)        (* U_ERROR_MEMORY *)
  else if negb (t_open t) then Ret (1, [], true)      (* U_ERROR *)
  else if negb (t_thread t) then UB Uninit
  else Ret (0, (if t_mthread t then [CManager] else []) ++ flat_map client_call (w_out (client_talk t)), match w_phase (client_talk t) with PEnd => true | _ => false end).
(** main: whether the user data are there, whether the thread has ended *)
Definition client (k : nat) (t : attempt) : outcome (bool * bool) :=
  if t_request t then
    do x <- open_client t;
    let '(ret, calls, ended) := x in
    do d <- happen true (flat_map (uses true) (moment k calls));
    do d <- (if ret =? 0 then Ret d else happen d [Frees]);
    Ret (d, ended)
  else do d <- happen true [Frees]; Ret (d, true).
End User.
