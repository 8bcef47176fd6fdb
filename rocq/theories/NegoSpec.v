(** What the negotiation of a websocket should do. *)
From Coq Require Import String ZArith Bool List.
From Verif Require Import Base SMap StrModel Utf8Model NegoModel.
Import ListNotations.
Open Scope Z_scope.

(** ** Lists in header values *)
Definition space (c : Z) : Prop := c = 32 \/ 9 <= c <= 13.
(** [t] is [s] without the spaces around it *)
Definition trimmed (s t : str) : Prop :=
  exists a b, s = a ++ t ++ b /\ Forall space a /\ Forall space b /\
    (forall c r, t = c :: r -> ~ space c) /\ (forall r c, t = r ++ [c] -> ~ space c).

Fixpoint join (sep : str) (l : list str) : str :=
  match l with
  | [] => []
  | x :: [] => x
  | x :: r => x ++ sep ++ join sep r
  end.
(** [s] is the list [l] written with the separator [sep] *)
Definition items (sep : Z) (s : str) (l : list str) : Prop :=
  l <> [] /\ Forall (fun x => ~ In sep x) l /\ s = join [sep] l.
Definition value_of (sep : Z) (s v : str) : Prop := exists l x, items sep s l /\ In x l /\ trimmed x v.

(** the values of [l] in [m], in the order of [l] *)
Inductive common (m : str -> Prop) : list str -> list str -> Prop :=
| c_nil : common m [] []
| c_take : forall x t l r, trimmed x t -> m t -> common m l r -> common m (x :: l) (t :: r)
| c_skip : forall x t l r, trimmed x t -> ~ m t -> common m l r -> common m (x :: l) r.

(** ** A valid upgrade request (RFC 6455, 4.2.1, as the library understands it) *)
Definition same_name (a b : str) : Prop := lowers a = lowers b.
(** exactly one header has this name, with this value (a NULL value reads as an empty text) *)
Definition single (d : smap) (name v : str) : Prop :=
  exists l1 k o l2, d = l1 ++ (k, o) :: l2 /\ same_name k name /\ v = match o with Some x => x | None => [] end /\
    forall p, In p (l1 ++ l2) -> ~ same_name (fst p) name.
Definition mentions (v word : str) : Prop := exists a w b, v = a ++ w ++ b /\ lowers w = lowers word.

Record valid_request (d : smap) (protocol verb : option str) (key : str) : Prop := {
  vr_get : verb = Some (bs "GET");
  vr_http : protocol = Some (bs "HTTP/1.1");
  vr_upgrade : exists v, single d (bs "Upgrade") v /\ mentions v (bs "websocket");
  vr_connection : exists v, single d (bs "Connection") v /\ mentions v (bs "upgrade");
  vr_version : single d (bs "Sec-WebSocket-Version") (bs "13");
  vr_key : single d (bs "Sec-WebSocket-Key") key }.

(** ** Extensions *)
Definition disjoint_bits (a b : Z) : Prop := Z.land a b = 0.
(** [l] with their RSV bits apart from each other and from [r0]; [r] is all of them together *)
Fixpoint apart (r0 : Z) (l : list wext) : Prop :=
  match l with [] => True | e :: t => disjoint_bits (x_rsv e) r0 /\ apart (Z.lor r0 (x_rsv e)) t end.
Definition union_bits (r0 : Z) (l : list wext) : Z := fold_left (fun r e => Z.lor r (x_rsv e)) l r0.
Definition client_name (e : wext) : str := match x_client e with Some c => c | None => [] end.
(** [e] is what the offer asks for: its own match function accepted an element of the offer under the name it now has, or
    the element, up to spaces around it, is its name *)
Definition asked (server_match : nat -> Z -> option str -> str -> list str -> Z * option str) (offer : list str) (e : wext) : Prop :=
  exists x, In x offer /\
    match x_match e with
    | None => x_client e = x_server e /\ exists y, x_client e = Some y /\ (forall t, trimmed x t <-> trimmed y t)
    | Some f => exists n old t l, trimmed x t /\ server_match n f old t l = (U_OK, x_client e)
    end.
(** the fixed part of an extension *)
Definition same_extension (a b : wext) : Prop := x_rsv a = x_rsv b /\ x_match a = x_match b /\ x_server a = x_server b.

(** ** The response of the server, read by the client *)
Definition crlf : str := [13; 10].
(** a response: the first line, the header lines *)
Definition render (first : str) (hs : list str) : list Z := first ++ crlf ++ flat_map (fun h => h ++ crlf) hs ++ crlf.

(** the three headers of RFC 6455 4.2.2, as lines *)
Definition upgrade_line (h : str) : Prop := lowers h = lowers (bs "Upgrade: websocket").
Definition connection_line (h : str) : Prop := lowers h = lowers (bs "Connection: Upgrade").
Definition header_of (name : str) (h v : str) : Prop := exists k, h = k ++ [58] ++ v /\ same_name k name /\ ~ In 58 k.

(** a line: valid UTF-8 without NUL, CR, LF, short enough for the buffer *)
Definition line_ok (l : str) : Prop := Forall (fun c => c <> 0 /\ c <> 13 /\ c <> 10) l /\ utf8_valid l = true /\ zlen l <= 4094.
(** the first line is HTTP/1.1 101 *)
Definition switching (first : str) : Prop := exists s more, items 32 first (bs "HTTP/1.1" :: s :: more) /\ strtol s = 101.
(** one of the headers the client looks for *)
Definition telling (asked_protocol asked_extension : bool) (h : str) : Prop :=
  upgrade_line h \/ connection_line h \/
  (asked_protocol = true /\ exists v, header_of (bs "Sec-WebSocket-Protocol") h v) \/
  (asked_extension = true /\ exists v, header_of (bs "Sec-WebSocket-Extensions") h v).

(** ** Agreement between client and server *)
(** the first header with this name; a NULL value reads as an empty text *)
Fixpoint header (d : smap) (name : str) : option str :=
  match d with
  | [] => None
  | (k, o) :: r => if str_caseeqb k name then Some (match o with Some v => v | None => [] end) else header r name
  end.
Definition shares (offer supported : str) : Prop := exists v, value_of comma offer v /\ value_of comma supported v.
Definition protocol_agreed (d : smap) (h : whandle) : Prop :=
  forall p, h_protocol h = Some p -> exists o, header d (bs "Sec-WebSocket-Protocol") = Some o /\ shares o p.
(** with extension functions, under the exact header name, the server just leaves out what it does not know; else the
    configured list, if any, must have something in common with the offer, if any *)
Definition extensions_agreed (d : smap) (h : whandle) : Prop :=
  (In (bs "Sec-WebSocket-Extensions") (map fst d) /\ h_list h <> []) \/
  (forall o e, header d (bs "Sec-WebSocket-Extensions") = Some o -> h_extensions h = Some e -> shares o e).

(** ** Extensions, on the client *)
Definition ybits (r0 : Z) (l : list cext) : Z := fold_left (fun r e => Z.lor r (y_rsv e)) l r0.
Definition same_cext (a b : cext) : Prop := y_rsv a = y_rsv b /\ y_match a = y_match b /\ y_client a = y_client b.
(** [e] accepts the element [x] of the server's answer *)
Definition accepted (client_match : nat -> Z -> str -> bool) (x : str) (e : cext) : Prop :=
  exists t, trimmed x t /\
    match y_match e with Some f => exists n, client_match n f t = true | None => y_client e = Some t end.
(** the value of the last header of that name *)
Definition last_header (hs : list str) (name v : str) : Prop :=
  exists a h b, hs = a ++ h :: b /\ header_of name h v /\ Forall (fun x => forall u, ~ header_of name x u) b.
