(** Where a websocket URL leads and what the opening request says (C70-C73). *)
From Coq Require Import String ZArith Bool List.
From Verif Require Import Base Dec SMap YuarelSpec HttpText.
Import ListNotations.
Open Scope Z_scope.

(** the schemes of a websocket, without regard to case: is TLS used *)
Definition uses_tls (scheme : str) : option bool :=
  let s := lowers scheme in
  if str_eqb s (bs "http") || str_eqb s (bs "ws") then Some false
  else if str_eqb s (bs "https") || str_eqb s (bs "wss") then Some true else None.
(** the port of the URL, or the one of the scheme *)
Definition port_of (u : url) (tls : bool) : Z := match u_port u with Some n => n | None => if tls then 443 else 80 end.
(** a port that can be written in an address *)
Definition port_ok (u : url) : Prop := match u_port u with Some n => 0 < n < 65536 | None => True end.

(** ** The request: a line break neither in the line nor in a field *)
Definition one_line (s : str) : Prop := ~ In 13 s.
Definition uri (u : url) : str := bs "/" ++ (match u_path u with Some p => p | None => [] end) ++ part (bs "?") (u_query u).
Definition value (o : option str) : str := match o with Some s => s | None => [] end.
(** a field that can be written on a line *)
Definition field_ok (p : str * option str) : Prop := fst p <> [] /\ ~ In 58 (fst p) /\ one_line (fst p) /\ one_line (value (snd p)) /\ tight (value (snd p)).
(** names that differ in more than their case *)
Definition names_apart (d : smap) : Prop := NoDup (map (fun p => lowers (fst p)) d).
Definition fields_of (d : smap) : list (str * str) := map (fun p => (fst p, value (snd p))) d.
(** the first entry with this name, whatever its case *)
Definition entry_of (name : str) (d : smap) : list (str * str) :=
  match find (fun p => str_eqb (lowers (fst p)) (lowers name)) d with Some p => [(name, value (snd p))] | None => [] end.
(** what a server must be told: the place, the upgrade, the origin, then the headers of the request *)
Definition handshake_fields (u : url) (tls : bool) (params headers : smap) : list (str * str) :=
  [(bs "Host", u_host u ++ bs ":" ++ udec (port_of u tls)); (bs "Upgrade", bs "websocket"); (bs "Connection", bs "Upgrade")]
  ++ entry_of (bs "Origin") params ++ fields_of headers.
(** RFC 7617: the credentials of the URL *)
Definition basic (base64 : str) : str := bs "Basic " ++ base64.

(** ** The life of a client handler: before an opening, while open, and when nothing may be done with it any more *)
Inductive life := Fresh | Opened | Over.
Inductive kind := KOpen | KSignal | KStatus | KWait | KClose.
Definition may (l : life) (k : kind) : bool :=
  match l, k with Fresh, KOpen | Fresh, KClose => true | Opened, KOpen => false | Opened, _ => true | _, _ => false end.
(** [ok]: the call says that it did what it is for (for a wait: that the connection is closed) *)
Definition after (l : life) (k : kind) (ok : bool) : life :=
  match l, k with
  | Fresh, KOpen => if ok then Opened else Over
  | _, KClose => if ok then Over else l
  | Opened, KWait => if ok then Fresh else l
  | _, _ => l
  end.
