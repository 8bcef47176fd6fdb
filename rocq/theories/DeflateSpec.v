(** permessage-deflate (RFC 7692, 7.1): parameters, what they mean, what zlib guarantees. *)
From Coq Require Import String ZArith Bool List.
From Verif Require Import Base Dec StrModel NegoSpec DeflateModel.
Import ListNotations.
Open Scope Z_scope.

Inductive param := ServerNoContext | ClientNoContext | ServerBits (n : Z) | ClientBits (n : Z) | Nothing.

(** RFC 7692, 7.1.1 and 7.1.2 *)
Inductive strict : str -> param -> Prop :=
| s_snct : strict (bs "server_no_context_takeover") ServerNoContext
| s_cnct : strict (bs "client_no_context_takeover") ClientNoContext
| s_sbits : forall n, 8 <= n <= 15 -> strict (bs "server_max_window_bits=" ++ udec n) (ServerBits n)
| s_cbits : forall n, 8 <= n <= 15 -> strict (bs "client_max_window_bits=" ++ udec n) (ClientBits n)
| s_cbits_any : strict (bs "client_max_window_bits") (ClientBits 15).

(** what the library takes for a parameter *)
Inductive lenient : str -> param -> Prop :=
| l_snct : lenient (bs "server_no_context_takeover") ServerNoContext
| l_cnct : lenient (bs "client_no_context_takeover") ClientNoContext
| l_sbits : forall more name v, items 61 (bs "server_max_window_bits" ++ more) [name; v] -> 8 <= strtol v <= 15 ->
    lenient (bs "server_max_window_bits" ++ more) (ServerBits (strtol v))
| l_cbits : forall more name v rest t, items 61 (bs "client_max_window_bits" ++ more) (name :: v :: rest) -> trimmed v t -> t <> [] -> 8 <= strtol t <= 15 ->
    lenient (bs "client_max_window_bits" ++ more) (ClientBits (strtol t))
| l_cbits_any : forall more name rest, items 61 (bs "client_max_window_bits" ++ more) (name :: rest) ->
    (forall v r, rest = v :: r -> trimmed v []) -> lenient (bs "client_max_window_bits" ++ more) (ClientBits 15)
| l_nothing : lenient [] Nothing.

(** the offer [e]: the name, then parameters separated by semicolons *)
Definition offers (e : str) (ps : list param) : Prop :=
  exists rest, e = EXT_DEFLATE ++ rest /\
    ((rest = [] /\ ps = []) \/
     (rest <> [] /\ exists l, items 59 rest l /\ Forall2 (fun x p => exists t, trimmed x t /\ lenient t p) l ps)).

(** what the parameters mean *)
Definition wide (n : Z) : Z := if n =? 8 then 9 else n.
Definition last_server (ps : list param) (n : Z) : Prop :=
  (exists a m b, ps = a ++ ServerBits m :: b /\ n = wide m /\ forall k, ~ In (ServerBits k) b) \/ (n = 15 /\ forall k, ~ In (ServerBits k) ps).
Definition last_client (ps : list param) (n : Z) : Prop :=
  (exists a m b, ps = a ++ ClientBits m :: b /\ n = wide m /\ forall k, ~ In (ClientBits k) b) \/ (n = 15 /\ forall k, ~ In (ClientBits k) ps).
Record means (ps : list param) (c : dctx) : Prop := {
  m_snct : c_snct c = true <-> In ServerNoContext ps;
  m_cnct : c_cnct c = true <-> In ClientNoContext ps;
  m_sbits : last_server ps (c_sbits c);
  m_cbits : last_client ps (c_cbits c) }.

(** the answer [a] names exactly the parameters accepted, once, with the values in use *)
Definition says (ps : list param) (c : dctx) (a : str) : Prop :=
  exists p1 p2 p3 p4, a = EXT_DEFLATE ++ p1 ++ p2 ++ p3 ++ p4 /\
    (p1 = bs "; server_no_context_takeover" /\ In ServerNoContext ps \/ p1 = [] /\ ~ In ServerNoContext ps) /\
    (p2 = bs "; client_no_context_takeover" /\ In ClientNoContext ps \/ p2 = [] /\ ~ In ClientNoContext ps) /\
    (p3 = bs "; server_max_window_bits=" ++ udec (c_sbits c) /\ (exists n, In (ServerBits n) ps) \/ p3 = [] /\ forall n, ~ In (ServerBits n) ps) /\
    (p4 = bs "; client_max_window_bits=" ++ udec (c_cbits c) /\ (exists n, In (ClientBits n) ps) \/ p4 = [] /\ forall n, ~ In (ClientBits n) ps).

(** [e] is the first element of the client's list that begins like permessage-deflate *)
Definition first_offer (e : str) (l : list str) : Prop :=
  exists a b, l = a ++ e :: b /\ forall x r, In x a -> x <> EXT_DEFLATE ++ r.
