(** Specification vocabulary for the life of an instance. *)
From Coq Require Import String ZArith Bool List.
From Verif Require Import Base UMapModel RouterModel RouterSpec LifeModel.
Import ListNotations.
Open Scope Z_scope.

(** the key and the certificate come together, the authority of the clients' certificates with both *)
Definition credentials (key cert ca : option str) : Prop :=
  (key = None /\ cert = None /\ ca = None) \/ (key <> None /\ cert <> None).
(** the endpoints of the instance are [es] *)
Definition holds (u : instance) (es : list endpoint) : Prop :=
  nb_endpoints u = length es /\ forall arr, endpoint_list u = Some arr -> exists rest, arr = map Some es ++ rest.
Definition blank (e : endpoint) : Prop := http_method e = None /\ url_prefix e = None /\ url_format e = None.
(** the instance can be started: a port, a list of endpoints that does not begin with the empty one, no incomplete endpoint *)
Definition startable (u : inst) (es : list endpoint) : Prop :=
  1 <= l_port u <= 65535 /\ endpoint_list (l_endpoints u) <> None /\
  Forall (fun e => complete e \/ blank e) es /\ (forall e r, es = e :: r -> ~ blank e).
(** the daemon [d] is the one that was asked for *)
Record as_asked (u : inst) (key cert ca : option str) (d : daemon) : Prop := {
  asked_port : d_port d = l_port u;
  asked_once : NoDup (d_flags d) /\ NoDup (d_options d);
  asked_tls : In Ssl (d_flags d) <-> key <> None /\ cert <> None;
  asked_key : forall k, In (MemKey k) (d_options d) <-> key = Some k;
  asked_cert : forall c, In (MemCert c) (d_options d) <-> cert = Some c;
  asked_trust : forall t, In (MemTrust t) (d_options d) <-> ca = Some t;
  asked_timeout : forall n, In (Timeout n) (d_options d) <-> n = l_timeout u /\ n > 0;
  asked_address : forall a, In (SockAddr a) (d_options d) <-> (l_bind6 u <> None /\ a = l_bind6 u) \/ (l_bind6 u = None /\ a = l_bind4 u);
  asked_v6 : In IPv6 (d_flags d) <-> l_bind6 u <> None \/ (bit (l_network u) 4 = true /\ bit (l_network u) 0 = false);
  asked_dual : In DualStack (d_flags d) <-> l_bind6 u = None /\ bit (l_network u) 4 = true /\ bit (l_network u) 0 = true;
  asked_hooks : In Logger (d_options d) /\ In Completed (d_options d) /\ In UriLog (d_options d) /\ In ThreadPerConnection (d_flags d) }.

(** the documented use: [legal p l rs q]: from a state that runs iff [p], the calls [l] that answer [rs] lead to one that runs iff [q]; no start while running *)
Inductive legal : bool -> list call -> list Z -> bool -> Prop :=
| legal_nil : forall p, legal p [] [] p
| legal_start : forall ok k c ca r q l rs q', (q = true <-> r = U_OK) -> legal q l rs q' -> legal false (Start ok k c ca :: l) (r :: rs) q'
| legal_options : forall ok f o r q l rs q', (q = true <-> r = U_OK) -> legal q l rs q' -> legal false (StartOptions ok f o :: l) (r :: rs) q'
| legal_stop : forall p r l rs q, legal false l rs q -> legal p (Stop :: l) (r :: rs) q
| legal_endpoint : forall p o r l rs q, legal p l rs q -> legal p (Endpoint o :: l) (r :: rs) q.
(** what a caller must ensure besides: no empty endpoint, lists of options that end *)
Definition call_ok (c : call) : Prop :=
  match c with
  | Endpoint o => eop_ok o
  | StartOptions _ _ (Some ops) => exists a b, ops = map Some a ++ Some End :: b /\ ~ In End a
  | _ => True
  end.
(** the programs never use their own options *)
Definition plain (c : call) : Prop := match c with StartOptions _ _ _ => False | _ => True end.
Definition fresh (u : inst) : system := mk_system u [] 0.
(** an instance as the initialisation functions leave it, with the timeout chosen by the program *)
Definition with_timeout (u : inst) (n : Z) : inst :=
  mk_life (l_port u) (l_endpoints u) (l_bind4 u) (l_bind6 u) (l_network u) n (l_daemon u) (l_status u) (l_client_auth u).
Definition initialised (u : inst) : Prop :=
  exists u' n, u = with_timeout u' n /\ ((exists port bind, init port bind = Some u') \/ exists port bind network, init_ipv6 port bind network = Some u').
