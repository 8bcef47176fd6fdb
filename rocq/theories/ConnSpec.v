(** Specification vocabulary for the life of a request. *)
From Coq Require Import String ZArith Bool List.
From Verif Require Import Base ConnModel.
Import ListNotations.
Open Scope Z_scope.

(** the path of a request target: what stands before the first question mark *)
Definition path_of (uri path : str) : Prop := ~ In 63 path /\ (uri = path \/ exists query, uri = path ++ 63 :: query).
(** GnuTLS found the chain of the peer valid, and the peer has a certificate *)
Definition verified (t : tls) : Prop := t_verify t = 0 /\ t_status t = 0 /\ t_peers t <> 0.
Definition resource_eqb (a b : resource) : bool :=
  match a, b with Info, Info | UrlMap, UrlMap | Request, Request | Cert, Cert | Post, Post => true | _, _ => false end.
(** the resources held after the events: None if one is allocated while it is held, or released while it is not *)
Definition account (live : option (list resource)) (e : event) : option (list resource) :=
  match live, e with
  | None, _ => None
  | Some l, New r => if existsb (resource_eqb r) l then None else Some (r :: l)
  | Some l, Release r => if existsb (resource_eqb r) l then Some (filter (fun x => negb (resource_eqb r x)) l) else None
  end.
(** everything allocated is released, once, and nothing else is released *)
Definition balanced (l : list event) : Prop := fold_left account l (Some []) = Some [].
Definition plenty : allocs := mk_allocs true true true true true.
Definition has_memory (i : call1) : Prop := f_al_address i = true /\ f_al_verb i = true /\ f_al_version i = true /\ f_al_post i = true.
(** a certificate that was verified can be read *)
Definition readable (t : option tls) : Prop := match t with Some t => verified t -> t_import t = 0 | None => True end.
