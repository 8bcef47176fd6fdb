(** What a resource server has to check before it lets a token through (C57, C77, C78, C79), stated on the content of the request and of the token. *)
From Coq Require Import String ZArith Bool List.
From Verif Require Import Base SMap NegoSpec TokenModel.
Import ListNotations.
Open Scope Z_scope.

(** the value of a member of an object *)
Definition member (j : json) (k : str) (v : json) : Prop := exists a b, j = JObj (a ++ (k, v) :: b) /\ ~ In k (map fst a).
(** an integer member, 0 if there is none *)
Definition amount (j : json) (k : str) (n : Z) : Prop := member j k (JInt n) \/ n = 0 /\ forall m, ~ member j k (JInt m).
(** the words of a text, empty ones included: two spaces in a row have one between them *)
Definition piece (s w : str) : Prop := exists l, items 32 s l /\ In w l.
(** a list of scopes: words separated by one space *)
Definition tidy (s : str) : Prop := ~ piece s [].
Definition word (s w : str) : Prop := piece s w /\ w <> [].
Definition nonempty (j : json) (k : str) : Prop := exists s, member j k (JStr s) /\ s <> [].

(** the token is what the request presents: in the header, in the form, or in the URL *)
Definition field_value (d : smap) (k v : str) : Prop := exists a p b, d = a ++ p :: b /\ same_name (fst p) k /\ (forall q, In q a -> ~ same_name (fst q) k) /\ v = match snd p with Some s => s | None => [] end.
Definition entry_value (d : smap) (k v : str) : Prop := exists a b, d = a ++ (k, Some v) :: b /\ ~ In k (map fst a).
Definition is_form (t : str) : Prop := exists a b, t = a ++ bs "application/x-www-form-urlencoded" ++ b.
Definition presented (exact : bool) (method : Z) (dh dp du : smap) (tok : str) : Prop :=
  method = 0 /\ field_value dh (bs "Authorization") (bs "Bearer " ++ tok) \/
  method = 1 /\ (exists t, (if exact then entry_value dh (bs "Content-Type") t else field_value dh (bs "Content-Type") t) /\ is_form t) /\ entry_value dp (bs "access_token") tok \/
  method = 2 /\ entry_value du (bs "access_token") tok.

(** the type of the token is accepted, and it has a subject *)
Definition subject (c : tconfig) (j : json) (user client : str) : Prop :=
  t_access c = true /\ member j (bs "type") (JStr (bs "access_token")) /\ nonempty j user \/
  t_client c = true /\ member j (bs "type") (JStr (bs "client_token")) /\ nonempty j client.
(** a scope of the token is one of those asked for, if any are *)
Definition scoped (piece : str -> str -> Prop) (scope : option str) (j : json) : Prop :=
  match scope with Some (c :: s) => exists t w, member j (bs "scope") (JStr t) /\ piece t w /\ piece (c :: s) w | _ => True end.

(** what binds a token to a key, RFC 9449 *)
Definition bound (j : json) (v : json) : Prop := exists k, member j (bs "cnf") k /\ member k (bs "jkt") v.
Definition as_text (v : json) : option str := match v with JStr s => Some s | _ => None end.
(** the request carries the token, under the scheme DPoP or not *)
Definition carried (method : Z) (dh dp du : smap) (tok : str) (dpop : bool) : Prop :=
  if method =? 0 then single dh (bs "Authorization") ((if dpop then bs "DPoP " else bs "Bearer ") ++ tok) else dpop = false /\ presented true method dh dp du tok.
Definition lacks (d : smap) (k : str) : Prop := forall p, In p d -> ~ same_name (fst p) k.
