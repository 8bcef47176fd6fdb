(** Specification vocabulary for the properties of requests and responses. *)
From Coq Require Import String ZArith Bool List.
From Verif Require Import Base UMapModel SMap CopyModel PropModel.
From Verif Require TokenModel.
Import ListNotations.
Open Scope Z_scope.

(** an option with its values, as include/ulfius.h:146-184 documents them *)
Inductive opt :=
| OText (f : tfield) (v : option str) | OAuth (u p : option str) | OAppend (s : str) | OInt (f : ifield) (z : Z)
| OPut (m : mfield) (k v : option str) | ORemove (m : mfield) (k : option str)
| OBinary (d : option (list Z)) (n : Z) | OString (s : option str) | OJson (j : option TokenModel.json)
| OStatus (z : Z) | ORealm (v : option str) | OShared (p : option Z) | OSeconds (n : Z)
| OAlien (code : Z).
Definition text_code (f : tfield) : Z :=
  match f with Verb => 1 | Url => 2 | Proxy => 3 | CaPath => 10 | User => 12 | Password => 13 | CertFile => 26 | KeyFile => 27 | KeyPassword => 28 end.
Definition int_code (f : ifield) : Z :=
  match f with Network => 4 | CheckServer => 5 | CheckServerFlag => 6 | CheckProxy => 7 | CheckProxyFlag => 8 | Follow => 9 | Timeout => 11 end.
Definition map_code (f : mfield) : Z := match f with MUrl => 15 | MHeader => 16 | MCookie => 17 | MPost => 18 end.
Definition code (o : opt) : Z :=
  match o with
  | OText f _ => text_code f | OAuth _ _ => 14 | OAppend _ => 32 | OInt f _ => int_code f | OPut m _ _ => map_code m | ORemove m _ => map_code m + 4
  | OBinary _ _ => 23 | OString _ => 24 | OJson _ => 25 | OStatus _ => 29 | ORealm _ => 30 | OShared _ => 31 | OSeconds _ => 11 | OAlien c => c
  end.
Definition atext (v : option str) : varg := VPtr (match v with Some s => PMem (cblock s) | None => PNull end).
Definition adata (v : option (list Z)) : varg := VPtr (match v with Some d => PMem (block_of d) | None => PNull end).
Definition args (o : opt) : list varg :=
  match o with
  | OText _ v => [atext v] | OAuth u p => [atext u; atext p] | OAppend s => [atext (Some s)] | OInt _ z => [VInt z]
  | OPut _ k v => [atext k; atext v] | ORemove _ k => [atext k] | OBinary d n => [adata d; VLong n] | OString s => [atext s] | OJson j => [VJson j]
  | OStatus z => [VLong z] | ORealm v => [atext v] | OShared p => [VVoid p] | OSeconds n => [VInt n] | OAlien _ => []
  end.
(** the arguments of a call *)
Definition call (l : list opt) : list varg := flat_map (fun o => VInt (code o) :: args o) l ++ [VInt 0].

Definition otext_ok (v : option str) : Prop := match v with Some s => cstr s /\ zlen s + 2 < two64 | None => True end.
(** values of the documented kind, within the range of their C type *)
Definition opt_ok (o : opt) : Prop :=
  match o with
  | OText _ v | OString v | ORealm v | ORemove _ v => otext_ok v
  | OAuth u p => otext_ok u /\ otext_ok p
  | OAppend s => cstr s
  | OInt f z => -2147483648 <= z < 2147483648 /\ (f = Network -> 0 <= z < 65536) /\ (f = Timeout -> 0 <= z)
  | OPut _ k v => otext_ok k /\ otext_ok v
  | OBinary d n => 0 <= n < two64 /\ match d with Some d => bytes d /\ n <= zlen d | None => True end
  | OJson _ | OShared _ => True
  | OStatus z => 0 <= z < 4294967296
  | OSeconds n => 0 <= n < 4294967296
  | OAlien c => 32 < c < 2147483648
  end.

(** what a request holds *)
Record view := mk_view { a_text : tfield -> option str; a_int : ifield -> Z; a_map : mfield -> smap; a_body : option (list Z) }.
Definition body_is (b : msg) (d : option (list Z)) : Prop :=
  match d with
  | None => m_body b = None /\ m_length b = 0
  | Some d => (exists rest, m_body b = Some (block_of d ++ rest)) /\ m_length b = zlen d
  end.
Definition shows (q : preq) (a : view) : Prop :=
  (forall f, q_text q f = a_text a f) /\ (forall f, q_int q f = a_int a f) /\ (forall f, repr (q_map q f) (a_map a f)) /\ body_is (q_body q) (a_body a).

Definition some_text (v : option str) : option str := match v with Some [] => None | _ => v end.
Definition sdel (k : str) (d : smap) : smap := filter (fun p => negb (str_eqb (fst p) k)) d.
Section Effect.
Variable dumps : TokenModel.json -> option str.
Definition container (j : option TokenModel.json) : bool := match j with Some (TokenModel.JArr _) | Some (TokenModel.JObj _) => true | _ => false end.
(** what an option does to the headers: the answer of the library and the headers afterwards *)
Definition put_effect (d : smap) (k v : option str) : Z * smap :=
  match k with Some (c :: k) => (U_OK, sput (c :: k) v d) | _ => (U_ERROR_PARAMS, d) end.
Definition remove_effect (d : smap) (k : option str) : Z * smap :=
  match k with Some k => if shas d k then (U_OK, sdel k d) else (U_ERROR_NOT_FOUND, d) | None => (U_ERROR_PARAMS, d) end.
(** what a body option asks for: None if it is refused *)
Definition asked_body (o : opt) : option (list Z) :=
  match o with
  | OBinary (Some d) n => if n =? 0 then None else Some (zfirstn n d)
  | OString (Some s) => Some s
  | OJson (Some j) => if container (Some j) then dumps j else None
  | _ => None
  end.
Definition on_map (a : view) (m : mfield) (x : Z * smap) : Z * view :=
  (fst x, mk_view (a_text a) (a_int a) (fun f => if mfield_beq f m then snd x else a_map a f) (a_body a)).
Definition on_text (a : view) (f : tfield) (v : option str) : view := mk_view (fun x => if tfield_beq x f then v else a_text a x) (a_int a) (a_map a) (a_body a).
Definition on_body (a : view) (d : option (list Z)) : view := mk_view (a_text a) (a_int a) (a_map a) d.
Definition effect (a : view) (o : opt) : Z * view :=
  match o with
  | OText f v => (U_OK, on_text a f (some_text v))
  | OAuth u p => (U_OK, on_text (on_text a User (some_text u)) Password (some_text p))
  | OAppend s => (U_OK, on_text a Url (Some (match a_text a Url with Some u => u ++ s | None => s end)))
  | OInt f z => (U_OK, mk_view (a_text a) (fun x => if ifield_beq x f then z else a_int a x) (a_map a) (a_body a))
  | OPut m k v => on_map a m (put_effect (a_map a m) k v)
  | ORemove m k => on_map a m (remove_effect (a_map a m) k)
  | OJson j =>
      if container j then
        match asked_body o with
        | Some t => (U_OK, on_body (snd (on_map a MHeader (put_effect (a_map a MHeader) (Some (bs "Content-Type")) (Some (bs "application/json"))))) (Some t))
        | None => (U_ERROR_MEMORY, on_body a None)
        end
      else (U_ERROR_PARAMS, a)
  | OBinary _ _ | OString _ => match asked_body o with Some t => (U_OK, on_body a (Some t)) | None => (U_ERROR_PARAMS, a) end
  | _ => (U_ERROR_PARAMS, a)
  end.
(** the options in order, up to the first that fails *)
Fixpoint effects (a : view) (l : list opt) : Z * view :=
  match l with
  | [] => (U_OK, a)
  | o :: r => let (c, a') := effect a o in if c =? U_OK then effects a' r else (c, a')
  end.
End Effect.
(** the options of a request *)
Definition for_request (o : opt) : Prop := match o with OStatus _ | ORealm _ | OShared _ | OSeconds _ => False | _ => True end.

(** the last option that sets the text field [f] *)
Definition sets (f : tfield) (o : opt) : option (option str) :=
  match o with
  | OText g v => if tfield_beq g f then Some (some_text v) else None
  | OAuth u p => if tfield_beq f User then Some (some_text u) else if tfield_beq f Password then Some (some_text p) else None
  | _ => None
  end.
Fixpoint last_set (f : tfield) (l : list opt) : option (option str) :=
  match l with [] => None | o :: r => match last_set f r with Some v => Some v | None => sets f o end end.
Definition sets_int (f : ifield) (o : opt) : option Z := match o with OInt g z => if ifield_beq g f then Some z else None | _ => None end.
Fixpoint last_int (f : ifield) (l : list opt) : option Z :=
  match l with [] => None | o :: r => match last_int f r with Some v => Some v | None => sets_int f o end end.

(** ** responses *)
Record rview := mk_rview { r_status : Z; r_headers : smap; r_realm : option str; r_shared : option Z; r_timeout : Z; r_body : option (list Z) }.
Definition rshows (r : presp) (a : rview) : Prop :=
  m_status (p_body r) = r_status a /\ 0 <= r_status a < 4294967296 /\ repr (p_headers r) (r_headers a) /\ p_realm r = r_realm a /\ p_shared r = r_shared a /\ p_timeout r = r_timeout a /\
  body_is (p_body r) (r_body a).
Definition for_response (o : opt) : Prop :=
  match o with
  | OStatus _ | ORealm _ | OShared _ | OSeconds _ | OBinary _ _ | OString _ | OJson _ | OAlien _ => True
  | OPut m _ _ | ORemove m _ => m = MHeader
  | _ => False
  end.
Section ResponseEffect.
Variable dumps : TokenModel.json -> option str.
Definition with_headers (a : rview) (h : smap) : rview := mk_rview (r_status a) h (r_realm a) (r_shared a) (r_timeout a) (r_body a).
Definition with_rbody (a : rview) (d : option (list Z)) : rview := mk_rview (r_status a) (r_headers a) (r_realm a) (r_shared a) (r_timeout a) d.
Definition reffect (a : rview) (o : opt) : Z * rview :=
  match o with
  | OStatus z => (U_OK, mk_rview z (r_headers a) (r_realm a) (r_shared a) (r_timeout a) (r_body a))
  | OPut _ k v => let x := put_effect (r_headers a) k v in (fst x, with_headers a (snd x))
  | ORemove _ k => let x := remove_effect (r_headers a) k in (fst x, with_headers a (snd x))
  | ORealm v => (U_OK, mk_rview (r_status a) (r_headers a) (some_text v) (r_shared a) (r_timeout a) (r_body a))
  | OShared p => (U_OK, mk_rview (r_status a) (r_headers a) (r_realm a) p (r_timeout a) (r_body a))
  | OSeconds n => (U_OK, mk_rview (r_status a) (r_headers a) (r_realm a) (r_shared a) n (r_body a))
  | OJson j =>
      if container j then
        match asked_body dumps o with
        | Some t => (U_OK, with_rbody (with_headers a (sput (bs "Content-Type") (Some (bs "application/json")) (r_headers a))) (Some t))
        | None => (U_ERROR_MEMORY, with_rbody a None)
        end
      else (U_ERROR_PARAMS, a)
  | OBinary _ _ | OString _ => match asked_body dumps o with Some t => (U_OK, with_rbody a (Some t)) | None => (U_ERROR_PARAMS, a) end
  | _ => (U_ERROR_PARAMS, a)
  end.
Fixpoint reffects (a : rview) (l : list opt) : Z * rview :=
  match l with
  | [] => (U_OK, a)
  | o :: r => let (c, a') := reffect a o in if c =? U_OK then reffects a' r else (c, a')
  end.
End ResponseEffect.

(** ** shared data *)
(** the data given with a free function *)
Definition given (o : shared_op) : list (Z * Z) := match o with Give (Some d) (Some f) => [(f, d)] | _ => [] end.
Definition gives (o : shared_op) : Prop := match o with Give _ _ => True | Overwrite _ => False end.
Definition data_of (o : shared_op) : list Z := match o with Give (Some d) _ => [d] | _ => [] end.
Definition fresh (r : presp) : Prop := p_shared r = None /\ p_free r = None.
