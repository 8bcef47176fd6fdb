(** What setting a body (C32) and copying requests (C31) and responses (C30) should do. *)
From Coq Require Import ZArith Bool List.
From Verif Require Import Base UMapModel UMapSpec SMap CopyModel.
Import ListNotations.
Open Scope Z_scope.

(** ** C32 *)

(** arguments the caller may pass: a C string, or a block of at least [length] bytes *)
Definition body_op_ok (o : body_op) : Prop :=
  match o with
  | SetString _ _ (Some s) => cstr s
  | SetBinary _ _ (Some d) n => 0 <= n <= zlen d
  | SetBinary _ _ None n => 0 <= n
  | SetJson _ _ (Some s) => cstr s
  | _ => True
  end.
(** the arguments are admissible *)
Definition admissible (o : body_op) : bool :=
  match o with
  | SetString _ _ (Some _) | SetEmpty _ | SetJson _ _ (Some _) => true
  | SetBinary _ _ (Some _) n => negb (n =? 0)
  | _ => false
  end.
Definition allocated (o : body_op) : bool :=
  match o with SetString a _ _ | SetBinary a _ _ _ | SetJson a _ _ => a | SetEmpty _ => true end.
(** the body and status the call asks for *)
Definition wanted (o : body_op) : list Z * Z :=
  match o with
  | SetString _ st (Some s) => (s, st)
  | SetBinary _ st (Some d) n => (zfirstn n d, st)
  | SetJson _ st (Some s) => (s, st)
  | SetEmpty st => ([], st)
  | _ => ([], 0)
  end.
Definition expected_code (o : body_op) : Z :=
  if negb (admissible o) then U_ERROR_PARAMS else if allocated o then U_OK else U_ERROR_MEMORY.
(** an inadmissible call changes nothing; one that finds no memory leaves an empty body; any other
    one replaces body and status *)
Definition body_effect (acc : list Z * Z) (o : body_op) : list Z * Z :=
  if negb (admissible o) then acc else if allocated o then wanted o else ([], snd acc).
(** ulfius_set_string_body_* finds no memory *)
Definition failed_string (o : body_op) : bool := match o with SetString false _ (Some _) => true | _ => false end.

(** body and length belong together: the block starts with the [length] bytes *)
Definition msg_is (m : msg) (bytes : list Z) (status : Z) : Prop :=
  m_status m = status /\ m_length m = zlen bytes /\
  match m_body m with
  | None => bytes = []
  | Some b => exists rest, b = block_of bytes ++ rest
  end.

(** ** C31 *)
Definition same_text (a b : umap) : Prop := exists d, repr a d /\ repr b d.
Definition body_bytes (b : option buf) (n : Z) : option buf := if n =? 0 then None else match b with Some x => Some (zfirstn n x) | None => None end.
Definition same_request (a b : request) : Prop :=
  q_strs a = q_strs b /\ q_ints a = q_ints b /\ q_address a = q_address b /\
  same_text (q_url a) (q_url b) /\ same_text (q_header a) (q_header b) /\ same_text (q_cookie a) (q_cookie b) /\
  same_text (q_post a) (q_post b) /\
  q_body_length a = q_body_length b /\ body_bytes (q_body a) (q_body_length a) = body_bytes (q_body b) (q_body_length b).

(** ** C30 *)
Definition ptr_value (h : heap) (p : ptr) : option (list Z) :=
  match p with None => None | Some a => match nth_error h a with Some (Some c) => Some c | _ => None end end.
Definition view_cookie (h : heap) (c : hcookie) :=
  (ptr_value h (hc_key c), ptr_value h (hc_value c), ptr_value h (hc_expires c), ptr_value h (hc_domain c),
   ptr_value h (hc_path c), hc_ints c).
Definition view_body (h : heap) (p : ptr) (n : Z) : list Z :=
  match ptr_value h p with Some c => zfirstn n c | None => [] end.
(** everything a reader of the response sees, apart from the headers *)
Definition view_resp (h : heap) (r : hresp) :=
  (hr_status r, hr_stream r, hr_rest r, ptr_value h (hr_protocol r), ptr_value h (hr_realm r), map (view_cookie h) (hr_cookies r),
   view_body h (hr_body r) (hr_body_length r), hr_body_length r, ptr_value h (hr_ws_protocol r), ptr_value h (hr_ws_extensions r)).

Definition addr (p : ptr) : list nat := match p with Some a => [a] | None => [] end.
Definition cookie_addrs (c : hcookie) : list nat :=
  addr (hc_key c) ++ addr (hc_value c) ++ addr (hc_expires c) ++ addr (hc_domain c) ++ addr (hc_path c).
Definition addrs (r : hresp) : list nat :=
  addr (hr_protocol r) ++ addr (hr_realm r) ++ addr (hr_jar r) ++ flat_map cookie_addrs (hr_cookies r) ++
  addr (hr_body r) ++ addr (hr_ws_protocol r) ++ addr (hr_ws_extensions r).

Definition live (h : heap) (a : nat) : Prop := exists c, nth_error h a = Some (Some c).
(** a response that owns its blocks *)
Definition owned (h : heap) (r : hresp) : Prop :=
  NoDup (addrs r) /\ Forall (live h) (addrs r) /\
  match ptr_value h (hr_body r) with Some c => 0 <= hr_body_length r <= zlen c | None => hr_body_length r = 0 end.

(** the case in which the copy works: a protocol is known and every cookie has all attributes *)
Definition complete (r : hresp) : Prop :=
  hr_protocol r <> None /\
  Forall (fun c => hc_value c <> None /\ hc_expires c <> None /\ hc_domain c <> None /\ hc_path c <> None) (hr_cookies r).

(** C31: a request whose maps hold C strings and whose body block has at least the stated length *)
Definition request_ok (q : request) : Prop :=
  (exists d, repr (q_url q) d) /\ (exists d, repr (q_header q) d) /\ (exists d, repr (q_cookie q) d) /\
  (exists d, repr (q_post q) d) /\
  match q_body q with Some b => 0 <= q_body_length q <= zlen b | None => q_body_length q = 0 end.
