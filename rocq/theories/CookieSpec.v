(** What the cookies of a response should be (C28) and what a Set-Cookie header means (C29). *)
From Coq Require Import String ZArith Bool List.
From Verif Require Import Base Dec CookieModel.
Import ListNotations.
Open Scope Z_scope.

(** ** C28 *)

(** the request made by a call; the plain variant asks for no SameSite *)
Definition call_site (c : bool * cookie_args) : Z := if fst c then a_same_site (snd c) else 0.
(** a call that is accepted *)
Definition accepted (c : bool * cookie_args) : Prop := a_key (snd c) <> None /\ In (call_site c) [0; 1; 2; 3].
(** the cookie a call asks for *)
Definition asked (c : bool * cookie_args) (k : str) : cookie :=
  let a := snd c in
  mk_cookie k (match a_value a with Some v => v | None => [] end) (a_expires a) (a_max_age a) (a_domain a) (a_path a)
    (a_secure a) (a_http_only a) (call_site c).

(** [last_call calls k c]: [c] is the last accepted call for the name [k] *)
Definition last_call (calls : list (bool * cookie_args)) (k : str) (c : bool * cookie_args) : Prop :=
  exists a b, calls = a ++ c :: b /\ accepted c /\ a_key (snd c) = Some k /\
    forall x, In x b -> accepted x -> a_key (snd x) <> Some k.

(** [first_before calls k k']: [k] was accepted for the first time before [k'] was *)
Definition first_before (calls : list (bool * cookie_args)) (k k' : str) : Prop :=
  exists a c b, calls = a ++ c :: b /\ accepted c /\ a_key (snd c) = Some k /\
    forall x, In x (a ++ [c]) -> accepted x -> a_key (snd x) <> Some k'.

(** ** C29: reading a Set-Cookie header *)
Fixpoint split (sep : Z) (s : str) : list str :=
  match s with
  | [] => [[]]
  | c :: r => if c =? sep then [] :: split sep r
              else match split sep r with h :: t => (c :: h) :: t | [] => [[c]] end
  end.

(** the part of [s] after the prefix [p] *)
Fixpoint after (p s : str) : option str :=
  match p, s with
  | [], _ => Some s
  | x :: p', y :: s' => if x =? y then after p' s' else None
  | _, [] => None
  end.

Fixpoint cut (sep : Z) (s : str) : option (str * str) :=
  match s with
  | [] => None
  | c :: r => if c =? sep then Some ([], r) else match cut sep r with Some (a, b) => Some (c :: a, b) | None => None end
  end.

Record cookie_view := mk_view {
  v_name : str; v_value : str; v_expires : option str; v_max_age : option Z; v_domain : option str; v_path : option str;
  v_secure : bool; v_http_only : bool; v_same_site : option str }.

(** one attribute; an attribute that is already there or unknown makes the header unreadable *)
Definition read_attr (v : cookie_view) (seg : str) : option cookie_view :=
  match after (bs " Expires=") seg, v_expires v with
  | Some x, None => Some (mk_view (v_name v) (v_value v) (Some x) (v_max_age v) (v_domain v) (v_path v) (v_secure v) (v_http_only v) (v_same_site v))
  | _, _ =>
  match after (bs " Max-Age=") seg, v_max_age v with
  | Some x, None => Some (mk_view (v_name v) (v_value v) (v_expires v) (Some (dec_value x)) (v_domain v) (v_path v) (v_secure v) (v_http_only v) (v_same_site v))
  | _, _ =>
  match after (bs " Domain=") seg, v_domain v with
  | Some x, None => Some (mk_view (v_name v) (v_value v) (v_expires v) (v_max_age v) (Some x) (v_path v) (v_secure v) (v_http_only v) (v_same_site v))
  | _, _ =>
  match after (bs " Path=") seg, v_path v with
  | Some x, None => Some (mk_view (v_name v) (v_value v) (v_expires v) (v_max_age v) (v_domain v) (Some x) (v_secure v) (v_http_only v) (v_same_site v))
  | _, _ =>
  match after (bs " SameSite=") seg, v_same_site v with
  | Some x, None => Some (mk_view (v_name v) (v_value v) (v_expires v) (v_max_age v) (v_domain v) (v_path v) (v_secure v) (v_http_only v) (Some x))
  | _, _ =>
  if str_eqb seg (bs " Secure") && negb (v_secure v) then
    Some (mk_view (v_name v) (v_value v) (v_expires v) (v_max_age v) (v_domain v) (v_path v) true (v_http_only v) (v_same_site v))
  else if str_eqb seg (bs " HttpOnly") && negb (v_http_only v) then
    Some (mk_view (v_name v) (v_value v) (v_expires v) (v_max_age v) (v_domain v) (v_path v) (v_secure v) true (v_same_site v))
  else None
  end end end end end.

Fixpoint read_attrs (v : cookie_view) (segs : list str) : option cookie_view :=
  match segs with
  | [] => Some v
  | s :: r => match read_attr v s with Some v' => read_attrs v' r | None => None end
  end.

Definition read_set_cookie (header : str) : option cookie_view :=
  match split 59 header with
  | nv :: segs =>
      match cut 61 nv with
      | Some (n, v) => read_attrs (mk_view n v None None None None false false None) segs
      | None => None
      end
  | [] => None
  end.

(** what the header of [c] should say *)
Definition view_of (c : cookie) : cookie_view :=
  mk_view (ck_key c) (ck_value c) (ck_expires c) (if ck_max_age c =? 0 then None else Some (ck_max_age c))
    (ck_domain c) (ck_path c) (negb (ck_secure c =? 0)) (negb (ck_http_only c =? 0))
    (if ck_same_site c =? 1 then Some (bs "Strict") else if ck_same_site c =? 2 then Some (bs "Lax")
     else if ck_same_site c =? 3 then Some (bs "None") else None).

Definition no_semicolon (s : str) : Prop := ~ In 59 s.
Definition plain_cookie (c : cookie) : Prop :=
  no_semicolon (ck_key c) /\ ~ In 61 (ck_key c) /\ no_semicolon (ck_value c) /\
  (forall s, ck_expires c = Some s -> no_semicolon s) /\ (forall s, ck_domain c = Some s -> no_semicolon s) /\
  (forall s, ck_path c = Some s -> no_semicolon s).
