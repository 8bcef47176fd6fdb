(** What a request dispatcher should do: which callbacks run, what they see, what is answered. *)
From Coq Require Import String ZArith Bool List Sorted Permutation.
From Verif Require Import Base UMapModel SMap RouterModel RouterSpec CookieModel DispatchModel.
Import ListNotations.
Open Scope Z_scope.

Section Spec.
Variable W : Type.
Variable cb : Z -> Z -> Z -> umap -> response -> W -> Z * response * W.
Variable accepts : str -> str -> bool.
Variable handshake : Z -> list (str * str) + (Z * list Z).
Variable default_auth_realm : option str.

(** the callback of [ev] was really called, on this response and state *)
Definition called (r : response) (w : W) (ev : event W) : Prop :=
  exists f map_url, callback (ev_ep ev) = Some f /\
    cb f (user_data (ev_ep ev)) (ev_pos ev) map_url r w = (ev_code ev, ev_resp ev, ev_world ev).
(** each callback continues from where the previous one left the response and the state *)
Fixpoint genuine (r : response) (w : W) (evs : list (event W)) : Prop :=
  match evs with
  | [] => True
  | ev :: t => called r w ev /\ genuine (ev_resp ev) (ev_world ev) t
  end.

(** the callback lets the next one run *)
Definition passes (ev : event W) : Prop :=
  (ev_code ev = U_CALLBACK_CONTINUE \/ ev_code ev = U_CALLBACK_IGNORE) /\ r_stream (ev_resp ev) = None /\ r_ws (ev_resp ev) = None.

Definition not_ignored (evs : list (event W)) : Z := zlen (filter (fun ev => negb (ev_code ev =? U_CALLBACK_IGNORE)) evs).

(** C21 for the endpoints [l] *)
Definition runs_in_order (l : list endpoint) (evs : list (event W)) : Prop :=
  map ev_ep evs = firstn (length evs) l /\ (length evs <= length l)%nat /\
  (forall a ev b, evs = a ++ ev :: b -> b <> [] -> passes ev) /\
  ((length evs < length l)%nat -> exists a ev, evs = a ++ [ev] /\ ~ passes ev).

(** the headers of a dictionary that have a value *)
Fixpoint set_entries (d : smap) : list (str * str) :=
  match d with
  | [] => []
  | (k, Some v) :: r => (k, v) :: set_entries r
  | (_, None) :: r => set_entries r
  end.
(** everything to send as header *)
Definition all_headers (d : smap) (cookies : list cookie) : list (str * str) :=
  set_entries d ++ map (fun c => (bs "Set-Cookie", generate_cookie_header c)) cookies.
(** up to the first one MHD refuses *)
Fixpoint accepted_prefix (l : list (str * str)) : list (str * str) :=
  match l with
  | [] => []
  | h :: t => if accepts (fst h) (snd h) then h :: accepted_prefix t else []
  end.
Definition all_accepted (l : list (str * str)) : Prop := Forall (fun h => accepts (fst h) (snd h) = true) l.

(** what is queued for a response with the headers [hs] *)
Inductive plain_answer (r : response) (hs : list (str * str)) : Z -> answer -> Prop :=
| pa_complete : forall code, code = U_CALLBACK_CONTINUE \/ code = U_CALLBACK_IGNORE \/ code = U_CALLBACK_COMPLETE ->
    plain_answer r hs code (Queue (r_status r) (mk_mhd (CBuffer (r_body r)) (accepted_prefix hs)))
| pa_basic_own : forall realm, r_realm r = Some realm ->
    plain_answer r hs U_CALLBACK_UNAUTHORIZED (QueueBasic realm (mk_mhd (CBuffer (r_body r)) (accepted_prefix hs)))
| pa_basic_default : forall realm, r_realm r = None -> default_auth_realm = Some realm ->
    plain_answer r hs U_CALLBACK_UNAUTHORIZED (QueueBasic realm (mk_mhd (CBuffer (r_body r)) (accepted_prefix hs)))
| pa_unauthorized : r_realm r = None -> default_auth_realm = None ->
    plain_answer r hs U_CALLBACK_UNAUTHORIZED (Queue 401 (mk_mhd (CBuffer (r_body r)) (accepted_prefix hs)))
| pa_error : forall code, code <> U_CALLBACK_CONTINUE -> code <> U_CALLBACK_IGNORE -> code <> U_CALLBACK_COMPLETE ->
    code <> U_CALLBACK_UNAUTHORIZED -> plain_answer r hs code (Queue 500 (mk_mhd (CBuffer error_body) [])).

(** the answer when the chain ends with [ev] *)
Inductive chain_answer (ev : event W) (hs : list (str * str)) : answer -> Prop :=
| ca_stream : forall x, r_stream (ev_resp ev) = Some x ->
    chain_answer ev hs (Queue (r_status (ev_resp ev)) (mk_mhd (CStream x) (accepted_prefix hs)))
| ca_upgrade : forall h up, r_stream (ev_resp ev) = None -> r_ws (ev_resp ev) = Some h -> handshake h = inl up -> all_accepted hs ->
    chain_answer ev hs (Queue 101 (mk_mhd (CUpgrade h) (filter (fun p => accepts (fst p) (snd p)) up ++ hs)))
| ca_upgrade_refused : forall h up, r_stream (ev_resp ev) = None -> r_ws (ev_resp ev) = Some h -> handshake h = inl up -> ~ all_accepted hs ->
    chain_answer ev hs (Queue (r_status (ev_resp ev)) (mk_mhd (CUpgrade h) (filter (fun p => accepts (fst p) (snd p)) up ++ accepted_prefix hs)))
| ca_ws_error : forall h status text, r_stream (ev_resp ev) = None -> r_ws (ev_resp ev) = Some h -> handshake h = inr (status, text) ->
    chain_answer ev hs (Queue status (mk_mhd (CBuffer text) []))
| ca_plain : forall a, r_stream (ev_resp ev) = None -> r_ws (ev_resp ev) = None ->
    plain_answer (ev_resp ev) hs (ev_code ev) a -> chain_answer ev hs a.

(** the header map of a response can be read *)
Definition readable (r : response) : Prop := exists d, repr (r_header r) d.
(** callbacks use the library's functions to change the header map *)
Definition callbacks_ok : Prop :=
  forall f ud pos m r w, readable r -> readable (snd (fst (cb f ud pos m r w))).
End Spec.

(** a request whose path and query can be bound: C strings, total size below the address space *)
Definition request_ok (url : str) (initial : umap) : Prop :=
  cstr url /\ exists d, repr initial d /\ no_null d /\ sweight d + zlen url + 4 < two64.

(** the default endpoint can be used when it has a callback *)
Definition configured (dflt : option endpoint) (e : endpoint) : Prop := dflt = Some e /\ callback e <> None.

(** the endpoints to run for the selected ones *)
Inductive to_run (dflt : option endpoint) : list endpoint -> list endpoint -> Prop :=
| tr_selected : forall e l, to_run dflt (e :: l) (e :: l)
| tr_default : forall e, configured dflt e -> to_run dflt [] [e]
| tr_nothing : (forall e, ~ configured dflt e) -> to_run dflt [] [].

(** the selected endpoints, by increasing priority *)
Definition selection (method url : str) (es l : list endpoint) : Prop :=
  exists p : endpoint -> bool, (forall e, p e = true <-> selected method url e) /\
    Permutation (filter p es) l /\ StronglySorted (fun a b => priority a <= priority b) l.

(** the response the first callback is given *)
Definition fresh_response (dheaders : option umap) (r : response) : Prop :=
  r_status r = 200 /\ r_cookies r = [] /\ r_body r = [] /\ r_realm r = None /\ r_stream r = None /\ r_ws r = None /\
  match dheaders with
  | Some m => forall d, repr m d -> repr (r_header r) d
  | None => repr (r_header r) []
  end.

Definition all_ignored {W} (evs : list (event W)) : Prop := Forall (fun ev => ev_code ev = U_CALLBACK_IGNORE) evs.
