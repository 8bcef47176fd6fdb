(** Specification vocabulary for the memory of routing (C103): what a request does, in terms of words, endpoints and
    parameters, with the number of blocks lost. [sh]: some allocation fails. *)
From Coq Require Import String ZArith Bool List Permutation Sorted.
From Verif Require Import Base UMapModel UrlModel Utf8Model RouterModel OwnModel MapMemModel MapMemSpec RespMemModel RouteMemModel.
Import ListNotations.
Open Scope Z_scope.
Open Scope list_scope.

Section Spec.
Variable sh : Prop.
Variable tl : Z -> Z.
Variable ends : Z -> Z -> bool.

(** a list, or only its beginning *)
Definition kept {A} (l l' : list A) : Prop := l' = l \/ (sh /\ exists n, l' = firstn n l).
(** a text, or none *)
Definition copied (t t' : option str) : Prop := t' = t \/ (sh /\ t' = None /\ t <> None).

(** ulfius_split_url *)
Inductive s_split (prefix url : option str) : outcome (option (list str)) -> Prop :=
| ss_words : forall p u, kept (owords prefix) p -> kept (filter (fun w => negb (starts_with 63 w)) (owords url)) u ->
    s_split prefix url (Ret (Some (p ++ u)))
| ss_null : sh -> s_split prefix url (Ret None)
| ss_no_text : sh -> prefix <> None \/ url <> None -> s_split prefix url (UB NullDeref)
| ss_freed : sh -> prefix <> None -> url <> None -> s_split prefix url (UB UseAfterFree).

(** the copy of an endpoint *)
Definition s_copy (e e' : endpoint) : Prop :=
  copied (http_method e) (http_method e') /\ copied (url_prefix e) (url_prefix e') /\ copied (url_format e) (url_format e') /\
  priority e' = priority e /\ callback e' = callback e /\ user_data e' = user_data e.

(** the endpoints found, [None] for a copy without memory *)
Inductive s_found (method : str) (uw : list str) : list endpoint -> outcome (list (option endpoint)) -> Prop :=
| sf_nil : s_found method uw [] (Ret [])
| sf_end : forall e r, equals_endpoints e empty_endpoint = true -> s_found method uw (e :: r) (Ret [])
| sf_no_method : forall e r k, equals_endpoints e empty_endpoint = false -> method_match e method = UB k -> s_found method uw (e :: r) (UB k)
| sf_other : forall e r x, equals_endpoints e empty_endpoint = false -> method_match e method = Ret false -> s_found method uw r x -> s_found method uw (e :: r) x
| sf_crash : forall e r k, equals_endpoints e empty_endpoint = false -> method_match e method = Ret true ->
    s_split (url_prefix e) (url_format e) (UB k) -> s_found method uw (e :: r) (UB k)
| sf_unsplit : forall e r x, equals_endpoints e empty_endpoint = false -> method_match e method = Ret true ->
    s_split (url_prefix e) (url_format e) (Ret None) -> s_found method uw r x -> s_found method uw (e :: r) x
| sf_no : forall e r fw x, equals_endpoints e empty_endpoint = false -> method_match e method = Ret true ->
    s_split (url_prefix e) (url_format e) (Ret (Some fw)) -> url_format_match uw fw = false -> s_found method uw r x -> s_found method uw (e :: r) x
| sf_yes : forall e r fw e' x, equals_endpoints e empty_endpoint = false -> method_match e method = Ret true ->
    s_split (url_prefix e) (url_format e) (Ret (Some fw)) -> url_format_match uw fw = true -> s_copy e e' -> s_found method uw r x ->
    s_found method uw (e :: r) (do l <- x; Ret (Some e' :: l))
| sf_none : forall e r fw x, equals_endpoints e empty_endpoint = false -> method_match e method = Ret true ->
    s_split (url_prefix e) (url_format e) (Ret (Some fw)) -> url_format_match uw fw = true -> sh -> s_found method uw r x ->
    s_found method uw (e :: r) (do l <- x; Ret (None :: l)).

(** the array that ulfius_endpoint_match returns: [None] is NULL *)
Definition by_priority (a b : endpoint) : Prop := priority a <= priority b.
Inductive s_match (table : option (list endpoint)) (method url : str) : outcome (option (list endpoint)) -> Prop :=
| sm_null : sh -> s_match table method url (Ret None)
| sm_no_table : table = None -> s_match table method url (Ret (Some []))
| sm_crash : forall l k, table = Some l -> s_split (Some url) None (UB k) -> s_match table method url (UB k)
| sm_unsplit : forall l, table = Some l -> s_split (Some url) None (Ret None) -> s_match table method url (Ret (Some []))
| sm_loop : forall l uw k, table = Some l -> s_split (Some url) None (Ret (Some uw)) -> s_found method uw l (UB k) -> s_match table method url (UB k)
| sm_few : forall l uw x, table = Some l -> s_split (Some url) None (Ret (Some uw)) -> s_found method uw l (Ret x) -> (length x < 2)%nat ->
    s_match table method url (Ret (Some (match x with [Some e] => [e] | _ => [] end)))
| sm_sort_null : forall l uw x, table = Some l -> s_split (Some url) None (Ret (Some uw)) -> s_found method uw l (Ret x) -> (2 <= length x)%nat ->
    In None x -> s_match table method url (UB NullDeref)
| sm_sort : forall l uw x y, table = Some l -> s_split (Some url) None (Ret (Some uw)) -> s_found method uw l (Ret (map Some x)) -> (2 <= length x)%nat ->
    Permutation x y -> StronglySorted by_priority y -> s_match table method url (Ret (Some y)).

(** the default endpoint *)
Inductive s_default (dflt : option endpoint) : option (list endpoint) -> option (list endpoint) -> Prop :=
| sd_some : forall e l, s_default dflt (Some (e :: l)) (Some (e :: l))
| sd_none : forall r, match dflt with Some d => callback d = None | None => True end -> s_default dflt r r
| sd_copy : forall r d d', r = None \/ r = Some [] -> dflt = Some d -> callback d <> None -> s_copy d d' -> s_default dflt r (Some [d'])
| sd_empty : forall r d, r = None \/ r = Some [] -> dflt = Some d -> callback d <> None -> sh -> s_default dflt r (Some []).

(** a word of the url, decoded *)
Inductive s_word : option str -> option str -> Prop :=
| sw_null : s_word None None
| sw_word : forall s raw, url_decode tl false s = Ret raw -> s_word (Some s) (Some (c_text raw))
| sw_none : forall s, sh -> s_word (Some s) None.
(** the words of the prefix *)
Inductive s_skip : list str -> option str -> list str -> option str -> list str -> Prop :=
| sk_end : forall cur uw, s_skip [] cur uw cur uw
| sk_stop : forall p pr uw, s_skip (p :: pr) None uw None uw
| sk_next : forall p pr c uw cur cur' uw', s_word (hd_error uw) cur -> s_skip pr cur (List.tl uw) cur' uw' -> s_skip (p :: pr) (Some c) uw cur' uw'.

(** a parameter of the format that the word [t] is for *)
Definition takes (check : bool) (w t : str) : bool := (starts_with 58 w || starts_with 64 w) && (negb check || utf8_valid t).
Definition joined (old : list Z) (t : str) : str := match a_text old with Some o => o | None => bs "(null)" end ++ [44] ++ t.
Definition is_some {A} (x : option A) : nat := match x with Some _ => 1%nat | None => 0%nat end.
(** the parameters: the code, the map ([None]: a map without arrays), the blocks lost, other than the word,
    [at_end] of them when the function ends by itself *)
Inductive s_params (check : bool) : list str -> option str -> list str -> option amap -> outcome (Z * (option amap * nat)) -> Prop :=
| sp_end : forall cur uw a, s_params check [] cur uw a (Ret (U_OK, (a, O)))
| sp_stop : forall w fr uw a, s_params check (w :: fr) None uw a (Ret (U_OK, (a, O)))
| sp_next : forall w fr t uw a cur r, takes check w t = false -> s_word (hd_error uw) cur -> s_params check fr cur (List.tl uw) a r ->
    s_params check (w :: fr) (Some t) uw a r
| sp_no_map : forall w fr t uw, takes check w t = true -> s_params check (w :: fr) (Some t) uw None (UB NullDeref)
| sp_new : forall w fr t uw a cur r, takes check w t = true -> ~ In (tail w) (map fst a) -> tail w <> [] ->
    s_word (hd_error uw) cur -> s_params check fr cur (List.tl uw) (Some (a_put (tail w) (Some t) a)) r ->
    s_params check (w :: fr) (Some t) uw (Some a) r
| sp_nameless : forall w fr t uw a, takes check w t = true -> tail w = [] ->
    s_params check (w :: fr) (Some t) uw (Some a) (Ret (U_ERROR_MEMORY, (Some a, 3%nat)))
| sp_new_fail : forall w fr t uw a, takes check w t = true -> ~ In (tail w) (map fst a) -> sh ->
    s_params check (w :: fr) (Some t) uw (Some a) (Ret (U_ERROR_MEMORY, (Some a, 3%nat)))
| sp_more : forall w fr t uw a old cur r, takes check w t = true -> In (tail w, old) a ->
    s_word (hd_error uw) cur -> s_params check fr cur (List.tl uw) (Some (a_put (tail w) (Some (joined old t)) a)) r ->
    s_params check (w :: fr) (Some t) uw (Some a) r
| sp_more_text : forall w fr t uw a, takes check w t = true -> In (tail w) (map fst a) -> sh ->
    s_params check (w :: fr) (Some t) uw (Some a) (Ret (U_ERROR_MEMORY, (Some a, 1%nat)))
| sp_more_fail : forall w fr t uw a, takes check w t = true -> In (tail w) (map fst a) -> sh ->
    s_params check (w :: fr) (Some t) uw (Some a) (Ret (U_ERROR_MEMORY, (Some a, 4%nat))).
Inductive s_parse (check : bool) (url : str) (prefix format : option str) (a : option amap) : outcome (Z * (option amap * nat)) -> Prop :=
| sx_crash : sh -> s_parse check url prefix format a (UB NullDeref)
| sx_no_format : forall p c cur uw, copied prefix p -> s_word (hd_error (words url)) c -> s_skip (owords p) c (List.tl (words url)) cur uw -> sh -> format <> None ->
    s_parse check url prefix format a (Ret (U_ERROR_MEMORY, (a, S (is_some cur))))
| sx_params : forall p c cur uw r, copied prefix p -> s_word (hd_error (words url)) c -> s_skip (owords p) c (List.tl (words url)) cur uw ->
    s_params check (owords format) cur uw a r -> s_parse check url prefix format a r.

(** request->map_url before an endpoint is run *)
Inductive s_reset (init : amap) : outcome (option amap) -> Prop :=
| sr_all : s_reset init (Ret (Some (a_copy_into init [])))
| sr_some : forall n, sh -> s_reset init (Ret (Some (a_copy_into (firstn n init) [])))
| sr_no_arrays : sh -> init = [] -> s_reset init (Ret None)
| sr_crash : sh -> init <> [] -> s_reset init (UB NullDeref).

(** the endpoints are run *)
Inductive s_calls (check : bool) (url : str) (init : amap) : list endpoint -> outcome (list call * nat) -> Prop :=
| sc_nil : s_calls check url init [] (Ret ([], O))
| sc_reset : forall e r k, s_reset init (UB k) -> s_calls check url init (e :: r) (UB k)
| sc_crash : forall e r a k, s_reset init (Ret a) -> s_parse check url (url_prefix e) (url_format e) a (UB k) -> s_calls check url init (e :: r) (UB k)
| sc_no_callback : forall e r a x, s_reset init (Ret a) -> s_parse check url (url_prefix e) (url_format e) a (Ret x) -> callback e = None ->
    s_calls check url init (e :: r) (UB NullDeref)
| sc_end : forall e r a code b n cb, s_reset init (Ret a) -> s_parse check url (url_prefix e) (url_format e) a (Ret (code, (b, n))) -> callback e = Some cb ->
    ends cb (user_data e) = true -> s_calls check url init (e :: r) (Ret ([(cb, user_data e, code, b)], n))
| sc_next : forall e r a code b n cb x, s_reset init (Ret a) -> s_parse check url (url_prefix e) (url_format e) a (Ret (code, (b, n))) -> callback e = Some cb ->
    ends cb (user_data e) = false -> s_calls check url init r x ->
    s_calls check url init (e :: r) (do y <- x; Ret ((cb, user_data e, code, b) :: fst y, (n + snd y)%nat)).
Inductive s_serve (table : option (list endpoint)) (dflt : option endpoint) (method url : str) (init : amap) (check : bool) : outcome (list call * nat) -> Prop :=
| sv_crash : forall k, s_match table method url (UB k) -> s_serve table dflt method url init check (UB k)
| sv_null : forall r, s_match table method url (Ret r) -> s_default dflt r None -> s_serve table dflt method url init check (UB NullDeref)
| sv_calls : forall r l x, s_match table method url (Ret r) -> s_default dflt r (Some l) -> s_calls check url init l x -> s_serve table dflt method url init check x.
(** requests one after the other, with the calls of each and the blocks lost *)
Inductive s_requests (table : option (list endpoint)) (dflt : option endpoint) (init : amap) : list ask -> outcome (list (list call) * nat) -> Prop :=
| sq_nil : s_requests table dflt init [] (Ret ([], O))
| sq_crash : forall q r k, s_serve table dflt (q_method q) (q_url q) init (q_check q) (UB k) -> s_requests table dflt init (q :: r) (UB k)
| sq_next : forall q r cs n x, s_serve table dflt (q_method q) (q_url q) init (q_check q) (Ret (cs, n)) -> s_requests table dflt init r x ->
    s_requests table dflt init (q :: r) (do y <- x; Ret (cs :: fst y, (n + snd y)%nat)).
End Spec.

(** ** what qsort is assumed to do with the pointers *)
Definition sorts (order : list (nat * rep) -> list (nat * rep)) : Prop :=
  forall l, Permutation l (order l) /\ StronglySorted (fun a b => r_prio (snd a) <= r_prio (snd b)) (order l).
(** the blocks of a map, which may have no arrays *)
Definition fmap_blocks (f : fmap) : list nat :=
  array_blocks (f_keys f) ++ array_blocks (f_values f) ++ ptr_blocks (f_lengths f).
(** what is asked of the requests: the path is a C string of at most [max] bytes *)
Definition ask_ok (max : Z) (q : ask) : Prop := cstr (q_url q) /\ zlen (q_url q) <= max.
(** an endpoint that can be called, or the one that ends the table *)
Definition callable (e : endpoint) : Prop := (http_method e <> None /\ callback e <> None) \/ equals_endpoints e empty_endpoint = true.
(** no word of the format is ":" or "@" alone *)
Definition with_names (e : endpoint) : Prop := Forall (fun w => w <> [58] /\ w <> [64]) (owords (url_format e)).
Definition failed (cs : list call) : nat := List.length (filter (fun c => negb (snd (fst c) =? U_OK)) cs).
