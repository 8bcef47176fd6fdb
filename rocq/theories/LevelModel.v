(** The example of callbacks in cascade: /repo/example_programs/multiple_callbacks_example/multiple_callbacks_example.c:87-271 (the table of main and the nine callbacks), run by DispatchModel.
    The text that callback_multiple_level_zero hands on in response->shared_data is a block of memory; it is the state of the callbacks. *)
From Coq Require Import String ZArith Bool List.
From Verif Require Import Base UMapModel SMap RouterModel RouterSpec DispatchModel DoorModel.
Import ListNotations.
Open Scope Z_scope.

(** the blocks that are allocated, the next address, response->shared_data. An address that is not allocated any more is a dangling one. *)
Record shared := mk_shared { sh_live : list Z; sh_next : Z; sh_data : option Z }.
Definition is_live (s : shared) (a : Z) : bool := existsb (Z.eqb a) (sh_live s).
(** response->shared_data = o_strdup(..); memory does not run out *)
Definition hand_on (s : shared) : outcome shared := Ret (mk_shared (sh_next s :: sh_live s) (sh_next s + 1) (Some (sh_next s))).
(** y_log_message(.., "shared_data is %s", response->shared_data): the text is read; %s needs one *)
Definition log_shared (s : shared) : outcome shared :=
  match sh_data s with None => UB NullDeref | Some a => if is_live s a then Ret s else UB UseAfterFree end.
(** o_free(response->shared_data); the pointer stays as it is. Freeing NULL does nothing. *)
Definition free_shared (s : shared) : outcome shared :=
  match sh_data s with
  | None => Ret s
  | Some a => if is_live s a then Ret (mk_shared (filter (fun b => negb (a =? b)) (sh_live s)) (sh_next s) (sh_data s)) else UB DoubleFree
  end.

Section Callbacks.
(** request->http_verb, request->auth_basic_user, request->auth_basic_password *)
Variables (verb : str) (user password : option str).

(** 147-153 callback_multiple_level_zero *)
Definition level_zero (r : response) (s : shared) : Z * response * outcome shared :=
  (U_CALLBACK_CONTINUE, string_body r 200 (bs "Level zero"), hand_on s).
(** the five lines that begin the callbacks of levels one, two and three (158-222): the body is copied with memcpy, which may not be given NULL
    (a response without a body has NULL there), and printed with %s up to its first NUL *)
Definition add_level (text : string) (r : response) (s : shared) : response * outcome shared :=
  (string_body r 200 (c_text (r_body r) ++ [10] ++ bs text), match r_body r with [] => UB NullDeref | _ => log_shared s end).
(** 158-170, 193-205, 210-222 *)
Definition level_more (text : string) (r : response) (s : shared) : Z * response * outcome shared :=
  (U_CALLBACK_CONTINUE, fst (add_level text r s), snd (add_level text r s)).
(** 175-188 callback_multiple_level_one_complete *)
Definition level_one_complete (r : response) (s : shared) : Z * response * outcome shared :=
  (U_CALLBACK_COMPLETE, fst (add_level "Level one" r s), do s <- snd (add_level "Level one" r s); free_shared s).
(** 227-232 callback_multiple_level_final *)
Definition level_final (r : response) (s : shared) : Z * response * outcome shared := (U_CALLBACK_COMPLETE, r, free_shared s).
(** 237-251 callback_multiple_level_auth_check; the two log messages print NULL as libc does *)
Definition auth_check (r : response) (s : shared) : Z * response * outcome shared :=
  match user, password with
  | Some u, Some p =>
      if str_eqb u (bs "test") && str_eqb p (bs "testpassword") then (U_CALLBACK_CONTINUE, r, Ret s)
      else let r := if str_eqb (bs "PUT") verb then mk_resp (r_status r) (r_header r) (r_cookies r) (r_body r) (Some (bs "specific_realm")) (r_stream r) (r_ws r) else r in
           (U_CALLBACK_UNAUTHORIZED, string_body r 401 (bs "Error authentication"), Ret s)
  | _, _ =>
      let r := if str_eqb (bs "PUT") verb then mk_resp (r_status r) (r_header r) (r_cookies r) (r_body r) (Some (bs "specific_realm")) (r_stream r) (r_ws r) else r in
      (U_CALLBACK_UNAUTHORIZED, string_body r 401 (bs "Error authentication"), Ret s)
  end.
(** 256-261 callback_multiple_level_auth_data *)
Definition auth_data (r : response) (s : shared) : Z * response * outcome shared := (U_CALLBACK_CONTINUE, string_body r 200 (bs "Hello World!"), Ret s).
(** 266-271 callback_default *)
Definition level_default (r : response) (s : shared) : Z * response * outcome shared := (U_CALLBACK_CONTINUE, string_body r 404 (bs "Page not found, do what you want"), Ret s).

(** the functions by number: 0 zero, 1 one, 2 two, 3 three, 4 one_complete, 5 final, 6 auth_check, 7 auth_data, 8 default *)
Definition level (f : Z) (r : response) (s : shared) : Z * response * outcome shared :=
  if f =? 0 then level_zero r s else if f =? 1 then level_more "Level one" r s else if f =? 2 then level_more "Level two" r s
  else if f =? 3 then level_more "Level three" r s else if f =? 4 then level_one_complete r s else if f =? 5 then level_final r s
  else if f =? 6 then auth_check r s else if f =? 7 then auth_data r s else level_default r s.
(** as the dispatcher calls them; undefined behaviour stays *)
Definition levels_cb (f ud pos : Z) (m : umap) (r : response) (w : outcome shared) : Z * response * outcome shared :=
  match w with Ret s => level f r s | UB k => (fst (level f r (mk_shared [] 0 None)), UB k) end.
End Callbacks.

Definition level_ep (method format : string) (prio f : Z) : endpoint := mk_ep (Some (bs method)) (Some (bs "/multiple")) (Some (bs format)) prio (Some f) 0.
(** 104-117 the table *)
Definition level_es : list endpoint :=
  [level_ep "*" "/zero/*" 99 5;
   level_ep "GET" "/zero/*" 0 0; level_ep "GET" "/zero/one/*" 1 1; level_ep "GET" "/zero/one/two/*" 2 2; level_ep "GET" "/zero/one/two/three/" 3 3;
   level_ep "GET" "/zero/onec/*" 1 4; level_ep "GET" "/zero/onec/two/*" 2 2;
   level_ep "GET" "/auth/*" 1 6; level_ep "PUT" "/auth/*" 1 6; level_ep "*" "/auth/data/" 2 7].
(** 121 ulfius_set_default_endpoint (ulfius.c:1602-1620) *)
Definition level_dflt : endpoint := mk_ep None None None 0 (Some 8) 0.
(** one request. 95-121 of main: default_realm, the header Access-Control-Allow-Origin for every answer, the table, the default endpoint; check_utf8 is 1 after ulfius_init_instance. *)
Definition multiple (verb : str) (user password : option str) (tl : Z -> Z) (qsort : list endpoint -> list endpoint)
    (accepts : str -> str -> bool) (handshake : Z -> list (str * str) + (Z * list Z)) (url : str) (initial map_url : umap) (w : outcome shared) : outcome (result (outcome shared)) :=
  do u <- eop_run init_instance (map EAdd level_es);
  do h <- u_map_put u_map_init (Some (bs "Access-Control-Allow-Origin")) (Some (bs "*"));
  dispatch (outcome shared) tl qsort (levels_cb verb user password) accepts handshake (Some level_dflt) (Some (snd h)) (Some (bs "default_realm")) true url initial verb (endpoint_list u) map_url w.
