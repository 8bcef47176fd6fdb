(** The authentication example: /repo/example_programs/auth_example/auth_server.c:72-158, a callback that lets no one in without the password, in front of another one. *)
From Coq Require Import String ZArith Bool List.
From Verif Require Import Base UMapModel DispatchModel RouterModel RouterSpec.
Import ListNotations.
Open Scope Z_scope.

(** ulfius_set_string_body_response (u_response.c:461-482): status and body; the text is copied *)
Definition string_body (r : response) (status : Z) (text : str) : response :=
  mk_resp status (r_header r) (r_cookies r) text (r_realm r) (r_stream r) (r_ws r).

Section Server.
(** request->auth_basic_user, request->auth_basic_password *)
Variables (user password : option str).
(** request->client_cert: NULL, or the two names gnutls writes for it. Both sizes are those gnutls asks for, so the names are whole. *)
Variable cert : option (str * str).

(** 72-84 callback_auth_basic_body *)
Definition auth_basic_body (r : response) : Z * response :=
  match user, password with
  | Some u, Some p => if str_eqb u (bs "test") && str_eqb p (bs "testpassword") then (U_CALLBACK_CONTINUE, r)
                      else (U_CALLBACK_UNAUTHORIZED, string_body r 401 (bs "Error authentication"))
  | _, _ => (U_CALLBACK_UNAUTHORIZED, string_body r 401 (bs "Error authentication"))
  end.
(** 89-94 callback_auth_basic *)
Definition auth_basic (r : response) : Z * response := (U_CALLBACK_CONTINUE, string_body r 200 (bs "Basic auth callback")).
(** 100-128 callback_auth_client_cert; memory does not run out *)
Definition auth_client_cert (r : response) : Z * response :=
  (U_CALLBACK_CONTINUE,
   match cert with
   | Some (dn, issuer) => string_body r 200 (bs "client dn: '" ++ dn ++ bs "', ussued by: '" ++ issuer ++ bs "'")
   | None => string_body r 400 (bs "Invalid client certificate")
   end).
(** the functions by number: 1 callback_auth_basic_body, 2 callback_auth_basic, 3 callback_auth_client_cert *)
Definition door (f ud pos : Z) (m : umap) (r : response) (w : unit) : Z * response * unit :=
  if f =? 1 then (auth_basic_body r, w) else if f =? 2 then (auth_basic r, w) else (auth_client_cert r, w).
End Server.

Definition door_ep (format : string) (prio f : Z) : endpoint := mk_ep (Some (bs "GET")) (Some (bs "/auth")) (Some (bs format)) prio (Some f) 0.
(** 142-150 the table; [certs]: argc > 3. user_data is left out, the callbacks only log it. *)
Definition door_ops (certs : bool) : list eop :=
  [EAdd (door_ep "/basic" 0 1); EAdd (door_ep "/basic" 1 2); EAdd (door_ep "/default" 1 2); EAdd (door_ep "/default" 0 1)]
  ++ (if certs then [EAdd (door_ep "/client_cert" 0 3)] else []).
(** one request; ulfius_init_instance(.., "auth_basic_default") gives the realm, an empty map of headers, no default endpoint and check_utf8 *)
Definition auth_server (certs : bool) (user password : option str) (cert : option (str * str)) (tl : Z -> Z) (qsort : list endpoint -> list endpoint)
    (accepts : str -> str -> bool) (handshake : Z -> list (str * str) + (Z * list Z)) (url : str) (initial : umap) (method : str) (map_url : umap) : outcome (result unit) :=
  do u <- eop_run init_instance (door_ops certs);
  dispatch unit tl qsort (door user password cert) accepts handshake None (Some u_map_init) (Some (bs "auth_basic_default")) true url initial method (endpoint_list u) map_url tt.
