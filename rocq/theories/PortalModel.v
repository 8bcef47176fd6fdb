(** The endpoints of the websocket server example: /repo/example_programs/websocket_example/websocket_server.c, the callbacks 284-324 and what main puts into the instance, 84-99, run by DispatchModel. The conversations
    on the websockets are in EchoModel, UserModel and FiveModel, the contents of the files in SiteMemModel; here is which of them a request gets. *)
From Coq Require Import String ZArith Bool List.
From Verif Require Import Base UMapModel SMap RouterModel RouterSpec CookieModel DispatchModel LevelModel StaticModel SiteMemModel.
Import DispatchModel.
Import ListNotations.
Open Scope Z_scope.

Section Callbacks.
(** the url of the request; whether ulfius_set_websocket_response finds memory, per callback; the answer of the web site for the name of a file *)
Variables (http_url : str) (opens : Z -> bool) (site : str -> response -> Z * response).

(** /repo/src/ulfius.c:230-234 url_path *)
Definition portal_path : str := until 63 http_url.
(** 86 *)
Definition portal_prefix : option str := Some (bs "/static").
(** static_compressed_inmemory_website_callback.c:316-335 *)
Definition portal_name : outcome str := do s <- cut_name portal_prefix http_url; Ret (match s with [] => bs "index.html" | _ => s end).

(** the callbacks as the dispatcher calls them; the state is the names of the files looked for. The handle of a websocket is the number of its callback. *)
Definition portal_cb (f ud pos : Z) (m : umap) (r : response) (w : outcome (list str)) : Z * response * outcome (list str) :=
  if f <? 4 then
    if opens f then (U_CALLBACK_CONTINUE, mk_resp (r_status r) (r_header r) (r_cookies r) (r_body r) (r_realm r) (r_stream r) (Some f), w) else (U_CALLBACK_ERROR, r, w)
  else if 0 <? pos then (U_CALLBACK_IGNORE, r, w)
  else match portal_name with Ret s => (fst (site s r), snd (site s r), do l <- w; Ret (l ++ [s])) | UB k => (U_CALLBACK_CONTINUE, r, UB k) end.
End Callbacks.

(** 96-99 *)
Definition portal_es : list endpoint :=
  [mk_ep (Some (bs "GET")) (Some (bs "/websocket")) None 0 (Some 1) 0; mk_ep (Some (bs "GET")) (Some (bs "/websocket")) (Some (bs "/echo")) 0 (Some 2) 0; mk_ep (Some (bs "GET")) (Some (bs "/websocket")) (Some (bs "/file")) 0 (Some 3) 0;
   mk_ep (Some (bs "GET")) (Some (bs "/static")) (Some (bs "*")) 0 (Some 4) 0].
(** one request: 93 the header of every answer, no default endpoint *)
Definition portal_server (http_url : str) (opens : Z -> bool) (site : str -> response -> Z * response) (tl : Z -> Z) (qsort : list endpoint -> list endpoint) (accepts : str -> str -> bool)
    (handshake : Z -> list (str * str) + (Z * list Z)) (verb : str) (initial map_url : umap) : outcome (result (outcome (list str))) :=
  do h <- u_map_put u_map_init (Some (bs "Access-Control-Allow-Origin")) (Some (bs "*"));
  do u <- eop_run init_instance (map EAdd portal_es);
  dispatch (outcome (list str)) tl qsort (portal_cb http_url opens site) accepts handshake None (Some (snd h)) None true (portal_path http_url) initial verb (endpoint_list u) map_url (Ret []).
