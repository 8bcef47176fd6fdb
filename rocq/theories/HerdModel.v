(** The endpoints of the sheep counter: /repo/example_programs/sheep_counter/sheep_counter.c, the callbacks 70-161 and the table of main 189-233, run by DispatchModel, one request at a time (SheepModel has several at
    once). Compression (230) and the contents of the files (233) are given: ZipMemModel and SiteMemModel describe them; here is which name the web site looks for. *)
From Coq Require Import String ZArith Bool List.
From Verif Require Import Base Dec UMapModel SMap RouterModel RouterSpec CookieModel DispatchModel DoorModel PrintModel TokenModel StaticModel SiteMemModel.
From Verif Require SheepModel.
Import DispatchModel.
Import ListNotations.
Open Scope Z_scope.

(** 81-83, 99-101, 118-120: ulfius_set_json_body_response of an object with one number, /repo/src/u_response.c:683-697; json_dumps has memory *)
Definition nbsheep (r : response) (n : Z) : outcome response :=
  do h <- u_map_put (r_header r) (Some (bs "Content-Type")) (Some (bs "application/json"));
  Ret (mk_resp 200 (snd h) (r_cookies r) ((123 :: 34 :: bs "nbsheep") ++ 34 :: 58 :: sdec n ++ [125]) (r_realm r) (r_stream r) (r_ws r)).

Section Callbacks.
(** the url of the request, its body if that is JSON, its maps, the allocations of the calls of print_map, what printf makes of NULL, compression, and the answer of the web site for a name *)
Variables (http_url : str) (body : option json) (map_header map_cookie map_post : umap) (mem : nat -> nat -> bool) (null : option str)
  (zip : response -> Z * response) (site : str -> response -> Z * response).

(** %s of what print_map gives *)
Definition argument (which : nat) (m : umap) : outcome unit :=
  do p <- print_map (mem which) (Some m);
  match p with Some b => do t <- read_cstr b; Ret tt | None => match null with Some _ => Ret tt | None => UB NullDeref end end.
(** 129-146: the text is made and released, the response is left as it is *)
Definition upload (map_url : umap) : outcome unit :=
  do a <- argument 0 map_url; do a <- argument 2 map_cookie; do a <- argument 1 map_header; argument 3 map_post.
(** 151-161 *)
Definition submit (map_url : umap) : outcome unit := do a <- argument 0 map_post; argument 1 map_url.
(** 210 *)
Definition herd_prefix : option str := Some (bs "/upload").
(** static_compressed_inmemory_website_callback.c:316-335 *)
Definition wanted : outcome str := do s <- cut_name herd_prefix http_url; Ret (match s with [] => bs "index.html" | _ => s end).

(** the callbacks as the dispatcher calls them; the state is the counter. A callback that does something undefined leaves that as the state. *)
Definition herd_cb (f ud pos : Z) (m : umap) (r : response) (w : outcome Z) : Z * response * outcome Z :=
  let count (x : outcome Z) := match (do n <- x; do r' <- nbsheep r n; Ret (r', n)) with Ret (r', n) => (U_CALLBACK_CONTINUE, r', Ret n) | UB k => (U_CALLBACK_CONTINUE, r, UB k) end in
  if f =? 1 then count (do n <- w; Ret (SheepModel.start_value body))
  else if f =? 2 then count (do n <- w; if n =? 2 ^ 63 - 1 then UB Overflow else Ret (n + 1))
  else if f =? 3 then count (do n <- w; Ret 0)
  else if f =? 4 then (fst (zip r), snd (zip r), w)
  else if f =? 5 then (U_CALLBACK_CONTINUE, r, do n <- w; do a <- upload m; Ret n)
  else if f =? 6 then (U_CALLBACK_CONTINUE, string_body r 200 (bs "Form submitted"), do n <- w; do a <- submit m; Ret n)
  else if 0 <? pos then (U_CALLBACK_IGNORE, r, w)
  else match wanted with Ret s => (fst (site s r), snd (site s r), w) | UB k => (U_CALLBACK_CONTINUE, r, UB k) end.
End Callbacks.

(** 227-233. The prefix static has no slash before it. *)
Definition herd_es : list endpoint :=
  [mk_ep (Some (bs "POST")) (Some (bs "/sheep")) None 1 (Some 1) 0; mk_ep (Some (bs "PUT")) (Some (bs "/sheep")) None 1 (Some 2) 0; mk_ep (Some (bs "DELETE")) (Some (bs "/sheep")) None 1 (Some 3) 0;
   mk_ep (Some (bs "*")) (Some (bs "/sheep")) None 2 (Some 4) 0; mk_ep (Some (bs "*")) (Some (bs "static")) (Some (bs "/upload")) 1 (Some 5) 0;
   mk_ep (Some (bs "*")) (Some (bs "static")) (Some (bs "/submit")) 1 (Some 6) 0; mk_ep (Some (bs "GET")) (Some (bs "*")) None 1 (Some 7) 0].
(** one request: no default endpoint, no header for every answer *)
Definition herd_server (http_url : str) (body : option json) (map_header map_cookie map_post : umap) (mem : nat -> nat -> bool) (null : option str) (zip : response -> Z * response) (site : str -> response -> Z * response)
    (tl : Z -> Z) (qsort : list endpoint -> list endpoint) (accepts : str -> str -> bool) (handshake : Z -> list (str * str) + (Z * list Z)) (verb url : str) (initial map_url : umap) (sheep : Z) : outcome (result (outcome Z)) :=
  do u <- eop_run init_instance (map EAdd herd_es);
  dispatch (outcome Z) tl qsort (herd_cb http_url body map_header map_cookie map_post mem null zip site) accepts handshake None None None true url initial verb (endpoint_list u) map_url (Ret sheep).
