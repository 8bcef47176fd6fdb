(** The server of the request example: /repo/example_programs/request_example/server.c:59-99, one endpoint for everything under /curl, run by DispatchModel. It answers and prints the request. *)
From Coq Require Import String ZArith Bool List.
From Verif Require Import Base UMapModel SMap RouterModel RouterSpec CookieModel DispatchModel DoorModel PrintModel ShowModel.
Import ListNotations.
Open Scope Z_scope.

(** o_strstr(s, sub) != NULL *)
Fixpoint prefixes (sub s : str) : bool := match sub, s with [], _ => true | a :: sub, b :: s => (a =? b) && prefixes sub s | _ :: _, [] => false end.
Fixpoint strstr (s sub : str) : bool := prefixes sub s || match s with [] => false | _ :: s => strstr s sub end.

Section Callback.
(** request->http_verb, http_url, map_header, map_cookie, map_post_body, binary_body and its length; the bytes left on the stack; which allocations of the four calls of print_map succeed;
    what printf makes of NULL for %s: nothing is defined (C 7.21.6.1), glibc prints (null) *)
Variables (verb http_url : str) (map_header map_cookie map_post : umap) (body : list Z) (stack : Z) (mem : nat -> nat -> bool) (null : option str).

Definition shows (which : nat) (m : umap) : outcome str :=
  do p <- print_map (mem which) (Some m);
  match p with Some b => read_cstr b | None => match null with Some t => Ret t | None => UB NullDeref end end.
(** 60-64 and 71-72: the text on the console. ShowModel has the array for the body, which is on the stack. The four maps are printed to text before the array is made. user_data is NULL (95). *)
Definition told (map_url : umap) : outcome str :=
  do u <- shows 0 map_url; do c <- shows 2 map_cookie; do h <- shows 1 map_header; do p <- shows 3 map_post;
  do b <- body_text stack (match body with [] => None | _ => Some (block_of body) end) (zlen body);
  do d <- match null with Some t => Ret t | None => UB NullDeref end;
  Ret (bs "######################################################" ++ [10] ++ bs "###################### Callback ######################" ++ [10] ++ bs "######################################################" ++ [10; 10] ++ 
       bs "Method is " ++ verb ++ [10] ++ bs "  url is " ++ http_url ++ [10; 10] ++ bs "  parameters from the url are " ++ [10] ++ u ++ [10; 10] ++ bs "  cookies are " ++ [10] ++ c ++ [10; 10] ++
       bs "  headers are " ++ [10] ++ h ++ [10; 10] ++ bs "  post parameters are " ++ [10] ++ p ++ [10; 10] ++ bs "  raw body is " ++ [10] ++ b ++ [10; 10] ++ bs "  user data is " ++ d ++ [10; 10]).
(** 65-70, 74-76: the answer *)
Definition tell_response (r : response) : outcome response :=
  let r := if strstr http_url (bs "limit") then string_body r 200 (bs "This is a large body response that should be truncated by the client") else string_body r 200 (bs "ok") in
  do x <- add_cookie (mk_jar (map Some (r_cookies r)) (length (r_cookies r))) (mk_args (Some (bs "cook")) (Some (bs "ie")) None 5000 None None 0 0 0);
  do h <- u_map_put (r_header r) (Some (bs "multiple-key")) (Some (bs "value 1"));
  do h <- u_map_put (snd h) (Some (bs "Multiple-Key")) (Some (bs "value 2"));
  Ret (mk_resp 200 (snd h) (flat_map (fun o => match o with Some c => [c] | None => [] end) (firstn (nb_cookies (snd x)) (CookieModel.map_cookie (snd x)))) (r_body r) (r_realm r) (r_stream r) (r_ws r)).
(** the callback as the dispatcher calls it; the state is what is on the console *)
Definition tell_cb (f ud pos : Z) (m : umap) (r : response) (w : outcome (list str)) : Z * response * outcome (list str) :=
  match tell_response r with
  | UB k => (U_CALLBACK_CONTINUE, r, UB k)
  | Ret r' => (U_CALLBACK_CONTINUE, r', do l <- w; do t <- told m; Ret (l ++ [t]))
  end.
End Callback.

(** 95 the table, and one request: no default endpoint, no header for every answer, no realm *)
Definition tell_ep : endpoint := mk_ep (Some (bs "*")) (Some (bs "/curl")) (Some (bs "*")) 0 (Some 1) 0.
Definition tell_server (verb http_url : str) (map_header map_cookie map_post : umap) (body : list Z) (stack : Z) (mem : nat -> nat -> bool) (null : option str) (tl : Z -> Z) (qsort : list endpoint -> list endpoint)
    (accepts : str -> str -> bool) (handshake : Z -> list (str * str) + (Z * list Z)) (url : str) (initial map_url : umap) (console : list str) : outcome (result (outcome (list str))) :=
  do u <- eop_run init_instance [EAdd tell_ep];
  dispatch (outcome (list str)) tl qsort (tell_cb verb http_url map_header map_cookie map_post body stack mem null) accepts handshake None None None true url initial verb (endpoint_list u) map_url (Ret console).
