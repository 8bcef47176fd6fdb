(** The simple example: /repo/example_programs/simple_example/simple_example.c:115-132 (what main puts into the instance) and 167-253 (its six callbacks), run by DispatchModel.
    print_map, the text of callback_post_test and the counter of callback_get_cookietest are those of PrintModel. *)
From Coq Require Import String ZArith Bool List.
From Verif Require Import Base UMapModel SMap RouterModel RouterSpec CookieModel DispatchModel DoorModel PrintModel.
Import ListNotations.
Open Scope Z_scope.

Section Callbacks.
(** request->http_verb, http_url, map_header, map_cookie, map_post_body; the text of inet_ntoa; which allocations of the four calls of print_map succeed (msprintf has memory) *)
Variables (verb http_url : str) (map_header map_cookie map_post : umap) (address : str) (mem : nat -> nat -> bool).

(** the text of a map as %s prints it: NULL there is undefined (C 7.21.6.1), whatever glibc prints for it *)
Definition shown (which : nat) (m : umap) : outcome str :=
  do p <- print_map (mem which) (Some m);
  match p with Some b => read_cstr b | None => UB NullDeref end.
(** the user data of the table: 0 is NULL *)
Definition user_text (ud : Z) : outcome str :=
  if ud =? 1 then Ret (bs "user data 1") else if ud =? 2 then Ret (bs "user data 2") else if ud =? 3 then Ret (bs "user data 3") else if ud =? 4 then Ret (bs "user data 4") else UB NullDeref.
(** 200-217 callback_all_test_foo: the text; the variant for Windows is left out *)
Definition foo_text (ud : Z) (map_url : umap) : outcome str :=
  do u <- shown 0 map_url; do h <- shown 1 map_header; do c <- shown 2 map_cookie; do p <- shown 3 map_post; do d <- user_text ud;
  Ret (bs "Hello World!" ++ [10; 10] ++ bs "  method is " ++ verb ++ [10] ++ bs "  url is " ++ http_url ++ [10; 10] ++ bs "  parameters from the url are " ++ [10] ++ u ++ [10; 10] ++
       bs "  cookies are " ++ [10] ++ c ++ [10; 10] ++ bs "  headers are " ++ [10] ++ h ++ [10; 10] ++ bs "  post parameters are " ++ [10] ++ p ++ [10; 10] ++
       bs "  user data is " ++ d ++ [10; 10] ++ bs "client address is " ++ address ++ [10; 10]).
(** ulfius_add_cookie_to_response(response, key, value, NULL, 0, NULL, NULL, 0, 0) *)
Definition set_cookie (r : response) (key : str) (value : option str) : outcome response :=
  do x <- add_cookie (mk_jar (map Some (r_cookies r)) (length (r_cookies r))) (mk_args (Some key) value None 0 None None 0 0 0);
  Ret (mk_resp (r_status r) (r_header r) (flat_map (fun o => match o with Some c => [c] | None => [] end) (firstn (nb_cookies (snd x)) (CookieModel.map_cookie (snd x)))) (r_body r) (r_realm r) (r_stream r) (r_ws r)).
(** 223-243 callback_get_cookietest *)
Definition cookie_page (map_url : umap) (r : response) : outcome response :=
  do lang <- get_str map_url (bs "lang"); do extra <- get_str map_url (bs "extra"); do counter <- get_str map_cookie (bs "counter");
  do new <- cookietest counter;
  do r <- set_cookie r (bs "lang") lang; do r <- set_cookie r (bs "extra") extra; do r <- set_cookie r (bs "counter") (Some new);
  Ret (string_body r 200 (bs "Cookies set!")).

(** the six functions by number: 1 get_test (167-172), 2 get_empty_response (177-182), 3 post_test (187-195), 4 all_test_foo, 5 get_cookietest, 6 default (248-253) *)
Definition simple (f ud : Z) (map_url : umap) (r : response) : outcome response :=
  if f =? 1 then Ret (string_body r 200 (bs "Hello World!"))
  else if f =? 2 then Ret r
  else if f =? 3 then do t <- post_test (mem 3%nat) map_post; Ret (string_body r 200 t)
  else if f =? 4 then do t <- foo_text ud map_url; Ret (string_body r 200 t)
  else if f =? 5 then cookie_page map_url r
  else Ret (string_body r 404 (bs "Page not found, do what you want")).
(** as the dispatcher calls them: all return U_CALLBACK_CONTINUE; the state says whether something undefined happened *)
Definition simple_cb (f ud pos : Z) (m : umap) (r : response) (w : outcome unit) : Z * response * outcome unit :=
  match w with
  | UB k => (U_CALLBACK_CONTINUE, r, UB k)
  | Ret _ => match simple f ud m r with Ret r' => (U_CALLBACK_CONTINUE, r', Ret tt) | UB k => (U_CALLBACK_CONTINUE, r, UB k) end
  end.
End Callbacks.

(** 121-129 the table; PREFIX is "/test", PREFIXCOOKIE is "/testcookie" *)
Definition simple_ep (method prefix : string) (format : option string) (f ud : Z) : endpoint :=
  mk_ep (Some (bs method)) (Some (bs prefix)) (option_map bs format) 0 (Some f) ud.
Definition simple_es : list endpoint :=
  [simple_ep "GET" "/test" None 1 0; simple_ep "GET" "/test" (Some "/empty"%string) 2 0; simple_ep "GET" "/test" (Some "/multiple/:multiple/:multiple/:not_multiple"%string) 4 0;
   simple_ep "POST" "/test" None 3 0;
   simple_ep "GET" "/test" (Some "/param/:foo"%string) 4 1; simple_ep "POST" "/test" (Some "/param/:foo"%string) 4 2; simple_ep "PUT" "/test" (Some "/param/:foo"%string) 4 3; simple_ep "DELETE" "/test" (Some "/param/:foo"%string) 4 4;
   simple_ep "GET" "/testcookie" (Some "/:lang/:extra"%string) 5 0].
(** 132 *)
Definition simple_dflt : endpoint := mk_ep None None None 0 (Some 6) 0.
(** one request; 115: the header for every answer. max_post_body_size (118) is a matter of the body that comes before (InputModel). *)
Definition simple_server (verb http_url : str) (map_header map_cookie map_post : umap) (address : str) (mem : nat -> nat -> bool) (tl : Z -> Z) (qsort : list endpoint -> list endpoint)
    (accepts : str -> str -> bool) (handshake : Z -> list (str * str) + (Z * list Z)) (url : str) (initial map_url : umap) : outcome (result (outcome unit)) :=
  do u <- eop_run init_instance (map EAdd simple_es);
  do h <- u_map_put u_map_init (Some (bs "Access-Control-Allow-Origin")) (Some (bs "*"));
  dispatch (outcome unit) tl qsort (simple_cb verb http_url map_header map_cookie map_post address mem) accepts handshake (Some simple_dflt) (Some (snd h)) None true url initial verb (endpoint_list u) map_url (Ret tt).
