(** The example that adds and removes endpoints while the server runs: /repo/example_programs/injection_example/injection_example.c:40-136, run by DispatchModel.
    A change of the table is made between two requests here; LiveModel has what happens when a request is being served at that moment. *)
From Coq Require Import String ZArith Bool List.
From Verif Require Import Base UMapModel SMap RouterModel RouterSpec DispatchModel DoorModel.
Import ListNotations.
Open Scope Z_scope.

(** ulfius_add_endpoint_by_val(&instance, "GET", PREFIX, format, 1, &callback, NULL); the callbacks by number, 1 for callback_first to 5 for callback_fifth *)
Definition inject_ep (format : string) (f : Z) : endpoint := mk_ep (Some (bs "GET")) (Some (bs "/inject")) (Some (bs format)) 1 (Some f) 0.
(** ulfius.c:1589-1600 ulfius_remove_endpoint_by_val makes an endpoint whose priority and user_data are not initialised: any numbers *)
Definition named_ep (format : string) (prio ud : Z) : endpoint := mk_ep (Some (bs "GET")) (Some (bs "/inject")) (Some (bs format)) prio None ud.
(** 52-54, 62, 66 and 70: what main does to the table; the first three before the server starts, then one thing each time enter is pressed *)
Definition inject_ops (prio ud : Z) : list eop :=
  [EAdd (inject_ep "/first" 1); EAdd (inject_ep "/second" 2); EAdd (inject_ep "/third" 3);
   EAdd (inject_ep "/fourth" 4); EAdd (inject_ep "/fifth" 5); ERemove (named_ep "/fourth" prio ud)].
Definition inject_table (prio ud : Z) (presses : nat) : outcome instance := eop_run init_instance (firstn (3 + presses) (inject_ops prio ud)).

(** 91-136 the five callbacks; they have no state *)
Definition inject_cb (f ud pos : Z) (m : umap) (r : response) (w : unit) : Z * response * unit :=
  let text := if f =? 1 then "Hello World from callback_first!"%string else if f =? 2 then "Hello World from callback_second!"%string
              else if f =? 3 then "Hello World from callback_third!"%string else if f =? 4 then "Hello World from callback_fourth!"%string
              else "Hello World from callback_fifth!"%string in
  (U_CALLBACK_CONTINUE, string_body r 200 (bs text), tt).

(** one request after enter was pressed so many times. No default endpoint, no default header, no realm (ulfius_init_instance(&instance, PORT, NULL, NULL)); check_utf8 is 1. *)
Definition inject (prio ud : Z) (presses : nat) (verb : str) (tl : Z -> Z) (qsort : list endpoint -> list endpoint)
    (accepts : str -> str -> bool) (handshake : Z -> list (str * str) + (Z * list Z)) (url : str) (initial map_url : umap) : outcome (result unit) :=
  do u <- inject_table prio ud presses;
  dispatch unit tl qsort inject_cb accepts handshake None None None true url initial verb (endpoint_list u) map_url tt.
