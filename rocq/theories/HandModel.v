(** Model of the shared data of a response, through the callbacks of one request to its end: u_response.c:664-676 ulfius_set_response_shared_data, glewlwyd_resource.c:212, iddawc_resource.c:170, 183,
    oidc_resource.c:225-237, ulfius.c:1036-1038. Objects have addresses and a way to be released (o_free, json_decref, ...), a number; 0 is json_decref. *)
From Coq Require Import ZArith Bool List.
From Verif Require Import Base.
Import ListNotations.
Open Scope Z_scope.

Record hand := mk_hand { h_live : list (Z * Z); h_next : Z; h_data : option Z; h_free : option Z }.
(** a response as ulfius_init_response leaves it, with the objects [live] of others *)
Definition empty_hand (live : list (Z * Z)) (next : Z) : hand := mk_hand live next None None.
(** the function [f] called with the address [a]: its object has to be there, and of the kind that [f] releases *)
Definition release (live : list (Z * Z)) (f a : Z) : outcome (list (Z * Z)) :=
  match find (fun x => fst x =? a) live with
  | None => UB DoubleFree
  | Some x => if snd x =? f then Ret (filter (fun y => negb (fst y =? a)) live) else UB BadArgument
  end.
(** a new object of this kind *)
Definition make (h : hand) (kind : Z) : Z * hand := (h_next h, mk_hand ((h_next h, kind) :: h_live h) (h_next h + 1) (h_data h) (h_free h)).
(** u_response.c:664-676 with shared_data != NULL *)
Definition set_shared (h : hand) (a : Z) (f : option Z) : outcome hand :=
  do live <- match h_free h, h_data h with Some g, Some b => release (h_live h) g b | _, _ => Ret (h_live h) end;
  Ret (mk_hand live (h_next h) (Some a) f).
(** what a callback does: [Given kind]: an object of its own, with the function that releases it; [Token]: the callbacks of glewlwyd_resource.c and iddawc_resource.c let the request in; [Profile]: the one of oidc_resource.c
    does, [NoSubject]: it lets in a token without "sub", json_pack gives NULL; [Nothing] *)
Inductive deed := Given (kind : Z) | Token | Profile | NoSubject | Nothing.
Definition do_deed (h : hand) (d : deed) : outcome hand :=
  match d with
  | Given k => let (a, h) := make h k in set_shared h a (Some k)
  | Token => let (a, h) := make h 0 in set_shared h a (Some 0)
  | Profile => let (a, h) := make h 0 in Ret (mk_hand (h_live h) (h_next h) (Some a) (h_free h))
  | NoSubject => Ret (mk_hand (h_live h) (h_next h) None (h_free h))
  | Nothing => Ret h
  end.
Fixpoint deeds (h : hand) (l : list deed) : outcome hand := match l with [] => Ret h | d :: r => do h <- do_deed h d; deeds h r end.
(** a request: the callbacks, then ulfius.c:1036-1038. The objects that are left, the next address. *)
Definition one_request (live : list (Z * Z)) (next : Z) (l : list deed) : outcome (list (Z * Z) * Z) :=
  do h <- deeds (empty_hand live next) l;
  do live <- match h_free h, h_data h with Some f, Some a => release (h_live h) f a | _, _ => Ret (h_live h) end;
  Ret (live, h_next h).
Fixpoint requests (live : list (Z * Z)) (next : Z) (ls : list (list deed)) : outcome (list (Z * Z)) :=
  match ls with [] => Ret live | l :: r => do x <- one_request live next l; requests (fst x) (snd x) r end.
