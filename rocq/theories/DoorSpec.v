(** Specification vocabulary for guards: an endpoint in front of another one. *)
From Coq Require Import String ZArith Bool List.
From Verif Require Import Base RouterModel RouterSpec DispatchModel DispatchSpec.
Import ListNotations.
Open Scope Z_scope.

(** every request meant for [p] is meant for [g] too *)
Definition covers (g p : endpoint) : Prop := forall method url, selected method url p -> selected method url g.

(** the callback of [g] ends the request, whatever it is given *)
Definition refuses {W} (cb : Z -> Z -> Z -> UMapModel.umap -> response -> W -> Z * response * W) (g : endpoint) : Prop :=
  forall f pos m r w, callback g = Some f -> let code := fst (fst (cb f (user_data g) pos m r w)) in code <> U_CALLBACK_CONTINUE /\ code <> U_CALLBACK_IGNORE.

(** a path of the server *)
Definition asks_for (method url : str) (a b : str) : Prop := lowers method = bs "get" /\ segs url [a; b].
(** the right user and password *)
Definition right (user password : option str) : Prop := user = Some (bs "test") /\ password = Some (bs "testpassword").
