(** What sending and message lists should do. *)
From Coq Require Import ZArith Bool List.
From Verif Require Import Base WsFrameModel WsSendModel.
Import ListNotations.
Open Scope Z_scope.

(** the pieces [cs] are the beginning of [f] *)
Definition beginning (cs : list buf) (f : buf) : Prop := exists rest, f = concat cs ++ rest.

(** a socket that accepts at least one byte each time *)
Definition willing (e : wev) : Prop := e_poll e = WReady /\ exists n, e_ret e = Some n /\ 0 < n.

(** no piece of another message between two pieces of the same message *)
Definition contiguous {A} (l : list (nat * nat * A)) : Prop :=
  forall a x b y c, l = a ++ x :: b ++ y :: c -> fst x = fst y -> Forall (fun z => fst z = fst x) b.

(** a queue *)
Fixpoint queue (q : list Z) (ops : list lop) : list (option Z) * list Z :=
  match ops with
  | [] => ([], q)
  | LPush m :: r => queue (q ++ [m]) r
  | LPop :: r => match q with
                 | [] => let '(x, q) := queue [] r in (None :: x, q)
                 | m :: q => let '(x, q) := queue q r in (Some m :: x, q)
                 end
  end.
