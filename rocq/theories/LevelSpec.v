(** Specification vocabulary for the example of callbacks in cascade (its README.md): the pages it promises. *)
From Coq Require Import String ZArith Bool List.
From Verif Require Import Base RouterSpec DispatchModel.
Import ListNotations.
Open Scope Z_scope.

(** what the levels say for the path /multiple/zero/rest *)
Definition said (rest : list str) : list string :=
  "Level zero"%string ::
  match rest with
  | [] => []
  | w :: r =>
      if str_eqb w (bs "onec") then ["Level one"%string]
      else if str_eqb w (bs "one") then
        "Level one"%string ::
        match r with
        | [] => []
        | w :: r =>
            if str_eqb w (bs "two") then
              "Level two"%string :: match r with [w] => if str_eqb w (bs "three") then ["Level three"%string] else [] | _ => [] end
            else []
        end
      else []
  end.
(** line by line *)
Fixpoint lines (l : list string) : str := match l with [] => [] | [x] => bs x | x :: r => bs x ++ [10] ++ lines r end.

(** the user of the example *)
Definition knows (user password : option str) : Prop := user = Some (bs "test") /\ password = Some (bs "testpassword").
Definition is_get (verb : str) : Prop := lowers verb = bs "get".
Definition is_put (verb : str) : Prop := lowers verb = bs "put".

(** an answer: the page, with the header of the example *)
Definition open_to_all : list (str * str) := [(bs "Access-Control-Allow-Origin", bs "*")].
Definition says (status : Z) (text : str) : answer := Queue status (mk_mhd (CBuffer text) open_to_all).
Definition wants_password (realm : string) : answer := QueueBasic (bs realm) (mk_mhd (CBuffer (bs "Error authentication")) open_to_all).
