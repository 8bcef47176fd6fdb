(** What a file server may open and what it answers (C56, C76). *)
From Coq Require Import String ZArith Bool List.
From Verif Require Import Base.
Import ListNotations.
Open Scope Z_scope.

(** a resolved path that is the directory or below it *)
Definition inside (root q : str) : Prop := q = root \/ exists t, q = root ++ bs "/" ++ t.
(** a name that can follow the slash of a URL as it is *)
Definition plain_name (s : str) : Prop := cstr s /\ s <> [] /\ hd 0 s <> 47 /\ ~ In 35 s /\ ~ In 63 s.
