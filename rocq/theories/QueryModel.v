(** Model of the functions that split the path and the query of a URL in place: /repo/src/yuarel.c:235-295. A pointer into the text is its offset, as in YuarelModel.
    The text is not NULL (for NULL both functions return -1 at once). *)
From Coq Require Import String ZArith Bool List.
From Verif Require Import Base YuarelModel.
Import ListNotations.
Open Scope Z_scope.

(** 245: while (path[0] is c) path++ *)
Fixpoint skip_go (b : buf) (c i : Z) : outcome Z :=
  match b with
  | [] => UB OutOfBounds
  | None :: _ => UB Uninit
  | Some x :: r => if x =? c then skip_go r c (i + 1) else Ret i
  end.
Definition skip (b : buf) (off c : Z) : outcome Z := skip_go (zskipn off b) c off.

(** 243-259: the loop, with the array of pointers the caller gave ([None] = not set) and the next index *)
Fixpoint split_loop (fuel : nat) (b : buf) (path : Z) (parts : list (option Z)) (i : nat) (max : Z) : outcome (Z * buf * list (option Z)) :=
  match fuel with
  | O => UB Endless
  | S fuel =>
      do path <- skip b path 47;
      do c <- load b path;
      if c =? 0 then Ret (Z.of_nat i, b, parts)
      else
        do parts <- aset parts i (Some path);
        do f <- strchr b path 47;
        match f with
        | None => Ret (Z.of_nat (S i), b, parts)
        | Some k =>
            do b <- store b k 0;
            if Z.of_nat (S i) <? max then split_loop fuel b (k + 1) parts (S i) max else Ret (Z.of_nat (S i), b, parts)
        end
  end.
(** 235-262 yuarel_split_path. Every round reads at least one character. *)
Definition split_path (b : buf) (parts : list (option Z)) (max : Z) : outcome (Z * buf * list (option Z)) :=
  do c <- load b 0;
  if c =? 0 then Ret (-1, b, parts) else split_loop (S (length b)) b 0 parts 0 max.

(** struct yuarel_param: yuarel.h:44-47; [None] = not set, Some None = NULL *)
Notation param := (option Z * option (option Z))%type (only parsing).
(** 280-282 and 288-290: the parameter [j] is split at its first equals sign *)
Definition split_param (b : buf) (params : list param) (j : nat) : outcome (buf * list param) :=
  do p <- aget params j;
  match fst p with
  | None => UB Uninit
  | Some k =>
      do f <- strchr b k 61;
      match f with
      | None => do params <- aset params j (Some k, Some None); Ret (b, params)
      | Some e => do b <- store b e 0; do params <- aset params j (Some k, Some (Some (e + 1))); Ret (b, params)
      end
  end.
(** 273-292: the loop and what follows; i >= 1 *)
Fixpoint query_loop (fuel : nat) (b : buf) (query d : Z) (params : list param) (i : nat) (max : Z) : outcome (Z * buf * list param) :=
  match fuel with
  | O => UB Endless
  | S fuel =>
      do f <- (if Z.of_nat i <? max then strchr b query d else Ret None);
      match f with
      | None => do (b, params) <- split_param b params (i - 1); Ret (Z.of_nat i, b, params)
      | Some k =>
          do b <- store b k 0;
          do params <- aset params i (Some (k + 1), Some None);
          do (b, params) <- split_param b params (i - 1);
          query_loop fuel b (k + 1) d params (S i) max
      end
  end.
(** 265-293 yuarel_parse_query; every round reads at least one character *)
Definition parse_query (b : buf) (d : Z) (params : list param) (max : Z) : outcome (Z * buf * list param) :=
  do c <- load b 0;
  if c =? 0 then Ret (-1, b, params)
  else
    do p <- aget params 0;
    do params <- aset params 0 (Some 0, snd p);
    query_loop (S (length b)) b 0 d params 1 max.
