(** The texts the example programs make of a map and of a counter: print_map, the same function in /repo/example_programs/simple_example/simple_example.c:49-77, sheep_counter/sheep_counter.c:36-64,
    multiple_callbacks_example/multiple_callbacks_example.c:57-85, request_example/client.c:29-57, request_example/server.c:26-54 and test_u_map/test_u_map.c:23-51, and two callbacks of
    simple_example.c. *)
From Coq Require Import String ZArith Bool List.
From Verif Require Import Base Dec UMapModel SMap StrModel YuarelModel.
Import ListNotations.
Open Scope Z_scope.

Definition INT_MAX : Z := 2147483647.
(** n + 1 in int *)
Definition incr_int (n : Z) : outcome Z := if n =? INT_MAX then UB Overflow else Ret (n + 1).
(** strcat: the end of the text in dst is looked for, then src and its NUL are written there *)
Definition strcat (dst : buf) (src : str) : outcome buf := do s <- read_cstr dst; memcpy dst (zlen s) (cblock src) (zlen src + 1).
(** what snprintf says of a text: its length, negative when it is no int *)
Definition snprintf_len (text : str) : Z := if zlen text <=? INT_MAX then zlen text else -1.
(** snprintf(dst, n, ..) for a block of n bytes: it writes nothing when its result is negative *)
Definition snprintf_into (dst : buf) (n : Z) (text : str) : outcome buf :=
  if zlen text <=? INT_MAX then (if n =? 0 then Ret dst else let t := zfirstn (n - 1) text in memcpy dst 0 (cblock t) (zlen t + 1)) else Ret dst.

Section Print.
(** whether the allocation number i succeeds: two for each pair *)
Variable mem : nat -> bool.
(** the loop; [acc]: to_return. %s of NULL is undefined (C 7.21.6.1), whatever glibc prints for it. *)
Fixpoint print_go (m : umap) (ks : list (option str)) (i : nat) (acc : option buf) : outcome (option buf) :=
  match ks with
  | [] => UB OutOfBounds
  | None :: _ => Ret acc
  | Some k :: r =>
      do v <- get_str m k;
      match v with
      | None => UB NullDeref
      | Some v =>
          let text := bs "key is " ++ k ++ bs ", value is " ++ v in
          do n <- incr_int (snprintf_len text);
          if mem (2 * i)%nat then
            do line <- snprintf_into (malloc n) n text;
            do l <- read_cstr line;
            do b <- match acc with
                    | Some b =>
                        do s <- read_cstr b;
                        do n2 <- incr_int (to_int (zlen s + zlen l + 1));
                        if (0 <? n2) && mem (2 * i + 1)%nat then
                          let b1 := realloc b n2 in
                          do s1 <- read_cstr b1;
                          if 0 <? zlen s1 then strcat b1 [10] else Ret b1
                        else UB NullDeref
                    | None => if mem (2 * i + 1)%nat then store (malloc (zlen l + 1)) 0 0 else UB NullDeref
                    end;
            do b <- strcat b l;
            print_go m r (S i) (Some b)
          else UB NullDeref
      end
  end.
(** print_map; u_map_enum_keys gives map->keys. A negative size is a huge size_t, which o_realloc does not get. *)
Definition print_map (m : option umap) : outcome (option buf) :=
  match m with Some m => print_go m (keys m) 0 None | None => Ret None end.

(** simple_example.c:187-195 callback_post_test: the text of the answer, msprintf("Hello World!\n%s", post_params) *)
Definition post_test (m : umap) : outcome str :=
  do p <- print_map (Some m);
  match p with Some b => do s <- read_cstr b; Ret (bs "Hello World!" ++ [10] ++ s) | None => UB NullDeref end.
End Print.

(** simple_example.c:223-245 callback_get_cookietest: the new counter. snprintf(new_counter, 32, "%d", ..) has room for every int. *)
Definition cookietest (counter : option str) : outcome str :=
  do i <- match counter with None => Ret 0 | Some c => incr_int (to_int (strtol c)) end;
  Ret (zfirstn 31 (sdec i)).
