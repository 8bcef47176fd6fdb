(** Requests that the example callback callback_static_compressed_inmemory_website serves at the same time,
    /repo/example_callbacks/static_compressed_inmemory_website/static_compressed_inmemory_website_callback.c: the cache of
    compressed files config->gzip_files (config->deflate_files is used in the same way) is read without the lock
    (346-347) and written with it (370-475). The cache is a map of MapMemModel, so that the reads go through pointers
    to blocks that u_map_put_binary may move. StaticModel describes what one request answers.
    Simplifications: one cache; the steps of the threads are taken one after the other (the memory is sequentially
    consistent); the part under the lock is one step, since only one thread runs it and the others only read; there is
    memory; the name, the path, the type of the file and the other headers are left out (StaticModel), every file may
    be opened and compressed. *)
From Coq Require Import ZArith Bool List.
From Verif Require Import Base OwnModel MapMemModel MapMemSpec.
Import ListNotations.
Open Scope Z_scope.

(** The function of the cache that runs: u_map_has_key, u_map_get, u_map_get_length (346-347); the last one knows
    the pointer that u_map_get gave. The order of the last two does not matter to C. *)
Inductive use := Has | Get | Len (v : ptr buf).
(** What a thread does next.
    [Load]: u_map.c:123, 380 and 436, it reads u_map->keys for index [i]; [Test]: it reads keys[i] through that pointer,
    and in the same step compares the name and reads the value or the length when it is the one asked for;
    [Take]: ulfius_set_binary_body_response copies [n] bytes of the value; [Miss]: it asks for the lock;
    [Done]: the callback has returned, with a body or without *)
Inductive phase :=
| Load (u : use) (i : nat)
| Test (u : use) (i : nat) (p : ptr (list (ptr str)))
| Take (v : ptr buf) (n : Z)
| Miss
| Done (b : option (list Z)).
(** the files by their names, the threads with the names they ask for *)
Record site := mk_site { w_mem : mem; w_cache : fmap; w_files : str -> option (list Z); w_threads : list (str * phase) }.

(** the end of a search: NULL was found *)
Definition absent (u : use) : phase := match u with Has => Miss | Get => Load (Len None) 0 | Len v => Take v (-1) end.
(** the end of a search: the name was found at index [i]. u_map.c:124-125, 381-386, 437-438 *)
Definition present (m : mem) (f : fmap) (u : use) (i : nat) : outcome phase :=
  match u with
  | Has => Ret (Load Get 0)
  | Get =>
      do ls <- x_deref m (f_lengths f); do n <- aget (snd ls) i;
      if 0 <? n then do vs <- x_deref m (f_values f); do v <- aget (snd vs) i; Ret (Load (Len v) 0) else Ret (Load (Len None) 0)
  | Len v => do ls <- x_deref m (f_lengths f); do n <- aget (snd ls) i; Ret (Take v n)
  end.
(** /repo/src/u_response.c ulfius_set_binary_body_response: nothing for NULL or a length of 0;
    -1 is the largest size_t, for which there is never memory *)
Definition take (m : mem) (v : ptr buf) (n : Z) : outcome (option (list Z)) :=
  match v with
  | None => Ret None
  | Some _ =>
      if n <=? 0 then Ret None else do x <- x_deref m v; do b <- read_bytes (snd x) (Z.to_nat n); Ret (Some b)
  end.

Section Zip.
(** what zlib makes of the content of a file, [None] for an error *)
Variable zip : list Z -> option (list Z).

(** one step of a thread *)
Definition go (s : site) (name : str) (ph : phase) : outcome (mem * (fmap * phase)) :=
  let m := w_mem s in
  let f := w_cache s in
  match ph with
  | Load u i => Ret (m, (f, Test u i (f_keys f)))
  | Test u i p =>
      do ks <- x_deref m p; do k <- aget (snd ks) i;
      match k with
      | None => Ret (m, (f, absent u))
      | Some _ =>
          do b <- x_key_is m (fun x => str_eqb x name) k;
          if b : bool then do ph1 <- present m f u i; Ret (m, (f, ph1)) else Ret (m, (f, Load u (S i)))
      end
  | Take v n => do b <- take m v n; Ret (m, (f, Done b))
  | Miss =>
      (* 371 fopen, 388 if (length), 389-436 the compression, 441-442 the cache and the body *)
      match w_files s name with
      | None => Ret (m, (f, Done None))
      | Some [] => Ret (m, (f, Done None))
      | Some c =>
          match zip c with
          | None => Ret (m, (f, Done None))
          | Some z =>
              do x <- x_put_binary m f (Some name) (Some (block_of z)) 0 (zlen z);
              let '(_, (m1, f1)) := x in
              do v <- x_get m1 f1 name; do n <- x_get_length m1 f1 name; do b <- take m1 v n; Ret (m1, (f1, Done b))
          end
      end
  | Done b => Ret (m, (f, Done b))
  end.

(** [Go]: the next step of a thread; [Ask]: a request arrives; [Write]: the files change *)
Inductive action := Go (t : nat) | Ask (name : str) | Write (g : str -> option (list Z)).
Definition act (s : site) (a : action) : outcome site :=
  match a with
  | Go t =>
      match nth_error (w_threads s) t with
      | None => Ret s
      | Some (name, ph) =>
          do x <- go s name ph;
          let '(m, (f, ph1)) := x in Ret (mk_site m f (w_files s) (set_nth (w_threads s) t (name, ph1)))
      end
  | Ask name => Ret (mk_site (w_mem s) (w_cache s) (w_files s) (w_threads s ++ [(name, Load Has 0)]))
  | Write g => Ret (mk_site (w_mem s) (w_cache s) g (w_threads s))
  end.
Fixpoint serve_all (s : site) (l : list action) : outcome site :=
  match l with [] => Ret s | a :: r => do s1 <- act s a; serve_all s1 r end.
End Zip.

(** u_init_compressed_inmemory_website_config:253, u_map_init of the cache *)
Definition opened_site (g : str -> option (list Z)) : outcome site :=
  do x <- x_init (mk_mem (mk_heap 0 []) [] []); Ret (mk_site (fst (snd x)) (snd (snd x)) g []).
