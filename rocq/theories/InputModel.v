(** Model of the code that turns what libmicrohttpd delivers into the request structure:
    /repo/src/ulfius.c:64-134 (query, header and cookie pairs), 332-424 (form pieces) and
    561-589 (body chunks). Allocation succeeds. *)
From Coq Require Import String ZArith Bool List.
From Verif Require Import Base UMapModel Utf8Model SMap.
Import ListNotations.
Open Scope Z_scope.

(** ** key/value pairs *)

(** ulfius.c:67-100 ulfius_fill_map_check_utf8 ([check] = true) and 102-134 ulfius_fill_map
    ([check] = false). The result is (MHD_YES?, map). *)
Definition fill_map (check : bool) (m : umap) (key value : option str) : outcome (bool * umap) :=
  match key with
  | None => Ret (false, m)
  | Some k =>
      if negb check || (utf8_valid k && match value with Some v => utf8_valid v | None => true end) then
        let v := match value with Some v => v | None => [] end in
        do p <- u_map_get m (Some k);
        do o <- deref_cstr p;
        do r <- match o with
                | Some old => u_map_put m (Some k) (Some (old ++ [44] ++ v))
                | None => u_map_put m (Some k) (Some v)
                end;
        Ret (fst r =? U_OK, snd r)
      else Ret (true, m)
  end.

(** MHD_get_connection_values: the iterator is called for each pair until it returns MHD_NO *)
Fixpoint fill_all (check : bool) (m : umap) (pairs : list (option str * option str)) : outcome umap :=
  match pairs with
  | [] => Ret m
  | (k, v) :: r => do x <- fill_map check m k v; if fst x : bool then fill_all check (snd x) r else Ret (snd x)
  end.

(** ** request body *)

(** request->binary_body (the empty block stands for NULL) and binary_body_length *)
Record body := mk_body { binary_body : buf; binary_body_length : Z }.

(** ulfius.c:561-589, one call with *upload_data_size <> 0; [max] = max_post_body_size. The
    result also says what is left in *upload_data_size. size_t sums wrap. *)
Definition body_call (max : Z) (b : body) (data : list Z) : outcome (Z * body) :=
  let size := zlen data in
  let sum := add64 (binary_body_length b) size in
  let over := (0 <? max) && (max <? sum) in
  let body_len := if over then max else sum in
  let current := if over then (max - binary_body_length b) mod two64 else size in
  if binary_body_length b <=? body_len then
    do nb <- memcpy (realloc (binary_body b) body_len) (binary_body_length b) (block_of data) current;
    Ret (0, mk_body nb (add64 (binary_body_length b) current))
  else Ret (size, b).

Fixpoint body_calls (max : Z) (b : body) (chunks : list (list Z)) : outcome body :=
  match chunks with
  | [] => Ret b
  | c :: r => do x <- body_call max b c; body_calls max (snd x) r
  end.

(** ** form parameters *)

(** ulfius.c:387-392: the file name goes under <key>_filename unless that key is taken *)
Definition put_filename (m : umap) (key : str) (filename : option str) : outcome umap :=
  match filename with
  | Some f =>
      do h <- u_map_has_key m (Some (key ++ bs "_filename"));
      if h : bool then Ret m else do r <- u_map_put m (Some (key ++ bs "_filename")) (Some f); Ret (snd r)
  | None => Ret m
  end.

(** ulfius.c:361-424 mhd_iterate_post_data without file_upload_callback. [max] =
    max_post_param_size; off is unsigned 64 bit. The result is (MHD_YES?, map_post_body). *)
Definition iterate_post (check : bool) (max : Z) (m : umap) (key : str) (filename : option str)
  (data : option (list Z)) (off size : Z) : outcome (bool * umap) :=
  if check && negb (utf8_valid key && match data with Some d => utf8_valid (zfirstn size d) | None => false end
                    && match filename with Some f => utf8_valid f | None => true end)
  then Ret (true, m)
  else if (0 <? max) && (max <? off) then Ret (true, m)
  else
    let data_size := if (0 <? max) && (max <? add64 off size) then max - off else size in
    do m1 <- put_filename m key filename;
    let blk := match data with Some d => Some (block_of d) | None => None end in
    do cur <- u_map_get m1 (Some key);
    match cur with
    | Some _ =>
        do cs <- u_map_get_length m1 (Some key);
        if 0 <=? cs then
          if negb (off =? 0) then
            do r <- u_map_put_binary m1 (Some key) blk cs data_size; Ret (fst r =? U_OK, snd r)
          else
            do r <- u_map_put_binary m1 (Some key) (Some (block_of [44; 0])) cs 1;
            if fst r =? U_OK then
              do r2 <- u_map_put_binary (snd r) (Some key) blk (cs + 1) data_size; Ret (fst r2 =? U_OK, snd r2)
            else Ret (false, snd r)
        else Ret (false, m1)
    | None => do r <- u_map_put_binary m1 (Some key) blk 0 data_size; Ret (fst r =? U_OK, snd r)
    end.

(** MHD_post_process: the pieces of one value in order, each with its offset; stops at MHD_NO *)
Fixpoint post_pieces (check : bool) (max : Z) (m : umap) (key : str) (filename : option str) (off : Z)
  (pieces : list (list Z)) : outcome (bool * umap) :=
  match pieces with
  | [] => Ret (true, m)
  | p :: r =>
      do x <- iterate_post check max m key filename (Some p) off (zlen p);
      if fst x : bool then post_pieces check max (snd x) key filename (off + zlen p) r else Ret x
  end.

(** a whole form: its parameters (name, file name, pieces) in order *)
Fixpoint post_form (check : bool) (max : Z) (m : umap) (params : list (str * option str * list (list Z)))
  : outcome (bool * umap) :=
  match params with
  | [] => Ret (true, m)
  | (k, f, ps) :: r =>
      do x <- post_pieces check max m k f 0 ps;
      if fst x : bool then post_form check max (snd x) r else Ret x
  end.
