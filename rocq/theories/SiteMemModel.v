(** The memory and the open files of the example callback that serves a compressed web site,
    example_callbacks/static_compressed_inmemory_website/static_compressed_inmemory_website_callback.c:137-234 and 298-505: the copy of the url, the paths, the list of
    encodings, the open files, the contents, the zlib stream, the entries of the caches, the body and the header Content-Encoding of the
    response are blocks of the heap, and an allocation may fail. StaticModel describes the values.
    Simplifications: an open file, a zlib stream, an entry of a cache, a header and an array of split_string are one block each; the other headers are left out; the
    mutex is always obtained and one request is served after another (C102 treats several at a time); the response has neither body
    nor stream before. *)
From Coq Require Import String ZArith Bool List.
From Verif Require Import Base UMapModel StrModel StaticModel OwnModel MapMemModel MapMemSpec RespMemModel DefMemModel.
Import ListNotations.
Open Scope Z_scope.

(** the file system while a request is served: realpath, and for a file that can be opened the number that ftell gives at its end and the bytes that can be read. They differ
    for a directory, which Linux opens for reading, and for a file that is truncated meanwhile. *)
Record fsystem := mk_fs { fs_real : str -> option str; fs_open : str -> option (Z * list Z) }.
(** struct _u_compressed_inmemory_website_config, static_compressed_inmemory_website_callback.h; [g_squeeze]: whether the content type for the name of a file is in
    mime_types_compressed *)
Record gconfig := mk_gconfig { g_root : option str; g_prefix : option str; g_redirect : option str; g_gzip : bool; g_deflate : bool; g_cache : bool; g_squeeze : str -> bool }.
(** callback_position, http_url, the header Accept-Encoding, whether the response has a Content-Encoding *)
Record greq := mk_greq { q_pos : Z; q_url : str; q_accept : option str; q_encoded : bool }.
(** what is put in the response: what the callback returns, the status (0: not set), the body, the header Content-Encoding, the file that is streamed *)
Record gresp := mk_gresp { p_ret : Z; p_status : Z; p_body : ptr (list Z); p_encoding : ptr bool; p_file : ptr (Z * list Z) }.
(** config->gzip_files and config->deflate_files *)
Definition gcache := list (str * (nat * list Z)).
Record site := mk_site { t_mem : mem; t_gzip : gcache; t_deflate : gcache }.
Definition cached (gz : bool) (s : site) : gcache := if gz then t_gzip s else t_deflate s.
Definition with_mem (s : site) (m : mem) : site := mk_site m (t_gzip s) (t_deflate s).
Definition with_entry (gz : bool) (s : site) (m : mem) (name : str) (e : nat * list Z) : site :=
  if gz then mk_site m (t_gzip s ++ [(name, e)]) (t_deflate s) else mk_site m (t_gzip s) (t_deflate s ++ [(name, e)]).

(** 169-182, 317-330: the name in the copy of the url; leading slashes are gone, so that the comparison with "/" never holds *)
Definition cut_name (prefix : option str) (u : str) : outcome str :=
  do b <- advance (cblock u) (olen prefix); do b <- skip_slash b; do s <- read_cstr b; Ret (until 63 (until 35 s)).
(** 168-187, 316-335: file_requested, with the block url_dup_save *)
Definition x_name (m : mem) (c : gconfig) (url : str) : outcome (mem * ptr str) :=
  match x_malloc m with
  | (None, _) => UB NullDeref
  | (Some i, m1) =>
      do s <- cut_name (g_prefix c) url;
      match s with
      | [] => do m2 <- x_free m1 (Some i); let '(p, m3) := x_strdup m2 (Some (bs "index.html")) in Ret (m3, p)
      | _ => Ret (m1, Some (i, s))
      end
  end.
(** 189, 367 msprintf("%s/%s", files_path, file_requested) *)
Definition x_path (m : mem) (root : str) (name : ptr str) : outcome (mem * ptr str) :=
  do s <- x_deref m name; let '(p, m1) := x_strdup m (Some (file_path root (snd s))) in Ret (m1, p).
(** 190, 368 realpath(file_path, NULL); realpath of NULL gives NULL *)
Definition x_real (m : mem) (w : fsystem) (path : ptr str) : mem * ptr str :=
  match path with
  | None => (m, None)
  | Some (_, p) => let '(q, m1) := x_strdup m (fs_real w p) in (m1, q)
  end.
(** 191, 369 0 == o_strncmp(files_path, real_path, o_strlen(files_path)) *)
Definition below (root : str) (real : ptr str) : bool := match real with Some (_, q) => prefixb root q | None => false end.
(** 192, 371 fopen *)
Definition x_fopen (m : mem) (w : fsystem) (path : ptr str) : mem * ptr (Z * list Z) :=
  match path with
  | None => (m, None)
  | Some (_, p) => match fs_open w p with None => (m, None) | Some f => let '(i, m1) := x_malloc m in (m1, at_block i f) end
  end.
(** 210-215, 218-223, 468-473, 481-486 *)
Definition gone (c : gconfig) : gresp :=
  match g_redirect c with None => mk_gresp U_CALLBACK_IGNORE 0 None None None | Some _ => mk_gresp U_CALLBACK_CONTINUE 302 None None None end.
Definition failed : gresp := mk_gresp U_CALLBACK_ERROR 0 None None None.

(** 160-234 callback_static_file_uncompressed *)
Definition x_plain (m : mem) (w : fsystem) (c : gconfig) (url : str) : outcome (mem * gresp) :=
  match g_root c with
  | None => Ret (m, failed)
  | Some root =>
      do n <- x_name m c url;
      do p <- x_path (fst n) root (snd n);
      let '(m1, real) := x_real (fst p) w (snd p) in
      let '(m2, f) := if below root real then x_fopen m1 w (snd p) else (m1, None) in
      do m3 <- x_free m2 (addr (snd n)); do m4 <- x_free m3 (addr (snd p)); do m5 <- x_free m4 (addr real);
      Ret (m5, match f with Some _ => mk_gresp U_CALLBACK_CONTINUE 200 None None f | None => gone c end)
  end.

(** 417-436 the loop: [p] is data_zip, [len] data_zip_len; [whole]: all of file_content was written. Return code, data_zip, data_zip_len *)
Fixpoint x_squeeze (whole : bool) (m : mem) (p : ptr buf) (len : Z) (calls : list zcall) : outcome (Z * (mem * (ptr buf * Z))) :=
  do x <- x_realloc m (addr p);
  match x with
  | (None, m1) => Ret (U_CALLBACK_ERROR, (m1, (None, len)))
  | (Some i, m1) =>
      if whole then
        let b := realloc (match p with Some (_, b) => b | None => [] end) (len + 256) in
        match calls with
        | [] => Ret (U_CALLBACK_CONTINUE, (m1, (Some (i, b), len)))
        | (code, out) :: r =>
            do b1 <- memcpy b len (block_of out) (zlen out);
            if z_fair code then
              if zlen out =? 256 then x_squeeze whole m1 (Some (i, b1)) (len + zlen out) r
              else Ret (U_CALLBACK_CONTINUE, (m1, (Some (i, b1), len + zlen out)))
            else Ret (U_CALLBACK_ERROR, (m1, (Some (i, b1), len + zlen out)))
        end
      else UB Uninit
  end.
(** ulfius_set_binary_body_response(response, 200, body, length): refused without body or bytes; body and status *)
Definition x_set_body (m : mem) (body : option (list Z)) : mem * (Z * ptr (list Z)) :=
  match body with
  | None | Some [] => (m, (0, None))
  | Some z => match x_malloc m with (None, m1) => (m1, (0, None)) | (Some i, m1) => (m1, (200, Some (i, z))) end
  end.
(** u_map_put(response->map_header, "Content-Encoding", ...) *)
Definition x_set_encoding (m : mem) (gz : bool) : mem * ptr bool := let '(i, m1) := x_malloc m in (m1, at_block i gz).

(** 438-455 what is done with the compressed data [z] *)
Definition x_store (s : site) (m : mem) (c : gconfig) (gz : bool) (name : str) (z : list Z) : site * gresp :=
  let '(s1, body) :=
    if g_cache c then
      match x_malloc m with (None, m1) => (with_mem s m1, None) | (Some e, m1) => (with_entry gz s m1 name (e, z), Some z) end
    else (with_mem s m, Some z) in
  let '(m2, (status, b)) := x_set_body (t_mem s1) body in
  let '(m3, h) := x_set_encoding m2 gz in
  (with_mem s1 m3, mk_gresp U_CALLBACK_CONTINUE status b h None).
(** 386-463 a file whose type is compressed. malloc of more bytes than there are (ftell gave -1) gives NULL *)
Definition x_load (s : site) (c : gconfig) (gz : bool) (name : str) (f : Z * list Z) (calls : list zcall) : outcome (site * gresp) :=
  let size := fst f in
  if size =? 0 then Ret (s, mk_gresp U_CALLBACK_CONTINUE 0 None None None)
  else if size <? 0 then Ret (s, failed)
  else match x_malloc (t_mem s) with
  | (None, m1) => Ret (with_mem s m1, failed)
  | (Some content, m1) =>
      match x_malloc m1 with
      | (None, m2) => do m3 <- x_free m2 (Some content); Ret (with_mem s m3, failed)
      | (Some dz, m2) =>
          match x_malloc m2 with
          | (None, m3) => do m4 <- x_end m3 None; do m5 <- x_free m4 (Some dz); do m6 <- x_free m5 (Some content); Ret (with_mem s m6, failed)
          | (Some st, m3) =>
              do x <- x_squeeze (size <=? zlen (snd f)) m3 (Some (dz, repeat None (Z.to_nat (2 * size + 20)))) 0 calls;
              let '(ret, (m4, (p, len))) := x in
              do y <- (if ret =? U_CALLBACK_CONTINUE then
                         do b <- x_deref m4 p; do z <- read_bytes (snd b) (Z.to_nat len); Ret (x_store s m4 c gz name z)
                       else Ret (with_mem s m4, failed));
              do m5 <- x_end (t_mem (fst y)) (Some (Some st)); do m6 <- x_free m5 (addr p); do m7 <- x_free m6 (Some content);
              Ret (with_mem (fst y) m7, snd y)
          end
      end
  end.

(** 339-343 the encoding that is used, split_string succeeded *)
Definition gmode (c : gconfig) (a : str) : option bool :=
  let l := split_string 44 a in
  if g_gzip c && has_trimmed l (bs "gzip") then Some true else if g_deflate c && has_trimmed l (bs "deflate") then Some false else None.
Definition glookup (name : ptr str) (k : gcache) : option (list Z) :=
  match name with Some (_, n) => match find (fun e => str_eqb (fst e) n) k with Some (_, (_, z)) => Some z | None => None end | None => None end.
(** 366-490 not in the cache. In 378-380 and 465 the file stays open when its type is not one that is compressed *)
Definition x_fetch (s : site) (w : fsystem) (c : gconfig) (gz : bool) (name : ptr str) (url : str) (calls : list zcall) : outcome (site * gresp) :=
  match g_root c with
  | None => UB NullDeref
  | Some root =>
      do p <- x_path (t_mem s) root name;
      let '(m1, real) := x_real (fst p) w (snd p) in
      do y <- (if below root real then
                 match x_fopen m1 w (snd p) with
                 | (m2, None) => Ret (with_mem s m2, gone c)
                 | (m2, Some (i, f)) =>
                     do n <- x_deref m2 name;
                     if g_squeeze c (snd n) then
                       do y <- x_load (with_mem s m2) c gz (snd n) f calls;
                       do m3 <- x_free (t_mem (fst y)) (Some i); Ret (with_mem (fst y) m3, snd y)
                     else do y <- x_plain m2 w c url; Ret (with_mem s (fst y), snd y)
                 end
               else Ret (with_mem s m1, gone c));
      do m4 <- x_free (t_mem (fst y)) (addr (snd p)); do m5 <- x_free m4 (addr real);
      Ret (with_mem (fst y) m5, snd y)
  end.
(** 337-500 *)
Definition x_choose (s : site) (w : fsystem) (c : gconfig) (q : greq) (name : ptr str) (calls : list zcall) : outcome (site * gresp) :=
  let plain s := do y <- x_plain (t_mem s) w c (q_url q); Ret (with_mem s (fst y), snd y) in
  match (if q_encoded q then None else q_accept q) with
  | None => plain s
  | Some a =>
      match x_malloc (t_mem s) with
      | (None, m1) => plain (with_mem s m1)
      | (Some l, m1) =>
          do y <- match gmode c a with
                  | None => plain (with_mem s m1)
                  | Some gz =>
                      match (if g_cache c then glookup name (cached gz s) else None) with
                      | Some z =>
                          let '(m2, (status, b)) := x_set_body m1 (Some z) in
                          let '(m3, h) := x_set_encoding m2 gz in
                          Ret (with_mem s m3, mk_gresp U_CALLBACK_CONTINUE status b h None)
                      | None => x_fetch (with_mem s m1) w c gz name (q_url q) calls
                      end
                  end;
          do m2 <- x_free (t_mem (fst y)) (Some l); Ret (with_mem (fst y) m2, snd y)
      end
  end.
(** 298-505 callback_static_compressed_inmemory_website *)
Definition x_site (s : site) (w : fsystem) (c : gconfig) (q : greq) (calls : list zcall) : outcome (site * gresp) :=
  if 0 <? q_pos q then Ret (s, mk_gresp U_CALLBACK_IGNORE 0 None None None)
  else
    do n <- x_name (t_mem s) c (q_url q);
    do y <- x_choose (with_mem s (fst n)) w c q (snd n) calls;
    do m1 <- x_free (t_mem (fst y)) (addr (snd n)); Ret (with_mem (fst y) m1, snd y).

(** ** The answer is sent, then the response is released *)
(** [Hangs]: 137-146, the callback of the stream answers 0 for ever, because fewer bytes can be read than were announced (or their number is not
    known: ftell gave -1), and MHD asks again and again *)
Inductive gbody := NoBytes | Body (l : list Z) | Streamed (l : list Z) | Hangs.
Record ganswer := mk_ganswer { v_ret : Z; v_status : Z; v_body : gbody; v_encoding : option bool }.
Definition stream_of (f : Z * list Z) : gbody := if (0 <=? fst f) && (fst f <=? zlen (snd f)) then Streamed (zfirstn (fst f) (snd f)) else Hangs.
Definition sent_body (p : gresp) : gbody :=
  match p_file p with
  | Some (_, f) => stream_of f
  | None => match p_body p with Some (_, z) => Body z | None => NoBytes end
  end.
Definition x_answered (s : site) (p : gresp) : outcome (site * ganswer) :=
  do m1 <- x_free (t_mem s) (addr (p_file p)); do m2 <- x_free m1 (addr (p_body p)); do m3 <- x_free m2 (addr (p_encoding p));
  Ret (with_mem s m3, mk_ganswer (p_ret p) (p_status p) (sent_body p) (match p_encoding p with Some (_, gz) => Some gz | None => None end)).

(** a request, with the file system of its time, the answers of the allocations and of zlib *)
Record gvisit := mk_gvisit { n_fs : fsystem; n_req : greq; n_new : list bool; n_grow : list bool; n_calls : list zcall }.
Definition x_visit (c : gconfig) (s : site) (v : gvisit) : outcome (site * ganswer) :=
  do y <- x_site (with_mem s (armed (t_mem s) (n_new v) (n_grow v))) (n_fs v) c (n_req v) (n_calls v);
  do z <- x_answered (fst y) (snd y); Ret (with_mem (fst z) (armed (t_mem (fst z)) [] []), snd z).
Fixpoint x_visits (c : gconfig) (s : site) (l : list gvisit) : outcome (site * list ganswer) :=
  match l with
  | [] => Ret (s, [])
  | v :: r => do y <- x_visit c s v; do z <- x_visits c (fst y) r; Ret (fst z, snd y :: snd z)
  end.
(** 269-278 u_clean_compressed_inmemory_website_config: the caches *)
Fixpoint x_free_cache (m : mem) (k : gcache) : outcome mem :=
  match k with [] => Ret m | (_, (i, _)) :: r => do m1 <- x_free m (Some i); x_free_cache m1 r end.
Definition x_close (s : site) : outcome mem := do m1 <- x_free_cache (t_mem s) (t_gzip s); x_free_cache m1 (t_deflate s).
Definition new_site : site := mk_site (mk_mem (mk_heap 0 []) [] []) [] [].
