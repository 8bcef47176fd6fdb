(** Model of the example callbacks that serve files: example_callbacks/static_file/static_file_callback.c and
    example_callbacks/static_compressed_inmemory_website/static_compressed_inmemory_website_callback.c. Allocation and locking succeed. *)
From Coq Require Import String ZArith Bool List.
From Verif Require Import Base UMapModel SMap StrModel ClientModel.
Import ListNotations.
Open Scope Z_scope.

(** the file system while a request is served: realpath, access(F_OK), and fopen for reading with everything that can be read *)
Record world := mk_world { realpath : str -> option str; accessible : str -> bool; contents : str -> option (list Z) }.

(** while (p[0] == '/') p++, where the block is what p points to *)
Fixpoint skip_slash (b : buf) : outcome buf :=
  match b with
  | [] => UB OutOfBounds
  | None :: _ => UB Uninit
  | Some c :: r => if c =? 47 then skip_slash r else Ret b
  end.
(** p += n: a pointer past the end of the block is not one *)
Definition advance (b : buf) (n : nat) : outcome buf := if (length b <? n)%nat then UB OutOfBounds else Ret (skipn n b).
(** *strchr(s, c) = '\0' if there is one *)
Fixpoint until (c : Z) (s : str) : str := match s with [] => [] | x :: r => if x =? c then [] else x :: until c r end.
(** o_strlen *)
Definition olen (s : option str) : nat := match s with Some x => length x | None => O end.

(** static_file_callback.c:138-160 (with [first]) and static_compressed_inmemory_website_callback.c:168-187, 316-335: the name of the file. Leading
    slashes are gone, so that the comparison with "/" never holds. *)
Definition file_requested (first : bool) (prefix : option str) (url : option str) : outcome str :=
  match url with
  | None => UB NullDeref
  | Some u =>
      do b <- (if first then skip_slash (cblock u) else Ret (cblock u));
      do b <- advance b (olen prefix);
      do b <- skip_slash b;
      do s <- read_cstr b;
      let s := until 63 (until 35 s) in
      Ret (match s with [] => bs "index.html" | _ => s end)
  end.

(** static_file_callback.c:93-100 get_filename_ext; there is no '?' left in the name *)
Fixpoint last_dot (s : str) : option str :=
  match s with
  | [] => None
  | c :: r => match last_dot r with Some t => Some t | None => if c =? 46 then Some s else None end
  end.
Definition filename_ext (s : str) : str := match last_dot s with Some t => if (length t =? length s)%nat then bs "*" else t | None => bs "*" end.

(** 162-164: the path, and 0 == o_strncmp(files_path, real_path, o_strlen(files_path)); o_strncmp of a text and NULL is not 0 *)
Definition file_path (root name : str) : str := root ++ bs "/" ++ name.
Definition allowed (w : world) (root path : str) : bool := match realpath w path with Some q => prefixb root q | None => false end.

(** the response: status, headers, and the body or the file that is streamed with the length announced (ftell at the end of the file) *)
Inductive body := NoBody | Bytes (l : list Z) | Stream (l : list Z) (len : Z).
Record sres := mk_sres { s_status : Z; s_headers : umap; s_body : body }.
Definition with_headers (r : sres) (m : umap) : sres := mk_sres (s_status r) m (s_body r).
Definition put_header (r : sres) (k : str) (v : option str) : outcome sres := do x <- u_map_put (s_headers r) (Some k) v; Ret (with_headers r (snd x)).

Record config := mk_config { f_root : option str; f_prefix : option str; f_mime : umap; f_headers : umap; f_redirect : option str;
  f_gzip : bool; f_deflate : bool; f_compressed : list str; f_cache : bool }.

(** static_file_callback.c:172-177 *)
Definition content_type (mime : umap) (name : str) : outcome (option str) :=
  do t <- ClientModel.get_case_str mime (Some (filename_ext name));
  match t with Some x => Ret (Some x) | None => get_str mime (bs "*") end.
(** 177-178 *)
Definition describe (c : config) (name : str) (r : sres) : outcome sres :=
  do t <- content_type (f_mime c) name;
  do r <- put_header r (bs "Content-Type") t;
  do m <- u_map_copy_into (s_headers r) (f_headers c);
  Ret (with_headers r (snd m)).

(** 185-190: not found, in the words of this callback *)
Definition not_found (c : config) (r : sres) : outcome sres :=
  match f_redirect c with
  | None => Ret (mk_sres 404 (s_headers r) (Bytes (bs "File not found")))
  | Some l => do r <- put_header r (bs "Location") (Some l); Ret (mk_sres 302 (s_headers r) (s_body r))
  end.

Definition U_CALLBACK_CONTINUE := 0. Definition U_CALLBACK_IGNORE := 1. Definition U_CALLBACK_ERROR := 4.

(** 126-209 callback_static_file: what it returns, the response and the files it opens *)
Definition static_file (w : world) (c : option config) (position : Z) (url : option str) (r : sres) : outcome (Z * sres * list str) :=
  if 0 <? position then Ret (U_CALLBACK_CONTINUE, r, [])
  else match c with
  | None => Ret (U_CALLBACK_ERROR, r, [])
  | Some c =>
      match f_root c with
      | None => Ret (U_CALLBACK_ERROR, r, [])
      | Some root =>
          do name <- file_requested true (f_prefix c) url;
          let p := file_path root name in
          if allowed w root p then
            if accessible w p then
              match contents w p with
              | Some l => do r <- describe c name r; Ret (U_CALLBACK_CONTINUE, mk_sres 200 (s_headers r) (Stream l (zlen l)), [p])
              | None => Ret (U_CALLBACK_CONTINUE, r, [])
              end
            else do r <- not_found c r; Ret (U_CALLBACK_CONTINUE, r, [])
          else do r <- not_found c r; Ret (U_CALLBACK_CONTINUE, r, [])
      end
  end.

(** ** static_compressed_inmemory_website_callback.c *)
(** 210-215 *)
Definition absent (c : config) (r : sres) : outcome (Z * sres) :=
  match f_redirect c with
  | None => Ret (U_CALLBACK_IGNORE, r)
  | Some l => do r <- put_header r (bs "Location") (Some l); Ret (U_CALLBACK_CONTINUE, mk_sres 302 (s_headers r) (s_body r))
  end.
(** 160-234 callback_static_file_uncompressed *)
Definition uncompressed (w : world) (c : config) (url : option str) (r : sres) : outcome (Z * sres * list str) :=
  match f_root c with
  | None => Ret (U_CALLBACK_ERROR, r, [])
  | Some root =>
      do name <- file_requested false (f_prefix c) url;
      let p := file_path root name in
      if allowed w root p then
        match contents w p with
        | Some l => do r <- describe c name r; Ret (U_CALLBACK_CONTINUE, mk_sres 200 (s_headers r) (Stream l (zlen l)), [p])
        | None => do x <- absent c r; Ret (x, [])
        end
      else do x <- absent c r; Ret (x, [])
  end.

(** the caches config->gzip_files and config->deflate_files: u_map_put_binary, u_map_get and u_map_get_length as an association list (C01-C04); the
    names are never empty *)
Definition cache := list (str * list Z).
Definition lookup (k : str) (d : cache) : option (list Z) := option_map snd (find (fun p => str_eqb (fst p) k) d).
Fixpoint remember (k : str) (v : list Z) (d : cache) : cache := match d with [] => [(k, v)] | p :: t => if str_eqb (fst p) k then (k, v) :: t else p :: remember k v t end.
(** with [gz] = true: gzip *)
Record caches := mk_caches { k_gzip : cache; k_deflate : cache }.
Definition cache_of (gz : bool) (k : caches) : cache := if gz then k_gzip k else k_deflate k.
Definition keep_in (gz : bool) (name : str) (l : list Z) (k : caches) : caches :=
  if gz then mk_caches (remember name l (k_gzip k)) (k_deflate k) else mk_caches (k_gzip k) (remember name l (k_deflate k)).
Definition encoding_name (gz : bool) : str := if gz then bs "gzip" else bs "deflate".

Section Compressed.
(** zlib: everything deflate gives for a content, None for an error. The output loop 417-436 is not modelled, nor the reduction of the length modulo 2^32. *)
Variable zip : bool -> list Z -> option (list Z).

(** 338-343: split_string of NULL gives 0 *)
Definition mode (c : config) (accept : option str) : option bool :=
  match accept with
  | None => None
  | Some a =>
      let l := split_string 44 a in
      if f_gzip c && has_trimmed l (bs "gzip") then Some true
      else if f_deflate c && has_trimmed l (bs "deflate") then Some false else None
  end.
(** ulfius_set_binary_body_response(response, 200, ...): refused when there are no bytes *)
Definition set_bytes (r : sres) (l : list Z) : sres := match l with [] => r | _ => mk_sres 200 (s_headers r) (Bytes l) end.

(** 298-505 callback_static_compressed_inmemory_website, config != NULL. [headers]: request->map_header. *)
Definition compressed (w : world) (c : config) (k : caches) (position : Z) (headers : umap) (url : option str) (r : sres) : outcome (Z * sres * list str * caches) :=
  if 0 <? position then Ret (U_CALLBACK_IGNORE, r, [], k)
  else
    do name <- file_requested false (f_prefix c) url;
    do has <- u_map_has_key_case (s_headers r) (Some (bs "Content-Encoding"));
    do accept <- ClientModel.get_case_str headers (Some (bs "Accept-Encoding"));
    match (if (has : bool) then None else mode c accept) with
    | None => do x <- uncompressed w c url r; Ret (x, k)
    | Some gz =>
        match (if f_cache c then lookup name (cache_of gz k) else None) with
        | Some l =>
            do r <- put_header (set_bytes r l) (bs "Content-Encoding") (Some (encoding_name gz));
            do r <- describe c name r;
            Ret (U_CALLBACK_CONTINUE, r, [], k)
        | None =>
            match f_root c with
            | None => UB NullDeref
            | Some root =>
                let p := file_path root name in
                if allowed w root p then
                  match contents w p with
                  | None => do x <- absent c r; Ret (x, [], k)
                  | Some l =>
                      do t <- content_type (f_mime c) name;
                      if match t with Some x => existsb (str_eqb x) (f_compressed c) | None => false end then
                        do r <- put_header r (bs "Content-Type") t;
                        do m <- u_map_copy_into (s_headers r) (f_headers c);
                        let r := with_headers r (snd m) in
                        if zlen l =? 0 then Ret (U_CALLBACK_CONTINUE, r, [p], k)
                        else match zip gz l with
                             | None => Ret (U_CALLBACK_ERROR, r, [p], k)
                             | Some z =>
                                 do r <- put_header (set_bytes r z) (bs "Content-Encoding") (Some (encoding_name gz));
                                 Ret (U_CALLBACK_CONTINUE, r, [p], if f_cache c then keep_in gz name z k else k)
                             end
                      else do x <- uncompressed w c url r; let '(ret, r, o) := x in Ret (ret, r, p :: o, k)
                  end
                else do x <- absent c r; Ret (x, [], k)
            end
        end
    end.
End Compressed.
