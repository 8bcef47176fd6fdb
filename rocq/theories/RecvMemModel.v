(** The memory of a request while it comes in, /repo/src/ulfius.c: the structure of the connection
    with its map of url parameters, the request, the pairs that libmicrohttpd delivers, the post
    processor, the chunks of the body and the pieces of the forms; every block is of the heap and an
    allocation may fail. InputModel describes the values when nothing fails, ConnModel the life of
    the structure without its maps, ReqMemModel the request itself.
    Simplifications: the copy that msprintf makes is one block; the post processor of libmicrohttpd
    is one block; there is no file_upload_callback; the data of a piece of a form is not NULL;
    MHD_post_process delivers some pieces, one after the other until the function answers MHD_NO,
    and does nothing when there is no post processor. *)
From Coq Require Import String ZArith Bool List.
From Verif Require Import Base UMapModel Utf8Model OwnModel MapMemModel RespMemModel ReqMemModel.
Import ListNotations.
Open Scope Z_scope.

(** what o_malloc, o_strdup and msprintf answer, and what o_realloc answers, while a function runs *)
Definition answers := (list bool * list bool)%type.
Definition again (m : mem) (a : answers) : mem := mk_mem (m_heap m) (fst a) (snd a).
Definition MHD_NO : Z := 0. Definition MHD_YES : Z := 1.

(** the text that a char * points to *)
Definition x_text (m : mem) (p : ptr buf) : outcome (option str) := do b <- x_block m p; deref_cstr b.
(** u_map.c:419-431 u_map_get_case: the value is given also when its length is 0 *)
Definition x_get_case (m : mem) (f : fmap) (key : str) : outcome (ptr buf) :=
  do ks <- x_deref m (f_keys f);
  do r <- x_scan_null m (snd ks) (fun x => str_caseeqb x key) 0;
  match r with None => Ret None | Some i => do vs <- x_deref m (f_values f); aget (snd vs) i end.
(** u_map.c:120-130 u_map_has_key *)
Definition x_has_key (m : mem) (f : fmap) (key : str) : outcome bool :=
  do ks <- x_deref m (f_keys f); do r <- x_scan_null m (snd ks) (fun x => str_eqb x key) 0;
  Ret (match r with Some _ => true | None => false end).

(** ulfius.c:67-100 ulfius_fill_map_check_utf8 ([check] = true), 102-134 ulfius_fill_map *)
Definition x_fill_pair (check : bool) (m : mem) (f : fmap) (key value : option str) : outcome (Z * (mem * fmap)) :=
  match key with
  | None => Ret (MHD_NO, (m, f))
  | Some k =>
      if negb check || (utf8_valid k && match value with Some v => utf8_valid v | None => true end) then
        let v := match value with Some v => v | None => [] end in
        do p <- x_get m f k;
        do old <- x_text m p;
        do r <- (match old with
                 | Some t =>
                     let '(tmp, m1) := x_malloc m in
                     do x <- x_put m1 f (Some k) (match tmp with Some _ => Some (t ++ [44] ++ v) | None => None end);
                     let '(c, (m2, f2)) := x in
                     do m3 <- x_free m2 tmp; Ret (c, (m3, f2))
                 | None => x_put m f (Some k) (Some v)
                 end);
        Ret (if fst r =? U_OK then MHD_YES else MHD_NO, snd r)
      else Ret (MHD_YES, (m, f))
  end.
(** MHD_get_connection_values: the pairs until the function answers MHD_NO *)
Definition pair_in := (answers * (option str * option str))%type.
Fixpoint x_fill_all (check : bool) (m : mem) (f : fmap) (l : list pair_in) : outcome (Z * (mem * fmap)) :=
  match l with
  | [] => Ret (MHD_YES, (m, f))
  | (a, (k, v)) :: r =>
      do x <- x_fill_pair check (again m a) f k v;
      if fst x =? MHD_YES then x_fill_all check (fst (snd x)) (snd (snd x)) r else Ret x
  end.

(** what is asked of the instance: check_utf8, allowed_post_processor, max_post_body_size,
    max_post_param_size *)
Record rconf := mk_rconf { g_check : bool; g_allowed : Z; g_max_body : Z; g_max_param : Z }.

(** a call of mhd_iterate_post_data *)
Record piece := mk_piece { pc_key : str; pc_filename : option str; pc_data : list Z; pc_off : Z }.
(** ulfius.c:387-392: the result of msprintf is not looked at, an error of u_map_put is only logged.
    The text is given back to be released. *)
Definition x_filename (m : mem) (f : fmap) (p : piece) : outcome (mem * fmap * option nat) :=
  match pc_filename p with
  | None => Ret (m, f, None)
  | Some n =>
      let '(tmp, m1) := x_malloc m in
      let name := match tmp with Some _ => Some (pc_key p ++ bs "_filename") | None => None end in
      do h <- (match name with Some s => x_has_key m1 f s | None => Ret false end);
      if h : bool then Ret (m1, f, tmp)
      else do x <- x_put m1 f name (Some n); Ret (fst (snd x), snd (snd x), tmp)
  end.
(** ulfius.c:393-417 the data *)
Definition x_piece_data (m : mem) (f : fmap) (p : piece) (size : Z) : outcome (Z * (mem * fmap)) :=
  let blk := Some (block_of (pc_data p)) in
  do cur <- x_get m f (pc_key p);
  do r <- (match cur with
           | Some _ =>
               do cs <- x_get_length m f (pc_key p);
               if 0 <=? cs then
                 if negb (pc_off p =? 0) then x_put_binary m f (Some (pc_key p)) blk cs size
                 else
                   do r <- x_put_binary m f (Some (pc_key p)) (Some (block_of [44; 0])) cs 1;
                   if fst r =? U_OK then x_put_binary (fst (snd r)) (snd (snd r)) (Some (pc_key p)) blk (cs + 1) size
                   else Ret r
               else Ret (U_ERROR, (m, f))
           | None => x_put_binary m f (Some (pc_key p)) blk 0 size
           end);
  Ret (if fst r =? U_OK then MHD_YES else MHD_NO, snd r).
(** ulfius.c:337-424 mhd_iterate_post_data *)
Definition x_piece (g : rconf) (m : mem) (f : fmap) (p : piece) : outcome (Z * (mem * fmap)) :=
  let size := zlen (pc_data p) in
  let max := g_max_param g in
  if g_check g && negb (utf8_valid (pc_key p) && utf8_valid (pc_data p) && match pc_filename p with Some n => utf8_valid n | None => true end)
  then Ret (MHD_YES, (m, f))
  else if (0 <? max) && (max <? pc_off p) then Ret (MHD_YES, (m, f))
  else
    let data_size := if (0 <? max) && (max <? add64 (pc_off p) size) then max - pc_off p else size in
    do x <- x_filename m f p;
    let '(m1, f1, tmp) := x in
    do y <- x_piece_data m1 f1 p data_size;
    let '(z, (m2, f2)) := y in
    do m3 <- x_free m2 tmp; Ret (z, (m3, f2)).
Fixpoint x_pieces (g : rconf) (m : mem) (f : fmap) (l : list (answers * piece)) : outcome (Z * (mem * fmap)) :=
  match l with
  | [] => Ret (MHD_YES, (m, f))
  | (a, p) :: r =>
      do x <- x_piece g (again m a) f p;
      if fst x =? MHD_YES then x_pieces g (fst (snd x)) (snd (snd x)) r else Ret x
  end.

(** struct connection_info_struct, include/ulfius.h:359-367: its block, map_url_initial, the
    request and the post processor. [k_going] is kept by libmicrohttpd: no call answered MHD_NO. *)
Record conn := mk_conn { k_block : nat; k_args : fmap; k_req : option (nat * hreq); k_post : option nat; k_going : bool }.

(** ulfius.c:207-247 ulfius_uri_logger: the result of u_map_init is not looked at *)
Definition x_connect (m : mem) (uri path : str) : outcome (mem * option conn) :=
  match x_malloc m with
  | (None, m1) => Ret (m1, None)
  | (Some k, m1) =>
      do i <- x_init m1;
      do y <- x_uri_logger (fst (snd i)) uri path;
      match snd y with
      | None => do m2 <- x_free (fst y) (Some k); Ret (m2, None)
      | Some q => Ret (fst y, Some (mk_conn k (snd (snd i)) (Some q) None true))
      end
  end.

(** ulfius.c:545, 579 the type of the content *)
Definition x_content_type (m : mem) (r : hreq) : outcome (option str) :=
  do h <- x_at (rq_maps r) M_HEADER; do y <- x_deref m h;
  do v <- x_get_case m (snd y) (bs "Content-Type"); x_text m v.
Definition FORM : str := bs "application/x-www-form-urlencoded".
Definition MULTIPART : str := bs "multipart/form-data".
(** ulfius.c:548-550; U_POST_PROCESS_URL_ENCODED is 1, U_POST_PROCESS_MULTIPART_FORMDATA 16 *)
Definition wants_processor (allowed : Z) (t : option str) : bool :=
  match t with
  | None => false
  | Some c => (negb (Z.land allowed 1 =? 0) && prefixb FORM c) || (negb (Z.land allowed 16 =? 0) && prefixb MULTIPART c)
  end.
(** ulfius.c:580-581; o_strncmp of a text and NULL is not 0 *)
Definition is_form_type (t : option str) : bool := match t with None => false | Some c => prefixb FORM c || prefixb MULTIPART c end.

(** What a client sends before the body. [v_open]: the answers during ulfius_uri_logger and
    the beginning of the first call; [v_post]: those of MHD_create_post_processor. *)
Record visit := mk_visit {
  v_open : answers; v_uri : str; v_path : str; v_cert : option (option str); v_version : str; v_method : str; v_address : list Z;
  v_headers : list pair_in; v_args : list pair_in; v_cookies : list pair_in; v_post : answers
}.
(** ulfius.c:503-560 the first call of ulfius_webservice_dispatcher *)
Definition x_begin (g : rconf) (m : mem) (c : conn) (v : visit) : outcome (mem * conn) :=
  do _ <- h_use (m_heap m) (k_block c);
  match k_req c with
  | None => UB NullDeref
  | Some (p, r) =>
      do _ <- h_use (m_heap m) p;
      do y <- x_first_call m r (v_cert v) (v_version v) (v_method v) (v_address v);
      let '(z, (m1, r1)) := y in
      if negb (z =? U_OK) then Ret (m1, mk_conn (k_block c) (k_args c) (Some (p, r1)) (k_post c) false)
      else
        do h <- x_on_req_map m1 r1 M_HEADER (fun m f => x_fill_all (g_check g) m f (v_headers v));
        do a <- x_fill_all (g_check g) (fst (snd h)) (k_args c) (v_args v);
        do k <- x_on_req_map (fst (snd a)) (snd (snd h)) M_COOKIE (fun m f => x_fill_all (g_check g) m f (v_cookies v));
        let m2 := fst (snd k) in let r2 := snd (snd k) in let args := snd (snd a) in
        do t <- x_content_type m2 r2;
        if wants_processor (g_allowed g) t then
          match x_malloc (again m2 (v_post v)) with
          | (None, m3) => do m4 <- x_clean_req_full m3 p r2; Ret (m4, mk_conn (k_block c) args None None false)
          | (Some i, m3) => Ret (m3, mk_conn (k_block c) args (Some (p, r2)) (Some i) true)
          end
        else Ret (m2, mk_conn (k_block c) args (Some (p, r2)) (k_post c) true)
  end.

(** A chunk of the body. [ch_body]: the answers for the body; [ch_pieces]: what MHD_post_process
    delivers *)
Record chunk := mk_chunk { ch_body : answers; ch_data : list Z; ch_pieces : list (answers * piece) }.
(** the bytes of a block that is written all over *)
Fixpoint written (b : buf) : outcome (list Z) :=
  match b with [] => Ret [] | None :: _ => UB Uninit | Some c :: r => do l <- written r; Ret (c :: l) end.
(** ulfius.c:561-589 a call with *upload_data_size <> 0. A byte of the body that were left unwritten
    is taken for an error. *)
Definition x_chunk (g : rconf) (m : mem) (c : conn) (ch : chunk) : outcome (mem * conn) :=
  do _ <- h_use (m_heap m) (k_block c);
  match k_req c with
  | None => UB NullDeref
  | Some (p, r) =>
      do _ <- h_use (m_heap m) p;
      do l <- x_member (rq_len r); do b <- x_member (rq_body r);
      let size := zlen (ch_data ch) in
      let over := (0 <? g_max_body g) && (g_max_body g <? add64 l size) in
      let body_len := if over then g_max_body g else add64 l size in
      let current := if over then (g_max_body g - l) mod two64 else size in
      if l <=? body_len then
        do z <- x_realloc (again m (ch_body ch)) (addr b);
        match fst z with
        | None => Ret (snd z, mk_conn (k_block c) (k_args c) (Some (p, with_req_body r None l)) (k_post c) false)
        | Some i =>
            do nb <- memcpy (realloc (block_of (match b with Some (_, x) => x | None => [] end)) body_len) l (block_of (ch_data ch)) current;
            do bytes <- written nb;
            let r1 := with_req_body r (Some (i, bytes)) (add64 l current) in
            do t <- x_content_type (snd z) r1;
            if is_form_type t then
              match k_post c with
              | None => Ret (snd z, mk_conn (k_block c) (k_args c) (Some (p, r1)) (k_post c) true)
              | Some q =>
                  do _ <- h_use (m_heap (snd z)) q;
                  do y <- x_on_req_map (snd z) r1 M_POST (fun m f => x_pieces g m f (ch_pieces ch));
                  Ret (fst (snd y), mk_conn (k_block c) (k_args c) (Some (p, snd (snd y))) (k_post c) true)
              end
            else Ret (snd z, mk_conn (k_block c) (k_args c) (Some (p, r1)) (k_post c) true)
        end
      else Ret (m, c)
  end.

(** ulfius.c:310-330 mhd_request_completed *)
Definition x_completed (m : mem) (c : conn) : outcome mem :=
  do _ <- h_use (m_heap m) (k_block c);
  do m1 <- x_free m (k_post c);
  do m2 <- (match k_req c with None => Ret m1 | Some (p, r) => x_clean_req_full m1 p r end);
  do x <- x_clean m2 (k_args c);
  x_free (fst x) (Some (k_block c)).
