(** The memory that routing a request uses: /repo/src/u_request.c 41-260 (ulfius_split_url,
    ulfius_url_format_match, ulfius_endpoint_match, ulfius_parse_url), /repo/src/u_map.c 98-110 (u_map_clean_enum)
    and /repo/src/ulfius.c 591-610, 617, 636-648, 1062-1066 (the part of ulfius_webservice_dispatcher that runs the
    endpoints), 1357-1372 and 1400-1410. Every word, array, copy of a text, copy of an endpoint and map is a block of the
    heap; allocations may fail. RouterModel describes the values when there is memory, OwnModel the copies of
    the endpoints.
    Simplifications: the table of the endpoints does not change; the words that strtok_r gives are computed at once
    ([words]), its text is still a block that must be in use; u_map_get gives a text that msprintf reads at once; the
    callbacks only say whether they end the request; the response is left out. *)
From Coq Require Import String ZArith Bool List.
From Verif Require Import Base UMapModel UrlModel Utf8Model RouterModel OwnModel MapMemModel MapMemSpec RespMemModel.
Import ListNotations.
Open Scope Z_scope.
Open Scope list_scope.

(** a slot of an array that o_malloc or o_realloc gave: [None] was never written *)
Definition slot (A : Type) := option (ptr A).
Definition array (A : Type) := ptr (list (slot A)).
Definition x_slot {A} (m : mem) (a : array A) (i : nat) : outcome (ptr A) :=
  do x <- x_deref m a; do s <- aget (snd x) i; match s with Some p => Ret p | None => UB Uninit end.

(** u_request.c:50-63 and 72-87 the loops of ulfius_split_url; [n] = counter - 1 words are in the array *)
Fixpoint x_add_words (m : mem) (a : array str) (n : nat) (ws : list str) : outcome (mem * (array str * nat)) :=
  match ws with
  | [] => Ret (m, (a, n))
  | w :: r =>
      do x <- x_realloc m (addr a);
      match x with
      | (None, m1) => Ret (m1, (None, n))
      | (Some i, m1) =>
          let l := arealloc (match a with Some (_, l) => l | None => [] end) (n + 2) None in
          let '(p, m2) := x_strdup m1 (Some w) in
          do l1 <- aset l n (Some p);
          match p with
          | None => Ret (m2, (Some (i, l1), n))
          | Some _ => do l2 <- aset l1 (n + 1) (Some None); x_add_words m2 (Some (i, l2)) (S n) r
          end
      end
  end.
(** u_request.c:48-67 and 68-91: a text is copied, cut by strtok_r, released. strtok_r(NULL) goes on where saveptr says:
    [save] is the block it points to *)
Definition x_add_text (m : mem) (a : array str) (n : nat) (t : option str) (keep : str -> bool) (save : ptr str)
  : outcome (mem * (array str * (nat * ptr str))) :=
  match t with
  | None => Ret (m, (a, (n, save)))
  | Some s =>
      match x_strdup m t with
      | (None, m1) => do _ <- x_deref m1 save; UB OutOfBounds
      | (Some b, m1) =>
          do r <- x_add_words m1 a n (filter keep (words s));
          let '(m2, (a1, n1)) := r in
          do m3 <- x_free m2 (Some (fst b)); Ret (m3, (a1, (n1, Some b)))
      end
  end.
(** u_request.c:41-95 ulfius_split_url. strtok_r gives no empty word *)
Definition x_split_url (m : mem) (prefix url : option str) : outcome (mem * array str) :=
  match x_malloc m with
  | (None, m1) => Ret (m1, None)
  | (Some i, m1) =>
      do r <- x_add_text m1 (Some (i, [Some None])) 0 prefix (fun _ => true) None;
      let '(m2, (a, (n, save))) := r in
      do q <- x_add_text m2 a n url (fun w => negb (starts_with 63 w)) save;
      Ret (fst q, fst (snd q))
  end.
(** u_map.c:98-110 u_map_clean_enum *)
Fixpoint x_free_words (m : mem) (l : list (slot str)) : outcome mem :=
  match l with
  | [] => UB OutOfBounds
  | None :: _ => UB Uninit
  | Some None :: _ => Ret m
  | Some (Some p) :: r => do m1 <- x_free m (Some (fst p)); x_free_words m1 r
  end.
Definition x_clean_enum (m : mem) (a : array str) : outcome mem :=
  match a with
  | None => Ret m
  | Some _ => do x <- x_deref m a; do m1 <- x_free_words m (snd x); x_free m1 (Some (fst x))
  end.
(** u_request.c:118-130 ulfius_url_format_match from index [i] on, at most [n] words *)
Fixpoint x_format_match (m : mem) (u f : array str) (i n : nat) : outcome bool :=
  match n with
  | O => UB OutOfBounds
  | S n' =>
      do pf <- x_slot m f i;
      match pf with
      | None => do pu <- x_slot m u i; Ret (is_null pu)
      | Some _ =>
          do fw <- x_deref m pf;
          do last <- (if starts_with 42 (snd fw) then do nx <- x_slot m f (S i); Ret (is_null nx) else Ret false);
          if last : bool then Ret true
          else
            do pu <- x_slot m u i;
            match pu with
            | None => Ret false
            | Some _ =>
                if starts_with 64 (snd fw) || starts_with 58 (snd fw) then x_format_match m u f (S i) n'
                else do uw <- x_deref m pu; if str_eqb (snd fw) (snd uw) then x_format_match m u f (S i) n' else Ret false
            end
      end
  end.
Definition slots {A} (a : array A) : nat := match a with Some (_, l) => length l | None => O end.

(** struct _u_endpoint with its texts *)
Record rep := mk_rep { r_method : ptr str; r_prefix : ptr str; r_format : ptr str; r_prio : Z; r_cb : option Z; r_data : Z }.
(** ulfius.c:1357-1372 ulfius_copy_endpoint, of an endpoint of the table; the code is only logged *)
Definition x_copy_ep (m : mem) (e : endpoint) : rep * mem :=
  let '(a, m1) := x_strdup m (http_method e) in
  let '(b, m2) := x_strdup m1 (url_prefix e) in
  let '(c, m3) := x_strdup m2 (url_format e) in
  (mk_rep a b c (priority e) (callback e) (user_data e), m3).

(** u_request.c:151-176 the loop over the table; [count] endpoints were found *)
Fixpoint x_match_loop (m : mem) (table : list endpoint) (method : str) (u : array str) (ret : array rep) (count : nat)
  : outcome (mem * (array rep * nat)) :=
  match table with
  | [] => Ret (m, (ret, count))
  | e :: r =>
      if is_null u || equals_endpoints e empty_endpoint then Ret (m, (ret, count))
      else
        do mm <- method_match e method;
        if mm : bool then
          do s <- x_split_url m (url_prefix e) (url_format e);
          let '(m1, f) := s in
          do b <- (if is_null f then Ret false else x_format_match m1 u f 0 (slots f));
          if b : bool then
            do x <- x_realloc m1 (addr ret);
            match x with
            | (None, m2) =>
                do m3 <- x_clean_enum m2 f; x_match_loop m3 r method u None (S count)
            | (Some i, m2) =>
                let l := arealloc (match ret with Some (_, l) => l | None => [] end) (count + 2) None in
                match x_malloc m2 with
                | (None, m3) =>
                    do l1 <- aset l count (Some None); do l2 <- aset l1 (count + 1) (Some None);
                    do m4 <- x_clean_enum m3 f; x_match_loop m4 r method u (Some (i, l2)) (S count)
                | (Some j, m3) =>
                    let '(c, m4) := x_copy_ep m3 e in
                    do l1 <- aset l count (Some (Some (j, c))); do l2 <- aset l1 (count + 1) (Some None);
                    do m5 <- x_clean_enum m4 f; x_match_loop m5 r method u (Some (i, l2)) (S count)
                end
            end
          else do m2 <- x_clean_enum m1 f; x_match_loop m2 r method u ret count
        else x_match_loop m r method u ret count
  end.

(** the pointers that qsort hands to compare_endpoint_priorities, which reads through them *)
Fixpoint x_found (m : mem) (l : list (slot rep)) (n : nat) : outcome (list (nat * rep)) :=
  match n, l with
  | O, _ => Ret []
  | S _, [] => UB OutOfBounds
  | S n', s :: r =>
      do p <- (match s with Some p => Ret p | None => UB Uninit end);
      do x <- x_deref m p; do t <- x_found m r n'; Ret (x :: t)
  end.

Section Request.
(** libc qsort on the pointers, with compare_endpoint_priorities *)
Variable order : list (nat * rep) -> list (nat * rep).
(** u_request.c:184-186: qsort of less than two elements compares nothing *)
Definition x_sort (m : mem) (ret : array rep) (count : nat) : outcome (array rep) :=
  match ret with
  | None => Ret None
  | Some _ =>
      do x <- x_deref m ret;
      if (count <? 2)%nat then Ret ret
      else do l <- x_found m (snd x) count; Ret (Some (fst x, map (fun y => Some (Some y)) (order l) ++ skipn count (snd x)))
  end.
(** u_request.c:139-188 ulfius_endpoint_match *)
Definition x_match (m : mem) (table : option (list endpoint)) (method url : str) : outcome (mem * array rep) :=
  match x_malloc m with
  | (None, m1) => Ret (m1, None)
  | (Some i, m1) =>
      do r <- (match table with
               | None => Ret (m1, (Some (i, [Some None]), O))
               | Some l =>
                   do s <- x_split_url m1 (Some url) None;
                   let '(m2, u) := s in
                   do q <- x_match_loop m2 l method u (Some (i, [Some None])) 0;
                   let '(m3, x) := q in
                   do m4 <- x_clean_enum m3 u; Ret (m4, x)
               end);
      let '(m2, (ret, count)) := r in
      do a <- x_sort m2 ret count; Ret (m2, a)
  end.
End Request.

(** ulfius.c:595-610 the default endpoint. [None]: return MHD_NO *)
Definition x_default (m : mem) (ret : array rep) (dflt : option endpoint) : outcome (mem * option (array rep)) :=
  do none <- (match ret with None => Ret true | Some _ => do p <- x_slot m ret 0; Ret (is_null p) end);
  match dflt with
  | Some d =>
      if (none : bool) && match callback d with Some _ => true | None => false end then
        do x <- x_realloc m (addr ret);
        match x with
        | (None, m1) => Ret (m1, None)
        | (Some i, m1) =>
            match x_malloc m1 with
            | (None, m2) => Ret (m2, Some (Some (i, [Some None; Some None])))
            | (Some j, m2) => let '(c, m3) := x_copy_ep m2 d in Ret (m3, Some (Some (i, [Some (Some (j, c)); Some None])))
            end
        end
      else Ret (m, Some ret)
  | None => Ret (m, Some ret)
  end.

(** ulfius.c:1898-1925 ulfius_url_decode of a word, [None] for NULL *)
Definition x_decode (tl : Z -> Z) (m : mem) (w : option str) : outcome (mem * ptr str) :=
  match w with
  | None => Ret (m, None)
  | Some s =>
      match x_malloc m with
      | (None, m1) => Ret (m1, None)
      | (Some i, m1) => do raw <- url_decode tl false s; Ret (m1, Some (i, c_text raw))
      end
  end.
(** u_map.c:120-130 u_map_has_key *)
Definition x_has_key (m : mem) (f : fmap) (key : str) : outcome bool :=
  do ks <- x_deref m (f_keys f); do r <- x_scan_null m (snd ks) (fun x => str_eqb x key) 0;
  Ret (match r with Some _ => true | None => false end).

(** u_request.c:209-214: one word of the url for each word of the prefix. [uw] are the words strtok_r has still to
    give. Result: the word and the words left *)
Fixpoint x_skip (tl : Z -> Z) (m : mem) (cur : ptr str) (uw pw : list str) : outcome (mem * (ptr str * list str)) :=
  match pw with
  | [] => Ret (m, (cur, uw))
  | _ :: pr =>
      match cur with
      | None => Ret (m, (None, uw))
      | Some c =>
          do m1 <- x_free m (Some (fst c)); do d <- x_decode tl m1 (hd_error uw);
          x_skip tl (fst d) (snd d) (List.tl uw) pr
      end
  end.
(** u_request.c:224-250. Result: the code if the function returns, the memory, the map, the word *)
Fixpoint x_params (tl : Z -> Z) (m : mem) (f : fmap) (check : bool) (cur : ptr str) (uw fw : list str) (url_cpy format_cpy : ptr str)
  : outcome (option Z * (mem * (fmap * ptr str))) :=
  match fw with
  | [] => Ret (None, (m, (f, cur)))
  | w :: fr =>
      match cur with
      | None => Ret (None, (m, (f, None)))
      | Some c =>
          do t <- x_deref m cur;
          do s <- (if (starts_with 58 w || starts_with 64 w) && (negb check || utf8_valid (snd t)) then
                     do has <- x_has_key m f (tail w);
                     if has : bool then
                       do v <- x_get m f (tail w); do b <- x_block m v; do old <- deref_cstr b;
                       match x_strdup m (Some (match old with Some o => o | None => bs "(null)" end ++ [44] ++ snd t)) with
                       | (None, m1) =>
                           do m2 <- x_free m1 (addr url_cpy); do m3 <- x_free m2 (addr format_cpy);
                           Ret (Some U_ERROR_MEMORY, (m3, f))
                       | (Some q, m1) =>
                           do p <- x_put m1 f (Some (tail w)) (Some (snd q));
                           let '(z, (m2, f1)) := p in
                           if z =? U_OK then do m3 <- x_free m2 (Some (fst q)); Ret (None, (m3, f1)) else Ret (Some U_ERROR_MEMORY, (m2, f1))
                       end
                     else
                       do p <- x_put m f (Some (tail w)) (Some (snd t));
                       let '(z, (m2, f1)) := p in
                       Ret (if z =? U_OK then None else Some U_ERROR_MEMORY, (m2, f1))
                   else Ret (None, (m, f)));
          let '(stop, (m1, f1)) := s in
          match stop with
          | Some z => Ret (Some z, (m1, (f1, cur)))
          | None =>
              do m2 <- x_free m1 (Some (fst c)); do d <- x_decode tl m2 (hd_error uw);
              x_params tl (fst d) f1 check (snd d) (List.tl uw) fr url_cpy format_cpy
          end
      end
  end.
(** u_request.c:196-260 ulfius_parse_url; [prefix] and [format] are the texts of the endpoint. The words of the url
    are taken from url_cpy (199, 203): without it strtok_r(NULL) reads a NULL saveptr *)
Definition x_parse_url (tl : Z -> Z) (m : mem) (url : str) (prefix format : ptr str) (f : fmap) (check : bool) : outcome (Z * (mem * fmap)) :=
  let '(uc, m1) := x_strdup m (Some url) in
  do pq <- x_dup m1 prefix;
  let '(pc, m2) := pq in
  do _ <- x_deref m2 uc;
  do d <- x_decode tl m2 (hd_error (words url));
  do pw <- (match pc with None => Ret [] | Some _ => do t <- x_deref (fst d) pc; Ret (words (snd t)) end);
  do k <- x_skip tl (fst d) (snd d) (List.tl (words url)) pw;
  let '(m3, (cur, uw)) := k in
  do m4 <- x_free m3 (addr pc);
  do fq <- x_dup m4 format;
  let '(fc, m5) := fq in
  if negb (is_null format) && is_null fc then Ret (U_ERROR_MEMORY, (m5, f))
  else
    do fw <- (match fc with None => Ret [] | Some _ => do t <- x_deref m5 fc; Ret (words (snd t)) end);
    do r <- x_params tl m5 f check cur uw fw uc fc;
    let '(stop, (m6, (f1, cur1))) := r in
    match stop with
    | Some z => Ret (z, (m6, f1))
    | None =>
        do m7 <- x_free m6 (addr cur1); do m8 <- x_free m7 (addr uc); do m9 <- x_free m8 (addr fc);
        Ret (U_OK, (m9, f1))
    end.

(** ulfius.c:1062-1066 *)
Fixpoint x_release_eps (m : mem) (l : list (slot rep)) : outcome mem :=
  match l with
  | [] => UB OutOfBounds
  | None :: _ => UB Uninit
  | Some None :: _ => Ret m
  | Some (Some p) :: r =>
      do x <- x_deref m (Some p);
      do m1 <- x_free m (addr (r_method (snd x))); do m2 <- x_free m1 (addr (r_prefix (snd x)));
      do m3 <- x_free m2 (addr (r_format (snd x))); do m4 <- x_free m3 (Some (fst x)); x_release_eps m4 r
  end.

(** what a callback was called with: its number and data, the code of ulfius_parse_url, the map of the url *)
Definition call := (Z * Z * Z * option amap)%type.
(** a map that u_map_init could not make has no arrays *)
Definition read_params (m : mem) (f : fmap) : outcome (option amap) :=
  match f_keys f with None => Ret None | Some _ => do a <- read_map m f; Ret (Some a) end.

Section Serve.
Variable order : list (nat * rep) -> list (nat * rep).
Variable tl : Z -> Z.
(** the answer of a callback: true ends the request *)
Variable ends : Z -> Z -> bool.

(** ulfius.c:636-648 the loop over the endpoints; [l] is what is left of the array *)
Fixpoint x_calls (m : mem) (l : list (slot rep)) (url : str) (f init : fmap) (check : bool) : outcome (list call * (mem * fmap)) :=
  match l with
  | [] => UB OutOfBounds
  | None :: _ => UB Uninit
  | Some None :: _ => Ret ([], (m, f))
  | Some (Some p) :: r =>
      do x <- x_deref m (Some p);
      do e <- x_empty m f;
      do c <- x_copy_into (fst (snd e)) (snd (snd e)) init;
      do z <- x_parse_url tl (fst (snd c)) url (r_prefix (snd x)) (r_format (snd x)) (snd (snd c)) check;
      let '(code, (m1, f1)) := z in
      do a <- read_params m1 f1;
      match r_cb (snd x) with
      | None => UB NullDeref
      | Some cb =>
          if ends cb (r_data (snd x)) then Ret ([(cb, r_data (snd x), code, a)], (m1, f1))
          else do t <- x_calls m1 r url f1 init check; Ret ((cb, r_data (snd x), code, a) :: fst t, snd t)
      end
  end.
(** ulfius.c:591-1066: the endpoints are found, run and released. [f] is request->map_url, [init] map_url_initial *)
Definition x_serve (m : mem) (table : option (list endpoint)) (dflt : option endpoint) (method url : str) (f init : fmap) (check : bool)
  : outcome (list call * (mem * fmap)) :=
  do r <- x_match order m table method url;
  do d <- x_default (fst r) (snd r) dflt;
  match snd d with
  | None => Ret ([], (fst d, f))
  | Some ret =>
      do a <- x_deref (fst d) ret;
      do c <- x_calls (fst d) (snd a) url f init check;
      let '(l, (m1, f1)) := c in
      do m2 <- x_release_eps m1 (snd a); do m3 <- x_free m2 (Some (fst a)); Ret (l, (m3, f1))
  end.
End Serve.

(** requests one after the other: method, path, check_utf8. The program also keeps the map of the url (ulfius.c:636
    empties it before each call) *)
Record ask := mk_ask { q_method : str; q_url : str; q_check : bool }.
Fixpoint x_requests (order : list (nat * rep) -> list (nat * rep)) (tl : Z -> Z) (ends : Z -> Z -> bool) (m : mem) (table : option (list endpoint))
  (dflt : option endpoint) (f init : fmap) (l : list ask) : outcome (list (list call) * (mem * fmap)) :=
  match l with
  | [] => Ret ([], (m, f))
  | q :: r =>
      do x <- x_serve order tl ends m table dflt (q_method q) (q_url q) f init (q_check q);
      do y <- x_requests order tl ends (fst (snd x)) table dflt (snd (snd x)) init r;
      Ret (fst x :: fst y, snd y)
  end.
