(** The memory of a struct _u_response, /repo/src/u_response.c and ulfius_set_websocket_response,
    ulfius_add_websocket_extension_message_perform of /repo/src/u_websocket.c: every text, every
    array, the map of headers, the websocket handle, its list of extensions and the structure are
    blocks of the heap, and an allocation may fail. CopyModel and CookieModel describe the values.
    Simplifications: the numbers of a response (status, timeout, stream sizes), the numbers of a
    cookie and the callbacks are left out; a text given to a function is in memory of the caller
    that the function does not change. *)
From Coq Require Import ZArith Bool List.
From Verif Require Import Base UMapModel OwnModel MapMemModel.
Import ListNotations.
Open Scope Z_scope.

(** a member of a structure; [None] before it is written *)
Definition member (A : Type) := option A.
Definition x_member {A} (x : member A) : outcome A := match x with Some a => Ret a | None => UB Uninit end.

(** o_strdup of a text of the caller: NULL gives NULL *)
Definition x_strdup (m : mem) (s : option str) : ptr str * mem :=
  match s with None => (None, m) | Some t => let '(p, m1) := x_malloc m in (at_block p t, m1) end.
(** o_strdup of a text in a block *)
Definition x_dup (m : mem) (p : ptr str) : outcome (ptr str * mem) :=
  match p with None => Ret (None, m) | Some _ => do x <- x_deref m p; Ret (x_strdup m (Some (snd x))) end.
Definition is_null {A} (p : ptr A) : bool := match p with None => true | Some _ => false end.

(** struct _u_cookie, include/ulfius.h:215-225 *)
Record hcookie := mk_hcookie { k_key : ptr str; k_value : ptr str; k_expires : ptr str; k_domain : ptr str; k_path : ptr str }.
Definition null_cookie : hcookie := mk_hcookie None None None None None.
(** struct _websocket_extension, include/ulfius.h:1579-1616 *)
Record hext := mk_hext { e_server : ptr str; e_client : ptr str }.
(** struct _websocket_handle, include/ulfius.h:2138-2156; the struct _pointer_list of orcania holds an array of pointers,
    NULL when it is empty *)
Record hhandle := mk_hhandle { w_protocol : ptr str; w_extensions : ptr str; w_list : ptr (ptr (list (ptr hext))) }.
(** struct _u_response, include/ulfius.h:273-291 *)
Record hresp := mk_hresp {
  q_protocol : member (ptr str);
  q_header : member (ptr fmap);
  q_realm : member (ptr str);
  q_cookies : member (ptr (list hcookie));
  q_nb : member nat;
  q_body : member (ptr (list Z));
  q_len : member Z;
  q_handle : member (ptr hhandle)
}.
Definition raw_resp : hresp := mk_hresp None None None None None None None None.

(** u_response.c:290-306 ulfius_clean_cookie *)
Definition x_clean_cookie (m : mem) (c : hcookie) : outcome (mem * hcookie) :=
  do m1 <- x_free m (addr (k_key c)); do m2 <- x_free m1 (addr (k_value c)); do m3 <- x_free m2 (addr (k_expires c));
  do m4 <- x_free m3 (addr (k_domain c)); do m5 <- x_free m4 (addr (k_path c));
  Ret (m5, null_cookie).

(** u_response.c:308-331 ulfius_copy_cookie: a missing text releases the four others, and the
    pointers stay *)
Definition x_copy_cookie (m : mem) (c : hcookie) : outcome (Z * (mem * hcookie)) :=
  do a <- x_dup m (k_key c); do b <- x_dup (snd a) (k_value c); do d <- x_dup (snd b) (k_expires c);
  do e <- x_dup (snd d) (k_domain c); do f <- x_dup (snd e) (k_path c);
  let n := mk_hcookie (fst a) (fst b) (fst d) (fst e) (fst f) in
  if is_null (k_path n) || is_null (k_domain n) || is_null (k_expires n) || is_null (k_value n) then
    do m1 <- x_free (snd f) (addr (k_path n)); do m2 <- x_free m1 (addr (k_domain n));
    do m3 <- x_free m2 (addr (k_expires n)); do m4 <- x_free m3 (addr (k_value n));
    Ret (U_ERROR_MEMORY, (m4, n))
  else Ret (U_OK, (snd f, n)).

(** u_response.c:340-342 the loop over the cookies, [n] iterations from [i]. The texts set to NULL
    in the array are not read again before the array is released. *)
Fixpoint x_clean_cookies (m : mem) (cs : ptr (list hcookie)) (i n : nat) : outcome mem :=
  match n with
  | O => Ret m
  | S n' =>
      do a <- x_deref m cs; do c <- aget (snd a) i; do x <- x_clean_cookie m c;
      x_clean_cookies (fst x) cs (S i) n'
  end.

(** u_websocket.c:65-75 ulfius_free_websocket_extension *)
Definition x_free_ext (m : mem) (e : ptr hext) : outcome mem :=
  match e with
  | None => Ret m
  | Some _ =>
      do x <- x_deref m e;
      do m1 <- x_free m (addr (e_server (snd x))); do m2 <- x_free m1 (addr (e_client (snd x)));
      x_free m2 (Some (fst x))
  end.
Fixpoint x_free_exts (m : mem) (l : list (ptr hext)) : outcome mem :=
  match l with [] => Ret m | e :: r => do m1 <- x_free_ext m e; x_free_exts m1 r end.
(** pointer_list_clean_free of orcania with ulfius_free_websocket_extension: the elements, then the
    array; the structure of the list stays *)
Definition x_clean_list (m : mem) (l : ptr (ptr (list (ptr hext)))) : outcome mem :=
  match l with
  | None => Ret m
  | Some _ =>
      do x <- x_deref m l;
      match snd x with
      | None => Ret m
      | Some _ => do a <- x_deref m (snd x); do m1 <- x_free_exts m (snd a); x_free m1 (Some (fst a))
      end
  end.

(** u_response.c:349-357 *)
Definition x_clean_handle (m : mem) (w : ptr hhandle) : outcome mem :=
  match w with
  | None => Ret m
  | Some _ =>
      do x <- x_deref m w;
      do m1 <- x_free m (addr (w_protocol (snd x))); do m2 <- x_free m1 (addr (w_extensions (snd x)));
      do m3 <- x_clean_list m2 (w_list (snd x)); do m4 <- x_free m3 (addr (w_list (snd x)));
      x_free m4 (Some (fst x))
  end.

(** u_response.c:333-363 ulfius_clean_response: nb_cookies and websocket_handle keep their values *)
Definition x_clean_resp (m : mem) (r : hresp) : outcome (mem * hresp) :=
  do p <- x_member (q_protocol r); do m1 <- x_free m (addr p);
  do h <- x_member (q_header r);
  do m2 <- (match h with None => Ret m1 | Some (i, f) => x_clean_full m1 i f end);
  do n <- x_member (q_nb r);
  do m3 <- (match n with
            | O => Ret m2
            | S _ => do cs <- x_member (q_cookies r); x_clean_cookies m2 cs 0 n
            end);
  do a <- x_member (q_realm r); do m4 <- x_free m3 (addr a);
  do cs <- x_member (q_cookies r); do m5 <- x_free m4 (addr cs);
  do b <- x_member (q_body r); do m6 <- x_free m5 (addr b);
  do w <- x_member (q_handle r); do m7 <- x_clean_handle m6 w;
  Ret (m7, mk_hresp (Some None) (Some None) (Some None) (Some None) (Some n) (Some None) (q_len r) (Some w)).
(** u_response.c:365-372 ulfius_clean_response_full; [p] is the block of the structure *)
Definition x_clean_resp_full (m : mem) (p : nat) (r : hresp) : outcome mem :=
  do x <- x_clean_resp m r; x_free (fst x) (Some p).

(** u_response.c:374-425 ulfius_init_response on a structure whose members are [r] *)
Definition x_init_resp (m : mem) (r : hresp) : outcome (Z * (mem * hresp)) :=
  match x_malloc m with
  | (None, m1) =>
      Ret (U_ERROR_MEMORY, (m1, mk_hresp (q_protocol r) (Some None) (q_realm r) (q_cookies r) (q_nb r) (q_body r) (q_len r) (q_handle r)))
  | (Some ph, m1) =>
      do x <- x_init m1;
      let '(c, (m2, f)) := x in
      if negb (c =? U_OK) then
        Ret (U_ERROR_PARAMS, (m2, mk_hresp (q_protocol r) (Some (Some (ph, f))) (q_realm r) (q_cookies r) (q_nb r) (q_body r) (q_len r) (q_handle r)))
      else
        let done w := mk_hresp (Some None) (Some (Some (ph, f))) (Some None) (Some None) (Some O) (Some None) (Some 0) (Some w) in
        match x_malloc m2 with
        | (None, m3) => Ret (U_ERROR_MEMORY, (m3, done None))
        | (Some pw, m3) =>
            match x_malloc m3 with
            | (None, m4) => do m5 <- x_free m4 (Some pw); Ret (U_ERROR_MEMORY, (m5, done (Some (pw, mk_hhandle None None None))))
            | (Some pl, m4) => Ret (U_OK, (m4, done (Some (pw, mk_hhandle None None (Some (pl, None))))))
            end
        end
  end.

(** u_response.c:446-448 the cookies, [n] iterations from [i]; the result of ulfius_copy_cookie is
    not looked at *)
Fixpoint x_copy_cookies (m : mem) (cs : ptr (list hcookie)) (i n : nat) : outcome (mem * list hcookie) :=
  match n with
  | O => Ret (m, [])
  | S n' =>
      do a <- x_deref m cs; do c <- aget (snd a) i;
      do x <- x_copy_cookie m c;
      do r <- x_copy_cookies (fst (snd x)) cs (S i) n';
      Ret (fst r, snd (snd x) :: snd r)
  end.

(** u_response.c:427-492 ulfius_copy_response; the members of the copy are returned also when it
    fails. The texts of [d] are written over. *)
Definition x_copy_resp (m : mem) (d s : hresp) : outcome (Z * (mem * hresp)) :=
  do sp <- x_member (q_protocol s); do p <- x_dup m sp;
  do sr <- x_member (q_realm s); do a <- x_dup (snd p) sr;
  let d1 := mk_hresp (Some (fst p)) (q_header d) (Some (fst a)) (q_cookies d) (q_nb d) (q_body d) (q_len d) (q_handle d) in
  if is_null (fst p) then Ret (U_ERROR_MEMORY, (snd a, d1))
  else
    do dh <- x_member (q_header d);
    do m1 <- (match dh with None => Ret (snd a) | Some (i, f) => x_clean_full (snd a) i f end);
    do sh <- x_member (q_header s);
    do c <- (match sh with
             | None => Ret (m1, None)
             | Some _ => do y <- x_deref m1 sh; x_copy m1 (snd y)
             end);
    let '(m2, h) := c in
    let d2 := mk_hresp (Some (fst p)) (Some h) (Some (fst a)) (q_cookies d) (q_nb d) (q_body d) (q_len d) (q_handle d) in
    match h with
    | None => Ret (U_ERROR_MEMORY, (m2, d2))
    | Some _ =>
        do n <- x_member (q_nb s);
        do sc <- x_member (q_cookies s);
        do k <- (match n with
                 | O => Ret (m2, Some None)
                 | S _ =>
                     match x_malloc m2 with
                     | (None, m3) => Ret (m3, None)
                     | (Some pc, m3) => do y <- x_copy_cookies m3 sc 0 n; Ret (fst y, Some (Some (pc, snd y)))
                     end
                 end);
        let '(m3, cs) := k in
        match cs with
        | None => Ret (U_ERROR_MEMORY, (m3, mk_hresp (Some (fst p)) (Some h) (Some (fst a)) (Some None) (Some n) (q_body d) (q_len d) (q_handle d)))
        | Some cs =>
            do sb <- x_member (q_body s); do sl <- x_member (q_len s);
            do b <- (if is_null sb || (sl =? 0) then Ret (m3, (q_body d, q_len d))
                     else do y <- x_deref m3 sb;
                          match x_malloc m3 with
                          | (None, m4) => Ret (m4, (Some None, q_len d))
                          | (Some pb, m4) => Ret (m4, (Some (Some (pb, zfirstn sl (snd y))), Some sl))
                          end);
            let '(m4, (db, dl)) := b in
            let d3 w := mk_hresp (Some (fst p)) (Some h) (Some (fst a)) (Some cs) (Some n) db dl w in
            if negb (is_null sb || (sl =? 0)) && match db with Some None => true | _ => false end
            then Ret (U_ERROR_MEMORY, (m4, d3 (q_handle d)))
            else
              do sw <- x_member (q_handle s);
              match sw with
              | None => Ret (U_OK, (m4, d3 (q_handle d)))
              | Some _ =>
                  do y <- x_deref m4 sw;
                  do dw <- x_member (q_handle d); do z <- x_deref m4 dw;
                  do wp <- x_dup m4 (w_protocol (snd y)); do we <- x_dup (snd wp) (w_extensions (snd y));
                  Ret (U_OK, (snd we, d3 (Some (Some (fst z, mk_hhandle (fst wp) (fst we) (w_list (snd z)))))))
              end
        end
    end.

(** u_response.c:494-515 ulfius_duplicate_response *)
Definition x_duplicate_resp (m : mem) (s : hresp) : outcome (mem * option (nat * hresp)) :=
  match x_malloc m with
  | (None, m1) => Ret (m1, None)
  | (Some p, m1) =>
      do x <- x_init_resp m1 raw_resp;
      let '(c, (m2, r)) := x in
      if c =? U_OK then
        do y <- x_copy_resp m2 r s;
        let '(c2, (m3, r2)) := y in
        if c2 =? U_OK then Ret (m3, Some (p, r2))
        else do m4 <- x_clean_resp_full m3 p r2; Ret (m4, None)
      else do m3 <- x_free m2 (Some p); Ret (m3, None)
  end.

Definition with_protocol (r : hresp) (p : ptr str) := mk_hresp (Some p) (q_header r) (q_realm r) (q_cookies r) (q_nb r) (q_body r) (q_len r) (q_handle r).
Definition with_header (r : hresp) (h : ptr fmap) := mk_hresp (q_protocol r) (Some h) (q_realm r) (q_cookies r) (q_nb r) (q_body r) (q_len r) (q_handle r).
Definition with_realm (r : hresp) (p : ptr str) := mk_hresp (q_protocol r) (q_header r) (Some p) (q_cookies r) (q_nb r) (q_body r) (q_len r) (q_handle r).
Definition with_cookies (r : hresp) (c : ptr (list hcookie)) (n : nat) := mk_hresp (q_protocol r) (q_header r) (q_realm r) (Some c) (Some n) (q_body r) (q_len r) (q_handle r).
Definition with_body (r : hresp) (b : ptr (list Z)) (n : Z) := mk_hresp (q_protocol r) (q_header r) (q_realm r) (q_cookies r) (q_nb r) (Some b) (Some n) (q_handle r).
Definition with_handle (r : hresp) (w : ptr hhandle) := mk_hresp (q_protocol r) (q_header r) (q_realm r) (q_cookies r) (q_nb r) (q_body r) (q_len r) (Some w).

(** u_send_request.c:158-168 the status line of a client response *)
Definition x_set_protocol (m : mem) (r : hresp) (s : str) : outcome (Z * (mem * hresp)) :=
  do p <- x_member (q_protocol r); do m1 <- x_free m (addr p);
  let '(n, m2) := x_strdup m1 (Some s) in
  Ret (if is_null n then U_ERROR_MEMORY else U_OK, (m2, with_protocol r n)).
(** u_response.c:621-629 U_OPT_AUTH_REALM: the result of o_strdup is not looked at *)
Definition x_set_realm (m : mem) (r : hresp) (s : option str) : outcome (Z * (mem * hresp)) :=
  do p <- x_member (q_realm r); do m1 <- x_free m (addr p);
  let '(n, m2) := x_strdup m1 (match s with Some [] => None | _ => s end) in
  Ret (U_OK, (m2, with_realm r n)).
(** u_response.c:615, 619 and 718-729 the headers *)
Definition x_on_header (m : mem) (r : hresp) (call : mem -> fmap -> outcome (Z * (mem * fmap))) : outcome (Z * (mem * hresp)) :=
  do h <- x_member (q_header r); do y <- x_deref m h; do z <- call m (snd y);
  let '(c, (m1, f)) := z in Ret (c, (m1, with_header r (Some (fst y, f)))).

(** u_response.c:517-533 ulfius_set_string_body_response: the old length stays when there is no
    memory *)
Definition x_string_body (m : mem) (r : hresp) (s : str) : outcome (Z * (mem * hresp)) :=
  do b <- x_member (q_body r); do m1 <- x_free m (addr b); do l <- x_member (q_len r);
  match x_malloc m1 with
  | (None, m2) => Ret (U_ERROR_MEMORY, (m2, with_body r None l))
  | (Some i, m2) => Ret (U_OK, (m2, with_body r (Some (i, s ++ [0])) (zlen s)))
  end.
(** u_response.c:535-555 ulfius_set_binary_body_response *)
Definition x_binary_body (m : mem) (r : hresp) (s : list Z) : outcome (Z * (mem * hresp)) :=
  if zlen s =? 0 then Ret (U_ERROR_PARAMS, (m, r))
  else
    do b <- x_member (q_body r); do m1 <- x_free m (addr b);
    match x_malloc m1 with
    | (None, m2) => Ret (U_ERROR_MEMORY, (m2, with_body r None 0))
    | (Some i, m2) => Ret (U_OK, (m2, with_body r (Some (i, s)) (zlen s)))
    end.
(** u_response.c:557-570 ulfius_set_empty_body_response; ulfius_set_stream_response, 572-598, does
    the same to the memory *)
Definition x_empty_body (m : mem) (r : hresp) : outcome (Z * (mem * hresp)) :=
  do b <- x_member (q_body r); do m1 <- x_free m (addr b); Ret (U_OK, (m1, with_body r None 0)).

(** u_response.c:217-218 the search for the cookie, [n] iterations from [i] *)
Fixpoint x_find_cookie (m : mem) (cs : ptr (list hcookie)) (key : str) (i n : nat) : outcome (option nat) :=
  match n with
  | O => Ret None
  | S n' =>
      do a <- x_deref m cs; do c <- aget (snd a) i; do b <- x_key_is m (fun x => str_eqb x key) (k_key c);
      if b : bool then Ret (Some i) else x_find_cookie m cs key (S i) n'
  end.
Definition missing (given : option str) (p : ptr str) : bool := match given with Some _ => is_null p | None => false end.
(** u_response.c:213-288 ulfius_add_same_site_cookie_to_response with a key and a known same_site.
    The array holds the cookies; after the last one there may be one that could not be filled. *)
Definition x_add_cookie (m : mem) (r : hresp) (key : str) (value expires domain path : option str) : outcome (Z * (mem * hresp)) :=
  do n <- x_member (q_nb r); do cs <- x_member (q_cookies r);
  do found <- x_find_cookie m cs key 0 n;
  let v := match value with Some s => s | None => [] end in
  match found with
  | Some i =>
      do a <- x_deref m cs; do c <- aget (snd a) i;
      do m1 <- x_free m (addr (k_value c)); do m2 <- x_free m1 (addr (k_expires c));
      do m3 <- x_free m2 (addr (k_domain c)); do m4 <- x_free m3 (addr (k_path c));
      let '(nv, m5) := x_strdup m4 (Some v) in let '(ne, m6) := x_strdup m5 expires in
      let '(nd, m7) := x_strdup m6 domain in let '(np, m8) := x_strdup m7 path in
      let c1 := mk_hcookie (k_key c) nv ne nd np in
      if missing value nv || missing expires ne || missing domain nd || missing path np then
        do x <- x_clean_cookie m8 c1;
        do l <- aset (snd a) i (snd x);
        Ret (U_ERROR_MEMORY, (fst x, with_cookies r (Some (fst a, l)) n))
      else
        do l <- aset (snd a) i c1; Ret (U_OK, (m8, with_cookies r (Some (fst a, l)) n))
  | None =>
      do g <- (match n with
               | O => Ret (x_malloc m)
               | S _ => x_realloc m (addr cs)
               end);
      let '(pa, m0) := g in
      match pa with
      | None => Ret (U_ERROR_MEMORY, (m0, with_cookies r None n))
      | Some pa =>
          let old := match n with O => [] | S _ => match cs with Some (_, l) => firstn n l | None => [] end end in
          let '(nk, m1) := x_strdup m0 (Some key) in
          let '(nv, m2) := x_strdup m1 (Some v) in let '(ne, m3) := x_strdup m2 expires in
          let '(nd, m4) := x_strdup m3 domain in let '(np, m5) := x_strdup m4 path in
          let c1 := mk_hcookie nk nv ne nd np in
          if is_null nk || missing value nv || missing expires ne || missing domain nd || missing path np then
            do x <- x_clean_cookie m5 c1;
            Ret (U_ERROR_MEMORY, (fst x, with_cookies r (Some (pa, old ++ [snd x])) n))
          else Ret (U_OK, (m5, with_cookies r (Some (pa, old ++ [c1])) (S n)))
      end
  end.

(** u_websocket.c:1845-1889 ulfius_set_websocket_response with a callback *)
Definition x_set_websocket (m : mem) (r : hresp) (protocol extensions : option str) : outcome (Z * (mem * hresp)) :=
  do w <- x_member (q_handle r); do y <- x_deref m w;
  do m1 <- x_free m (addr (w_protocol (snd y)));
  let '(np, m2) := x_strdup m1 protocol in
  if missing protocol np then Ret (U_ERROR_MEMORY, (m2, with_handle r (Some (fst y, mk_hhandle np (w_extensions (snd y)) (w_list (snd y))))))
  else
    do m3 <- x_free m2 (addr (w_extensions (snd y)));
    let '(ne, m4) := x_strdup m3 extensions in
    let r1 := with_handle r (Some (fst y, mk_hhandle np ne (w_list (snd y)))) in
    if missing extensions ne then do m5 <- x_free m4 (addr np); Ret (U_ERROR_MEMORY, (m5, r1))
    else Ret (U_OK, (m4, r1)).

(** u_websocket.c:1890-1959 ulfius_add_websocket_extension_message_perform with a name, a callback
    and a known rsv. The result of o_strdup is not looked at. pointer_list_append of orcania grows
    the array by one; when it cannot, the extension is in no list. *)
Definition x_add_extension (m : mem) (r : hresp) (name : str) : outcome (Z * (mem * hresp)) :=
  match x_malloc m with
  | (None, m1) => Ret (U_ERROR_MEMORY, (m1, r))
  | (Some pe, m1) =>
      let '(ns, m2) := x_strdup m1 (Some name) in
      do w <- x_member (q_handle r); do y <- x_deref m2 w;
      do l <- x_deref m2 (w_list (snd y));
      do g <- x_realloc m2 (addr (snd l));
      let '(pa, m3) := g in
      match pa with
      | None => Ret (U_ERROR, (m3, r))
      | Some pa =>
          let old := match snd l with Some (_, a) => a | None => [] end in
          Ret (U_OK, (m3, with_handle r (Some (fst y, mk_hhandle (w_protocol (snd y)) (w_extensions (snd y))
                                   (Some (fst l, Some (pa, old ++ [Some (pe, mk_hext ns None)])))))))
      end
  end.
