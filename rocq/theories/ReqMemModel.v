(** The memory of a struct _u_request, /repo/src/u_request.c, and the parts of
    /repo/src/ulfius.c that fill the request of a connection: every text, the address, the four
    maps, the body, the certificate and the structure are blocks of the heap, and an allocation may
    fail. CopyModel and PropModel describe the values.
    Simplifications: the numbers of a request are left out; a text given to a function is in memory
    of the caller that the function does not change; the eleven texts are a list, in the order of
    [T_PROTOCOL] to [T_KEY_PASSWORD], and the four maps a list, in the order of [M_URL] to [M_POST].
    A certificate of GnuTLS is one block, holding the text of its PEM form once it is imported:
    gnutls_x509_crt_init allocates it, or writes NULL; gnutls_x509_crt_deinit releases it; an import
    does not allocate; a certificate that was imported can be exported, and the text exported can be
    imported; one that was not imported cannot be exported. *)
From Coq Require Import ZArith Bool List.
From Verif Require Import Base UMapModel OwnModel MapMemModel RespMemModel.
Import ListNotations.
Open Scope Z_scope.

(** struct _u_request, include/ulfius.h:233-265 *)
Record hreq := mk_hreq {
  rq_texts : list (member (ptr str));
  rq_addr : member (ptr (list Z));
  rq_maps : list (member (ptr fmap));
  rq_body : member (ptr (list Z));
  rq_len : member Z;
  rq_cert : member (ptr (option str))
}.
Definition T_PROTOCOL : nat := 0. Definition T_VERB : nat := 1. Definition T_URL : nat := 2. Definition T_PATH : nat := 3.
Definition T_PROXY : nat := 4. Definition T_USER : nat := 5. Definition T_PASSWORD : nat := 6. Definition T_CA : nat := 7.
Definition T_CERT : nat := 8. Definition T_KEY : nat := 9. Definition T_KEY_PASSWORD : nat := 10.
Definition M_URL : nat := 0. Definition M_HEADER : nat := 1. Definition M_COOKIE : nat := 2. Definition M_POST : nat := 3.
(** the structure just allocated *)
Definition raw_req : hreq := mk_hreq (repeat None 11) None (repeat None 4) None None None.

(** a member of a structure, by its position *)
Definition x_at {A} (l : list (member A)) (k : nat) : outcome A :=
  match nth_error l k with Some x => x_member x | None => UB OutOfBounds end.

(** o_free of some texts *)
Fixpoint x_free_texts (m : mem) (l : list (member (ptr str))) (ks : list nat) : outcome mem :=
  match ks with [] => Ret m | k :: r => do p <- x_at l k; do m1 <- x_free m (addr p); x_free_texts m1 l r end.
(** u_map_clean_full of the maps; of NULL it does nothing *)
Fixpoint x_clean_req_maps (m : mem) (l : list (member (ptr fmap))) : outcome mem :=
  match l with
  | [] => Ret m
  | x :: r =>
      do h <- x_member x;
      do m1 <- (match h with None => Ret m | Some (i, f) => x_clean_full m i f end);
      x_clean_req_maps m1 r
  end.
(** the texts that u_request.c:338-341 sets to NULL *)
Definition reset_texts (l : list (member (ptr str))) : list (member (ptr str)) :=
  fold_left (fun l k => set_nth l k (Some None)) [T_PROTOCOL; T_VERB; T_URL; T_PROXY] l.
(** u_request.c:323-359 ulfius_clean_request *)
Definition x_clean_req (m : mem) (r : hreq) : outcome (mem * hreq) :=
  do m1 <- x_free_texts m (rq_texts r) [T_PROTOCOL; T_VERB; T_URL; T_PATH; T_PROXY; T_USER; T_PASSWORD];
  do a <- x_member (rq_addr r); do m2 <- x_free m1 (addr a);
  do m3 <- x_free_texts m2 (rq_texts r) [T_CA];
  do m4 <- x_clean_req_maps m3 (rq_maps r);
  do b <- x_member (rq_body r); do m5 <- x_free m4 (addr b);
  do c <- x_member (rq_cert r); do m6 <- x_free m5 (addr c);
  do m7 <- x_free_texts m6 (rq_texts r) [T_CERT; T_KEY; T_KEY_PASSWORD];
  Ret (m7, mk_hreq (reset_texts (rq_texts r)) (Some None) (repeat (Some None) 4) (Some None) (rq_len r) (rq_cert r)).
(** u_request.c:366-373 ulfius_clean_request_full; [p] is the block of the structure *)
Definition x_clean_req_full (m : mem) (p : nat) (r : hreq) : outcome mem :=
  do x <- x_clean_req m r; x_free (fst x) (Some p).

(** u_request.c:281-284 u_map_init of the four maps: the results are not looked at *)
Fixpoint x_init_maps (m : mem) (ps : list nat) : outcome (mem * list (member (ptr fmap))) :=
  match ps with
  | [] => Ret (m, [])
  | p :: r => do x <- x_init m; do y <- x_init_maps (fst (snd x)) r; Ret (fst y, Some (Some (p, snd (snd x))) :: snd y)
  end.
(** u_request.c:267-316 ulfius_init_request on a structure whose members are [r]. The contents of
    a map that was allocated but not initialised cannot be read, so when one of the four has no
    memory the others are shown as [None]: ulfius_clean_request reads http_protocol first. *)
Definition x_init_req (m : mem) (r : hreq) : outcome (Z * (mem * hreq)) :=
  let '(p1, m1) := x_malloc m in let '(p2, m2) := x_malloc m1 in
  let '(p3, m3) := x_malloc m2 in let '(p4, m4) := x_malloc m3 in
  let ts := set_nth (set_nth (rq_texts r) T_USER (Some None)) T_PASSWORD (Some None) in
  match p1, p2, p3, p4 with
  | Some i1, Some i2, Some i3, Some i4 =>
      do x <- x_init_maps m4 [i1; i2; i3; i4];
      Ret (U_OK, (fst x, mk_hreq (repeat (Some None) 11) (Some None) (snd x) (Some None) (Some 0) (Some None)))
  | _, _, _, _ =>
      do x <- x_clean_req m4 (mk_hreq ts (rq_addr r) (repeat None 4) (rq_body r) (rq_len r) (rq_cert r));
      Ret (U_ERROR_MEMORY, x)
  end.

(** o_strdup of some texts of [s] into the texts of [d] *)
Fixpoint x_copy_texts (m : mem) (d s : list (member (ptr str))) (ks : list nat) : outcome (mem * list (member (ptr str))) :=
  match ks with
  | [] => Ret (m, d)
  | k :: r => do p <- x_at s k; do x <- x_dup m p; x_copy_texts (snd x) (set_nth d k (Some (fst x))) s r
  end.
(** u_request.c:413-451 one map of the copy: u_map_clean, u_map_init, u_map_copy_into *)
Definition x_copy_map (m : mem) (d s : ptr fmap) : outcome (Z * (mem * ptr fmap)) :=
  match d with
  | None => Ret (U_ERROR_MEMORY, (m, d))
  | Some _ =>
      do y <- x_deref m d;
      do a <- x_clean m (snd y);
      do b <- x_init (fst a);
      let '(c, (m1, f)) := b in
      if c =? U_OK then
        do z <- x_deref m1 s;
        do e <- x_copy_into m1 f (snd z);
        let '(c2, (m2, f2)) := e in
        Ret (if c2 =? U_OK then U_OK else U_ERROR, (m2, Some (fst y, f2)))
      else Ret (U_ERROR_MEMORY, (m1, Some (fst y, f)))
  end.
(** the four maps, one after the other; after the first error the others stay as they are *)
Fixpoint x_copy_maps (m : mem) (ret : Z) (d s : list (member (ptr fmap))) : outcome (Z * (mem * list (member (ptr fmap)))) :=
  match d, s with
  | x :: d', y :: s' =>
      if ret =? U_OK then
        do dm <- x_member x; do sm <- x_member y;
        do z <- x_copy_map m dm sm;
        do r <- x_copy_maps (fst (snd z)) (fst z) d' s';
        Ret (fst r, (fst (snd r), Some (snd (snd z)) :: snd (snd r)))
      else Ret (ret, (m, d))
  | _, _ => Ret (ret, (m, d))
  end.
(** u_request.c:1008-1023 ulfius_export_client_certificate_pem: GnuTLS gives a text, it is copied
    and released *)
Definition x_export_cert (m : mem) (c : ptr (option str)) : outcome (mem * ptr str) :=
  match c with
  | None => Ret (m, None)
  | Some _ =>
      do x <- x_deref m c;
      match snd x with
      | None => Ret (m, None)
      | Some pem =>
          let '(g, m1) := x_strdup m (Some pem) in
          match g with
          | None => Ret (m1, None)
          | Some _ => do t <- x_dup m1 g; do m2 <- x_free (snd t) (addr g); Ret (m2, fst t)
          end
      end
  end.
(** u_request.c:1032-1053 ulfius_import_client_certificate_pem; [good] says whether GnuTLS can read
    the text. The certificate that the request has is written over. *)
Definition x_import_cert (m : mem) (c : ptr (option str)) (good : bool) (text : option str) : Z * (mem * ptr (option str)) :=
  match text with
  | None => (U_ERROR_PARAMS, (m, c))
  | Some pem =>
      match x_malloc m with
      | (None, m1) => (U_ERROR, (m1, None))
      | (Some i, m1) => if good then (U_OK, (m1, Some (i, Some pem))) else (U_ERROR, (m1, Some (i, None)))
      end
  end.
(** u_request.c:469-481 the certificate of the copy: gnutls_x509_crt_init is called here, and again
    by the import *)
Definition x_copy_cert (m : mem) (d s : ptr (option str)) : outcome (Z * (mem * ptr (option str))) :=
  match s with
  | None => Ret (U_OK, (m, d))
  | Some _ =>
      match x_malloc m with
      | (None, m1) => Ret (U_ERROR, (m1, None))
      | (Some i, m1) =>
          do t <- x_export_cert m1 s;
          do text <- (match snd t with None => Ret None | Some _ => do y <- x_deref (fst t) (snd t); Ret (Some (snd y)) end);
          let '(c, (m2, n)) := x_import_cert (fst t) (Some (i, None)) true text in
          do m3 <- x_free m2 (addr (snd t));
          Ret (if c =? U_OK then U_OK else U_ERROR, (m3, n))
      end
  end.
(** u_request.c:380-487 ulfius_copy_request; the members of the copy are returned also when it
    fails. The texts, the address, the body and the certificate of [d] are written over. *)
Definition x_copy_req (m : mem) (d s : hreq) : outcome (Z * (mem * hreq)) :=
  do t <- x_copy_texts m (rq_texts d) (rq_texts s) [T_PROTOCOL; T_VERB; T_URL; T_PATH; T_PROXY; T_CA; T_USER; T_PASSWORD];
  do sa <- x_member (rq_addr s);
  do a <- (match sa with
           | None => Ret (U_OK, (fst t, rq_addr d))
           | Some _ =>
               match x_malloc (fst t) with
               | (None, m1) => Ret (U_ERROR_MEMORY, (m1, Some None))
               | (Some i, m1) => do y <- x_deref m1 sa; Ret (U_OK, (m1, Some (Some (i, snd y))))
               end
           end);
  let '(c1, (m1, da)) := a in
  do h <- x_copy_maps m1 c1 (rq_maps d) (rq_maps s);
  let '(c2, (m2, dm)) := h in
  do b <- (if c2 =? U_OK then
             do sl <- x_member (rq_len s);
             if sl =? 0 then Ret (c2, (m2, (rq_body d, rq_len d)))
             else
               match x_malloc m2 with
               | (None, m3) => Ret (U_ERROR_MEMORY, (m3, (Some None, Some sl)))
               | (Some i, m3) =>
                   do sb <- x_member (rq_body s); do y <- x_deref m3 sb;
                   if zlen (snd y) <? sl then UB OutOfBounds
                   else Ret (U_OK, (m3, (Some (Some (i, zfirstn sl (snd y))), Some sl)))
               end
           else Ret (c2, (m2, (rq_body d, rq_len d))));
  let '(c3, (m3, (db, dl))) := b in
  do u <- x_copy_texts m3 (snd t) (rq_texts s) [T_CERT; T_KEY; T_KEY_PASSWORD];
  do k <- (if c3 =? U_OK then
             do sc <- x_member (rq_cert s); do dc <- x_member (rq_cert d);
             do y <- x_copy_cert (fst u) dc sc; Ret (fst y, (fst (snd y), Some (snd (snd y))))
           else Ret (c3, (fst u, rq_cert d)));
  let '(c4, (m4, dc)) := k in
  Ret (c4, (m4, mk_hreq (snd u) da dm db dl dc)).

(** u_request.c:767-790 ulfius_duplicate_request *)
Definition x_duplicate_req (m : mem) (s : hreq) : outcome (mem * option (nat * hreq)) :=
  match x_malloc m with
  | (None, m1) => Ret (m1, None)
  | (Some p, m1) =>
      do x <- x_init_req m1 raw_req;
      let '(c, (m2, r)) := x in
      if c =? U_OK then
        do y <- x_copy_req m2 r s;
        let '(c2, (m3, r2)) := y in
        if c2 =? U_OK then Ret (m3, Some (p, r2))
        else do m4 <- x_clean_req_full m3 p r2; Ret (m4, None)
      else do m3 <- x_free m2 (Some p); Ret (m3, None)
  end.

Definition with_texts (r : hreq) ts := mk_hreq ts (rq_addr r) (rq_maps r) (rq_body r) (rq_len r) (rq_cert r).
Definition with_addr (r : hreq) a := mk_hreq (rq_texts r) (Some a) (rq_maps r) (rq_body r) (rq_len r) (rq_cert r).
Definition with_map (r : hreq) k h := mk_hreq (rq_texts r) (rq_addr r) (set_nth (rq_maps r) k (Some h)) (rq_body r) (rq_len r) (rq_cert r).
Definition with_req_body (r : hreq) b n := mk_hreq (rq_texts r) (rq_addr r) (rq_maps r) (Some b) (Some n) (rq_cert r).
Definition with_cert (r : hreq) c := mk_hreq (rq_texts r) (rq_addr r) (rq_maps r) (rq_body r) (rq_len r) (Some c).

(** the texts that ulfius_set_request_properties can set *)
Definition can_set (k : nat) : bool :=
  existsb (Nat.eqb k) [T_VERB; T_URL; T_PROXY; T_CA; T_USER; T_PASSWORD; T_CERT; T_KEY; T_KEY_PASSWORD].
(** u_request.c:508-605, 665-692 the options of ulfius_set_request_properties that set a text: the
    result of o_strdup is not looked at. U_OPT_AUTH_BASIC sets the user and then the password;
    U_OPT_HTTP_URL_APPEND is left out. *)
Definition x_set_text (m : mem) (r : hreq) (k : nat) (s : option str) : outcome (Z * (mem * hreq)) :=
  if can_set k then
    do p <- x_at (rq_texts r) k; do m1 <- x_free m (addr p);
    let '(n, m2) := x_strdup m1 (match s with Some [] => None | _ => s end) in
    Ret (U_OK, (m2, with_texts r (set_nth (rq_texts r) k (Some n))))
  else Ret (U_ERROR_PARAMS, (m, r)).
(** u_request.c:606-645 the options that change a map *)
Definition x_on_req_map (m : mem) (r : hreq) (k : nat) (call : mem -> fmap -> outcome (Z * (mem * fmap))) : outcome (Z * (mem * hreq)) :=
  if (k <? 4)%nat then
    do h <- x_at (rq_maps r) k; do y <- x_deref m h; do z <- call m (snd y);
    let '(c, (m1, f)) := z in Ret (c, (m1, with_map r k (Some (fst y, f))))
  else Ret (U_ERROR_PARAMS, (m, r)).
(** u_request.c:704-719 ulfius_set_string_body_request: the old length stays when there is no
    memory *)
Definition x_req_string_body (m : mem) (r : hreq) (s : str) : outcome (Z * (mem * hreq)) :=
  do b <- x_member (rq_body r); do m1 <- x_free m (addr b); do l <- x_member (rq_len r);
  match x_malloc m1 with
  | (None, m2) => Ret (U_ERROR_MEMORY, (m2, with_req_body r None l))
  | (Some i, m2) => Ret (U_OK, (m2, with_req_body r (Some (i, s ++ [0])) (zlen s)))
  end.
(** u_request.c:726-744 ulfius_set_binary_body_request *)
Definition x_req_binary_body (m : mem) (r : hreq) (s : list Z) : outcome (Z * (mem * hreq)) :=
  if zlen s =? 0 then Ret (U_ERROR_PARAMS, (m, r))
  else
    do b <- x_member (rq_body r); do m1 <- x_free m (addr b);
    match x_malloc m1 with
    | (None, m2) => Ret (U_ERROR_MEMORY, (m2, with_req_body r None 0))
    | (Some i, m2) => Ret (U_OK, (m2, with_req_body r (Some (i, s)) (zlen s)))
    end.
(** u_request.c:751-761 ulfius_set_empty_body_request *)
Definition x_req_empty_body (m : mem) (r : hreq) : outcome (Z * (mem * hreq)) :=
  do b <- x_member (rq_body r); do m1 <- x_free m (addr b); Ret (U_OK, (m1, with_req_body r None 0)).
(** ulfius_import_client_certificate_pem on a request *)
Definition x_set_cert (m : mem) (r : hreq) (good : bool) (pem : str) : outcome (Z * (mem * hreq)) :=
  do c <- x_member (rq_cert r);
  let '(z, (m1, n)) := x_import_cert m c good (Some pem) in
  Ret (z, (m1, with_cert r n)).

(** ulfius.c:215-242 the request in ulfius_uri_logger; [p] is the block of the structure *)
Definition x_uri_logger (m : mem) (uri path : str) : outcome (mem * option (nat * hreq)) :=
  match x_malloc m with
  | (None, m1) => Ret (m1, None)
  | (Some p, m1) =>
      do x <- x_init_req m1 raw_req;
      let '(c, (m2, r)) := x in
      if negb (c =? U_OK) then do m3 <- x_clean_req_full m2 p r; Ret (m3, None)
      else
        let '(u, m3) := x_strdup m2 (Some uri) in let '(q, m4) := x_strdup m3 (Some path) in
        let r1 := with_texts r (set_nth (set_nth (rq_texts r) T_URL (Some u)) T_PATH (Some q)) in
        if is_null u || is_null q then do m5 <- x_clean_req_full m4 p r1; Ret (m5, None)
        else Ret (m4, Some (p, r1))
  end.
(** ulfius.c:506-535 the first call of ulfius_webservice_dispatcher: the certificate of the peer, if
    it has one ([cert]: its text, when GnuTLS can read it), the version, the method and the address.
    The answer is U_OK for going on and U_ERROR_MEMORY for MHD_NO. Simplification: the address is
    written also when it has a block and the method has none. *)
Definition x_first_call (m : mem) (r : hreq) (cert : option (option str)) (version method : str) (address : list Z) : outcome (Z * (mem * hreq)) :=
  do c <- (match cert with
           | None => do c <- x_member (rq_cert r); Ret (m, c)
           | Some t =>
               match x_malloc m with
               | (None, m1) => Ret (m1, None)
               | (Some i, m1) =>
                   match t with
                   | Some pem => Ret (m1, Some (i, Some pem))
                   | None => do m2 <- x_free m1 (Some i); Ret (m2, Some (i, None))
                   end
               end
           end);
  let '(v, m2) := x_strdup (fst c) (Some version) in let '(h, m3) := x_strdup m2 (Some method) in
  let '(a, m4) := x_malloc m3 in
  let r1 := with_addr (with_cert (with_texts r (set_nth (set_nth (rq_texts r) T_PROTOCOL (Some v)) T_VERB (Some h))) (snd c)) (at_block a address) in
  Ret (match a with None => U_ERROR_MEMORY | Some _ => if is_null h then U_ERROR_MEMORY else U_OK end, (m4, r1)).
