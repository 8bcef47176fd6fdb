(** The memory of websockets, /repo/src/u_websocket.c: every message, its data, the two lists of
    messages and their arrays, the list of extensions, the extensions with their names and
    contexts, the copies of the data made for sending and receiving, every frame, the manager and
    the structure are blocks of the heap, and an allocation may fail. WsSendModel, WsRecvModel and
    TalkExtModel describe the values.
    Simplifications: the request, the protocol and the texts of the handshake are left out; the data
    given to a function is in memory of the caller that the function does not change; a mask can
    always be drawn; sending a frame takes no memory. The thread of a websocket and the program take
    turns, one call or one message of the peer at a time (the locks are treated by C59 to C62). *)
From Coq Require Import ZArith Bool List.
From Verif Require Import Base UMapModel OwnModel MapMemModel RespMemModel.
Import ListNotations.
Open Scope Z_scope.

(** What the functions of the program do: the functions of an extension on the data of a message
    (None: not U_OK), and what utf8_check says. *)
Record env := mk_env { f_out : nat -> list Z -> option (list Z); f_in : nat -> list Z -> option (list Z); f_utf8 : list Z -> bool }.

(** struct _websocket_message, include/ulfius.h:1545-1556; fin is not set in a message to send *)
Record hmsg := mk_hmsg { b_op : Z; b_rsv : Z; b_fin : member bool; b_data : ptr (list Z); b_len : Z }.
(** struct _websocket_message_list, include/ulfius.h:1558-1561 *)
Record hlist := mk_hlist { l_arr : ptr (list (ptr hmsg)); l_len : nat }.
(** struct _websocket_extension, include/ulfius.h:1579-1616; [x_fun] says which functions it has *)
Record wext := mk_wext { x_server : ptr str; x_client : ptr str; x_rsv : Z; x_fun : nat; x_on : bool; x_context : member (ptr unit) }.
(** struct _pointer_list of orcania: an array of pointers, NULL when it is empty *)
Definition wexts := ptr (ptr (list (ptr wext))).
(** struct _websocket_manager, include/ulfius.h:1622-1652 *)
Record hman := mk_hman {
  g_connected : bool;
  g_in : member (ptr hlist);
  g_out : member (ptr hlist);
  g_keep_in : bool;
  g_keep_out : bool;
  g_expected : Z;
  g_exts : member wexts
}.
Definition with_in (g : hman) l := mk_hman (g_connected g) (Some l) (g_out g) (g_keep_in g) (g_keep_out g) (g_expected g) (g_exts g).
Definition with_out (g : hman) l := mk_hman (g_connected g) (g_in g) (Some l) (g_keep_in g) (g_keep_out g) (g_expected g) (g_exts g).
Definition with_exts (g : hman) x e := mk_hman (g_connected g) (g_in g) (g_out g) (g_keep_in g) (g_keep_out g) e (Some x).
Definition connect (g : hman) b := mk_hman b (g_in g) (g_out g) (g_keep_in g) (g_keep_out g) (g_expected g) (g_exts g).
Definition with_keep (g : hman) i o := mk_hman (g_connected g) (g_in g) (g_out g) i o (g_expected g) (g_exts g).

(** ** Messages and lists *)
(** u_websocket.c:1663-1669 ulfius_clear_websocket_message *)
Definition x_clear_msg (m : mem) (q : ptr hmsg) : outcome mem :=
  match q with
  | None => Ret m
  | Some _ => do x <- x_deref m q; do m1 <- x_free m (addr (b_data (snd x))); x_free m1 (Some (fst x))
  end.
(** u_websocket.c:1298-1312 ulfius_push_websocket_message: when the array cannot grow its pointer
    is lost and the length stays *)
Definition x_push (m : mem) (l : ptr hlist) (q : ptr hmsg) : outcome (Z * (mem * ptr hlist)) :=
  if is_null l || is_null q then Ret (U_ERROR_PARAMS, (m, l))
  else
    do x <- x_deref m l;
    do r <- x_realloc m (addr (l_arr (snd x)));
    let old := match l_arr (snd x) with Some (_, a) => a | None => [] end in
    match r with
    | (None, m1) => Ret (U_ERROR_MEMORY, (m1, Some (fst x, mk_hlist None (l_len (snd x)))))
    | (Some i, m1) =>
        do a <- aset (arealloc old (S (l_len (snd x))) None) (l_len (snd x)) q;
        Ret (U_OK, (m1, Some (fst x, mk_hlist (Some (i, a)) (S (l_len (snd x))))))
    end.
(** a place of an array of messages is read. Only messages are written there, so a place that shows
    NULL was never written since o_realloc gave the array. *)
Definition x_slot (a : list (ptr hmsg)) (i : nat) : outcome (ptr hmsg) :=
  do q <- aget a i; match q with None => UB Uninit | Some _ => Ret q end.
(** u_websocket.c:1645-1647 the messages move one place, [n] iterations from [i] *)
Fixpoint x_shift (a : list (ptr hmsg)) (i n : nat) : outcome (list (ptr hmsg)) :=
  match n with
  | O => Ret a
  | S n' => do x <- aget a (S i); do b <- aset a i x; x_shift b (S i) n'
  end.
(** u_websocket.c:1640-1658 ulfius_websocket_pop_first_message: the result of o_realloc is not
    looked at *)
Definition x_pop (m : mem) (l : ptr hlist) : outcome (ptr hmsg * (mem * ptr hlist)) :=
  match l with
  | None => Ret (None, (m, l))
  | Some _ =>
      do x <- x_deref m l;
      match l_len (snd x) with
      | O => Ret (None, (m, l))
      | S n =>
          do a <- x_deref m (l_arr (snd x));
          do q <- x_slot (snd a) 0;
          do b <- x_shift (snd a) 0 n;
          match n with
          | O => do m1 <- x_free m (Some (fst a)); Ret (q, (m1, Some (fst x, mk_hlist None n)))
          | S _ =>
              do r <- x_realloc m (Some (fst a));
              Ret (q, (snd r, Some (fst x, mk_hlist (at_block (fst r) (firstn n b)) n)))
          end
      end
  end.
(** u_websocket.c:1708-1711 the loop of ulfius_clear_websocket_message_list, [n] iterations from
    [i]. The pointers set to NULL in the array are not read again before the array is released. *)
Fixpoint x_clear_msgs (m : mem) (a : ptr (list (ptr hmsg))) (i n : nat) : outcome mem :=
  match n with
  | O => Ret m
  | S n' => do x <- x_deref m a; do q <- x_slot (snd x) i; do m1 <- x_clear_msg m q; x_clear_msgs m1 a (S i) n'
  end.
(** u_websocket.c:1705-1716 ulfius_clear_websocket_message_list: the length is not reset *)
Definition x_clear_list (m : mem) (l : ptr hlist) : outcome (mem * ptr hlist) :=
  match l with
  | None => Ret (m, l)
  | Some _ =>
      do x <- x_deref m l;
      do m1 <- x_clear_msgs m (l_arr (snd x)) 0 (l_len (snd x));
      do m2 <- x_free m1 (addr (l_arr (snd x)));
      Ret (m2, Some (fst x, mk_hlist None (l_len (snd x))))
  end.

(** ** Extensions *)
(** u_websocket.c:69-75 ulfius_free_websocket_extension *)
Definition x_free_wext (m : mem) (e : ptr wext) : outcome mem :=
  match e with
  | None => Ret m
  | Some _ =>
      do x <- x_deref m e;
      do m1 <- x_free m (addr (x_server (snd x))); do m2 <- x_free m1 (addr (x_client (snd x)));
      x_free m2 (Some (fst x))
  end.
Fixpoint x_free_wexts (m : mem) (l : list (ptr wext)) : outcome mem :=
  match l with [] => Ret m | e :: r => do m1 <- x_free_wext m e; x_free_wexts m1 r end.
(** the elements of a list of extensions (pointer_list_size, pointer_list_get_at) *)
Definition x_elements (m : mem) (l : wexts) : outcome (list (ptr wext)) :=
  match l with
  | None => Ret []
  | Some _ =>
      do x <- x_deref m l;
      match snd x with None => Ret [] | Some _ => do a <- x_deref m (snd x); Ret (snd a) end
  end.
(** u_websocket.c:1828-1835 the contexts of the extensions in use: websocket_extension_free_context
    releases the context *)
Fixpoint x_free_contexts (m : mem) (l : list (ptr wext)) : outcome mem :=
  match l with
  | [] => Ret m
  | e :: r =>
      do m1 <- (match e with
                | None => Ret m
                | Some _ =>
                    do x <- x_deref m e;
                    if x_on (snd x) then do c <- x_member (x_context (snd x)); x_free m (addr c) else Ret m
                end);
      x_free_contexts m1 r
  end.
(** pointer_list_clean_free of orcania with ulfius_free_websocket_extension *)
Definition x_clean_wexts (m : mem) (l : wexts) : outcome mem :=
  match l with
  | None => Ret m
  | Some _ =>
      do x <- x_deref m l;
      match snd x with
      | None => Ret m
      | Some _ => do a <- x_deref m (snd x); do m1 <- x_free_wexts m (snd a); x_free m1 (Some (fst a))
      end
  end.

(** ** The manager and the websocket *)
(** u_websocket.c:1757-1806 ulfius_init_websocket_manager on a structure just allocated; [locks]
    says whether the mutexes and the condition can be made *)
Definition x_init_man (m : mem) (locks : bool) : outcome (Z * (mem * hman)) :=
  let fail m c i o :=
    do a <- x_member i; do m1 <- x_free m (@addr hlist a); do b <- x_member o; do m2 <- x_free m1 (@addr hlist b);
    Ret (c, (m2, mk_hman false i o true true 0 (Some None))) in
  if negb locks then fail m U_ERROR None None
  else
    match x_malloc m with
    | (None, m1) => fail m1 U_ERROR_MEMORY (Some None) None
    | (Some i, m1) =>
        let l i : ptr hlist := Some (i, mk_hlist None 0) in
        match x_malloc m1 with
        | (None, m2) => fail m2 U_ERROR_MEMORY (Some (l i)) (Some None)
        | (Some o, m2) => Ret (U_OK, (m2, mk_hman false (Some (l i)) (Some (l o)) true true 0 (Some None)))
        end
    end.
(** u_websocket.c:1811-1840 ulfius_clear_websocket_manager *)
Definition x_clear_man (m : mem) (g : hman) : outcome mem :=
  do i <- x_member (g_in g); do a <- x_clear_list m i; do m1 <- x_free (fst a) (addr i);
  do o <- x_member (g_out g); do b <- x_clear_list m1 o; do m2 <- x_free (fst b) (addr o);
  do l <- x_member (g_exts g); do es <- x_elements m2 l;
  do m3 <- x_free_contexts m2 es; do m4 <- x_clean_wexts m3 l; x_free m4 (addr l).

(** struct _websocket, include/ulfius.h:1657-1675: the manager *)
Definition hws := member (ptr hman).
(** u_websocket.c:1722-1752 ulfius_init_websocket *)
Definition x_init_ws (m : mem) (locks : bool) : outcome (Z * (mem * hws)) :=
  match x_malloc m with
  | (None, m1) => Ret (U_ERROR_MEMORY, (m1, Some None))
  | (Some p, m1) =>
      do x <- x_init_man m1 locks;
      let '(c, (m2, g)) := x in
      if c =? U_OK then Ret (U_OK, (m2, Some (Some (p, g))))
      else do m3 <- x_free m2 (Some p); Ret (U_ERROR, (m3, Some None))
  end.
(** u_websocket.c:1678-1700 ulfius_clear_websocket; [p] is the block of the structure *)
Definition x_clear_ws (m : mem) (p : nat) (w : hws) : outcome mem :=
  do _ <- h_use (m_heap m) p;
  do g <- x_member w;
  do m1 <- (match g with None => Ret m | Some _ => do x <- x_deref m g; x_clear_man m (snd x) end);
  do m2 <- x_free m1 (addr g); x_free m2 (Some p).
(** u_websocket.c:2583-2592 a new websocket of a client *)
Definition x_new_ws (m : mem) (locks : bool) : outcome (mem * option (nat * hws)) :=
  match x_malloc m with
  | (None, m1) => Ret (m1, None)
  | (Some p, m1) =>
      do x <- x_init_ws m1 locks;
      let '(c, (m2, w)) := x in
      if c =? U_OK then Ret (m2, Some (p, w)) else do m3 <- x_free m2 (Some p); Ret (m3, None)
  end.

(** u_websocket.c:2491-2522 the rest of ulfius_add_websocket_client_extension_message_perform, when
    there is a websocket; the result of o_strdup is not looked at. When there is no memory for the
    list or it cannot grow, the extension is in no list. *)
Definition x_add_wext (m : mem) (g : hman) (name : str) (rsv : Z) (f : nat) : outcome (Z * (mem * hman)) :=
  match x_malloc m with
  | (None, m1) => Ret (U_ERROR_MEMORY, (m1, g))
  | (Some pe, m1) =>
      let '(n, m2) := x_strdup m1 (Some name) in
      do l <- x_member (g_exts g);
      let '(l1, m3) := match l with
                       | None => let '(pl, m3) := x_malloc m2 in (at_block pl None, m3)
                       | Some _ => (l, m2)
                       end in
      match l1 with
      | None => Ret (U_ERROR_MEMORY, (m3, g))
      | Some _ =>
          do x <- x_deref m3 l1;
          do r <- x_realloc m3 (addr (snd x));
          let old := match snd x with Some (_, a) => a | None => [] end in
          match r with
          | (None, m4) => Ret (U_ERROR, (m4, with_exts g l1 (g_expected g)))
          | (Some pa, m4) =>
              Ret (U_OK, (m4, with_exts g (Some (fst x, Some (pa, old ++ [Some (pe, mk_wext None n rsv f false None)]))) (g_expected g)))
          end
      end
  end.
(** u_websocket.c:997-1021 in the handshake, the extension at place [k] is agreed on: the function
    of the program makes a context *)
Definition x_enable (m : mem) (g : hman) (k : nat) : outcome (Z * (mem * hman)) :=
  do l <- x_member (g_exts g); do es <- x_elements m l;
  match l, nth_error es k with
  | Some (pl, Some (pa, a)), Some (Some e) =>
      do x <- x_deref m (Some e);
      if x_on (snd x) then Ret (U_ERROR, (m, g))
      else
        match x_malloc m with
        | (None, m1) => Ret (U_ERROR, (m1, g))
        | (Some c, m1) =>
            let y := mk_wext (x_server (snd x)) (x_client (snd x)) (x_rsv (snd x)) (x_fun (snd x)) true (Some (Some (c, tt))) in
            Ret (U_OK, (m1, with_exts g (Some (pl, Some (pa, set_nth a k (Some (fst x, y))))) (Z.lor (g_expected g) (x_rsv (snd x)))))
        end
  | _, _ => Ret (U_ERROR_PARAMS, (m, g))
  end.

(** ** Sending *)
Definition OP_CONTINUE := 0. Definition OP_TEXT := 1. Definition OP_BINARY := 2. Definition OP_CLOSE := 8. Definition OP_PING := 9. Definition OP_PONG := 10.
(** u_websocket.c:267-322 ulfius_build_message *)
Definition x_build (m : mem) (op rsv : Z) (data : list Z) : outcome (mem * ptr hmsg) :=
  if (op =? OP_TEXT) || (op =? OP_BINARY) || (op =? OP_CLOSE) || (op =? OP_PING) || (op =? OP_PONG) then
    match x_malloc m with
    | (None, m1) => Ret (m1, None)
    | (Some i, m1) =>
        if zlen data =? 0 then Ret (m1, Some (i, mk_hmsg op rsv None None 0))
        else
          match x_malloc m1 with
          | (None, m2) => do m3 <- x_free m2 (Some i); Ret (m3, None)
          | (Some d, m2) => Ret (m2, Some (i, mk_hmsg op rsv None (Some (d, data)) (zlen data)))
          end
    end
  else Ret (m, None).
(** u_websocket.c:352-372 the frames of a message with data, [n] iterations at most: each is built
    from the data, sent and released; without memory the loop stops. [frag] is the size of a
    fragment, 0 for one frame. The opcode of the message becomes 0 after the first frame. *)
Fixpoint x_frames (m : mem) (q : nat * hmsg) (frag off : Z) (n : nat) : outcome (Z * (mem * (nat * hmsg))) :=
  match n with
  | O => Ret (U_OK, (m, q))
  | S n' =>
      if off <? b_len (snd q) then
        let cur := if frag =? 0 then b_len (snd q) - off else Z.min frag (b_len (snd q) - off) in
        do _ <- h_use (m_heap m) (fst q);
        match x_malloc m with
        | (None, m1) => Ret (U_ERROR_MEMORY, (m1, q))
        | (Some f, m1) =>
            do d <- x_deref m1 (b_data (snd q));
            if zlen (snd d) <? off + cur then UB OutOfBounds
            else
              do m2 <- x_free m1 (Some f);
              x_frames m2 (fst q, mk_hmsg OP_CONTINUE (b_rsv (snd q)) (b_fin (snd q)) (b_data (snd q)) (b_len (snd q))) frag (off + cur) n'
        end
      else Ret (U_OK, (m, q))
  end.
(** u_websocket.c:330-399 ulfius_send_websocket_message_managed: when the message cannot be kept,
    nothing releases it *)
Definition x_send_managed (m : mem) (g : hman) (op rsv : Z) (data : list Z) (frag : Z) : outcome (Z * (mem * hman)) :=
  do x <- x_build m op rsv data;
  match snd x with
  | None => Ret (U_ERROR, (fst x, g))
  | Some q =>
      do y <- (if zlen data =? 0 then
                 match x_malloc (fst x) with
                 | (None, m1) => Ret (U_OK, (m1, q))
                 | (Some f, m1) => do m2 <- x_free m1 (Some f); Ret (U_OK, (m2, q))
                 end
               else x_frames (fst x) q frag 0 (length data));
      let '(c, (m1, q1)) := y in
      if g_keep_out g then
        do l <- x_member (g_out g); do z <- x_push m1 l (Some q1); Ret (c, (fst (snd z), with_out g (snd (snd z))))
      else do m2 <- x_clear_msg m1 (Some q1); Ret (c, (m2, g))
  end.
(** u_websocket.c:1552-1572 the extensions on the way out: the data after each, the bits. [E]'s
    function allocates what it gives. *)
Fixpoint x_out (E : env) (m : mem) (l : list (ptr wext)) (d : ptr (list Z)) (rsv : Z) : outcome (Z * (mem * (ptr (list Z) * Z))) :=
  match l with
  | [] => Ret (U_OK, (m, (d, rsv)))
  | e :: r =>
      match e with
      | None => Ret (U_OK, (m, (d, rsv)))
      | Some _ =>
          do x <- x_deref m e;
          if x_on (snd x) then
            do t <- (match d with None => Ret [] | Some _ => do y <- x_deref m d; Ret (snd y) end);
            match f_out E (x_fun (snd x)) t with
            | None => Ret (U_ERROR, (m, (d, rsv)))
            | Some u =>
                match x_malloc m with
                | (None, m1) => Ret (U_ERROR, (m1, (d, rsv)))
                | (Some o, m1) =>
                    do m2 <- x_free m1 (addr d);
                    match x_malloc m2 with
                    | (None, m3) => do m4 <- x_free m3 (Some o); Ret (U_ERROR_MEMORY, (m4, (None, Z.lor rsv (x_rsv (snd x)))))
                    | (Some i, m3) => do m4 <- x_free m3 (Some o); x_out E m4 r (Some (i, u)) (Z.lor rsv (x_rsv (snd x)))
                    end
                end
            end
          else x_out E m r d rsv
      end
  end.
(** u_websocket.c:1541-1581 ulfius_websocket_send_fragmented_message, not for U_WEBSOCKET_OPCODE_CLOSE *)
Definition x_send (E : env) (m : mem) (g : hman) (op : Z) (data : list Z) (frag : Z) : outcome (Z * (mem * hman)) :=
  if g_connected g then
    do d <- (if zlen data =? 0 then Ret (m, Some None)
             else match x_malloc m with (None, m1) => Ret (m1, None) | (Some i, m1) => Ret (m1, Some (Some (i, data))) end);
    match snd d with
    | None => Ret (U_ERROR_MEMORY, (fst d, g))
    | Some d0 =>
        do l <- x_member (g_exts g); do es <- x_elements (fst d) l;
        do o <- (if (op =? OP_BINARY) || (op =? OP_TEXT) then x_out E (fst d) es d0 0 else Ret (U_OK, (fst d, (d0, 0))));
        let '(c, (m1, (d1, rsv))) := o in
        if c =? U_OK then
          do t <- (match d1 with None => Ret [] | Some _ => do y <- x_deref m1 d1; Ret (snd y) end);
          do s <- x_send_managed m1 g op rsv t frag;
          do m2 <- x_free (fst (snd s)) (addr d1); Ret (fst s, (m2, snd (snd s)))
        else do m2 <- x_free m1 (addr d1); Ret (c, (m2, g))
    end
  else Ret (U_ERROR_PARAMS, (m, g)).

(** ** Receiving *)
(** what the peer sends, as it is read: the header, the data, and whether the reading fails before
    the data or in the data *)
Inductive cut := Whole | BeforeData | InData.
Record frame := mk_frame { fr_op : Z; fr_rsv : Z; fr_fin : bool; fr_data : list Z; fr_cut : cut }.
(** u_websocket.c:442-567 ulfius_read_incoming_message: the result U_OK and no message when there
    is no memory for it. The data is written through the pointer that o_malloc gave. *)
Definition x_read (m : mem) (f : frame) : outcome (Z * (mem * ptr hmsg)) :=
  match x_malloc m with
  | (None, m1) => Ret (U_OK, (m1, None))
  | (Some i, m1) =>
      let q d n : ptr hmsg := Some (i, mk_hmsg (fr_op f) (fr_rsv f) (Some (fr_fin f)) d n) in
      let fail m := do m2 <- x_clear_msg m (q None 0); Ret (U_ERROR, (m2, None)) in
      match fr_cut f with
      | BeforeData => fail m1
      | _ =>
          if zlen (fr_data f) =? 0 then Ret (U_OK, (m1, q None 0))
          else
            match x_malloc m1 with
            | (None, m2) => fail m2
            | (Some b, m2) =>
                match fr_cut f with
                | InData => do m3 <- x_free m2 (Some b); fail m3
                | _ =>
                    match x_malloc m2 with
                    | (None, m3) => UB NullDeref
                    | (Some d, m3) => do m4 <- x_free m3 (Some b); Ret (U_OK, (m4, q (Some (d, fr_data f)) (zlen (fr_data f))))
                    end
                end
            end
      end
  end.
(** u_websocket.c:401-435 ulfius_merge_fragmented_message: [q] goes to the end of [p]. When the
    data cannot grow its pointer is lost. *)
Definition x_merge (m : mem) (p q : nat * hmsg) : outcome (Z * (mem * (nat * hmsg))) :=
  do _ <- h_use (m_heap m) (fst p); do _ <- h_use (m_heap m) (fst q);
  do pf <- x_member (b_fin (snd p)); do qf <- x_member (b_fin (snd q));
  if negb pf && ((b_op (snd p) =? OP_TEXT) || (b_op (snd p) =? OP_BINARY)) && (b_op (snd q) =? OP_CONTINUE) then
    let r d n : nat * hmsg := (fst p, mk_hmsg (b_op (snd p)) (b_rsv (snd p)) (Some (pf || qf)) d n) in
    if b_len (snd q) =? 0 then Ret (U_OK, (m, r (b_data (snd p)) (b_len (snd p))))
    else
      do x <- x_realloc m (addr (b_data (snd p)));
      let old := match b_data (snd p) with Some (_, a) => a | None => [] end in
      match x with
      | (None, m1) => Ret (U_ERROR_PARAMS, (m1, r None (b_len (snd p))))
      | (Some i, m1) =>
          do t <- x_deref m1 (b_data (snd q));
          Ret (U_OK, (m1, r (Some (i, zfirstn (b_len (snd p)) old ++ snd t)) (b_len (snd p) + b_len (snd q))))
      end
  else Ret (U_ERROR_PARAMS, (m, p)).
(** u_websocket.c:604-641 the extensions on the way in, [l] from the last to the first *)
Fixpoint x_in (E : env) (m : mem) (l : list (ptr wext)) (rsv : Z) (d : ptr (list Z)) : outcome (Z * (mem * ptr (list Z))) :=
  match l with
  | [] => Ret (U_OK, (m, d))
  | e :: r =>
      match e with
      | None => x_in E m r rsv d
      | Some _ =>
          do x <- x_deref m e;
          if x_on (snd x) && negb (Z.land rsv (x_rsv (snd x)) =? 0) then
            do t <- (match d with None => Ret [] | Some _ => do y <- x_deref m d; Ret (snd y) end);
            match f_in E (x_fun (snd x)) t with
            | None => Ret (U_ERROR, (m, d))
            | Some u =>
                match x_malloc m with
                | (None, m1) => Ret (U_ERROR, (m1, d))
                | (Some o, m1) =>
                    do m2 <- x_free m1 (addr d);
                    if zlen u =? 0 then do m3 <- x_free m2 (Some o); x_in E m3 r rsv None
                    else
                      match x_malloc m2 with
                      | (None, m3) => do m4 <- x_free m3 (Some o); Ret (U_ERROR_MEMORY, (m4, None))
                      | (Some i, m3) => do m4 <- x_free m3 (Some o); x_in E m4 r rsv (Some (i, u))
                      end
                end
            end
          else x_in E m r rsv d
      end
  end.
(** u_websocket.c:589-652 ulfius_websocket_extension_message_in_perform_apply *)
Definition x_apply (E : env) (m : mem) (g : hman) (q : nat * hmsg) : outcome (Z * (mem * (nat * hmsg))) :=
  do l <- x_member (g_exts g); do es <- x_elements m l;
  match es with
  | [] => Ret (U_OK, (m, q))
  | _ =>
      do _ <- h_use (m_heap m) (fst q);
      do c <- (if b_len (snd q) =? 0 then Ret (m, Some None)
               else match x_malloc m with
                    | (None, m1) => Ret (m1, None)
                    | (Some i, m1) => do t <- x_deref m1 (b_data (snd q)); Ret (m1, Some (Some (i, zfirstn (b_len (snd q)) (snd t))))
                    end);
      match snd c with
      | None => Ret (U_ERROR_MEMORY, (fst c, q))
      | Some d =>
          do x <- x_in E (fst c) (rev es) (b_rsv (snd q)) d;
          let '(z, (m1, d1)) := x in
          do m2 <- x_free m1 (addr (b_data (snd q)));
          Ret (z, (m2, (fst q, mk_hmsg (b_op (snd q)) (b_rsv (snd q)) (b_fin (snd q)) d1 (match d1 with Some (_, t) => zlen t | None => 0 end))))
      end
  end.
(** u_websocket.c:731-768 a message that is complete: what the loop does with it, and what is left
    in the variable [message] *)
Definition x_complete (E : env) (m : mem) (g : hman) (q : nat * hmsg) : outcome (mem * (hman * ptr hmsg)) :=
  do x <- x_apply E m g q;
  let '(c, (m1, q1)) := x in
  let stop := Ret (m1, (connect g false, Some q1)) in
  if c =? U_OK then
    if (b_rsv (snd q1) =? 0) || negb (Z.land (g_expected g) (b_rsv (snd q1)) =? 0) then
      do t <- (match b_data (snd q1) with None => Ret [] | Some _ => do y <- x_deref m1 (b_data (snd q1)); Ret (zfirstn (b_len (snd q1)) (snd y)) end);
      if negb (b_op (snd q1) =? OP_TEXT) || (b_len (snd q1) =? 0) || f_utf8 E t then
        if g_keep_in g then
          do l <- x_member (g_in g); do z <- x_push m1 l (Some q1);
          let '(r, (m2, l1)) := z in
          if r =? U_OK then Ret (m2, (with_in g l1, None)) else Ret (m2, (connect (with_in g l1) false, Some q1))
        else do m2 <- x_clear_msg m1 (Some q1); Ret (m2, (g, None))
      else stop
    else stop
  else stop.
(** u_websocket.c:683-795 one turn of the loop of ulfius_thread_websocket, after the message was
    read: [prev] is message_previous. At the end: the manager, message_previous, what is left in
    message, and whether ret is still U_OK. *)
Definition x_turn (E : env) (m : mem) (g : hman) (prev : ptr hmsg) (q : nat * hmsg) : outcome (mem * (hman * (ptr hmsg * (ptr hmsg * bool)))) :=
  do _ <- h_use (m_heap m) (fst q);
  do fin <- x_member (b_fin (snd q));
  let op := b_op (snd q) in
  let stop := Ret (m, (connect g false, (prev, (Some q, true)))) in
  if (op =? OP_CLOSE) && fin then
    do s <- (if b_len (snd q) <=? 125 then x_send_managed m g OP_CLOSE 0 [] 0 else Ret (U_OK, (m, g)));
    Ret (fst (snd s), (connect (snd (snd s)) false, (prev, (Some q, true))))
  else if (op =? OP_PING) && fin then
    if b_len (snd q) <=? 125 then
      do t <- (match b_data (snd q) with None => Ret [] | Some _ => do y <- x_deref m (b_data (snd q)); Ret (zfirstn (b_len (snd q)) (snd y)) end);
      do s <- x_send E m g OP_PONG t 0;
      let '(c, (m1, g1)) := s in
      Ret (m1, (if c =? U_OK then g1 else connect g1 false, (prev, (Some q, true))))
    else stop
  else if (op =? OP_PONG) && fin then Ret (m, (g, (prev, (Some q, true))))
  else if (op =? OP_TEXT) || (op =? OP_BINARY) || (op =? OP_CONTINUE) then
    if fin then
      match prev with
      | None =>
          if op =? OP_CONTINUE then stop
          else do y <- x_complete E m g q; Ret (fst y, (fst (snd y), (None, (snd (snd y), true))))
      | Some p =>
          do x <- x_merge m p q;
          let '(c, (m1, p1)) := x in
          if c =? U_OK then
            do m2 <- x_clear_msg m1 (Some q);
            do y <- x_complete E m2 g p1; Ret (fst y, (fst (snd y), (None, (snd (snd y), true))))
          else Ret (m1, (g, (Some p1, (Some q, false))))
      end
    else
      match prev with
      | None => if op =? OP_CONTINUE then stop else Ret (m, (g, (Some q, (None, true))))
      | Some p =>
          do x <- x_merge m p q;
          let '(c, (m1, p1)) := x in
          Ret (m1, (if c =? U_OK then g else connect g false, (Some p1, (Some q, true))))
      end
  else stop.
(** u_websocket.c:681-795 one frame of the peer: read, treated, what is left of it released. The
    third part of the result says whether the loop goes on. *)
Definition x_frame (E : env) (m : mem) (g : hman) (prev : ptr hmsg) (f : frame) : outcome (mem * (hman * (ptr hmsg * bool))) :=
  do x <- x_read m f;
  let '(c, (m1, r)) := x in
  if c =? U_OK then
    match r with
    | None => UB NullDeref
    | Some q =>
        do y <- x_turn E m1 g prev q;
        let '(m2, (g1, (prev1, (rest, go)))) := y in
        do m3 <- x_clear_msg m2 rest; Ret (m3, (g1, (prev1, g_connected g1 && go)))
    end
  else Ret (m1, (connect g false, (prev, false))).

(** u_websocket.c:1513-1536 after a close message was sent: up to eleven times, a frame of the
    peer if there is one *)
Fixpoint x_await (m : mem) (g : hman) (l : list (option frame)) : outcome (mem * hman) :=
  match l with
  | [] => Ret (m, g)
  | None :: r => x_await m g r
  | Some f :: r =>
      do x <- x_read m f;
      let '(c, (m1, q)) := x in
      let stop := match q with Some (_, b) => negb (c =? U_OK) || (b_op b =? OP_CLOSE) | None => true end in
      do y <- (if g_keep_in g then
                 do i <- x_member (g_in g); do z <- x_push m1 i q; Ret (fst (snd z), with_in g (snd (snd z)))
               else do m2 <- x_clear_msg m1 q; Ret (m2, g));
      if stop then Ret y else x_await (fst y) (snd y) r
  end.
Definition MAX_CLOSE_TRY : nat := 10.
(** u_websocket.c:1506-1538 ulfius_websocket_send_message of U_WEBSOCKET_OPCODE_CLOSE *)
Definition x_close (m : mem) (g : hman) (l : list (option frame)) : outcome (Z * (mem * hman)) :=
  if g_connected g then
    do s <- x_send_managed m g OP_CLOSE 0 [] 0;
    let '(c, (m1, g1)) := s in
    do y <- (if c =? U_OK then x_await m1 g1 (firstn (S MAX_CLOSE_TRY) l) else Ret (m1, g1));
    Ret (U_OK, (fst y, connect (snd y) false))
  else Ret (U_ERROR_PARAMS, (m, g)).
