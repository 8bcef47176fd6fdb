(** The memory of a websocket that is opened by the server: ulfius_add_websocket_extension_message_perform
    and ulfius_start_websocket_cb of /repo/src/u_websocket.c and the part of ulfius_webservice_dispatcher
    of /repo/src/ulfius.c that answers the handshake. The structures of WsMemModel are used; every
    extension, its names, its context, the list, the texts of the answer, the websocket, its manager and
    the copy of the request are blocks of the heap, and an allocation may fail. NegoModel describes the
    values.
    Simplifications: the copy of the request is one block (ReqMemModel has all of them); the texts of the
    request are in memory of the caller; a text that several calls put together is allocated once; the
    list of the offered extensions given to a function of the program is not changed by trimwhitespace;
    the bodies of the answers belong to MHD. *)
From Coq Require Import String ZArith Bool List.
From Verif Require Import Base UMapModel OwnModel MapMemModel RespMemModel WsMemModel.
Import ListNotations.
Open Scope Z_scope.

(** What websocket_extension_server_match of an extension says of an offered extension, among all of
    those offered: it refuses it by its name, it refuses it after it made a context and released it
    (u_websocket.c:2222-2260), or it accepts it with a context and a text for the answer. *)
Inductive verdict := MNo | MBad | MYes (text : str).
(** which of the extensions have such a function *)
Definition matches_of := nat -> option (str -> list str -> verdict).

Definition put_client (w : wext) (t : ptr str) (on : bool) (c : member (ptr unit)) : wext :=
  mk_wext (x_server w) t (x_rsv w) (x_fun w) on c.

(** u_websocket.c:1921-1943 the rest of ulfius_add_websocket_extension_message_perform; the result of
    o_strdup is not looked at. When the list cannot grow the extension is in no list. *)
Definition x_add_sext (m : mem) (l : wexts) (name : str) (rsv : Z) (f : nat) : outcome (Z * (mem * wexts)) :=
  match x_malloc m with
  | (None, m1) => Ret (U_ERROR_MEMORY, (m1, l))
  | (Some pe, m1) =>
      let '(n, m2) := x_strdup m1 (Some name) in
      match l with
      | None => Ret (U_ERROR, (m2, l))
      | Some _ =>
          do x <- x_deref m2 l;
          do r <- x_realloc m2 (addr (snd x));
          let old := match snd x with Some (_, a) => a | None => [] end in
          match r with
          | (None, m3) => Ret (U_ERROR, (m3, l))
          | (Some pa, m3) => Ret (U_OK, (m3, Some (fst x, Some (pa, old ++ [Some (pe, mk_wext n None rsv f false (Some None))]))))
          end
      end
  end.

(** ulfius.c:697-701, 711-715 the text of the header Sec-WebSocket-Extensions grows; mstrcatf of orcania
    releases the text it is given *)
Definition x_grow_text (m : mem) (ans : ptr str) (t : ptr str) : outcome (mem * ptr str) :=
  let s := match t with Some (_, s) => Some s | None => None end in
  match ans with
  | None => let '(p, m1) := x_strdup m s in Ret (m1, p)
  | Some (_, a) =>
      let '(p, m1) := x_strdup m (Some (a ++ bs ", " ++ match s with Some s => s | None => bs "(null)" end)) in
      do m2 <- x_free m1 (addr ans); Ret (m2, p)
  end.

(** ulfius.c:688-722 the loop over the extensions of the server for the offered extension [tok]: the
    bits, the text of the answer and the extensions *)
Fixpoint x_offer (F : matches_of) (toks : list str) (tok : str) (m : mem) (exp : Z) (ans : ptr str) (l : list (ptr wext))
  : outcome (mem * (Z * (ptr str * list (ptr wext)))) :=
  match l with
  | [] => Ret (m, (exp, (ans, [])))
  | e :: r =>
      let next m1 e1 := do x <- x_offer F toks tok m1 exp ans r; let '(m2, (b, (a, r1))) := x in Ret (m2, (b, (a, e1 :: r1))) in
      match e with
      | None => next m e
      | Some _ =>
          do x <- x_deref m e;
          let w := snd x in
          if x_on w then next m e
          else
            match F (x_fun w) with
            | Some f =>
                match f tok toks with
                | MNo => next m e
                | MBad =>
                    let '(c, m1) := x_malloc m in
                    do m2 <- x_free m1 c;
                    next m2 (Some (fst x, put_client w (x_client w) false (Some None)))
                | MYes t =>
                    match x_malloc m with
                    | (None, m1) => next m1 (Some (fst x, put_client w (x_client w) false (Some None)))
                    | (Some c, m1) =>
                        let '(n, m2) := x_strdup m1 (Some t) in
                        if Z.land (x_rsv w) exp =? 0 then
                          do y <- x_grow_text m2 ans n;
                          Ret (fst y, (Z.lor exp (x_rsv w), (snd y, Some (fst x, put_client w n true (Some (Some (c, tt)))) :: r)))
                        else Ret (m2, (exp, (ans, Some (fst x, put_client w n false (Some (Some (c, tt)))) :: r)))
                    end
                end
            | None =>
                do s <- (match x_server w with None => Ret None | Some _ => do y <- x_deref m (x_server w); Ret (Some (snd y)) end);
                if (match s with Some s => str_eqb tok s | None => false end) && (Z.land (x_rsv w) exp =? 0) then
                  let '(n, m2) := x_strdup m (Some tok) in
                  do y <- x_grow_text m2 ans n;
                  Ret (fst y, (Z.lor exp (x_rsv w), (snd y, Some (fst x, put_client w n true (x_context w)) :: r)))
                else next m e
            end
      end
  end.
(** ulfius.c:687 the loop over the offered extensions *)
Fixpoint x_offers (F : matches_of) (toks all : list str) (m : mem) (exp : Z) (ans : ptr str) (l : list (ptr wext))
  : outcome (mem * (Z * (ptr str * list (ptr wext)))) :=
  match toks with
  | [] => Ret (m, (exp, (ans, l)))
  | tok :: r => do x <- x_offer F all tok m exp ans l; let '(m1, (b, (a, l1))) := x in x_offers F r all m1 b a l1
  end.

(** What the dispatcher meets when it answers a handshake: the headers are those of a handshake
    (ulfius.c:673-682); the offered extensions, None when there is no header Sec-WebSocket-Extensions;
    what ulfius_check_list_match and ulfius_check_first_match find, and whether they want to find
    something; ulfius_generate_handshake_answer; MHD_create_response_for_upgrade; the headers and cookies
    of the response; whether there is a websocket_onclose_callback; pthread_create *)
Record shake := mk_shake {
  u_valid : bool; u_offer : option (list str); u_list : bool * option str; u_proto : bool * option str;
  u_key : bool; u_mhd : bool; u_headers : bool; u_onclose : bool; u_thread : bool
}.
(** u_websocket.c:1319-1390 the result of ulfius_check_list_match and ulfius_check_first_match *)
Definition x_check (m : mem) (c : bool * option str) : bool * (ptr str * mem) :=
  let '(p, m1) := x_strdup m (snd c) in (negb (fst c && is_null p), (p, m1)).

(** a websocket of the server: its block, its manager, the copy of the request *)
Definition swebsocket := (nat * (hws * ptr unit))%type.
(** u_websocket.c:1678-1700 ulfius_clear_websocket *)
Definition x_clear_sws (m : mem) (v : swebsocket) : outcome mem :=
  do _ <- h_use (m_heap m) (fst v); do m1 <- x_free m (addr (snd (snd v))); x_clear_ws m1 (fst v) (fst (snd v)).

(** what becomes of the websocket at the end of the answer: it is cleared (websocket_has_error), nothing
    is done with it, or MHD has it *)
Inductive fate := Dropped (v : swebsocket) | Forgotten | Kept (v : swebsocket).
(** ulfius.c:664-840 the answer to a handshake when the response has the list of extensions [l], then
    ulfius_start_websocket_cb (u_websocket.c:1193-1232) if MHD was told to upgrade: whether it was, what
    is left in the response, and the websocket that runs. When no thread can be made,
    ulfius_start_websocket_cb calls pthread_detach on a variable that was never written. *)
Definition x_upgrade (F : matches_of) (m : mem) (l : wexts) (u : shake) : outcome (Z * (mem * (wexts * option swebsocket))) :=
  match x_malloc m with
  | (None, m1) => if u_onclose u then UB NullDeref else Ret (U_ERROR, (m1, (l, None)))
  | (Some p, m1) =>
      do i <- x_init_ws m1 true;
      let '(c, (m2, w)) := i in
      let drop m l v := do m1 <- x_clear_sws m v; Ret (U_ERROR, (m1, (l, None))) in
      if negb (c =? U_OK) || negb (u_valid u) then drop m2 l (p, (w, None))
      else
        do es <- x_elements m2 l;
        do o <- (match u_offer u, l, es with
                 | Some toks, Some (pl, Some (pa, _)), _ :: _ =>
                     do x <- x_offers F toks toks m2 0 None es;
                     let '(m3, (b, (a, es1))) := x in Ret (m3, (true, (b, (a, Some (pl, Some (pa, es1))))))
                 | _, _, _ => let '(ok, (a, m3)) := x_check m2 (u_list u) in Ret (m3, (ok, (0, (a, l))))
                 end);
        let '(m3, (ok, (b, (ans, l1)))) := o in
        let '(ok2, (pr, m4)) := if ok then x_check m3 (u_proto u) else (false, (None, m3)) in
        do r <- (if ok && ok2 && u_key u then
                   match x_malloc m4 with
                   | (None, m5) => Ret (m5, (l1, Dropped (p, (w, None))))
                   | (Some q, m5) =>
                       do g <- x_member w; do y <- x_deref m5 g;
                       let w1 : hws := Some (Some (fst y, with_exts (snd y) l1 b)) in
                       let v : swebsocket := (p, (w1, Some (q, tt))) in
                       Ret (m5, (None, if negb (u_mhd u) then Forgotten else if negb (u_headers u) then Dropped v else Kept v))
                   end
                 else Ret (m4, (l1, Dropped (p, (w, None)))));
        let '(m5, (l2, v)) := r in
        do m6 <- x_free m5 (addr pr); do m7 <- x_free m6 (addr ans);
        match v with
        | Forgotten => Ret (U_ERROR, (m7, (l2, None)))
        | Dropped v => drop m7 l2 v
        | Kept v =>
            if negb (u_thread u) then UB Uninit
            else
              do g <- x_member (fst (snd v)); do y <- x_deref m7 g;
              Ret (U_OK, (m7, (l2, Some (fst v, (Some (Some (fst y, connect (snd y) true)), snd (snd v))))))
        end
  end.
(** u_response.c ulfius_clean_response_full: the list of extensions of the response *)
Definition x_clean_handle_list (m : mem) (l : wexts) : outcome mem := do m1 <- x_clean_wexts m l; x_free m1 (addr l).
