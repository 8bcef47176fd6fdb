(** Specification vocabulary for the memory of websockets opened by the server (C100): a server that
    answers any number of handshakes, what its calls mean, and the blocks in use. *)
From Coq Require Import ZArith Bool List.
From Verif Require Import Base UMapModel OwnModel MapMemModel MapMemSpec RespMemModel RespMemSpec WsMemModel WsMemSpec HandMemModel.
Import ListNotations.
Open Scope Z_scope.

(** ** The program. Responses and websockets are named by their position; names that do not exist are
    ignored. [HResponse]: a response with an empty list of extensions; [HExtend]: an extension is added to
    it; [HUpgrade]: the dispatcher answers a handshake with it and releases it; [HDrop]: it is released
    without a handshake; [HEnd]: the thread of a websocket ends. *)
Inductive hop :=
| HResponse
| HExtend (i : nat) (name : str) (rsv : Z) (f : nat)
| HUpgrade (i : nat) (u : shake)
| HDrop (i : nat)
| HEnd (j : nat).
Record hprog := mk_hprog { h_mem : mem; h_resps : list wexts; h_wss : list swebsocket }.
Definition h_answers (s : hprog) (l : list bool) : hprog := mk_hprog (mk_mem (m_heap (h_mem s)) l []) (h_resps s) (h_wss s).
Definition hstep (F : matches_of) (s : hprog) (o : hop) : outcome (Z * hprog) :=
  match o with
  | HResponse =>
      match x_malloc (h_mem s) with
      | (None, m1) => Ret (U_ERROR_MEMORY, mk_hprog m1 (h_resps s) (h_wss s))
      | (Some p, m1) => Ret (U_OK, mk_hprog m1 (h_resps s ++ [Some (p, None)]) (h_wss s))
      end
  | HExtend i name rsv f =>
      match nth_error (h_resps s) i with
      | None => Ret (U_ERROR_PARAMS, s)
      | Some l =>
          do x <- x_add_sext (h_mem s) l name rsv f;
          let '(c, (m1, l1)) := x in Ret (c, mk_hprog m1 (set_nth (h_resps s) i l1) (h_wss s))
      end
  | HUpgrade i u =>
      match nth_error (h_resps s) i with
      | None => Ret (U_ERROR_PARAMS, s)
      | Some l =>
          do x <- x_upgrade F (h_mem s) l u;
          let '(c, (m1, (l1, v))) := x in
          do m2 <- x_clean_handle_list m1 l1;
          Ret (c, mk_hprog m2 (drop i (h_resps s)) (h_wss s ++ match v with Some v => [v] | None => [] end))
      end
  | HDrop i =>
      match nth_error (h_resps s) i with
      | None => Ret (U_ERROR_PARAMS, s)
      | Some l => do m1 <- x_clean_handle_list (h_mem s) l; Ret (U_OK, mk_hprog m1 (drop i (h_resps s)) (h_wss s))
      end
  | HEnd j =>
      match nth_error (h_wss s) j with
      | None => Ret (U_ERROR_PARAMS, s)
      | Some v => do m1 <- x_clear_sws (h_mem s) v; Ret (U_OK, mk_hprog m1 (h_resps s) (drop j (h_wss s)))
      end
  end.
Fixpoint hrun (F : matches_of) (s : hprog) (ops : list (list bool * hop)) : outcome (list Z * hprog) :=
  match ops with
  | [] => Ret ([], s)
  | (a, o) :: r => do x <- hstep F (h_answers s a) o; do y <- hrun F (snd x) r; Ret (fst x :: fst y, snd y)
  end.
Definition hstart : hprog := mk_hprog (mk_mem (mk_heap 0 []) [] []) [] [].

(** ** What the calls mean when there is memory. An extension: its name, the text of its answer, its bit,
    its functions, whether it is used, whether it has a context. *)
Record sext := mk_sext { s_name : option str; s_text : option str; s_rsv : Z; s_fun : nat; s_on : bool; s_ctx : bool }.
(** the extensions of the responses, those of the websockets *)
Definition hstate := (list (list sext) * list (list sext))%type.
Definition one_if (b : bool) : nat := if b then 1%nat else 0%nat.
Definition has {A} (x : option A) : bool := match x with Some _ => true | None => false end.
Definition accept (e : sext) (t : str) (on ctx : bool) : sext := mk_sext (s_name e) (Some t) (s_rsv e) (s_fun e) on ctx.
Definition refuse (e : sext) : sext := mk_sext (s_name e) (s_text e) (s_rsv e) (s_fun e) false false.
(** the first extension that can be used for the offer, with the bits taken and the blocks that nothing
    points to any more: a context or a text that another one replaced *)
Fixpoint a_offer (F : matches_of) (toks : list str) (tok : str) (exp : Z) (l : list sext) : Z * (list sext * nat) :=
  match l with
  | [] => (exp, ([], 0%nat))
  | e :: r =>
      let next e n := let '(b, (r1, k)) := a_offer F toks tok exp r in (b, (e :: r1, (n + k)%nat)) in
      if s_on e then next e 0%nat
      else
        match F (s_fun e) with
        | None =>
            if (match s_name e with Some s => str_eqb tok s | None => false end) && (Z.land (s_rsv e) exp =? 0)
            then (Z.lor exp (s_rsv e), (accept e tok true (s_ctx e) :: r, one_if (has (s_text e)))) else next e 0%nat
        | Some f =>
            match f tok toks with
            | MNo => next e 0%nat
            | MBad => next (refuse e) (one_if (s_ctx e))
            | MYes t =>
                let n := (one_if (s_ctx e) + one_if (has (s_text e)))%nat in
                if Z.land (s_rsv e) exp =? 0 then (Z.lor exp (s_rsv e), (accept e t true true :: r, n)) else (exp, (accept e t false true :: r, n))
            end
        end
  end.
Fixpoint a_offers (F : matches_of) (toks all : list str) (exp : Z) (l : list sext) : Z * (list sext * nat) :=
  match toks with
  | [] => (exp, (l, 0%nat))
  | tok :: r => let '(b, (l1, n)) := a_offer F all tok exp l in let '(b2, (l2, k)) := a_offers F r all b l1 in (b2, (l2, (n + k)%nat))
  end.
Definition number (p : sext -> bool) (l : list sext) : nat := List.length (filter p l).
(** the contexts, those of the extensions that are not used *)
Definition contexts (l : list sext) : nat := number s_ctx l.
Definition idle_contexts (l : list sext) : nat := number (fun e => s_ctx e && negb (s_on e)) l.
(** the blocks of a websocket: itself, its manager, two lists, the request, the list of extensions, its
    array if it is not empty, and the extensions *)
Definition sext_size (e : sext) : nat := (1 + one_if (has (s_name e)) + one_if (has (s_text e)) + one_if (s_ctx e))%nat.
Definition sws_size (l : list sext) : nat := (6 + one_if (negb (match l with [] => true | _ => false end)) + list_sum (map sext_size l))%nat.
Definition checked (c : bool * option str) : bool := negb (fst c && negb (has (snd c))).
(** the handshake: whether it is an upgrade, the extensions of the websocket, the blocks lost *)
Definition a_upgrade (F : matches_of) (l : list sext) (u : shake) : Z * (option (list sext) * nat) :=
  if u_valid u then
    let '(ok, (l1, n)) := match u_offer u, l with
                          | Some toks, _ :: _ => (true, snd (a_offers F toks toks 0 l))
                          | _, _ => (checked (u_list u), (l, 0%nat))
                          end in
    if ok && checked (u_proto u) && u_key u then
      if u_mhd u then
        if u_headers u then (U_OK, (Some l1, n)) else (U_ERROR, (None, (n + idle_contexts l1)%nat))
      else (U_ERROR, (None, (n + sws_size l1)%nat))
    else (U_ERROR, (None, (n + contexts l1)%nat))
  else (U_ERROR, (None, contexts l)).
Definition a_hstep (F : matches_of) (st : hstate) (o : hop) : Z * (hstate * nat) :=
  match o with
  | HResponse => (U_OK, ((fst st ++ [[]], snd st), 0%nat))
  | HExtend i name rsv f =>
      match nth_error (fst st) i with
      | None => (U_ERROR_PARAMS, (st, 0%nat))
      | Some l => (U_OK, ((set_nth (fst st) i (l ++ [mk_sext (Some name) None rsv f false false]), snd st), 0%nat))
      end
  | HUpgrade i u =>
      match nth_error (fst st) i with
      | None => (U_ERROR_PARAMS, (st, 0%nat))
      | Some l =>
          let '(c, (v, n)) := a_upgrade F l u in
          (c, ((drop i (fst st), snd st ++ match v with Some v => [v] | None => [] end), n))
      end
  | HDrop i =>
      match nth_error (fst st) i with
      | None => (U_ERROR_PARAMS, (st, 0%nat))
      | Some l => (U_OK, ((drop i (fst st), snd st), contexts l))
      end
  | HEnd j =>
      match nth_error (snd st) j with
      | None => (U_ERROR_PARAMS, (st, 0%nat))
      | Some l => (U_OK, ((fst st, drop j (snd st)), idle_contexts l))
      end
  end.

(** ** What the calls may do when an allocation fails while they run *)
(** what a handshake leaves of an extension *)
Definition same_ext (e e' : sext) : Prop := s_name e' = s_name e /\ s_rsv e' = s_rsv e /\ s_fun e' = s_fun e.
(** no extension makes contexts *)
Definition plain_ext (F : matches_of) (e : sext) : Prop := F (s_fun e) = None /\ s_ctx e = false /\ (s_on e = false -> s_text e = None).
Definition a_hstep_fail (F : matches_of) (st : hstate) (o : hop) (c : Z) (st' : hstate) (lost : nat) : Prop :=
  match o with
  | HResponse => c = U_ERROR_MEMORY /\ st' = st /\ lost = 0%nat
  | HExtend i name rsv f =>
      (c = U_ERROR_MEMORY /\ st' = st \/
       exists l, nth_error (fst st) i = Some l /\ c = U_OK /\ st' = (set_nth (fst st) i (l ++ [mk_sext None None rsv f false false]), snd st)) /\ lost = 0%nat
  | HUpgrade i u =>
      exists l, nth_error (fst st) i = Some l /\
        (c = U_ERROR /\ st' = (drop i (fst st), snd st) \/
         exists l', c = U_OK /\ Forall2 same_ext l l' /\ (Forall (plain_ext F) l -> Forall (plain_ext F) l') /\ st' = (drop i (fst st), snd st ++ [l'])) /\
        (Forall (plain_ext F) l -> u_mhd u = true -> lost = 0%nat)
  | HDrop _ | HEnd _ => False
  end.
(** a run, the codes of its calls and the blocks that are lost *)
Inductive h_means (F : matches_of) : hstate -> list (list bool * hop) -> list Z -> hstate -> nat -> Prop :=
| hm_nil : forall st, h_means F st [] [] st 0
| hm_step : forall st a o r c st1 k cs st2 n, a_hstep F st o = (c, (st1, k)) \/ (In false a /\ a_hstep_fail F st o c st1 k) ->
    h_means F st1 r cs st2 n -> h_means F st ((a, o) :: r) (c :: cs) st2 (k + n).

(** ** Servers that lose nothing *)
(** no extension has a function of its own, and MHD gives its responses *)
Definition plain_op (F : matches_of) (o : hop) : Prop :=
  match o with HExtend _ _ _ f => F f = None | HUpgrade _ u => u_mhd u = true | _ => True end.
(** the extensions of a response use different bits *)
Definition apart (l : list sext) : Prop := ForallOrdPairs (fun a b => Z.land a b = 0) (map s_rsv l).
(** every handshake is an upgrade, or is refused before its extensions are looked at *)
Definition careful_op (F : matches_of) (st : hstate) (o : hop) : Prop :=
  match o with
  | HUpgrade i u =>
      forall l, nth_error (fst st) i = Some l -> apart l /\ (fst (a_upgrade F l u) = U_OK \/ u_valid u = false \/ (u_offer u = None /\ u_mhd u = true))
  | _ => True
  end.
Fixpoint careful (F : matches_of) (st : hstate) (ops : list hop) : Prop :=
  match ops with [] => True | o :: r => careful_op F st o /\ careful F (fst (snd (a_hstep F st o))) r end.

(** ** The memory as the program sees it *)
Definition sws_blocks (v : swebsocket) : list nat := fst v :: of_member man_blocks (fst (snd v)) ++ ptr_blocks (snd (snd v)).
Definition hprog_blocks (s : hprog) : list nat := flat_map wexts_blocks (h_resps s) ++ flat_map sws_blocks (h_wss s).
(** the extensions of a list, of a websocket *)
Definition read_sext (m : mem) (e : ptr wext) : outcome sext :=
  do x <- x_deref m e; do n <- read_text m (x_server (snd x)); do t <- read_text m (x_client (snd x)); do c <- x_member (x_context (snd x));
  do _ <- (match c with None => Ret tt | Some _ => do y <- x_deref m c; Ret tt end);
  Ret (mk_sext n t (x_rsv (snd x)) (x_fun (snd x)) (x_on (snd x)) (has c)).
Fixpoint read_sexts (m : mem) (l : list (ptr wext)) : outcome (list sext) :=
  match l with [] => Ret [] | e :: r => do x <- read_sext m e; do y <- read_sexts m r; Ret (x :: y) end.
Definition read_list (m : mem) (l : wexts) : outcome (list sext) := do es <- x_elements m l; read_sexts m es.
Fixpoint read_lists (m : mem) (l : list wexts) : outcome (list (list sext)) :=
  match l with [] => Ret [] | e :: r => do x <- read_list m e; do y <- read_lists m r; Ret (x :: y) end.
Definition ws_list (m : mem) (v : swebsocket) : outcome wexts :=
  do _ <- h_use (m_heap m) (fst v); do g <- x_member (fst (snd v)); do x <- x_deref m g; x_member (g_exts (snd x)).
Fixpoint ws_lists (m : mem) (l : list swebsocket) : outcome (list wexts) :=
  match l with [] => Ret [] | v :: r => do x <- ws_list m v; do y <- ws_lists m r; Ret (x :: y) end.
Definition read_hprog (s : hprog) : outcome hstate :=
  do a <- read_lists (h_mem s) (h_resps s); do w <- ws_lists (h_mem s) (h_wss s); do b <- read_lists (h_mem s) w; Ret (a, b).

(** what is asked: pthread can make a thread; a websocket whose memory is missing has no
    websocket_onclose_callback to call; the list of its incoming messages has memory (C99) *)
Definition hop_ok (o : hop) : Prop := match o with HUpgrade _ u => u_thread u = true | _ => True end.
Definition h_memory_ok (o : hop) (a : list bool) : Prop :=
  match o with
  | HUpgrade _ u => (u_onclose u = true -> nth 0 a true = true) /\ w_memory_ok (WNew false true) a
  | _ => True
  end.
