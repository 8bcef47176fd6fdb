(** Specification vocabulary for the memory of websockets opened by a client (C101): a program with any
    number of client handlers, what its calls mean, which calls are misuse, and the blocks in use. *)
From Coq Require Import ZArith Bool List.
From Verif Require Import Base StrModel UMapModel OwnModel MapMemModel MapMemSpec RespMemModel RespMemSpec WsMemModel WsMemSpec HandMemModel HandMemSpec CliMemModel.
Import ListNotations.
Open Scope Z_scope.

(** ** The program. Handlers are named by their position; names that do not exist are ignored.
    [CNew]: a handler that is set to NULL; [CExtend]: an extension is added to it; [COpen]: its websocket is
    opened; [CEnd]: the thread of its websocket ends; [CSignal], [CStatus], [CWait], [CClose]: the functions
    of the client. *)
Inductive cop :=
| CNew
| CExtend (i : nat) (name : str) (rsv : Z) (f : nat)
| COpen (i : nat) (u : opening)
| CEnd (i : nat)
| CSignal (i : nat)
| CStatus (i : nat)
| CWait (i : nat) (late : bool)
| CClose (i : nat).
Record cprog := mk_cprog { q_mem : mem; q_hands : list handler }.
Definition q_answers (s : cprog) (l : list bool) : cprog := mk_cprog (mk_mem (m_heap (q_mem s)) l []) (q_hands s).
(** the call on the handler that it names *)
Definition cname (o : cop) : option nat :=
  match o with CNew => None | CExtend i _ _ _ | COpen i _ | CEnd i | CSignal i | CStatus i | CWait i _ | CClose i => Some i end.
Definition cstep1 (E : cenv) (m : mem) (h : handler) (o : cop) : outcome (Z * (mem * handler)) :=
  match o with
  | CNew => Ret (U_OK, (m, h))
  | CExtend _ name rsv f => x_client_extend m h name rsv f
  | COpen _ u => x_open E m h u
  | CEnd _ => do h1 <- x_thread_end m h; Ret (U_OK, (m, h1))
  | CSignal _ => do c <- x_signal m h; Ret (c, (m, h))
  | CStatus _ => do c <- x_status m h; Ret (c, (m, h))
  | CWait _ late => x_wait E m h late
  | CClose _ => x_close_client E m h
  end.
Definition cstep (E : cenv) (s : cprog) (o : cop) : outcome (Z * cprog) :=
  match cname o with
  | None => Ret (U_OK, mk_cprog (q_mem s) (q_hands s ++ [HNull]))
  | Some i =>
      match nth_error (q_hands s) i with
      | None => Ret (U_ERROR_PARAMS, s)
      | Some h => do x <- cstep1 E (q_mem s) h o; let '(c, (m1, h1)) := x in Ret (c, mk_cprog m1 (set_nth (q_hands s) i h1))
      end
  end.
Fixpoint crun (E : cenv) (s : cprog) (ops : list (list bool * cop)) : outcome (list Z * cprog) :=
  match ops with
  | [] => Ret ([], s)
  | (a, o) :: r => do x <- cstep E (q_answers s a) o; do y <- crun E (snd x) r; Ret (fst x :: fst y, snd y)
  end.
Definition cstart : cprog := mk_cprog (mk_mem (mk_heap 0 []) [] []) [].

(** ** What the calls mean. An extension: the name given by the client, the text of the answer, its bit,
    its functions, whether it is used, its context ([None]: never written) *)
Record cext := mk_cext { e_name : option str; e_text : option str; e_rsv : Z; e_fun : nat; e_on : bool; e_ctx : option bool }.
(** a websocket: its extensions, the bits taken, the texts of the answer, whether it has a copy of a
    request, whether it is connected *)
Record cst := mk_cst { t_exts : list cext; t_bits : Z; t_prot : option str; t_text : option str; t_req : bool; t_conn : bool }.
(** a handler: NULL, a pointer to something released, a websocket without manager, a websocket *)
Inductive chand := CNull | CStale | CBroken | CLive (s : cst).
Definition fresh : cst := mk_cst [] 0 None None false false.
Definition holds (e : cext) : bool := match e_ctx e with Some b => b | None => false end.
Definition agree (e : cext) (t : str) (c : option bool) : cext := mk_cext (e_name e) (Some t) (e_rsv e) (e_fun e) true c.
Definition keep_ctx (e : cext) (c : option bool) : cext := mk_cext (e_name e) (e_text e) (e_rsv e) (e_fun e) false c.
(** one element of the answer: the first extension that knows it is used, if its bits are not taken *)
Fixpoint a_celem (E : cenv) (tok : str) (exp : Z) (l : list cext) : Z * (bool * (list cext * nat)) :=
  match l with
  | [] => (exp, (false, ([], 0%nat)))
  | e :: r =>
      let next e n := let '(b, (ok, (r1, k))) := a_celem E tok exp r in (b, (ok, (e :: r1, (n + k)%nat))) in
      let free := Z.land (e_rsv e) exp =? 0 in
      if e_on e then next e 0%nat
      else
        match c_match E (e_fun e) with
        | Some f =>
            match f (trim tok) with
            | MNo => next e 0%nat
            | MBad => next (keep_ctx e (Some false)) (one_if (holds e))
            | MYes _ =>
                if free then (Z.lor exp (e_rsv e), (true, (agree e (trim_left tok) (Some true) :: r, (one_if (holds e) + one_if (has (e_text e)))%nat)))
                else (exp, (false, (keep_ctx e (Some true) :: r, one_if (holds e))))
            end
        | None =>
            if match e_name e with Some s => str_eqb (trim tok) s | None => false end then
              if free then (Z.lor exp (e_rsv e), (true, (agree e (trim_left tok) (e_ctx e) :: r, one_if (has (e_text e)))))
              else (exp, (false, (e :: r, 0%nat)))
            else next e 0%nat
        end
  end.
Fixpoint a_celems (E : cenv) (toks : list str) (exp : Z) (l : list cext) : Z * (bool * (list cext * nat)) :=
  match toks with
  | [] => (exp, (true, (l, 0%nat)))
  | tok :: r =>
      let '(b, (ok, (l1, n))) := a_celem E tok exp l in
      if ok then let '(b2, (ok2, (l2, k))) := a_celems E r b l1 in (b2, (ok2, (l2, (n + k)%nat))) else (b, (false, (l1, n)))
  end.
(** the headers of the answer *)
Definition a_header (s : cst) (h : header) : cst * nat :=
  match h with
  | HProt v => (mk_cst (t_exts s) (t_bits s) (Some v) (t_text s) (t_req s) (t_conn s), one_if (has (t_prot s)))
  | HExts v => (mk_cst (t_exts s) (t_bits s) (t_prot s) (Some v) (t_req s) (t_conn s), one_if (has (t_text s)))
  | HOther _ _ => (s, 0%nat)
  end.
Fixpoint a_headers (s : cst) (l : list header) : cst * nat :=
  match l with [] => (s, 0%nat) | h :: r => let '(s1, n) := a_header s h in let '(s2, k) := a_headers s1 r in (s2, (n + k)%nat) end.
Definition put_cexts (s : cst) (l : list cext) (b : Z) : cst := mk_cst l b (t_prot s) (t_text s) (t_req s) (t_conn s).
Definition put_req (s : cst) : cst := mk_cst (t_exts s) (t_bits s) (t_prot s) (t_text s) true (t_conn s).
Definition put_conn (s : cst) (b : bool) : cst := mk_cst (t_exts s) (t_bits s) (t_prot s) (t_text s) (t_req s) b.
Definition a_answer (E : cenv) (s : cst) : bool * (cst * nat) :=
  match t_text s, t_exts s with
  | Some (c :: t), _ :: _ => let '(b, (ok, (l, n))) := a_celems E (split_string 44 (c :: t)) (t_bits s) (t_exts s) in (ok, (put_cexts s l b, n))
  | _, _ => (true, (s, 0%nat))
  end.
(** the contexts that are left behind when a websocket is released: those of extensions that are not
    used and those without a function to release them *)
Definition left_behind (E : cenv) (l : list cext) : nat := List.length (filter (fun e => holds e && negb (e_on e && c_free E (e_fun e))) l).
Definition gone (E : cenv) (c : Z) (s : cst) (n : nat) : option (Z * (chand * nat)) := Some (c, (CStale, (n + left_behind E (t_exts s))%nat)).
Definition a_open (E : cenv) (h : chand) (u : opening) : option (Z * (chand * nat)) :=
  if o_url u then
    match (match h with CStale | CBroken => None | CNull => Some fresh | CLive s => Some s end) with
    | None => None
    | Some s =>
        let n := one_if (t_req s) in
        if o_connect u then
          let '(s1, k) := a_headers (put_req s) (o_headers u) in
          if o_answer u then
            let '(ok, (s2, j)) := a_answer E (put_conn s1 true) in
            if ok then Some (U_OK, (CLive s2, (n + k + j)%nat)) else gone E U_ERROR s2 (n + k + j)
          else gone E (o_code u) s1 (n + k)
        else gone E U_ERROR s n
    end
  else Some (U_ERROR_PARAMS, (h, 0%nat)).
(** [None] is misuse: the call reads through a pointer it must not *)
Definition a_cstep1 (E : cenv) (h : chand) (o : cop) : option (Z * (chand * nat)) :=
  match o with
  | CNew => Some (U_OK, (h, 0%nat))
  | CExtend _ name rsv f =>
      let add s := Some (U_OK, (CLive (put_cexts s (t_exts s ++ [mk_cext (Some name) None rsv f false None]) (t_bits s)), 0%nat)) in
      match h with CNull => add fresh | CLive s => add s | CStale | CBroken => None end
  | COpen _ u => a_open E h u
  | CEnd _ => Some (U_OK, (match h with CLive s => CLive (put_conn s false) | _ => h end, 0%nat))
  | CSignal _ => match h with CNull | CStale => None | CBroken => Some (U_ERROR_PARAMS, (h, 0%nat)) | CLive _ => Some (U_OK, (h, 0%nat)) end
  | CStatus _ =>
      match h with
      | CNull | CStale => None
      | CBroken => Some (STATUS_ERROR, (h, 0%nat))
      | CLive s => Some (if t_conn s then STATUS_OPEN else STATUS_CLOSE, (h, 0%nat))
      end
  | CWait _ late =>
      match h with
      | CNull | CStale => None
      | CBroken => Some (STATUS_ERROR, (h, 0%nat))
      | CLive s => Some (if t_conn s && late then (STATUS_OPEN, (h, 0%nat)) else (STATUS_CLOSE, (CNull, left_behind E (t_exts s))))
      end
  | CClose _ =>
      match h with
      | CNull => Some (U_OK, (h, 0%nat))
      | CStale => None
      | CBroken => Some (U_ERROR, (h, 0%nat))
      | CLive s => gone E U_OK s 0
      end
  end.
Definition a_cstep (E : cenv) (st : list chand) (o : cop) : option (Z * (list chand * nat)) :=
  match cname o with
  | None => Some (U_OK, (st ++ [CNull], 0%nat))
  | Some i =>
      match nth_error st i with
      | None => Some (U_ERROR_PARAMS, (st, 0%nat))
      | Some h => match a_cstep1 E h o with None => None | Some (c, (h1, n)) => Some (c, (set_nth st i h1, n)) end
      end
  end.
Fixpoint a_crun (E : cenv) (st : list chand) (ops : list cop) : option (list Z * (list chand * nat)) :=
  match ops with
  | [] => Some ([], (st, 0%nat))
  | o :: r =>
      match a_cstep E st o with
      | None => None
      | Some (c, (st1, n)) => match a_crun E st1 r with None => None | Some (cs, (st2, k)) => Some (c :: cs, (st2, (n + k)%nat)) end
      end
  end.

(** ** What the calls may do when an allocation fails while they run *)
Definition same_cext (e e' : cext) : Prop := e_name e' = e_name e /\ e_rsv e' = e_rsv e /\ e_fun e' = e_fun e.
(** an extension that makes no contexts *)
Definition plain_cext (E : cenv) (e : cext) : Prop := c_match E (e_fun e) = None /\ holds e = false /\ (e_on e = false -> e_text e = None).
(** a websocket that was not opened yet *)
Definition unopened (s : cst) : Prop := t_prot s = None /\ t_text s = None /\ t_req s = false.
(** the answer has the headers of a websocket once *)
Definition once (l : list header) : Prop :=
  (List.length (filter (fun h => match h with HProt _ => true | _ => false end) l) <= 1)%nat /\
  (List.length (filter (fun h => match h with HExts _ => true | _ => false end) l) <= 1)%nat.
Definition a_cstep_fail (E : cenv) (h : chand) (o : cop) (c : Z) (h' : chand) (lost : nat) : Prop :=
  match o with
  | CExtend _ name rsv f =>
      (h = CNull /\ c = U_ERROR /\ (h' = CNull \/ h' = CBroken) /\ lost = 0%nat) \/
      (h = CBroken /\ c = U_ERROR_MEMORY /\ h' = CBroken /\ lost = 0%nat) \/
      exists s, (h = CLive s \/ h = CNull /\ s = fresh) /\
        ((c = U_ERROR_MEMORY /\ h' = CLive s /\ (lost <= 2)%nat) \/
         (c = U_OK /\ h' = CLive (put_cexts s (t_exts s ++ [mk_cext None None rsv f false None]) (t_bits s)) /\ lost = 0%nat))
  | COpen _ u =>
      (c = U_ERROR_PARAMS /\ h' = h /\ lost = 0%nat) \/
      (h = CNull /\ c = U_ERROR_MEMORY /\ h' = CNull /\ lost = 0%nat) \/
      exists s, (h = CLive s \/ h = CNull /\ s = fresh) /\
        ((c = U_ERROR \/ c = o_code u) /\ h' = CStale \/
         exists s', c = U_OK /\ h' = CLive s' /\ t_conn s' = true /\ Forall2 same_cext (t_exts s) (t_exts s') /\
           (Forall (plain_cext E) (t_exts s) -> Forall (plain_cext E) (t_exts s'))) /\
        (Forall (plain_cext E) (t_exts s) -> unopened s -> once (o_headers u) -> lost = 0%nat)
  | _ => False
  end.
(** the websocket of a handler is made and has no memory for its list of incoming messages:
    ulfius_init_websocket_manager releases a pointer that was never written (C99_init_list_refuted) *)
Definition no_list (h : chand) (o : cop) (a : list bool) : Prop :=
  match h, o with
  | CNull, CExtend _ _ _ _ => nth 0 a true = true /\ nth 1 a true = true /\ nth 2 a true = false
  | CNull, COpen _ u => o_url u = true /\ nth 0 a true = true /\ nth 1 a true = true /\ nth 2 a true = true /\ nth 3 a true = false
  | _, _ => False
  end.
(** a run: it misuses a handler, or its calls give these codes, leave these handlers and lose so many blocks *)
Inductive cresult := Misused | Done (cs : list Z) (st : list chand) (lost : nat).
Definition call_means (E : cenv) (st : list chand) (a : list bool) (o : cop) (c : Z) (st1 : list chand) (k : nat) : Prop :=
  a_cstep E st o = Some (c, (st1, k)) \/
  (In false a /\ exists i h h1, cname o = Some i /\ nth_error st i = Some h /\ st1 = set_nth st i h1 /\ a_cstep_fail E h o c h1 k).
Definition call_misused (E : cenv) (st : list chand) (a : list bool) (o : cop) : Prop :=
  a_cstep E st o = None \/ (exists i h, cname o = Some i /\ nth_error st i = Some h /\ no_list h o a).
Inductive c_means (E : cenv) : list chand -> list (list bool * cop) -> cresult -> Prop :=
| cm_nil : forall st, c_means E st [] (Done [] st 0)
| cm_step : forall st a o r c st1 k cs st2 n, call_means E st a o c st1 k -> c_means E st1 r (Done cs st2 n) -> c_means E st ((a, o) :: r) (Done (c :: cs) st2 (k + n))
| cm_later : forall st a o r c st1 k, call_means E st a o c st1 k -> c_means E st1 r Misused -> c_means E st ((a, o) :: r) Misused
| cm_now : forall st a o r, call_misused E st a o -> c_means E st ((a, o) :: r) Misused.

(** ** Programs that lose nothing: no extension makes contexts, allocations fail in openings only, the
    answers have their headers once, no handler is opened twice *)
Definition plain_cop (E : cenv) (x : list bool * cop) : Prop :=
  match snd x with CExtend _ _ _ f => c_match E f = None /\ ~ In false (fst x) | COpen _ u => once (o_headers u) | _ => True end.
Definition opened (ops : list (list bool * cop)) : list nat := flat_map (fun x => match snd x with COpen i _ => [i] | _ => [] end) ops.

(** ** The memory as the program sees it *)
Definition cws_blocks (w : cws) : list nat := of_member man_blocks (k_man w) ++ ptr_blocks (k_prot w) ++ ptr_blocks (k_text w) ++ ptr_blocks (k_req w).
Definition hand_blocks (h : handler) : list nat := match h with HWs p w => p :: cws_blocks w | _ => [] end.
Definition cprog_blocks (s : cprog) : list nat := flat_map hand_blocks (q_hands s).
Definition read_cext (m : mem) (e : ptr wext) : outcome cext :=
  do x <- x_deref m e; do n <- read_text m (x_client (snd x)); do t <- read_text m (x_server (snd x));
  do c <- (match x_context (snd x) with
           | None => Ret None
           | Some None => Ret (Some false)
           | Some (Some q) => do y <- x_deref m (Some q); Ret (Some true)
           end);
  Ret (mk_cext n t (x_rsv (snd x)) (x_fun (snd x)) (x_on (snd x)) c).
Fixpoint read_cexts (m : mem) (l : list (ptr wext)) : outcome (list cext) :=
  match l with [] => Ret [] | e :: r => do x <- read_cext m e; do y <- read_cexts m r; Ret (x :: y) end.
Definition read_hand (m : mem) (h : handler) : outcome chand :=
  match h with
  | HNull => Ret CNull
  | HStale => Ret CStale
  | HWs p w =>
      do _ <- h_use (m_heap m) p; do g <- x_member (k_man w);
      match g with
      | None => Ret CBroken
      | Some _ =>
          do x <- x_deref m g; do l <- x_member (g_exts (snd x)); do es <- x_elements m l; do a <- read_cexts m es;
          do p1 <- read_text m (k_prot w); do p2 <- read_text m (k_text w);
          Ret (CLive (mk_cst a (g_expected (snd x)) p1 p2 (has (k_req w)) (g_connected (snd x))))
      end
  end.
Fixpoint read_hands (m : mem) (l : list handler) : outcome (list chand) :=
  match l with [] => Ret [] | h :: r => do x <- read_hand m h; do y <- read_hands m r; Ret (x :: y) end.
Definition read_cprog (s : cprog) : outcome (list chand) := read_hands (q_mem s) (q_hands s).

(** what is asked: pthread can make a thread; the code of a refused answer is an error; a function to
    release contexts comes with one that makes them (else C101_no_match_refuted) *)
Definition cop_ok (E : cenv) (o : cop) : Prop :=
  match o with
  | COpen _ u => o_thread u = true
  | CExtend _ _ _ f => c_free E f = true -> c_match E f <> None
  | _ => True
  end.
