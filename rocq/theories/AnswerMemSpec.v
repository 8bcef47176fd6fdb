(** Specification vocabulary for the memory of the answers (C104): what the callbacks of a request
    mean, what is answered, what is released and what is lost, without memory. *)
From Coq Require Import ZArith Bool List.
From Verif Require Import Base OwnModel MapMemModel MapMemSpec RespMemModel RespMemSpec AnswerMemModel.
Import ListNotations.
Open Scope Z_scope.

(** ** The response as the callbacks see it *)
Record adresp := mk_adresp { b_resp : aresp; b_status : Z; b_stream : option Z; b_shared : option (Z * bool) }.
Definition as_rop (o : cop) : option rop :=
  match o with
  | CRealm s => Some (RRealm 0 s)
  | CHeader k v => Some (RHeader 0 k v)
  | CUnheader k => Some (RUnheader 0 k)
  | CText _ s => Some (RText 0 s)
  | CBytes _ b => Some (RBytes 0 b)
  | CEmpty _ | CStream _ _ => Some (REmpty 0)
  | CCookie k v e d p => Some (RCookie 0 k v e d p)
  | CShared _ _ => None
  end.
Definition meaning (a : aresp) (o : cop) : Z * aresp := match as_rop o with Some r => ar_call a r | None => (U_OK, a) end.
(** the response after a call that returned [c] and left [a] *)
Definition wrote (o : cop) (c : Z) (b : adresp) (a : aresp) : adresp :=
  match o with
  | CText s _ | CBytes s _ | CEmpty s => mk_adresp a (if c =? U_OK then s else b_status b) (b_stream b) (b_shared b)
  | CStream s data => mk_adresp a s (Some data) (b_shared b)
  | CShared data free => mk_adresp a (b_status b) (b_stream b) (Some (data, free))
  | _ => mk_adresp a (b_status b) (b_stream b) (b_shared b)
  end.
Definition owned (s : option (Z * bool)) : list Z := match s with Some (x, true) => [x] | _ => [] end.
Definition replaced (o : cop) (b : adresp) : list Z := match o with CShared _ _ => owned (b_shared b) | _ => [] end.
(** a callback: the code, the shared data it released, the response; a call may fail only if an
    allocation failed while it ran *)
Inductive plays : adresp -> callback -> Z -> list Z -> adresp -> Prop :=
| pl_stop : forall b code, plays b (Stop code) code [] b
| pl_call : forall b answers o next c a code log b', meaning (b_resp b) o = (c, a) -> plays (wrote o c b a) (next c) code log b' ->
    plays b (Call answers o next) code (replaced o b ++ log) b'
| pl_fail : forall b answers o next r c a code log b', In false answers -> as_rop o = Some r -> ar_fail (b_resp b) r c a ->
    plays (wrote o c b a) (next c) code log b' -> plays b (Call answers o next) code (replaced o b ++ log) b'.

(** ** What may happen after a callback when an allocation fails: the copy of the body (then the
    body of the response is the text of an error, or nothing), the text of an error, the texts of
    the cookies *)
Inductive copy_fate := Copied | Replaced | Gone.
Record choice := mk_choice { ch_body : copy_fate; ch_text : bool; ch_cookies : bool }.
Definition fine : choice := mk_choice Copied true true.
Definition choice_ok (answers : list bool) (ch : choice) : Prop := ch = fine \/ In false answers.

(** the state: the response, the struct MHD_Response, the last length, whether the answer is 401,
    the realm, the data released, and how many blocks are lost *)
Record ystate := mk_ystate {
  y_resp : adresp;
  y_mhd : option body;
  y_len : Z;
  y_401 : bool;
  y_realm : option str;
  y_log : list Z;
  y_lost : nat
}.
Definition one {A} (x : option A) : nat := match x with Some _ => 1 | None => 0 end.
Definition error_body (b : adresp) (kept : bool) : adresp :=
  mk_adresp (set_body (b_resp b) (if kept then Some error_text else None)) 500 (b_stream b) (b_shared b).
(** the body of the answer: whether there is one, the bytes, the length, the response, the blocks lost *)
Definition s_get_body (ch : choice) (b : adresp) (len : Z) : bool * option (list Z) * Z * adresp * nat :=
  match nonempty (ar_body (b_resp b)) with
  | None => (true, None, 0, b, O)
  | Some x =>
      match ch_body ch with
      | Copied => (true, Some x, zlen x, b, O)
      | Replaced => (true, None, len, error_body b true, 1%nat)
      | Gone => (false, None, len, error_body b false, 1%nat)
      end
  end.
(** the struct MHD_Response; a buffer that it does not take is lost *)
Definition s_create (w : world) (buffer : option (list Z)) (len : Z) : option body * nat :=
  if w_creates w && (match buffer with Some _ => true | None => len <=? 0 end)
  then (Some (Bytes (match buffer with Some x => x | None => [] end)), O)
  else (None, one buffer).
(** whether the headers and the cookies are all given *)
Definition s_decorate (w : world) (ch : choice) (a : aresp) : bool :=
  forallb (fun e => match a_text (snd e) with Some t => w_header w (fst e) t | None => true end) (ar_header a)
    && ch_cookies ch && forallb (w_cookie w) (seq 0 (length (ar_cookies a))).

Definition s_error_answer (s : ystate) (w : world) (ch : choice) : ystate :=
  if ch_text ch then
    let x := s_create w (Some error_text) (zlen error_text) in
    mk_ystate (y_resp s) (fst x) (zlen error_text) (y_401 s) (y_realm s) (y_log s) (y_lost s + snd x)
  else s.
Definition set_500 (b : adresp) : adresp := mk_adresp (b_resp b) 500 (b_stream b) (b_shared b).
Definition s_complete (s : ystate) (w : world) (ch : choice) : ystate :=
  let '(ok, buffer, len, b, lost) := s_get_body ch (y_resp s) (y_len s) in
  if ok then
    let x := s_create w buffer len in
    mk_ystate b (fst x) len (y_401 s) (y_realm s) (y_log s) (y_lost s + lost + snd x)
  else s_error_answer (mk_ystate (set_500 b) (y_mhd s) len (y_401 s) (y_realm s) (y_log s) (y_lost s + lost)) w ch.
Definition pick_realm (own default old : option str) : option str :=
  match own with Some t => Some t | None => match default with Some t => Some t | None => old end end.
Definition s_unauthorized (s : ystate) (w : world) (ch : choice) (default : option str) : ystate :=
  let '(ok, buffer, len, b, lost) := s_get_body ch (y_resp s) (y_len s) in
  let s1 :=
    if ok then
      let x := s_create w buffer len in
      if (match fst x with Some _ => true | None => false end) && s_decorate w ch (b_resp b)
      then mk_ystate b (fst x) len true (y_realm s) (y_log s) (y_lost s + lost + snd x)
      else mk_ystate (error_body b (ch_text ch)) (fst x) len (ch_text ch) (y_realm s) (y_log s) (y_lost s + lost + snd x + one (ar_body (b_resp b)))
    else
      let s1 := s_error_answer (mk_ystate b (y_mhd s) len (y_401 s) (y_realm s) (y_log s) (y_lost s + lost)) w ch in
      mk_ystate (y_resp s1) (y_mhd s1) (y_len s1) (ch_text ch) (y_realm s1) (y_log s1) (y_lost s1) in
  mk_ystate (y_resp s1) (y_mhd s1) (y_len s1) (y_401 s1) (pick_realm (ar_realm (b_resp (y_resp s1))) default (y_realm s1)) (y_log s1) (y_lost s1).
Definition s_error (s : ystate) (w : world) (ch : choice) : ystate :=
  s_error_answer (mk_ystate (set_500 (y_resp s)) (y_mhd s) (y_len s) (y_401 s) (y_realm s) (y_log s) (y_lost s)) w ch.
Definition s_stream (s : ystate) (w : world) (data : Z) : ystate :=
  mk_ystate (y_resp s) (if w_creates w then Some (Stream data) else None) (y_len s) (y_401 s) (y_realm s) (y_log s) (y_lost s).
Definition s_enter (s : ystate) (b : adresp) (log : list Z) : ystate :=
  mk_ystate b (y_mhd s) (y_len s) (y_401 s) (y_realm s) (y_log s ++ log) (y_lost s).

(** after a callback of the endpoints: [None] when the next one is called *)
Definition s_turn (s : ystate) (w : world) (ch : choice) (default : option str) (code : Z) (last : bool) : option ystate :=
  match b_stream (y_resp s) with
  | Some data => Some (s_stream s w data)
  | None =>
      if (code =? U_CALLBACK_CONTINUE) || (code =? U_CALLBACK_IGNORE) then if last then Some (s_complete s w ch) else None
      else if code =? U_CALLBACK_COMPLETE then Some (s_complete s w ch)
      else if code =? U_CALLBACK_UNAUTHORIZED then Some (s_unauthorized s w ch default)
      else Some (s_error s w ch)
  end.
Definition is_nil {A} (l : list A) : bool := match l with [] => true | _ => false end.
Inductive s_endpoints (default : option str) : ystate -> list (callback * world) -> bool -> bool -> ystate -> Prop :=
| se_last : forall s p w r pos code log b ch s', plays (y_resp s) p code log b -> choice_ok (w_memory w) ch ->
    s_turn (s_enter s b log) w ch default code (is_nil r) = Some s' ->
    s_endpoints default s ((p, w) :: r) pos (pos || negb (code =? U_CALLBACK_IGNORE)) s'
| se_next : forall s p w r pos code log b ch pos' s', plays (y_resp s) p code log b ->
    s_turn (s_enter s b log) w ch default code (is_nil r) = None ->
    s_endpoints default (s_enter s b log) r (pos || negb (code =? U_CALLBACK_IGNORE)) pos' s' ->
    s_endpoints default s ((p, w) :: r) pos pos' s'.
(** after the callback of the default endpoint: a code that is not known gives no answer *)
Definition s_default_turn (s : ystate) (w : world) (ch : choice) (default : option str) (code : Z) : ystate :=
  if code =? U_CALLBACK_UNAUTHORIZED then s_unauthorized s w ch default
  else if code =? U_CALLBACK_ERROR then s_error s w ch
  else if (code =? U_CALLBACK_CONTINUE) || (code =? U_CALLBACK_IGNORE) || (code =? U_CALLBACK_COMPLETE) then s_complete s w ch
  else s.
Definition given_up (b : option body) : list Z := match b with Some (Stream data) => [data] | _ => [] end.
Inductive s_last (default : option str) : option (callback * world) -> bool -> ystate -> ystate -> Prop :=
| sl_none : forall pos s, s_last default None pos s s
| sl_taken : forall e s, s_last default (Some e) true s s
| sl_default : forall p w s code log b ch, plays (y_resp s) p code log b -> choice_ok (w_memory w) ch ->
    s_last default (Some (p, w)) false s
      (s_default_turn (s_enter (mk_ystate (y_resp s) None (y_len s) (y_401 s) (y_realm s) (y_log s ++ given_up (y_mhd s)) (y_lost s)) b log) w ch default code).

(** ** A request: the answer, the data released, the blocks lost, and the response when it is lost *)
Record fate := mk_fate { f_answer : option (Z * option str * body); f_log : list Z; f_lost : nat; f_left : option adresp }.
Definition s_finish (s : ystate) (queues : bool) : fate :=
  match y_mhd s with
  | None => mk_fate None (y_log s) (y_lost s) (Some (y_resp s))
  | Some c =>
      mk_fate (if queues then Some (if y_401 s then (401, y_realm s) else (b_status (y_resp s), None), c) else None)
              (y_log s ++ (if queues then [] else given_up (Some c)) ++ owned (b_shared (y_resp s)) ++ (if queues then given_up (Some c) else []))
              (y_lost s) None
  end.
Inductive s_request (headers : amap) (realm : option str) (q : request) : fate -> Prop :=
| sq_unknown : forall c lost, rq_endpoints q = [] -> s_create (rq_world q) (Some not_found_text) (zlen not_found_text) = (c, lost) ->
    s_request headers realm q
      (mk_fate (match c with Some b => if rq_queues q then Some (404, None, b) else None | None => None end) [] lost None)
| sq_unknown_fail : rq_endpoints q = [] -> In false (w_memory (rq_world q)) -> s_request headers realm q (mk_fate None [] O None)
| sq_new_fail : rq_endpoints q <> [] -> In false (rq_first q) -> s_request headers realm q (mk_fate None [] O None)
| sq_run : forall pos s s', rq_endpoints q <> [] ->
    s_endpoints realm (mk_ystate (mk_adresp (set_header new_resp headers) 200 None None) None 0 false None [] O) (rq_endpoints q) false pos s ->
    s_last realm (rq_default q) pos s s' -> s_request headers realm q (s_finish s' (rq_queues q)).
Definition s_requests (headers : amap) (realm : option str) (l : list request) (r : list fate) : Prop := Forall2 (s_request headers realm) l r.

(** ** What is asked: texts that fit in [max] bytes; where the calls of the callbacks, the making of
    the response and the copy of default_headers may fail *)
Definition cop_ok (max : Z) (o : cop) (answers : list bool) : Prop :=
  match as_rop o with Some r => rop_ok false max r /\ memory_ok r answers | None => True end.
Fixpoint callback_ok (max : Z) (p : callback) : Prop :=
  match p with Stop _ => True | Call answers o next => cop_ok max o answers /\ forall c, callback_ok max (next c) end.
Definition request_ok (max : Z) (q : request) : Prop :=
  memory_ok RNew (rq_first q) /\ ~ In false (rq_second q) /\ Forall (fun e => callback_ok max (fst e)) (rq_endpoints q) /\
  match rq_default q with Some e => callback_ok max (fst e) | None => True end.

(** ** When there is memory, libmicrohttpd takes everything, and the codes of the default endpoint are known *)
(** a callback with memory *)
Fixpoint played (b : adresp) (p : callback) : Z * list Z * adresp :=
  match p with
  | Stop code => (code, [], b)
  | Call _ o next => let '(c, a) := meaning (b_resp b) o in
                     let '(code, log, b') := played (wrote o c b a) (next c) in (code, replaced o b ++ log, b')
  end.
(** the callbacks in turn until one decides: the response, its code, whether one was not
    U_CALLBACK_IGNORE, the data released *)
Fixpoint visit (b : adresp) (l : list (callback * world)) (pos : bool) : adresp * Z * bool * list Z :=
  match l with
  | [] => (b, U_CALLBACK_CONTINUE, pos, [])
  | (p, _) :: r =>
      let '(code, log, b1) := played b p in
      let pos1 := pos || negb (code =? U_CALLBACK_IGNORE) in
      if (match b_stream b1 with Some _ => true | None => negb ((code =? U_CALLBACK_CONTINUE) || (code =? U_CALLBACK_IGNORE)) || is_nil r end)
      then (b1, code, pos1, log)
      else let '(b2, code2, pos2, log2) := visit b1 r pos1 in (b2, code2, pos2, log ++ log2)
  end.
(** the answer of a code: status, realm, body *)
Definition verdict (realm : option str) (b : adresp) (code : Z) : Z * option str * body :=
  let told := Bytes (match ar_body (b_resp b) with Some x => x | None => [] end) in
  if code =? U_CALLBACK_UNAUTHORIZED then (401, match ar_realm (b_resp b) with Some t => Some t | None => realm end, told)
  else if (code =? U_CALLBACK_CONTINUE) || (code =? U_CALLBACK_IGNORE) || (code =? U_CALLBACK_COMPLETE) then (b_status b, None, told)
  else (500, None, Bytes error_text).
Definition stream_data (b : adresp) : list Z := match b_stream b with Some x => [x] | None => [] end.
(** a request: the answer, and the data released *)
Definition expected (headers : amap) (realm : option str) (q : request) : option (Z * option str * body) * list Z :=
  match rq_endpoints q with
  | [] => (if rq_queues q then Some (404, None, Bytes not_found_text) else None, [])
  | l =>
      let '(b, code, pos, log) := visit (mk_adresp (set_header new_resp headers) 200 None None) l false in
      let first := (match b_stream b with Some x => (b_status b, None, Stream x) | None => verdict realm b code end, b, log) in
      let '(answer, b2, log2) :=
        match rq_default q with
        | Some (p, _) => if pos then first else let '(code2, lg, b2) := played b p in (verdict realm b2 code2, b2, log ++ stream_data b ++ lg)
        | None => first
        end in
      let ended := given_up (Some (snd answer)) in
      if rq_queues q then (Some answer, log2 ++ owned (b_shared b2) ++ ended) else (None, log2 ++ ended ++ owned (b_shared b2))
  end.
Fixpoint callback_roomy (p : callback) : Prop :=
  match p with Stop _ => True | Call answers _ next => ~ In false answers /\ forall c, callback_roomy (next c) end.
Fixpoint known (p : callback) : Prop :=
  match p with Stop code => 0 <= code <= 4 | Call _ _ next => forall c, known (next c) end.
Definition willing (w : world) : Prop :=
  ~ In false (w_memory w) /\ w_creates w = true /\ (forall k v, w_header w k v = true) /\ forall i, w_cookie w i = true.
Definition roomy (q : request) : Prop :=
  ~ In false (rq_first q) /\ willing (rq_world q) /\ Forall (fun e => callback_roomy (fst e) /\ willing (snd e)) (rq_endpoints q) /\
  match rq_default q with Some e => callback_roomy (fst e) /\ willing (snd e) /\ known (fst e) | None => True end.
