(** Specification vocabulary for the memory of requests (C98): a program that uses any number of
    requests, what its calls mean, and the blocks in use. *)
From Coq Require Import ZArith Bool List.
From Verif Require Import Base OwnModel MapMemModel MapMemSpec RespMemModel RespMemSpec ReqMemModel.
Import ListNotations.
Open Scope Z_scope.

(** ** The program. Requests are named by their position; names that do not exist are ignored. *)
Inductive qop :=
| QNew
| QIncoming (uri path : str) (cert : option (option str)) (version method : str) (address : list Z)
| QText (i k : nat) (s : option str)
| QPut (i k : nat) (key : str) (value : option str)
| QRemove (i k : nat) (key : str)
| QString (i : nat) (s : str)
| QBytes (i : nat) (b : list Z)
| QEmpty (i : nat)
| QCert (i : nat) (good : bool) (pem : str)
| QDuplicate (i : nat)
| QRelease (i : nat).

Record qprog := mk_qprog { n_mem : mem; n_reqs : list (nat * hreq) }.
(** a call on request [i]: the structure is read and written through its pointer *)
Definition on_req (s : qprog) (i : nat) (call : mem -> hreq -> outcome (Z * (mem * hreq))) : outcome (Z * qprog) :=
  match nth_error (n_reqs s) i with
  | None => Ret (U_ERROR_PARAMS, s)
  | Some (p, r) =>
      do _ <- h_use (m_heap (n_mem s)) p;
      do x <- call (n_mem s) r;
      let '(c, (m, r1)) := x in Ret (c, mk_qprog m (set_nth (n_reqs s) i (p, r1)))
  end.
Definition qstep (s : qprog) (o : qop) : outcome (Z * qprog) :=
  match o with
  | QNew =>
      match x_malloc (n_mem s) with
      | (None, m) => Ret (U_ERROR_MEMORY, mk_qprog m (n_reqs s))
      | (Some p, m) =>
          do x <- x_init_req m raw_req;
          let '(c, (m1, r)) := x in
          if c =? U_OK then Ret (U_OK, mk_qprog m1 (n_reqs s ++ [(p, r)]))
          else do m2 <- x_free m1 (Some p); Ret (c, mk_qprog m2 (n_reqs s))
      end
  | QIncoming uri path cert version method address =>
      do x <- x_uri_logger (n_mem s) uri path;
      match snd x with
      | None => Ret (U_ERROR_MEMORY, mk_qprog (fst x) (n_reqs s))
      | Some (p, r) =>
          do y <- x_first_call (fst x) r cert version method address;
          let '(c, (m, r1)) := y in Ret (c, mk_qprog m (n_reqs s ++ [(p, r1)]))
      end
  | QText i k t => on_req s i (fun m r => x_set_text m r k t)
  | QPut i k key v => on_req s i (fun m r => x_on_req_map m r k (fun m f => x_put m f (Some key) v))
  | QRemove i k key => on_req s i (fun m r => x_on_req_map m r k (fun m f => x_remove_key m f (matches false key)))
  | QString i t => on_req s i (fun m r => x_req_string_body m r t)
  | QBytes i b => on_req s i (fun m r => x_req_binary_body m r b)
  | QEmpty i => on_req s i x_req_empty_body
  | QCert i good pem => on_req s i (fun m r => x_set_cert m r good pem)
  | QDuplicate i =>
      match nth_error (n_reqs s) i with
      | None => Ret (U_ERROR_PARAMS, s)
      | Some (p, r) =>
          do _ <- h_use (m_heap (n_mem s)) p;
          do x <- x_duplicate_req (n_mem s) r;
          match snd x with
          | None => Ret (U_ERROR, mk_qprog (fst x) (n_reqs s))
          | Some q => Ret (U_OK, mk_qprog (fst x) (n_reqs s ++ [q]))
          end
      end
  | QRelease i =>
      match nth_error (n_reqs s) i with
      | None => Ret (U_ERROR_PARAMS, s)
      | Some (p, r) =>
          do _ <- h_use (m_heap (n_mem s)) p;
          do m <- x_clean_req_full (n_mem s) p r; Ret (U_OK, mk_qprog m (drop i (n_reqs s)))
      end
  end.
(** a run: each call comes with what o_malloc and o_strdup answer while it runs; o_realloc has
    memory. The results of the calls are collected. *)
Definition q_answers (s : qprog) (answers : list bool) : qprog := mk_qprog (mk_mem (m_heap (n_mem s)) answers []) (n_reqs s).
Fixpoint qrun (s : qprog) (l : list (list bool * qop)) : outcome (list Z * qprog) :=
  match l with
  | [] => Ret ([], s)
  | (answers, o) :: r => do x <- qstep (q_answers s answers) o; do y <- qrun (snd x) r; Ret (fst x :: fst y, snd y)
  end.
Definition qstart : qprog := mk_qprog (mk_mem (mk_heap 0 []) [] []) [].

(** ** What the calls mean, without memory. The eleven texts and the four maps are in the order of
    the model. [aq_cert]: no certificate, an empty one, or one with its text. *)
Record areq := mk_areq {
  aq_texts : list (option str);
  aq_addr : option (list Z);
  aq_maps : list amap;
  aq_body : option (list Z);
  aq_cert : option (option str)
}.
Definition new_req : areq := mk_areq (repeat None 11) None (repeat [] 4) None None.
Definition put_texts a t := mk_areq t (aq_addr a) (aq_maps a) (aq_body a) (aq_cert a).
Definition put_maps a h := mk_areq (aq_texts a) (aq_addr a) h (aq_body a) (aq_cert a).
Definition put_body a b := mk_areq (aq_texts a) (aq_addr a) (aq_maps a) b (aq_cert a).
Definition put_cert a c := mk_areq (aq_texts a) (aq_addr a) (aq_maps a) (aq_body a) c.
(** all texts but the protocol and the path *)
Definition settable (k : nat) : bool := ((k <? 11) && negb (k =? 0) && negb (k =? 3))%nat.
(** a duplicate has the C string of each value of the maps, and no body when it is empty *)
Definition duplicate_req (a : areq) : areq :=
  mk_areq (aq_texts a) (aq_addr a) (map (fun h => a_copy_into h []) (aq_maps a)) (nonempty (aq_body a)) (aq_cert a).
(** how many blocks are lost when the certificate is written over *)
Definition lost_cert {A} (c : option A) : nat := match c with None => 0 | Some _ => 1 end.

(** what a call on one request means: the result, the request, and the number of blocks lost *)
Definition aq_call (a : areq) (o : qop) : Z * (areq * nat) :=
  match o with
  | QText _ k s => if settable k then (U_OK, (put_texts a (set_nth (aq_texts a) k (nonempty s)), 0%nat)) else (U_ERROR_PARAMS, (a, 0%nat))
  | QPut _ k key v =>
      match nth_error (aq_maps a) k, key with
      | Some h, _ :: _ => (U_OK, (put_maps a (set_nth (aq_maps a) k (a_put key v h)), 0%nat))
      | _, _ => (U_ERROR_PARAMS, (a, 0%nat))
      end
  | QRemove _ k key =>
      match nth_error (aq_maps a) k with
      | Some h => let x := a_remove_key (matches false key) h in (fst x, (put_maps a (set_nth (aq_maps a) k (snd x)), 0%nat))
      | None => (U_ERROR_PARAMS, (a, 0%nat))
      end
  | QString _ s => (U_OK, (put_body a (Some s), 0%nat))
  | QBytes _ b => match b with [] => (U_ERROR_PARAMS, (a, 0%nat)) | _ => (U_OK, (put_body a (Some b), 0%nat)) end
  | QEmpty _ => (U_OK, (put_body a None, 0%nat))
  | QCert _ good pem => (if good then U_OK else U_ERROR, (put_cert a (Some (if good then Some pem else None)), lost_cert (aq_cert a)))
  | _ => (U_ERROR_PARAMS, (a, 0%nat))
  end.
(** what is left when an allocation failed during the call *)
Inductive aq_fail (a : areq) : qop -> Z -> areq -> nat -> Prop :=
| lack_text : forall i k s, settable k = true -> aq_fail a (QText i k s) U_OK (put_texts a (set_nth (aq_texts a) k None)) 0
| lack_put : forall i k key v, aq_fail a (QPut i k key v) U_ERROR_MEMORY a 0
| lack_string : forall i s, aq_fail a (QString i s) U_ERROR_MEMORY (put_body a None) 0
| lack_bytes : forall i b, aq_fail a (QBytes i b) U_ERROR_MEMORY (put_body a None) 0
| lack_cert : forall i good pem, aq_fail a (QCert i good pem) U_ERROR (put_cert a None) (lost_cert (aq_cert a)).
(** some texts may be missing *)
Definition some_missing : list (option str) -> list (option str) -> Prop := Forall2 (fun x y => y = x \/ y = None).
Definition incoming (uri path : str) (cert : option (option str)) (version method : str) (address : list Z) : areq :=
  mk_areq (set_nth (set_nth (set_nth (set_nth (repeat None 11) T_PROTOCOL (Some version)) T_VERB (Some method)) T_URL (Some uri)) T_PATH (Some path))
          (Some address) (repeat [] 4) None cert.
(** MHD_NO when the method or the address is missing *)
Definition incoming_result (a : areq) : Z :=
  match nth_error (aq_texts a) T_VERB, aq_addr a with Some (Some _), Some _ => U_OK | _, _ => U_ERROR_MEMORY end.

Definition q_target (o : qop) : nat :=
  match o with
  | QNew | QIncoming _ _ _ _ _ _ => 0
  | QText i _ _ | QPut i _ _ _ | QRemove i _ _ | QString i _ | QBytes i _ | QEmpty i | QCert i _ _ | QDuplicate i | QRelease i => i
  end%nat.
(** the result of a call, the requests after it, and the number of blocks it loses *)
Definition aq_step (l : list areq) (o : qop) : Z * (list areq * nat) :=
  match o with
  | QNew => (U_OK, (l ++ [new_req], 0%nat))
  | QIncoming uri path cert version method address => (U_OK, (l ++ [incoming uri path cert version method address], 0%nat))
  | _ =>
      match nth_error l (q_target o) with
      | None => (U_ERROR_PARAMS, (l, 0%nat))
      | Some a =>
          match o with
          | QDuplicate _ =>
              match aq_cert a with
              | Some None => (U_ERROR, (l, 0%nat))
              | c => (U_OK, (l ++ [duplicate_req a], lost_cert c))
              end
          | QRelease i => (U_OK, (drop i l, 0%nat))
          | _ => let x := aq_call a o in (fst x, (set_nth l (q_target o) (fst (snd x)), snd (snd x)))
          end
      end
  end.
Definition aq_step_fail (l : list areq) (o : qop) (c : Z) (l' : list areq) (lost : nat) : Prop :=
  match o with
  | QNew => c = U_ERROR_MEMORY /\ l' = l /\ lost = 0%nat
  | QIncoming uri path cert version method address =>
      lost = 0%nat /\
      ((c = U_ERROR_MEMORY /\ l' = l) \/
       exists a, c = incoming_result a /\ l' = l ++ [a] /\
         let b := incoming uri path cert version method address in
         some_missing (aq_texts b) (aq_texts a) /\ nth_error (aq_texts a) T_URL = Some (Some uri) /\ nth_error (aq_texts a) T_PATH = Some (Some path) /\
         (aq_addr a = aq_addr b \/ aq_addr a = None) /\ aq_maps a = aq_maps b /\ aq_body a = aq_body b /\ (aq_cert a = aq_cert b \/ aq_cert a = None))
  | QDuplicate i =>
      exists a, nth_error l i = Some a /\
        ((c = U_ERROR /\ l' = l /\ (lost <= lost_cert (aq_cert a))%nat) \/
         (aq_cert a <> Some None /\ c = U_OK /\ lost = lost_cert (aq_cert a) /\
          exists ts, some_missing (aq_texts a) ts /\ l' = l ++ [put_texts (duplicate_req a) ts]))
  | _ => exists a a', nth_error l (q_target o) = Some a /\ aq_fail a o c a' lost /\ l' = set_nth l (q_target o) a'
  end.
(** a run; a call may fail only if an allocation failed while it ran. The last number is that of
    the blocks lost. *)
Inductive aq_means : list areq -> list (list bool * qop) -> list Z -> list areq -> nat -> Prop :=
| qm_nil : forall l, aq_means l [] [] l 0
| qm_ok : forall l answers o r cs l' n, aq_means (fst (snd (aq_step l o))) r cs l' n ->
    aq_means l ((answers, o) :: r) (fst (aq_step l o) :: cs) l' (snd (snd (aq_step l o)) + n)
| qm_fail : forall l answers o r c cs l1 l' k n, In false answers -> aq_step_fail l o c l1 k -> aq_means l1 r cs l' n ->
    aq_means l ((answers, o) :: r) (c :: cs) l' (k + n).

(** ** What the memory shows, read through the pointers *)
Fixpoint read_texts (m : mem) (l : list (member (ptr str))) : outcome (list (option str)) :=
  match l with [] => Ret [] | x :: r => do p <- x_member x; do t <- read_text m p; do y <- read_texts m r; Ret (t :: y) end.
Fixpoint read_req_maps (m : mem) (l : list (member (ptr fmap))) : outcome (list amap) :=
  match l with [] => Ret [] | x :: r => do p <- x_member x; do f <- x_deref m p; do a <- read_map m (snd f); do y <- read_req_maps m r; Ret (a :: y) end.
Definition read_ptr {A} (m : mem) (p : ptr A) : outcome (option A) :=
  match p with None => Ret None | Some _ => do x <- x_deref m p; Ret (Some (snd x)) end.
Definition read_req (m : mem) (x : nat * hreq) : outcome areq :=
  do _ <- h_use (m_heap m) (fst x);
  let r := snd x in
  do t <- read_texts m (rq_texts r);
  do p <- x_member (rq_addr r); do a <- read_ptr m p;
  do h <- read_req_maps m (rq_maps r);
  do q <- x_member (rq_body r); do n <- x_member (rq_len r); do b <- read_body m q n;
  do k <- x_member (rq_cert r); do c <- read_ptr m k;
  Ret (mk_areq t a h b c).
Fixpoint read_reqs (m : mem) (l : list (nat * hreq)) : outcome (list areq) :=
  match l with [] => Ret [] | x :: r => do a <- read_req m x; do b <- read_reqs m r; Ret (a :: b) end.

(** ** The blocks reachable from the requests *)
Definition req_blocks (x : nat * hreq) : list nat :=
  let r := snd x in
  fst x :: flat_map (of_member ptr_blocks) (rq_texts r)
    ++ of_member ptr_blocks (rq_addr r)
    ++ flat_map (of_member (fun h => match h with Some y => map_blocks y | None => [] end)) (rq_maps r)
    ++ of_member ptr_blocks (rq_body r)
    ++ of_member ptr_blocks (rq_cert r).
Definition qprog_blocks (s : qprog) : list nat := flat_map req_blocks (n_reqs s).

(** what is asked of the program. Texts fit in [max] bytes; the certificate of a peer can be read
    by GnuTLS. *)
Definition qop_ok (dups : bool) (max : Z) (o : qop) : Prop :=
  match o with
  | QPut _ _ _ (Some v) => cstr v /\ zlen v + 1 <= max
  | QIncoming _ _ cert _ _ _ => cert <> Some None
  | QDuplicate _ => dups = true
  | _ => True
  end.
(** and of the memory: where a call may fail. A new request, one that comes in and a duplicate: not
    the allocations of ulfius_init_request (sixteen, after that of the structure);
    ulfius_set_string_body_request: only if the program makes no duplicate ([dups]); the other
    calls: anywhere. *)
Definition q_memory_ok (dups : bool) (o : qop) (answers : list bool) : Prop :=
  match o with
  | QNew | QIncoming _ _ _ _ _ _ | QDuplicate _ => hd true answers = false \/ ~ In false (firstn 17 answers)
  | QString _ _ => dups = true -> ~ In false answers
  | _ => True
  end.
(** a call that gives no certificate *)
Definition no_cert (o : qop) : Prop := match o with QCert _ _ _ => False | QIncoming _ _ cert _ _ _ => cert = None | _ => True end.
