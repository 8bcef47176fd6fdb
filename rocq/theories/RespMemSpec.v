(** Specification vocabulary for the memory of responses (C97): a program that uses any number of
    responses, what its calls mean, and the blocks in use. *)
From Coq Require Import ZArith Bool List.
From Verif Require Import Base OwnModel MapMemModel MapMemSpec RespMemModel.
Import ListNotations.
Open Scope Z_scope.

(** ** The program. Responses are named by their position; names that do not exist are ignored. *)
Inductive rop :=
| RNew
| RProtocol (i : nat) (s : str)
| RRealm (i : nat) (s : option str)
| RHeader (i : nat) (k : str) (v : option str)
| RUnheader (i : nat) (k : str)
| RText (i : nat) (s : str)
| RBytes (i : nat) (b : list Z)
| REmpty (i : nat)
| RCookie (i : nat) (key : str) (value expires domain path : option str)
| RSocket (i : nat) (protocol extensions : option str)
| RExtension (i : nat) (name : str)
| RDuplicate (i : nat)
| RRelease (i : nat).

Record rprog := mk_rprog { g_mem : mem; g_resps : list (nat * hresp) }.
(** a call on response [i]: the structure is read and written through its pointer *)
Definition on_resp (s : rprog) (i : nat) (call : mem -> hresp -> outcome (Z * (mem * hresp))) : outcome (Z * rprog) :=
  match nth_error (g_resps s) i with
  | None => Ret (U_ERROR_PARAMS, s)
  | Some (p, r) =>
      do _ <- h_use (m_heap (g_mem s)) p;
      do x <- call (g_mem s) r;
      let '(c, (m, r1)) := x in Ret (c, mk_rprog m (set_nth (g_resps s) i (p, r1)))
  end.
Definition rstep (s : rprog) (o : rop) : outcome (Z * rprog) :=
  match o with
  | RNew =>
      match x_malloc (g_mem s) with
      | (None, m) => Ret (U_ERROR_MEMORY, mk_rprog m (g_resps s))
      | (Some p, m) =>
          do x <- x_init_resp m raw_resp;
          let '(c, (m1, r)) := x in
          if c =? U_OK then Ret (U_OK, mk_rprog m1 (g_resps s ++ [(p, r)]))
          else do m2 <- x_free m1 (Some p); Ret (c, mk_rprog m2 (g_resps s))
      end
  | RProtocol i t => on_resp s i (fun m r => x_set_protocol m r t)
  | RRealm i t => on_resp s i (fun m r => x_set_realm m r t)
  | RHeader i k v => on_resp s i (fun m r => x_on_header m r (fun m f => x_put m f (Some k) v))
  | RUnheader i k => on_resp s i (fun m r => x_on_header m r (fun m f => x_remove_key m f (matches false k)))
  | RText i t => on_resp s i (fun m r => x_string_body m r t)
  | RBytes i b => on_resp s i (fun m r => x_binary_body m r b)
  | REmpty i => on_resp s i x_empty_body
  | RCookie i k v e d p => on_resp s i (fun m r => x_add_cookie m r k v e d p)
  | RSocket i p e => on_resp s i (fun m r => x_set_websocket m r p e)
  | RExtension i n => on_resp s i (fun m r => x_add_extension m r n)
  | RDuplicate i =>
      match nth_error (g_resps s) i with
      | None => Ret (U_ERROR_PARAMS, s)
      | Some (p, r) =>
          do _ <- h_use (m_heap (g_mem s)) p;
          do x <- x_duplicate_resp (g_mem s) r;
          match snd x with
          | None => Ret (U_ERROR_MEMORY, mk_rprog (fst x) (g_resps s))
          | Some q => Ret (U_OK, mk_rprog (fst x) (g_resps s ++ [q]))
          end
      end
  | RRelease i =>
      match nth_error (g_resps s) i with
      | None => Ret (U_ERROR_PARAMS, s)
      | Some (p, r) =>
          do _ <- h_use (m_heap (g_mem s)) p;
          do m <- x_clean_resp_full (g_mem s) p r; Ret (U_OK, mk_rprog m (drop i (g_resps s)))
      end
  end.
(** a run: each call comes with what o_malloc and o_strdup answer while it runs; o_realloc has
    memory. The results of the calls are collected. *)
Definition with_answers (s : rprog) (answers : list bool) : rprog := mk_rprog (mk_mem (m_heap (g_mem s)) answers []) (g_resps s).
Fixpoint rrun (s : rprog) (l : list (list bool * rop)) : outcome (list Z * rprog) :=
  match l with
  | [] => Ret ([], s)
  | (answers, o) :: r => do x <- rstep (with_answers s answers) o; do y <- rrun (snd x) r; Ret (fst x :: fst y, snd y)
  end.
Definition rstart : rprog := mk_rprog (mk_mem (mk_heap 0 []) [] []) [].

(** ** What the calls mean, without memory *)
Record acookie := mk_acookie { ac_key : option str; ac_value : option str; ac_expires : option str; ac_domain : option str; ac_path : option str }.
Record aresp := mk_aresp {
  ar_protocol : option str;
  ar_realm : option str;
  ar_header : amap;
  ar_cookies : list acookie;
  ar_body : option (list Z);
  ar_socket : option str * option str;
  ar_exts : list (option str)
}.
Definition new_resp : aresp := mk_aresp None None [] [] None (None, None) [].
Definition has_key (k : str) (c : acookie) : bool := match ac_key c with Some x => str_eqb x k | None => false end.
(** the cookie replaces the first one of its name, or comes last *)
Fixpoint put_cookie (k : str) (c : acookie) (l : list acookie) : list acookie :=
  match l with [] => [c] | x :: r => if has_key k x then c :: r else x :: put_cookie k c r end.
Definition nonempty {A} (s : option (list A)) : option (list A) := match s with Some [] => None | _ => s end.
Definition set_protocol a p := mk_aresp p (ar_realm a) (ar_header a) (ar_cookies a) (ar_body a) (ar_socket a) (ar_exts a).
Definition set_realm a p := mk_aresp (ar_protocol a) p (ar_header a) (ar_cookies a) (ar_body a) (ar_socket a) (ar_exts a).
Definition set_header a h := mk_aresp (ar_protocol a) (ar_realm a) h (ar_cookies a) (ar_body a) (ar_socket a) (ar_exts a).
Definition set_cookies a c := mk_aresp (ar_protocol a) (ar_realm a) (ar_header a) c (ar_body a) (ar_socket a) (ar_exts a).
Definition set_body a b := mk_aresp (ar_protocol a) (ar_realm a) (ar_header a) (ar_cookies a) b (ar_socket a) (ar_exts a).
Definition set_socket a w := mk_aresp (ar_protocol a) (ar_realm a) (ar_header a) (ar_cookies a) (ar_body a) w (ar_exts a).
Definition set_exts a e := mk_aresp (ar_protocol a) (ar_realm a) (ar_header a) (ar_cookies a) (ar_body a) (ar_socket a) e.
(** a duplicate has no body when the original one is empty, and no extension *)
Definition duplicate (a : aresp) : aresp := set_exts (set_body a (nonempty (ar_body a))) [].

(** what a call on one response means *)
Definition ar_call (a : aresp) (o : rop) : Z * aresp :=
  match o with
  | RProtocol _ s => (U_OK, set_protocol a (Some s))
  | RRealm _ s => (U_OK, set_realm a (nonempty s))
  | RHeader _ k v => match k with [] => (U_ERROR_PARAMS, a) | _ => (U_OK, set_header a (a_put k v (ar_header a))) end
  | RUnheader _ k => let x := a_remove_key (matches false k) (ar_header a) in (fst x, set_header a (snd x))
  | RText _ s => (U_OK, set_body a (Some s))
  | RBytes _ b => match b with [] => (U_ERROR_PARAMS, a) | _ => (U_OK, set_body a (Some b)) end
  | REmpty _ => (U_OK, set_body a None)
  | RCookie _ k v e d p =>
      (U_OK, set_cookies a (put_cookie k (mk_acookie (Some k) (Some (match v with Some s => s | None => [] end)) e d p) (ar_cookies a)))
  | RSocket _ p e => (U_OK, set_socket a (p, e))
  | RExtension _ n => (U_OK, set_exts a (ar_exts a ++ [Some n]))
  | _ => (U_ERROR_PARAMS, a)
  end.
(** what is left when an allocation failed during the call *)
Definition no_cookie : acookie := mk_acookie None None None None None.
Inductive ar_fail (a : aresp) : rop -> Z -> aresp -> Prop :=
| fail_protocol : forall i s, ar_fail a (RProtocol i s) U_ERROR_MEMORY (set_protocol a None)
| fail_realm : forall i s, ar_fail a (RRealm i s) U_OK (set_realm a None)
| fail_header : forall i k v, ar_fail a (RHeader i k v) U_ERROR_MEMORY a
| fail_text : forall i s, ar_fail a (RText i s) U_ERROR_MEMORY (set_body a None)
| fail_bytes : forall i b, ar_fail a (RBytes i b) U_ERROR_MEMORY (set_body a None)
| fail_cookie_new : forall i k v e d p, ar_fail a (RCookie i k v e d p) U_ERROR_MEMORY a
| fail_cookie_old : forall i k v e d p, ar_fail a (RCookie i k v e d p) U_ERROR_MEMORY (set_cookies a (put_cookie k no_cookie (ar_cookies a)))
| fail_cookie_value : forall i k e d p,
    ar_fail a (RCookie i k None e d p) U_OK (set_cookies a (put_cookie k (mk_acookie (Some k) None e d p) (ar_cookies a)))
| fail_socket_protocol : forall i p e, ar_fail a (RSocket i p e) U_ERROR_MEMORY (set_socket a (None, snd (ar_socket a)))
| fail_socket_extensions : forall i e, ar_fail a (RSocket i None e) U_ERROR_MEMORY (set_socket a (None, None))
| fail_extension : forall i n, ar_fail a (RExtension i n) U_ERROR_MEMORY a
| fail_extension_name : forall i n, ar_fail a (RExtension i n) U_OK (set_exts a (ar_exts a ++ [None])).

Definition target (o : rop) : nat :=
  match o with
  | RNew => 0
  | RProtocol i _ | RRealm i _ | RHeader i _ _ | RUnheader i _ | RText i _ | RBytes i _ | REmpty i | RCookie i _ _ _ _ _
  | RSocket i _ _ | RExtension i _ | RDuplicate i | RRelease i => i
  end%nat.
Definition ar_step (l : list aresp) (o : rop) : Z * list aresp :=
  match o with
  | RNew => (U_OK, l ++ [new_resp])
  | _ =>
      match nth_error l (target o) with
      | None => (U_ERROR_PARAMS, l)
      | Some a =>
          match o with
          | RDuplicate _ => match ar_protocol a with None => (U_ERROR_MEMORY, l) | Some _ => (U_OK, l ++ [duplicate a]) end
          | RRelease i => (U_OK, drop i l)
          | _ => (fst (ar_call a o), set_nth l (target o) (snd (ar_call a o)))
          end
      end
  end.
Definition ar_step_fail (l : list aresp) (o : rop) (c : Z) (l' : list aresp) : Prop :=
  match o with
  | RNew | RDuplicate _ => c = U_ERROR_MEMORY /\ l' = l
  | _ => exists a a', nth_error l (target o) = Some a /\ ar_fail a o c a' /\ l' = set_nth l (target o) a'
  end.
(** a run; a call may fail only if an allocation failed while it ran *)
Inductive ar_means : list aresp -> list (list bool * rop) -> list Z -> list aresp -> Prop :=
| rm_nil : forall l, ar_means l [] [] l
| rm_ok : forall l answers o r cs l', ar_means (snd (ar_step l o)) r cs l' -> ar_means l ((answers, o) :: r) (fst (ar_step l o) :: cs) l'
| rm_fail : forall l answers o r c cs l1 l', In false answers -> ar_step_fail l o c l1 -> ar_means l1 r cs l' ->
    ar_means l ((answers, o) :: r) (c :: cs) l'.

(** ** What the memory shows, read through the pointers *)
Definition read_text (m : mem) (p : ptr str) : outcome (option str) :=
  match p with None => Ret None | Some _ => do x <- x_deref m p; Ret (Some (snd x)) end.
Definition read_cookie (m : mem) (c : hcookie) : outcome acookie :=
  do k <- read_text m (k_key c); do v <- read_text m (k_value c); do e <- read_text m (k_expires c);
  do d <- read_text m (k_domain c); do p <- read_text m (k_path c); Ret (mk_acookie k v e d p).
Fixpoint read_cookies (m : mem) (cs : ptr (list hcookie)) (i n : nat) : outcome (list acookie) :=
  match n with
  | O => Ret []
  | S n' =>
      do a <- x_deref m cs; do c <- aget (snd a) i; do x <- read_cookie m c;
      do r <- read_cookies m cs (S i) n'; Ret (x :: r)
  end.
Definition read_body (m : mem) (b : ptr (list Z)) (n : Z) : outcome (option (list Z)) :=
  match b with
  | None => Ret None
  | Some _ => do x <- x_deref m b; if zlen (snd x) <? n then UB OutOfBounds else Ret (Some (zfirstn n (snd x)))
  end.
Fixpoint read_exts (m : mem) (l : list (ptr hext)) : outcome (list (option str)) :=
  match l with
  | [] => Ret []
  | e :: r => do x <- x_deref m e; do t <- read_text m (e_server (snd x)); do y <- read_exts m r; Ret (t :: y)
  end.
Definition read_resp (m : mem) (x : nat * hresp) : outcome aresp :=
  do _ <- h_use (m_heap m) (fst x);
  let r := snd x in
  do p <- x_member (q_protocol r); do p' <- read_text m p;
  do a <- x_member (q_realm r); do a' <- read_text m a;
  do h <- x_member (q_header r); do f <- x_deref m h; do h' <- read_map m (snd f);
  do n <- x_member (q_nb r); do cs <- x_member (q_cookies r); do c' <- read_cookies m cs 0 n;
  do b <- x_member (q_body r); do l <- x_member (q_len r); do b' <- read_body m b l;
  do w <- x_member (q_handle r); do y <- x_deref m w;
  do wp <- read_text m (w_protocol (snd y)); do we <- read_text m (w_extensions (snd y));
  do l <- x_deref m (w_list (snd y));
  do e <- (match snd l with None => Ret [] | Some _ => do a <- x_deref m (snd l); read_exts m (snd a) end);
  Ret (mk_aresp p' a' h' c' b' (wp, we) e).
Fixpoint read_resps (m : mem) (l : list (nat * hresp)) : outcome (list aresp) :=
  match l with [] => Ret [] | x :: r => do a <- read_resp m x; do b <- read_resps m r; Ret (a :: b) end.

(** ** The blocks reachable from the responses *)
Definition of_member {A} (f : A -> list nat) (x : member A) : list nat := match x with Some a => f a | None => [] end.
Definition cookie_blocks (c : hcookie) : list nat :=
  ptr_blocks (k_key c) ++ ptr_blocks (k_value c) ++ ptr_blocks (k_expires c) ++ ptr_blocks (k_domain c) ++ ptr_blocks (k_path c).
Definition ext_blocks (e : ptr hext) : list nat :=
  match e with Some (i, x) => i :: ptr_blocks (e_server x) ++ ptr_blocks (e_client x) | None => [] end.
Definition list_blocks (l : ptr (ptr (list (ptr hext)))) : list nat :=
  match l with
  | None => []
  | Some (i, None) => [i]
  | Some (i, Some (j, a)) => i :: j :: flat_map ext_blocks a
  end.
Definition handle_blocks (w : ptr hhandle) : list nat :=
  match w with
  | None => []
  | Some (i, h) => i :: ptr_blocks (w_protocol h) ++ ptr_blocks (w_extensions h) ++ list_blocks (w_list h)
  end.
Definition resp_blocks (x : nat * hresp) : list nat :=
  let r := snd x in
  fst x :: of_member ptr_blocks (q_protocol r)
    ++ of_member (fun h => match h with Some y => map_blocks y | None => [] end) (q_header r)
    ++ of_member ptr_blocks (q_realm r)
    ++ of_member (fun c => match c with Some (i, l) => i :: flat_map cookie_blocks l | None => [] end) (q_cookies r)
    ++ of_member ptr_blocks (q_body r)
    ++ of_member handle_blocks (q_handle r).
Definition rprog_blocks (s : rprog) : list nat := flat_map resp_blocks (g_resps s).

(** what is asked of the program. Texts fit in [max] bytes. If the program duplicates responses
    ([dups]), its cookies have a value, an expiration date, a domain and a path. *)
Definition rop_ok (dups : bool) (max : Z) (o : rop) : Prop :=
  match o with
  | RHeader _ _ (Some v) => cstr v /\ zlen v + 1 <= max
  | RCookie _ _ v e d p => dups = true -> v <> None /\ e <> None /\ d <> None /\ p <> None
  | RDuplicate _ => dups = true
  | _ => True
  end.
(** and of the memory: where a call may fail. A new response and a duplicate: the structure, or its
    map of headers; a cookie: its first allocation; ulfius_set_websocket_response: not the
    extensions when there is a protocol; the other calls: anywhere. *)
Definition memory_ok (o : rop) (answers : list bool) : Prop :=
  match o with
  | RNew | RDuplicate _ => ~ In false answers \/ hd true answers = false \/ (exists r, answers = true :: false :: r)
  | RCookie _ _ _ _ _ _ => ~ In false answers \/ hd true answers = false
  | RSocket _ (Some _) _ => ~ In false answers \/ hd true answers = false
  | _ => True
  end.
