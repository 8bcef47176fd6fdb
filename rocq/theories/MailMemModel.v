(** The memory of a mail that is sent, /repo/src/u_send_request.c:824-1009 ulfius_send_smtp_rich_email: the handle of libcurl, the url, the
    list of recipients, the line of the copies and the text of the mail are blocks of the heap, and an allocation may fail.
    SendModel.send_mail describes the values when nothing fails.
    Simplifications: a text of msprintf or o_strdup is one block, a node of a curl_slist and its text are one block each; the memory that
    libcurl keeps for the other options belongs to the handle; the texts of the parameters belong to the caller; time, gmtime_r and
    strftime are the text [c_date]. *)
From Coq Require Import String ZArith Bool List.
From Verif Require Import Base UMapModel Dec OwnModel MapMemModel RespMemModel ReqMemModel RecvMemModel HttpMemModel.
From Verif Require Import ClientModel SendModel.
Import ListNotations.
Open Scope Z_scope.

(** a mail with the answers of the allocations, the answers of libcurl to its options, the blocks that curl_easy_perform wants to be
    filled, and what it returns *)
Record mcall := mk_mcall { c_mail : mail; c_date : str; c_new : list bool; c_curl : curl; c_asks : list (buf * Z * Z); c_done : bool }.

(** 916-934 curl_slist_append for each recipient: it copies the text; when it answers NULL, the variable recipients is NULL *)
Fixpoint x_rcpts (m : mem) (l : list node) (ts : list str) : outcome (mem * option (list node)) :=
  match ts with
  | [] => Ret (m, Some l)
  | t :: r =>
      match x_strdup m (Some t) with
      | (None, m1) => Ret (m1, None)
      | (Some d, m1) =>
          match x_malloc m1 with
          | (None, m2) => do m3 <- x_free m2 (Some (fst d)); Ret (m3, None)
          | (Some n, m2) => x_rcpts m2 (l ++ [mk_node n d]) r
          end
      end
  end.
(** libcurl reads the list of recipients when it sends the mail: it does not copy it *)
Fixpoint x_read_list (m : mem) (l : list node) : outcome (list str) :=
  match l with
  | [] => Ret []
  | n :: r => do _ <- h_use (m_heap m) (n_block n); do d <- x_deref m (Some (n_data n)); do ts <- x_read_list m r; Ret (snd d :: ts)
  end.

(** what curl_easy_perform is given: the options, the recipients as they are then, and the blocks that smtp_payload_source filled *)
Record posted := mk_posted { d_opts : list opt; d_rcpts : list str; d_given : list buf }.
(** the variables where the loop is left *)
Record left := mk_left { v_ret : Z; v_url : ptr str; v_list : list node; v_cc : ptr str; v_data : ptr str; v_posted : option posted }.

(** 963 *)
Definition given (s : option str) : str := match s with Some t => t | None => [] end.
(** 953-965 the text; msprintf reads NULL with %s *)
Definition x_mail_text (m : mem) (e : mail) (date from to body : str) (cc : ptr str) : outcome (ptr str * mem) :=
  do c <- x_deref m cc;
  match m_type e with
  | None => UB NullDeref
  | Some ty =>
      Ret (x_strdup m (Some (date ++ ln ++ bs "To: " ++ to ++ ln ++ bs "From: " ++ from ++ ln ++ snd c
                             ++ bs "Subject: " ++ given (m_subject e) ++ ln ++ bs "Content-Type: " ++ ty ++ ln ++ ln ++ body ++ ln)))
  end.
(** 971-992 the options that are left, and curl_easy_perform *)
Definition x_perform (c : mcall) (m : mem) (o : list opt) (text : ptr str) (rs : list node) : outcome (Z * option posted) :=
  do d <- x_deref m text;
  match set_all (c_curl c) o [ReadFunction; ReadData (snd d); Upload] with
  | None => Ret (U_ERROR_LIBCURL, None)
  | Some o =>
      do ts <- x_read_list m rs;
      do y <- payload_run (payload0 (snd d)) (c_asks c);
      Ret (if c_done c then U_OK else U_ERROR_LIBCURL, Some (mk_posted o ts (fst y)))
  end.
(** 855-993 the loop *)
Definition x_mail_loop (c : mcall) (m : mem) (host from to body : str) : outcome (mem * left) :=
  let e := c_mail c in
  let port := if (m_port e =? 0) && negb (is_set (m_tls e)) then 25 else if (m_port e =? 0) && is_set (m_tls e) then 587 else m_port e in
  let text := bs "smtp" ++ (if is_set (m_tls e) then bs "s" else []) ++ bs "://" ++ host ++ bs ":" ++ sdec port in
  match x_strdup m (Some text) with
  | (None, m1) => Ret (m1, mk_left U_ERROR_MEMORY None [] None None None)
  | (Some url, m1) =>
      do u <- x_deref m1 (Some url);
      match set_all (c_curl c) [] ([Url (Some (snd u))] ++ (if is_set (m_tls e) then [UseSsl] else [])
              ++ (if is_set (m_tls e) && negb (is_set (m_verify e)) then [VerifyPeer 0; VerifyHost 0] else [])
              ++ (match m_user e, m_password e with Some u, Some p => [Username u; Password p] | _, _ => [] end)
              ++ [MailFrom from]) with
      | None => Ret (m1, mk_left U_ERROR_LIBCURL (Some url) [] None None None)
      | Some o =>
          do g <- x_rcpts m1 [] ([to] ++ (match m_cc e with Some x => [x] | None => [] end) ++ (match m_bcc e with Some x => [x] | None => [] end));
          match g with
          | (m2, None) => Ret (m2, mk_left U_ERROR_LIBCURL (Some url) [] None None None)
          | (m2, Some rs) =>
              do ts <- x_read_list m2 rs;
              match set_all (c_curl c) o [MailRcpt ts] with
              | None => Ret (m2, mk_left U_ERROR_LIBCURL (Some url) rs None None None)
              | Some o =>
                  let '(cc, m3) := x_strdup m2 (Some (match m_cc e with Some x => bs "Cc: " ++ x ++ ln | None => [] end)) in
                  do d <- x_mail_text m3 e (c_date c) from to body cc;
                  match d with
                  | (None, m4) => Ret (m4, mk_left U_ERROR_MEMORY (Some url) rs cc None None)
                  | (Some data, m4) =>
                      do y <- x_perform c m4 o (Some data) rs;
                      Ret (m4, mk_left (fst y) (Some url) rs cc (Some data) (snd y))
                  end
              end
          end
      end
  end.
(** 847-1008 *)
Definition x_mail (c : mcall) (m : mem) : outcome (mem * (Z * option posted)) :=
  let e := c_mail c in
  match m_host e, m_from e, m_to e, m_body e with
  | Some host, Some from, Some to, Some body =>
      match x_malloc m with
      | (None, m1) => Ret (m1, (U_ERROR_LIBCURL, None))
      | (Some handle, m1) =>
          do x <- x_mail_loop c m1 host from to body;
          let '(m2, v) := x in
          do m3 <- x_slist_free m2 (v_list v);
          do m4 <- x_free m3 (Some handle);
          do m5 <- x_free m4 (addr (v_url v));
          do m6 <- x_free m5 (addr (v_cc v));
          do m7 <- x_free m6 (addr (v_data v));
          Ret (m7, (v_ret v, v_posted v))
      end
  | _, _, _, _ => Ret (m, (U_ERROR_PARAMS, None))
  end.

(** mails are sent one after the other *)
Fixpoint x_mails (m : mem) (l : list mcall) : outcome (mem * list (Z * option posted)) :=
  match l with
  | [] => Ret (m, [])
  | c :: l =>
      do x <- x_mail c (mk_mem (m_heap m) (c_new c) []);
      do y <- x_mails (fst x) l;
      Ret (fst y, snd x :: snd y)
  end.
