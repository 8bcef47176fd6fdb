(** Specification vocabulary for the memory of mails that are sent (C112). *)
From Coq Require Import String ZArith Bool List.
From Verif Require Import Base UMapModel Dec OwnModel MapMemModel RespMemModel HttpMemModel HttpMemSpec.
From Verif Require Import ClientModel SendModel SendSpec MailMemModel.
Import ListNotations.
Open Scope Z_scope.

Definition opt_list (o : option str) : list str := match o with Some x => [x] | None => [] end.
(** who gets the mail *)
Definition addressees (e : mail) (to : str) : list str := to :: opt_list (m_cc e) ++ opt_list (m_bcc e).
(** a line of the header *)
Definition hline (name : str) (v : str) : str := name ++ bs ": " ++ v ++ [13; 10].
(** the text of the mail; [date] is a line already *)
Definition letter (e : mail) (date from to ty body : str) : str :=
  date ++ [13; 10] ++ hline (bs "To") to ++ hline (bs "From") from ++ concat (map (hline (bs "Cc")) (opt_list (m_cc e)))
  ++ hline (bs "Subject") (concat (opt_list (m_subject e))) ++ hline (bs "Content-Type") ty ++ [13; 10] ++ body ++ [13; 10].
(** the server *)
Definition server (e : mail) (host : str) : str :=
  (if m_tls e =? 0 then bs "smtp://" else bs "smtps://") ++ host ++ bs ":" ++ sdec (if m_port e =? 0 then if m_tls e =? 0 then 25 else 587 else m_port e).
(** everything that libcurl is told, in this order *)
Definition orders (e : mail) (date host from to ty body : str) : list opt :=
  [Url (Some (server e host))] ++
  (if m_tls e =? 0 then [] else UseSsl :: if m_verify e =? 0 then [VerifyPeer 0; VerifyHost 0] else []) ++
  (match m_user e, m_password e with Some u, Some p => [Username u; Password p] | _, _ => [] end) ++
  [MailFrom from; MailRcpt (addressees e to); ReadFunction; ReadData (letter e date from to ty body); Upload].

(** the memory of a mail: the allocations are those of the handle, of the url, two for each addressee, of the line of the copies and of the text *)
Definition short_call (c : mcall) : Prop := In false (c_new c).
Definition cc_line_at (e : mail) (to : str) : nat := (2 + 2 * List.length (addressees e to))%nat.
(** the line of the copies is the one allocation that must not fail *)
Definition cc_fails (c : mcall) (to : str) : Prop := nth_error (c_new c) (cc_line_at (c_mail c) to) = Some false.
(** what libcurl asks for: a block of at least [n] bytes to be filled *)
Definition wants (b : buf * Z * Z) (n : Z) : Prop := 0 <= snd (fst b) /\ 0 <= snd b /\ snd (fst b) * snd b = n /\ n <= zlen (fst (fst b)) /\ n < two64.
Fixpoint total (ns : list Z) : Z := match ns with [] => 0 | n :: r => n + total r end.

(** [mailed c z p n]: the mail returns [z], curl_easy_perform gets [p] if it is called, and [n] blocks are never released *)
Inductive mailed (c : mcall) : Z -> option posted -> nat -> Prop :=
| ma_params : m_host (c_mail c) = None \/ m_from (c_mail c) = None \/ m_to (c_mail c) = None \/ m_body (c_mail c) = None -> mailed c U_ERROR_PARAMS None 0
| ma_short : forall z to k, m_to (c_mail c) = Some to -> short_call c -> z = U_ERROR_MEMORY \/ z = U_ERROR_LIBCURL -> (k < List.length (addressees (c_mail c) to))%nat ->
    mailed c z None (2 * k)
| ma_refused : forall host from to body ty, m_host (c_mail c) = Some host -> m_from (c_mail c) = Some from -> m_to (c_mail c) = Some to -> m_body (c_mail c) = Some body ->
    m_type (c_mail c) = Some ty -> ~ all_accepted (c_curl c) (orders (c_mail c) (c_date c) host from to ty body) -> mailed c U_ERROR_LIBCURL None 0
| ma_sent : forall host from to body ty ns blocks, m_host (c_mail c) = Some host -> m_from (c_mail c) = Some from -> m_to (c_mail c) = Some to -> m_body (c_mail c) = Some body ->
    m_type (c_mail c) = Some ty -> all_accepted (c_curl c) (orders (c_mail c) (c_date c) host from to ty body) ->
    Forall2 wants (c_asks c) ns -> concat blocks = zfirstn (total ns) (letter (c_mail c) (c_date c) from to ty body) ->
    mailed c (if c_done c then U_OK else U_ERROR_LIBCURL)
      (Some (mk_posted (orders (c_mail c) (c_date c) host from to ty body) (addressees (c_mail c) to) (map block_of blocks))) 0.
Inductive all_mailed : list mcall -> list (Z * option posted) -> nat -> Prop :=
| am_end : all_mailed [] [] 0
| am_more : forall c l z p n rs k, mailed c z p n -> all_mailed l rs k -> all_mailed (c :: l) ((z, p) :: rs) (n + k).

(** what is asked of a mail: a content type; the length of the text fits size_t; libcurl asks for what its blocks can take *)
Record mcall_ok (c : mcall) : Prop := mk_mcall_ok {
  ok_type : m_type (c_mail c) <> None;
  ok_size : forall from to ty body, m_from (c_mail c) = Some from -> m_to (c_mail c) = Some to -> m_type (c_mail c) = Some ty -> m_body (c_mail c) = Some body ->
    zlen (letter (c_mail c) (c_date c) from to ty body) < two64;
  ok_asks : exists ns, Forall2 wants (c_asks c) ns;
  ok_line : forall to, m_to (c_mail c) = Some to -> ~ cc_fails c to
}.
