(** C112: the memory of mails that are sent, also when allocations fail. *)
From Coq Require Import String ZArith Bool List Lia.
From Verif Require Import Base BaseFacts UMapModel Dec OwnModel OwnSpec OwnProofs MapMemModel MapMemSpec MapMemProofs RespMemModel HttpMemModel HttpMemSpec SiteMemProofs.
From Verif Require Import ClientModel SendModel SendSpec MailMemModel MailMemSpec MailMemProofs.
Import ListNotations.
Open Scope Z_scope.

Definition no_blocks : mem := mk_mem (mk_heap 0 []) [] [].
Lemma has_blocks : forall m l, has m l -> blocks_are m l.
Proof. intros m l O. destruct (owns_spec _ _ O) as (A & B & C). split; [exact B|]. split; [exact C|exact A]. Qed.
Lemma nothing_has : has no_blocks [].
Proof. split; [intros x; reflexivity|]. split; [intros x; apply Nat.le_0_l|intros; reflexivity]. Qed.

(** C112. Mails are sent one after the other, each with what the allocations and libcurl answer: nothing undefined happens, each result and
    what libcurl is given are those that [mailed] says, and the only blocks left are recipients of mails for which memory ran out. Missing: the
    line of the copies must find memory and the content type must be given. *)
Theorem C112_history_partial : forall l, Forall mcall_ok l -> exists m rs lost,
  x_mails no_blocks l = Ret (m, rs) /\ all_mailed l rs (List.length lost) /\ blocks_are m lost.
Proof.
  intros l F. destruct (mails_has l no_blocks [] nothing_has F) as (m & rs & lost & E & O & M). exists m, rs, lost. rewrite app_nil_r in O. split; [exact E|]. split; [exact M|]. now apply has_blocks.
Qed.
Print Assumptions C112_history_partial.

(** With memory nothing is left, a mail that libcurl accepts is given to it with its whole text, and the result says so. *)
Theorem C112_memory : forall l, Forall mcall_ok l -> Forall (fun c => ~ short_call c) l -> exists m rs,
  x_mails no_blocks l = Ret (m, rs) /\ blocks_are m [] /\ all_mailed l rs 0.
Proof.
  intros l F S1. destruct (C112_history_partial l F) as (m & rs & lost & E & M & B). exists m, rs. split; [exact E|].
  assert (Z0 : forall n rs, all_mailed l rs n -> n = 0%nat).
  { clear - S1. induction S1 as [|c l NS S1 IH]; intros n rs A; inversion A as [|? ? z p k rs' k' M A']; subst; [reflexivity|]. rewrite (IH _ _ A'). inversion M; subst; try reflexivity. contradiction. }
  pose proof (Z0 _ _ M) as L. destruct lost; [|discriminate]. auto.
Qed.
Print Assumptions C112_memory.
(** one mail, with memory: it is sent exactly if its parameters are there and libcurl accepts everything, and U_OK means that it was *)
Theorem C112_one : forall c, mcall_ok c -> ~ short_call c -> exists m z p, x_mail c (mk_mem (mk_heap 0 []) (c_new c) []) = Ret (m, (z, p)) /\ blocks_are m [] /\
  match m_host (c_mail c), m_from (c_mail c), m_to (c_mail c), m_body (c_mail c), m_type (c_mail c) with
  | Some host, Some from, Some to, Some body, Some ty =>
      let os := orders (c_mail c) (c_date c) host from to ty body in
      let text := letter (c_mail c) (c_date c) from to ty body in
      (all_accepted (c_curl c) os -> exists blocks ns, p = Some (mk_posted os (addressees (c_mail c) to) (map block_of blocks)) /\ Forall2 wants (c_asks c) ns /\
         concat blocks = zfirstn (total ns) text /\ (zlen text <= total ns -> concat blocks = text) /\ (z = U_OK <-> c_done c = true)) /\
      (~ all_accepted (c_curl c) os -> p = None /\ z = U_ERROR_LIBCURL)
  | _, _, _, _, _ => p = None /\ z = U_ERROR_PARAMS
  end.
Proof.
  intros c K S1. pose proof K as [K1 K2 K3 K4].
  destruct (mail_has c (mk_mem (mk_heap 0 []) (c_new c) []) [] nothing_has eq_refl K2 K3 K1) as [(_ & [B|(to & B1 & B2)])|(m & z & p & lost & E & O & M)].
  { contradiction. } { exfalso. exact (K4 to B1 B2). }
  exists m, z, p. split; [exact E|]. rewrite app_nil_r in O.
  inversion M as [W Q1 Q2 Q3|z' to k T SH ZZ KK Q1 Q2 Q3|host from to body ty H1 H2 H3 H4 H5 NA Q1 Q2 Q3|host from to body ty ns blocks H1 H2 H3 H4 H5 AC F CC Q1 Q2 Q3].
  - destruct lost; [|discriminate]. split; [now apply has_blocks|]. destruct (m_host (c_mail c)), (m_from (c_mail c)), (m_to (c_mail c)), (m_body (c_mail c)), (m_type (c_mail c)); auto; exfalso; destruct W as [W|[W|[W|W]]]; discriminate.
  - contradiction.
  - destruct lost; [|discriminate]. split; [now apply has_blocks|]. rewrite H1, H2, H3, H4, H5. cbv zeta. split; [intros A; contradiction|auto].
  - destruct lost; [|discriminate]. split; [now apply has_blocks|]. rewrite H1, H2, H3, H4, H5. cbv zeta. split; [|intros NA; contradiction]. intros _. exists blocks, ns. split; [reflexivity|]. split; [exact F|]. split; [exact CC|]. split.
    + intros L. rewrite CC. unfold zfirstn. apply firstn_all2. unfold zlen in L. lia.
    + destruct (c_done c); split; intros Q; try reflexivity; discriminate.
Qed.
Print Assumptions C112_one.

(** The result says which of the first two allocations failed: the handle is U_ERROR_LIBCURL, the url U_ERROR_MEMORY, whatever libcurl would have answered; nothing is sent and nothing is left. *)
Theorem C112_code : forall c b rest, m_host (c_mail c) <> None -> m_from (c_mail c) <> None -> m_to (c_mail c) <> None -> m_body (c_mail c) <> None ->
  (c_new c = false :: rest -> exists m, x_mails no_blocks [c] = Ret (m, [(U_ERROR_LIBCURL, None)]) /\ blocks_are m []) /\
  (c_new c = true :: false :: b -> exists m, x_mails no_blocks [c] = Ret (m, [(U_ERROR_MEMORY, None)]) /\ blocks_are m []).
Proof.
  intros c b rest A B C D. unfold x_mails, x_mail, x_mail_loop. destruct (m_host (c_mail c)), (m_from (c_mail c)), (m_to (c_mail c)), (m_body (c_mail c)); try congruence.
  split; intros ->; eexists; (split; [reflexivity|]); apply has_blocks; (split; [intros x; reflexivity|]; split; [intros x; apply Nat.le_0_l|intros; reflexivity]).
Qed.
Print Assumptions C112_code.

(** ** Examples *)
Definition accepts : curl := fun _ _ => true.
Definition a_mail (cc bcc : option str) : mail :=
  mk_mail (Some (bs "mx")) 0 1 1 None None (Some (bs "a@x")) (Some (bs "b@x")) cc bcc (Some (bs "text/plain")) (Some (bs "Hi")) (Some (bs "Hello")).
Definition a_call (cc bcc : option str) (new : list bool) : mcall := mk_mcall (a_mail cc bcc) (bs "Date: now") new accepts [(malloc 200, 1, 200)] true.
Example a_call_ok : forall new, nth_error new 8 <> Some false -> mcall_ok (a_call (Some (bs "c@x")) (Some (bs "d@x")) new).
Proof.
  intros new N. split; [discriminate| | |].
  - intros from to ty body [= <-] [= <-] [= <-] [= <-]. vm_compute. reflexivity.
  - exists [200]. repeat constructor; vm_compute; congruence.
  - intros to [= <-]. exact N.
Qed.
Example C112_sent : exists m p, x_mails no_blocks [a_call (Some (bs "c@x")) (Some (bs "d@x")) []] = Ret (m, [(U_OK, Some p)]) /\ h_live (m_heap m) = [] /\
  d_rcpts p = [bs "b@x"; bs "c@x"; bs "d@x"] /\
  d_given p = [block_of (bs "Date: now" ++ ln ++ bs "To: b@x" ++ ln ++ bs "From: a@x" ++ ln ++ bs "Cc: c@x" ++ ln ++ bs "Subject: Hi" ++ ln ++ bs "Content-Type: text/plain" ++ ln ++ ln ++ bs "Hello" ++ ln)].
Proof. do 2 eexists. split; [vm_compute; reflexivity|]. repeat split; vm_compute; reflexivity. Qed.
Example C112_accepted : all_accepted accepts (orders (a_mail None None) (bs "Date: now") (bs "mx") (bs "a@x") (bs "b@x") (bs "text/plain") (bs "Hello")) /\ ~ short_call (a_call None None []).
Proof. split; [intros a o b _; reflexivity|intros []]. Qed.
(** the text of the mail finds no memory: the result says so and nothing is left *)
Example C112_no_text : exists m, x_mails no_blocks [a_call None None [true; true; true; true; true; false]] = Ret (m, [(U_ERROR_MEMORY, None)]) /\ h_live (m_heap m) = [].
Proof. eexists. split; vm_compute; reflexivity. Qed.

(** C112. Refuted: curl_slist_append answers NULL when it has no memory, u_send_request.c:922 and 929 write it to the variable that had
    the list, and curl_slist_free_all gets NULL: the recipients so far are never released. *)
Theorem C112_recipients_refuted : exists c m, mcall_ok c /\ x_mails no_blocks [c] = Ret (m, [(U_ERROR_LIBCURL, None)]) /\ List.length (h_live (m_heap m)) = 4%nat.
Proof.
  exists (a_call (Some (bs "c@x")) (Some (bs "d@x")) [true; true; true; true; true; true; false]). eexists. split; [apply a_call_ok; discriminate|]. split; vm_compute; reflexivity.
Qed.
Print Assumptions C112_recipients_refuted.
(** C112. Refuted: the result of msprintf or o_strdup for the line of the copies is not looked at, u_send_request.c:948-952: NULL is
    printed with %s into the text of the mail, also when the mail has no copies. *)
Theorem C112_copies_refuted : exists e new, m_type e <> None /\ m_cc e = None /\
  x_mails no_blocks [mk_mcall e (bs "Date: now") new accepts [] true] = UB NullDeref.
Proof. exists (a_mail None None), [true; true; true; true; false]. split; [discriminate|]. split; [reflexivity|]. vm_compute. reflexivity. Qed.
Print Assumptions C112_copies_refuted.

(** C112. Refuted: the content type is not looked at (u_send_request.c:847-849) and is written with "%s" (951-965); a mail without it, everything else being there and
    libcurl accepting everything, is undefined. ulfius_send_smtp_email always gives one. *)
Theorem C112_type_refuted : exists c, ~ short_call c /\ m_type (c_mail c) = None /\ m_host (c_mail c) <> None /\ m_from (c_mail c) <> None /\ m_to (c_mail c) <> None /\ m_body (c_mail c) <> None /\
  x_mails no_blocks [c] = UB NullDeref.
Proof.
  exists (mk_mcall (mk_mail (Some (bs "mx")) 0 1 1 None None (Some (bs "a@x")) (Some (bs "b@x")) None None None (Some (bs "Hi")) (Some (bs "Hello"))) (bs "Date: now") [] accepts [(malloc 200, 1, 200)] true).
  split; [intros []|]. repeat split; try discriminate; vm_compute; reflexivity.
Qed.
Print Assumptions C112_type_refuted.
