(** C107: the memory of requests that the HTTP client sends, also when allocations fail. *)
From Coq Require Import String ZArith Bool List Lia.
From Verif Require Import Base BaseFacts UMapModel UMapProofs OwnModel OwnSpec OwnProofs MapMemModel MapMemSpec MapMemProofs MapMemRun RespMemModel RespMemSpec RespMemProofs RespMemSteps
  ReqMemModel ReqMemSpec ReqMemProofs ReqMemCalls ReqMemCopy ReqMemSteps RecvMemModel RecvMemSpec RecvMemProofs HttpMemModel HttpMemSpec HttpMemProofs HttpMemLists HttpMemSteps HttpMemRun.
From Verif Require SendModel.
Import ListNotations.
Open Scope Z_scope.

Lemma owns_blocks : forall m l, mowns m l -> blocks_are m l.
Proof. intros m l [O _]. destruct (owns_spec _ _ O) as (A & B & C). split; [exact B|]. split; [exact C|exact A]. Qed.
Lemma linked_nth : forall dups N rs la i p r, Forall2 (qlinked dups N) rs la -> nth_error rs i = Some (p, r) -> exists a, nth_error la i = Some a /\ qinv dups N r a.
Proof. intros dups N rs la i p r F. revert i. induction F as [|x a rs la R F IH]; intros [|i] E; try discriminate; [injection E as ->; exists a; auto|]. cbn [nth_error] in *. now apply IH. Qed.
Lemma linked_none : forall dups N rs la i, Forall2 (qlinked dups N) rs la -> nth_error rs i = None -> nth_error la i = None.
Proof. intros dups N rs la i F E. apply nth_error_None. apply nth_error_None in E. now rewrite <- (f2_length _ _ _ _ _ F). Qed.
Lemma sends_ok : forall N rs la, Forall2 (qlinked true N) rs la -> 0 <= N -> N + 64 < two64 -> forall l m ids, mowns m ids -> incl (flat_map req_blocks rs) ids -> Forall (fun x => call_ok (snd x)) l ->
  exists m' res gone, x_sends m rs l = Ret (m', res) /\ mowns m' (gone ++ ids) /\ all_meant la l res (length gone).
Proof.
  intros N rs la F N0 NT. induction l as [|[i c] l IH]; intros m ids O C OK; cbn [x_sends].
  - exists m, [], []. split; [reflexivity|]. split; [exact O|constructor].
  - inversion OK as [|? ? OK1 OK2]; subst. cbn [snd] in OK1. destruct (nth_error rs i) as [[p r]|] eqn:E.
    + destruct (linked_nth _ _ _ _ _ _ _ F E) as (a & EA & I).
      assert (CP : incl (req_blocks (p, r)) ids) by (intros x X; apply C; apply in_flat_map; exists (p, r); split; [eapply nth_error_In; exact E|exact X]).
      rewrite (use_ok _ ids) by (try apply O; apply CP; rewrite req_insides; now left). unfold bind at 1.
      destruct (send_ok N c m r a ids I N0 NT O) as (z & m1 & o & gone & -> & O1 & K); [intros x X; apply CP; rewrite req_insides; now right|exact OK1|]. unfold bind at 1. cbn [fst snd].
      destruct (IH m1 (gone ++ ids) O1) as (m2 & res & gone2 & -> & O2 & AM); [intros x X; apply in_or_app; right; now apply C|exact OK2|]. unfold bind at 1. cbn [fst snd].
      exists m2, ((z, o) :: res), (gone2 ++ gone). split; [reflexivity|]. split; [rewrite <- app_assoc; exact O2|]. rewrite app_length, Nat.add_comm. eapply am_call; [exact EA| |exact AM].
      exact K.
    + destruct (IH m ids O C OK2) as (m2 & res & gone2 & -> & O2 & AM). exists m2, res, gone2. split; [reflexivity|]. split; [exact O2|]. apply am_skip; [eapply linked_none; eauto|exact AM].
Qed.

(** C107. A program makes requests as in C98, and sends them one after the other. Each call comes with what the allocations
    and libcurl answer; where the allocations may fail is said by [call_ok]. No block is used after its release or released twice, no
    NULL is read. When curl_easy_perform is called, libcurl was given what the request asks for, but for what [carries] says when an
    allocation failed; otherwise an allocation failed or libcurl refused, and the answer says so. The requests of the program are
    unchanged, and all blocks made by the calls are released, but for those that [meant] counts. *)
Theorem C107_exact_partial : forall max ops cs s l, 0 <= max -> max + Z.of_nat (List.length ops) + 64 < two64 ->
  Forall (fun x => qop_ok true max (snd x) /\ q_memory_ok true (snd x) (fst x)) ops -> qrun qstart ops = Ret (cs, s) -> Forall (fun x => call_ok (snd x)) l ->
  exists la m' res before gone, read_reqs (n_mem s) (n_reqs s) = Ret la /\ blocks_are (n_mem s) (qprog_blocks s ++ before) /\
    x_sends (n_mem s) (n_reqs s) l = Ret (m', res) /\ all_meant la l res (List.length gone) /\
    read_reqs m' (n_reqs s) = Ret la /\ blocks_are m' (gone ++ qprog_blocks s ++ before).
Proof.
  intros max ops cs s l M0 LT F R OK.
  destruct (qrun_ok true ops max qstart [] [] (qpinv_start _ _) F M0) as (cs1 & s1 & la & more & R1 & M & [FL O]); [lia|].
  rewrite R in R1. injection R1 as <- <-. rewrite app_nil_r in O.
  destruct (sends_ok _ _ _ FL) with (l := l) (m := n_mem s) (ids := qprog_blocks s ++ more) as (m' & res & gone & E & O2 & AM); auto; try lia.
  { apply incl_appl, incl_refl. }
  exists la, m', res, more, gone. split; [eapply read_reqs_ok; [exact O|apply incl_appl, incl_refl|exact FL]|]. split; [now apply owns_blocks|]. split; [exact E|]. split; [exact AM|].
  split; [eapply read_reqs_ok; [exact O2|apply incl_appr, incl_appl, incl_refl|exact FL]|now apply owns_blocks].
Qed.
Print Assumptions C107_exact_partial.

(** ** with memory *)
Lemma grown_exact : forall P g ps t t', ~ P -> grown P g t ps t' -> t' = fold_left (fun t p => Some (g t p)) ps t.
Proof. intros P g ps t t' NP G. induction G; [reflexivity|cbn [fold_left]; auto|contradiction]. Qed.
Lemma behind_all : forall ps t, ps <> [] -> fold_left (fun t p => Some (behind t p)) ps t = Some (given t ++ concat ps).
Proof.
  assert (G : forall ps s, fold_left (fun t p => Some (behind t p)) ps (Some s) = Some (s ++ concat ps)).
  { induction ps as [|p ps IH]; intros s; cbn [fold_left concat]; [now rewrite app_nil_r|]. cbn [behind]. rewrite IH. now rewrite app_assoc. }
  intros [|p ps] t H; [contradiction|]. cbn [fold_left]. rewrite G. cbn [concat]. destruct t as [s|]; cbn [behind given]; [now rewrite <- app_assoc|reflexivity].
Qed.
Lemma pieces_all : forall sep l, l <> [] -> concat (pieces sep l) = sep ++ joined (bs "&") (map pair_text l).
Proof.
  assert (G : forall l e, concat (map (fun e => [38] ++ pair_text e) l) = match l with [] => [] | _ => [38] ++ joined (bs "&") (map pair_text l) end /\
    pair_text e ++ concat (map (fun e => [38] ++ pair_text e) l) = joined (bs "&") (map pair_text (e :: l))).
  { induction l as [|x l IH]; intros e; [split; [reflexivity|]; cbn; now rewrite app_nil_r|]. destruct (IH x) as [_ H]. split.
    - cbn [map concat]. rewrite <- app_assoc. f_equal. exact H.
    - cbn [map concat]. change (joined (bs "&") (pair_text e :: pair_text x :: map pair_text l)) with (pair_text e ++ [38] ++ joined (bs "&") (map pair_text (x :: l))). rewrite <- H. now rewrite <- app_assoc. }
  intros sep [|e l] H; [contradiction|]. cbn [pieces concat]. rewrite <- app_assoc. f_equal. apply G.
Qed.
Lemma cookies_all : forall ps, fold_left (fun t p => Some (after_semicolon t p)) ps None = match ps with [] => None | _ => Some (joined (bs ";") ps) end.
Proof.
  assert (G : forall ps s, fold_left (fun t p => Some (after_semicolon t p)) ps (Some s) = Some (joined (bs ";") (s :: ps)) /\ forall u, joined (bs ";") ((u ++ s) :: ps) = u ++ joined (bs ";") (s :: ps)).
  { induction ps as [|p ps IH]; intros s; [split; reflexivity|]. split.
    - cbn [fold_left after_semicolon]. rewrite (proj1 (IH _)). f_equal. transitivity (joined (bs ";") (((s ++ bs ";") ++ p) :: ps)); [now rewrite <- app_assoc|]. etransitivity; [apply (proj2 (IH p) (s ++ bs ";"))|]. change (joined (bs ";") (s :: p :: ps)) with (s ++ bs ";" ++ joined (bs ";") (p :: ps)). now rewrite <- app_assoc.
    - intros u. change (joined (bs ";") ((u ++ s) :: p :: ps)) with ((u ++ s) ++ bs ";" ++ joined (bs ";") (p :: ps)). change (joined (bs ";") (s :: p :: ps)) with (s ++ bs ";" ++ joined (bs ";") (p :: ps)). now rewrite <- app_assoc. }
  intros [|p ps]; [reflexivity|]. cbn [fold_left after_semicolon]. apply G.
Qed.
Lemma carries_wanted : forall c a s, ~ lacking c -> carries c a s -> wanted a s.
Proof.
  intros c a s NL (ts & [->|(X & _)] & H1 & H2 & H3 & H4 & H5 & (u & U & GU) & H7 & H8 & GC); [|exfalso; apply NL; now left].
  assert (N3 : ~ lacks (l_url c)) by (intros X; apply NL; do 2 right; now left). assert (N4 : ~ lacks (l_form c)) by (intros X; apply NL; do 3 right; now left).
  assert (N7 : ~ lacks (l_cookies c)) by (intros X; apply NL; do 6 right; now left). destruct U as [U|(X & _)]; [|contradiction].
  unfold wanted. repeat (split; [assumption|]). split; [|split; [|split; [exact H8|]]].
  - rewrite (grown_exact _ _ _ _ _ N3 GU). unfold url_wanted. rewrite <- U. destruct (pairs a M_URL) as [|e l] eqn:E; [reflexivity|]. rewrite behind_all by (cbn; discriminate). rewrite pieces_all by discriminate. reflexivity.
  - unfold form_wanted. destruct (pairs a M_POST) as [|e l] eqn:E; [exact H7|]. destruct H7 as (t & GT & ->). rewrite (grown_exact _ _ _ _ _ N4 GT). rewrite behind_all by (cbn; discriminate). rewrite pieces_all by discriminate. reflexivity.
  - rewrite (grown_exact _ _ _ _ _ N7 GC), cookies_all. unfold cookies_wanted. destruct (pairs a M_COOKIE); reflexivity.
Qed.
(** C107. When every allocation has memory and libcurl refuses nothing, each request that has no unreadable certificate is sent exactly
    as it asks: every parameter of the url and of the form, escaped, every header and cookie, the body, the credentials; and the
    answer is that of curl_easy_perform. *)
Theorem C107_memory_partial : forall max ops cs s i p r c, 0 <= max -> max + Z.of_nat (List.length ops) + 64 < two64 ->
  Forall (fun x => qop_ok true max (snd x) /\ q_memory_ok true (snd x) (fst x)) ops -> qrun qstart ops = Ret (cs, s) -> nth_error (n_reqs s) i = Some (p, r) ->
  call_ok c -> ~ lacking c -> ~ refused c ->
  exists la a m' z o gone before, read_reqs (n_mem s) (n_reqs s) = Ret la /\ nth_error la i = Some a /\ x_send c (n_mem s) r = Ret (z, (m', o)) /\
    blocks_are (n_mem s) (qprog_blocks s ++ before) /\ blocks_are m' (gone ++ qprog_blocks s ++ before) /\
    match aq_cert a with
    | Some None => z = U_ERROR_MEMORY /\ o = None
    | _ => z = (if o_perform c then U_OK else U_ERROR_LIBCURL) /\ List.length gone = lost_cert (aq_cert a) /\ exists sn, o = Some sn /\ wanted a sn
    end.
Proof.
  intros max ops cs s i p r c M0 LT F R E OK NL NR.
  destruct (qrun_ok true ops max qstart [] [] (qpinv_start _ _) F M0) as (cs1 & s1 & la & more & R1 & M & [FL O]); [lia|].
  rewrite R in R1. injection R1 as <- <-. rewrite app_nil_r in O. destruct (linked_nth _ _ _ _ _ _ _ FL E) as (a & EA & I).
  destruct (send_ok _ c (n_mem s) r a (qprog_blocks s ++ more) I) as (z & m1 & o & gone & ES & O1 & K); auto; try lia.
  { intros x X. apply in_or_app. left. unfold qprog_blocks. apply in_flat_map. exists (p, r). split; [eapply nth_error_In; exact E|]. rewrite req_insides. now right. }
  exists la, a, m1, z, o, gone, more. split; [eapply read_reqs_ok; [exact O|apply incl_appl, incl_refl|exact FL]|]. split; [exact EA|]. split; [exact ES|]. split; [now apply owns_blocks|]. split; [now apply owns_blocks|].
  destruct o as [sn|].
  - destruct K as (CA & LG & NC & ZE & _). destruct (aq_cert a) as [[pem|]|]; [|contradiction|]; (split; [exact ZE|]; split; [exact LG|]; exists sn; split; [reflexivity|eapply carries_wanted; eauto]).
  - destruct K as [(-> & [X|X] & _)|(-> & NC & [X|X] & _)]; try contradiction; [exfalso; apply NL; now left|]. rewrite X. auto.
Qed.
Print Assumptions C107_memory_partial.

(** ** a request, and what is sent for it *)
Definition C107_ops : list qop :=
  [QNew; QText 0 T_URL (Some (bs "http://h/a b")); QText 0 T_VERB (Some (bs "DELETE")); QText 0 T_USER (Some (bs "me")); QText 0 T_PASSWORD (Some (bs "secret"));
   QPut 0 M_URL (bs "a") (Some (bs "1&")); QPut 0 M_URL (bs "b") (Some (bs "2")); QPut 0 M_HEADER (bs "X") (Some (bs "y")); QPut 0 M_HEADER (bs "Z") None;
   QPut 0 M_COOKIE (bs "c") (Some (bs "d")); QPut 0 M_COOKIE (bs "e") (Some (bs "f")); QPut 0 M_POST (bs "g") (Some (bs "h")); QPut 0 M_POST (bs "i") (Some (bs "j"))].
Example C107_ex_ok : Forall (fun x => qop_ok true 100 (snd x) /\ q_memory_ok true (snd x) (fst x)) (map (pair []) C107_ops).
Proof.
  assert (CO : forallb (fun o => match o with QPut _ _ _ (Some v) => forallb (fun b => (0 <? b) && (b <? 256)) v && (zlen v + 1 <=? 100) | QNew | QText _ _ _ | QPut _ _ _ None => true | _ => false end) C107_ops = true) by (vm_compute; reflexivity).
  apply Forall_forall. intros x X. apply in_map_iff in X as (o & <- & X). rewrite forallb_forall in CO. specialize (CO o X). cbn [fst snd].
  destruct o as [| | |i k key [v|]| | | | | | |]; try discriminate CO; split; try exact Logic.I; try (right; cbn; tauto).
  apply andb_prop in CO as [C1 C2]. split; [|now apply Z.leb_le]. apply Forall_forall. intros b B. rewrite forallb_forall in C1. specialize (C1 b B). apply andb_prop in C1 as [C3 C4]. split; [now apply Z.ltb_lt|now apply Z.ltb_lt].
Qed.
Definition fine : answers := ([], []).
Definition fails_at (n : nat) : answers := (repeat true n ++ [false], []).
Definition sure : call := mk_call fine fine fine fine fine fine fine true true true true true.
Definition with_copy c x := mk_call x (l_handle c) (l_url c) (l_form c) (l_type c) (l_headers c) (l_cookies c) (o_first c) (o_body c) (o_cookies c) (o_rest c) (o_perform c).
Definition with_url c x := mk_call (l_copy c) (l_handle c) x (l_form c) (l_type c) (l_headers c) (l_cookies c) (o_first c) (o_body c) (o_cookies c) (o_rest c) (o_perform c).
Definition with_form c x := mk_call (l_copy c) (l_handle c) (l_url c) x (l_type c) (l_headers c) (l_cookies c) (o_first c) (o_body c) (o_cookies c) (o_rest c) (o_perform c).
Definition with_headers c x := mk_call (l_copy c) (l_handle c) (l_url c) (l_form c) (l_type c) x (l_cookies c) (o_first c) (o_body c) (o_cookies c) (o_rest c) (o_perform c).
Definition with_cookies c x b := mk_call (l_copy c) (l_handle c) (l_url c) (l_form c) (l_type c) (l_headers c) x (o_first c) (o_body c) b (o_rest c) (o_perform c).
(** the answer, what was sent, and how many blocks are in use afterwards that were not before *)
Definition sending (ops : list qop) (c : call) : outcome (Z * option sent * Z) :=
  do x <- qrun qstart (map (pair []) ops);
  match n_reqs (snd x) with
  | (_, r) :: _ =>
      do y <- x_send c (n_mem (snd x)) r;
      Ret (fst y, snd (snd y), Z.of_nat (List.length (h_live (m_heap (fst (snd y))))) - Z.of_nat (List.length (h_live (m_heap (n_mem (snd x))))))
  | [] => UB NullDeref
  end.
Definition C107_sent : sent :=
  mk_sent None (Some (bs "me", bs "secret")) None (Some (bs "http://h/a%20b?a=1%26&b=2")) (bs "DELETE") [bs "X:y"; bs "Z:"; bs "Content-Type:application/x-www-form-urlencoded"]
    (Some (bs "c=d;e=f")) (Some (bs "g=h&i=j")) None.
Example C107_ex : sending C107_ops sure = Ret (U_OK, Some C107_sent, 0).
Proof. vm_compute. reflexivity. Qed.
Example C107_ex_sure : call_ok sure /\ ~ lacking sure /\ ~ refused sure.
Proof.
  split; [|split].
  - constructor; try (repeat constructor; fail); [right; cbn; tauto|intros i; destruct i; discriminate|intros i; destruct i; discriminate].
  - intros H. repeat (inversion H as [? ? H1|? ? H1]; subst; clear H; [exact H1|rename H1 into H]). inversion H.
  - intros [H|[H|H]]; discriminate H.
Qed.

(** C107. The copy of a text of the request that fails is not noticed, u_request.c:383-399: a DELETE is sent as a GET; the credentials are left out. Both answer U_OK. *)
Theorem C107_text_refuted : exists c1 c2 s1 s2, call_ok c1 /\ call_ok c2 /\
  sending C107_ops c1 = Ret (U_OK, Some s1, 0) /\ s_verb s1 = bs "GET" /\ s_body s1 = s_body C107_sent /\
  sending C107_ops c2 = Ret (U_OK, Some s2, 0) /\ s_auth s2 = None /\ s_url s2 = s_url C107_sent.
Proof.
  exists (with_copy sure (fails_at 17)), (with_copy sure (fails_at 20)). do 2 eexists.
  split; [constructor; try (repeat constructor; fail); [right; vm_compute; intuition discriminate|intros i; destruct i; discriminate|intros i; destruct i; discriminate]|].
  split; [constructor; try (repeat constructor; fail); [right; vm_compute; intuition discriminate|intros i; destruct i; discriminate|intros i; destruct i; discriminate]|].
  split; [vm_compute; reflexivity|]. split; [vm_compute; reflexivity|]. split; [vm_compute; reflexivity|]. split; [vm_compute; reflexivity|]. split; vm_compute; reflexivity.
Qed.
Print Assumptions C107_text_refuted.
(** C107. mstrcatf answers NULL when there is no memory for the url with one more parameter, u_send_request.c:435-450, and the text so far is gone: the loop goes on with NULL, and the request
    goes to the url "&b=2", or libcurl gets none; the same when str_replace finds no memory for the url: it is then "?a=1%26&b=2". *)
Theorem C107_url_refuted : exists c1 c2 c3 s1 s2 s3, call_ok c1 /\ call_ok c2 /\ call_ok c3 /\
  sending C107_ops c1 = Ret (U_OK, Some s1, 0) /\ s_url s1 = Some (bs "&b=2") /\
  sending C107_ops c2 = Ret (U_OK, Some s2, 0) /\ s_url s2 = None /\
  sending C107_ops c3 = Ret (U_OK, Some s3, 0) /\ s_url s3 = Some (bs "?a=1%26&b=2").
Proof.
  assert (G : forall n, call_ok (with_url sure (fails_at n))) by (intros n; constructor; try (repeat constructor; fail); [right; vm_compute; intuition discriminate|intros i; destruct i; discriminate|intros i; destruct i; discriminate]).
  exists (with_url sure (fails_at 3)), (with_url sure (fails_at 6)), (with_url sure (fails_at 0)). do 3 eexists. do 3 (split; [apply G|]).
  split; [vm_compute; reflexivity|]. split; [vm_compute; reflexivity|]. split; [vm_compute; reflexivity|]. split; [vm_compute; reflexivity|]. split; vm_compute; reflexivity.
Qed.
Print Assumptions C107_url_refuted.
(** C107. In the same way the pairs of a form are lost, u_send_request.c:481-495: the request is sent with the rest of the form, or with no body at all, and still answers U_OK. *)
Theorem C107_form_refuted : exists c1 c2 s1 s2, call_ok c1 /\ call_ok c2 /\
  sending C107_ops c1 = Ret (U_OK, Some s1, 0) /\ s_body s1 = Some (bs "&i=j") /\ s_headers s1 = s_headers C107_sent /\
  sending C107_ops c2 = Ret (U_OK, Some s2, 0) /\ s_body s2 = None /\ s_headers s2 = s_headers C107_sent.
Proof.
  assert (G : forall n, call_ok (with_form sure (fails_at n))) by (intros n; constructor; try (repeat constructor; fail); [right; vm_compute; intuition discriminate|intros i; destruct i; discriminate|intros i; destruct i; discriminate]).
  exists (with_form sure (fails_at 2)), (with_form sure (fails_at 5)). do 2 eexists. do 2 (split; [apply G|]).
  split; [vm_compute; reflexivity|]. split; [vm_compute; reflexivity|]. split; [vm_compute; reflexivity|]. split; [vm_compute; reflexivity|]. split; vm_compute; reflexivity.
Qed.
Print Assumptions C107_form_refuted.
(** C107. A cookie is lost in the same way, u_send_request.c:583-585: the request is sent with the others, and answers U_OK. *)
Theorem C107_cookie_refuted : exists c s, call_ok c /\ sending C107_ops c = Ret (U_OK, Some s, 0) /\ s_cookies s = Some (bs "e=f").
Proof.
  exists (with_cookies sure (fails_at 1) true). eexists. split; [|split; vm_compute; reflexivity].
  constructor; try (repeat constructor; fail); [right; vm_compute; intuition discriminate|intros i; destruct i; discriminate|].
  intros i. destruct i as [|i]; [discriminate|]. cbn [with_cookies l_cookies fails_at fst repeat app]. replace (2 * Datatypes.S i)%nat with (Datatypes.S (Datatypes.S (2 * i))) by lia. cbn [nth_error]. destruct (2 * i)%nat; discriminate.
Qed.
Print Assumptions C107_cookie_refuted.
(** C107. u_send_request.c:549,556 do not look at the result of msprintf, and curl_slist_append reads the NULL text. *)
Theorem C107_header_null_refuted : exists c, sending C107_ops c = UB NullDeref /\ c = with_headers sure (fails_at 3).
Proof. eexists. split; [|reflexivity]. vm_compute. reflexivity. Qed.
Print Assumptions C107_header_null_refuted.
(** C107. When curl_slist_append answers NULL, u_send_request.c:550,557 write it over the only pointer to the list of headers: the headers before this one, two blocks each, are never released. *)
Theorem C107_header_list_refuted : exists c, call_ok c /\ sending C107_ops c = Ret (U_ERROR_LIBCURL, None, 4).
Proof.
  exists (with_headers sure (fails_at 7)). split; [|vm_compute; reflexivity].
  constructor; try (repeat constructor; fail); [right; vm_compute; intuition discriminate| |intros i; destruct i; discriminate].
  intros i. destruct i as [|[|[|i]]]; try discriminate. cbn [with_headers l_headers fails_at fst repeat app].
  replace (3 * Datatypes.S (Datatypes.S (Datatypes.S i)))%nat with (9 + 3 * i)%nat by lia. cbn [nth_error plus]. destruct (3 * i)%nat; discriminate.
Qed.
Print Assumptions C107_header_list_refuted.
(** C107. u_send_request.c:578-585 do not look at the result of msprintf either: NULL is printed with %s into the cookies. *)
Theorem C107_cookie_null_refuted : exists c, sending C107_ops c = UB NullDeref /\ c = with_cookies sure (fails_at 2) true.
Proof. eexists. split; [|reflexivity]. vm_compute. reflexivity. Qed.
Print Assumptions C107_cookie_null_refuted.
(** C107. With memory: when libcurl refuses the cookies, for instance because they are too long for it, the message of u_send_request.c:590 prints the text of the last cookie, which was released
    at the end of its round of the loop, u_send_request.c:587. *)
Theorem C107_cookie_log_refuted : exists c, sending C107_ops c = UB UseAfterFree /\ c = with_cookies sure fine false.
Proof. eexists. split; [|reflexivity]. vm_compute. reflexivity. Qed.
Print Assumptions C107_cookie_log_refuted.
(** C107. A client certificate in the request (client_cert) costs one block with each request that is sent, as each copy of it does (C98). *)
Theorem C107_cert_refuted : exists ops c, call_ok c /\ ~ lacking c /\ exists s, sending ops c = Ret (U_OK, Some s, 1).
Proof.
  exists [QIncoming (bs "http://h/") (bs "/") (Some (Some (bs "PEM"))) (bs "HTTP/1.1") (bs "GET") [127; 0; 0; 1]], sure.
  destruct C107_ex_sure as (A & B & _). split; [exact A|]. split; [exact B|]. eexists. vm_compute. reflexivity.
Qed.
Print Assumptions C107_cert_refuted.
