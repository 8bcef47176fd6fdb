(** Specification vocabulary for the memory of requests that are sent (C107): what a request asks for, and what is sent instead when
    an allocation failed. *)
From Coq Require Import String ZArith Bool List.
From Verif Require Import Base UMapModel OwnModel MapMemModel MapMemSpec RespMemModel RespMemSpec ReqMemModel ReqMemSpec RecvMemModel RecvMemSpec HttpMemModel.
From Verif Require SendModel ClientModel.
Import ListNotations.
Open Scope Z_scope.

(** ** What a request asks for *)
(** the names of a map, each with the C string of its value *)
Definition pairs (a : areq) (k : nat) : list (str * option str) := map (fun e => (fst e, a_text (snd e))) (nth k (aq_maps a) []).
Definition txt (ts : list (option str)) (k : nat) : option str := nth k ts None.
(** name=value, or the name alone *)
Definition pair_text (e : str * option str) : str :=
  match snd e with Some t => SendModel.curl_escape (fst e) ++ [61] ++ SendModel.curl_escape t | None => SendModel.curl_escape (fst e) end.
(** the pairs, the first one with [sep] before it, the others with '&' *)
Definition pieces (sep : str) (l : list (str * option str)) : list str :=
  match l with [] => [] | e :: r => (sep ++ pair_text e) :: map (fun e => [38] ++ pair_text e) r end.
(** '?', or '&' when the url has a query already *)
Definition query_sep (url : option str) : str :=
  match url with Some u => if existsb (Z.eqb 63) u then [38] else [63] | None => [63] end.
(** a form replaces the content type *)
Fixpoint put_pair (k v : str) (l : list (str * option str)) : list (str * option str) :=
  match l with [] => [(k, Some v)] | (x, w) :: r => if str_eqb x k then (x, Some v) :: r else (x, w) :: put_pair k v r end.
Definition headers_of (a : areq) : list (str * option str) :=
  match pairs a M_POST with [] => pairs a M_HEADER | _ => put_pair (bs "Content-Type") (bs "application/x-www-form-urlencoded") (pairs a M_HEADER) end.
Definition header_line (e : str * option str) : str := fst e ++ bs ":" ++ match snd e with Some t => t | None => [] end.
Definition cookie_line (e : str * option str) : str := match snd e with Some t => fst e ++ bs "=" ++ t | None => fst e ++ bs ":" end.
(** the first header of a name, in any case of letters *)
Fixpoint field (k : str) (l : list (str * option str)) : option str := match l with [] => None | (x, v) :: r => if str_caseeqb x k then v else field k r end.
Definition both (u p : option str) : option (str * str) := match u, p with Some a, Some b => Some (a, b) | _, _ => None end.

(** ** A text that is put together *)
Definition behind (t : option str) (p : str) : str := match t with Some s => s ++ p | None => p end.
Definition after_semicolon (t : option str) (p : str) : str := match t with Some s => s ++ bs ";" ++ p | None => p end.
(** [grown lack glue t ps t']: the pieces [ps] come after [t]; with each of them, but only if [lack], all that was there before is
    lost and the piece with it *)
Inductive grown (lack : Prop) (glue : option str -> str -> str) : option str -> list str -> option str -> Prop :=
| gr_end : forall t, grown lack glue t [] t
| gr_more : forall t p r t', grown lack glue (Some (glue t p)) r t' -> grown lack glue t (p :: r) t'
| gr_lost : forall t p r t', lack -> grown lack glue None r t' -> grown lack glue t (p :: r) t'.
Definition lacks (s : answers) : Prop := In false (fst s).

(** ** What is sent for the request [a]. Only if an allocation failed: texts of the request are missing; the url, the form and the
    cookies have lost a beginning. The headers are complete. *)
Definition carries (c : call) (a : areq) (s : sent) : Prop :=
  exists ts, (ts = aq_texts a \/ (lacks (l_copy c) /\ some_missing (aq_texts a) ts)) /\
    (s_accept s = field (bs "Accept-Encoding") (pairs a M_HEADER) \/ (s_accept s = Some [] /\ field (bs "Accept-Encoding") (pairs a M_HEADER) = None)) /\
    s_auth s = both (txt ts T_USER) (txt ts T_PASSWORD) /\
    s_proxy s = txt ts T_PROXY /\
    s_ca s = txt ts T_CA /\
    s_verb s = match txt ts T_VERB with Some v => v | None => bs "GET" end /\
    (exists u, (u = option_map SendModel.no_space (txt ts T_URL) \/ (lacks (l_url c) /\ u = None)) /\
       grown (lacks (l_url c)) behind u (pieces (query_sep u) (pairs a M_URL)) (s_url s)) /\
    match pairs a M_POST with
    | [] => s_body s = nonempty (aq_body a)
    | l => exists t, grown (lacks (l_form c)) behind None (pieces [] l) t /\ s_body s = nonempty t
    end /\
    s_headers s = map header_line (headers_of a) /\
    grown (lacks (l_cookies c)) after_semicolon None (map cookie_line (pairs a M_COOKIE)) (s_cookies s).

(** the same when every allocation succeeds *)
Fixpoint joined (sep : str) (l : list str) : str := match l with [] => [] | [p] => p | p :: r => p ++ sep ++ joined sep r end.
Definition url_wanted (url : option str) (l : list (str * option str)) : option str :=
  let u := option_map SendModel.no_space url in
  match l with [] => u | _ => Some (given u ++ query_sep u ++ joined (bs "&") (map pair_text l)) end.
Definition form_wanted (a : areq) : option (list Z) :=
  match pairs a M_POST with [] => nonempty (aq_body a) | l => nonempty (Some (joined (bs "&") (map pair_text l))) end.
Definition cookies_wanted (l : list (str * option str)) : option str := match l with [] => None | _ => Some (joined (bs ";") (map cookie_line l)) end.
Definition wanted (a : areq) (s : sent) : Prop :=
  (s_accept s = field (bs "Accept-Encoding") (pairs a M_HEADER) \/ (s_accept s = Some [] /\ field (bs "Accept-Encoding") (pairs a M_HEADER) = None)) /\
  s_auth s = both (txt (aq_texts a) T_USER) (txt (aq_texts a) T_PASSWORD) /\
  s_proxy s = txt (aq_texts a) T_PROXY /\
  s_ca s = txt (aq_texts a) T_CA /\
  s_verb s = match txt (aq_texts a) T_VERB with Some v => v | None => bs "GET" end /\
  s_url s = url_wanted (txt (aq_texts a) T_URL) (pairs a M_URL) /\
  s_body s = form_wanted a /\
  s_headers s = map header_line (headers_of a) /\
  s_cookies s = cookies_wanted (pairs a M_COOKIE).

(** ** What is asked of the memory: o_realloc does not fail; of the first 17 allocations of the copy, none but the first; of the
    headers and the cookies, not msprintf, which is the first allocation of each; libcurl takes the cookies *)
Definition every (n : nat) (l : list bool) : Prop := forall i, nth_error l (n * i) <> Some false.
Record call_ok (c : call) : Prop := mk_call_ok {
  ok_grow : Forall grows [l_copy c; l_handle c; l_url c; l_form c; l_type c; l_headers c; l_cookies c];
  ok_copy : hd true (fst (l_copy c)) = false \/ ~ In false (firstn 17 (fst (l_copy c)));
  ok_headers : every 3 (fst (l_headers c));
  ok_cookies : every 2 (fst (l_cookies c));
  ok_taken : o_cookies c = true
}.
Definition lacking (c : call) : Prop := Exists lacks [l_copy c; l_handle c; l_url c; l_form c; l_type c; l_headers c; l_cookies c].
Definition refused (c : call) : Prop := o_first c = false \/ o_body c = false \/ o_rest c = false.
(** the result: curl_easy_perform is not called *)
Definition no_call (c : call) (a : areq) (z : Z) (gone : nat) : Prop :=
  (z = U_ERROR_MEMORY /\ (lacks (l_copy c) \/ aq_cert a = Some None) /\ (gone <= lost_cert (aq_cert a))%nat) \/
  (z = U_ERROR_LIBCURL /\ aq_cert a <> Some None /\ (lacking c \/ refused c) /\
    (gone = lost_cert (aq_cert a) \/ (lacks (l_headers c) /\ lost_cert (aq_cert a) < gone <= lost_cert (aq_cert a) + 2 * length (headers_of a)))%nat).
(** the memory is as before, but for the blocks [gone] *)
Definition blocks_are (m : mem) (l : list nat) : Prop :=
  NoDup l /\ NoDup (h_live (m_heap m)) /\ forall x, In x (h_live (m_heap m)) <-> In x l.

(** ** Requests of a program (C98) are sent one after the other; requests are named by their position *)
Fixpoint x_sends (m : mem) (rs : list (nat * hreq)) (l : list (nat * call)) : outcome (mem * list (Z * option sent)) :=
  match l with
  | [] => Ret (m, [])
  | (i, c) :: l =>
      match nth_error rs i with
      | None => x_sends m rs l
      | Some (p, r) =>
          do _ <- h_use (m_heap m) p;
          do x <- x_send c m r;
          do y <- x_sends (fst (snd x)) rs l; Ret (fst y, (fst x, snd (snd x)) :: snd y)
      end
  end.
(** what one call means; the number is that of the blocks lost *)
Definition meant (c : call) (a : areq) (z : Z) (o : option sent) (gone : nat) : Prop :=
  match o with
  | Some s => carries c a s /\ gone = lost_cert (aq_cert a) /\ aq_cert a <> Some None /\ z = (if o_perform c then U_OK else U_ERROR_LIBCURL) /\
      o_first c = true /\ o_rest c = true /\ (o_body c = false -> s_body s = None)
  | None => no_call c a z gone
  end.
Inductive all_meant (la : list areq) : list (nat * call) -> list (Z * option sent) -> nat -> Prop :=
| am_nil : all_meant la [] [] 0
| am_skip : forall i c l r n, nth_error la i = None -> all_meant la l r n -> all_meant la ((i, c) :: l) r n
| am_call : forall i c l a z o r k n, nth_error la i = Some a -> meant c a z o k -> all_meant la l r n -> all_meant la ((i, c) :: l) ((z, o) :: r) (k + n).
