(** More about the handshake of websockets: the text of a refusal, and a response that is cut. *)
From Coq Require Import String ZArith Bool List Lia.
From Verif Require Import Base BaseFacts SMap StrModel Utf8Model NegoModel NegoSpec NegoProofs NegoProps.
Import ListNotations.
Open Scope Z_scope.

(** ** C42: the text of the answer *)
(** a line of the answer and when it should be there: what the line complains about is missing in the request *)
Definition complaint (d : smap) (protocol verb : option str) (l : str) : Prop :=
  (l = bs "No Upgrade websocket header" /\ ~ exists v, header d (bs "Upgrade") = Some v /\ mentions v (bs "websocket")) \/
  (l = bs "No Connection Upgrade header" /\ ~ exists v, header d (bs "Connection") = Some v /\ mentions v (bs "upgrade")) \/
  (l = bs "No Sec-WebSocket-Key header" /\ header d (bs "Sec-WebSocket-Key") = None) \/
  (l = bs "Wrong HTTP Protocol" /\ protocol <> Some (bs "HTTP/1.1")) \/
  (l = bs "Wrong websocket version" /\ header d (bs "Sec-WebSocket-Version") <> Some (bs "13")) \/
  (l = bs "Method is not GET" /\ verb <> Some (bs "GET")).

Lemma header_caseval : forall d k, header d k = caseval d k.
Proof.
  unfold caseval. induction d as [|[a o] d IH]; intros k; [reflexivity|]. cbn [header find fst]. destruct (str_caseeqb a k); [destruct o; reflexivity|apply IH].
Qed.
Lemma casestr_none : forall o w, casestr o w = true <-> exists v, o = Some v /\ mentions v w.
Proof.
  intros [v|] w.
  - rewrite casestr_iff. split; [eauto|]. intros (x & E & M). now injection E as ->.
  - split; [intros H; cbn in H; discriminate|]. intros (x & E & _). discriminate.
Qed.

(** An invalid request is answered 400 with a text in lines, each of which is a complaint about the request, and no complaint is forgotten. *)
Theorem C42_text : forall server_match digest m d protocol verb h, repr m d -> (forall key, ~ valid_request d protocol verb key) ->
  exists ls, server_handshake server_match digest m protocol verb h = Ret (inr (400, flat_map (fun l => l ++ [10]) ls)) /\ NoDup ls /\
    forall l, In l ls <-> complaint d protocol verb l.
Proof.
  intros sm digest m d protocol verb h R NV. unfold server_handshake. destruct (valid_upgrade_ok m d protocol verb R) as (ok & E & V). rewrite E. cbn [bind].
  destruct ok; [destruct (proj1 V eq_refl) as (key & K); now apply NV in K|]. unfold missing_text. rewrite !(repr_get_case m d _ R). cbn [bind].
  replace (caseval d (bs "upgrade")) with (caseval d (bs "Upgrade")) by (apply caseval_name; reflexivity).
  exists ((if casestr (caseval d (bs "Upgrade")) (bs "websocket") then [] else [bs "No Upgrade websocket header"]) ++
          (if casestr (caseval d (bs "Connection")) (bs "Upgrade") then [] else [bs "No Connection Upgrade header"]) ++
          (match caseval d (bs "Sec-WebSocket-Key") with None => [bs "No Sec-WebSocket-Key header"] | Some _ => [] end) ++
          (if ostr_eqb protocol (Some (bs "HTTP/1.1")) then [] else [bs "Wrong HTTP Protocol"]) ++
          (if ostr_eqb (caseval d (bs "Sec-WebSocket-Version")) (Some (bs "13")) then [] else [bs "Wrong websocket version"]) ++
          (if ostr_eqb verb (Some (bs "GET")) then [] else [bs "Method is not GET"])).
  split; [|split].
  - f_equal. f_equal. f_equal. rewrite !flat_map_app.
    repeat (f_equal; [repeat match goal with |- context [if ?b then _ else _] => destruct b | |- context [match ?o with Some _ => _ | None => _ end] => destruct o end; reflexivity|]).
    destruct (ostr_eqb verb (Some (bs "GET"))); reflexivity.
  - destruct (casestr (caseval d (bs "Upgrade")) _), (casestr (caseval d (bs "Connection")) _), (caseval d (bs "Sec-WebSocket-Key")), (ostr_eqb protocol _), (ostr_eqb (caseval d (bs "Sec-WebSocket-Version")) _), (ostr_eqb verb _); cbn [app];
      repeat (constructor; [let H := fresh in intros H; cbn [In] in H; repeat destruct H as [H|H]; try discriminate H; exact H|]); constructor.
  - intros l. unfold complaint. rewrite !in_app_iff, !header_caseval.
    assert (B : forall (b : bool) (P : Prop) x, (b = true <-> P) -> (In l (if b then [] else [x]) <-> l = x /\ ~ P)).
    { intros b P x HB. destruct b; cbn [In]; [intuition|]. split; [intros [<-|[]]; split; [reflexivity|intros p; apply HB in p; discriminate]|intros [-> _]; auto]. }
    rewrite (B _ _ _ (casestr_none _ _)), (B _ _ _ (casestr_none _ _)), (B _ _ _ (ostr_eqb_iff _ _)), (B _ _ _ (ostr_eqb_iff _ _)), (B _ _ _ (ostr_eqb_iff _ _)).
    assert (K : In l (match caseval d (bs "Sec-WebSocket-Key") with None => [bs "No Sec-WebSocket-Key header"] | Some _ => [] end) <-> l = bs "No Sec-WebSocket-Key header" /\ caseval d (bs "Sec-WebSocket-Key") = None).
    { destruct (caseval d (bs "Sec-WebSocket-Key")); cbn [In]; intuition (auto; discriminate). }
    rewrite K. assert (M : (exists v, caseval d (bs "Connection") = Some v /\ mentions v (bs "Upgrade")) <-> (exists v, caseval d (bs "Connection") = Some v /\ mentions v (bs "upgrade"))).
    { split; intros (v & X & Y); exists v; (split; [exact X|]); eapply mentions_lower; try exact Y; reflexivity. }
    rewrite M. tauto.
Qed.
Print Assumptions C42_text.
(** the example over HTTP/1.0 with another method, and a request without headers *)
Example C42_ex_text : exists m, map_of c42_d = Ret m /\
  server_handshake c42_match c42_digest m (Some (bs "HTTP/1.0")) (Some (bs "POST")) c42_handle = Ret (inr (400, bs "Wrong HTTP Protocol" ++ [10] ++ bs "Method is not GET" ++ [10])) /\
  (forall key, ~ valid_request c42_d (Some (bs "HTTP/1.0")) (Some (bs "POST")) key) /\
  server_handshake c42_match c42_digest UMapModel.u_map_init (Some (bs "HTTP/1.1")) (Some (bs "GET")) c42_handle =
    Ret (inr (400, bs "No Upgrade websocket header" ++ [10] ++ bs "No Connection Upgrade header" ++ [10] ++ bs "No Sec-WebSocket-Key header" ++ [10] ++ bs "Wrong websocket version" ++ [10])).
Proof. eexists. split; [vm_compute; reflexivity|]. split; [vm_compute; reflexivity|]. split; [intros key [H _]; discriminate|vm_compute; reflexivity]. Qed.

(** The text does not always say why: a request that is refused because it has a header twice gets a 400 without any text, since the lines are about what is
    missing only (ulfius.c:806-813). *)
Theorem C42_silent_refuted : exists m d, repr m d /\ (forall key, ~ valid_request d (Some (bs "HTTP/1.1")) (Some (bs "GET")) key) /\
  forall server_match digest h, server_handshake server_match digest m (Some (bs "HTTP/1.1")) (Some (bs "GET")) h = Ret (inr (400, [])).
Proof.
  set (d := c42_d ++ [(bs "sec-websocket-key", Some (bs "def"))]).
  assert (G : exists m, map_of d = Ret m /\ repr m d).
  { destruct c42_repr as (m & E & R). destruct (repr_put m c42_d (bs "sec-websocket-key") (Some (bs "def")) R) as (m1 & E1 & R1); [discriminate|split; [repeat constructor; vm_compute; discriminate|reflexivity]|].
    exists m1. unfold d, map_of. rewrite fold_left_app. change (fold_left _ c42_d (Ret UMapModel.u_map_init)) with (map_of c42_d). rewrite E. cbn [fold_left bind fst snd]. rewrite E1. split; [reflexivity|exact R1]. }
  destruct G as (m & E & R). exists m, d. split; [exact R|]. split.
  - intros key K. pose proof (vr_key _ _ _ _ K) as K'. apply single_iff in K' as [K' _]. vm_compute in K'. discriminate.
  - intros sm dg h. assert (M : Ret m = map_of d) by (symmetry; exact E). vm_compute in M. injection M as ->. vm_compute. reflexivity.
Qed.
Print Assumptions C42_silent_refuted.

(** ** C43: a response that is cut *)
Lemma next_line_long : forall l acc rest, Forall (fun c => c <> 13) l -> match acc with 13 :: _ => False | _ => True end -> 4095 <= zlen acc + zlen l -> zlen acc <= 4095 ->
  fst (next_line (l ++ rest) acc) = None.
Proof.
  assert (STEP : forall c r acc, match acc with 13 :: _ => False | _ => True end -> next_line (c :: r) acc = if zlen acc + 1 <? 4096 then next_line r (c :: acc) else (None, r)).
  { intros c r acc A. cbn [next_line]. destruct acc as [|a acc]; [reflexivity|]. destruct a as [|p|p]; auto. do 4 (destruct p; auto). contradiction. }
  induction l as [|c l IH]; intros acc rest F A L M.
  - change (zlen (@nil Z)) with 0 in L. cbn [app]. destruct rest as [|c r]; [reflexivity|]. rewrite STEP by exact A. replace (zlen acc + 1 <? 4096) with false by (symmetry; apply Z.ltb_ge; lia). reflexivity.
  - apply Forall_cons_iff in F as [N F]. rewrite zlen_cons in L. cbn [app]. rewrite STEP by exact A. destruct (Z.ltb_spec (zlen acc + 1) 4096) as [Q|Q]; [|reflexivity].
    apply IH; [exact F| |rewrite zlen_cons; lia|rewrite zlen_cons; lia]. destruct c as [|p|p]; auto. do 4 (destruct p; auto).
Qed.
Lemma next_line_end : forall l acc, Forall (fun c => c <> 13) l -> match acc with 13 :: _ => False | _ => True end -> fst (next_line l acc) = None.
Proof.
  assert (STEP : forall c r acc, match acc with 13 :: _ => False | _ => True end -> next_line (c :: r) acc = if zlen acc + 1 <? 4096 then next_line r (c :: acc) else (None, r)).
  { intros c r acc A. cbn [next_line]. destruct acc as [|a acc]; [reflexivity|]. destruct a as [|p|p]; auto. do 4 (destruct p; auto). contradiction. }
  induction l as [|c l IH]; intros acc F A; [reflexivity|]. apply Forall_cons_iff in F as [N F]. rewrite STEP by exact A. destruct (zlen acc + 1 <? 4096); [|reflexivity].
  apply IH; [exact F|]. destruct c as [|p|p]; auto. do 4 (destruct p; auto).
Qed.

(** what follows the last whole line and is no line: nothing, the start of a line after which the server closes the connection, or a line that is too long *)
Definition cut (t : list Z) : Prop := Forall (fun c => c <> 13) t \/ exists l rest, t = l ++ rest /\ Forall (fun c => c <> 13) l /\ 4095 <= zlen l.

Lemma cut_none : forall t, cut t -> fst (next_line t []) = None.
Proof.
  intros t [F|(l & rest & -> & F & L)]; [apply next_line_end; [exact F|exact I]|]. apply next_line_long; [exact F|exact I| |]; change (zlen (@nil Z)) with 0; lia.
Qed.
Lemma header_lines_cut : forall check hs fuel t w, Forall (fun h => line_ok h /\ h <> []) hs -> cut t -> (length (flat_map (fun h => h ++ crlf) hs ++ t) < fuel)%nat ->
  header_lines check fuel (flat_map (fun h => h ++ crlf) hs ++ t) w =
  let w' := fold_left (fun w h => header_line check h w) hs w in mk_wresp (p_flags w') (p_protocol w') (p_extensions w') true.
Proof.
  intros check. induction hs as [|h hs IH]; intros fuel t w F C L.
  - destruct fuel as [|f]; [lia|]. cbn [flat_map app header_lines fold_left]. pose proof (cut_none t C) as N. destruct (next_line t []) as [[x|] r]; [discriminate|reflexivity].
  - apply Forall_cons_iff in F as [(LO & NE) F']. destruct fuel as [|f]; [lia|].
    cbn [flat_map]. rewrite <- !app_assoc. cbn [header_lines]. rewrite next_line_ok by auto. destruct h as [|c h]; [congruence|]. cbn [fold_left]. apply IH; [exact F'|exact C|].
    cbn [flat_map] in L. repeat rewrite app_length in L. repeat rewrite app_length. change (length crlf) with 2%nat in *. cbn [length] in L. lia.
Qed.

(** ** C43: any bytes from the server *)
Definition has_crlf (l : list Z) : Prop := exists a b, l = a ++ crlf ++ b.
(** a line as the client reads it: what stands before the first CR LF, valid UTF-8, short enough *)
Definition whole (raw : list Z) : Prop := ~ has_crlf raw /\ utf8_valid raw = true /\ zlen raw <= 4094.

Lemma no_crlf_push : forall acc c, ~ has_crlf (rev acc) -> (forall l, acc = 13 :: l -> c <> 10) -> ~ has_crlf (rev (c :: acc)).
Proof.
  intros acc c N D (a & b & E). cbn [rev] in E. destruct (rev b) as [|x b'] eqn:B.
  - assert (b = []) by (rewrite <- (rev_involutive b), B; reflexivity). subst b. rewrite app_nil_r in E. change (a ++ crlf) with (a ++ [13] ++ [10]) in E. rewrite app_assoc in E.
    apply app_inj_tail in E as [E ->]. apply (D (rev a)); [|reflexivity]. rewrite <- (rev_involutive acc), E, rev_app_distr. reflexivity.
  - assert (B2 : b = rev b' ++ [x]) by (rewrite <- (rev_involutive b), B; reflexivity). subst b. rewrite !app_assoc in E. apply app_inj_tail in E as [E _]. apply N. exists a, (rev b'). now rewrite E, app_assoc.
Qed.
Lemma next_line_whole : forall inp acc line rest, ~ has_crlf (rev acc) -> zlen acc <= 4095 -> next_line inp acc = (Some line, rest) ->
  exists raw, rev acc ++ inp = raw ++ crlf ++ rest /\ line = up_to_nul raw /\ whole raw.
Proof.
  induction inp as [|c r IH]; intros acc line rest N M H; [discriminate|]. cbn [next_line] in H.
  assert (GO : (forall l, acc = 13 :: l -> c <> 10) -> (if zlen acc + 1 <? RESPONSE_BUFFER_LEN then next_line r (c :: acc) else (None, r)) = (Some line, rest) ->
    exists raw, rev acc ++ c :: r = raw ++ crlf ++ rest /\ line = up_to_nul raw /\ whole raw).
  { intros D G. destruct (Z.ltb_spec (zlen acc + 1) RESPONSE_BUFFER_LEN) as [Q|Q]; [|discriminate]. unfold RESPONSE_BUFFER_LEN in Q.
    apply IH in G as (raw & E & L & W); [|now apply no_crlf_push|rewrite zlen_cons; lia]. exists raw. split; [|auto]. cbn [rev] in E. rewrite <- app_assoc in E. exact E. }
  destruct acc as [|a acc']; [apply GO; [discriminate|exact H]|]. destruct (Z.eq_dec a 13) as [->|NA].
  - destruct (Z.eqb_spec c 10) as [->|E10]; [|apply GO; [auto|exact H]]. injection H as H <-.
    destruct (utf8_valid (rev acc')) eqn:U; [|discriminate]. injection H as <-. exists (rev acc'). split; [cbn [rev]; rewrite <- app_assoc; reflexivity|]. split; [reflexivity|].
    split; [|split; [exact U|]].
    + intros (x & y & E). apply N. exists x, (y ++ [13]). cbn [rev]. rewrite E, <- !app_assoc. reflexivity.
    + rewrite zlen_cons in M. unfold zlen in *. rewrite rev_length. lia.
  - apply GO; [intros l E; injection E; congruence|]. destruct a as [|p|p]; try exact H. do 4 (destruct p; try exact H). congruence.
Qed.
Lemma no_crlf_nil : ~ has_crlf [].
Proof. intros (a & b & E). destruct a; discriminate. Qed.
Lemma header_lines_whole : forall check ap ae fuel inp w, Z.land (p_flags w) (mask_of ap ae) = 0 -> Z.land (p_flags (header_lines check fuel inp w)) (mask_of ap ae) <> 0 ->
  exists lines raw post, inp = flat_map (fun h => h ++ crlf) lines ++ raw ++ crlf ++ post /\ Forall (fun h => whole h /\ up_to_nul h <> []) lines /\ whole raw /\ telling ap ae (up_to_nul raw).
Proof.
  intros check ap ae. induction fuel as [|f IH]; intros inp w Z0 H; [contradiction|]. cbn [header_lines] in H.
  destruct (next_line inp []) as [[line|] rest] eqn:NL; [|contradiction].
  destruct (next_line_whole _ [] _ _ no_crlf_nil ltac:(vm_compute; discriminate) NL) as (raw & E & L & W). cbn [rev app] in E.
  destruct line as [|c line]; [contradiction|].
  destruct (Z.eq_dec (Z.land (p_flags (header_line check (c :: line) w)) (mask_of ap ae)) 0) as [Z1|NZ].
  - destruct (IH _ _ Z1 H) as (lines & raw2 & post & -> & F & W2 & T). exists (raw :: lines), raw2, post. split; [cbn [flat_map]; rewrite E, <- !app_assoc; reflexivity|].
    split; [constructor; [split; [exact W|congruence]|exact F]|]. auto.
  - exists [], raw, rest. split; [exact E|]. split; [constructor|]. split; [exact W|]. rewrite <- L.
    assert (~ (Z.land (p_flags w) (mask_of ap ae) = 0 /\ ~ telling ap ae (c :: line))) by (intros X; now apply (header_counts check) in X).
    assert (D : telling ap ae (c :: line) \/ ~ telling ap ae (c :: line)) by apply telling_dec. destruct D; auto. tauto.
Qed.
(** Whatever the server sends, a success needs a first line with 101, and one of the headers in the header part: the lines before it are not empty. This is
    C43_accepts_only_partial without what was missing there. *)
Theorem C43_accepts_only : forall check client_match ap ae exts inp, fst (fst (fst (client_handshake check client_match ap ae exts inp))) = U_OK ->
  exists first lines raw post, inp = first ++ crlf ++ flat_map (fun h => h ++ crlf) lines ++ raw ++ crlf ++ post /\ whole first /\ switching (up_to_nul first) /\
    Forall (fun h => whole h /\ up_to_nul h <> []) lines /\ whole raw /\ telling ap ae (up_to_nul raw).
Proof.
  intros check cm ap ae exts inp H. unfold client_handshake in H. destruct (next_line inp []) as [[line|] rest] eqn:NL; [|cbv in H; discriminate].
  destruct (next_line_whole _ [] _ _ no_crlf_nil ltac:(vm_compute; discriminate) NL) as (raw0 & E & L & W). cbn [rev app] in E. pose proof (switching_iff line) as SW.
  destruct (match split_string 32 line with v :: s :: _ => if str_eqb v (bs "HTTP/1.1") then (true, strtol s) else (false, 0) | _ => (false, 0) end) as [http status].
  destruct http; cbn [negb orb andb] in H; [|destruct ((400 <=? status) && (status <=? 499)); discriminate].
  destruct (status =? 101) eqn:ST.
  - apply Z.eqb_eq in ST. subst status. destruct (Z.land _ _ =? 0) eqn:Z0 in H; [change ((400 <=? 101) && (101 <=? 499)) with false in H; discriminate|].
    apply Z.eqb_neq in Z0. destruct (header_lines_whole check ap ae _ rest (mk_wresp 0 None None false) eq_refl Z0) as (lines & raw & post & E2 & F & W2 & T).
    exists raw0, lines, raw, post. rewrite E2 in E. split; [exact E|]. split; [exact W|]. subst line. split; [apply SW; reflexivity|]. auto.
  - cbn [negb] in H. rewrite orb_true_r in H. destruct ((400 <=? status) && (status <=? 499)); discriminate.
Qed.
Print Assumptions C43_accepts_only.
(** a response with a body: the header in it does not count *)
Example C43_ex_body : fst (fst (fst (client_handshake (fun _ => true) (fun _ _ _ => true) false false [] (render (bs "HTTP/1.1 101 ok") [bs "A: b"] ++ bs "Upgrade: websocket" ++ crlf)))) = U_ERROR /\
  fst (fst (fst (client_handshake (fun _ => true) (fun _ _ _ => true) false false [] (render (bs "HTTP/1.1 101 ok") [bs "A: b"; bs "Upgrade: websocket"])))) = U_OK.
Proof. split; vm_compute; reflexivity. Qed.

(** When the header part of the response is not finished, the socket is closed, whatever the result says. *)
Theorem C43_cut : forall check client_match ap ae first hs exts t, line_ok first -> Forall (fun h => line_ok h /\ h <> []) hs -> cut t ->
  snd (client_handshake check client_match ap ae exts (first ++ crlf ++ flat_map (fun h => h ++ crlf) hs ++ t)) = false.
Proof.
  intros check cm ap ae first hs exts t LF FH C. unfold client_handshake. rewrite next_line_ok by exact LF. cbv iota beta zeta.
  destruct (match split_string 32 first with v :: s :: _ => if str_eqb v (bs "HTTP/1.1") then (true, strtol s) else (false, 0) | _ => (false, 0) end) as [http status].
  match goal with |- snd (if ?b then _ else _) = _ => destruct b eqn:B end; [reflexivity|]. apply orb_false_iff in B as [B S]. apply orb_false_iff in B as [H _]. apply negb_false_iff in S, H. subst http. rewrite S. cbn [andb].
  rewrite header_lines_cut by (auto; lia). cbv zeta. cbn [p_extensions p_closed negb]. destruct (p_extensions _) as [[|c x]|]; [reflexivity| |reflexivity].
  destruct (zlen exts =? 0); [reflexivity|]. destruct (coffer_loop _ _ _ _ _) as [[r l] v]. reflexivity.
Qed.
Print Assumptions C43_cut.
(** When the header part is finished and the handshake succeeds, the socket is open. *)
Theorem C43_open : forall check client_match ap ae first hs exts, line_ok first -> Forall (fun h => line_ok h /\ h <> []) hs ->
  fst (fst (fst (client_handshake check client_match ap ae exts (render first hs)))) = U_OK -> snd (client_handshake check client_match ap ae exts (render first hs)) = true.
Proof.
  intros check cm ap ae first hs exts LF FH. rewrite first_line_ok by auto. cbv zeta.
  destruct (match split_string 32 first with v :: s :: _ => if str_eqb v (bs "HTTP/1.1") then (true, strtol s) else (false, 0) | _ => (false, 0) end) as [http status].
  assert (CL : forall hs w, p_closed (fold_left (fun w h => header_line check h w) hs w) = p_closed w).
  { clear. induction hs as [|h hs IH]; intros w; [reflexivity|]. cbn [fold_left]. rewrite IH. unfold header_line. destruct (cut_colon h) as [[k v]|]; [|reflexivity].
    repeat match goal with |- context [if ?b then _ else _] => destruct b end; reflexivity. }
  rewrite CL. cbn [p_closed negb]. match goal with |- context [if ?b then _ else _] => destruct b end; [destruct ((400 <=? status) && (status <=? 499)); discriminate|].
  destruct (p_extensions _) as [[|c x]|]; [reflexivity| |reflexivity]. destruct (zlen exts =? 0); [reflexivity|]. destruct (coffer_loop _ _ _ _ _) as [[r l] v]. reflexivity.
Qed.
Print Assumptions C43_open.

(** C43 fails: the server closes the connection in the middle of the header part, the socket of the client is closed, and the handshake is a success all the
    same (u_websocket.c:960-965 leaves the loop, 986 sets U_OK). *)
Theorem C43_cut_refuted : exists first hs t, line_ok first /\ Forall (fun h => line_ok h /\ h <> []) hs /\ cut t /\
  forall check client_match ap ae, client_handshake check client_match ap ae [] (first ++ crlf ++ flat_map (fun h => h ++ crlf) hs ++ t) = (U_OK, [], 0, false).
Proof.
  exists (bs "HTTP/1.1 101 Switching Protocols"), [bs "Upgrade: websocket"], (bs "Sec-WebSo").
  split; [split; [repeat constructor; vm_compute; discriminate|]; split; vm_compute; [reflexivity|discriminate]|]. split.
  - constructor; [|constructor]. split; [|discriminate]. split; [repeat constructor; vm_compute; discriminate|]. split; vm_compute; [reflexivity|discriminate].
  - split; [left; repeat constructor; vm_compute; discriminate|]. intros check cm [] []; vm_compute; reflexivity.
Qed.
Print Assumptions C43_cut_refuted.
(** a line that is one byte too long, and the longest one that is not *)
Example C43_ex_long : cut (repeat 97 (Z.to_nat 4095) ++ crlf ++ crlf) /\ line_ok (repeat 97 (Z.to_nat 4094)).
Proof.
  assert (R : forall n (P : Z -> Prop), P 97 -> Forall P (repeat 97 n)) by (intros n P H; induction n; cbn [repeat]; constructor; auto). split.
  - right. eexists _, _. split; [reflexivity|]. split; [apply R; discriminate|]. vm_compute. discriminate.
  - split; [apply R; repeat split; discriminate|]. split; vm_compute; [reflexivity|discriminate].
Qed.
