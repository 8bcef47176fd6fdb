(** C70-C73: the opening of a websocket by a client. *)
From Coq Require Import String ZArith Bool List Lia.
From Verif Require Import Base BaseFacts Dec UMapModel UMapSpec SMap SMapCase StrModel YuarelModel YuarelSpec YuarelProofs YuarelProps HttpText NegoModel NegoSpec SendProps OpenModel OpenSpec OpenProofs.
Import ListNotations.
Open Scope Z_scope.

Section Props.
Variable w : world.
Hypothesis base64_ok : forall s e, w_base64 w s = Some e -> cstr e /\ zlen e + 9 < two64.
Definition opened (cb : bool) (r : creq) (h : slot) := open_client (w_reachable w) (w_answers w) (w_check w) (w_match w) (w_base64 w) (w_thread w) cb r h.

(** the request of the caller holds these texts *)
Definition holds (r : creq) (url : option str) (q d : smap) (verb protocol : str) : Prop :=
  c_url r = url /\ repr (c_params r) q /\ repr (c_headers r) d /\ c_verb r = Some verb /\ c_protocol r = Some protocol.
(** a handler whose websocket, if there is one, is not released *)
Definition usable (h : slot) : Prop := match h with Empty | Live _ => True | _ => False end.

Lemma known_of : forall u, known (parts_of u) = uses_tls (u_scheme u).
Proof. reflexivity. Qed.
Lemma port_used_of : forall u tls, port_ok u -> port_used (parts_of u) tls = port_of u tls.
Proof.
  intros u tls P. unfold port_used, port_of, port_ok in *. unfold parts_of. cbn [p_port]. destruct (u_port u) as [n|]; [|reflexivity]. destruct (n =? 0) eqn:E; [apply Z.eqb_eq in E; lia|reflexivity].
Qed.
Lemma port_of_small : forall u (tls : bool), port_ok u -> 0 < port_of u tls < 65536.
Proof. intros u tls P. unfold port_of, port_ok in *. destruct (u_port u); [exact P|]. destruct tls; lia. Qed.

Lemma url_opened : forall u r tls h d q v pr, url_ok u -> zlen (url_text u) < two32 -> port_ok u -> uses_tls (u_scheme u) = Some tls -> usable h -> holds r (Some (url_text u)) q d v pr ->
  let t := mk_target tls (u_host u) (port_of u tls) (if tls && c_check r then Some (u_host u) else None) in
  let d' := with_auth (w_base64 w) (parts_of u) d in
  let ts := texts v pr (u_host u) (port_of u tls) (u_path u) (u_query u) q d' in
  exists m, repr m d' /\ opened true r h =
    if w_reachable w t then
      let '(ret, exts', _, _) := client_handshake (w_check w (set_headers r m)) (w_match w) (shas d' (bs "Sec-WebSocket-Protocol")) (shas d' (bs "Sec-WebSocket-Extension")) (match h with Live l => l | _ => [] end) (w_answers w t ts) in
      let evs := Connect t :: map Sent ts in
      if negb (ret =? U_OK) then Ret ((if tls then U_ERROR else ret), Gone, set_headers r m, evs)
      else if w_thread w then Ret (U_OK, Live exts', set_headers r m, evs) else Ret (U_ERROR, Gone, set_headers r m, evs)
    else Ret (U_ERROR, Gone, set_headers r m, [Connect t]).
Proof.
  intros u r tls h d q v pr U L P T H (H1 & H2 & H3 & H4 & H5). cbv zeta.
  destruct (open_client_eq (w_reachable w) (w_answers w) (w_check w) (w_match w) (w_base64 w) (w_thread w) base64_ok r h (url_text u) (parts_of u) tls (u_host u) d q v pr
    H1 (url_text_cstr u U) L (parse_url_text u U) T eq_refl H3 H2 H4 H5) as (m & R & E). cbv zeta in E. exists m. split; [exact R|]. unfold opened. rewrite E.
  assert (G : goal_of r (parts_of u) (u_host u) tls = mk_target tls (u_host u) (port_of u tls) (if tls && c_check r then Some (u_host u) else None)).
  { unfold goal_of. rewrite (port_used_of u tls P), Z.mod_small; [reflexivity|]. pose proof (port_of_small u tls P). lia. }
  rewrite G, (port_used_of u tls P). destruct h; try destruct H; reflexivity.
Qed.

(** C70: the connection goes to the host and the port of the URL, with TLS for https and wss, the certificate being checked for this host *)
Theorem C70_connects_partial : forall u r tls h d q v pr, url_ok u -> zlen (url_text u) < two32 -> port_ok u -> uses_tls (u_scheme u) = Some tls -> usable h -> holds r (Some (url_text u)) q d v pr ->
  exists ret h' r' sent, opened true r h = Ret (ret, h', r', Connect (mk_target tls (u_host u) (port_of u tls) (if tls && c_check r then Some (u_host u) else None)) :: map Sent sent).
Proof.
  intros u r tls h d q v pr U L P T H HO. destruct (url_opened u r tls h d q v pr U L P T H HO) as (m & _ & E). cbv zeta in E. rewrite E. clear E.
  set (t := mk_target _ _ _ _). destruct (w_reachable w t); [|eexists _, _, _, []; reflexivity].
  destruct (client_handshake _ _ _ _ _ _) as [[[ret exts'] rsv] op]. destruct (negb (ret =? U_OK)); [repeat eexists|]. destruct (w_thread w); repeat eexists.
Qed.
(** and nowhere for anything else *)
Theorem C70_no_connection : forall r h, (match c_url r with None => True | Some s => cstr s /\ zlen s < two32 /\ match parse_text s with Some p => match p_scheme p with Some x => uses_tls x = None | None => True end | None => True end end) ->
  opened true r h = Ret (U_ERROR_PARAMS, h, r, []).
Proof.
  intros r h H. apply open_client_refused. destruct (c_url r) as [s|]; [|exact I]. destruct H as (C & L & H). split; [exact C|split; [exact L|]]. destruct (parse_text s) as [p|]; [|exact I]. unfold known. destruct (p_scheme p); auto.
Qed.

(** ** C71 *)
Definition plain_url (u : url) : Prop := u_user u = None /\ one_line (u_host u) /\ hd 0 (u_host u) <> 32 /\ hd 0 (u_host u) <> 9 /\ oall one_line (u_path u) /\ oall one_line (u_query u).
Lemma host_text : forall u tls, url_ok u -> port_ok u -> plain_url u -> u_host u ++ port_text (port_of u tls) = u_host u ++ bs ":" ++ udec (port_of u tls) /\ tight (u_host u ++ port_text (port_of u tls)).
Proof.
  intros u tls U P (_ & _ & H1 & H2 & _). pose proof (port_of_small u tls P) as S. unfold port_text. destruct (port_of u tls =? 0) eqn:E; [apply Z.eqb_eq in E; lia|]. cbn [negb]. unfold sdec.
  destruct (port_of u tls <? 0) eqn:N; [apply Z.ltb_lt in N; lia|]. split; [reflexivity|]. destruct (udec_ok (port_of u tls)) as (F & _ & NE); [lia|].
  destruct U as (_ & _ & _ & _ & HN & _). rewrite Forall_forall in F. assert (LI : digit (last (udec (port_of u tls)) 0)) by (apply F; now apply last_in).
  apply tight_cat; [exact HN|discriminate|exact H1|exact H2| |]; change (bs ":" ++ udec (port_of u tls)) with (58 :: udec (port_of u tls)); intros Q;
    (replace (last (58 :: udec (port_of u tls)) 0) with (last (udec (port_of u tls)) 0) in Q by (destruct (udec (port_of u tls)); [congruence|reflexivity])); rewrite Q in LI; unfold digit in LI; lia.
Qed.
Theorem C71_request_read_partial : forall u r tls h d q v pr ret h' r' evs, url_ok u -> zlen (url_text u) < two32 -> port_ok u -> uses_tls (u_scheme u) = Some tls -> usable h -> holds r (Some (url_text u)) q d v pr ->
  plain_url u -> one_line v -> one_line pr -> Forall field_ok d -> names_apart d -> Forall (fun f => one_line (snd f) /\ tight (snd f)) (entry_of (bs "Origin") q) ->
  opened true r h = Ret (ret, h', r', evs) ->
  exists t sent, evs = Connect t :: map Sent sent /\
    if w_reachable w t then read_message (concat sent) = Some (v ++ bs " " ++ uri u ++ bs " HTTP/" ++ pr, handshake_fields u tls q d, []) else sent = [].
Proof.
  intros u r tls h d q v pr ret h' r' evs U L P T H HO PL OV OP FD ND OO EO. destruct (url_opened u r tls h d q v pr U L P T H HO) as (m & _ & E). cbv zeta in E.
  assert (EA : with_auth (w_base64 w) (parts_of u) d = d) by (unfold with_auth, parts_of; destruct PL as (-> & _); reflexivity). rewrite EA in E. rewrite E in EO. clear E.
  set (t := mk_target _ _ _ _) in *. set (ts := texts _ _ _ _ _ _ _ _) in *.
  assert (RD : read_message (concat ts) = Some (v ++ bs " " ++ uri u ++ bs " HTTP/" ++ pr, handshake_fields u tls q d, [])).
  { destruct (host_text u tls U P PL) as [HT1 HT2]. destruct PL as (_ & P1 & _ & _ & P2 & P3). unfold ts. rewrite texts_read by assumption. rewrite HT1. unfold handshake_fields, uri, value. rewrite <- !app_assoc. reflexivity. }
  destruct (w_reachable w t) eqn:RE.
  - destruct (client_handshake _ _ _ _ _ _) as [[[c exts'] rsv] op]. exists t, ts. rewrite RE. split; [|exact RD].
    destruct (negb (c =? U_OK)); [|destruct (w_thread w)]; now injection EO as _ _ _ <-.
  - exists t, []. rewrite RE. split; [|reflexivity]. now injection EO as _ _ _ <-.
Qed.

(** ** C72 *)
(** The opening says U_OK exactly when the server was reached, its answer accepted and the thread started; the handler then has a websocket. *)
Theorem C72_opened_iff : forall u r tls h d q v pr, url_ok u -> zlen (url_text u) < two32 -> port_ok u -> uses_tls (u_scheme u) = Some tls -> usable h -> holds r (Some (url_text u)) q d v pr ->
  exists ret h' r' t sent, opened true r h = Ret (ret, h', r', Connect t :: map Sent sent) /\
    (ret = U_OK <-> w_reachable w t = true /\ w_thread w = true /\
       exists exts' rsv op, client_handshake (w_check w r') (w_match w) (shas (with_auth (w_base64 w) (parts_of u) d) (bs "Sec-WebSocket-Protocol")) (shas (with_auth (w_base64 w) (parts_of u) d) (bs "Sec-WebSocket-Extension"))
         (match h with Live l => l | _ => [] end) (w_answers w t sent) = (U_OK, exts', rsv, op)) /\
    (ret = U_OK <-> exists e, h' = Live e).
Proof.
  intros u r tls h d q v pr U L P T H HO. destruct (url_opened u r tls h d q v pr U L P T H HO) as (m & _ & E). cbv zeta in E. rewrite E. clear E.
  set (t := mk_target _ _ _ _). destruct (w_reachable w t) eqn:RE.
  - set (ts := texts _ _ _ _ _ _ _ _). destruct (client_handshake _ _ _ _ _ _) as [[[c exts'] rsv] op] eqn:CH. destruct (c =? U_OK) eqn:C; cbn [negb].
    + apply Z.eqb_eq in C. subst c. destruct (w_thread w) eqn:TH.
      * exists U_OK, (Live exts'), (set_headers r m), t, ts. split; [reflexivity|]. split; [|split; eauto]. split; [|reflexivity]. intros _. split; [exact RE|split; [reflexivity|]]. rewrite CH. eauto.
      * exists U_ERROR, Gone, (set_headers r m), t, ts. split; [reflexivity|]. split; split; try discriminate; [intros (_ & X & _); discriminate|intros (e & X); discriminate].
    + exists (if tls then U_ERROR else c), Gone, (set_headers r m), t, ts. split; [reflexivity|].
      assert (N : (if tls then U_ERROR else c) <> U_OK) by (destruct tls; [discriminate|now apply Z.eqb_neq]).
      split; split; try (intros X; contradiction); [|intros (e & X); discriminate]. rewrite CH. intros (_ & _ & a & b & o & X). injection X as X _ _ _. rewrite X in C. discriminate.
  - exists U_ERROR, Gone, (set_headers r m), t, []. split; [reflexivity|]. split; split; try discriminate; [rewrite RE; intros (X & _); discriminate|intros (e & X); discriminate].
Qed.
End Props.

(** A handler that is used in the order it is meant for (OpenSpec) never leads to undefined behaviour. *)
Definition kind_of (c : call) : kind := match c with Open _ _ _ => KOpen | Signal => KSignal | Status _ => KStatus | Wait _ => KWait | Close _ => KClose end.
Definition well_done (c : call) (z : Z) : bool := match c with Wait _ => z =? 1 | _ => z =? U_OK end.
Definition ready (c : call) : Prop :=
  match c with
  | Open w _ r => (forall s e, w_base64 w s = Some e -> cstr e /\ zlen e + 9 < two64) /\
      exists url q d v pr, holds r url q d v pr /\ match url with Some s => cstr s /\ zlen s < two32 | None => True end
  | _ => True
  end.
Inductive lives : life -> slot -> Prop :=
| lives_fresh : forall h, usable h -> lives Fresh h
| lives_call : forall l h c z h', lives l h -> may l (kind_of c) = true -> ready c -> perform c h = Ret (z, h') -> lives (after l (kind_of c) (well_done c z)) h'.

Lemma scheme_host : forall s p, parse_text s = Some p -> p_scheme p <> None -> p_host p <> None.
Proof.
  intros s p. unfold parse_text. destruct (cut 35 s) as [s1 fr]. destruct (cut 63 s1) as [s2 qu].
  assert (G : forall p, match cut 58 s2 with
      | (scheme, Some (47 :: 47 :: r)) =>
          if nonempty scheme then
            let (a, path) := cut 47 r in
            match user_parts a with
            | Some (n, p, h) => match host_parts h path with Some (host, port) => Some (mk_parts (Some scheme) n p (Some host) port path qu fr) | None => None end
            | None => None
            end
          else None
      | _ => None
      end = Some p -> p_host p <> None).
  { intros p0. destruct (cut 58 s2) as [sc o]. destruct o as [[|a1 [|a2 r]]|]; [discriminate| | |discriminate]. { destruct a1 as [|a1|a1]; repeat (discriminate || destruct a1 as [a1|a1|]). }
    intros H. assert (a1 = 47 /\ a2 = 47) as [-> ->].
    { revert H. destruct a1 as [|a1|a1]; try discriminate. do 6 (destruct a1 as [a1|a1|]; try discriminate). destruct a2 as [|a2|a2]; try discriminate. do 6 (destruct a2 as [a2|a2|]; try discriminate). auto. }
    revert H. destruct (nonempty sc); [|discriminate]. destruct (cut 47 r) as [a pa]. destruct (user_parts a) as [[[n pw] h]|]; [|discriminate]. destruct (host_parts h pa) as [[ho po]|]; [|discriminate].
    intros H. injection H as <-. discriminate. }
  intros H S. destruct s2 as [|c s2]; [exact (G p H)|]. destruct (Z.eq_dec c 47) as [->|NE].
  - injection H as <-. now elim S.
  - apply (G p). clear G. revert H. destruct c as [|c|c]; auto. do 6 (destruct c as [c|c|]; auto). congruence.
Qed.

Lemma open_ok : forall w cb r h, ready (Open w cb r) -> usable h -> exists z h' r' evs, opened w cb r h = Ret (z, h', r', evs) /\ (if z =? U_OK then exists e, h' = Live e else True).
Proof.
  intros w cb r h (B & url & q & d & v & pr & HO & U) H. unfold opened. destruct cb; [|eexists _, _, _, _; split; [reflexivity|exact I]].
  destruct HO as (H1 & H2 & H3 & H4 & H5).
  assert (REF : (match c_url r with None => True | Some s => cstr s /\ zlen s < two32 /\ match parse_text s with Some p => known p = None | None => True end end) ->
    exists z h' r' evs, open_client (w_reachable w) (w_answers w) (w_check w) (w_match w) (w_base64 w) (w_thread w) true r h = Ret (z, h', r', evs) /\ (if z =? U_OK then exists e, h' = Live e else True)).
  { intros X. rewrite open_client_refused by exact X. eexists _, _, _, _. split; [reflexivity|exact I]. }
  rewrite H1 in REF. destruct url as [s|]; [|apply REF; exact I]. destruct U as [C L]. destruct (parse_text s) as [p|] eqn:PT; [|apply REF; auto]. destruct (known p) as [tls|] eqn:K; [|apply REF; auto]. clear REF.
  destruct (p_host p) as [host|] eqn:PH; [|exfalso; apply (scheme_host s p PT); [|exact PH]; intros X; unfold known in K; rewrite X in K; discriminate].
  destruct (open_client_eq (w_reachable w) (w_answers w) (w_check w) (w_match w) (w_base64 w) (w_thread w) B r h s p tls host d q v pr H1 C L PT K PH H3 H2 H4 H5) as (m & _ & E). cbv zeta in E. rewrite E. clear E.
  set (t := goal_of r p host tls). destruct (client_handshake _ _ _ _ _ _) as [[[c e'] rs] op].
  assert (G : exists z h' r' evs,
    (if w_reachable w t then if negb (c =? U_OK) then Ret (if tls then U_ERROR else c, Gone, set_headers r m, Connect t :: map Sent (texts v pr host (port_used p tls) (p_path p) (p_query p) q (with_auth (w_base64 w) p d)))
       else if w_thread w then Ret (U_OK, Live e', set_headers r m, Connect t :: map Sent (texts v pr host (port_used p tls) (p_path p) (p_query p) q (with_auth (w_base64 w) p d)))
       else Ret (U_ERROR, Gone, set_headers r m, Connect t :: map Sent (texts v pr host (port_used p tls) (p_path p) (p_query p) q (with_auth (w_base64 w) p d)))
     else Ret (U_ERROR, Gone, set_headers r m, [Connect t])) = Ret (z, h', r', evs) /\ (if z =? U_OK then exists e, h' = Live e else True)).
  { destruct (w_reachable w t); [|eexists _, _, _, _; split; [reflexivity|exact I]]. destruct (c =? U_OK) eqn:CE; cbn [negb].
    - destruct (w_thread w); eexists _, _, _, _; (split; [reflexivity|]); [eexists; reflexivity|exact I].
    - eexists _, _, _, _; split; [reflexivity|]. destruct tls; [exact I|rewrite CE; exact I]. }
  destruct h; try destruct H; exact G.
Qed.

Lemma lives_slot : forall l h, lives l h -> match l with Fresh => usable h | Opened => exists e, h = Live e | Over => True end.
Proof.
  induction 1 as [h H|l h c z h' L IH M R P]; [exact H|].
  destruct c as [w cb r| |st|st|st], l; try discriminate M; cbn [kind_of after well_done].
  - destruct (open_ok w cb r h R IH) as (z0 & h0 & r0 & evs & E & G). unfold opened in E. cbn [perform] in P. rewrite E in P. cbn [bind] in P. injection P as -> ->. destruct (z =? U_OK); [exact G|exact I].
  - destruct IH as [e ->]. injection P as _ <-. eauto.
  - destruct IH as [e ->]. injection P as _ <-. eauto.
  - destruct IH as [e ->]. injection P as <- <-. destruct (st =? 1); [exact I|eauto].
  - destruct (z =? U_OK) eqn:Z0; [exact I|]. destruct h; try destruct IH; cbn in P; [injection P as <- <-; discriminate|]. destruct (st =? 1); cbn in P; injection P as <- <-; [discriminate|exact I].
  - destruct (z =? U_OK) eqn:Z0; [exact I|]. destruct IH as [e ->]. cbn in P. destruct (st =? 1); cbn in P; injection P as <- <-; [discriminate|eauto].
Qed.
Theorem C72_ordered_use_partial : forall l h c, lives l h -> may l (kind_of c) = true -> ready c -> exists z h', perform c h = Ret (z, h').
Proof.
  intros l h c L M R. pose proof (lives_slot l h L) as H. destruct c as [w cb r| |st|st|st], l; try discriminate M.
  - destruct (open_ok w cb r h R H) as (z0 & h0 & r0 & evs & E & G). unfold opened in E. cbn [perform]. rewrite E. eexists _, _. reflexivity.
  - destruct H as [e ->]. eexists _, _. reflexivity.
  - destruct H as [e ->]. eexists _, _. reflexivity.
  - destruct H as [e ->]. eexists _, _. reflexivity.
  - destruct h; try destruct H; cbn; [|destruct (st =? 1)]; eexists _, _; reflexivity.
  - destruct H as [e ->]. cbn. destruct (st =? 1); eexists _, _; reflexivity.
Qed.

(** ** C73 *)
Definition as_headers (fs : list (str * str)) : smap := map (fun f => (fst f, Some (snd f))) fs.
(** names the two functions write themselves *)
Definition reserved : list str := [bs "Host"; bs "Upgrade"; bs "Connection"; bs "Origin"] ++ own_names.
Definition line_value (o : option str) : Prop := match o with Some s => cstr s /\ zlen s + 2 < two64 /\ one_line s /\ tight s | None => True end.

Lemma single_at : forall l1 k v l2 n, same_name k n -> (forall p, In p (l1 ++ l2) -> ~ same_name (fst p) n) -> single (as_headers (l1 ++ (k, v) :: l2)) n v.
Proof.
  intros l1 k v l2 n S N. exists (as_headers l1), k, (Some v), (as_headers l2). split; [unfold as_headers; now rewrite map_app|]. split; [exact S|split; [reflexivity|]].
  intros p I. unfold as_headers in I. rewrite <- map_app in I. apply in_map_iff in I as (x & <- & I). exact (N x I).
Qed.
Definition lnames (fs : list (str * str)) : list str := map (fun f => lowers (fst f)) fs.
Lemma single_member : forall fs k v n, NoDup (lnames fs) -> In (k, v) fs -> same_name k n -> single (as_headers fs) n v.
Proof.
  intros fs k v n N I S. apply in_split in I as (l1 & l2 & ->). apply single_at; [exact S|]. intros p I Q. unfold lnames in N. rewrite map_app in N. cbn [map fst] in N.
  apply NoDup_remove_2 in N. apply N. rewrite <- map_app. replace (lowers k) with (lowers (fst p)) by (unfold same_name in *; congruence). now apply (in_map (fun f : str * str => lowers (fst f))).
Qed.
Lemma lnames_cons : forall k v fs, NoDup (lnames fs) -> ~ In (lowers k) (lnames fs) -> NoDup (lnames ((k, v) :: fs)).
Proof. intros. cbn [lnames map fst]. now constructor. Qed.
Lemma fresh_lnames : forall n d, fresh_name n d -> ~ In (lowers n) (lnames (fields_of d)).
Proof. intros n d F I. unfold lnames, fields_of in I. rewrite map_map in I. apply in_map_iff in I as (p & E & I). cbn [fst] in E. unfold fresh_name in F. rewrite Forall_forall in F. now apply F in I. Qed.
Lemma fields_also : forall n s d, In (n, s) (fields_of (also n (Some s) d)).
Proof. intros. unfold also, fields_of. rewrite map_app, in_app_iff. right. now left. Qed.
Lemma fields_keep : forall f n v d, In f (fields_of d) -> In f (fields_of (also n v d)).
Proof. intros f n v d I. unfold also. destruct v; [|exact I]. unfold fields_of in *. rewrite map_app, in_app_iff. now left. Qed.

(** C73: the request of ulfius_set_websocket_request, sent by ulfius_open_websocket_client_connection, is a valid request for a websocket (NegoSpec; by
    C42 the server accepts exactly these, when it agrees on a protocol and on extensions) and it carries the key. *)
Theorem C73_valid_request_partial : forall w u r tls d q key agent protocol extensions,
  (forall s e, w_base64 w s = Some e -> cstr e /\ zlen e + 9 < two64) ->
  url_ok u -> zlen (url_text u) < two32 -> port_ok u -> plain_url u -> uses_tls (u_scheme u) = Some tls ->
  repr (c_headers r) d -> repr (c_params r) q -> Forall field_ok d -> names_apart d -> Forall (fun n => fresh_name n d) reserved ->
  Forall (fun f => one_line (snd f) /\ tight (snd f)) (entry_of (bs "Origin") q) ->
  line_value (Some key) -> line_value (Some agent) -> line_value protocol -> line_value extensions ->
  exists r1, set_websocket_request (Some key) agent r (url_text u) protocol extensions = Ret (U_OK, r1) /\
    forall h ret h' r' evs, usable h -> opened w true r1 h = Ret (ret, h', r', evs) ->
    exists t sent, evs = Connect t :: map Sent sent /\
      (w_reachable w t = true -> exists fields, read_message (concat sent) = Some (bs "GET " ++ uri u ++ bs " HTTP/1.1", fields, []) /\
        valid_request (as_headers fields) (Some (bs "HTTP/1.1")) (Some (bs "GET")) key /\
        (forall p, protocol = Some p -> single (as_headers fields) (bs "Sec-WebSocket-Protocol") p) /\
        (forall x, extensions = Some x -> single (as_headers fields) (bs "Sec-WebSocket-Extensions") x)).
Proof.
  intros w u r tls d q key agent protocol extensions B U L P PL T RH RP FD ND FR OO LK LA LP LX.
  assert (OV : forall o, line_value o -> ovalue_ok o) by (intros [s|] H; [destruct H as (H1 & H2 & _); split; assumption|exact I]).
  assert (FRN : forall n, In n reserved -> fresh_name n d) by (intros n I; rewrite Forall_forall in FR; auto).
  destruct (set_websocket_request_eq r d key agent (url_text u) protocol extensions RH) as (m & E & R).
  { apply Forall_forall. intros n I. apply FRN. unfold reserved. apply in_app_iff. now right. }
  1-4: now apply OV.
  eexists. split; [exact E|]. intros h ret h' r' evs H EO. set (D := made d key agent protocol extensions) in *.
  assert (FK : forall n (v : option str), (n <> [] /\ ~ In 58 n /\ one_line n) -> line_value v -> v <> None -> field_ok (n, v)).
  { intros n [s|] (N1 & N2 & N3) LV NV; [|congruence]. destruct LV as (_ & _ & V1 & V2). repeat split; try assumption; try apply V2; cbn [snd value]; apply V2. }
  assert (NM : forall n, In n own_names -> n <> [] /\ ~ In 58 n /\ one_line n).
  { intros n I. assert (Q : forallb (fun n => negb (str_eqb n []) && forallb (fun c => negb (c =? 58) && negb (c =? 13)) n) own_names = true) by reflexivity. rewrite forallb_forall in Q. apply Q in I. apply andb_true_iff in I as [I1 I2].
    split; [intros ->; discriminate|]. rewrite forallb_forall in I2. split; intros X; apply I2 in X; discriminate. }
  assert (FDD : Forall field_ok D).
  { unfold D, made. repeat apply ok_also; try exact FD; intros NV; apply FK; try assumption; try (apply NM; cbn; tauto). split; [now apply cstrb_true|split; [reflexivity|split; [intros X; cbn in X; intuition discriminate|repeat split; discriminate]]]. }
  assert (NDD : names_apart D).
  { unfold D, made. repeat apply apart_also; try exact ND; repeat apply fresh_also; try discriminate; apply FRN; cbn; tauto. }
  assert (FRD : forall n, In n [bs "Host"; bs "Upgrade"; bs "Connection"; bs "Origin"] -> fresh_name n D).
  { intros n I. unfold D, made. repeat apply fresh_also; [apply FRN; unfold reserved; apply in_app_iff; now left|..]; cbn [In] in I; destruct I as [<-|[<-|[<-|[<-|[]]]]]; discriminate. }
  assert (HO : holds (mk_creq (Some (bs "GET")) (Some (bs "1.1")) (Some (url_text u)) (c_params r) m (c_check r)) (Some (url_text u)) q D (bs "GET") (bs "1.1")).
  { unfold holds. cbn [c_url c_params c_headers c_verb c_protocol]. repeat split; assumption. }
  assert (O1 : one_line (bs "GET")) by (intros X; cbn in X; intuition discriminate). assert (O2 : one_line (bs "1.1")) by (intros X; cbn in X; intuition discriminate).
  destruct (C71_request_read_partial w B u _ tls h D q (bs "GET") (bs "1.1") ret h' r' evs U L P T H HO PL O1 O2 FDD NDD OO EO) as (t & sent & E1 & E2).
  exists t, sent. split; [exact E1|]. intros RE. rewrite RE in E2. exists (handshake_fields u tls q D). split; [exact E2|].
  assert (NDF : NoDup (lnames (handshake_fields u tls q D))).
  { unfold handshake_fields. assert (NB : NoDup (lnames (fields_of D))) by (unfold lnames, fields_of; rewrite map_map; exact NDD).
    assert (A : lnames (entry_of (bs "Origin") q) = [] \/ lnames (entry_of (bs "Origin") q) = [lowers (bs "Origin")]) by (unfold entry_of; destruct (find _ q); auto).
    unfold lnames in *. rewrite !map_app. cbn [map fst app].
    assert (X : forall n, In n [bs "Host"; bs "Upgrade"; bs "Connection"; bs "Origin"] -> ~ In (lowers n) (map (fun f : str * str => lowers (fst f)) (fields_of D))) by (intros n I; exact (fresh_lnames n D (FRD n I))).
    assert (X1 := X _ (or_introl eq_refl)). assert (X2 := X _ (or_intror (or_introl eq_refl))). assert (X3 := X _ (or_intror (or_intror (or_introl eq_refl)))). assert (X4 := X _ (or_intror (or_intror (or_intror (or_introl eq_refl))))).
    generalize dependent (map (fun f : str * str => lowers (fst f)) (fields_of D)). intros B0 NB X X1 X2 X3 X4.
    destruct A as [A|A]; rewrite A; cbn [app]; repeat constructor; try assumption; cbn [In]; intuition discriminate. }
  assert (INF : forall f, In f (fields_of D) -> In f (handshake_fields u tls q D)) by (intros f I; unfold handshake_fields; rewrite !in_app_iff; auto).
  split; [constructor|split].
  - reflexivity.
  - reflexivity.
  - exists (bs "websocket"). split; [apply (single_member _ (bs "Upgrade")); [exact NDF|right; now left|reflexivity]|]. exists [], (bs "websocket"), []. split; reflexivity.
  - exists (bs "Upgrade"). split; [apply (single_member _ (bs "Connection")); [exact NDF|right; right; now left|reflexivity]|]. exists [], (bs "Upgrade"), []. split; reflexivity.
  - apply (single_member _ (bs "Sec-WebSocket-Version")); [exact NDF| |reflexivity]. apply INF. unfold D, made. do 2 apply fields_keep. apply fields_also.
  - apply (single_member _ (bs "Sec-WebSocket-Key")); [exact NDF| |reflexivity]. apply INF. unfold D, made. apply fields_also.
  - intros p ->. apply (single_member _ (bs "Sec-WebSocket-Protocol")); [exact NDF| |reflexivity]. apply INF. unfold D, made. do 4 apply fields_keep. apply fields_also.
  - intros x ->. apply (single_member _ (bs "Sec-WebSocket-Extensions")); [exact NDF| |reflexivity]. apply INF. unfold D, made. do 3 apply fields_keep. apply fields_also.
Qed.

(** ** Examples and what does not hold *)
Definition up : world := mk_world (fun _ => true) (fun _ _ => []) (fun _ _ => true) (fun _ _ _ => true) (fun s => Some (bs "b64")) true.
Definition down : world := mk_world (fun _ => false) (fun _ _ => []) (fun _ _ => true) (fun _ _ _ => true) (fun s => Some (bs "b64")) true.
Definition ask (url : str) (h : smap) : creq := mk_creq (Some (bs "GET")) (Some (bs "1.1")) (Some url) u_map_init (map_of h) true.
Definition ex_place : url := mk_url (bs "WSS") None (bs "example.com") (Some 8443) (Some (bs "chat")) (Some (bs "a=1")) (Some (bs "top")).
Lemma ex_place_ok : url_ok ex_place.
Proof. unfold url_ok, ex_place. cbn [u_scheme u_user u_host u_port u_path u_query u_fragment oall]. assert (W : forall cs s, forallb (fun c => negb (existsb (Z.eqb c) s)) (bs cs) && cstrb s = true -> without cs s).
  { intros cs s H. apply andb_true_iff in H as [H1 H2]. split; [now apply cstrb_true|]. rewrite forallb_forall in H1. apply Forall_forall. intros c I J. apply H1 in I. apply negb_true_iff in I. assert (X : existsb (Z.eqb c) s = true) by (apply existsb_exists; exists c; split; [exact J|apply Z.eqb_refl]). congruence. }
  repeat split; try discriminate; try (apply W; reflexivity); try lia; try (now apply cstrb_true). Qed.
Example C70_example : url_ok ex_place /\ port_ok ex_place /\ uses_tls (u_scheme ex_place) = Some true /\ holds (ask (url_text ex_place) []) (Some (url_text ex_place)) [] [] (bs "GET") (bs "1.1") /\
  exists ret h r sent, opened up true (ask (url_text ex_place) []) Empty = Ret (ret, h, r, Connect (mk_target true (bs "example.com") 8443 (Some (bs "example.com"))) :: map Sent sent).
Proof. split; [exact ex_place_ok|]. split; [split; reflexivity|]. split; [reflexivity|]. split; [repeat split; apply repr_init|]. vm_compute. eexists _, _, _, [_; _; _; _; _]. reflexivity. Qed.
Example C70_example_refused : exists p, parse_text (bs "ftp://example.com/") = Some p /\ uses_tls (bs "ftp") = None /\ p_scheme p = Some (bs "ftp").
Proof. eexists. split; [vm_compute; reflexivity|split; reflexivity]. Qed.
(** C70 in full also wants a port that is not one of TCP to be refused. It is taken modulo 65536, and port 0 is replaced by the port of the scheme. *)
Theorem C70_port_refuted :
  (exists ret h r sent, opened up true (ask (bs "ws://h:65616/") []) Empty = Ret (ret, h, r, Connect (mk_target false (bs "h") 80 None) :: map Sent sent)) /\
  (exists ret h r sent, opened up true (ask (bs "wss://h:0/") []) Empty = Ret (ret, h, r, Connect (mk_target true (bs "h") 443 (Some (bs "h"))) :: map Sent sent)).
Proof. split; vm_compute; eexists _, _, _, [_; _; _; _; _]; reflexivity. Qed.

Definition sent_of (e : outcome (Z * slot * creq * list event)) : str :=
  match e with Ret (_, _, _, evs) => concat (map (fun e => match e with Sent s => s | Connect _ => [] end) evs) | UB _ => [] end.
Definition ex_headers : smap := [(bs "X-A", Some (bs "1")); (bs "X-B", None)].
Example C71_example : plain_url ex_place /\ Forall field_ok ex_headers /\ names_apart ex_headers /\ repr (map_of ex_headers) ex_headers /\
  read_message (sent_of (opened up true (ask (url_text ex_place) ex_headers) Empty)) =
    Some (bs "GET /chat?a=1 HTTP/1.1", [(bs "Host", bs "example.com:8443"); (bs "Upgrade", bs "websocket"); (bs "Connection", bs "Upgrade"); (bs "X-A", bs "1"); (bs "X-B", [])], []).
Proof.
  split; [|split; [|split; [|split]]].
  - repeat split; try discriminate; intros X; cbn in X; intuition discriminate.
  - repeat constructor; try discriminate; intros X; cbn in X; intuition discriminate.
  - repeat constructor; intros X; cbn in X; intuition discriminate.
  - exact (repr_map_of ex_headers eq_refl).
  - vm_compute. reflexivity.
Qed.
(** Without the conditions on the headers: two names that differ in their case get the value of the first one, *)
Theorem C71_case_refuted : exists fs, read_message (sent_of (opened up true (ask (bs "ws://h/") [(bs "X-A", Some (bs "1")); (bs "x-a", Some (bs "2"))]) Empty)) = Some (bs "GET / HTTP/1.1", fs, []) /\
  In (bs "x-a", bs "1") fs /\ ~ In (bs "x-a", bs "2") fs.
Proof. eexists. split; [vm_compute; reflexivity|]. cbn. split; [tauto|intuition discriminate]. Qed.
(** a value or a path with a line break makes other headers, *)
Theorem C71_injection_refuted :
  (exists fs, read_message (sent_of (opened up true (ask (bs "ws://h/") [(bs "X-A", Some (bs "1" ++ [13; 10] ++ bs "Cookie: c=1"))]) Empty)) = Some (bs "GET / HTTP/1.1", fs, []) /\ In (bs "Cookie", bs "c=1") fs) /\
  (exists fs, read_message (sent_of (opened up true (ask (bs "ws://h/ HTTP/1.1" ++ [13; 10] ++ bs "Cookie: c=1" ++ [13; 10] ++ bs "X: ") []) Empty)) = Some (bs "GET / HTTP/1.1", fs, []) /\ In (bs "Cookie", bs "c=1") fs).
Proof. split; eexists; (split; [vm_compute; reflexivity|cbn; tauto]). Qed.
(** and a header Host of the request is sent beside the one of the URL. *)
Theorem C71_host_refuted : exists fs, read_message (sent_of (opened up true (ask (bs "ws://h/") [(bs "Host", Some (bs "other"))]) Empty)) = Some (bs "GET / HTTP/1.1", fs, []) /\
  In (bs "Host", bs "h:80") fs /\ In (bs "Host", bs "other") fs.
Proof. eexists. split; [vm_compute; reflexivity|]. cbn. tauto. Qed.
(** The credentials of the URL are sent as "Basic: ", which no server reads as RFC 7617 wants (u_websocket.c:2576; compare u_request.c:829). *)
Theorem C71_credentials_refuted : exists fs v, read_message (sent_of (opened up true (ask (bs "ws://me:secret@h/") []) Empty)) = Some (bs "GET / HTTP/1.1", fs, []) /\
  In (bs "Authorization", v) fs /\ v = bs "Basic: b64" /\ v <> basic (bs "b64").
Proof. eexists _, _. split; [vm_compute; reflexivity|]. cbn. split; [right; right; right; left; reflexivity|]. split; [reflexivity|discriminate]. Qed.

(** a server that accepts: an answer NegoModel takes *)
Definition answer : str := bs "HTTP/1.1 101 Switching Protocols" ++ eol ++ bs "Upgrade: websocket" ++ eol ++ bs "Connection: Upgrade" ++ eol ++ eol.
Definition good : world := mk_world (fun _ => true) (fun _ _ => answer) (fun _ _ => true) (fun _ _ _ => true) (fun s => Some (bs "b64")) true.
Example C72_example : exists h1, perform (Open good true (ask (bs "ws://h/") [])) Empty = Ret (U_OK, h1) /\ ready (Open good true (ask (bs "ws://h/") [])) /\
  perform (Status 0) h1 = Ret (0, h1) /\ perform (Wait 1) h1 = Ret (1, Empty) /\ lives Fresh Empty.
Proof.
  assert (RY : ready (Open good true (ask (bs "ws://h/") []))).
  { split; [intros s e H; injection H as <-; split; [now apply cstrb_true|reflexivity]|]. exists (Some (bs "ws://h/")), [], [], (bs "GET"), (bs "1.1"). split; [repeat split; apply repr_init|split; [now apply cstrb_true|reflexivity]]. }
  eexists. split; [vm_compute; reflexivity|]. split; [exact RY|]. split; [reflexivity|]. split; [reflexivity|]. constructor. exact I.
Qed.
(** C72 in full wants every order of the calls to be without undefined behaviour. It is not so: *)
Fixpoint performs (cs : list call) (h : slot) : outcome slot := match cs with [] => Ret h | c :: r => do x <- perform c h; performs r (snd x) end.
(** - asking for the status, sending the signal or waiting before there is a websocket *)
Theorem C72_too_early_refuted : perform (Status 0) Empty = UB NullDeref /\ perform Signal Empty = UB NullDeref /\ perform (Wait 1) Empty = UB NullDeref.
Proof. repeat split. Qed.
(** - opening again, or closing, after an opening that failed *)
Theorem C72_after_failure_refuted : perform (Open down true (ask (bs "ws://h/") [])) Empty = Ret (U_ERROR, Gone) /\
  performs [Open down true (ask (bs "ws://h/") []); Open good true (ask (bs "ws://h/") [])] Empty = UB UseAfterFree /\
  performs [Open down true (ask (bs "ws://h/") []); Close 1] Empty = UB UseAfterFree.
Proof. repeat split; vm_compute; reflexivity. Qed.
(** - closing twice, asking for the status after closing, or waiting until the end and asking again *)
Theorem C72_after_close_refuted : performs [Open good true (ask (bs "ws://h/") []); Close 1; Close 1] Empty = UB UseAfterFree /\
  performs [Open good true (ask (bs "ws://h/") []); Close 1; Status 0] Empty = UB UseAfterFree /\
  performs [Open good true (ask (bs "ws://h/") []); Wait 1; Wait 1] Empty = UB NullDeref.
Proof. repeat split; vm_compute; reflexivity. Qed.

Example C73_example : Forall (fun n => fresh_name n ex_headers) reserved /\ line_value (Some (bs "dGhlIHNhbXBsZSBub25jZQ==")) /\
  exists r1, set_websocket_request (Some (bs "dGhlIHNhbXBsZSBub25jZQ==")) (bs "agent/1") (ask [] ex_headers) (url_text ex_place) (Some (bs "chat")) None = Ret (U_OK, r1) /\
  exists fs, read_message (sent_of (opened up true r1 Empty)) = Some (bs "GET /chat?a=1 HTTP/1.1", fs, []) /\ In (bs "Sec-WebSocket-Key", bs "dGhlIHNhbXBsZSBub25jZQ==") fs /\ In (bs "Sec-WebSocket-Protocol", bs "chat") fs.
Proof.
  split; [repeat constructor; discriminate|]. split; [split; [now apply cstrb_true|split; [reflexivity|split; [intros X; cbn in X; intuition discriminate|repeat split; discriminate]]]|].
  eexists. split; [vm_compute; reflexivity|]. eexists. split; [vm_compute; reflexivity|]. cbn. tauto.
Qed.
(** Without the condition on the names: a header of the caller named in lower case is sent beside the one that is put in, and the request is not valid *)
Theorem C73_lower_case_refuted : exists r1 fs, set_websocket_request (Some (bs "k")) (bs "agent/1") (ask [] [(bs "upgrade", Some (bs "h2c"))]) (bs "ws://h/") None None = Ret (U_OK, r1) /\
  read_message (sent_of (opened up true r1 Empty)) = Some (bs "GET / HTTP/1.1", fs, []) /\ ~ exists key, valid_request (as_headers fs) (Some (bs "HTTP/1.1")) (Some (bs "GET")) key.
Proof.
  eexists. eexists. split; [vm_compute; reflexivity|]. split; [vm_compute; reflexivity|].
  intros (key & [_ _ (v & (l1 & k & o & l2 & E & S & _ & N) & _) _ _ _]).
  assert (X : (2 <= length (filter (fun p : str * option str => str_eqb (lowers (fst p)) (lowers (bs "Upgrade"))) (l1 ++ (k, o) :: l2)))%nat) by (rewrite <- E; cbn; auto).
  rewrite filter_app in X. cbn [filter fst] in X. unfold same_name in S. rewrite S, str_eqb_refl in X.
  assert (Z1 : forall l, (forall p, In p l -> In p (l1 ++ l2)) -> filter (fun p : str * option str => str_eqb (lowers (fst p)) (lowers (bs "Upgrade"))) l = []).
  { intros l. induction l as [|p l IH]; intros H; [reflexivity|]. cbn [filter]. destruct (str_eqb (lowers (fst p)) (lowers (bs "Upgrade"))) eqn:Q; [apply str_eqb_eq in Q; exfalso; apply (N p); [apply H; now left|exact Q]|]. apply IH. intros x I. apply H. now right. }
  rewrite !Z1 in X; [cbn in X; lia|intros; apply in_app_iff; tauto|intros; apply in_app_iff; tauto].
Qed.

Print Assumptions C70_connects_partial.
Print Assumptions C70_no_connection.
Print Assumptions C70_port_refuted.
Print Assumptions C71_request_read_partial.
Print Assumptions C71_case_refuted.
Print Assumptions C71_injection_refuted.
Print Assumptions C71_host_refuted.
Print Assumptions C71_credentials_refuted.
Print Assumptions C72_opened_iff.
Print Assumptions C72_ordered_use_partial.
Print Assumptions C72_too_early_refuted.
Print Assumptions C72_after_failure_refuted.
Print Assumptions C72_after_close_refuted.
Print Assumptions C73_valid_request_partial.
Print Assumptions C73_lower_case_refuted.
