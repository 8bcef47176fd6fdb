(** Proofs about the opening of a websocket by a client. *)
From Coq Require Import String ZArith Bool List Lia.
From Verif Require Import Base BaseFacts Dec UMapModel UMapSpec UMapProofs SMap SMapCase StrModel ClientModel YuarelModel YuarelSpec YuarelProofs YuarelProps HttpText NegoModel OpenModel OpenSpec.
Import ListNotations.
Open Scope Z_scope.

Definition yurl_of (p : parts) : yurl := mk_yurl (p_scheme p) (p_user p) (p_pass p) (p_host p) (p_port p) (p_path p) (p_query p).

Lemma field_shows : forall b o t, shows b o t -> field b o = Ret t.
Proof. intros b [o|] [t|] H; cbn in *; try tauto. rewrite H. reflexivity. Qed.

Lemma parse_url_eq : forall s, cstr s -> zlen s < two32 -> parse_url (Some s) = Ret (option_map yurl_of (parse_text s)).
Proof.
  intros s C L. unfold parse_url. destruct (C64_any_text s C L) as (code & b & y & E & A). rewrite E. cbn [bind].
  destruct (parse_text s) as [p|]; cbn [option_map].
  - destruct A as [-> (A1 & A2 & A3 & A4 & A5 & A6 & A7 & A8)]. change (negb (0 =? 0)) with false. cbv iota.
    rewrite (field_shows _ _ _ A1), (field_shows _ _ _ A2), (field_shows _ _ _ A3), (field_shows _ _ _ A4), (field_shows _ _ _ A6), (field_shows _ _ _ A7), A5. reflexivity.
  - subst code. reflexivity.
Qed.

(** ** Headers *)
Definition sremove (k : str) (d : smap) : smap := filter (fun p => negb (str_eqb (fst p) k)) d.
Lemma repr_remove : forall m d k, repr m d -> exists r m', u_map_remove_from_key m (Some k) = Ret (r, m') /\ repr m' (sremove k d).
Proof.
  intros m d k (es & L & (OK & ND) & W & F & T). destruct (remove_key_layout m es k L) as (m' & R & L').
  eexists. exists m'. split; [exact R|]. exists (filter (fun e => negb (key_is k e)) es). split; [exact L'|]. split; [split|split; [|split]].
  - now apply Forall_filter.
  - clear - ND. induction es as [|e es IH]; cbn; [constructor|]. inversion ND as [|x l N1 N2]; subst. destruct (negb (key_is k e)); [|auto]. cbn. constructor; [|auto].
    intros I. apply N1. apply in_map_iff in I as (e' & E & I). apply filter_In in I as [I _]. rewrite <- E. now apply in_map.
  - now apply Forall_filter.
  - clear - F. unfold sremove. induction F as [|e p es d V F IH]; cbn; [constructor|]. unfold key_is at 1. rewrite (proj1 V). destruct (str_eqb (fst p) k); cbn; auto.
  - now apply Forall_filter.
Qed.

(** the value u_map_get_case gives for a key that is in the map *)
Definition case_value (d : smap) (k : str) : str := match sval_case d k with Some v => v | None => [] end.
Lemma sval_case_in : forall d p, In p d -> sval_case d (fst p) = Some (case_value d (fst p)).
Proof.
  intros d p I. unfold case_value, sval_case. destruct (find (is_case (fst p)) d) eqn:F; [reflexivity|]. pose proof (find_none _ _ F p I) as H. unfold is_case in H. now rewrite str_caseeqb_refl in H.
Qed.
Definition header_text (d : smap) (p : str * option str) : str := fst p ++ bs ": " ++ case_value d (fst p) ++ [13; 10].
Lemma header_texts_eq : forall m d, repr m d -> header_texts m (keys m) = Ret (map (header_text d) d).
Proof.
  intros m d R. rewrite (repr_keys m d R).
  assert (G : forall l, incl l d -> header_texts m (map (fun p => Some (fst p)) l ++ [None]) = Ret (map (header_text d) l)); [|apply G; apply incl_refl].
  induction l as [|p l IH]; intros I; [reflexivity|]. cbn [map app header_texts]. rewrite (repr_get_case m d (fst p) R). rewrite sval_case_in by (apply I; now left). cbn [bind arg].
  rewrite IH by (intros x J; apply I; now right). reflexivity.
Qed.

Lemma str_eqb_sym : forall a b, str_eqb a b = str_eqb b a.
Proof. intros a b. destruct (str_eqb a b) eqn:E; symmetry; [apply str_eqb_eq in E; subst; apply str_eqb_refl|]. destruct (str_eqb b a) eqn:E2; [apply str_eqb_eq in E2; subst; now rewrite str_eqb_refl in E|reflexivity]. Qed.

Lemma case_value_apart : forall d p, names_apart d -> In p d -> case_value d (fst p) = value (snd p).
Proof.
  intros d p N I. unfold case_value, sval_case, names_apart in *. induction d as [|q d IH]; [destruct I|]. cbn [find map] in *. inversion N as [|x l N1 N2]; subst.
  unfold is_case at 1. unfold str_caseeqb. destruct (str_eqb (lowers (fst q)) (lowers (fst p))) eqn:E.
  - destruct I as [->|I]; [reflexivity|]. exfalso. apply N1. apply str_eqb_eq in E. rewrite E. now apply (in_map (fun p => lowers (fst p))).
  - destruct I as [->|I]; [rewrite str_eqb_refl in E; discriminate|]. exact (IH N2 I).
Qed.

Lemma asks_in : forall m d name, repr m d -> asks m name = shas d name.
Proof.
  intros m d name R. unfold asks. rewrite (repr_keys m d R). rewrite existsb_app. cbn [existsb ostr_eqb]. rewrite !orb_false_r. unfold shas.
  induction d as [|p d IH] in |- *; [reflexivity|]. cbn [map existsb]. rewrite IH. reflexivity.
Qed.

(** ** The texts sent *)
Definition origin_text (q : smap) : list str := match sval_case q (bs "Origin") with Some o => [bs "Origin: " ++ o ++ [13; 10]] | None => [] end.
Definition texts (verb protocol : str) (host : str) (port : Z) (path query : option str) (q d : smap) : list str :=
  [verb ++ bs " /" ++ (match path with Some p => p | None => [] end) ++ (match query with Some q => bs "?" ++ q | None => [] end) ++ bs " HTTP/" ++ protocol ++ [13; 10];
   bs "Host: " ++ host ++ (if negb (port =? 0) then bs ":" ++ sdec port else []) ++ [13; 10];
   bs "Upgrade: websocket" ++ [13; 10]; bs "Connection: Upgrade" ++ [13; 10]] ++ origin_text q ++ map (header_text d) d ++ [[13; 10]].

Lemma handshake_texts_eq : forall r y v pr h q d, c_verb r = Some v -> c_protocol r = Some pr -> a_host y = Some h -> repr (c_params r) q -> repr (c_headers r) d ->
  handshake_texts r y = Ret (texts v pr h (a_port y) (a_path y) (a_query y) q d).
Proof.
  intros r y v pr h q d V P H Q D. unfold handshake_texts. rewrite V, P, H. unfold arg at 1 2 3. cbn [bind]. rewrite (repr_get_case _ _ _ Q). unfold bind at 1.
  rewrite (header_texts_eq _ _ D). unfold bind. unfold texts, origin_text. reflexivity.
Qed.

Section Open.
Variable reachable : target -> bool.
Variable answers : target -> list str -> list Z.
Variable check : creq -> str -> bool.
Variable client_match : nat -> Z -> str -> bool.
Variable base64 : str -> option str.
Variable thread_ok : bool.
Hypothesis base64_ok : forall s e, base64 s = Some e -> cstr e /\ zlen e + 9 < two64.

(** the headers after the credentials of the URL are put in *)
Definition with_auth (p : parts) (d : smap) : smap :=
  match p_user p, p_pass p with
  | Some n, Some w => match base64 (n ++ bs ":" ++ w) with Some e => sput (bs "Authorization") (Some (bs "Basic: " ++ e)) (sremove (bs "Authorization") d) | None => d end
  | _, _ => d
  end.
Lemma authorize_eq : forall r d p y, repr (c_headers r) d -> a_user y = p_user p -> a_pass y = p_pass p ->
  exists m, authorize base64 r y = Ret (set_headers r m) /\ repr m (with_auth p d).
Proof.
  intros r d p y R EU EP. unfold authorize, with_auth. rewrite EU, EP.
  assert (ID : set_headers r (c_headers r) = r) by (destruct r; reflexivity).
  assert (KEEP : exists m, Ret r = Ret (set_headers r m) /\ repr m d) by (exists (c_headers r); rewrite ID; auto).
  destruct (p_user p) as [n|]; [|exact KEEP]. destruct (p_pass p) as [w|]; [|exact KEEP].
  destruct (base64 (n ++ bs ":" ++ w)) as [e|] eqn:B; [|exact KEEP]. apply base64_ok in B as [B1 B2].
  destruct (repr_remove _ _ (bs "Authorization") R) as (c & m1 & E1 & R1). rewrite E1. cbn [bind snd].
  destruct (repr_put _ _ (bs "Authorization") (Some (bs "Basic: " ++ e)) R1) as (m2 & E2 & R2).
  - discriminate.
  - split; [apply Forall_app; split; [apply cstrb_true; reflexivity|exact B1]|]. rewrite zlen_app. change (zlen (bs "Basic: ")) with 7. lia.
  - rewrite E2. exists m2. split; [reflexivity|exact R2].
Qed.

Definition known (p : parts) : option bool := match p_scheme p with Some s => uses_tls s | None => None end.
Lemma schemes : forall p, plain_scheme (p_scheme p) = match known p with Some false => true | _ => false end /\
  (plain_scheme (p_scheme p) || tls_scheme (p_scheme p)) = match known p with Some _ => true | None => false end.
Proof.
  intros p. unfold known, plain_scheme, tls_scheme. destruct (p_scheme p) as [s|]; [|auto]. unfold uses_tls, str_caseeqb. change (lowers (bs "http")) with (bs "http"). change (lowers (bs "ws")) with (bs "ws").
  change (lowers (bs "https")) with (bs "https"). change (lowers (bs "wss")) with (bs "wss").
  destruct (str_eqb (lowers s) (bs "http") || str_eqb (lowers s) (bs "ws")); [auto|]. destruct (str_eqb (lowers s) (bs "https") || str_eqb (lowers s) (bs "wss")); auto.
Qed.

Definition port_used (p : parts) (tls : bool) : Z := if p_port p =? 0 then (if tls then 443 else 80) else p_port p.
Definition goal_of (r : creq) (p : parts) (host : str) (tls : bool) : target :=
  mk_target tls host (port_used p tls mod 65536) (if tls && c_check r then Some host else None).

(** everything [open_client] does for a URL that is understood *)
Lemma open_client_eq : forall r h s p tls host d q v pr,
  c_url r = Some s -> cstr s -> zlen s < two32 -> parse_text s = Some p -> known p = Some tls -> p_host p = Some host ->
  repr (c_headers r) d -> repr (c_params r) q -> c_verb r = Some v -> c_protocol r = Some pr ->
  exists m, repr m (with_auth p d) /\
    let r' := set_headers r m in
    let t := goal_of r p host tls in
    let ts := texts v pr host (port_used p tls) (p_path p) (p_query p) q (with_auth p d) in
    open_client reachable answers check client_match base64 thread_ok true r h =
      match h with
      | NoHandler => UB NullDeref
      | Gone => UB UseAfterFree
      | Empty | Live _ =>
          if reachable t then
            let exts := match h with Live l => l | _ => [] end in
            let '(ret, exts', _, _) := client_handshake (check r') client_match (shas (with_auth p d) (bs "Sec-WebSocket-Protocol")) (shas (with_auth p d) (bs "Sec-WebSocket-Extension")) exts (answers t ts) in
            let evs := Connect t :: map Sent ts in
            if negb (ret =? U_OK) then Ret ((if tls then U_ERROR else ret), Gone, r', evs)
            else if thread_ok then Ret (U_OK, Live exts', r', evs) else Ret (U_ERROR, Gone, r', evs)
          else Ret (U_ERROR, Gone, r', [Connect t])
      end.
Proof.
  intros r h s p tls host d q v pr U C L PT K H D Q V PR. unfold open_client. cbn [negb]. rewrite U, (parse_url_eq s C L), PT. cbn [option_map bind].
  destruct (schemes p) as [S1 S2]. change (a_scheme (yurl_of p)) with (p_scheme p). rewrite S2, S1, K. cbv iota.
  change (a_user (yurl_of p)) with (p_user p). change (a_pass (yurl_of p)) with (p_pass p). change (a_host (yurl_of p)) with (p_host p). change (a_port (yurl_of p)) with (p_port p). change (a_path (yurl_of p)) with (p_path p). change (a_query (yurl_of p)) with (p_query p).
  match goal with |- context [authorize base64 r ?y0] => set (y := y0) end.
  destruct (authorize_eq r d p y D eq_refl eq_refl) as (m & E & R). exists m. split; [exact R|]. cbv zeta. rewrite E. cbn [bind].
  destruct h as [| |l|]; try reflexivity.
  all: change (a_scheme y) with (p_scheme p); rewrite S1, K; replace (negb match tls with true => false | false => true end) with tls by (now destruct tls).
  all: unfold open_websocket; change (a_host y) with (p_host p); rewrite H; cbn [arg bind].
  all: assert (EP : a_port y = port_used p tls) by (unfold y, port_used; cbn [a_port]; now destruct tls).
  all: rewrite EP; change (c_check (set_headers r m)) with (c_check r); fold (goal_of r p host tls).
  all: destruct (reachable (goal_of r p host tls)) eqn:RE; [|destruct tls; reflexivity].
  all: rewrite (handshake_texts_eq (set_headers r m) y v pr host q (with_auth p d) V PR H Q R); rewrite EP; change (a_path y) with (p_path p); change (a_query y) with (p_query p); cbn [bind].
  all: change (c_headers (set_headers r m)) with m; rewrite !(asks_in m _ _ R).
  all: match goal with |- context [client_handshake ?a ?b ?c ?d0 ?e ?f] => destruct (client_handshake a b c d0 e f) as [[[ret exts'] rsv] op] end; unfold bind; destruct (ret =? U_OK); reflexivity.
Qed.

Lemma open_client_refused : forall r h, (match c_url r with None => True | Some s => cstr s /\ zlen s < two32 /\ match parse_text s with Some p => known p = None | None => True end end) ->
  open_client reachable answers check client_match base64 thread_ok true r h = Ret (U_ERROR_PARAMS, h, r, []).
Proof.
  intros r h H. unfold open_client. cbn [negb]. destruct (c_url r) as [s|]; [|reflexivity]. destruct H as (C & L & H). rewrite (parse_url_eq s C L). cbn [bind]. destruct (parse_text s) as [p|]; [|reflexivity]. cbn [option_map].
  destruct (schemes p) as [S1 S2]. change (a_scheme (yurl_of p)) with (p_scheme p). rewrite S2, H. reflexivity.
Qed.
End Open.

(** ** The text of the request, read again *)
Lemma tight_cat : forall (a b : str), a <> [] -> b <> [] -> hd 0 a <> 32 -> hd 0 a <> 9 -> last b 0 <> 32 -> last b 0 <> 9 -> tight (a ++ b).
Proof.
  intros a b A B H1 H2 H3 H4. destruct a as [|x a]; [congruence|]. unfold tight. cbn [app hd]. assert (L : last (x :: a ++ b) 0 = last b 0).
  { change (x :: a ++ b) with ((x :: a) ++ b). clear - B. generalize (x :: a). intros l. induction l as [|y l IH]; [reflexivity|]. cbn [app]. rewrite <- IH. destruct (l ++ b) eqn:E; [|reflexivity]. apply app_eq_nil in E as [_ E]. congruence. }
  rewrite L. auto.
Qed.
Lemma last_in : forall (l : str) d, l <> [] -> In (last l d) l.
Proof. induction l as [|x l IH]; intros d N; [congruence|]. destruct l as [|y l]; [now left|]. right. change (last (x :: y :: l) d) with (last (y :: l) d). apply IH. discriminate. Qed.

Lemma field_line : forall (n v : str), n <> [] -> ~ In 58 n -> one_line n -> one_line v -> tight v -> writes (n ++ bs ": " ++ v) (n, v).
Proof.
  intros n v N C O1 O2 T. split.
  - rewrite !in_app_iff. intros [I|[I|I]]; [now apply O1| |now apply O2]. cbn in I. intuition discriminate.
  - change (n ++ bs ": " ++ v) with (n ++ 58 :: 32 :: v). rewrite read_field_intro by assumption. now rewrite strip_space.
Qed.

Lemma name_line : forall n v : str, forallb (fun c => negb (c =? 58) && negb (c =? 13)) n = true -> n <> [] -> one_line v -> tight v -> writes (n ++ bs ": " ++ v) (n, v).
Proof.
  intros n v B N O T. rewrite forallb_forall in B. apply field_line; try assumption; intros I; apply B in I; discriminate.
Qed.

Definition port_text (port : Z) : str := if negb (port =? 0) then bs ":" ++ sdec port else [].
Lemma texts_read : forall v pr host port path query q d,
  one_line v -> one_line pr -> one_line host -> tight (host ++ port_text port) -> oall one_line path -> oall one_line query ->
  Forall (fun f => one_line (snd f) /\ tight (snd f)) (entry_of (bs "Origin") q) -> Forall field_ok d -> names_apart d ->
  read_message (concat (texts v pr host port path query q d)) =
    Some (v ++ bs " /" ++ value path ++ part (bs "?") query ++ bs " HTTP/" ++ pr,
          [(bs "Host", host ++ port_text port); (bs "Upgrade", bs "websocket"); (bs "Connection", bs "Upgrade")] ++ entry_of (bs "Origin") q ++ fields_of d, []).
Proof.
  intros v pr host port path query q d OV OP OH TH OPA OQ OO FD ND.
  set (start := v ++ bs " /" ++ value path ++ part (bs "?") query ++ bs " HTTP/" ++ pr).
  set (ols := map (fun f : str * str => fst f ++ bs ": " ++ snd f) (entry_of (bs "Origin") q)).
  set (hls := map (fun p : str * option str => fst p ++ bs ": " ++ value (snd p)) d).
  set (ls := [bs "Host" ++ bs ": " ++ host ++ port_text port; bs "Upgrade" ++ bs ": " ++ bs "websocket"; bs "Connection" ++ bs ": " ++ bs "Upgrade"] ++ ols ++ hls).
  assert (E : concat (texts v pr host port path query q d) = start ++ eol ++ concat (map (fun l => l ++ eol) ls) ++ eol ++ []).
  { assert (EO : origin_text q = map (fun l => l ++ eol) ols).
    { unfold origin_text, ols, entry_of, sval_case. change (find (is_case (bs "Origin")) q) with (find (fun p => str_eqb (lowers (fst p)) (lowers (bs "Origin"))) q).
      destruct (find _ q) as [p|]; [|reflexivity]. cbn [map fst snd]. change (otext (snd p)) with (value (snd p)). rewrite <- !app_assoc. reflexivity. }
    assert (EH : map (header_text d) d = map (fun l => l ++ eol) hls).
    { unfold hls. rewrite map_map. apply map_ext_in. intros p I. unfold header_text. rewrite (case_value_apart d p ND I), <- !app_assoc. reflexivity. }
    unfold texts. rewrite EO, EH. unfold ls, start. rewrite !map_app, !concat_app. cbn [concat map]. rewrite !app_nil_r, !app_assoc. unfold port_text, value, part, eol. rewrite <- !app_assoc. destruct path, query; reflexivity. }
  rewrite E. apply read_message_intro.
  - unfold start. rewrite !in_app_iff. intros [I|[I|[I|[I|[I|I]]]]]; [now apply OV|cbn in I; intuition discriminate| | |cbn in I; intuition discriminate|now apply OP].
    + destruct path as [x|]; [now apply OPA|exact I].
    + destruct query as [x|]; [|exact I]. cbn [part] in I. apply in_app_iff in I as [I|I]; [cbn in I; intuition discriminate|now apply OQ].
  - unfold ls. apply Forall2_app; [constructor; [|constructor; [|constructor; [|constructor]]]|apply Forall2_app].
    + apply name_line; [reflexivity|discriminate| |exact TH]. unfold one_line. rewrite in_app_iff. intros [I|I]; [now apply OH|]. unfold port_text in I. destruct (negb (port =? 0)); [|exact I].
      apply in_app_iff in I as [I|I]; [cbn in I; intuition discriminate|]. unfold sdec in I. destruct (port <? 0) eqn:P.
      * destruct I as [I|I]; [discriminate|]. revert I. apply udec_not_in; [apply Z.ltb_lt in P; lia|unfold digit; lia].
      * revert I. apply udec_not_in; [apply Z.ltb_ge in P; lia|unfold digit; lia].
    + apply name_line; [reflexivity|discriminate|intros I; cbn in I; intuition discriminate|repeat split; discriminate].
    + apply name_line; [reflexivity|discriminate|intros I; cbn in I; intuition discriminate|repeat split; discriminate].
    + unfold ols. revert OO. unfold entry_of. destruct (find _ q) as [p|]; intros OO; [|constructor]. inversion OO as [|x l [O1 O2] _]; subst. cbn [map fst snd] in *. constructor; [|constructor].
      apply name_line; [reflexivity|discriminate|exact O1|exact O2].
    + unfold hls, fields_of. clear E ls hls ND. induction FD as [|p d (F1 & F2 & F3 & F4 & F5) FD IH]; [constructor|]. cbn [map]. constructor; [|exact IH]. now apply field_line.
Qed.

(** ** The request made by ulfius_set_websocket_request *)
Definition fresh_name (n : str) (d : smap) : Prop := Forall (fun p => lowers (fst p) <> lowers n) d.
Lemma sput_fresh : forall n v d, fresh_name n d -> sput n v d = d ++ [(n, v)].
Proof.
  intros n v d F. induction F as [|p d N F IH]; [reflexivity|]. cbn [sput app]. destruct (str_eqb (fst p) n) eqn:E; [apply str_eqb_eq in E; now rewrite E in N|]. now rewrite IH.
Qed.
Definition also (n : str) (v : option str) (d : smap) : smap := match v with Some _ => d ++ [(n, v)] | None => d end.
Lemma put_if_eq : forall m d n v, repr m d -> n <> [] -> ovalue_ok v -> fresh_name n d -> exists m', put_if m n v = Ret m' /\ repr m' (also n v d).
Proof.
  intros m d n v R N V F. unfold put_if, also. destruct v as [s|]; [|eauto]. destruct (repr_put m d n (Some s) R N V) as (m' & E & R'). rewrite E. cbn [bind snd]. exists m'. split; [reflexivity|]. now rewrite sput_fresh in R'.
Qed.
Lemma fresh_also : forall n k v d, fresh_name n d -> lowers k <> lowers n -> fresh_name n (also k v d).
Proof. intros n k v d F N. unfold also. destruct v; [|exact F]. apply Forall_app. split; [exact F|]. now constructor. Qed.

Definition made (d : smap) (key agent : str) (protocol extensions : option str) : smap :=
  also (bs "Sec-WebSocket-Key") (Some key) (also (bs "User-Agent") (Some agent) (also (bs "Sec-WebSocket-Version") (Some (bs "13"))
    (also (bs "Sec-WebSocket-Extensions") extensions (also (bs "Sec-WebSocket-Protocol") protocol d)))).
Definition own_names : list str := [bs "Sec-WebSocket-Protocol"; bs "Sec-WebSocket-Extensions"; bs "Sec-WebSocket-Version"; bs "User-Agent"; bs "Sec-WebSocket-Key"].
Lemma set_websocket_request_eq : forall r d key agent url protocol extensions, repr (c_headers r) d -> Forall (fun n => fresh_name n d) own_names ->
  ovalue_ok (Some key) -> ovalue_ok (Some agent) -> ovalue_ok protocol -> ovalue_ok extensions ->
  exists m, set_websocket_request (Some key) agent r url protocol extensions = Ret (U_OK, mk_creq (Some (bs "GET")) (Some (bs "1.1")) (Some url) (c_params r) m (c_check r)) /\
    repr m (made d key agent protocol extensions).
Proof.
  intros r d key agent url protocol extensions R F K A P X. unfold own_names in F. rewrite Forall_forall in F.
  assert (F1 := F _ (or_introl eq_refl)). assert (F2 := F _ (or_intror (or_introl eq_refl))). assert (F3 := F _ (or_intror (or_intror (or_introl eq_refl)))).
  assert (F4 := F _ (or_intror (or_intror (or_intror (or_introl eq_refl))))). assert (F5 := F _ (or_intror (or_intror (or_intror (or_intror (or_introl eq_refl)))))).
  unfold set_websocket_request, made.
  destruct (put_if_eq _ _ (bs "Sec-WebSocket-Protocol") protocol R) as (m1 & E1 & R1); [discriminate|exact P|exact F1|]. rewrite E1. cbn [bind].
  destruct (put_if_eq _ _ (bs "Sec-WebSocket-Extensions") extensions R1) as (m2 & E2 & R2); [discriminate|exact X|repeat apply fresh_also; (exact F2 || discriminate)|]. rewrite E2. cbn [bind].
  destruct (put_if_eq _ _ (bs "Sec-WebSocket-Version") (Some (bs "13")) R2) as (m3 & E3 & R3); [discriminate|split; [now apply cstrb_true|vm_compute; reflexivity]|repeat apply fresh_also; (exact F3 || discriminate)|]. rewrite E3. cbn [bind].
  destruct (put_if_eq _ _ (bs "User-Agent") (Some agent) R3) as (m4 & E4 & R4); [discriminate|exact A|repeat apply fresh_also; (exact F4 || discriminate)|]. rewrite E4. cbn [bind].
  destruct (put_if_eq _ _ (bs "Sec-WebSocket-Key") (Some key) R4) as (m5 & E5 & R5); [discriminate|exact K|repeat apply fresh_also; (exact F5 || discriminate)|]. rewrite E5. cbn [bind].
  exists m5. split; [reflexivity|exact R5].
Qed.
Lemma apart_also : forall n v d, names_apart d -> fresh_name n d -> names_apart (also n v d).
Proof.
  intros n v d N F. unfold also. destruct v; [|exact N]. unfold names_apart. rewrite map_app. cbn [map fst].
  assert (NI : ~ In (lowers n) (map (fun p : str * option str => lowers (fst p)) d)). { intros I. apply in_map_iff in I as (p & E & I). unfold fresh_name in F. rewrite Forall_forall in F. now apply F in I. }
  clear F. unfold names_apart in N. induction (map (fun p : str * option str => lowers (fst p)) d) as [|x l IH]; cbn [app]; [constructor; [easy|constructor]|]. inversion N; subst. constructor.
  - rewrite in_app_iff. intros [I|[I|[]]]; [auto|]. apply NI. now left.
  - apply IH; [assumption|]. intros I. apply NI. now right.
Qed.
Lemma ok_also : forall n v d, Forall field_ok d -> (v <> None -> field_ok (n, v)) -> Forall field_ok (also n v d).
Proof. intros n v d F K. unfold also. destruct v; [|exact F]. apply Forall_app. split; [exact F|]. constructor; [|constructor]. apply K. discriminate. Qed.
