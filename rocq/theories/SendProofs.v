(** Proofs about the HTTP and mail client. *)
From Coq Require Import String ZArith Bool List Lia.
From Verif Require Import Base BaseFacts UMapModel UMapSpec SMap ClientModel SMapCase SendModel YuarelSpec YuarelProofs HttpText SendSpec.
Import ListNotations.
Open Scope Z_scope.

(** ** The loop over a map *)
Lemma each_fold : forall {S} m d (step : S -> str -> option str -> outcome S) (s : S), repr m d ->
  each m step (keys m) s = fold_left (fun a p => do s <- a; step s (fst p) (snd p)) d (Ret s).
Proof.
  intros T m d step s R. pose proof (repr_nodup m d R) as [N _]. rewrite (repr_keys m d R).
  assert (G : forall b a s, a ++ b = d -> each m step (map (fun p => Some (fst p)) b ++ [None]) s = fold_left (fun a p => do s <- a; step s (fst p) (snd p)) b (Ret s)).
  { induction b as [|p b IH]; intros a s0 E; [reflexivity|]. cbn [map app each fold_left]. rewrite (repr_get m d (fst p) R). unfold bind at 1.
    replace (sval d (fst p)) with (snd p) by (rewrite <- E; symmetry; apply sval_self; rewrite E; exact N).
    change (do s <- Ret s0; step s (fst p) (snd p)) with (step s0 (fst p) (snd p)). destruct (step s0 (fst p) (snd p)) as [s1|k].
    - apply (IH (a ++ [p])). now rewrite <- app_assoc.
    - clear. induction b as [|q b IH]; [reflexivity|exact IH]. }
  exact (G d [] s eq_refl).
Qed.
Lemma each_pure : forall {S} m d (step : S -> str -> option str -> outcome S) (g : S -> str * option str -> S) (s : S), repr m d ->
  (forall s p, In p d -> step s (fst p) (snd p) = Ret (g s p)) -> each m step (keys m) s = Ret (fold_left g d s).
Proof.
  intros T m d step g s R H. rewrite (each_fold m d step s R). clear R. revert s. induction d as [|p d IH]; intros s; [reflexivity|]. cbn [fold_left]. change (do s0 <- Ret s; step s0 (fst p) (snd p)) with (step s (fst p) (snd p)). rewrite H by now left.
  apply IH. intros s0 q I. apply H. now right.
Qed.
Lemma repr_count : forall m d, repr m d -> u_map_count m = zlen d.
Proof.
  intros m d (es & L & _ & _ & F & _). unfold u_map_count. destruct L as (_ & _ & _ & N). rewrite N. apply Forall2_length in F || (assert (length es = length d) by (clear - F; induction F; cbn [length]; congruence)).
  unfold zlen. congruence.
Qed.

(** ** Setting options *)
Lemma set_all_app : forall c b a d, set_all c d (a ++ b) = match set_all c d a with Some d' => set_all c d' b | None => None end.
Proof. induction a as [|o a IH]; intros d; [reflexivity|]. cbn [app set_all]. destruct (c d o); [apply IH|reflexivity]. Qed.
Lemma set_all_some : forall c l d x, set_all c d l = Some x -> x = d ++ l /\ (forall a o b, l = a ++ o :: b -> c (d ++ a) o = true).
Proof.
  induction l as [|o l IH]; intros d x H; cbn [set_all] in H.
  - injection H as <-. rewrite app_nil_r. split; [reflexivity|]. intros [|? ?] p b E; discriminate.
  - destruct (c d o) eqn:E; [|discriminate]. apply IH in H as [-> A]. rewrite <- app_assoc. split; [reflexivity|]. intros [|o' a] p b Q; cbn [app] in Q; injection Q as -> Q.
    + now rewrite app_nil_r.
    + specialize (A a p b Q). now rewrite <- app_assoc in A.
Qed.
Lemma set_all_accepted : forall c l d, (forall a o b, l = a ++ o :: b -> c (d ++ a) o = true) -> set_all c d l = Some (d ++ l).
Proof.
  induction l as [|o l IH]; intros d H; cbn [set_all]; [now rewrite app_nil_r|]. pose proof (H [] o l eq_refl) as E. rewrite app_nil_r in E. rewrite E.
  rewrite IH; [now rewrite <- app_assoc|]. intros a p b Q. rewrite <- app_assoc. cbn [app]. apply (H (o :: a) p b). cbn [app]. now f_equal.
Qed.
Lemma last_of_app : forall {A} (f : opt -> option A) a b, last_of f (a ++ b) = match last_of f b with Some x => Some x | None => last_of f a end.
Proof. induction a as [|o a IH]; intros b; cbn [app last_of]; [now destruct (last_of f b)|]. rewrite IH. now destruct (last_of f b). Qed.

(** ** Escaping *)
Lemma hexv_hexd : forall n, 0 <= n < 16 -> hexv (hexd n) = Some n.
Proof.
  intros n H. unfold hexd, hexv. destruct (Z.ltb_spec n 10).
  - replace ((48 <=? 48 + n) && (48 + n <=? 57)) with true by (symmetry; apply andb_true_intro; split; apply Z.leb_le; lia). f_equal. lia.
  - replace ((48 <=? 55 + n) && (55 + n <=? 57)) with false by (symmetry; apply andb_false_intro2; apply Z.leb_gt; lia).
    replace ((65 <=? 55 + n) && (55 + n <=? 70)) with true by (symmetry; apply andb_true_intro; split; apply Z.leb_le; lia). f_equal. lia.
Qed.
Lemma unescape_plain : forall c r, c <> 37 -> c <> 43 -> unescape (c :: r) = option_map (cons c) (unescape r).
Proof.
  intros c r A B. cbn [unescape]. destruct c as [|p|p]; try reflexivity.
  do 6 (destruct p as [p|p|]; try reflexivity; try congruence).
Qed.
Lemma unreserved_range : forall c, unreserved c = true -> 45 <= c <= 126 /\ c <> 61 /\ c <> 63 /\ c <> 58 /\ c <> 59.
Proof. intros c H. unfold unreserved in H. repeat (apply orb_prop in H as [H|H]); try (apply andb_prop in H as [A B]; apply Z.leb_le in A, B; lia); apply Z.eqb_eq in H; lia. Qed.
Lemma nibbles : forall c, 0 <= c < 256 -> 0 <= c / 16 < 16 /\ 0 <= c mod 16 < 16.
Proof. intros c C. split; [split; [apply Z.div_pos; lia|apply Z.div_lt_upper_bound; lia]|apply Z.mod_pos_bound; lia]. Qed.
Lemma unescape_escape : forall s, bytes s -> unescape (curl_escape s) = Some s.
Proof.
  induction s as [|c s IH]; intros B; [reflexivity|]. inversion B as [|? ? C D]; subst. cbn [curl_escape]. destruct (unreserved c) eqn:U.
  - cbn [app]. pose proof (unreserved_range c U). rewrite unescape_plain by lia. now rewrite IH.
  - destruct (nibbles c C) as [N1 N2]. cbn [app]. cbn [unescape]. rewrite (hexv_hexd (c / 16) N1), (hexv_hexd (c mod 16) N2).
    rewrite IH by exact D. do 2 f_equal. pose proof (Z.div_mod c 16). lia.
Qed.
(** an escaped text has no separator *)
Definition plain (c : Z) : Prop := 37 = c \/ 45 <= c <= 126 /\ c <> 61 /\ c <> 63 /\ c <> 58 /\ c <> 59.
Lemma escape_plain : forall s, bytes s -> Forall plain (curl_escape s).
Proof.
  induction s as [|c s IH]; intros B; [constructor|]. inversion B as [|? ? C D]; subst. cbn [curl_escape]. apply Forall_app. split; [|now apply IH]. destruct (unreserved c) eqn:U.
  - constructor; [|constructor]. right. exact (unreserved_range c U).
  - assert (H : forall n, 0 <= n < 16 -> plain (hexd n)) by (intros n H; right; unfold hexd; destruct (Z.ltb_spec n 10); lia).
    constructor; [now left|]. destruct (nibbles c C) as [N1 N2]. constructor; [now apply H|]. constructor; [now apply H|constructor].
Qed.
Lemma plain_no : forall s x, Forall plain s -> (x = 38 \/ x = 61 \/ x = 63 \/ x = 35) -> ~ In x s.
Proof. intros s x F X I. rewrite Forall_forall in F. destruct (F x I) as [E|(A & B & C & D)]; lia. Qed.
Lemma cstr_bytes : forall s, cstr s -> bytes s.
Proof. intros s C. eapply Forall_impl; [|exact C]. cbn. intros; lia. Qed.

(** one pair *)
Definition pair_text (p : str * option str) : str := match snd p with Some v => curl_escape (fst p) ++ 61 :: curl_escape v | None => curl_escape (fst p) end.
Definition entry_bytes (p : str * option str) : Prop := cstr (fst p) /\ ovalue_ok (snd p).
Lemma read_pair_text : forall p, entry_bytes p -> read_pair (pair_text p) = Some p.
Proof.
  intros [k [v|]] [K V]; cbn [fst snd] in *; unfold read_pair, pair_text; cbn [fst snd].
  - destruct V as [V _]. rewrite cut_intro by (apply plain_no; [apply escape_plain, cstr_bytes, K|auto]). now rewrite !unescape_escape by (apply cstr_bytes; assumption).
  - rewrite cut_intro_none by (apply plain_no; [apply escape_plain, cstr_bytes, K|auto]). now rewrite unescape_escape by (apply cstr_bytes; assumption).
Qed.
Lemma pair_text_no : forall p x, entry_bytes p -> (x = 38 \/ x = 63 \/ x = 35) -> ~ In x (pair_text p).
Proof.
  intros [k [v|]] x [K V] X; cbn [fst snd] in *; unfold pair_text; cbn [fst snd].
  - destruct V as [V _]. intros I. apply in_app_or in I as [I|[I|I]]; [|lia|]; eapply plain_no in I; try apply escape_plain; try apply cstr_bytes; try eassumption; tauto.
  - apply plain_no; [apply escape_plain, cstr_bytes, K|tauto].
Qed.
Lemma all_some_map : forall {A B} (f : A -> option B) (g : A -> B) l, Forall (fun x => f x = Some (g x)) l -> all_some (map f l) = Some (map g l).
Proof. intros A B f g l F. induction F as [|x l H F IH]; [reflexivity|]. cbn [map all_some]. now rewrite H, IH. Qed.
Lemma all_some_app : forall {A} (a b : list (option A)) x y, all_some a = Some x -> all_some b = Some y -> all_some (a ++ b) = Some (x ++ y).
Proof.
  induction a as [|[z|] a IH]; intros b x y X Y; cbn [all_some app] in *.
  - injection X as <-. exact Y.
  - destruct (all_some a) as [w|] eqn:E; [|discriminate]. injection X as <-. now rewrite (IH b w y eq_refl Y).
  - discriminate.
Qed.
Lemma read_join : forall d, d <> [] -> Forall entry_bytes d -> read_pairs (join_with [38] (map pair_text d)) = Some d.
Proof.
  intros d N F. unfold read_pairs. rewrite pieces_join.
  - rewrite map_map. rewrite (all_some_map _ (fun p => p)); [now rewrite map_id|]. eapply Forall_impl; [|exact F]. intros p. apply read_pair_text.
  - destruct d; [congruence|discriminate].
  - apply Forall_map. eapply Forall_impl; [|exact F]. intros p P. apply pair_text_no; [exact P|auto].
Qed.
Lemma join_cons : forall sep x l, l <> [] -> join_with sep (x :: l) = x ++ sep ++ join_with sep l.
Proof. intros sep x [|y l] N; [congruence|reflexivity]. Qed.
Lemma join_no : forall x sep l, x <> sep -> Forall (fun s => ~ In x s) l -> ~ In x (join_with [sep] l).
Proof.
  intros x sep l N F. induction F as [|y l Y F IH]; [intros []|]. destruct l as [|z l]; [exact Y|]. rewrite join_cons by discriminate. intros I. apply in_app_or in I as [I|[I|I]]; [tauto|congruence|tauto].
Qed.
Lemma repr_entries : forall m d, repr m d -> names_ok d -> Forall entry_bytes d.
Proof. intros m d R K. pose proof (repr_ovalues m d R) as V. unfold names_ok in K. rewrite Forall_forall in *. intros p I. split; auto. Qed.

(** ** The URL *)
Definition url_step (s : bool * option str) (p : str * option str) : bool * option str :=
  (true, catf (snd s) ((if fst s then 38 else 63) :: pair_text p)).
Lemma url_fold : forall d has u, snd (fold_left url_step d (has, Some u)) =
  Some (u ++ match d with [] => [] | _ => (if has then [38] else [63]) ++ join_with [38] (map pair_text d) end).
Proof.
  induction d as [|p d IH]; intros has u; [cbn; now rewrite app_nil_r|]. cbn [fold_left]. change (url_step (has, Some u) p) with (true, Some (u ++ (if has then 38 else 63) :: pair_text p)). rewrite IH. f_equal. rewrite <- app_assoc. f_equal.
  destruct d as [|q d]; cbn [map join_with]; [rewrite app_nil_r; now destruct has|]. destruct has; cbn [app]; rewrite <- ?app_assoc; reflexivity.
Qed.
Lemma request_url_text : forall u m d, repr m d -> request_url (Some u) m =
  Ret (Some (no_space u ++ match d with [] => [] | _ => (if has_char 63 (no_space u) then [38] else [63]) ++ join_with [38] (map pair_text d) end)).
Proof.
  intros u m d R. unfold request_url. cbn [option_map]. rewrite (repr_count m d R). destruct d as [|p d].
  - change (0 <? zlen []) with false. cbn iota. now rewrite app_nil_r.
  - replace (0 <? zlen (p :: d)) with true by (symmetry; apply Z.ltb_lt; unfold zlen; cbn [length]; lia). cbn iota.
    rewrite (each_pure m (p :: d) add_param url_step _ R) by (intros [h [x|]] [k [v|]] _; cbn; reflexivity). unfold bind at 1. f_equal. apply url_fold.
Qed.
Lemma has_char_in : forall c s, has_char c s = true <-> In c s.
Proof. intros c s. unfold has_char. rewrite existsb_exists. split; [intros (x & I & E); apply Z.eqb_eq in E; congruence|intros I; exists c; split; [exact I|apply Z.eqb_refl]]. Qed.
Lemma has_char_not : forall c s, ~ In c s -> has_char c s = false.
Proof. intros c s N. destruct (has_char c s) eqn:E; [apply has_char_in in E; tauto|reflexivity]. Qed.
Lemma no_space_no : forall x s, x <> 37 -> x <> 50 -> x <> 48 -> ~ In x s -> ~ In x (no_space s).
Proof.
  induction s as [|c s IH]; intros A B C N I; [exact I|]. cbn [no_space] in I. apply in_app_or in I as [I|I]; [|apply IH; auto; intro J; apply N; now right].
  destruct (c =? 32); [cbn in I; lia|]. destruct I as [I|[]]. apply N. now left.
Qed.
Lemma no_space_app : forall a b, no_space (a ++ b) = no_space a ++ no_space b.
Proof. induction a as [|c a IH]; intros b; [reflexivity|]. cbn [app no_space]. now rewrite IH, app_assoc. Qed.

(** ** The form *)
Definition form_step (s : bool * option str) (p : str * option str) : bool * option str := (true, catf (snd s) ((if fst s then [38] else []) ++ pair_text p)).
Lemma form_fold : forall d u, snd (fold_left form_step d (true, Some u)) = Some (u ++ concat (map (fun p => 38 :: pair_text p) d)).
Proof.
  induction d as [|p d IH]; intros u; [cbn; now rewrite app_nil_r|]. cbn [fold_left]. change (form_step (true, Some u) p) with (true, Some (u ++ 38 :: pair_text p)). rewrite IH. cbn [map concat]. now rewrite <- app_assoc.
Qed.
Lemma concat_join : forall p d, pair_text p ++ concat (map (fun p => 38 :: pair_text p) d) = join_with [38] (map pair_text (p :: d)).
Proof.
  intros p d. revert p. induction d as [|q d IH]; intros p; [cbn; now rewrite app_nil_r|]. 
  transitivity (pair_text p ++ [38] ++ join_with [38] (map pair_text (q :: d))); [|symmetry; exact (join_cons [38] (pair_text p) (map pair_text (q :: d)) ltac:(discriminate))].
  rewrite <- (IH q). reflexivity.
Qed.
Lemma form_text : forall m p d, repr m (p :: d) -> (do b <- each m add_form (keys m) (false, None); Ret (snd b)) = Ret (Some (join_with [38] (map pair_text (p :: d)))).
Proof.
  intros m p d R. rewrite (each_pure m (p :: d) add_form form_step _ R) by (intros [h [x|]] [k [v|]] _; cbn; reflexivity). unfold bind at 1. f_equal.
  cbn [fold_left]. change (form_step (false, None) p) with (true, Some (pair_text p)). rewrite form_fold. f_equal. apply concat_join.
Qed.

(** ** Headers and cookies *)
Definition header_line (p : str * option str) : str := match snd p with Some v => fst p ++ 58 :: v | None => fst p ++ [58] end.
Lemma header_text : forall m d, repr m d -> (if 0 <? u_map_count m then each m add_header (keys m) [] else Ret []) = Ret (map header_line d).
Proof.
  intros m d R. rewrite (repr_count m d R). destruct d as [|p d]; [reflexivity|]. replace (0 <? zlen (p :: d)) with true by (symmetry; apply Z.ltb_lt; unfold zlen; cbn [length]; lia). cbn iota.
  rewrite (each_pure m (p :: d) add_header (fun l p => l ++ [header_line p]) _ R) by (intros l [k [v|]] _; reflexivity). f_equal.
  assert (G : forall e l, fold_left (fun l p => l ++ [header_line p]) e l = l ++ map header_line e).
  { induction e as [|q e IH]; intros l; cbn [fold_left map]; [now rewrite app_nil_r|]. rewrite IH. now rewrite <- app_assoc. }
  exact (G (p :: d) []).
Qed.
Definition cookie_line (p : str * option str) : str := match snd p with Some v => fst p ++ 61 :: v | None => fst p ++ [58] end.
Lemma cookie_join : forall m p d, repr m (p :: d) -> each m add_cookie (keys m) None = Ret (Some (join_with [59] (map cookie_line (p :: d)))).
Proof.
  intros m p d R. rewrite (each_pure m (p :: d) add_cookie (fun c p => match c with None => Some (cookie_line p) | Some c => Some (c ++ 59 :: cookie_line p) end) _ R) by (intros l [k [v|]] _; reflexivity). f_equal. cbn [fold_left].
  assert (G : forall e x c, fold_left (fun c p => match c with None => Some (cookie_line p) | Some c => Some (c ++ 59 :: cookie_line p) end) e (Some (c ++ cookie_line x)) = Some (c ++ join_with [59] (map cookie_line (x :: e)))).
  { induction e as [|q e IH]; intros x c; [reflexivity|]. cbn [fold_left]. 
    transitivity (Some (c ++ cookie_line x ++ [59] ++ join_with [59] (map cookie_line (q :: e)))); [|do 2 f_equal; symmetry; exact (join_cons [59] (cookie_line x) (map cookie_line (q :: e)) ltac:(discriminate))].
    replace ((c ++ cookie_line x) ++ 59 :: cookie_line q) with ((c ++ cookie_line x ++ [59]) ++ cookie_line q) by (rewrite <- !app_assoc; reflexivity). rewrite IH. rewrite <- !app_assoc. reflexivity. }
  exact (G d p []).
Qed.

(** ** The whole request *)
Record texts := mk_texts { t_accept : list opt; t_url : option str; t_body : option buf; t_len : Z; t_lines : list str; t_cookie : list opt }.
Definition wanted (r : hreq) (writer data heads : bool) (t : texts) : list opt :=
  (t_accept t ++ [RedirProtocols only_http; Protocols only_http]) ++
  (match h_user r, h_password r with Some u, Some p => [HttpAuthBasic; Username u; Password p] | _, _ => [] end) ++
  (match h_cert r, h_key r with Some a, Some b => SslCert a :: SslKey b :: when_some KeyPasswd (h_key_password r) | _, _ => [] end) ++
  (NoProgress :: when_some Proxy (h_proxy r) ++ (if is_set (h_follow r) then [FollowLocation] else [])) ++
  [IpResolve (if is_set (Z.land (h_network r) USE_ALL) then IPRESOLVE_WHATEVER
              else if is_set (Z.land (h_network r) USE_IPV6) then IPRESOLVE_V6 else IPRESOLVE_V4)] ++
  (match t_body t with
   | Some b => if is_set (t_len t) then [if t_len t <? 2147483648 then PostFieldSize (t_len t) else PostFieldSizeLarge (t_len t); PostFields b] else []
   | None => []
   end) ++
  t_cookie t ++
  [Url (t_url t); CustomRequest (match h_verb r with Some v => v | None => bs "GET" end); HttpHeader (t_lines t)] ++
  ((if writer then [WriteFunction] else []) ++ (if data then [WriteData] else [])) ++
  checks VerifyPeer VerifyHost (h_check_server r) (h_server_flag r) ++
  checks ProxyVerifyPeer ProxyVerifyHost (h_check_proxy r) (h_proxy_flag r) ++
  (when_some CaPath (h_ca_path r) ++ (if is_set (h_timeout r) then [Timeout (h_timeout r)] else [])) ++
  (if heads then [HeaderFunction; WriteHeader] else []) ++
  [NoSignal; CookieFile []].

(** the texts of a request whose maps hold these dictionaries *)
Record dicts := mk_dicts { dh : smap; dp : smap; df : smap; dc : smap }.
Definition holds_dicts (r : hreq) (x : dicts) : Prop :=
  repr (h_headers r) (dh x) /\ repr (h_params r) (dp x) /\ repr (h_form r) (df x) /\ repr (h_cookies r) (dc x).
Definition url_of (u : str) (d : smap) : str := no_space u ++ match d with [] => [] | _ => (if has_char 63 (no_space u) then [38] else [63]) ++ join_with [38] (map pair_text d) end.
Definition final_headers (x : dicts) : smap := match df x with [] => dh x | _ => sput (bs "Content-Type") (Some form_type) (dh x) end.
Definition texts_of (r : hreq) (x : dicts) (u : option str) : texts :=
  mk_texts (if shas_case (dh x) (bs "Accept-Encoding") then [AcceptEncoding (sval_case (dh x) (bs "Accept-Encoding"))] else [])
    u
    (match df x with [] => h_body r | d => Some (cblock (join_with [38] (map pair_text d))) end)
    (match df x with [] => h_length r | d => zlen (join_with [38] (map pair_text d)) end)
    (map header_line (final_headers x))
    (match dc x with [] => [] | d => [CookieText (Some (join_with [59] (map cookie_line d)))] end).

Lemma obind_set : forall c d l rest (f : list opt -> outcome (option (list opt))), (forall d', f d' = Ret (set_all c d' rest)) -> obind (setopts c d l) f = Ret (set_all c d (l ++ rest)).
Proof. intros c d l rest f H. unfold obind, setopts, bind. rewrite set_all_app. destruct (set_all c d l); [apply H|reflexivity]. Qed.

Lemma send_request_wanted : forall c r w da h x u, holds_dicts r x -> request_url (h_url r) (h_params r) = Ret u ->
  send_request c r w da h = Ret (set_all c [] (wanted r w da h (texts_of r x u))).
Proof.
  intros c r w da h x u (RH & RP & RF & RC) U. unfold send_request. rewrite (repr_has_case _ _ (bs "Accept-Encoding") RH). unfold bind at 1.
  set (acc := t_accept (texts_of r x u)).
  assert (AC : (if shas_case (dh x) (bs "Accept-Encoding") then do v <- get_case_str (h_headers r) (Some (bs "Accept-Encoding")); Ret [AcceptEncoding v] else Ret []) = Ret acc).
  { unfold acc, texts_of. cbn [t_accept]. destruct (shas_case (dh x) (bs "Accept-Encoding")); [|reflexivity]. rewrite (repr_get_case _ _ _ RH). reflexivity. }
  rewrite AC. unfold bind at 1. unfold wanted. fold acc. apply obind_set; intros o2.
  apply obind_set; intros o3.
  apply obind_set; intros o4.
  apply obind_set; intros o5.
  apply obind_set; intros o6.
  rewrite U. unfold bind at 1.
  assert (FO : exists hm, repr hm (final_headers x) /\
    body_of r = Ret (Some (t_body (texts_of r x u), t_len (texts_of r x u), hm))).
  { unfold body_of, final_headers, texts_of. cbn [t_body t_len]. rewrite (repr_count _ _ RF). destruct (df x) as [|p d] eqn:DF.
    - exists (h_headers r). split; [exact RH|reflexivity].
    - replace (0 <? zlen (p :: d)) with true by (symmetry; apply Z.ltb_lt; unfold zlen; cbn [length]; lia). cbn iota.
      destruct (repr_put (h_headers r) (dh x) (bs "Content-Type") (Some form_type) RH) as (hm & PU & RM); [discriminate|split; [|reflexivity]|].
      { unfold cstr. repeat constructor. }
      exists hm. split; [exact RM|]. pose proof (form_text _ p d RF) as FT. destruct (each (h_form r) add_form (keys (h_form r)) (false, None)) as [b|]; [|discriminate]. unfold bind at 1 in FT. injection FT as FT.
      unfold bind at 1. rewrite FT, PU. reflexivity. }
  destruct FO as (hm & RM & FO). rewrite FO. unfold bind at 1. cbv iota beta.
  apply obind_set; intros o7.
  rewrite (header_text hm _ RM). unfold bind at 1.
  assert (CK : (if 0 <? u_map_count (h_cookies r) then do t <- each (h_cookies r) add_cookie (keys (h_cookies r)) None; Ret [CookieText t] else Ret []) = Ret (t_cookie (texts_of r x u))).
  { unfold texts_of. cbn [t_cookie]. rewrite (repr_count _ _ RC). destruct (dc x) as [|p d] eqn:DC; [reflexivity|].
    replace (0 <? zlen (p :: d)) with true by (symmetry; apply Z.ltb_lt; unfold zlen; cbn [length]; lia). cbn iota. rewrite (cookie_join _ p d RC). reflexivity. }
  rewrite CK. unfold bind at 1.
  apply obind_set; intros o8.
  change (t_url (texts_of r x u)) with u. change (t_lines (texts_of r x u)) with (map header_line (final_headers x)).
  apply obind_set; intros o9.
  apply obind_set; intros o11.
  apply obind_set; intros o12.
  apply obind_set; intros o13.
  apply obind_set; intros o15.
  apply obind_set; intros o16. reflexivity.
Qed.

Lemma request_url_any : forall u m d, repr m d -> exists t, request_url u m = Ret t.
Proof.
  intros u m d R. unfold request_url. rewrite (repr_count m d R). destruct (0 <? zlen d); [|eexists; reflexivity].
  rewrite (each_pure m d add_param url_step _ R) by (intros [h [x|]] [k [v|]] _; cbn; reflexivity). eexists. reflexivity.
Qed.

(** what the list of options says about one of them *)
Lemma opt_id : forall {A} (e : option A), match e with Some x => Some x | None => None end = e.
Proof. now intros A []. Qed.
Ltac cases := repeat match goal with |- context [match ?x with _ => _ end] => destruct x end.
Ltac skip_one := match goal with |- context [last_of ?f ?X] => let H := fresh in
  assert (H : last_of f X = None) by (solve [reflexivity | unfold checks, when_some, texts_of; cbn [t_accept t_body t_cookie]; cases; reflexivity]); rewrite H; clear H end.
Ltac narrow := unfold wanted; rewrite !last_of_app; repeat (skip_one; cbv iota); rewrite ?opt_id.

Section Wanted.
  Variables (r : hreq) (w da h : bool) (x : dicts) (u : option str).
  Let l := wanted r w da h (texts_of r x u).
  Lemma wanted_peer : last_of o_peer l = last_of o_peer (checks VerifyPeer VerifyHost (h_check_server r) (h_server_flag r)).
  Proof. unfold l. narrow. reflexivity. Qed.
  Lemma wanted_host : last_of o_host l = last_of o_host (checks VerifyPeer VerifyHost (h_check_server r) (h_server_flag r)).
  Proof. unfold l. narrow. reflexivity. Qed.
  Lemma wanted_proxy_peer : last_of o_proxy_peer l = last_of o_proxy_peer (checks ProxyVerifyPeer ProxyVerifyHost (h_check_proxy r) (h_proxy_flag r)).
  Proof. unfold l. narrow. reflexivity. Qed.
  Lemma wanted_proxy_host : last_of o_proxy_host l = last_of o_proxy_host (checks ProxyVerifyPeer ProxyVerifyHost (h_check_proxy r) (h_proxy_flag r)).
  Proof. unfold l. narrow. reflexivity. Qed.
  Lemma wanted_protocols : last_of o_protocols l = Some only_http /\ last_of o_redir l = Some only_http.
  Proof. unfold l. split; narrow; cases; reflexivity. Qed.
  Lemma wanted_auth : (last_of o_user l, last_of o_password l) = match h_user r, h_password r with Some a, Some b => (Some a, Some b) | _, _ => (None, None) end.
  Proof. unfold l. narrow; cases; reflexivity. Qed.
  Lemma wanted_cert : (last_of o_cert l, last_of o_key l) = match h_cert r, h_key r with Some a, Some b => (Some a, Some b) | _, _ => (None, None) end.
  Proof. unfold l. narrow. unfold when_some. cases; reflexivity. Qed.
  Lemma wanted_proxy : last_of o_proxy l = h_proxy r.
  Proof. unfold l. narrow. unfold when_some. cases; reflexivity. Qed.
  Lemma wanted_follow : last_of o_follow l = if h_follow r =? 0 then None else Some tt.
  Proof. unfold l. narrow. unfold when_some, is_set. destruct (h_follow r =? 0); cbn [negb]; cases; reflexivity. Qed.
  Lemma wanted_network : last_of o_network l = Some (if is_set (Z.land (h_network r) USE_ALL) then IPRESOLVE_WHATEVER else if is_set (Z.land (h_network r) USE_IPV6) then IPRESOLVE_V6 else IPRESOLVE_V4).
  Proof. unfold l. narrow. reflexivity. Qed.
  Lemma wanted_ca : last_of o_ca l = h_ca_path r.
  Proof. unfold l. narrow. unfold when_some. cases; reflexivity. Qed.
  Lemma wanted_timeout : last_of o_timeout l = if h_timeout r =? 0 then None else Some (h_timeout r).
  Proof. unfold l. narrow. unfold when_some, is_set. destruct (h_timeout r =? 0); cbn [negb]; cases; reflexivity. Qed.
  Lemma wanted_verb : last_of o_verb l = Some (match h_verb r with Some v => v | None => bs "GET" end).
  Proof. unfold l. narrow. reflexivity. Qed.
  Lemma wanted_url : last_of o_url l = Some u.
  Proof. unfold l. narrow. reflexivity. Qed.
  Lemma wanted_headers : last_of o_headers l = Some (map header_line (final_headers x)).
  Proof. unfold l. narrow. reflexivity. Qed.
  Lemma wanted_cookies : last_of o_cookies l = match dc x with [] => None | d => Some (Some (join_with [59] (map cookie_line d))) end.
  Proof. unfold l. narrow. unfold texts_of. cbn [t_cookie]. destruct (dc x); reflexivity. Qed.
  Lemma wanted_body : (last_of o_body l, last_of o_size l) =
    match t_body (texts_of r x u) with Some b => if t_len (texts_of r x u) =? 0 then (None, None) else (Some b, Some (t_len (texts_of r x u))) | None => (None, None) end.
  Proof. unfold l. narrow. unfold is_set. destruct (t_body (texts_of r x u)); [|reflexivity]. destruct (t_len (texts_of r x u) =? 0); [reflexivity|]. cbn [negb]. destruct (t_len (texts_of r x u) <? 2147483648); reflexivity. Qed.
End Wanted.

(** the bits of the flags *)
Lemma bit0 : forall n, is_set (Z.land n 1) = Z.testbit n 0.
Proof. intros n. unfold is_set. change 1 with (Z.ones 1). rewrite Z.land_ones by lia. rewrite Z.bit0_odd. change (2 ^ 1) with 2. rewrite Zmod_odd. now destruct (Z.odd n). Qed.
Lemma bit4 : forall n, is_set (Z.land n 16) = Z.testbit n 4.
Proof.
  intros n. unfold is_set. destruct (Z.testbit n 4) eqn:E.
  - destruct (Z.eqb_spec (Z.land n 16) 0) as [Q|]; [|reflexivity]. assert (Z.testbit (Z.land n 16) 4 = true) by (rewrite Z.land_spec, E; reflexivity). rewrite Q in *. discriminate.
  - replace (Z.land n 16) with 0; [reflexivity|]. symmetry. apply Z.bits_inj'. intros i I. rewrite Z.land_spec, Z.bits_0. change 16 with (2 ^ 4). rewrite Z.pow2_bits_eqb by lia. destruct (Z.eqb_spec 4 i) as [<-|]; [now rewrite E|apply andb_false_r].
Qed.

(** the handle and libcurl's answers *)
Lemma set_all_refused : forall c l, ~ all_accepted c l -> set_all c [] l = None.
Proof. intros c l N. destruct (set_all c [] l) as [x|] eqn:E; [|reflexivity]. exfalso. apply N. apply set_all_some in E as [_ A]. exact A. Qed.
Lemma set_all_all : forall c l, all_accepted c l -> set_all c [] l = Some l.
Proof. intros c l A. exact (set_all_accepted c l [] A). Qed.

(** ** Mail *)
Definition mail_port (e : mail) : Z := if m_port e =? 0 then if m_tls e =? 0 then 25 else 587 else m_port e.
Definition mail_url (e : mail) (host : str) : str := bs "smtp" ++ (if m_tls e =? 0 then [] else bs "s") ++ bs "://" ++ host ++ bs ":" ++ Dec.sdec (mail_port e).
Definition olist (o : option str) : list str := match o with Some x => [x] | None => [] end.
Definition mail_text (e : mail) (date from to ty body : str) : str :=
  date ++ ln ++ bs "To: " ++ to ++ ln ++ bs "From: " ++ from ++ ln ++ (match m_cc e with Some x => bs "Cc: " ++ x ++ ln | None => [] end)
  ++ bs "Subject: " ++ (match m_subject e with Some s => s | None => [] end) ++ ln ++ bs "Content-Type: " ++ ty ++ ln ++ ln ++ body ++ ln.
Definition mail_wanted (e : mail) (date host from to ty body : str) : list opt :=
  [Url (Some (mail_url e host))] ++ (if is_set (m_tls e) then [UseSsl] else []) ++
  (if is_set (m_tls e) && negb (is_set (m_verify e)) then [VerifyPeer 0; VerifyHost 0] else []) ++
  (match m_user e, m_password e with Some u, Some p => [Username u; Password p] | _, _ => [] end) ++
  [MailFrom from] ++ [MailRcpt ([to] ++ olist (m_cc e) ++ olist (m_bcc e))] ++ [ReadFunction; ReadData (mail_text e date from to ty body); Upload].
Lemma send_mail_wanted : forall c date e host from to body ty,
  m_host e = Some host -> m_from e = Some from -> m_to e = Some to -> m_body e = Some body -> m_type e = Some ty ->
  send_mail c date e = Ret (Some (set_all c [] (mail_wanted e date host from to ty body))).
Proof.
  intros c date e host from to body ty H F T B Y. unfold send_mail. rewrite H, F, T, B, Y. cbv zeta.
  replace (if (m_port e =? 0) && negb (is_set (m_tls e)) then 25 else if (m_port e =? 0) && is_set (m_tls e) then 587 else m_port e) with (mail_port e)
    by (unfold mail_port, is_set; destruct (m_port e =? 0), (m_tls e =? 0); reflexivity).
  replace (bs "smtp" ++ (if is_set (m_tls e) then bs "s" else []) ++ bs "://" ++ host ++ bs ":" ++ Dec.sdec (mail_port e)) with (mail_url e host)
    by (unfold mail_url, is_set; destruct (m_tls e =? 0); reflexivity).
  fold (olist (m_cc e)) (olist (m_bcc e)). fold (mail_text e date from to ty body).
  match goal with |- (do x <- ?X; _) = _ => assert (E : X = Ret (set_all c [] (mail_wanted e date host from to ty body))); [|rewrite E; reflexivity] end.
  unfold mail_wanted. do 6 (apply obind_set; intros ?). reflexivity.
Qed.
Section MailWanted.
  Variables (e : mail) (date host from to ty body : str).
  Let l := mail_wanted e date host from to ty body.
  Lemma mail_ssl : last_of o_ssl l = if m_tls e =? 0 then None else Some tt.
  Proof. unfold l, mail_wanted, is_set. destruct (m_tls e =? 0); cbn [negb andb]; cases; reflexivity. Qed.
  Lemma mail_peer : last_of o_peer l = (if (m_tls e =? 0) || negb (m_verify e =? 0) then None else Some 0) /\ last_of o_host l = (if (m_tls e =? 0) || negb (m_verify e =? 0) then None else Some 0).
  Proof. unfold l, mail_wanted, is_set. destruct (m_tls e =? 0), (m_verify e =? 0); cbn [negb andb orb]; cases; split; reflexivity. Qed.
  Lemma mail_auth : (last_of o_user l, last_of o_password l) = match m_user e, m_password e with Some a, Some b => (Some a, Some b) | _, _ => (None, None) end.
  Proof. unfold l, mail_wanted. cases; reflexivity. Qed.
  Lemma mail_rest : last_of o_url l = Some (Some (mail_url e host)) /\ last_of o_from l = Some from /\ last_of o_rcpt l = Some ([to] ++ olist (m_cc e) ++ olist (m_bcc e)) /\ last_of o_text l = Some (mail_text e date from to ty body).
  Proof. unfold l, mail_wanted. generalize (mail_url e host), (mail_text e date from to ty body). intros. cases; repeat split. Qed.
End MailWanted.
