(** Proofs about the textual export. *)
From Coq Require Import String ZArith Bool List Lia.
From Verif Require CookieProps.
From Verif Require Import Base BaseFacts Dec UMapModel UMapSpec SMap SMapCase ClientModel UrlModel UrlProofs Utf8Model Utf8Spec Utf8Props UMapProofs YuarelModel YuarelSpec YuarelProofs YuarelProps HttpText
  CookieModel SendModel SendSpec SendProofs OpenModel OpenSpec OpenProofs ExportModel ExportSpec.
Import ListNotations.
Open Scope Z_scope.

Section Enc.
Variable ah : Z -> bool.
Definition E (s : str) : str := flat_map (enc1 ah) s.
Lemma enc_eq : forall s, cstr s -> enc ah s = Ret (E s).
Proof. intros s C. unfold enc. rewrite (url_encode_flat ah s C). cbn [bind]. now rewrite removelast_last. Qed.

Definition hex_pairs_ok : bool := forallb (fun n => let c := Z.of_nat n in
  match hexv (to_hex (Z.shiftr (UrlModel.schar c) 4)), hexv (to_hex (Z.land (UrlModel.schar c) 15)) with Some x, Some y => (16 * x + y =? c) | _, _ => false end) (seq 1 255).
Lemma hex_pair : forall c, 0 < c < 256 -> exists x y, hexv (to_hex (Z.shiftr (UrlModel.schar c) 4)) = Some x /\ hexv (to_hex (Z.land (UrlModel.schar c) 15)) = Some y /\ 16 * x + y = c.
Proof.
  assert (H : hex_pairs_ok = true) by (vm_compute; reflexivity). intros c C. unfold hex_pairs_ok in H. rewrite forallb_forall in H.
  specialize (H (Z.to_nat c)). rewrite in_seq in H. rewrite Z2Nat.id in H by lia. specialize (H ltac:(lia)). cbv zeta in H.
  destruct (hexv (to_hex (Z.shiftr (UrlModel.schar c) 4))) as [x|], (hexv (to_hex (Z.land (UrlModel.schar c) 15))) as [y|]; try discriminate. exists x, y. apply Z.eqb_eq in H. auto.
Qed.
Lemma unescape_E : forall s, cstr s -> unescape (E s) = Some s.
Proof.
  induction s as [|c s IH]; intros C; [reflexivity|]. inversion C as [|x l C1 C2]; subst. cbn [E flat_map]. fold (E s). unfold enc1. destruct (keep ah c) eqn:K.
  - destruct (keep_not_special ah c K) as [K1 K2]. cbn [app]. rewrite unescape_plain by assumption. now rewrite IH.
  - destruct (c =? 32) eqn:S; [apply Z.eqb_eq in S; subst; cbn [app unescape]; now rewrite IH|].
    destruct (hex_pair c C1) as (x & y & X & Y & V). cbn [app unescape]. rewrite X, Y, IH by exact C2. now rewrite V.
Qed.
Definition hex_plain : bool := forallb (fun n => let c := Z.of_nat n in let ok d := ((48 <=? d) && (d <=? 57)) || ((65 <=? d) && (d <=? 70)) in
  ok (to_hex (Z.shiftr (UrlModel.schar c) 4)) && ok (to_hex (Z.land (UrlModel.schar c) 15))) (seq 1 255).
(** what does not appear in an encoded text *)
Lemma E_no : forall s x, cstr s -> In x [38; 61; 63; 35; 13; 32; 9] -> ~ In x (E s).
Proof.
  assert (H : hex_plain = true) by (vm_compute; reflexivity). unfold hex_plain in H. rewrite forallb_forall in H.
  intros s x C X I. unfold E in I. apply in_flat_map in I as (c & I & J). assert (CB : 0 < c < 256) by (unfold cstr in C; rewrite Forall_forall in C; exact (C c I)).
  specialize (H (Z.to_nat c)). rewrite in_seq in H. rewrite Z2Nat.id in H by lia. specialize (H ltac:(lia)). cbv zeta in H. apply andb_true_iff in H as [H1 H2].
  unfold enc1 in J. destruct (keep ah c) eqn:K.
  - destruct J as [<-|[]]. unfold keep, is_alnum, is_digit in K. cbn [In] in X. 
    destruct X as [<-|[<-|[<-|[<-|[<-|[<-|[<-|[]]]]]]]]; cbn in K; discriminate.
  - destruct (c =? 32); [destruct J as [<-|[]]; cbn [In] in X; intuition discriminate|]. cbn [In] in X. destruct J as [<-|[<-|[<-|[]]]]; [intuition discriminate| |].
    + apply orb_true_iff in H1. rewrite !andb_true_iff, !Z.leb_le in H1. intuition lia.
    + apply orb_true_iff in H2. rewrite !andb_true_iff, !Z.leb_le in H2. intuition lia.
Qed.

(** one pair *)
Definition etext (p : str * option str) : str := match snd p with Some v => E (fst p) ++ 61 :: E v | None => E (fst p) end.
Lemma read_etext : forall p, entry_bytes p -> read_pair (etext p) = Some p.
Proof.
  intros [k [v|]] [K V]; cbn [fst snd] in *; unfold read_pair, etext; cbn [fst snd].
  - destruct V as [V _]. rewrite cut_intro by (apply E_no; [exact K|cbn; auto]). now rewrite !unescape_E.
  - rewrite cut_intro_none by (apply E_no; [exact K|cbn; auto]). now rewrite unescape_E.
Qed.
Lemma etext_no : forall p x, entry_bytes p -> In x [38; 63; 13] -> ~ In x (etext p).
Proof.
  intros [k [v|]] x [K V] X; cbn [fst snd] in *; unfold etext; cbn [fst snd].
  - destruct V as [V _]. intros I. apply in_app_or in I as [I|[I|I]]; [revert I; apply E_no; [exact K|cbn in *; tauto]|subst x; cbn in X; intuition discriminate|revert I; apply E_no; [exact V|cbn in *; tauto]].
  - apply E_no; [exact K|cbn in *; tauto].
Qed.
Lemma read_ejoin : forall d, d <> [] -> Forall entry_bytes d -> read_pairs (join_with [38] (map etext d)) = Some d.
Proof.
  intros d N F. unfold read_pairs. rewrite pieces_join.
  - rewrite map_map. rewrite (all_some_map _ (fun p => p)); [now rewrite map_id|]. eapply Forall_impl; [|exact F]. intros p. apply read_etext.
  - destruct d; [congruence|discriminate].
  - apply Forall_map. eapply Forall_impl; [|exact F]. intros p P. apply etext_no; [exact P|cbn; auto].
Qed.

(** ** The URL *)
Definition ustep (s : bool * option str) (p : str * option str) : bool * option str := (true, catf (snd s) ((if fst s then 38 else 63) :: etext p)).
Lemma param_out_eq : forall s p, entry_bytes p -> param_out ah s (fst p) (snd p) = Ret (ustep s p).
Proof.
  intros [h u] [k [v|]] [K V]; cbn [fst snd] in *; unfold param_out; rewrite (enc_eq k K); cbn [bind].
  - destruct V as [V _]. rewrite (enc_eq v V). reflexivity.
  - reflexivity.
Qed.
Lemma ufold : forall d has u, snd (fold_left ustep d (has, Some u)) = Some (u ++ match d with [] => [] | _ => (if has then [38] else [63]) ++ join_with [38] (map etext d) end).
Proof.
  induction d as [|p d IH]; intros has u; [cbn; now rewrite app_nil_r|]. cbn [fold_left]. change (ustep (has, Some u) p) with (true, Some (u ++ (if has then 38 else 63) :: etext p)). rewrite IH. f_equal. rewrite <- app_assoc. f_equal.
  destruct d as [|q d]; cbn [map join_with]; [rewrite app_nil_r; now destruct has|]. destruct has; cbn [app]; rewrite <- ?app_assoc; reflexivity.
Qed.
Definition target (path : str) (query : option str) (d : smap) : str :=
  no_space path ++ part (bs "?") query ++ match d with [] => [] | _ => (match query with Some _ => [38] | None => [63] end) ++ join_with [38] (map etext d) end.
Lemma url_out_eq : forall path query m d, repr m d -> names_ok d -> url_out ah (Some path) query m = Ret (Some (target path query d)).
Proof.
  intros path query m d R K. pose proof (repr_entries m d R K) as EB. unfold url_out, target. cbn [option_map]. rewrite (repr_count m d R).
  assert (G : forall has u, (if 0 <? zlen d then do x <- each m (param_out ah) (keys m) (has, Some u); Ret (snd x) else Ret (Some u)) =
    Ret (Some (u ++ match d with [] => [] | _ => (if has then [38] else [63]) ++ join_with [38] (map etext d) end))).
  { intros has u. destruct d as [|p d]; [change (0 <? zlen []) with false; cbv iota; now rewrite app_nil_r|].
    replace (0 <? zlen (p :: d)) with true by (symmetry; apply Z.ltb_lt; unfold zlen; cbn [length]; lia). cbv iota.
    rewrite (each_pure m (p :: d) (param_out ah) ustep _ R) by (intros s q I; apply param_out_eq; rewrite Forall_forall in EB; auto). change (do x <- Ret (fold_left ustep (p :: d) (has, Some u)); Ret (snd x)) with (Ret (snd (fold_left ustep (p :: d) (has, Some u)))). f_equal. apply ufold. }
  destruct query as [q|]; cbn [catf]; [etransitivity; [apply (G true)|]|etransitivity; [apply (G false)|]]; [|reflexivity]. cbn [part]. now rewrite <- app_assoc.
Qed.
Lemma no_space_map : forall s, no_space s = concat (map (fun c => if c =? 32 then bs "%20" else [c]) s).
Proof. induction s as [|c s IH]; [reflexivity|]. cbn [no_space map concat]. now rewrite IH. Qed.
Lemma target_fine : forall u d, url_ok u -> names_ok d -> Forall (fun p => ovalue_ok (snd p)) d -> oall one_line (u_path u) -> oall one_line (u_query u) ->
  target_ok u d (target (value (u_path u)) (u_query u) d).
Proof.
  intros u d U K V OP OQ. assert (EB : Forall entry_bytes d) by (unfold names_ok in K; rewrite Forall_forall in *; intros p I; split; auto).
  assert (NP : ~ In 63 (no_space (value (u_path u)))).
  { apply no_space_no; try lia. destruct U as (_ & _ & _ & _ & _ & _ & _ & PA & _). destruct (u_path u) as [p|]; [|intros []]. cbn [value oall] in *. apply (without_in "?#" p 63 PA). cbn. tauto. }
  assert (J : ~ In 13 (join_with [38] (map etext d))).
  { apply join_no; [lia|]. apply Forall_map. eapply Forall_impl; [|exact EB]. intros p P. apply etext_no; [exact P|cbn; auto]. }
  unfold target_ok, target. split; [|split].
  - rewrite !in_app_iff. intros [I|[I|I]].
    + revert I. apply no_space_no; try lia. destruct (u_path u); [exact OP|intros []].
    + destruct (u_query u); [|destruct I]. cbn [part] in I. apply in_app_iff in I as [I|I]; [cbn in I; intuition discriminate|now apply OQ].
    + destruct d; [destruct I|]. apply in_app_iff in I as [I|I]; [destruct (u_query u); cbn in I; intuition discriminate|now apply J].
  - unfold split_url. rewrite <- no_space_map. destruct (u_query u) as [q|]; [cbn [part]; change (bs "?" ++ q) with (63 :: q); cbn [app]; rewrite cut_intro by exact NP; reflexivity|]. cbn [part app].
    destruct d as [|p d]; [rewrite app_nil_r, cut_intro_none by exact NP; reflexivity|]. cbn [app]. rewrite cut_intro by exact NP. reflexivity.
  - intros old O. unfold split_url. destruct (u_query u) as [q|]; cbn [part].
    + change (bs "?" ++ q) with (63 :: q). cbn [app]. rewrite cut_intro by exact NP. cbn [snd query_pairs] in *. destruct d as [|p d]; [rewrite !app_nil_r; exact O|].
      unfold read_pairs in *. assert (P : forall a b, pieces 38 (a ++ 38 :: b) = pieces 38 a ++ pieces 38 b).
      { clear. induction a as [|c a IH]; intros b; [reflexivity|]. cbn [app pieces]. destruct (c =? 38); [cbn [app]; now rewrite IH|]. rewrite IH.
        assert (NE : pieces 38 a <> []) by (destruct a as [|e a]; [discriminate|cbn [pieces]; destruct (e =? 38); [discriminate|destruct (pieces 38 a); discriminate]]). destruct (pieces 38 a); [congruence|reflexivity]. }
      cbn [app]. rewrite P, map_app. apply all_some_app; [exact O|]. exact (read_ejoin (p :: d) ltac:(discriminate) EB).
    + injection O as <-. cbn [app]. destruct d as [|p d]; [rewrite app_nil_r, cut_intro_none by exact NP; reflexivity|]. cbn [app]. rewrite cut_intro by exact NP. cbn [snd query_pairs]. apply read_ejoin; [discriminate|exact EB].
Qed.

(** ** Lines *)
Definition W (ls : list str) : str := concat (map (fun l => l ++ eol) ls).
Lemma W_app : forall a b, W (a ++ b) = W a ++ W b.
Proof. intros. unfold W. now rewrite map_app, concat_app. Qed.
Definition hline (p : str * option str) : str := match snd p with Some v => fst p ++ bs ": " ++ v | None => fst p ++ bs ":" end.
Lemma headers_out : forall m d out, repr m d -> each m header_out (keys m) out = Ret (out ++ W (map hline d)).
Proof.
  intros m d out R. rewrite (each_pure m d header_out (fun o p => o ++ hline p ++ eol) _ R).
  - f_equal. clear R. revert out. induction d as [|p d IH]; intros out; cbn [fold_left map]; [cbn; now rewrite app_nil_r|]. rewrite IH. unfold W. cbn [map concat]. now rewrite <- !app_assoc.
  - intros o [k [v|]] _; unfold header_out, hline; cbn [fst snd]; rewrite <- !app_assoc; reflexivity.
Qed.
Definition cline (p : str * option str) : str := bs "Cookie: " ++ match snd p with Some v => fst p ++ bs "=" ++ E v | None => fst p end.
Lemma cookies_out : forall m d out, repr m d -> each m (cookie_out ah) (keys m) out = Ret (out ++ W (map cline d)).
Proof.
  intros m d out R. pose proof (repr_ovalues m d R) as V. rewrite (each_pure m d (cookie_out ah) (fun o p => o ++ cline p ++ eol) _ R).
  - f_equal. clear R V. revert out. induction d as [|p d IH]; intros out; cbn [fold_left map]; [cbn; now rewrite app_nil_r|]. rewrite IH. unfold W. cbn [map concat]. now rewrite <- !app_assoc.
  - intros o p I. rewrite Forall_forall in V. specialize (V p I). destruct p as [k [v|]]; unfold cookie_out, cline; cbn [fst snd] in *; [destruct V as [V _]; rewrite (enc_eq v V); cbn [bind]|]; rewrite <- !app_assoc; reflexivity.
Qed.
End Enc.

(** ** Blocks *)
Lemma up_to_block : forall body rest, ~ In 0 body -> up_to (block_of body ++ rest) (zlen body) = Ret body.
Proof.
  induction body as [|c body IH]; intros rest N; [destruct rest as [|[|] ?]; reflexivity|]. unfold block_of. cbn [map app up_to]. replace (zlen (c :: body) <=? 0) with false by (symmetry; apply Z.leb_gt; unfold zlen; cbn [length]; lia).
  replace (c =? 0) with false by (symmetry; apply Z.eqb_neq; intros ->; apply N; now left). replace (zlen (c :: body) - 1) with (zlen body) by (unfold zlen; cbn [length]; lia).
  fold (block_of body). rewrite IH by (intros I; apply N; now right). reflexivity.
Qed.
Lemma print_block : forall body rest, ~ In 0 body -> zlen body < 2147483648 -> print_n (Some (block_of body ++ rest)) (zlen body) = Ret body.
Proof.
  intros body rest N L. unfold print_n. rewrite Z.mod_small by (unfold zlen in *; lia). replace (zlen body <? 2147483648) with true by (symmetry; now apply Z.ltb_lt). cbv zeta iota. now apply up_to_block.
Qed.
Lemma read_cstr_inv : forall b s, read_cstr b = Ret s -> exists rest, b = block_of s ++ Some 0 :: rest.
Proof.
  induction b as [|[c|] b IH]; intros s H; try discriminate. cbn [read_cstr] in H. destruct (Z.eqb_spec c 0) as [->|].
  - injection H as <-. now exists b.
  - destruct (read_cstr b) as [t|] eqn:R; [|discriminate]. injection H as <-. destruct (IH t eq_refl) as (rest & ->). now exists rest.
Qed.
Lemma read_n_block : forall l rest, read_n (length l) (block_of l ++ rest) = Ret l.
Proof. induction l as [|c l IH]; intros rest; [reflexivity|]. unfold block_of. cbn [length map app read_n]. fold (block_of l). rewrite IH. reflexivity. Qed.

Lemma hline_writes : forall p, field_ok p -> writes (hline p) (fst p, value (snd p)).
Proof.
  intros [k [v|]] (K & N & O1 & O2 & T); cbn [fst snd value] in *; unfold hline; cbn [fst snd]; [now apply field_line|].
  split; [rewrite in_app_iff; intros [I|I]; [now apply O1|cbn in I; intuition discriminate]|]. change (bs ":") with [58]. rewrite read_field_intro by assumption. reflexivity.
Qed.
Lemma last_app : forall (a b : str), b <> [] -> last (a ++ b) 0 = last b 0.
Proof. intros a b B. induction a as [|y l IH]; [reflexivity|]. cbn [app]. rewrite <- IH. destruct (l ++ b) eqn:X; [|reflexivity]. apply app_eq_nil in X as [_ X]. congruence. Qed.
Lemma udec_line : forall n, 0 <= n -> one_line (udec n) /\ tight (udec n) /\ udec n <> [].
Proof.
  intros n N. destruct (udec_ok n N) as (F & _ & NE). rewrite Forall_forall in F. split; [intros I; apply F in I; unfold digit in I; lia|]. split; [|exact NE].
  assert (D1 : digit (last (udec n) 0)) by (apply F; now apply last_in). assert (D2 : digit (hd 0 (udec n))) by (destruct (udec n); [congruence|apply F; now left]). unfold digit in *. unfold tight. lia.
Qed.
Lemma W1 : forall l, W [l] = l ++ eol.
Proof. intros l. unfold W. cbn [map concat]. apply app_nil_r. Qed.
Lemma piece : forall (b : bool) out (l x : str), (if b then out ++ l ++ x ++ nl else out) = out ++ W (unless (negb b) [l ++ x]).
Proof. intros [] out l x; cbn [negb unless]; [rewrite W1, <- app_assoc; reflexivity|]. unfold W. cbn [map concat]. now rewrite app_nil_r. Qed.

(** ** The lines of a request *)
Section Request.
Variable ah : Z -> bool.
Variable base64 : str -> option str.
Definition auth_lines (has : bool) (user pass : option str) : list str :=
  match user, pass with Some u, Some p => if has then [] else match base64 (u ++ bs ":" ++ p) with Some e => [bs "Authorization: Basic " ++ e] | None => [] end | _, _ => [] end.
Definition lines (u : url) (dh dc : smap) (n forms : Z) (user pass : option str) : list str :=
  unless (shas_case dh (bs "Host")) [bs "Host: " ++ host_of u] ++ map hline dh ++ map (cline ah) dc
  ++ unless (shas_case dh (bs "Content-Length") || (n =? 0)) [bs "Content-Length: " ++ udec n]
  ++ unless (shas_case dh (bs "Content-Type") || (forms =? 0)) [bs "Content-type: " ++ form_type]
  ++ auth_lines (shas_case dh (bs "Authorization")) user pass.
Definition verb_of (v : option str) : str := match v with Some v => v | None => bs "GET" end.
Definition start_line (verb : option str) (u : url) (dp : smap) : str := verb_of verb ++ bs " /" ++ target ah (value (u_path u)) (u_query u) dp ++ bs " HTTP/1.1".


Definition rest_of (r : xreq) (out : str) (b : buf) : outcome (option str * option buf) :=
  if negb (x_length r =? 0) then do t <- print_n (x_body r) (x_length r); Ret (Some (out ++ nl ++ t ++ nl), Some b)
  else if negb (u_map_count (x_form r) =? 0) then
    do ct <- get_str (x_headers r) (bs "Content-Type");
    if match ct with Some v => containsb v form_type | None => true end then
      do s <- each (x_form r) (form_out ah (x_form r)) (keys (x_form r)) (false, []);
      let body := snd s in
      Ret (Some (out ++ bs "Content-Length: " ++ udec (zlen body) ++ nl ++ nl ++ body), Some b)
    else Ret (Some out, Some b)
  else Ret (Some out, Some b).

Definition shape (r : xreq) (u : url) (dp dh dc : smap) : Prop :=
  x_url r = Some (cblock (url_text u)) /\ url_ok u /\ zlen (url_text u) < two32 /\ port_ok u /\ u_path u <> None /\
  repr (x_params r) dp /\ names_ok dp /\ repr (x_headers r) dh /\ repr (x_cookies r) dc.

Lemma export_eq : forall r u dp dh dc, shape r u dp dh dc ->
  exists b, export_request ah base64 r = rest_of r (start_line (x_verb r) u dp ++ eol ++ W (lines u dh dc (x_length r) (u_map_count (x_form r)) (x_user r) (x_password r))) b.
Proof.
  intros r u dp dh dc (EU & U & L & P & PA & RP & NP & RH & RC). unfold export_request. rewrite EU.
  destruct (C64_any_text (url_text u) (url_text_cstr u U) L) as (code & b & y & E & A). rewrite E. cbn [bind]. rewrite (parse_url_text u U) in A. destruct A as [-> (_ & _ & _ & A4 & A5 & A6 & A7 & _)].
  change (negb (0 =? 0)) with false. cbv iota. unfold parts_of in *. cbn [p_host p_port p_path p_query] in *.
  rewrite (field_shows _ _ _ A6), (field_shows _ _ _ A7), (field_shows _ _ _ A4). cbn [bind]. destruct (u_path u) as [path|] eqn:PE; [|congruence].
  rewrite (url_out_eq ah path (u_query u) _ _ RP NP). cbn [bind arg].
  rewrite !(repr_has_case _ _ _ RH). unfold bind at 1. exists b.
  set (S0 := (match x_verb r with Some v => v ++ bs " /" | None => bs "GET /" end) ++ target ah path (u_query u) dp ++ bs " HTTP/1.1" ++ nl).
  assert (ES : S0 = start_line (x_verb r) u dp ++ eol).
  { unfold S0, start_line, verb_of. rewrite PE. cbn [value]. destruct (x_verb r); rewrite <- !app_assoc; reflexivity. }
  set (HH := shas_case dh (bs "Host")).
  assert (EH : (if HH then Ret S0 else Ret (S0 ++ bs "Host: " ++ u_host u ++ (if negb (y_port y =? 0) then bs ":" ++ sdec (y_port y) else []) ++ nl)) = Ret (S0 ++ W (unless HH [bs "Host: " ++ host_of u]))).
  { destruct HH; cbn [unless]; [unfold W; cbn [map concat]; now rewrite app_nil_r|]. do 2 f_equal. rewrite W1. unfold host_of. rewrite A5. unfold port_ok in P.
    destruct (u_port u) as [n|]; cbn [option_map part].
    - replace (n =? 0) with false by (symmetry; apply Z.eqb_neq; lia). cbn [negb]. unfold sdec. replace (n <? 0) with false by (symmetry; apply Z.ltb_ge; lia). rewrite <- !app_assoc. reflexivity.
    - change (negb (0 =? 0)) with false. cbv iota. rewrite !app_nil_r, <- !app_assoc. reflexivity. }
  rewrite EH. unfold bind at 1. rewrite (headers_out _ _ _ RH). unfold bind at 1. rewrite (cookies_out ah _ _ _ RC). unfold bind at 1. unfold bind at 1. cbv zeta. unfold bind at 1. unfold bind at 1.
  rewrite !piece.
  match goal with |- ?lhs = _ => match lhs with context [match x_user r with Some _ => _ | None => ?o end] => set (O := o) end end.
  assert (EA : match x_user r with
    | Some u0 => match x_password r with Some p => if shas_case dh (bs "Authorization") then O else match base64 (u0 ++ bs ":" ++ p) with Some e => O ++ bs "Authorization: Basic " ++ e ++ nl | None => O end | None => O end
    | None => O end = O ++ W (auth_lines (shas_case dh (bs "Authorization")) (x_user r) (x_password r))).
  { unfold auth_lines. destruct (x_user r) as [un|]; [|unfold W; cbn [map concat]; now rewrite app_nil_r]. destruct (x_password r) as [pw|]; [|unfold W; cbn [map concat]; now rewrite app_nil_r].
    destruct (shas_case dh (bs "Authorization")); [unfold W; cbn [map concat]; now rewrite app_nil_r|]. destruct (base64 _); [|unfold W; cbn [map concat]; now rewrite app_nil_r]. rewrite W1, <- app_assoc. reflexivity. }
  rewrite EA. clear EA EH.
  assert (EQ : O ++ W (auth_lines (shas_case dh (bs "Authorization")) (x_user r) (x_password r)) = start_line (x_verb r) u dp ++ eol ++ W (lines u dh dc (x_length r) (u_map_count (x_form r)) (x_user r) (x_password r))).
  { unfold O, lines. fold HH. rewrite !W_app, ES, !negb_andb, !negb_involutive, <- !app_assoc. reflexivity. }
  rewrite EQ. reflexivity.
Qed.

(** ** Reading the lines *)
Lemma cline_writes : forall p, cookie_ok p -> ovalue_ok (snd p) -> exists f, writes (cline ah p) f /\ cookie_field p f.
Proof.
  intros [k [v|]] (C & O & H1 & H2 & NE & H3 & H4) V; cbn [fst snd] in *; unfold cline; cbn [fst snd].
  - destruct V as [V _]. exists (bs "Cookie", k ++ bs "=" ++ E ah v). split; [|split; [reflexivity|]; cbn [snd fst]; exists (E ah v); split; [reflexivity|now apply unescape_E]].
    change (bs "Cookie: " ++ k ++ bs "=" ++ E ah v) with (bs "Cookie" ++ bs ": " ++ k ++ bs "=" ++ E ah v). apply name_line; [reflexivity|discriminate| |].
    + unfold one_line. rewrite !in_app_iff. intros [I|[I|I]]; [now apply O|cbn in I; intuition discriminate|]. revert I. apply E_no; [exact V|cbn; tauto].
    + assert (LL : forall x, In x [32; 9] -> last (bs "=" ++ E ah v) 0 <> x).
      { intros x X Q. assert (I : In (last (bs "=" ++ E ah v) 0) (bs "=" ++ E ah v)) by (apply last_in; discriminate). rewrite Q in I. apply in_app_or in I as [I|I]; [cbn in I, X; intuition lia|]. revert I. apply E_no; [exact V|cbn in *; tauto]. }
      apply tight_cat; auto; try discriminate; apply LL; cbn; auto.
  - exists (bs "Cookie", k). split; [|split; reflexivity]. change (bs "Cookie: " ++ k) with (bs "Cookie" ++ bs ": " ++ k). apply name_line; [reflexivity|discriminate|exact O|]. unfold tight. auto.
Qed.
Hypothesis base64_ok : forall s e, s <> [] -> base64 s = Some e -> e <> [] /\ Forall (fun c => 33 <= c) e.
Definition plain_host (u : url) : Prop := one_line (u_host u) /\ tight (u_host u).
Lemma host_fine : forall u, url_ok u -> port_ok u -> plain_host u -> one_line (host_of u) /\ tight (host_of u).
Proof.
  intros u U P [O (T1 & T2 & T3 & T4)]. destruct U as (_ & _ & _ & _ & HN & _). unfold host_of, port_ok in *. destruct (u_port u) as [n|]; cbn [option_map part]; [|rewrite app_nil_r; split; [exact O|unfold tight; auto]].
  destruct (udec_line n ltac:(lia)) as (D1 & (_ & _ & D4 & D5) & D3). split.
  - unfold one_line. rewrite !in_app_iff. intros [I|[I|I]]; [now apply O|cbn in I; intuition discriminate|now apply D1].
  - apply tight_cat; auto; try discriminate; rewrite last_app; assumption.
Qed.
Definition user_of (user pass : option str) : option (str * str) := match user, pass with Some u, Some p => Some (u, p) | _, _ => None end.
Lemma lines_read : forall u dh dc n forms user pass, url_ok u -> port_ok u -> plain_host u -> Forall field_ok dh -> Forall cookie_ok dc -> Forall (fun p => ovalue_ok (snd p)) dc -> 0 <= n ->
  exists fs, Forall2 writes (lines u dh dc n forms user pass) fs /\ fields_ok u base64 dh dc n (negb (forms =? 0)) (user_of user pass) fs.
Proof.
  intros u dh dc n forms user pass U P PH FH FC VC N.
  assert (C : exists cs, Forall2 writes (map (cline ah) dc) cs /\ Forall2 cookie_field dc cs).
  { clear U P PH FH N. induction dc as [|p dc IH]; [exists []; split; constructor|]. destruct (IH (Forall_inv_tail FC) (Forall_inv_tail VC)) as (cs & A & B). destruct (cline_writes p (Forall_inv FC) (Forall_inv VC)) as (f & X & Y).
    exists (f :: cs). split; constructor; assumption. }
  destruct C as (cs & C1 & C2). eexists. split; [|exists cs; split; [exact C2|reflexivity]]. unfold lines.
  assert (UN : forall b l f, writes l f -> Forall2 writes (unless b [l]) (unless b [f])) by (intros [] l f X; cbn [unless]; [constructor|constructor; [exact X|constructor]]).
  destruct (host_fine u U P PH) as [HF1 HF2]. destruct (udec_line n N) as (D1 & D2 & _).
  apply Forall2_app; [|apply Forall2_app; [|apply Forall2_app; [|apply Forall2_app; [|apply Forall2_app]]]].
  - apply UN. change (bs "Host: " ++ host_of u) with (bs "Host" ++ bs ": " ++ host_of u). now apply name_line.
  - unfold fields_of. clear FC VC C1 C2. induction dh as [|p dh IH]; [constructor|]. cbn [map]. constructor; [apply hline_writes; exact (Forall_inv FH)|apply IH; exact (Forall_inv_tail FH)].
  - exact C1.
  - change (named dh (bs "Content-Length")) with (shas_case dh (bs "Content-Length")). apply UN. change (bs "Content-Length: " ++ udec n) with (bs "Content-Length" ++ bs ": " ++ udec n). now apply name_line.
  - rewrite negb_involutive. change (named dh (bs "Content-Type")) with (shas_case dh (bs "Content-Type")). apply UN. change (bs "Content-type: " ++ form_type) with (bs "Content-type" ++ bs ": " ++ form_type). apply name_line; [reflexivity|discriminate| |vm_compute; repeat split; discriminate]. intros X. cbn in X. intuition discriminate.
  - change (named dh (bs "Authorization")) with (shas_case dh (bs "Authorization")). unfold auth_lines, user_of, auth_fields. destruct user as [un|], pass as [pw|]; try (destruct (shas_case dh (bs "Authorization")); constructor).
    destruct (shas_case dh (bs "Authorization")); [constructor|]. cbn [unless]. destruct (base64 (un ++ bs ":" ++ pw)) as [e|] eqn:B; constructor; [|constructor].
    assert (NE : un ++ bs ":" ++ pw <> []) by (intros X; apply app_eq_nil in X as [_ X]; discriminate). destruct (base64_ok _ _ NE B) as [B1 B2]. rewrite Forall_forall in B2.
    change (bs "Authorization: Basic " ++ e) with (bs "Authorization" ++ bs ": " ++ bs "Basic " ++ e). unfold basic. apply name_line; [reflexivity|discriminate| |].
    + unfold one_line. rewrite in_app_iff. intros [I|I]; [cbn in I; intuition discriminate|]. apply B2 in I. lia.
    + pose proof (B2 _ (last_in e 0 B1)). apply tight_cat; auto; try discriminate; lia.
Qed.

(** ** The form *)
Definition form_entry (form : umap) (p : str * option str) : Prop :=
  cstr (fst p) /\ exists s n, snd p = Some s /\ utf8_text s /\ u_map_get_length form (Some (fst p)) = Ret n /\ 0 < n /\ (n = zlen s \/ n = zlen s + 1).
Definition fstep (s : bool * str) (p : str * option str) : bool * str := (true, (if fst s then snd s ++ bs "&" else []) ++ etext ah p).
Lemma utf8_nul : forall s, utf8_text s -> utf8_text (s ++ [0]).
Proof. intros s (c & F & <-). exists (c ++ [0]). split; [apply Forall_app; split; [exact F|constructor; [left; lia|constructor]]|]. now rewrite flat_map_app. Qed.
Lemma utf8_checked : forall l, bytes l -> utf8_text l -> utf8_check l (zlen l) = Ret None.
Proof. intros l B T. apply (C14_utf8_valid_iff l B) in T. unfold utf8_valid in T. destruct (utf8_check l (zlen l)) as [[|]|]; [discriminate|reflexivity|discriminate]. Qed.
Lemma form_out_eq : forall form d s p, repr form d -> In p d -> form_entry form p -> form_out ah form s (fst p) (snd p) = Ret (fstep s p).
Proof.
  intros form d [next body] p R I (K & t & n & V & T & GL & N & NL). pose proof (repr_ovalues form d R) as OV. rewrite Forall_forall in OV. specialize (OV p I). rewrite V in OV. destruct OV as [C _].
  pose proof (repr_get form d (fst p) R) as G. destruct (in_split p d I) as (d1 & d2 & ED); pose proof (repr_nodup form d R) as ND; rewrite ED in G, ND; rewrite (sval_self d1 p d2 (proj1 ND)), V in G. unfold get_str in G.
  unfold form_out. rewrite (enc_eq ah _ K). unfold bind at 1. rewrite GL. unfold bind at 1. destruct (u_map_get form (Some (fst p))) as [o|]; [|discriminate]. cbn [bind] in G. unfold bind at 1.
  destruct o as [b|]; [|discriminate]. cbn [deref_cstr] in G. destruct (read_cstr b) as [t'|] eqn:RB; [|discriminate]. injection G as ->. destruct (read_cstr_inv b t RB) as (rest & ->).
  replace (0 <? n) with true by (symmetry; now apply Z.ltb_lt).
  assert (B : bytes t) by (unfold cstr, bytes in *; eapply Forall_impl; [|exact C]; intros a X; cbv beta in X; lia).
  assert (RN : exists l, read_n (Z.to_nat n) (block_of t ++ Some 0 :: rest) = Ret l /\ n = zlen l /\ bytes l /\ utf8_text l).
  { destruct NL as [->| ->].
    - exists t. unfold zlen. rewrite Nat2Z.id. split; [apply read_n_block|auto].
    - exists (t ++ [0]). replace (zlen t + 1) with (zlen (t ++ [0])) by (rewrite zlen_app; reflexivity). unfold zlen at 1. rewrite Nat2Z.id.
      replace (block_of t ++ Some 0 :: rest) with (block_of (t ++ [0]) ++ rest) by (unfold block_of; rewrite map_app, <- app_assoc; reflexivity).
      split; [apply read_n_block|split; [reflexivity|split; [apply Forall_app; split; [exact B|constructor; [lia|constructor]]|now apply utf8_nul]]]. }
  destruct RN as (l & -> & EN & B2 & T2). cbn [bind]. rewrite EN, (utf8_checked l B2 T2). cbn [bind].
  rewrite V. rewrite (enc_eq ah _ C). cbn [bind]. unfold fstep, etext. rewrite V. cbn [fst snd]. reflexivity.
Qed.
Lemma ffold : forall d next body, snd (fold_left fstep d (next, body)) = match d with [] => body | _ => (if next then body ++ bs "&" else []) ++ join_with [38] (map (etext ah) d) end.
Proof.
  assert (G : forall d body, snd (fold_left fstep d (true, body)) = body ++ match d with [] => [] | _ => 38 :: join_with [38] (map (etext ah) d) end).
  { induction d as [|p d IH]; intros body; [cbn; now rewrite app_nil_r|]. cbn [fold_left]. unfold fstep at 2. cbn [fst snd]. rewrite IH, <- !app_assoc. f_equal. destruct d as [|q d]; [cbn [map join_with app]; now rewrite app_nil_r|]. cbn [map join_with]. reflexivity. }
  intros [|p d] next body; [reflexivity|]. cbn [fold_left]. unfold fstep at 2. cbn [fst snd]. rewrite G, <- app_assoc. f_equal. destruct d as [|q d]; [cbn [map join_with]; now rewrite app_nil_r|]. cbn [map join_with]. reflexivity.
Qed.
Lemma form_text : forall form d, repr form d -> d <> [] -> Forall (form_entry form) d ->
  each form (form_out ah form) (keys form) (false, []) = Ret (fold_left fstep d (false, [])) /\ snd (fold_left fstep d (false, [])) = join_with [38] (map (etext ah) d) /\ read_pairs (join_with [38] (map (etext ah) d)) = Some d.
Proof.
  intros form d R N F. split; [|split].
  - apply (each_pure form d _ _ _ R). intros s p I. apply (form_out_eq form d s p R I). rewrite Forall_forall in F. auto.
  - rewrite ffold. destruct d; [congruence|reflexivity].
  - apply read_ejoin; [exact N|]. pose proof (repr_ovalues form d R) as OV. rewrite Forall_forall in *. intros p I. split; [now destruct (F p I)|apply (OV p I)].
Qed.
End Request.

(** ** Responses *)
Definition rlines (dh : smap) (cs : list cookie) (n : Z) : list str :=
  map hline dh ++ unless (shas_case dh (bs "Set-Cookie")) (map (fun c => bs "Set-Cookie: " ++ generate_cookie_header c) cs) ++ unless (shas_case dh (bs "Content-Length") || (n =? 0)) [bs "Content-Length: " ++ udec n].
Definition rest_response (r : xres) (out : str) : outcome str := if negb (z_length r =? 0) then do t <- print_n (z_body r) (z_length r); Ret (out ++ eol ++ t ++ eol) else Ret (out ++ eol).
Lemma export_response_eq : forall r dh, repr (z_headers r) dh ->
  export_response r = rest_response r ((bs "HTTP/1.1 " ++ sdec (z_status r)) ++ eol ++ W (rlines dh (z_cookies r) (z_length r))).
Proof.
  intros r dh R. unfold export_response. rewrite (headers_out _ _ _ R). unfold bind at 1. rewrite (repr_has_case _ _ _ R). unfold bind at 1. rewrite (repr_get_case _ _ _ R). unfold bind at 1. cbv zeta.
  assert (ES : match sval_case dh (bs "Content-Length") with None => true | Some _ => false end = negb (shas_case dh (bs "Content-Length"))).
  { unfold sval_case, shas_case. rewrite existsb_find. destruct (find _ dh); reflexivity. }
  rewrite ES, andb_comm, piece, negb_andb, !negb_involutive.
  set (HC := shas_case dh (bs "Set-Cookie")). set (O := (bs "HTTP/1.1 " ++ sdec (z_status r) ++ nl) ++ W (map hline dh)).
  assert (EC : (if HC then O else O ++ concat (map (fun c => bs "Set-Cookie: " ++ generate_cookie_header c ++ nl) (z_cookies r))) = O ++ W (unless HC (map (fun c => bs "Set-Cookie: " ++ generate_cookie_header c) (z_cookies r)))).
  { destruct HC; cbn [unless]; [unfold W; cbn [map concat]; now rewrite app_nil_r|]. f_equal; unfold W; rewrite map_map; f_equal; apply map_ext; intros c; rewrite <- app_assoc; reflexivity. }
  unfold str in *.
  rewrite EC. unfold rest_response, rlines. fold HC. rewrite !W_app. unfold O. destruct (negb (z_length r =? 0)); [destruct (print_n _ _) as [t|]; [|reflexivity]; cbn [bind]|]; f_equal; unfold nl, eol; rewrite <- !app_assoc; reflexivity.
Qed.
Definition tail_ok (s : str) : Prop := last s 0 <> 32 /\ last s 0 <> 9.
Lemma tail_app : forall a b, tail_ok a -> tail_ok b -> tail_ok (a ++ b).
Proof. intros a [|c b] A B; [now rewrite app_nil_r|]. unfold tail_ok. now rewrite last_app by discriminate. Qed.
Lemma attr_fine : forall name o, oall line_text o -> one_line name -> one_line (attr name o) /\ tail_ok (attr name o).
Proof.
  intros name [s|] H N; cbn [attr oall] in *; [|split; [intros []|split; discriminate]]. destruct H as [O (_ & _ & T)]. split.
  - unfold one_line. rewrite !in_app_iff. intros [I|[I|[I|I]]]; [cbn in I; intuition discriminate|now apply N|cbn in I; intuition discriminate|now apply O].
  - rewrite app_assoc, app_assoc. apply tail_app; [|exact T]. unfold tail_ok. change (bs "=") with [61]. rewrite last_last. split; discriminate.
Qed.
Lemma lit_fine : forall (s : str), forallb (fun c => negb (c =? 13)) s = true -> negb (last s 0 =? 32) && negb (last s 0 =? 9) = true -> one_line s /\ tail_ok s.
Proof.
  intros s A B. apply andb_true_iff in B as [B1 B2]. split; [intros I; rewrite forallb_forall in A; apply A in I; discriminate|]. split; apply Z.eqb_neq; now apply negb_true_iff.
Qed.
Lemma cookie_line : forall c, line_cookie c -> writes (bs "Set-Cookie: " ++ generate_cookie_header c) (bs "Set-Cookie", generate_cookie_header c) /\ set_cookie_field c (bs "Set-Cookie", generate_cookie_header c).
Proof.
  intros c (PC & MA & KN & [K1 (K2 & K3 & K4)] & [V1 (_ & _ & V2)] & XE & XD & XP). split; [|split; [reflexivity|]; cbn [snd]; now apply CookieProps.C29_header_reads_back_partial].
  change (bs "Set-Cookie: " ++ generate_cookie_header c) with (bs "Set-Cookie" ++ bs ": " ++ generate_cookie_header c).
  assert (G : forall l : list str, Forall (fun s => one_line s /\ tail_ok s) l -> one_line (concat l) /\ tail_ok (concat l)).
  { induction 1 as [|s l [A B] F [C D]]; [split; [intros []|split; discriminate]|]. cbn [concat]. split; [unfold one_line; rewrite in_app_iff; intros [I|I]; auto|now apply tail_app]. }
  assert (GC : generate_cookie_header c = concat [ck_key c; bs "="; ck_value c; attr (bs "Expires") (ck_expires c); (if 0 <? ck_max_age c then bs "; " ++ bs "Max-Age" ++ bs "=" ++ sdec (as_int (ck_max_age c)) else []);
    attr (bs "Domain") (ck_domain c); attr (bs "Path") (ck_path c); (if negb (ck_secure c =? 0) then bs "; " ++ bs "Secure" else []); (if negb (ck_http_only c =? 0) then bs "; " ++ bs "HttpOnly" else []);
    (if ck_same_site c =? U_COOKIE_SAME_SITE_STRICT then bs "; SameSite=Strict" else if ck_same_site c =? U_COOKIE_SAME_SITE_LAX then bs "; SameSite=Lax" else if ck_same_site c =? U_COOKIE_SAME_SITE_NONE then bs "; SameSite=None" else [])]).
  { unfold generate_cookie_header. cbn [concat]. now rewrite app_nil_r. }
  assert (F : one_line (generate_cookie_header c) /\ tail_ok (generate_cookie_header c)).
  { rewrite GC. apply G. assert (E0 : one_line [] /\ tail_ok []) by (split; [intros []|split; discriminate]).
    apply Forall_cons; [split; [exact K1|exact K4]|]. apply Forall_cons; [now apply lit_fine|]. apply Forall_cons; [split; assumption|].
    apply Forall_cons; [apply attr_fine; [exact XE|now apply lit_fine]|]. apply Forall_cons.
    { destruct (0 <? ck_max_age c) eqn:M; [|exact E0]. unfold as_int. replace (ck_max_age c <? 2147483648) with true by (symmetry; apply Z.ltb_lt; lia). unfold sdec. replace (ck_max_age c <? 0) with false by (symmetry; apply Z.ltb_ge; lia).
      destruct (udec_line (ck_max_age c) ltac:(lia)) as (D1 & (_ & _ & D2) & _). split; [unfold one_line; rewrite !in_app_iff; intros [I|[I|[I|I]]]; try (cbn in I; intuition discriminate); now apply D1|].
      rewrite app_assoc, app_assoc. apply tail_app; [|exact D2]. unfold tail_ok. change (bs "=") with [61]. rewrite last_last. split; discriminate. }
    apply Forall_cons; [apply attr_fine; [exact XD|now apply lit_fine]|]. apply Forall_cons; [apply attr_fine; [exact XP|now apply lit_fine]|].
    apply Forall_cons; [destruct (negb (ck_secure c =? 0)); [now apply lit_fine|exact E0]|]. apply Forall_cons; [destruct (negb (ck_http_only c =? 0)); [now apply lit_fine|exact E0]|].
    apply Forall_cons; [|constructor]. destruct (ck_same_site c =? U_COOKIE_SAME_SITE_STRICT); [now apply lit_fine|]. destruct (ck_same_site c =? U_COOKIE_SAME_SITE_LAX); [now apply lit_fine|]. destruct (ck_same_site c =? U_COOKIE_SAME_SITE_NONE); [now apply lit_fine|exact E0]. }
  apply name_line; [reflexivity|discriminate|apply F|]. destruct F as [_ [F1 F2]]. unfold tight. assert (H : hd 0 (generate_cookie_header c) = hd 0 (ck_key c)) by (unfold generate_cookie_header; destruct (ck_key c); [congruence|reflexivity]). rewrite H. auto.
Qed.
Lemma rlines_read : forall dh cs n, Forall field_ok dh -> shas_case dh (bs "Set-Cookie") = false -> Forall line_cookie cs -> 0 <= n ->
  exists fs, Forall2 writes (rlines dh cs n) fs /\ response_fields_ok dh cs n fs.
Proof.
  intros dh cs n FH NC FC N. eexists. split; [|exists (map (fun c => (bs "Set-Cookie", generate_cookie_header c)) cs); split; [|reflexivity]].
  - unfold rlines. rewrite NC. cbn [unless]. apply Forall2_app; [|apply Forall2_app].
    + unfold fields_of. clear NC. induction dh as [|p dh IH]; [constructor|]. cbn [map]. constructor; [apply hline_writes; exact (Forall_inv FH)|apply IH; exact (Forall_inv_tail FH)].
    + induction cs as [|c cs IH]; [constructor|]. cbn [map]. constructor; [apply cookie_line; exact (Forall_inv FC)|apply IH; exact (Forall_inv_tail FC)].
    + change (named dh (bs "Content-Length")) with (shas_case dh (bs "Content-Length")). destruct (_ || _); cbn [unless]; constructor; [|constructor]. destruct (udec_line n N) as (D1 & D2 & _).
      change (bs "Content-Length: " ++ udec n) with (bs "Content-Length" ++ bs ": " ++ udec n). now apply name_line.
  - induction cs as [|c cs IH]; [constructor|]. cbn [map]. constructor; [apply cookie_line; exact (Forall_inv FC)|apply IH; exact (Forall_inv_tail FC)].
Qed.
