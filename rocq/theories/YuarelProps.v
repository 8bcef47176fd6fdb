(** C55 and C64: the URL parser. *)
From Coq Require Import String ZArith Bool List Lia.
From Verif Require Import Base BaseFacts ClientProofs Dec StrModel YuarelModel YuarelSpec YuarelProofs.
Import ListNotations.
Open Scope Z_scope.

(** C64. Whatever the text, the parser stays inside it, ends, and finds what [parse_text] says. *)
Theorem C64_any_text : forall s, cstr s -> zlen s < two32 ->
  exists code b y, yuarel_parse (cblock s) = Ret (code, b, y) /\
    match parse_text s with Some p => code = 0 /\ agrees b y p | None => code = -1 end.
Proof. intros s C. apply parse_all. intros I. unfold cstr in C. rewrite Forall_forall in C. specialize (C 0 I). lia. Qed.
Print Assumptions C64_any_text.
Example C64_ex : parse_text (bs "ws://a:b@h.org:81/p?q=1#f") = Some (mk_parts (Some (bs "ws")) (Some (bs "a")) (Some (bs "b")) (Some (bs "h.org")) 81 (Some (bs "p")) (Some (bs "q=1")) (Some (bs "f")))
  /\ parse_text (bs "nothing") = None /\ parse_text (bs "http://@h") = None.
Proof. vm_compute. auto. Qed.

(** ** C55 *)
Lemma cstr_no0 : forall s, cstr s -> ~ In 0 s.
Proof. intros s C I. unfold cstr in C. rewrite Forall_forall in C. specialize (C 0 I). lia. Qed.
Lemma without_in : forall chars s c, without chars s -> In c (bs chars) -> ~ In c s.
Proof. intros chars s c [_ F] I. rewrite Forall_forall in F. auto. Qed.
Lemma without_no : forall chars s c, without chars s -> In c s -> In c (bs chars) -> False.
Proof. intros chars s c W I J. exact (without_in _ _ _ W J I). Qed.
Lemma udec_not_in : forall n c, 0 <= n -> ~ digit c -> ~ In c (udec n).
Proof. intros n c N D I. destruct (udec_ok n N) as (F & _). rewrite Forall_forall in F. auto. Qed.

Lemma number_dec : forall s r, Forall digit s -> number s r = fold_left (fun a c => 10 * a + (c - 48)) s r.
Proof.
  induction s as [|c s IH]; intros r F; [reflexivity|]. cbn [number fold_left]. rewrite (IH _ (Forall_inv_tail F)). f_equal. unfold weight_of. pose proof (Forall_inv F) as D. unfold digit in D.
  replace (c <? 128) with true by (symmetry; apply Z.ltb_lt; lia). reflexivity.
Qed.
Lemma digits_dec : forall s r, Forall digit s -> digits_value s r = fold_left (fun a c => 10 * a + (c - 48)) s r.
Proof.
  induction s as [|c s IH]; intros r F; [reflexivity|]. cbn [digits_value fold_left]. pose proof (Forall_inv F) as D. unfold digit in D.
  replace (isdigit c) with true by (symmetry; unfold isdigit; apply andb_true_intro; split; apply Z.leb_le; lia). apply IH. exact (Forall_inv_tail F).
Qed.
Lemma port_udec : forall n path, 0 <= n < 2147483648 -> port_value (udec n) path = n.
Proof.
  intros n path N. unfold port_value. destruct (udec_ok n ltac:(lia)) as (F & V & NE).
  assert (E : match path with Some _ => number (udec n) 0 | None => strtol (udec n) end = n).
  { destruct path; [rewrite number_dec by exact F; exact V|]. unfold strtol. destruct (udec n) as [|c s] eqn:U; [congruence|]. pose proof (Forall_inv F) as D. unfold digit in D.
    cbn [lstrip]. replace (isspace c) with false by (symmetry; unfold isspace; apply orb_false_intro; [apply Z.eqb_neq; lia|apply andb_false_iff; right; apply Z.leb_gt; lia]).
    replace (c =? 45) with false by (symmetry; apply Z.eqb_neq; lia). replace (c =? 43) with false by (symmetry; apply Z.eqb_neq; lia).
    rewrite digits_dec by exact F. unfold dec_value in V. rewrite V. lia. }
  rewrite E. unfold int_of. rewrite Z.mod_small by lia. replace (n <? 2147483648) with true by (symmetry; apply Z.ltb_lt; lia). reflexivity.
Qed.

Lemma cut_part : forall c a o, ~ In c a -> cut c (a ++ part [c] o) = (a, o).
Proof. intros c a [r|] N; cbn [part app]; [now apply cut_intro|]. rewrite app_nil_r. now apply cut_intro_none. Qed.

Definition parts_of (u : url) : parts :=
  mk_parts (Some (u_scheme u)) (option_map fst (u_user u)) (option_map snd (u_user u)) (Some (u_host u)) (match u_port u with Some n => n | None => 0 end) (u_path u) (u_query u) (u_fragment u).

Lemma authority_not_in : forall u c, url_ok u -> In c (bs "/?#") -> ~ In c (authority u).
Proof.
  intros u c (_ & _ & _ & U & _ & H & P & _) I. unfold authority. rewrite !in_app_iff.
  assert (C : c <> 58 /\ c <> 64 /\ ~ digit c) by (cbn in I; unfold digit; intuition lia). destruct C as (C1 & C2 & C3).
  assert (I2 : In c (bs ":@/?#") /\ In c (bs "@/?#")) by (cbn in *; intuition). destruct I2 as [I2 I3].
  intros [J|[J|J]].
  - destruct (u_user u) as [[n p]|]; [|destruct J]. destruct U as [U1 U2]. rewrite !in_app_iff in J. destruct J as [J|[J|[J|J]]].
    + exact (without_in _ _ _ U1 I2 J).
    + cbn in J. intuition lia.
    + exact (without_in _ _ _ U2 I3 J).
    + cbn in J. intuition lia.
  - exact (without_in _ _ _ H I2 J).
  - destruct (u_port u) as [n|]; [|destruct J]. cbn [option_map part] in J. apply in_app_iff in J as [J|J]; [cbn in J; intuition lia|]. exact (udec_not_in n c ltac:(lia) C3 J).
Qed.

Lemma parse_url_text : forall u, url_ok u -> parse_text (url_text u) = Some (parts_of u).
Proof.
  intros u OK. pose proof OK as (S1 & S2 & S3 & U & H1 & H2 & P & PA & QU & FR). unfold parse_text, url_text.
  assert (N1 : ~ In 35 (u_scheme u ++ bs "://" ++ authority u ++ part (bs "/") (u_path u) ++ part (bs "?") (u_query u))).
  { rewrite !in_app_iff. intros [J|[J|[J|[J|J]]]].
    - exact (without_no _ _ _ S2 J ltac:(cbn; auto)).
    - cbn in J. intuition lia.
    - exact (authority_not_in u 35 OK ltac:(cbn; auto) J).
    - destruct (u_path u) as [x|]; [|destruct J]. cbn [part] in J. apply in_app_iff in J as [J|J]; [cbn in J; intuition lia|]. exact (without_no _ _ _ PA J ltac:(cbn; auto)).
    - destruct (u_query u) as [x|]; [|destruct J]. cbn [part] in J. apply in_app_iff in J as [J|J]; [cbn in J; intuition lia|]. exact (without_no _ _ _ QU J ltac:(cbn; auto)). }
  rewrite !app_assoc. rewrite !app_assoc in N1. change (bs "#") with [35]. rewrite cut_part by exact N1. clear N1. rewrite <- !app_assoc.
  assert (N2 : ~ In 63 (u_scheme u ++ bs "://" ++ authority u ++ part (bs "/") (u_path u))).
  { rewrite !in_app_iff. intros [J|[J|[J|J]]].
    - exact (without_no _ _ _ S2 J ltac:(cbn; auto)).
    - cbn in J. intuition lia.
    - exact (authority_not_in u 63 OK ltac:(cbn; auto) J).
    - destruct (u_path u) as [x|]; [|destruct J]. cbn [part] in J. apply in_app_iff in J as [J|J]; [cbn in J; intuition lia|]. exact (without_no _ _ _ PA J ltac:(cbn; auto)). }
  rewrite !app_assoc. rewrite !app_assoc in N2. change (bs "?") with [63]. rewrite cut_part by exact N2. clear N2. rewrite <- !app_assoc.
  assert (NR : forall {A} (x : str -> A) (y : A), match u_scheme u ++ bs "://" ++ authority u ++ part (bs "/") (u_path u) with 47 :: p => x p | _ => y end = y).
  { intros A x y. destruct (u_scheme u) as [|c s]; [congruence|]. cbn [hd app] in *. destruct c; try reflexivity. do 6 (destruct p; try reflexivity). congruence. }
  rewrite NR. clear NR. change (bs "://" ++ authority u ++ part (bs "/") (u_path u)) with (58 :: 47 :: 47 :: authority u ++ part (bs "/") (u_path u)).
  rewrite cut_intro by (intros J; exact (without_no _ _ _ S2 J ltac:(cbn; auto))). cbv iota. replace (nonempty (u_scheme u)) with true by (destruct (u_scheme u); [congruence|reflexivity]).
  change (bs "/") with [47]. rewrite cut_part by (exact (authority_not_in u 47 OK ltac:(cbn; auto))).
  assert (HN : host_parts (u_host u ++ part (bs ":") (option_map udec (u_port u))) (u_path u) = Some (u_host u, match u_port u with Some n => n | None => 0 end)).
  { unfold host_parts. change (bs ":") with [58]. rewrite cut_part by (intros J; exact (without_no _ _ _ H2 J ltac:(cbn; auto))). replace (nonempty (u_host u)) with true by (destruct (u_host u); [congruence|reflexivity]).
    destruct (u_port u) as [n|]; cbn [option_map]; [|reflexivity]. destruct (udec_ok n ltac:(lia)) as (_ & _ & NE). replace (nonempty (udec n)) with true by (destruct (udec n); [congruence|reflexivity]).
    cbn [andb]. now rewrite port_udec. }
  assert (N64 : ~ In 64 (u_host u ++ part (bs ":") (option_map udec (u_port u)))).
  { rewrite in_app_iff. intros [J|J]; [exact (without_no _ _ _ H2 J ltac:(cbn; auto))|]. destruct (u_port u) as [n|]; [|destruct J]. cbn [option_map part] in J. apply in_app_iff in J as [J|J]; [cbn in J; intuition lia|].
    exact (udec_not_in n 64 ltac:(lia) ltac:(unfold digit; lia) J). }
  unfold authority, parts_of. destruct (u_user u) as [[n p]|]; cbn [option_map fst snd].
  - destruct U as [U1 U2]. unfold user_parts. rewrite <- !app_assoc.
    replace (n ++ bs ":" ++ p ++ bs "@" ++ u_host u ++ part (bs ":") (option_map udec (u_port u))) with ((n ++ [58] ++ p) ++ 64 :: (u_host u ++ part (bs ":") (option_map udec (u_port u)))) by (rewrite <- !app_assoc; reflexivity).
    rewrite cut_intro. 2: { rewrite !in_app_iff. intros [J|[J|J]]; [exact (without_no _ _ _ U1 J ltac:(cbn; auto))|cbn in J; intuition lia|exact (without_no _ _ _ U2 J ltac:(cbn; auto))]. }
    change (n ++ [58] ++ p) with (n ++ 58 :: p). rewrite (cut_intro 58 n p) by (intros J; exact (without_no _ _ _ U1 J ltac:(cbn; auto))). rewrite HN. reflexivity.
  - cbn [app]. unfold user_parts. rewrite cut_intro_none by exact N64. rewrite HN. reflexivity.
Qed.

Lemma url_text_cstr : forall u, url_ok u -> cstr (url_text u).
Proof.
  intros u (S1 & S2 & S3 & U & H1 & H2 & P & PA & QU & FR). unfold url_text, authority.
  assert (PT : forall w o, cstr w -> oall cstr o -> cstr (part w o)) by (intros w [x|] A B; cbn [part]; [now apply cstr_app|constructor]).
  assert (BS : forall l, cstrb (bs l) = true -> cstr (bs l)) by (intros l; apply cstrb_true).
  repeat apply cstr_app; try (apply BS; reflexivity); try apply S2; try apply H2.
  - destruct (u_user u) as [[n p]|]; [|constructor]. destruct U as [U1 U2]. repeat apply cstr_app; try (apply BS; reflexivity); [apply U1|apply U2].
  - apply PT; [apply BS; reflexivity|]. destruct (u_port u); cbn; [|exact I]. apply udec_cstr. lia.
  - apply PT; [apply BS; reflexivity|]. destruct (u_path u); cbn in *; [apply PA|exact I].
  - apply PT; [apply BS; reflexivity|]. destruct (u_query u); cbn in *; [apply QU|exact I].
  - apply PT; [apply BS; reflexivity|]. exact FR.
Qed.

Theorem C55_parts_found : forall u, url_ok u -> zlen (url_text u) < two32 ->
  exists b y, yuarel_parse (cblock (url_text u)) = Ret (0, b, y) /\
    shows b (y_scheme y) (Some (u_scheme u)) /\
    shows b (y_username y) (option_map fst (u_user u)) /\ shows b (y_password y) (option_map snd (u_user u)) /\
    shows b (y_host y) (Some (u_host u)) /\ y_port y = match u_port u with Some n => n | None => 0 end /\
    shows b (y_path y) (u_path u) /\ shows b (y_query y) (u_query u) /\ shows b (y_fragment y) (u_fragment u).
Proof.
  intros u OK L. destruct (C64_any_text (url_text u) (url_text_cstr u OK) L) as (code & b & y & E & A). rewrite parse_url_text in A by exact OK. destruct A as [-> A]. exists b, y. split; [exact E|exact A].
Qed.
Print Assumptions C55_parts_found.

Theorem C55_relative : forall path query fragment, without "?#" path -> oall (without "#") query -> oall cstr fragment -> zlen (relative_text path query fragment) < two32 ->
  exists b y, yuarel_parse (cblock (relative_text path query fragment)) = Ret (0, b, y) /\
    y_scheme y = None /\ y_host y = None /\ y_username y = None /\ y_password y = None /\ y_port y = 0 /\
    shows b (y_path y) (Some path) /\ shows b (y_query y) query /\ shows b (y_fragment y) fragment.
Proof.
  intros path query fragment P Q F L.
  assert (C : cstr (relative_text path query fragment)).
  { unfold relative_text. repeat apply cstr_app; try (apply cstrb_true; reflexivity); [apply P| |].
    - destruct query as [q|]; [|constructor]. cbn [part]. apply cstr_app; [apply cstrb_true; reflexivity|apply Q].
    - destruct fragment as [q|]; [|constructor]. cbn [part]. apply cstr_app; [apply cstrb_true; reflexivity|apply F]. }
  assert (E : parse_text (relative_text path query fragment) = Some (mk_parts None None None None 0 (Some path) query fragment)).
  { unfold parse_text, relative_text. change (bs "#") with [35]. change (bs "?") with [63]. rewrite !app_assoc, cut_part.
    - rewrite cut_part; [reflexivity|]. cbn. intros [J|J]; [lia|]. exact (without_no _ _ _ P J ltac:(cbn; auto)).
    - rewrite !in_app_iff. intros [[J|J]|J]; [cbn in J; intuition lia|exact (without_no _ _ _ P J ltac:(cbn; auto))|]. destruct query as [q|]; [|destruct J]. cbn [part] in J. apply in_app_iff in J as [J|J]; [cbn in J; intuition lia|].
      exact (without_no _ _ _ Q J ltac:(cbn; auto)). }
  destruct (C64_any_text _ C L) as (code & b & y & EY & A). rewrite E in A. destruct A as [-> (A1 & A2 & A3 & A4 & A5 & A6 & A7 & A8)]. exists b, y. split; [exact EY|].
  assert (NN : forall o, shows b o None -> o = None) by (intros [o|] S; [destruct S|reflexivity]). cbn [p_scheme p_user p_pass p_host p_port p_path p_query p_fragment] in *.
  split; [now apply NN|]. split; [now apply NN|]. split; [now apply NN|]. split; [now apply NN|]. auto.
Qed.
Print Assumptions C55_relative.

Definition ex_url : url := mk_url (bs "wss") (Some (bs "me", bs "se:cret")) (bs "example.com") (Some 8443) (Some (bs "chat/room@1:2")) (Some (bs "a=/b?c")) (Some (bs "x#y")).
Example C55_ex : url_ok ex_url /\ url_text ex_url = bs "wss://me:se:cret@example.com:8443/chat/room@1:2?a=/b?c#x#y".
Proof.
  split; [|reflexivity]. assert (W : forall chars s, cstrb s = true -> forallb (fun c => negb (existsb (Z.eqb c) s)) (bs chars) = true -> without chars s).
  { intros chars s A B. split; [now apply cstrb_true|]. apply Forall_forall. intros c I J. rewrite forallb_forall in B. specialize (B c I). apply negb_true_iff in B. assert (existsb (Z.eqb c) s = true); [|congruence]. apply existsb_exists. exists c. split; [exact J|apply Z.eqb_refl]. }
  unfold url_ok, ex_url. cbn [u_scheme u_user u_host u_port u_path u_query u_fragment oall].
  split; [discriminate|]. split; [apply W; reflexivity|]. split; [discriminate|]. split; [split; apply W; reflexivity|]. split; [discriminate|]. split; [apply W; reflexivity|]. split; [lia|]. split; [apply W; reflexivity|]. split; [apply W; reflexivity|]. apply cstrb_true. reflexivity.
Qed.

(** Texts that are URLs for RFC 3986 and are refused or misread: a user without a password, an IPv6 host; texts that are not and are accepted. *)
Theorem C55_user_without_password_refuted : exists b y, yuarel_parse (cblock (bs "http://me@example.com/")) = Ret (-1, b, y).
Proof. eexists. eexists. vm_compute. reflexivity. Qed.
Print Assumptions C55_user_without_password_refuted.
Theorem C55_ipv6_refuted : exists b y, yuarel_parse (cblock (bs "http://[::1]:80/")) = Ret (0, b, y) /\ shows b (y_host y) (Some (bs "[")) /\ y_port y <> 80.
Proof. eexists. eexists. split; [vm_compute; reflexivity|]. split; [reflexivity|]. vm_compute. discriminate. Qed.
Print Assumptions C55_ipv6_refuted.
Theorem C55_port_refuted : exists b1 y1 b2 y2, yuarel_parse (cblock (bs "http://h:4294967376/")) = Ret (0, b1, y1) /\ y_port y1 = 80 /\
  yuarel_parse (cblock (bs "http://h:8x/")) = Ret (0, b2, y2) /\ y_port y2 = 152.
Proof. eexists. eexists. eexists. eexists. split; [vm_compute; reflexivity|]. split; [reflexivity|]. split; [vm_compute; reflexivity|]. reflexivity. Qed.
Print Assumptions C55_port_refuted.
