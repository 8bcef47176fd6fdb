(** C51-C54: what the clients collect and send. *)
From Coq Require Import String ZArith Bool List Lia.
From Verif Require Import Base BaseFacts UMapModel SMap StrModel CookieModel CookieSpec CookieProofs CookieProps CopyProofs ClientModel ClientSpec SMapCase ClientProofs ClientCookieProofs.
Import ListNotations.
Open Scope Z_scope.

(** C51. Whatever the calls of libcurl, the body is the stream, cut at the limit. *)
Theorem C51_body_exact : forall limit calls chunks, 0 <= limit -> Forall2 delivers calls chunks -> zlen (concat chunks) + 1 < two64 ->
  exists b, write_bodies (body0 limit) calls = Ret (map zlen chunks, b) /\
    give_body b = Ret (match kept limit (concat chunks) with [] => None | k => Some (block_of k) end, zlen (kept limit (concat chunks))) /\
    (limit <> 0 -> zlen (kept limit (concat chunks)) = Z.min limit (zlen (concat chunks))).
Proof.
  intros limit calls chunks L F W.
  destruct (write_bodies_all limit chunks calls [] (body0 limit) L F) as (b & E & (H1 & H2 & H3)).
  - split; [reflexivity|]. assert (K : kept limit [] = []) by (unfold kept; destruct (limit =? 0); [reflexivity|]; unfold zfirstn; apply firstn_nil). rewrite K. split; [reflexivity|]. right. auto.
  - cbn. lia.
  - exists b. cbn [app] in *. split; [exact E|]. split.
    + unfold give_body. rewrite H2. destruct (kept limit (concat chunks)) as [|x k] eqn:K.
      * change (zlen (@nil Z)) with 0. rewrite andb_false_r. reflexivity.
      * destruct H3 as [H3|[H3 _]]; [|discriminate]. rewrite H3. replace (zlen (block_of (x :: k) ++ [Some 0]) =? 0) with false by (symmetry; apply Z.eqb_neq; rewrite zlen_app, zlen_block_of, zlen_cons; pose proof (zlen_nonneg _ k); change (zlen [Some 0]) with 1; lia).
        replace (zlen (x :: k) =? 0) with false by (symmetry; apply Z.eqb_neq; rewrite zlen_cons; pose proof (zlen_nonneg _ k); lia). cbn [negb andb].
        rewrite memcpy_fresh_buf by (rewrite zlen_app, zlen_block_of; pose proof (zlen_nonneg _ (x :: k)); change (zlen [Some 0]) with 1; lia). cbn [bind].
        rewrite zfirstn_app_exact by (now rewrite zlen_block_of). reflexivity.
    + intros N. unfold kept. destruct (Z.eqb_spec limit 0); [congruence|]. unfold zfirstn, zlen in *. rewrite firstn_length. lia.
Qed.
Print Assumptions C51_body_exact.
Example C51_ex : (do r <- write_bodies (body0 5) [(block_of (bs "abc"), 1, 3); (block_of (bs "defg"), 2, 2); (block_of (bs "h"), 1, 1)]; do g <- give_body (snd r); Ret (fst r, g)) = Ret ([3; 4; 1], (Some (block_of (bs "abcde")), 5)) /\
  Forall2 delivers [(block_of (bs "abc"), 1, 3); (block_of (bs "defg"), 2, 2); (block_of (bs "h"), 1, 1)] [bs "abc"; bs "defg"; bs "h"].
Proof. split; [reflexivity|]. repeat (apply Forall2_cons; [repeat split; vm_compute; congruence|]). apply Forall2_nil. Qed.

(** C52. Fields in any way a server may write them (any spaces around the value), status lines and blank lines. *)
Theorem C52_headers_joined_partial : forall max ls texts, 0 <= max -> Forall2 written_as ls texts -> zlen (concat texts) + 2 < two64 ->
  exists h, write_headers (headers0 max) texts = Ret (map zlen texts, h) /\
    (forall name, get_case_str (h_map h) (Some name) =
       Ret (match values_of name (at_most max (fields_of ls)) with [] => None | vs => Some (joined vs) end)) /\
    (exists ks, keys (h_map h) = map Some ks ++ [None] /\ NoDup (map lowers ks)) /\
    h_protocol h = last_status ls.
Proof.
  intros max ls texts M F W.
  assert (Z0 : at_most max (fields_of []) = []) by (unfold at_most; cbn [fields_of]; destruct (max =? 0); [reflexivity|]; unfold zfirstn; apply firstn_nil).
  destruct (lines_all max ls texts [] (headers0 max) M F) as (h & E & (d & R & G & N) & P).
  - rewrite Z0. exists []. split; [apply repr_init|]. split; [reflexivity|constructor].
  - rewrite Z0. constructor.
  - reflexivity.
  - rewrite Z0. reflexivity.
  - reflexivity.
  - rewrite Z0. cbn [weight fold_right]. lia.
  - cbn [app] in *. exists h. split; [exact E|]. split; [|split; [|exact P]].
    + intros name. rewrite (repr_get_case _ d name R), G. reflexivity.
    + exists (map fst d). rewrite (repr_keys _ d R). rewrite !map_map. split; [reflexivity|exact N].
Qed.
Print Assumptions C52_headers_joined_partial.

Definition ex_texts : list str := map bs ["HTTP/1.1 200 OK"; "Set-Cookie: a=b"; "X:  y "; "set-cookie:c=d"]%string.
Definition crlf (s : str) : str := s ++ [13; 10].
Example C52_ex : (do r <- write_headers (headers0 0) (map crlf ex_texts ++ [[13; 10]]);
   do a <- get_case_str (h_map (snd r)) (Some (bs "SET-COOKIE")); do b <- get_case_str (h_map (snd r)) (Some (bs "x")); Ret (a, b, h_protocol (snd r)))
  = Ret (Some (bs "a=b, c=d"), Some (bs "y"), Some (bs "HTTP/1.1 200 OK")).
Proof. vm_compute. reflexivity. Qed.
Example C52_ex_hyp : written_as (Field (bs "X") (bs "y")) (crlf (bs "X:  y ")).
Proof.
  change (crlf (bs "X:  y ")) with (bs "X" ++ [58] ++ bs "  " ++ bs "y" ++ [32; 13; 10]). apply wa_field; try discriminate.
  - split; [intros c r [= <- <-]; reflexivity|intros c [|x r] [= <-]; [reflexivity|destruct r; discriminate]].
  - cbn. intuition discriminate.
  - split; [intros c r [= <- <-]; reflexivity|intros c [|x r] [= <-]; [reflexivity|destruct r; discriminate]].
  - repeat constructor.
  - repeat constructor.
  - apply cstrb_true. reflexivity.
  - apply cstrb_true. reflexivity.
Qed.

(** C52, refuted for status lines: a reason phrase with a colon is taken for a header (and counted), and the protocol is not recorded *)
Theorem C52_status_line_refuted : exists text h, text = crlf (bs "HTTP/1.1 400 Bad: header") /\
  write_headers (headers0 1) [text; crlf (bs "X: y")] = Ret ([26; 6], h) /\ h_protocol h = None /\
  get_case_str (h_map h) (Some (bs "HTTP/1.1 400 Bad")) = Ret (Some (bs "header")) /\ get_case_str (h_map h) (Some (bs "X")) = Ret None.
Proof. eexists. eexists. split; [reflexivity|]. split; [vm_compute; reflexivity|]. vm_compute. auto. Qed.
Print Assumptions C52_status_line_refuted.

(** C52, refuted for lines without a name: a line that starts with the colon is taken for a name without a value, and the client prints NULL with %s *)
Theorem C52_no_name_refuted : exists texts, texts = [crlf (bs "X: y"); crlf (bs ":X")] /\ write_headers (headers0 0) texts = UB NullDeref.
Proof. eexists. split; [reflexivity|]. vm_compute. reflexivity. Qed.
Print Assumptions C52_no_name_refuted.

(** C53. When no empty value comes after a non-empty one, the cookies of the response are exactly the cookies of libcurl, the last one for each name. *)
Theorem C53_cookies_partial : forall empty valued, Forall curl_ok (empty ++ valued) -> Forall (fun c => c_value c = []) empty -> Forall (fun c => c_value c <> []) valued ->
  exists j rs, response_cookies (map netscape (empty ++ valued)) = Ret j /\ map_cookie j = map Some rs /\ nb_cookies j = length rs /\ NoDup (map ck_key rs) /\
    (forall c, last_named (empty ++ valued) c -> exists r, In r rs /\ records c r) /\
    (forall r, In r rs -> exists c, last_named (empty ++ valued) c /\ records c r).
Proof.
  intros empty valued OK E V. apply Forall_app in OK as [OE OV].
  destruct (C28_one_cookie_per_name (map call_of (empty ++ valued))) as (codes & j & rs & A & M & NB & _ & ND & IN & _). exists j, rs. split.
  - unfold response_cookies. rewrite map_app. destruct (read_empty empty (map netscape valued) empty_jar vars0 OE E eq_refl ltac:(now left)) as (v' & _ & ->).
    rewrite map_app in A.
    assert (AP : forall a b x, add_cookies x (a ++ b) = do y <- add_cookies x a; do z <- add_cookies (snd y) b; Ret (fst y ++ fst z, snd z)).
    { clear. induction a as [|[s q] a IH]; intros b x; cbn [app add_cookies bind fst snd]; [destruct (add_cookies x b) as [[c1 c2]|k]; reflexivity|].
      destruct (if s then add_same_site_cookie x q else add_cookie x q) as [[c1 c2]|k]; cbn [bind snd fst]; [|reflexivity]. rewrite IH. destruct (add_cookies c2 a) as [[d1 d2]|k]; cbn [bind snd fst]; [|reflexivity].
      destruct (add_cookies d2 b) as [[f1 f2]|k]; reflexivity. }
    rewrite AP in A. destruct (add_cookies empty_jar (map call_of empty)) as [[c1 j1]|k]; cbn [bind snd fst] in *; [|discriminate].
    destruct (read_valued valued [] j1 v' OV V) as (v2 & _ & _ & R). rewrite app_nil_r in R. rewrite R.
    destruct (add_cookies j1 (map call_of valued)) as [[c2 j2]|k]; cbn [bind snd fst] in *; [|discriminate]. injection A as <- <-. reflexivity.
  - assert (REC : forall c, records c (asked (call_of c) (c_name c))).
    { intros c. unfold records, asked, call_of. cbn. split; [reflexivity|]. split; [destruct (c_value c); reflexivity|]. auto. }
    split; [exact M|]. split; [exact NB|]. split; [exact ND|]. split.
    + intros c L. exists (asked (call_of c) (c_name c)). split; [|apply REC]. apply IN. exists (c_name c), (call_of c). split; [|reflexivity]. apply last_call_named. eauto.
    + intros r I. apply IN in I as (k & call & L & ->). apply last_call_named in L as (c & L & <- & ->). exists c. split; [exact L|apply REC].
Qed.
Print Assumptions C53_cookies_partial.

Definition ck (name value : string) (secure : bool) : curl_cookie := mk_curl (bs "example.com") true (bs "/") secure (bs "0") (bs name) (bs value).
Lemma ck_curl_ok : forall n v s, bs n <> [] -> ~ In 9 (bs n) -> ~ In 9 (bs v) -> curl_ok (ck n v s).
Proof.
  intros n v s N T V. split; [|exact V]. repeat constructor; try discriminate; try assumption; unfold no_tab; cbn; intuition discriminate.
Qed.
Example C53_ex : (do j <- response_cookies (map netscape [ck "e" "" false; ck "a" "1" true; ck "b" "2" false; ck "a" "3" false]); Ret (map (option_map (fun c => (ck_key c, ck_value c))) (map_cookie j)))
  = Ret [Some (bs "e", bs ""); Some (bs "a", bs "3"); Some (bs "b", bs "2")].
Proof. vm_compute. reflexivity. Qed.

(** refuted, and exactly in the other case: an empty value after a non-empty one reads the released value of an earlier cookie *)
Theorem C53_dangling_refuted : forall a c rest, Forall curl_ok (a ++ [c]) -> c_value c = [] ->
  (exists empty valued, a = empty ++ valued /\ Forall (fun x => c_value x = []) empty /\ Forall (fun x => c_value x <> []) valued /\ valued <> []) ->
  response_cookies (map netscape (a ++ [c]) ++ rest) = UB UseAfterFree.
Proof.
  intros a c rest OK E (empty & valued & -> & E1 & E2 & NE). apply Forall_app in OK as [OK OC]. apply Forall_app in OK as [OE OV].
  unfold response_cookies. rewrite !map_app, <- !app_assoc. destruct (read_empty empty (map netscape valued ++ map netscape [c] ++ rest) empty_jar vars0 OE E1 eq_refl ltac:(now left)) as (v' & _ & ->).
  pose proof add_cookies_total as TOT.
  destruct (TOT (map call_of empty) empty_jar ltac:(exists []; split; reflexivity)) as (r1 & -> & J1). cbn [bind].
  destruct (read_valued valued (map netscape [c] ++ rest) (snd r1) v' OV E2) as (v2 & D & _ & ->). destruct (TOT (map call_of valued) (snd r1) J1) as (r2 & -> & J2). cbn [bind map app].
  apply read_dangling; [exact (Forall_inv OC)|exact E|now apply D].
Qed.
Print Assumptions C53_dangling_refuted.
Example C53_dangling_ex : response_cookies (map netscape [ck "a" "1" false; ck "b" "" false]) = UB UseAfterFree.
Proof. vm_compute. reflexivity. Qed.

(** refuted: the flags. "Include subdomains" is recorded as Secure, Secure as HttpOnly. *)
Theorem C53_flags_refuted : exists c j r, curl_ok c /\ c_secure c = false /\ response_cookies [netscape c] = Ret j /\ map_cookie j = [Some r] /\ ck_secure r = 1 /\ ck_http_only r = 0.
Proof.
  exists (ck "a" "1" false). eexists. eexists. split; [apply ck_curl_ok; cbn; try discriminate; intuition discriminate|]. split; [reflexivity|]. split; [vm_compute; reflexivity|]. split; [reflexivity|]. split; reflexivity.
Qed.
Print Assumptions C53_flags_refuted.
(** refuted: two cookies of the same name for two paths are recorded as one *)
Theorem C53_same_name_refuted : exists c1 c2 j, curl_ok c1 /\ curl_ok c2 /\ c_path c1 <> c_path c2 /\ response_cookies [netscape c1; netscape c2] = Ret j /\ nb_cookies j = 1%nat.
Proof.
  exists (ck "a" "1" false), (mk_curl (bs "example.com") true (bs "/x") false (bs "0") (bs "a") (bs "2")). eexists.
  split; [apply ck_curl_ok; cbn; try discriminate; intuition discriminate|]. split; [split; [repeat constructor; try discriminate; unfold no_tab; cbn; intuition discriminate|unfold no_tab; cbn; intuition discriminate]|]. split; [discriminate|]. split; [vm_compute; reflexivity|reflexivity].
Qed.
Print Assumptions C53_same_name_refuted.

(** C54. Whatever the sizes asked for, the blocks are the text in order, then empty blocks. *)
Theorem C54_payload_exact : forall text calls ns, zlen text < two64 -> Forall2 asks calls ns ->
  exists blocks p, payload_run (payload0 text) calls = Ret (map block_of blocks, p) /\
    concat blocks = zfirstn (zsum ns) text /\ Forall2 (fun b n => zlen b <= n) blocks ns /\
    (zlen text <= zsum ns -> concat blocks = text /\ forall more m, Forall2 asks more m -> exists q, payload_run p more = Ret (map (fun _ => []) more, q)).
Proof.
  intros text calls ns T F.
  assert (P : forall c l, Forall2 asks c l -> Forall (fun n => 0 <= n) l).
  { intros c l H. induction H as [|x n c l A H IH]; constructor; [|exact IH]. destruct A as (A1 & A2 & A3 & _). rewrite <- A3. now apply Z.mul_nonneg_nonneg. }
  pose proof (zlen_nonneg _ text) as N0. destruct (payload_all text ns calls 0 ltac:(lia) T F (P _ _ F)) as (blocks & E & C & S & _).
  exists blocks. eexists. split; [exact E|]. split; [exact C|]. split; [exact S|]. intros L.
  assert (CT : concat blocks = text). { rewrite C. unfold zfirstn, zskipn. cbn [Z.to_nat skipn]. apply firstn_all2. unfold zlen in *. lia. }
  split; [exact CT|]. intros more m FM. rewrite Z.min_l by lia. destruct (payload_all text m more (zlen text) ltac:(lia) T FM (P _ _ FM)) as (b2 & E2 & _ & S2 & D2).
  eexists. rewrite E2. do 2 f_equal. specialize (D2 eq_refl). clear - D2 S2 FM. revert m more FM S2. induction D2 as [|b b2 -> D2 IH]; intros m more FM S2.
  - inversion S2; subst. inversion FM; subst. reflexivity.
  - inversion S2; subst. inversion FM; subst. cbn [map]. f_equal. eauto.
Qed.
Print Assumptions C54_payload_exact.
Example C54_ex : (do r <- payload_run (payload0 (bs "hello")) [(malloc 4, 2, 2); (malloc 8, 4, 2); (malloc 4, 4, 1)]; Ret (fst r)) = Ret [block_of (bs "hell"); block_of (bs "o"); []].
Proof. vm_compute. reflexivity. Qed.
