(** C135: what the client examples print of a response. *)
From Coq Require Import String ZArith Bool List Lia.
From Verif Require Import Base BaseFacts Dec UMapModel UMapSpec SMap StrModel ClientModel ClientSpec ClientProofs ClientProps SendProofs PrintModel PrintSpec PrintProps.
From Verif Require Import ShowModel.
Import ListNotations.
Open Scope Z_scope.

(** [t] is what stands before the first NUL of [l], or all of it *)
Definition before_nul (l t : list Z) : Prop := exists rest, l = t ++ rest /\ ~ In 0 t /\ (rest = [] \/ exists r, rest = 0 :: r).

Lemma copied : forall l, exists p t, strncpy_bytes (block_of l) (length l) = Ret p /\ length p = length l /\ before_nul l t /\ forall x, read_cstr (block_of p ++ Some 0 :: x) = Ret t.
Proof.
  induction l as [|c l (p & t & E & L & (rest & -> & N & D) & R)].
  - exists [], []. split; [reflexivity|]. split; [reflexivity|]. split; [exists []; repeat split; auto|]. reflexivity.
  - cbn [block_of map length strncpy_bytes]. destruct (Z.eqb_spec c 0) as [->|NZ].
    + exists (repeat 0 (S (length (t ++ rest)))), []. split; [reflexivity|]. split; [now rewrite repeat_length|]. split; [exists (0 :: t ++ rest); repeat split; eauto|]. reflexivity.
    + change (map Some (t ++ rest)) with (block_of (t ++ rest)). rewrite E. cbn [bind]. exists (c :: p), (c :: t). split; [reflexivity|]. split; [cbn [length]; now rewrite L|]. split.
      * exists rest. split; [reflexivity|]. split; [|exact D]. intros [X|X]; [congruence|contradiction].
      * intros x. cbn [block_of map app read_cstr]. apply Z.eqb_neq in NZ. rewrite NZ. change (map Some p) with (block_of p). rewrite R. reflexivity.
Qed.
Lemma body_text_ok : forall stack l, zlen l + 1 < two64 -> zlen l + 1 <= stack ->
  exists t, before_nul l t /\ body_text stack (match l with [] => None | _ => Some (block_of l) end) (zlen l) = Ret t.
Proof.
  intros stack l W S. pose proof (zlen_nonneg _ l) as P. unfold body_text. assert (A : add64 (zlen l) 1 = zlen l + 1) by (unfold add64; apply Z.mod_small; lia). rewrite A.
  replace (zlen l + 1 =? 0) with false by (symmetry; apply Z.eqb_neq; lia). replace (stack <? zlen l + 1) with false by (symmetry; apply Z.ltb_ge; lia).
  destruct (copied l) as (p & t & E & L & B & R). exists t. split; [exact B|]. assert (ZP : zlen p = zlen l) by (unfold zlen; now rewrite L).
  assert (ST : forall a, a = block_of p ++ [None] -> (do a <- store a (zlen l) 0; read_cstr a) = Ret t).
  { intros a ->. unfold store. rewrite <- ZP, <- (zlen_block_of p). rewrite memcpy_app; [|lia|vm_compute; discriminate|vm_compute; discriminate]. cbn [bind]. apply R. }
  destruct l as [|c l].
  - cbn [o_strncpy bind]. destruct p; [|discriminate L]. apply ST. reflexivity.
  - unfold o_strncpy. replace (zlen (c :: l) =? 0) with false by (symmetry; apply Z.eqb_neq; rewrite zlen_cons; pose proof (zlen_nonneg _ l); lia).
    replace (Z.to_nat (zlen (c :: l))) with (length (c :: l)) by (unfold zlen; now rewrite Nat2Z.id). rewrite E. cbn [bind].
    assert (M : memcpy (malloc (zlen (c :: l) + 1)) 0 (block_of p) (zlen (c :: l)) = Ret (block_of p ++ [None])).
    { change (malloc (zlen (c :: l) + 1)) with ([] ++ malloc (zlen (c :: l) + 1)). change 0 with (zlen (@nil (option Z))) at 1.
      rewrite memcpy_app; [|lia|rewrite zlen_malloc by lia; lia|rewrite zlen_block_of; lia]. cbn [app]. f_equal. f_equal.
      - unfold zfirstn. apply firstn_all2. unfold block_of. rewrite map_length. unfold zlen. rewrite Nat2Z.id. lia.
      - unfold zskipn, malloc, zlen. rewrite Z2Nat.inj_add by lia. rewrite Nat2Z.id. clear. induction (length (c :: l)); [reflexivity|cbn [Nat.add repeat skipn]; exact IHn]. }
    rewrite M. cbn [bind]. now apply ST.
Qed.

(** the body that the response is given by libcurl's calls *)
Definition received (limit : Z) (calls : list (buf * Z * Z)) : outcome (option buf * Z) := do b <- write_bodies (body0 limit) calls; give_body (snd b).
Lemma received_ok : forall limit calls chunks, 0 <= limit -> Forall2 delivers calls chunks -> zlen (concat chunks) + 1 < two64 ->
  received limit calls = Ret (match kept limit (concat chunks) with [] => None | _ => Some (block_of (kept limit (concat chunks))) end, zlen (kept limit (concat chunks))).
Proof. intros limit calls chunks L F W. destruct (C51_body_exact limit calls chunks L F W) as (b & E & G & _). unfold received. rewrite E. cbn [bind snd]. rewrite G. destruct (kept limit (concat chunks)); reflexivity. Qed.
Lemma kept_le : forall limit l, 0 <= limit -> zlen (kept limit l) <= zlen l.
Proof. intros limit l L. unfold kept. destruct (limit =? 0); [lia|]. unfold zfirstn, zlen. rewrite firstn_length. lia. Qed.

(** C135. auth_client: in whatever pieces the body comes, when it fits on the stack the status is printed and the body, up to its first NUL. *)
Theorem C135_auth_partial : forall stack limit status calls chunks, 0 <= limit -> Forall2 delivers calls chunks -> zlen (concat chunks) + 1 < two64 -> zlen (kept limit (concat chunks)) + 1 <= stack ->
  exists t, before_nul (kept limit (concat chunks)) t /\
    (do r <- received limit calls; auth_print stack status r) = Ret (bs "status is" ++ [10] ++ sdec status ++ [10; 10] ++ bs "string body is " ++ [10] ++ t ++ [10; 10]).
Proof.
  intros stack limit status calls chunks L F W S. rewrite (received_ok limit calls chunks L F W). cbn [bind]. pose proof (kept_le limit (concat chunks) L) as K.
  destruct (body_text_ok stack (kept limit (concat chunks)) ltac:(lia) S) as (t & B & E). exists t. split; [exact B|]. unfold auth_print. cbn [fst snd]. 
  rewrite E. reflexivity.
Qed.
Print Assumptions C135_auth_partial.

Lemma prints_cstr : forall d t, prints d t -> Forall (fun p => cstr (fst p) /\ forall v, snd p = Some v -> cstr v) d -> cstr t.
Proof.
  induction 1 as [k v|k v d t P IH]; intros F; apply Forall_cons_iff in F as [(K & V) F]; cbn [fst snd] in *.
  - apply line_cstr; auto.
  - apply cstr_app; [apply line_cstr; auto|]. apply cstr_app; [repeat constructor|]. auto.
Qed.
Lemma headers_read : forall mem m d, (forall i, mem i = true) -> repr m d -> keys_ok d -> no_null d -> print_size d <= INT_MAX -> d <> [] ->
  exists t, prints d t /\ exists b, print_map mem (Some m) = Ret (Some b) /\ read_cstr b = Ret t.
Proof.
  intros mem m d M R K N S NE. pose proof (C123_prints_partial mem m d M R K N S) as C. destruct d as [|p d]; [congruence|]. destruct C as (t & P & E & _). exists t. split; [exact P|].
  exists (cblock t). split; [exact E|]. apply read_cblock. apply (prints_cstr _ _ P). destruct R as (es & _ & _ & _ & _ & V). unfold keys_ok in K. rewrite Forall_forall in *. intros q I. split; [exact (K q I)|].
  intros v EV. specialize (V q I). rewrite EV in V. exact (proj1 V).
Qed.
(** C135. client: a response with a protocol and at least one header is printed with its protocol, a line for each header, and its body up to its first NUL; with a limit, the numbers
    are those of the headers and of the bytes that were kept. *)
Theorem C135_client_partial : forall mem stack limit calls chunks h p d, 0 <= limit -> Forall2 delivers calls chunks -> zlen (concat chunks) + 1 < two64 -> zlen (kept limit (concat chunks)) + 1 <= stack ->
  (forall i, mem i = true) -> h_protocol h = Some p -> repr (h_map h) d -> keys_ok d -> no_null d -> print_size d <= INT_MAX -> d <> [] ->
  exists t hs, before_nul (kept limit (concat chunks)) t /\ prints d hs /\
    (do r <- received limit calls; client_print mem stack h r) =
      Ret (bs "protocol is" ++ [10] ++ p ++ [10; 10] ++ bs "  headers are " ++ [10] ++ hs ++ [10; 10] ++ bs "  body is " ++ [10] ++ t ++ [10; 10]) /\
    (do r <- received limit calls; client_print_limit mem stack h r) =
      Ret (bs "protocol is" ++ [10] ++ p ++ [10; 10] ++ bs "  headers (" ++ udec (zlen d) ++ bs ") are " ++ [10] ++ hs ++ [10; 10] ++
           bs "  body (" ++ udec (zlen (kept limit (concat chunks))) ++ bs ") is " ++ [10] ++ bs "'" ++ t ++ bs "'" ++ [10; 10]).
Proof.
  intros mem stack limit calls chunks h p d L F W S M HP R K N PS NE. rewrite (received_ok limit calls chunks L F W). cbn [bind]. pose proof (kept_le limit (concat chunks) L) as KL.
  destruct (body_text_ok stack (kept limit (concat chunks)) ltac:(lia) S) as (t & B & E). destruct (headers_read mem (h_map h) d M R K N PS NE) as (hs & P & b & EB & RB). exists t, hs.
  split; [exact B|]. split; [exact P|]. unfold client_print, client_print_limit. cbn [fst snd]. rewrite EB, E, HP. cbn [bind text_arg block_arg]. rewrite RB. cbn [bind]. rewrite (repr_count _ _ R). split; reflexivity.
Qed.
Print Assumptions C135_client_partial.

(** C135. The audio stream: the sizes of the pieces are printed and the transfer goes on to its end. *)
Theorem C135_meta : forall calls chunks, Forall2 delivers calls chunks -> Forall (fun c => zlen c < two64) chunks ->
  stream_text (fun _ size nmemb => Ret (my_write_meta_body size nmemb)) calls = Ret (flat_map (fun c => bs "got " ++ udec (snd (fst c)) ++ bs " " ++ udec (snd c) ++ [10]) calls, true).
Proof.
  intros calls chunks F. induction F as [|[[c size] nmemb] l calls chunks D F IH]; intros W; [reflexivity|]. apply Forall_cons_iff in W as [W1 W]. destruct D as (_ & P1 & P2 & E). cbn [fst snd] in *.
  cbn [stream_text flat_map fst snd bind my_write_meta_body]. unfold mul64. rewrite Z.mod_small by (pose proof (zlen_nonneg _ l); lia). rewrite Z.eqb_refl, IH by exact W. reflexivity.
Qed.
Print Assumptions C135_meta.
(** C135. The stream of texts: when every piece happens to have a NUL in it, it is printed up to there and the transfer goes on to its end. *)
Theorem C135_stream_partial : forall calls chunks, Forall2 delivers calls chunks -> Forall (fun c => zlen c < two64 /\ In 0 c) chunks ->
  exists ts, Forall2 before_nul chunks ts /\ stream_text my_write_body calls = Ret (flat_map (fun t => bs "got " ++ t) ts, true).
Proof.
  intros calls chunks F. induction F as [|[[c size] nmemb] l calls chunks D F IH]; intros W; [exists []; split; [constructor|reflexivity]|]. apply Forall_cons_iff in W as [[W1 I] W]. destruct D as (EC & P1 & P2 & E). cbn [fst snd] in *. subst c.
  destruct (IH W) as (ts & B & T).
  assert (R : exists t, before_nul l t /\ read_cstr (block_of l) = Ret t).
  { clear - I. induction l as [|c l IH]; [destruct I|]. cbn [block_of map read_cstr]. destruct (Z.eqb_spec c 0) as [->|NZ]; [exists []; split; [exists (0 :: l); repeat split; eauto|reflexivity]|].
    destruct I as [X|I]; [congruence|]. destruct (IH I) as (t & (rest & -> & N & D) & E). exists (c :: t). split; [exists rest; split; [reflexivity|]; split; [intros [X|X]; [congruence|contradiction]|exact D]|].
    change (map Some (t ++ rest)) with (block_of (t ++ rest)). rewrite E. reflexivity. }
  destruct R as (t & BT & RT). exists (t :: ts). split; [constructor; assumption|]. cbn [stream_text]. unfold my_write_body at 1. rewrite RT. cbn [bind fst snd]. unfold mul64. rewrite Z.mod_small by (pose proof (zlen_nonneg _ l); lia).
  rewrite E, Z.eqb_refl, T. reflexivity.
Qed.
Print Assumptions C135_stream_partial.

(** my_write_body prints the piece with %s, but what libcurl hands over has no NUL at its end (stream_client.c:27): for every piece without a NUL in it, memory after the
    piece is read. *)
Theorem C135_unterminated_refuted : forall l size nmemb, ~ In 0 l -> my_write_body (block_of l) size nmemb = UB OutOfBounds.
Proof.
  intros l size nmemb N. unfold my_write_body. assert (R : read_cstr (block_of l) = UB OutOfBounds).
  { induction l as [|c l IH]; [reflexivity|]. cbn [block_of map read_cstr]. replace (c =? 0) with false by (symmetry; apply Z.eqb_neq; intros ->; apply N; now left). change (map Some l) with (block_of l). rewrite IH; [reflexivity|]. intros I. apply N. now right. }
  rewrite R. reflexivity.
Qed.
Print Assumptions C135_unterminated_refuted.
(** The array for the body is on the stack (auth_client.c:50, client.c:62, 74) and its size is what the server sent: whatever the room on the stack, there is a body that does not fit. *)
Theorem C135_stack_refuted : forall stack, 0 <= stack -> stack + 1 < two64 -> exists calls chunks, Forall2 delivers calls chunks /\ zlen (concat chunks) = stack /\
  forall status, (do r <- received 0 calls; auth_print stack status r) = UB Overflow.
Proof.
  intros stack P W. set (l := repeat 97 (Z.to_nat stack)). assert (ZL : zlen l = stack) by (unfold zlen, l; rewrite repeat_length; lia).
  assert (D : Forall2 delivers [(block_of l, 1, stack)] [l]) by (repeat constructor; cbn [fst snd]; try reflexivity; lia). exists [(block_of l, 1, stack)], [l]. split; [exact D|].
  assert (C : concat [l] = l) by (cbn [concat]; apply app_nil_r). rewrite C. split; [exact ZL|]. intros status. rewrite (received_ok 0 _ _ ltac:(lia) D) by (rewrite C; lia). rewrite C. cbn [bind].
  change (kept 0 l) with l. unfold auth_print, body_text. cbn [fst snd]. rewrite ZL. assert (A : add64 stack 1 = stack + 1) by (unfold add64; apply Z.mod_small; lia). rewrite A.
  replace (stack + 1 =? 0) with false by (symmetry; apply Z.eqb_neq; lia). replace (stack <? stack + 1) with true by (symmetry; apply Z.ltb_lt; lia). reflexivity.
Qed.
Print Assumptions C135_stack_refuted.
(** A response without headers: print_map gives NULL (C123), which client.c:66 and 78 print with %s. *)
Theorem C135_no_header_refuted : exists lines h, write_headers (headers0 0) lines = Ret (map zlen lines, h) /\ h_protocol h = Some (bs "HTTP/1.1 204 No Content") /\
  forall mem stack, 1 <= stack -> client_print mem stack h (None, 0) = UB NullDeref /\ client_print_limit mem stack h (None, 0) = UB NullDeref.
Proof.
  exists [bs "HTTP/1.1 204 No Content" ++ [13; 10]; [13; 10]]. eexists. split; [vm_compute; reflexivity|]. split; [reflexivity|]. intros mem stack S. 
  destruct (body_text_ok stack [] ltac:(vm_compute; reflexivity) ltac:(change (zlen (@nil Z)) with 0; lia)) as (t & _ & E). change (zlen (@nil Z)) with 0 in E.
  unfold client_print, client_print_limit. cbn [fst snd]. rewrite E. split; vm_compute; reflexivity.
Qed.
Print Assumptions C135_no_header_refuted.
(** A status line with a colon in its reason is taken for a header (u_send_request.c, ulfius_write_header): the protocol stays NULL and is printed with %s (client.c:66, 78). *)
Theorem C135_protocol_refuted : exists lines h, write_headers (headers0 0) lines = Ret (map zlen lines, h) /\ hd [] lines = bs "HTTP/1.1 404 Missing: x" ++ [13; 10] /\ u_map_count (h_map h) = 2 /\
  forall stack, 1 <= stack -> client_print (fun _ => true) stack h (None, 0) = UB NullDeref /\ client_print_limit (fun _ => true) stack h (None, 0) = UB NullDeref.
Proof.
  exists [bs "HTTP/1.1 404 Missing: x" ++ [13; 10]; bs "A: b" ++ [13; 10]; [13; 10]]. eexists. split; [vm_compute; reflexivity|]. split; [reflexivity|]. split; [vm_compute; reflexivity|]. intros stack S.
  destruct (body_text_ok stack [] ltac:(vm_compute; reflexivity) ltac:(change (zlen (@nil Z)) with 0; lia)) as (t & _ & E). change (zlen (@nil Z)) with 0 in E.
  unfold client_print, client_print_limit. cbn [fst snd]. rewrite E. split; vm_compute; reflexivity.
Qed.
Print Assumptions C135_protocol_refuted.
(** A body with a NUL in it is printed up to there only, although its whole length is printed beside it (client.c:77-78). *)
Theorem C135_nul_refuted : exists calls chunks r, Forall2 delivers calls chunks /\ concat chunks = bs "a" ++ [0] ++ bs "b" /\ received 0 calls = Ret r /\ snd r = 3 /\ body_text 100 (fst r) (snd r) = Ret (bs "a").
Proof.
  exists [(block_of (bs "a" ++ [0]), 1, 2); (block_of (bs "b"), 1, 1)], [bs "a" ++ [0]; bs "b"]. eexists. split; [repeat constructor; vm_compute; discriminate|]. split; [reflexivity|]. split; [vm_compute; reflexivity|]. split; vm_compute; reflexivity.
Qed.
Print Assumptions C135_nul_refuted.

(** ** A concrete case: two pieces, two headers *)
Definition c135_lines : list str := [bs "HTTP/1.1 200 OK" ++ [13; 10]; bs "Server: x" ++ [13; 10]; bs "A: b" ++ [13; 10]; [13; 10]].
Definition c135_calls : list (buf * Z * Z) := [(block_of (bs "Hel"), 1, 3); (block_of (bs "lo"), 2, 1)].
Example C135_ex : exists h r, write_headers (headers0 0) c135_lines = Ret (map zlen c135_lines, h) /\ received 4 c135_calls = Ret r /\ Forall2 delivers c135_calls [bs "Hel"; bs "lo"] /\
  client_print_limit (fun _ => true) 8000 h r = Ret (bs "protocol is" ++ [10] ++ bs "HTTP/1.1 200 OK" ++ [10; 10] ++ bs "  headers (2) are " ++ [10] ++ bs "key is Server, value is x" ++ [10] ++ bs "key is A, value is b" ++ [10; 10] ++
    bs "  body (4) is " ++ [10] ++ bs "'Hell'" ++ [10; 10]) /\
  auth_print 8000 200 r = Ret (bs "status is" ++ [10] ++ bs "200" ++ [10; 10] ++ bs "string body is " ++ [10] ++ bs "Hell" ++ [10; 10]).
Proof. eexists. eexists. split; [vm_compute; reflexivity|]. split; [vm_compute; reflexivity|]. split; [repeat constructor; vm_compute; discriminate|]. split; vm_compute; reflexivity. Qed.
Example C135_ex_stream : stream_text my_write_body [(block_of (bs "line 1" ++ [10; 0]), 1, 8); (block_of (bs "x" ++ [0] ++ bs "y"), 1, 3)] = Ret (bs "got line 1" ++ [10] ++ bs "got x", true) /\
  stream_text (fun _ size nmemb => Ret (my_write_meta_body size nmemb)) c135_calls = Ret (bs "got 1 3" ++ [10] ++ bs "got 2 1" ++ [10], true).
Proof. split; vm_compute; reflexivity. Qed.
