(** C105: the memory of requests that come in. *)
From Coq Require Import String ZArith Bool List Lia.
From Verif Require Import Base BaseFacts UMapModel Utf8Model OwnModel OwnSpec OwnProofs MapMemModel MapMemSpec MapMemProofs RespMemModel RespMemSpec ReqMemModel ReqMemSpec
  RecvMemModel RecvMemSpec RecvMemProofs RecvMemPieces RecvMemSteps RecvMemRun.
From Verif Require ReqMemSteps.
Import ListNotations.
Open Scope Z_scope.

(** C105. Partial: o_realloc has memory, and where the other allocations may fail is said by [open_memory]; GnuTLS can read
    the certificates of the peers; the sizes of what comes in fit together in a size_t. Any number of connections at a time
    come, send chunks and end, in any order; any of the other allocations may fail. No block is used after its release or
    released twice, no byte of a body is left unwritten, nothing is read or written outside a block. Each event does what
    [rmeans] says: a pair is joined with the earlier ones of its name, a piece of a form with the earlier pieces, and only if
    an allocation failed meanwhile something is missing. At the end the connections show what the events mean, and the blocks
    in use are exactly those reachable from the connections, each from one place only, and the blocks lost, as many as the
    specification counts. *)
Theorem C105_exact_partial : forall g ops, Forall rop_ok ops -> zsum (map rop_size ops) + 1 < two64 ->
  exists s l gone, rrun g rstart ops = Ret s /\ rmeans g [] ops l (List.length gone) /\ read_conns (s_mem s) (s_conns s) = Ret l /\
    NoDup (rprog_blocks s ++ gone) /\ NoDup (h_live (m_heap (s_mem s))) /\ (forall x, In x (h_live (m_heap (s_mem s))) <-> In x (rprog_blocks s ++ gone)).
Proof.
  intros g ops OK LT.
  assert (I0 : rinv g 0 rstart [] []). { split; [constructor|]. split; [|reflexivity]. split; [reflexivity|]. split; [|reflexivity]. intros x. change (0 <= 1)%nat. lia. }
  destruct (rrun_ok g ops 0 rstart [] [] I0 OK (Z.le_refl 0)) as (s & l & lost & N & R & [F O] & M); [lia|]. rewrite app_nil_r in O.
  exists s, l, lost. split; [exact R|]. split; [exact M|]. split; [eapply read_conns_ok; [exact O|apply incl_appl, incl_refl|exact F]|].
  destruct (owns_spec _ _ (proj1 O)) as (A & B & C). auto.
Qed.
Print Assumptions C105_exact_partial.

(** ** With memory *)
Lemma collects_roomy : forall check a l a', collects check a l a' -> Forall (fun x : pair_in => roomy (fst x)) l -> a' = collected check a (map snd l).
Proof.
  intros check a l a' C. induction C as [a|a s k v r a' AC C IH|a s k v r a' AC K C IH|a s k v r H|a s k v r SH AC|a s k v r a' SH AC T C IH]; intros R; cbn [map collected snd]; auto;
    inversion R as [|? ? R1 R2]; subst; cbn [fst] in R1.
  - rewrite AC. now apply IH.
  - rewrite AC. destruct k; [congruence|]. now apply IH.
  - destruct H as [->|[-> AC]]; [reflexivity|]. match goal with |- context [accepted check ?l] => replace (accepted check l) with true by (symmetry; exact AC) end. reflexivity.
  - now elim R1.
  - now elim R1.
Qed.
Lemma posts_roomy : forall g a l a', posts g a l a' -> Forall (fun x : answers * piece => roomy (fst x)) l -> a' = posted g a (map snd l).
Proof.
  intros g a l a' C. induction C as [a|a s p r a' R C IH|a s p r a' R K C IH|a s p r R K|a s p r a' SH R FN K C IH|a s p r a' SH R A]; intros RO; cbn [map posted snd]; auto;
    inversion RO as [|? ? R1 R2]; subst; cbn [fst] in R1.
  - rewrite R. now apply IH.
  - rewrite R. destruct (pc_key p) eqn:EK; [congruence|]. now apply IH.
  - rewrite R, K. reflexivity.
  - now elim R1.
  - now elim R1.
Qed.
Lemma comes_roomy : forall g v o k, comes g v o k -> rop_roomy (Comes v) -> o = Some (arrived g v) /\ k = 0%nat.
Proof.
  intros g v o k C (R1 & R2 & R3). apply Forall_app in R2 as [RH R2]. apply Forall_app in R2 as [RA RC]. unfold roomy in R1, R3.
  destruct C as [H|H _|q H _ _|q hs args cs [->|[H _]] _ CH CA CC|hs args cs H _ _ _ _]; try (now elim R1); try (now elim R3).
  - exfalso. apply R1. destruct (fst (v_open v)) as [|[] l]; try discriminate H. now left.
  - split; [|reflexivity]. unfold arrived. now rewrite (collects_roomy _ _ _ _ CH RH), (collects_roomy _ _ _ _ CA RA), (collects_roomy _ _ _ _ CC RC).
Qed.
Lemma sends_roomy : forall g i ch a a', sends g ch a a' -> rop_roomy (Sends i ch) -> a' = continued g ch a.
Proof.
  intros g i ch a a' S R. destruct S as [args q|args q h P]; [reflexivity|]. rewrite (posts_roomy _ _ _ _ P R). reflexivity.
Qed.
Lemma rmeans_roomy : forall g l ops l' n, rmeans g l ops l' n -> Forall rop_roomy ops -> Forall (fun a => ac_going a = true) l -> l' = fold_left (rwell g) ops l /\ n = 0%nat.
Proof.
  intros g l ops l' n M. induction M as [l|l v r l' k n C M IH|l v a r l' k n C M IH|l i ch a a' r l' n E S M IH|l i ch r l' n H M IH|l i r l' n M IH]; intros R G; [auto|..];
    inversion R as [|? ? R1 R2]; subst; cbn [fold_left rwell].
  - destruct (comes_roomy _ _ _ _ C R1) as [X _]. discriminate X.
  - destruct (comes_roomy _ _ _ _ C R1) as [X ->]. injection X as ->. destruct IH as [-> ->]; auto. apply Forall_app. split; [exact G|]. constructor; [reflexivity|constructor].
  - rewrite E. rewrite (sends_roomy g i ch a a' S R1) in *. apply IH; [exact R2|].
    assert (GA : ac_going (continued g ch a) = true). { destruct S; reflexivity. }
    clear - G GA. revert i. induction G as [|x l Hx G IH]; intros [|i]; cbn [set_nth]; constructor; auto.
  - destruct (nth_error l i) as [a|] eqn:E.
    + specialize (H a eq_refl). rewrite Forall_forall in G. rewrite (G a) in H by (eapply nth_error_In; exact E). discriminate H.
    + now apply IH.
  - apply IH; [exact R2|]. apply Forall_forall. intros x X. rewrite Forall_forall in G. apply G. eapply ReqMemSteps.in_drop; exact X.
Qed.
(** C105. When every allocation has memory, the run is the one without memory, and no block is lost: once the connections
    ended no block is in use. *)
Theorem C105_memory_partial : forall g ops, Forall rop_ok ops -> Forall rop_roomy ops -> zsum (map rop_size ops) + 1 < two64 ->
  exists s, rrun g rstart ops = Ret s /\ read_conns (s_mem s) (s_conns s) = Ret (fold_left (rwell g) ops []) /\
    (forall x, In x (h_live (m_heap (s_mem s))) <-> In x (rprog_blocks s)) /\ (fold_left (rwell g) ops [] = [] -> h_live (m_heap (s_mem s)) = []).
Proof.
  intros g ops OK R LT. destruct (C105_exact_partial g ops OK LT) as (s & l & gone & E & M & D & _ & _ & A).
  destruct (rmeans_roomy _ _ _ _ _ M R (Forall_nil _)) as [-> EG]. destruct gone; [|discriminate EG]. rewrite app_nil_r in A.
  exists s. split; [exact E|]. split; [exact D|]. split; [exact A|]. intros N. rewrite N in D.
  assert (EC : s_conns s = []). { destruct (s_conns s) as [|c cs]; [reflexivity|]. cbn [read_conns] in D. destruct (read_conn (s_mem s) c); [|discriminate D]. cbn [bind] in D. destruct (read_conns (s_mem s) cs); discriminate D. }
  unfold rprog_blocks in A. rewrite EC in A. cbn [flat_map] in A. destruct (h_live (m_heap (s_mem s))) as [|x h]; [reflexivity|]. exfalso. apply (A x). now left.
Qed.
Print Assumptions C105_memory_partial.

(** C105. Partial as above: once every connection ended, the blocks in use are those lost: three for each connection that
    came while there was no memory for its request. *)
Fixpoint shorts (ops : list rop) : nat :=
  match ops with
  | [] => 0
  | Comes v :: r => (if hd true (fst (v_open v)) && existsb negb (fst (v_open v)) then 3 else 0) + shorts r
  | _ :: r => shorts r
  end.
Lemma lost_shorts : forall g l ops l' n, rmeans g l ops l' n -> (n <= shorts ops)%nat.
Proof.
  intros g l ops l' n M. induction M as [l|l v r l' k n C M IH|l v a r l' k n C M IH|l i ch a a' r l' n E S M IH|l i ch r l' n H M IH|l i r l' n M IH]; cbn [shorts]; auto.
  - inversion C as [H|H HD| | |]; subst; [lia|]. rewrite HD. replace (existsb negb (fst (v_open v))) with true; [cbn [andb]; lia|]. symmetry. apply existsb_exists. exists false. auto.
  - inversion C; subst; lia.
Qed.
Theorem C105_released_partial : forall g ops, Forall rop_ok ops -> zsum (map rop_size ops) + 1 < two64 ->
  exists s, rrun g rstart ops = Ret s /\ (s_conns s = [] -> (List.length (h_live (m_heap (s_mem s))) <= shorts ops)%nat).
Proof.
  intros g ops OK LT. destruct (C105_exact_partial g ops OK LT) as (s & l & gone & E & M & D & ND & NL & A). exists s. split; [exact E|]. intros EC.
  unfold rprog_blocks in *. rewrite EC in *. cbn [flat_map app] in *. apply Nat.le_trans with (List.length gone); [|eapply lost_shorts; exact M].
  apply NoDup_incl_length; [exact NL|]. intros x X. now apply A.
Qed.
Print Assumptions C105_released_partial.

(** ** Cases *)
Definition ok : answers := ([], []).
(** the allocation after the first [n] fails; o_realloc after the first [n] fails *)
Definition short (n : nat) : answers := (repeat true n ++ [false], []).
Definition stuck (n : nat) : answers := ([], repeat true n ++ [false]).
Definition asks (o : answers) (hs args : list pair_in) : visit :=
  mk_visit o (bs "/a?x=1") (bs "/a") None (bs "HTTP/1.1") (bs "POST") [2; 0] hs args [] ok.
Definition pair (k v : string) : pair_in := (ok, (Some (bs k), Some (bs v))).
Definition form : pair_in := pair "Content-Type" "multipart/form-data; boundary=x".
Definition part (k : string) (n : option str) (d : string) (off : Z) : piece := mk_piece (bs k) n (bs d) off.
Definition no_limit : rconf := mk_rconf true 17 0 0.
Definition limits : rconf := mk_rconf true 17 3 4.
Definition shown (o : outcome rprog) : outcome (list acon * nat) :=
  do s <- o; do l <- read_conns (s_mem s) (s_conns s); Ret (l, List.length (h_live (m_heap (s_mem s)))).
Definition of_shown {A} (f : acon -> A) (o : outcome (list acon * nat)) : option (list A * nat) :=
  match o with Ret (l, n) => Some (map f l, n) | UB _ => None end.
Definition map_of (i : nat) (a : acon) : amap := match ac_req a with Some q => nth i (aq_maps q) [] | None => [] end.
Definition body_of (a : acon) : option (list Z) := match ac_req a with Some q => aq_body q | None => None end.

Ltac memory := first [left; reflexivity | right; split; [cbn; intuition discriminate|]; first [left; reflexivity | right; cbn; intuition discriminate]].
Ltac all_ok := repeat match goal with
  | |- Forall _ _ => constructor
  | |- rop_ok _ => unfold rop_ok
  | |- _ /\ _ => split
  | |- open_memory _ => memory
  | |- grows _ => reflexivity
  | |- True => exact I
  | |- _ <> _ => discriminate
  | |- _ => vm_compute; first [reflexivity | discriminate]
  end.

Ltac all_roomy := repeat match goal with
  | |- Forall _ _ => constructor
  | |- rop_roomy _ => unfold rop_roomy
  | |- _ /\ _ => split
  | |- roomy _ => unfold roomy; cbn; tauto
  | |- True => exact I
  end.

(** two connections at a time; one sends a form with a file and a repeated name, both have limits *)
Definition two : list rop :=
  [Comes (asks ok [pair "X" "a"; form; pair "X" "b"; (ok, (Some [255], Some (bs "refused")))] [pair "x" "1"; pair "x" "2"]);
   Comes (asks ok [] []);
   Sends 0 (mk_chunk ok (bs "ab") [(ok, part "k" (Some (bs "f.txt")) "one" 0); (ok, part "k" (Some (bs "g")) "twothree" 3); (ok, part "k" None "x" 9); (ok, part "k" None "y" 0)]);
   Sends 1 (mk_chunk ok (bs "cd") []); Sends 1 (mk_chunk ok (bs "ef") []); Ends 7].
Example C105_ex_two : Forall rop_ok two /\ Forall rop_roomy two /\ zsum (map rop_size two) + 1 < two64 /\
  (match shown (rrun limits rstart two) with
   | Ret ([a; b], n) =>
       ac_args a = [(bs "x", bs "1,2" ++ [0])] /\ map_of M_HEADER a = [(bs "X", bs "a,b" ++ [0]); (bs "Content-Type", bs "multipart/form-data; boundary=x" ++ [0])] /\
       map_of M_POST a = [(bs "k_filename", bs "f.txt" ++ [0]); (bs "k", bs "onet,y")] /\ body_of a = Some (bs "ab") /\ ac_going a = true /\
       body_of b = Some (bs "cde") /\ ac_form b = false /\ n = 65%nat
   | _ => False
   end) /\
  shown (rrun limits rstart (two ++ [Ends 0; Ends 0])) = Ret ([], 0%nat).
Proof.
  split; [all_ok|].
  split; [all_roomy|].
  split; [vm_compute; reflexivity|].
  split; vm_compute; auto 20.
Qed.

(** allocations fail: the second connection gets no memory, the value of X disappears, the parameters after the first do not come,
    the name of the file is not kept, and the third has no post processor *)
Definition thin : list rop :=
  [Comes (asks ok [pair "X" "a"; form; (short 0, (Some (bs "X"), Some (bs "b")))] [pair "x" "1"; (short 1, (Some (bs "y"), Some (bs "2"))); pair "z" "3"]);
   Comes (asks (short 4) [] []); Comes (asks (short 0) [] []);
   Comes (mk_visit ok (bs "/") (bs "/") None (bs "HTTP/1.1") (bs "PUT") [2] [form] [] [] (short 0));
   Sends 1 (mk_chunk ok (bs "never") []);
   Sends 0 (mk_chunk ok (bs "ab") [(short 0, part "k" (Some (bs "f.txt")) "one" 0)])].
Example C105_ex_thin : Forall rop_ok thin /\ zsum (map rop_size thin) + 1 < two64 /\
  (match shown (rrun no_limit rstart thin) with
   | Ret ([a; b], n) =>
       ac_args a = [(bs "x", bs "1" ++ [0])] /\ map_of M_HEADER a = [(bs "X", []); (bs "Content-Type", bs "multipart/form-data; boundary=x" ++ [0])] /\
       map_of M_POST a = [(bs "k", bs "one")] /\ body_of a = Some (bs "ab") /\ ac_going a = true /\ ac_req b = None /\ ac_going b = false
   | _ => False
   end) /\
  shown (rrun no_limit rstart (thin ++ [Ends 1; Ends 0])) = Ret ([], 3%nat) /\ shorts thin = 3%nat.
Proof.
  split; [all_ok|].
  split; [vm_compute; reflexivity|]. split; vm_compute; auto 20.
Qed.

(** ** What fails *)
(** C105. The full statement wants nothing lost. It is false, ulfius.c:571-574: when o_realloc of the body fails, its answer NULL is
    stored over the only pointer to the body; when the connection ended, the block of the body is still in use. *)
Theorem C105_body_refuted : exists g ops, shown (rrun g rstart ops) = Ret ([], 1%nat) /\
  ops = [Comes (asks ok [] []); Sends 0 (mk_chunk ok (bs "ab") []); Sends 0 (mk_chunk (stuck 0) (bs "cd") []); Ends 0].
Proof. exists no_limit. eexists. split; [|reflexivity]. vm_compute. reflexivity. Qed.
Print Assumptions C105_body_refuted.

(** C105. A header that comes twice loses its value when msprintf finds no memory, ulfius.c:81-86 and 116-121: u_map_put gets NULL and
    erases what was there; the function answers MHD_YES and the request goes on to the callbacks, with the name and no value. *)
Theorem C105_erased_refuted : exists g ops, of_shown (fun a => (map_of M_HEADER a, ac_going a)) (shown (rrun g rstart ops)) =
    Some ([([(bs "X-Role", []); (bs "Host", bs "h" ++ [0])], true)], 30%nat) /\
  ops = [Comes (asks ok [pair "X-Role" "guest"; (short 0, (Some (bs "X-Role"), Some (bs "none"))); pair "Host" "h"] [])].
Proof. exists no_limit. eexists. split; [|reflexivity]. vm_compute. reflexivity. Qed.
Print Assumptions C105_erased_refuted.

(** C105. When there is no memory for a pair, ulfius_fill_map answers MHD_NO, so libmicrohttpd gives no other pair of its kind, and
    the result of MHD_get_connection_values is not looked at, ulfius.c:535-543: the request goes on to the callbacks without the headers
    (url parameters, cookies) that follow, here without its Authorization. *)
Theorem C105_headers_refuted : exists g ops, of_shown (fun a => (map_of M_HEADER a, ac_going a)) (shown (rrun g rstart ops)) =
    Some ([([(bs "Host", bs "h" ++ [0])], true)], 28%nat) /\
  ops = [Comes (asks ok [pair "Host" "h"; (short 0, (Some (bs "Accept"), Some (bs "text"))); pair "Authorization" "secret"] [])].
Proof. exists no_limit. eexists. split; [|reflexivity]. vm_compute. reflexivity. Qed.
Print Assumptions C105_headers_refuted.

(** C105. The result of u_map_init(&con_info->map_url_initial) is not looked at, ulfius.c:216: when it finds no memory the arrays of
    the map are NULL and the first url parameter reads through them. *)
Theorem C105_init_refuted : exists g ops, rrun g rstart ops = UB NullDeref /\ ops = [Comes (asks (short 1) [] [pair "x" "1"])].
Proof. exists no_limit. eexists. split; [|reflexivity]. vm_compute. reflexivity. Qed.
Print Assumptions C105_init_refuted.

(** C105. When there is no memory for the request, ulfius_uri_logger releases the structure of the connection and not the three arrays
    of its map of url parameters, ulfius.c:216-222: three blocks stay in use for each such connection, so in the end more than any number. *)
Theorem C105_map_refuted : forall n, exists g ops s, rrun g rstart ops = Ret s /\ s_conns s = [] /\ (n <= List.length (h_live (m_heap (s_mem s))))%nat.
Proof.
  intros n. set (v := asks (short 4) [] []).
  assert (R : forall k x h a b, Forall (fun y => y < x)%nat h ->
            exists s', rrun no_limit (mk_rprog (mk_mem (mk_heap x h) a b) []) (repeat (Comes v) k) = Ret s' /\ s_conns s' = [] /\
            (k + List.length h <= List.length (h_live (m_heap (s_mem s'))))%nat).
  { induction k as [|k IH]; intros x h a b F; [eexists; split; [reflexivity|]; cbn; auto with arith|].
    assert (NI : ~ In x h). { intros X. rewrite Forall_forall in F. specialize (F x X). lia. }
    set (y := S (S (S (S x)))).
    assert (C : x_connect (again (mk_mem (mk_heap x h) a b) (v_open v)) (v_uri v) (v_path v) = Ret (mk_mem (mk_heap y (S (S (S x)) :: S (S x) :: S x :: h)) [] [], None)).
    { unfold x_connect, x_init, x_uri_logger, v, asks, short, again, x_malloc, x_free, h_malloc, h_free, is_live, v_open, v_uri, v_path. cbn -[remove Nat.eqb bs].
      rewrite Nat.eqb_refl. rewrite ?Bool.orb_true_r. cbn -[remove bs]. do 3 (cbn [remove]; destruct (Nat.eq_dec _ _) as [X|_]; [exfalso; lia|]).
      cbn [remove]. destruct (Nat.eq_dec x x) as [_|X]; [|now elim X]. rewrite notin_remove by exact NI. reflexivity. }
    destruct (IH y (S (S (S x)) :: S (S x) :: S x :: h) [] []) as (s' & A & B & L).
    { unfold y. repeat (constructor; [lia|]). eapply Forall_impl; [|exact F]. cbn. lia. }
    exists s'. split; [|split; [exact B|]].
    - cbn [repeat rrun]. unfold rstep at 1. cbn [s_mem s_conns]. rewrite C. cbn [bind snd fst]. exact A.
    - cbn [List.length] in L. lia. }
  destruct (R n 0%nat [] [] [] (Forall_nil _)) as (s & A & B & C). exists no_limit, (repeat (Comes v) n), s. cbn in C. split; [exact A|]. split; [exact B|]. lia.
Qed.
Print Assumptions C105_map_refuted.

(** C105. The name of a file of a form is lost when msprintf or u_map_put finds no memory, ulfius.c:387-392: the error is only logged,
    the data is kept and the request goes on as if the client had sent no name. *)
Theorem C105_filename_refuted : exists g ops, of_shown (fun a => (map_of M_POST a, ac_going a)) (shown (rrun g rstart ops)) =
    Some ([([(bs "k", bs "one")], true)], 32%nat) /\
  ops = [Comes (asks ok [form] []); Sends 0 (mk_chunk ok (bs "ab") [(short 0, part "k" (Some (bs "f.txt")) "one" 0)])].
Proof. exists no_limit. eexists. split; [|reflexivity]. vm_compute. reflexivity. Qed.
Print Assumptions C105_filename_refuted.

(** C105. When o_realloc finds no memory for a further piece of a value, u_map.c:164-168 stores NULL over the only pointer to the value
    and keeps its length. mhd_iterate_post_data answers MHD_NO, but the result of MHD_post_process is not looked at,
    ulfius.c:582-584: the request goes on to the callbacks with a value that is NULL and has a length, here 1, and when the connection
    ended the block of the value is still in use. *)
Definition appended : list rop := [Comes (asks ok [form] []); Sends 0 (mk_chunk ok (bs "ab") [(ok, part "k" None "d" 0); (stuck 0, part "k" None "e" 0)])].
Definition post_of (s : rprog) (i : nat) : outcome (option fmap) :=
  match nth_error (s_conns s) i with
  | Some (mk_conn _ _ (Some (_, r)) _ true) => do h <- x_at (rq_maps r) M_POST; do y <- x_deref (s_mem s) h; Ret (Some (snd y))
  | _ => Ret None
  end.
Theorem C105_piece_refuted : exists g s f, rrun g rstart appended = Ret s /\ post_of s 0 = Ret (Some f) /\
  x_get (s_mem s) f (bs "k") = Ret None /\ x_get_length (s_mem s) f (bs "k") = Ret 1 /\
  shown (rrun g rstart (appended ++ [Ends 0])) = Ret ([], 1%nat).
Proof.
  exists no_limit. eexists. eexists. split; [vm_compute; reflexivity|]. split; [vm_compute; reflexivity|]. split; [vm_compute; reflexivity|].
  split; vm_compute; reflexivity.
Qed.
Print Assumptions C105_piece_refuted.

(** C105. And a further piece of the same name, if it came, would be written through this NULL: u_map_get gives NULL, so the data goes to
    the beginning of the value, and its old length is enough for it, u_map.c:163-172. *)
Theorem C105_write_refuted : exists g ops, rrun g rstart (appended ++ ops) = UB NullDeref /\ ops = [Sends 0 (mk_chunk ok (bs "cd") [(ok, part "k" None "f" 0)])].
Proof. exists no_limit. eexists. split; [|reflexivity]. vm_compute. reflexivity. Qed.
Print Assumptions C105_write_refuted.
