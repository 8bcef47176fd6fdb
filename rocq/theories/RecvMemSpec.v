(** Specification vocabulary for the memory of requests that come in (C105): any number of
    connections at a time, what their calls mean, and the blocks in use. *)
From Coq Require Import String ZArith Bool List.
From Verif Require Import Base Utf8Model OwnModel MapMemModel MapMemSpec RespMemModel RespMemSpec ReqMemModel ReqMemSpec RecvMemModel.
Import ListNotations.
Open Scope Z_scope.

(** ** What happens: a connection comes, sends a chunk of a body, or ends. Connections are named by
    their position. libmicrohttpd gives no chunk to a connection for which a call answered MHD_NO;
    it ends it. *)
Inductive rop := Comes (v : visit) | Sends (i : nat) (c : chunk) | Ends (i : nat).
Record rprog := mk_rprog { s_mem : mem; s_conns : list conn }.
Definition rstep (g : rconf) (s : rprog) (o : rop) : outcome rprog :=
  match o with
  | Comes v =>
      do x <- x_connect (again (s_mem s) (v_open v)) (v_uri v) (v_path v);
      match snd x with
      | None => Ret (mk_rprog (fst x) (s_conns s))
      | Some c => do y <- x_begin g (fst x) c v; Ret (mk_rprog (fst y) (s_conns s ++ [snd y]))
      end
  | Sends i ch =>
      match nth_error (s_conns s) i with
      | None => Ret s
      | Some c =>
          if k_going c then do y <- x_chunk g (s_mem s) c ch; Ret (mk_rprog (fst y) (set_nth (s_conns s) i (snd y)))
          else Ret s
      end
  | Ends i =>
      match nth_error (s_conns s) i with
      | None => Ret s
      | Some c => do m <- x_completed (s_mem s) c; Ret (mk_rprog m (drop i (s_conns s)))
      end
  end.
Fixpoint rrun (g : rconf) (s : rprog) (l : list rop) : outcome rprog :=
  match l with [] => Ret s | o :: r => do x <- rstep g s o; rrun g x r end.
Definition rstart : rprog := mk_rprog (mk_mem (mk_heap 0 []) [] []) [].

(** ** What it means, without memory *)
(** the value of a name, empty when there is none *)
Fixpoint a_value (k : str) (a : amap) : list Z := match a with [] => [] | (x, v) :: r => if str_eqb x k then v else a_value k r end.
(** the text of the first field of a name, in any case of letters *)
Fixpoint a_field (k : str) (a : amap) : option str := match a with [] => None | (x, v) :: r => if str_caseeqb x k then a_text v else a_field k r end.
(** a value of a name that already has one comes after it and a comma *)
Definition add_value (k v : str) (a : amap) : amap :=
  a_put k (Some (match a_text (a_value k a) with Some t => t ++ [44] ++ v | None => v end)) a.
Definition given (v : option str) : str := match v with Some s => s | None => [] end.
(** texts that are not UTF-8 are refused, if the instance asks for it *)
Definition accepted (check : bool) (texts : list (list Z)) : bool := negb check || forallb utf8_valid texts.
(** the pairs, one after the other. A pair without a name ends the list. Only if an allocation failed
    meanwhile: a pair ends the list, or takes the value of its name away. *)
Inductive collects (check : bool) : amap -> list pair_in -> amap -> Prop :=
| co_end : forall a, collects check a [] a
| co_refused : forall a s k v r a', accepted check [k; given v] = false -> collects check a r a' -> collects check a ((s, (Some k, v)) :: r) a'
| co_added : forall a s k v r a', accepted check [k; given v] = true -> k <> [] -> collects check (add_value k (given v) a) r a' ->
    collects check a ((s, (Some k, v)) :: r) a'
| co_nameless : forall a s k v r, k = None \/ (k = Some [] /\ accepted check [[]; given v] = true) -> collects check a ((s, (k, v)) :: r) a
| co_cut : forall a s k v r, In false (fst s) -> accepted check [k; given v] = true -> collects check a ((s, (Some k, v)) :: r) a
| co_lost : forall a s k v r a', In false (fst s) -> accepted check [k; given v] = true -> a_text (a_value k a) <> None ->
    collects check (a_put k None a) r a' -> collects check a ((s, (Some k, v)) :: r) a'.
(** when every allocation succeeds *)
Fixpoint collected (check : bool) (a : amap) (l : list (option str * option str)) : amap :=
  match l with
  | [] => a
  | (None, _) :: _ => a
  | (Some k, v) :: r =>
      if accepted check [k; given v] then match k with [] => a | _ => collected check (add_value k (given v) a) r end
      else collected check a r
  end.

(** the pieces of the forms: the part of the data below the limit; the name of a file under
    <name>_filename unless this is taken *)
Definition within (max : Z) (p : piece) : list Z := if 0 <? max then zfirstn (max - pc_off p) (pc_data p) else pc_data p.
Definition refused (g : rconf) (p : piece) : bool :=
  negb (accepted (g_check g) ([pc_key p; pc_data p] ++ match pc_filename p with Some n => [n] | None => [] end))
  || ((0 <? g_max_param g) && (g_max_param g <? pc_off p)).
Definition add_name (p : piece) (a : amap) : amap :=
  match pc_filename p with
  | None => a
  | Some n => let k := pc_key p ++ bs "_filename" in if existsb (fun e => str_eqb (fst e) k) a then a else a_put k (Some n) a
  end.
Definition add_data (g : rconf) (p : piece) (a : amap) : amap :=
  a_change (pc_key p) (fun old => match old with [] => [] | _ => old ++ (if pc_off p =? 0 then [44] else []) end ++ within (g_max_param g) p) a.
Inductive posts (g : rconf) : amap -> list (answers * piece) -> amap -> Prop :=
| po_end : forall a, posts g a [] a
| po_refused : forall a s p r a', refused g p = true -> posts g a r a' -> posts g a ((s, p) :: r) a'
| po_added : forall a s p r a', refused g p = false -> pc_key p <> [] -> posts g (add_data g p (add_name p a)) r a' -> posts g a ((s, p) :: r) a'
| po_nameless : forall a s p r, refused g p = false -> pc_key p = [] -> posts g a ((s, p) :: r) (add_name p a)
| po_unnamed : forall a s p r a', In false (fst s) -> refused g p = false -> pc_filename p <> None -> pc_key p <> [] -> posts g (add_data g p a) r a' -> posts g a ((s, p) :: r) a'
| po_cut : forall a s p r a', In false (fst s) -> refused g p = false -> a' = a \/ a' = add_name p a -> posts g a ((s, p) :: r) a'.
(** when every allocation succeeds *)
Fixpoint posted (g : rconf) (a : amap) (l : list piece) : amap :=
  match l with
  | [] => a
  | p :: r =>
      if refused g p then posted g a r
      else match pc_key p with [] => add_name p a | _ => posted g (add_data g p (add_name p a)) r end
  end.

(** a connection: the url parameters, the request, whether its body is read as a form, and whether
    no call answered MHD_NO *)
Record acon := mk_acon { ac_args : amap; ac_req : option areq; ac_form : bool; ac_going : bool }.
Definition reads_forms (g : rconf) (t : option str) : bool :=
  match t with
  | None => false
  | Some c => (Z.testbit (g_allowed g) 0 && prefixb (bs "application/x-www-form-urlencoded") c)
              || (Z.testbit (g_allowed g) 4 && prefixb (bs "multipart/form-data") c)
  end.
Definition fields (q : areq) : amap := nth M_HEADER (aq_maps q) [].
Definition with_fields (q : areq) (headers cookies : amap) : areq := put_maps q (set_nth (set_nth (aq_maps q) M_HEADER headers) M_COOKIE cookies).
Definition incoming_of (v : visit) : areq := incoming (v_uri v) (v_path v) (v_cert v) (v_version v) (v_method v) (v_address v).
(** the texts, the address and the certificate that are missing for lack of memory *)
Definition less (b a : areq) : Prop :=
  some_missing (aq_texts b) (aq_texts a) /\ nth_error (aq_texts a) T_URL = nth_error (aq_texts b) T_URL /\ nth_error (aq_texts a) T_PATH = nth_error (aq_texts b) T_PATH /\
  (aq_addr a = aq_addr b \/ aq_addr a = None) /\ aq_maps a = aq_maps b /\ aq_body a = aq_body b /\ (aq_cert a = aq_cert b \/ aq_cert a = None).
(** the number says how many blocks are lost *)
Inductive comes (g : rconf) (v : visit) : option acon -> nat -> Prop :=
| cm_no_connection : hd true (fst (v_open v)) = false -> comes g v None 0
| cm_no_request : In false (fst (v_open v)) -> hd true (fst (v_open v)) = true -> comes g v None 3
| cm_refused : forall q, In false (fst (v_open v)) -> less (incoming_of v) q -> incoming_result q = U_ERROR_MEMORY -> comes g v (Some (mk_acon [] (Some q) false false)) 0
| cm_ok : forall q hs args cs, q = incoming_of v \/ (In false (fst (v_open v)) /\ less (incoming_of v) q) -> incoming_result q = U_OK ->
    collects (g_check g) [] (v_headers v) hs -> collects (g_check g) [] (v_args v) args -> collects (g_check g) [] (v_cookies v) cs ->
    comes g v (Some (mk_acon args (Some (with_fields q hs cs)) (reads_forms g (a_field (bs "Content-Type") hs)) true)) 0
| cm_no_processor : forall hs args cs, In false (fst (v_post v)) ->
    collects (g_check g) [] (v_headers v) hs -> collects (g_check g) [] (v_args v) args -> collects (g_check g) [] (v_cookies v) cs ->
    reads_forms g (a_field (bs "Content-Type") hs) = true -> comes g v (Some (mk_acon args None false false)) 0.
(** the body so far, up to the limit *)
Definition add_body (max : Z) (old : option (list Z)) (data : list Z) : list Z :=
  let all := match old with Some b => b | None => [] end ++ data in if 0 <? max then zfirstn max all else all.
Inductive sends (g : rconf) (ch : chunk) : acon -> acon -> Prop :=
| se_bytes : forall args q, sends g ch (mk_acon args (Some q) false true) (mk_acon args (Some (put_body q (Some (add_body (g_max_body g) (aq_body q) (ch_data ch))))) false true)
| se_form : forall args q h, posts g (nth M_POST (aq_maps q) []) (ch_pieces ch) h ->
    sends g ch (mk_acon args (Some q) true true)
      (mk_acon args (Some (put_maps (put_body q (Some (add_body (g_max_body g) (aq_body q) (ch_data ch)))) (set_nth (aq_maps q) M_POST h))) true true).
(** a run; the number is that of the blocks lost *)
Inductive rmeans (g : rconf) : list acon -> list rop -> list acon -> nat -> Prop :=
| rm_end : forall l, rmeans g l [] l 0
| rm_none : forall l v r l' k n, comes g v None k -> rmeans g l r l' n -> rmeans g l (Comes v :: r) l' (k + n)
| rm_comes : forall l v a r l' k n, comes g v (Some a) k -> rmeans g (l ++ [a]) r l' n -> rmeans g l (Comes v :: r) l' (k + n)
| rm_sends : forall l i ch a a' r l' n, nth_error l i = Some a -> sends g ch a a' -> rmeans g (set_nth l i a') r l' n -> rmeans g l (Sends i ch :: r) l' n
| rm_stopped : forall l i ch r l' n, (forall a, nth_error l i = Some a -> ac_going a = false) -> rmeans g l r l' n -> rmeans g l (Sends i ch :: r) l' n
| rm_ends : forall l i r l' n, rmeans g (drop i l) r l' n -> rmeans g l (Ends i :: r) l' n.

(** ** What the memory shows, read through the pointers *)
Definition read_conn (m : mem) (c : conn) : outcome acon :=
  do _ <- h_use (m_heap m) (k_block c);
  do a <- read_map m (k_args c);
  do q <- (match k_req c with None => Ret None | Some x => do q <- read_req m x; Ret (Some q) end);
  do p <- (match k_post c with None => Ret false | Some i => do _ <- h_use (m_heap m) i; Ret true end);
  Ret (mk_acon a q p (k_going c)).
Fixpoint read_conns (m : mem) (l : list conn) : outcome (list acon) :=
  match l with [] => Ret [] | c :: r => do a <- read_conn m c; do b <- read_conns m r; Ret (a :: b) end.

(** ** The blocks reachable from the connections. The structure of the map is part of that of the
    connection. *)
Definition conn_blocks (c : conn) : list nat :=
  map_blocks (k_block c, k_args c) ++ match k_req c with Some x => req_blocks x | None => [] end ++ match k_post c with Some i => [i] | None => [] end.
Definition rprog_blocks (s : rprog) : list nat := flat_map conn_blocks (s_conns s).

(** ** What is asked. The sizes together fit in [max]: the texts of the pairs and their commas, the
    bodies, the pieces of the forms and the names of the files *)
Definition zsum (l : list Z) : Z := fold_right Z.add 0 l.
Definition pair_size (x : pair_in) : Z := zlen (given (snd (snd x))) + 2.
Definition piece_size (x : answers * piece) : Z := zlen (pc_data (snd x)) + 2 + match pc_filename (snd x) with Some n => zlen n + 1 | None => 0 end.
Definition rop_size (o : rop) : Z :=
  match o with
  | Comes v => zsum (map pair_size (v_headers v ++ v_args v ++ v_cookies v))
  | Sends _ ch => zlen (ch_data ch) + zsum (map piece_size (ch_pieces ch))
  | Ends _ => 0
  end.
(** o_realloc has memory *)
Definition grows (s : answers) : Prop := snd s = [].
(** and where the others may fail: not in u_map_init of the url parameters, and not in
    ulfius_init_request (sixteen, after that of the structure) *)
Definition open_memory (l : list bool) : Prop :=
  hd true l = false \/ (~ In false (firstn 4 l) /\ (nth 4 l true = false \/ ~ In false (firstn 21 l))).
(** the certificate of a peer can be read by GnuTLS *)
Definition rop_ok (o : rop) : Prop :=
  match o with
  | Comes v => grows (v_open v) /\ open_memory (fst (v_open v)) /\ v_cert v <> Some None /\
      Forall (fun x : pair_in => grows (fst x)) (v_headers v ++ v_args v ++ v_cookies v) /\ grows (v_post v)
  | Sends _ ch => grows (ch_body ch) /\ ch_data ch <> [] /\
      Forall (fun x : answers * piece => grows (fst x) /\ 0 <= pc_off (snd x) /\ pc_off (snd x) + zlen (pc_data (snd x)) < two64) (ch_pieces ch)
  | Ends _ => True
  end.
(** no allocation fails *)
Definition roomy (s : answers) : Prop := ~ In false (fst s).
Definition rop_roomy (o : rop) : Prop :=
  match o with
  | Comes v => roomy (v_open v) /\ Forall (fun x : pair_in => roomy (fst x)) (v_headers v ++ v_args v ++ v_cookies v) /\ roomy (v_post v)
  | Sends _ ch => Forall (fun x : answers * piece => roomy (fst x)) (ch_pieces ch)
  | Ends _ => True
  end.
(** the run when no allocation fails *)
Definition arrived (g : rconf) (v : visit) : acon :=
  let hs := collected (g_check g) [] (map snd (v_headers v)) in
  mk_acon (collected (g_check g) [] (map snd (v_args v))) (Some (with_fields (incoming_of v) hs (collected (g_check g) [] (map snd (v_cookies v)))))
    (reads_forms g (a_field (bs "Content-Type") hs)) true.
Definition continued (g : rconf) (ch : chunk) (a : acon) : acon :=
  match ac_req a with
  | None => a
  | Some q =>
      let q1 := put_body q (Some (add_body (g_max_body g) (aq_body q) (ch_data ch))) in
      mk_acon (ac_args a) (Some (if ac_form a then put_maps q1 (set_nth (aq_maps q) M_POST (posted g (nth M_POST (aq_maps q) []) (map snd (ch_pieces ch)))) else q1)) (ac_form a) (ac_going a)
  end.
Definition rwell (g : rconf) (l : list acon) (o : rop) : list acon :=
  match o with
  | Comes v => l ++ [arrived g v]
  | Sends i ch => match nth_error l i with Some a => set_nth l i (continued g ch a) | None => l end
  | Ends i => drop i l
  end.
