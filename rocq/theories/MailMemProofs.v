(** Proofs about the memory of mails that are sent (C112). *)
From Coq Require Import String ZArith Bool List Lia.
From Verif Require Import Base BaseFacts UMapModel Dec OwnModel OwnSpec OwnProofs MapMemModel MapMemSpec MapMemProofs RespMemModel RespMemProofs DefMemProofs SiteMemProofs
  HttpMemModel HttpMemSpec.
From Verif Require Import ClientModel ClientSpec ClientProofs ClientProps SendModel SendSpec SendProofs MailMemModel MailMemSpec.
Import ListNotations.
Open Scope Z_scope.

(** ** allocations, with the answers that are left *)
Lemma malloc_new : forall m ids, has m ids -> exists m', m_new m' = tl (m_new m) /\
  ((exists i, x_malloc m = (Some i, m') /\ has m' (i :: ids)) \/ (x_malloc m = (None, m') /\ nth_error (m_new m) 0 = Some false /\ has m' ids)).
Proof.
  intros m ids O. unfold x_malloc, has. destruct (m_new m) as [|[] r] eqn:E; cbn [next_answer].
  - exists (mk_mem (snd (h_malloc (m_heap m))) [] (m_grow m)). split; [reflexivity|]. left. eexists. split; [reflexivity|]. exact (malloc_ok _ _ O).
  - exists (mk_mem (snd (h_malloc (m_heap m))) r (m_grow m)). split; [reflexivity|]. left. eexists. split; [reflexivity|]. exact (malloc_ok _ _ O).
  - exists (mk_mem (m_heap m) r (m_grow m)). split; [reflexivity|]. right. split; [reflexivity|]. split; [reflexivity|exact O].
Qed.
Lemma strdup_new : forall m t ids, has m ids -> exists m', m_new m' = tl (m_new m) /\
  ((exists i, x_strdup m (Some t) = (Some (i, t), m') /\ has m' (i :: ids)) \/ (x_strdup m (Some t) = (None, m') /\ nth_error (m_new m) 0 = Some false /\ has m' ids)).
Proof.
  intros m t ids O. destruct (malloc_new m ids O) as (m' & N & [(i & E & O1)|(E & F & O1)]); exists m'; (split; [exact N|]); cbn [x_strdup]; rewrite E; cbn [at_block]; eauto.
Qed.
Lemma nth_tl : forall A (l : list A) n, nth_error (tl l) n = nth_error l (S n).
Proof. intros A [|a l] n; [now destruct n|reflexivity]. Qed.
Lemma nth_skip : forall A k (l : list A) n, nth_error (skipn k l) n = nth_error l (k + n).
Proof. induction k as [|k IH]; intros l n; [reflexivity|]. destruct l as [|a l]; [now destruct n|]. cbn [skipn Nat.add nth_error]. apply IH. Qed.
Lemma tl_skip : forall A (l : list A), tl l = skipn 1 l.
Proof. now intros A [|a l]. Qed.

(** ** the recipients *)
Definition nblocks (l : list node) : list nat := flat_map (fun n => [fst (n_data n); n_block n]) l.
Definition ntexts (l : list node) : list str := map (fun n => snd (n_data n)) l.
Lemma nblocks_app : forall a b, nblocks (a ++ b) = nblocks a ++ nblocks b.
Proof. intros a b. unfold nblocks. now rewrite flat_map_app. Qed.
Lemma nblocks_length : forall l, List.length (nblocks l) = (2 * List.length l)%nat.
Proof. induction l as [|n l IH]; [reflexivity|]. unfold nblocks in *. cbn [flat_map List.length app]. rewrite IH. lia. Qed.
Lemma rcpts_has : forall ts m l ids, has m (nblocks l ++ ids) -> exists m' l',
  (x_rcpts m l ts = Ret (m', Some (l ++ l')) /\ ntexts l' = ts /\ has m' (nblocks (l ++ l') ++ ids) /\ m_new m' = skipn (2 * List.length ts) (m_new m)) \/
  (x_rcpts m l ts = Ret (m', None) /\ In false (m_new m) /\ (List.length l' < List.length ts)%nat /\ has m' (nblocks (l ++ l') ++ ids)).
Proof.
  induction ts as [|t ts IH]; intros m l ids O.
  - exists m, []. left. cbn [x_rcpts]. rewrite app_nil_r. split; [reflexivity|]. split; [reflexivity|]. split; [exact O|reflexivity].
  - cbn [x_rcpts]. destruct (strdup_new m t _ O) as (m1 & N1 & [(i & -> & O1)|(-> & F & O1)]).
    2: { exists m1, []. right. rewrite app_nil_r. split; [reflexivity|]. split; [eapply nth_error_In; eauto|]. split; [cbn [List.length]; lia|exact O1]. }
    destruct (malloc_new m1 _ O1) as (m2 & N2 & [(n & -> & O2)|(-> & F & O2)]).
    + assert (O3 : has m2 (nblocks (l ++ [mk_node n (i, t)]) ++ ids)) by (rewrite nblocks_app; cbn [nblocks flat_map n_data n_block fst app]; has_by O2).
      destruct (IH m2 (l ++ [mk_node n (i, t)]) ids O3) as (m' & l' & [(E & T & O4 & N4)|(E & S4 & L4 & O4)]); rewrite E; exists m', (mk_node n (i, t) :: l'); rewrite <- app_assoc in *; cbn [app] in *.
      * left. split; [reflexivity|]. split; [cbn [ntexts map n_data snd]; f_equal; exact T|]. split; [exact O4|]. rewrite N4, N2, N1, !tl_skip, skipn_plus, skipn_plus. f_equal. cbn [List.length]. lia.
      * right. split; [reflexivity|]. split; [|split; [cbn [List.length]; lia|exact O4]]. rewrite N2, N1 in S4. destruct (m_new m) as [|? [|? ?]]; cbn [tl] in S4; cbn [In] in *; tauto.
    + destruct (free_id _ _ _ O2) as (m3 & E3 & O3 & _). cbn [fst]. rewrite E3. unfold bind. exists m3, []. right. rewrite app_nil_r. split; [reflexivity|].
      split; [rewrite N1, nth_tl in F; eapply nth_error_In; eauto|]. split; [cbn [List.length]; lia|exact O3].
Qed.
Lemma in_h_use : forall m i ids, has m ids -> In i ids -> h_use (m_heap m) i = Ret tt.
Proof. intros m i ids O I1. pose proof (deref_has unit m i tt ids O I1) as D. unfold x_deref in D. destruct (h_use (m_heap m) i) as [[]|k]; [reflexivity|discriminate]. Qed.
Lemma read_list_has : forall l m ids, has m ids -> incl (nblocks l) ids -> x_read_list m l = Ret (ntexts l).
Proof.
  induction l as [|[n [i t]] l IH]; intros m ids O C; [reflexivity|]. cbn [x_read_list n_block n_data ntexts map snd]. unfold nblocks in C. cbn [flat_map n_data n_block fst app] in C.
  rewrite (in_h_use m n ids O) by (apply C; right; now left). unfold bind at 1. rewrite (deref_has _ m i t ids O) by (apply C; now left). unfold bind at 1.
  rewrite (IH m ids O) by (intros x X; apply C; now do 2 right). reflexivity.
Qed.
Lemma slist_free_has : forall l m ids, has m (nblocks l ++ ids) -> exists m', x_slist_free m l = Ret m' /\ has m' ids.
Proof.
  induction l as [|[n [i t]] l IH]; intros m ids O; [exists m; auto|]. cbn [x_slist_free n_data n_block fst]. unfold nblocks in O. cbn [flat_map n_data n_block fst app] in O.
  destruct (free_id _ _ _ O) as (m1 & -> & O1 & _). unfold bind at 1. destruct (free_id _ _ _ O1) as (m2 & -> & O2 & _). unfold bind at 1. exact (IH m2 ids O2).
Qed.

(** ** the options and the text *)
Definition first_orders (e : mail) (host from : str) : list opt :=
  [Url (Some (server e host))] ++ (if m_tls e =? 0 then [] else UseSsl :: if m_verify e =? 0 then [VerifyPeer 0; VerifyHost 0] else []) ++
  (match m_user e, m_password e with Some u, Some p => [Username u; Password p] | _, _ => [] end) ++ [MailFrom from].
Lemma orders_split : forall e date host from to ty body, orders e date host from to ty body =
  first_orders e host from ++ [MailRcpt (addressees e to)] ++ [ReadFunction; ReadData (letter e date from to ty body); Upload].
Proof. intros. unfold orders, first_orders. rewrite <- !app_assoc. reflexivity. Qed.
Lemma server_text : forall e host, bs "smtp" ++ (if is_set (m_tls e) then bs "s" else []) ++ bs "://" ++ host ++ bs ":" ++
  sdec (if (m_port e =? 0) && negb (is_set (m_tls e)) then 25 else if (m_port e =? 0) && is_set (m_tls e) then 587 else m_port e) = server e host.
Proof. intros e host. unfold server, is_set. destruct (m_tls e =? 0), (m_port e =? 0); reflexivity. Qed.
Lemma first_text : forall e host from, [Url (Some (server e host))] ++ (if is_set (m_tls e) then [UseSsl] else []) ++
  (if is_set (m_tls e) && negb (is_set (m_verify e)) then [VerifyPeer 0; VerifyHost 0] else []) ++
  (match m_user e, m_password e with Some u, Some p => [Username u; Password p] | _, _ => [] end) ++ [MailFrom from] = first_orders e host from.
Proof. intros e host from. unfold first_orders, is_set. destruct (m_tls e =? 0), (m_verify e =? 0); reflexivity. Qed.
Lemma letter_text : forall e date from to ty body,
  date ++ ln ++ bs "To: " ++ to ++ ln ++ bs "From: " ++ from ++ ln ++ (match m_cc e with Some x => bs "Cc: " ++ x ++ ln | None => [] end)
  ++ bs "Subject: " ++ given (m_subject e) ++ ln ++ bs "Content-Type: " ++ ty ++ ln ++ ln ++ body ++ ln = letter e date from to ty body.
Proof.
  intros. unfold letter, hline. rewrite <- !app_assoc. destruct (m_cc e) as [x|], (m_subject e) as [s|]; cbn [opt_list map concat given]; rewrite ?app_nil_r; rewrite <- ?app_assoc; reflexivity.
Qed.
Lemma total_sum : forall ns, total ns = zsum ns.
Proof. induction ns as [|n ns IH]; [reflexivity|]. cbn [total zsum]. now rewrite IH. Qed.
Lemma not_accepted : forall c l, set_all c [] l = None -> ~ all_accepted c l.
Proof. intros c l E A. rewrite (set_all_all c l A) in E. discriminate. Qed.
Lemma yes_accepted : forall c l x, set_all c [] l = Some x -> x = l /\ all_accepted c l.
Proof. intros c l x E. destruct (set_all_some c l [] x E) as [A B]. split; [exact A|exact B]. Qed.

Ltac as_str m t := match goal with |- context [x_strdup m ?a] => change (x_strdup m a) with (x_strdup m (@Some str t)) end.

(** ** the loop *)
Definition vblocks (v : left) : list nat := nblocks (v_list v) ++ ptr_blocks (v_url v) ++ ptr_blocks (v_cc v) ++ ptr_blocks (v_data v).
Definition loop_left (c : mcall) (ids : list nat) (r : outcome (mem * left)) : Prop :=
  (r = UB NullDeref /\ (m_type (c_mail c) = None \/ exists to, m_to (c_mail c) = Some to /\ cc_fails c to)) \/
  exists m' v lost, r = Ret (m', v) /\ has m' (vblocks v ++ lost ++ ids) /\ mailed c (v_ret v) (v_posted v) (List.length lost).
Lemma perform_has : forall c m ids host from to body ty i j rs, has m ids -> In i ids -> incl (nblocks rs) ids -> ntexts rs = addressees (c_mail c) to ->
  m_host (c_mail c) = Some host -> m_from (c_mail c) = Some from -> m_to (c_mail c) = Some to -> m_body (c_mail c) = Some body -> m_type (c_mail c) = Some ty ->
  zlen (letter (c_mail c) (c_date c) from to ty body) < two64 -> (exists ns, Forall2 wants (c_asks c) ns) ->
  set_all (c_curl c) [] (first_orders (c_mail c) host from ++ [MailRcpt (addressees (c_mail c) to)]) = Some j ->
  exists z p, x_perform c m j (Some (i, letter (c_mail c) (c_date c) from to ty body)) rs = Ret (z, p) /\ mailed c z p 0.
Proof.
  intros c m ids host from to body ty i j rs O I1 C T H1 H2 H3 H4 H5 SZ (ns & F) J. unfold x_perform. rewrite (deref_has _ m i _ ids O I1). unfold bind at 1. cbn [snd].
  pose proof (set_all_app (c_curl c) [ReadFunction; ReadData (letter (c_mail c) (c_date c) from to ty body); Upload] (first_orders (c_mail c) host from ++ [MailRcpt (addressees (c_mail c) to)]) []) as A.
  rewrite J in A. rewrite <- app_assoc, <- orders_split in A. rewrite <- A. destruct (set_all (c_curl c) [] (orders (c_mail c) (c_date c) host from to ty body)) as [x|] eqn:E.
  - destruct (yes_accepted _ _ _ E) as [-> ACC]. rewrite (read_list_has rs m ids O C), T. unfold bind at 1.
    destruct (C54_payload_exact _ (c_asks c) ns SZ F) as (blocks & p & -> & CC & _). unfold bind. do 2 eexists. split; [reflexivity|]. cbn [fst]. eapply ma_sent; eauto; now rewrite total_sum.
  - do 2 eexists. split; [reflexivity|]. eapply ma_refused; eauto. now apply not_accepted.
Qed.
Lemma loop_has : forall c m ids host from to body, has m ids -> m_new m = tl (c_new c) ->
  m_host (c_mail c) = Some host -> m_from (c_mail c) = Some from -> m_to (c_mail c) = Some to -> m_body (c_mail c) = Some body ->
  (forall ty, m_type (c_mail c) = Some ty -> zlen (letter (c_mail c) (c_date c) from to ty body) < two64) -> (exists ns, Forall2 wants (c_asks c) ns) -> m_type (c_mail c) <> None ->
  loop_left c ids (x_mail_loop c m host from to body).
Proof.
  intros c m ids host from to body O N H1 H2 H3 H4 SZ F TY. unfold x_mail_loop. cbv zeta. rewrite server_text.
  assert (IN : forall x, In x (tl (c_new c)) -> In x (c_new c)) by (intros x X; destruct (c_new c); [destruct X|now right]).
  as_str m (server (c_mail c) host).
  destruct (strdup_new m (server (c_mail c) host) _ O) as (m1 & N1 & [(iu & -> & O1)|(-> & FA & O1)]).
  2: { right. do 2 eexists. exists []. split; [reflexivity|]. split; [exact O1|]. cbn [v_ret v_posted List.length]. change 0%nat with (2 * 0)%nat. eapply ma_short; eauto; [|cbn; lia]. rewrite N in FA. apply IN. eapply nth_error_In; eauto. }
  rewrite (deref_has _ m1 iu _ _ O1 (or_introl eq_refl)). unfold bind at 1. cbn [snd]. rewrite first_text.
  destruct (m_type (c_mail c)) as [ty|] eqn:TYE; [|contradiction].
  pose proof (orders_split (c_mail c) (c_date c) host from to ty body) as OS.
  destruct (set_all (c_curl c) [] (first_orders (c_mail c) host from)) as [o|] eqn:S1.
  2: { right. do 2 eexists. exists []. split; [reflexivity|]. split; [exact O1|]. cbn [v_ret v_posted List.length]. eapply ma_refused; eauto. apply not_accepted. now rewrite OS, set_all_app, S1. }
  fold (opt_list (m_cc (c_mail c))) (opt_list (m_bcc (c_mail c))). change ([to] ++ opt_list (m_cc (c_mail c)) ++ opt_list (m_bcc (c_mail c))) with (addressees (c_mail c) to).
  destruct (rcpts_has (addressees (c_mail c) to) m1 [] (iu :: ids) O1) as (m2 & rs & [(E & T & O2 & N2)|(E & FA & L2 & O2)]); cbn [app] in *; rewrite E; unfold bind at 1.
  2: { right. do 2 eexists. exists (nblocks rs). split; [reflexivity|]. split; [change (has m2 ([iu] ++ nblocks rs ++ ids)); has_by O2|].
       cbn [v_ret v_posted]. rewrite nblocks_length. eapply ma_short; eauto. rewrite N1, N in FA. apply IN. destruct (tl (c_new c)); [destruct FA|now right]. }
  rewrite (read_list_has rs m2 _ O2 (incl_appl _ (incl_refl _))), T. unfold bind at 1.
  destruct (set_all (c_curl c) o [MailRcpt (addressees (c_mail c) to)]) as [o2|] eqn:S2.
  2: { right. do 2 eexists. exists []. split; [reflexivity|]. split; [change (has m2 ((nblocks rs ++ [iu]) ++ ids)); has_by O2|]. cbn [v_ret v_posted List.length]. eapply ma_refused; eauto.
       apply not_accepted. rewrite OS, set_all_app, S1; change (set_all (c_curl c) o ([MailRcpt (addressees (c_mail c) to)] ++ [ReadFunction; ReadData (letter (c_mail c) (c_date c) from to ty body); Upload]) = None); now rewrite set_all_app, S2. }
  assert (S3 : set_all (c_curl c) [] (first_orders (c_mail c) host from ++ [MailRcpt (addressees (c_mail c) to)]) = Some o2) by now rewrite set_all_app, S1.
  assert (N2' : m_new m2 = skipn (cc_line_at (c_mail c) to) (c_new c)).
  { rewrite N2, N1, N, !tl_skip, !skipn_plus. f_equal. }
  set (line := match m_cc (c_mail c) with Some x => bs "Cc: " ++ x ++ ln | None => [] end).
  as_str m2 line.
  destruct (strdup_new m2 line _ O2) as (m3 & N3 & [(ic & -> & O3)|(-> & FA & O3)]).
  2: { left. unfold x_mail_text, x_deref, bind. split; [reflexivity|]. right. exists to. split; [exact H3|]. unfold cc_fails. rewrite N2', nth_skip, Nat.add_0_r in FA. exact FA. }
  unfold x_mail_text. rewrite (deref_has _ m3 ic _ _ O3 (or_introl eq_refl)). rewrite TYE. unfold bind at 1. unfold bind at 1. cbn [snd].
  match goal with |- context [x_strdup m3 (Some ?a)] => replace a with (letter (c_mail c) (c_date c) from to ty body) by (symmetry; apply letter_text) end.
  as_str m3 (letter (c_mail c) (c_date c) from to ty body).
  destruct (strdup_new m3 (letter (c_mail c) (c_date c) from to ty body) _ O3) as (m4 & N4 & [(id & -> & O4)|(-> & FA & O4)]).
  2: { right. do 2 eexists. exists []. split; [reflexivity|]. split; [change (has m4 ((nblocks rs ++ [iu; ic]) ++ ids)); has_by O4|]. cbn [v_ret v_posted List.length]. change 0%nat with (2 * 0)%nat. eapply ma_short; eauto; [|cbn; lia].
       rewrite N3, N2', tl_skip, skipn_plus, nth_skip in FA. eapply nth_error_In; eauto. }
  destruct (perform_has c m4 (id :: ic :: nblocks rs ++ iu :: ids) host from to body ty id o2 rs O4 (or_introl eq_refl)) as (z & p & -> & M); auto.
  { intros x X. do 2 right. apply in_or_app. now left. }
  unfold bind. right. do 2 eexists. exists []. split; [reflexivity|]. split; [change (has m4 ((nblocks rs ++ [iu; ic; id]) ++ ids)); has_by O4|]. exact M.
Qed.

(** ** the mail *)
Definition mail_done (c : mcall) (ids : list nat) (r : outcome (mem * (Z * option posted))) : Prop :=
  (r = UB NullDeref /\ (m_type (c_mail c) = None \/ exists to, m_to (c_mail c) = Some to /\ cc_fails c to)) \/
  exists m' z p lost, r = Ret (m', (z, p)) /\ has m' (lost ++ ids) /\ mailed c z p (List.length lost).
Lemma mail_has : forall c m ids, has m ids -> m_new m = c_new c ->
  (forall from to ty body, m_from (c_mail c) = Some from -> m_to (c_mail c) = Some to -> m_type (c_mail c) = Some ty -> m_body (c_mail c) = Some body ->
    zlen (letter (c_mail c) (c_date c) from to ty body) < two64) -> (exists ns, Forall2 wants (c_asks c) ns) -> m_type (c_mail c) <> None -> mail_done c ids (x_mail c m).
Proof.
  intros c m ids O N SZ F TY. unfold x_mail. cbv zeta.
  destruct (m_host (c_mail c)) as [host|] eqn:H1; [|right; do 3 eexists; exists []; split; [reflexivity|]; split; [exact O|]; apply ma_params; auto].
  destruct (m_from (c_mail c)) as [from|] eqn:H2; [|right; do 3 eexists; exists []; split; [reflexivity|]; split; [exact O|]; apply ma_params; auto].
  destruct (m_to (c_mail c)) as [to|] eqn:H3; [|right; do 3 eexists; exists []; split; [reflexivity|]; split; [exact O|]; apply ma_params; auto].
  destruct (m_body (c_mail c)) as [body|] eqn:H4; [|right; do 3 eexists; exists []; split; [reflexivity|]; split; [exact O|]; apply ma_params; auto].
  destruct (malloc_new m ids O) as (m1 & N1 & [(h & -> & O1)|(-> & FA & O1)]).
  2: { right. do 3 eexists. exists []. split; [reflexivity|]. split; [exact O1|]. cbn [List.length]. change 0%nat with (2 * 0)%nat. eapply ma_short; eauto; [|cbn; lia]. rewrite N in FA. eapply nth_error_In; eauto. }
  rewrite N in N1. destruct (loop_has c m1 (h :: ids) host from to body O1 N1 H1 H2 H3 H4) as [(-> & B)|(m2 & v & lost & -> & O2 & M)]; auto.
  { left. split; [reflexivity|exact B]. }
  unfold bind at 1. right. destruct v as [z u l cc d p]. cbn [v_list v_url v_cc v_data v_ret v_posted vblocks] in *.
  destruct (slist_free_has l m2 (h :: ptr_blocks u ++ ptr_blocks cc ++ ptr_blocks d ++ lost ++ ids)) as (m3 & -> & O3).
  { change (vblocks (mk_left z u l cc d p)) with (nblocks l ++ ptr_blocks u ++ ptr_blocks cc ++ ptr_blocks d) in O2. has_by O2. }
  unfold bind at 1. destruct (free_id _ _ _ O3) as (m4 & -> & O4 & _). unfold bind at 1. destruct (free_has _ _ _ _ O4) as (m5 & -> & O5 & _). unfold bind at 1.
  destruct (free_has _ _ _ _ O5) as (m6 & -> & O6 & _). unfold bind at 1. destruct (free_has _ _ _ _ O6) as (m7 & -> & O7 & _). unfold bind at 1.
  do 4 eexists. split; [reflexivity|]. split; [exact O7|exact M].
Qed.
Lemma mails_has : forall l m ids, has m ids -> Forall mcall_ok l -> exists m' rs lost, x_mails m l = Ret (m', rs) /\ has m' (lost ++ ids) /\ all_mailed l rs (List.length lost).
Proof.
  induction l as [|c l IH]; intros m ids O F.
  - exists m, [], []. split; [reflexivity|]. split; [exact O|constructor].
  - inversion F as [|? ? [K1 K2 K3 K4] F2]; subst. cbn [x_mails]. destruct (mail_has c (mk_mem (m_heap m) (c_new c) []) ids O eq_refl K2 K3 K1) as [(_ & [B|(to & B1 & B2)])|(m1 & z & p & lost & E & O1 & M)].
    + contradiction.
    + exfalso. exact (K4 to B1 B2).
    + rewrite E. unfold bind at 1. cbn [fst snd]. destruct (IH m1 (lost ++ ids) O1 F2) as (m2 & rs & lost2 & -> & O2 & M2). unfold bind. cbn [fst snd].
      exists m2, ((z, p) :: rs), (lost ++ lost2). split; [reflexivity|]. split; [has_by O2|]. rewrite app_length. now constructor.
Qed.
