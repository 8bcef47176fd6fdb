(** Proofs about the websocket negotiation. *)
From Coq Require Import String ZArith Bool List Lia Permutation.
From Verif Require Import Base BaseFacts UMapModel UMapSpec UMapProofs UMapReach SMap StrModel Utf8Model NegoModel NegoSpec StrProofs.
Import ListNotations.
Open Scope Z_scope.

(** ** C41 *)
Definition opt_join (sep : Z) (l : list str) : option str := match l with [] => None | _ => Some (join [sep] l) end.

Lemma list_loop_ok : forall sep m l acc, exists r, common (value_of sep m) l r /\
  list_match_loop sep l (split_string sep m) (opt_join sep acc) = opt_join sep (acc ++ r).
Proof.
  induction l as [|x l IH]; intros acc.
  - exists []. split; [constructor|]. rewrite app_nil_r. reflexivity.
  - cbn [list_match_loop]. destruct (has_trimmed (split_string sep m) x) eqn:H.
    + destruct (IH (acc ++ [trim x])) as (r & C & E). exists (trim x :: r). split.
      * apply (c_take _ x); auto using trim_trimmed. now apply has_trimmed_iff.
      * rewrite <- app_assoc in E. cbn [app] in E. rewrite <- E. f_equal. destruct acc as [|a acc]; [reflexivity|].
        cbn [opt_join app]. f_equal. change (a :: acc ++ [trim x]) with ((a :: acc) ++ [trim x]). now rewrite join_app by discriminate.
    + destruct (IH acc) as (r & C & E). exists r. split; [|exact E]. apply (c_skip _ x (trim x)); auto using trim_trimmed.
      intros V. apply has_trimmed_iff in V. congruence.
Qed.

Lemma first_loop_ok : forall sep m l, exists r, common (value_of sep m) l r /\
  first_match_loop l (split_string sep m) = hd_error r.
Proof.
  induction l as [|x l (r & C & E)]; [exists []; split; [constructor|reflexivity]|].
  cbn [first_match_loop]. destruct (has_trimmed (split_string sep m) x) eqn:H.
  - exists (trim x :: r). split; [|reflexivity]. apply (c_take _ x); auto using trim_trimmed. now apply has_trimmed_iff.
  - exists r. split; [|exact E]. apply (c_skip _ x (trim x)); auto using trim_trimmed.
    intros V. apply has_trimmed_iff in V. congruence.
Qed.

Lemma common_in : forall m l r, common m l r -> forall v, In v r <-> (exists x, In x l /\ trimmed x v) /\ m v.
Proof.
  induction 1 as [|x t l r T M C IH|x t l r T M C IH]; intros v.
  - split; [intros []|]. intros [(x & [] & _) _].
  - cbn [In]. rewrite IH. split.
    + intros [<-|[(y & I & Y) MV]]; [split; auto; exists x; auto|]. split; auto. exists y; auto.
    + intros [(y & [<-|I] & Y) MV]; [left; apply trimmed_trim in T, Y; congruence|right; split; auto; eauto].
  - rewrite IH. split.
    + intros [(y & I & Y) MV]. split; auto. exists y. split; [now right|auto].
    + intros [(y & [<-|I] & Y) MV]; [apply trimmed_trim in T, Y; subst; contradiction|split; eauto].
Qed.

(** ** Headers in a map *)
Definition caseval (d : smap) (k : str) : option str :=
  match find (fun p => str_caseeqb (fst p) k) d with
  | Some (_, Some v) => Some v
  | Some (_, None) => Some []
  | None => None
  end.

Lemma repr_find_case : forall es d k, Forall2 entry_view es d ->
  match find (key_is_case k) es, find (fun p => str_caseeqb (fst p) k) d with
  | Some e, Some p => entry_view e p /\ In e es
  | None, None => True
  | _, _ => False
  end.
Proof.
  induction 1 as [|e p es d V F IH]; cbn [find]; auto.
  unfold key_is_case at 1. pose proof V as [V1 _]. rewrite V1.
  destruct (str_caseeqb (fst p) k); [split; [exact V|now left]|].
  destruct (find (key_is_case k) es), (find (fun p => str_caseeqb (fst p) k) d); auto. destruct IH. split; [auto|now right].
Qed.

Lemma repr_get_case : forall m d k, repr m d -> get_case_str m k = Ret (caseval d k).
Proof.
  intros m d k (es & L & OK & W & F & _). unfold get_case_str. rewrite (get_case_layout m es k L). unfold bind at 1.
  pose proof (repr_find_case es d k F) as H. unfold caseval.
  destruct (find (key_is_case k) es) as [e|], (find (fun p => str_caseeqb (fst p) k) d) as [[k' o]|]; try tauto.
  destruct H as [[_ V] I]. unfold e_cstr in V. cbn [snd] in V.
  destruct OK as [OK _]. rewrite Forall_forall in OK. destruct (OK e I) as (_ & E0 & _ & EB & EL).
  destruct (0 <? el e) eqn:P.
  - cbn [deref_cstr] in *. destruct (read_cstr (eb e)); [|discriminate]. cbn [bind] in *. injection V as <-. reflexivity.
  - apply Z.ltb_ge in P. assert (Z0 : el e = 0) by lia. cbn [deref_cstr] in V. injection V as <-.
    unfold evalue in EB. rewrite Z0, zfirstn_0 in EB. cbn [app] in EB. cbn [deref_cstr]. rewrite EB. reflexivity.
Qed.

Lemma repr_count_case : forall m d k, repr m d ->
  u_map_count_keys_case m (Some k) = Ret (zlen (filter (fun p => str_caseeqb (fst p) k) d)).
Proof.
  intros m d k (es & L & _ & _ & F & _). rewrite (count_case_layout m es k L). f_equal. clear L.
  induction F as [|e p es d [V _] F IH]; auto. cbn [filter]. unfold key_is_case at 1. rewrite V.
  destruct (str_caseeqb (fst p) k); [rewrite !zlen_cons|]; now rewrite IH.
Qed.

Lemma caseeq_iff : forall a b, str_caseeqb a b = true <-> same_name a b.
Proof. intros. unfold str_caseeqb, same_name. apply str_eqb_eq. Qed.

Lemma caseval_name : forall d k k', lowers k = lowers k' -> caseval d k = caseval d k'.
Proof. intros d k k' E. unfold caseval, str_caseeqb. rewrite E. reflexivity. Qed.

Lemma single_iff : forall d name v, single d name v <->
  zlen (filter (fun p => str_caseeqb (fst p) name) d) = 1 /\ caseval d name = Some v.
Proof.
  intros d name v. split.
  - intros (l1 & k & o & l2 & -> & S & -> & N).
    assert (M : forall l, (forall p, In p l -> ~ same_name (fst p) name) -> filter (fun p => str_caseeqb (fst p) name) l = [] /\
      find (fun p : str * option str => str_caseeqb (fst p) name) l = None).
    { induction l as [|p l IH]; intros H; [split; reflexivity|]. cbn [filter find].
      destruct (str_caseeqb (fst p) name) eqn:E; [apply caseeq_iff in E; exfalso; apply (H p); [now left|exact E]|].
      apply IH. intros q I. apply H. now right. }
    destruct (M l1) as [F1 G1]; [intros p I; apply N; apply in_app_iff; now left|].
    destruct (M l2) as [F2 _]; [intros p I; apply N; apply in_app_iff; now right|].
    apply caseeq_iff in S. split.
    + rewrite filter_app. cbn [filter fst]. rewrite S, F1, F2. reflexivity.
    + unfold caseval. rewrite find_app, G1. cbn [find fst]. rewrite S. destruct o; reflexivity.
  - intros [Z1 C]. unfold caseval in C.
    assert (G : forall l : smap, match find (fun p => str_caseeqb (fst p) name) l with
      | Some p => exists l1 l2, l = l1 ++ p :: l2 /\ same_name (fst p) name /\ filter (fun p => str_caseeqb (fst p) name) l1 = [] /\
                    filter (fun p => str_caseeqb (fst p) name) l = p :: filter (fun p => str_caseeqb (fst p) name) l2
      | None => True end).
    { induction l as [|p l IH]; cbn [find]; auto. destruct (str_caseeqb (fst p) name) eqn:E.
      - exists [], l. split; auto. split; [now apply caseeq_iff|]. split; auto. cbn [filter]. now rewrite E.
      - destruct (find _ l) as [q|]; auto. destruct IH as (l1 & l2 & -> & S & F1 & F2). exists (p :: l1), l2. split; auto. split; auto.
        cbn [filter]. rewrite E. split; auto. }
    specialize (G d). destruct (find _ d) as [[k o]|]; [|discriminate]. destruct G as (l1 & l2 & E & S & F1 & F2).
    rewrite F2 in Z1. rewrite zlen_cons in Z1. assert (F3 : filter (fun p => str_caseeqb (fst p) name) l2 = []).
    { destruct (filter _ l2); auto. rewrite zlen_cons in Z1. pose proof (zlen_nonneg _ l). lia. }
    exists l1, k, o, l2. split; [exact E|]. split; [exact S|]. split; [destruct o; congruence|].
    intros p I Q. apply caseeq_iff in Q. apply in_app_iff in I.
    assert (X : forall l, filter (fun p => str_caseeqb (fst p) name) l = [] -> ~ In p l).
    { intros l H J. assert (In p (filter (fun p => str_caseeqb (fst p) name) l)) by (apply filter_In; auto). rewrite H in *. contradiction. }
    destruct I as [I|I]; [exact (X _ F1 I)|exact (X _ F3 I)].
Qed.

Lemma lowers_app : forall a b, lowers (a ++ b) = lowers a ++ lowers b.
Proof. intros. apply map_app. Qed.

Lemma lowers_split : forall v a w b, lowers v = a ++ w ++ b -> exists a' w' b', v = a' ++ w' ++ b' /\ lowers w' = w.
Proof.
  intros v a w b E. unfold lowers in *. apply map_eq_app in E as (a' & r & -> & _ & E). apply map_eq_app in E as (w' & b' & -> & E & _).
  exists a', w', b'. auto.
Qed.

Lemma casestr_iff : forall v w, casestr (Some v) w = true <-> mentions v w.
Proof.
  intros v w. unfold casestr, mentions. rewrite containsb_true. split.
  - intros (a & b & E). apply lowers_split in E. exact E.
  - intros (a & w' & b & -> & E). exists (lowers a), (lowers b). rewrite !lowers_app, E. reflexivity.
Qed.

Lemma mentions_lower : forall v w w', lowers w = lowers w' -> mentions v w <-> mentions v w'.
Proof. intros v w w' E. unfold mentions. rewrite E. tauto. Qed.

Lemma single_lower : forall d n n' v, lowers n = lowers n' -> single d n v <-> single d n' v.
Proof. intros d n n' v E. unfold single, same_name. rewrite E. tauto. Qed.

Lemma ostr_eqb_iff : forall a b, ostr_eqb a b = true <-> a = b.
Proof.
  intros [a|] [b|]; cbn; split; try congruence; try discriminate.
  - intros H. apply str_eqb_eq in H. now subst.
  - intros [= ->]. apply str_eqb_eq. reflexivity.
Qed.

Lemma valid_upgrade_ok : forall m d protocol verb, repr m d -> exists b, valid_upgrade m protocol verb = Ret b /\
  (b = true <-> exists key, valid_request d protocol verb key).
Proof.
  intros m d protocol verb R. unfold valid_upgrade.
  rewrite !(repr_get_case m d _ R), !(repr_count_case m d _ R). unfold bind.
  eexists. split; [reflexivity|]. rewrite !andb_true_iff, !Z.eqb_eq, !ostr_eqb_iff. split.
  - intros (((((((((U & NU) & K) & NK) & C) & NC) & P) & V) & NV) & G).
    destruct (caseval d (bs "upgrade")) as [u|] eqn:EU; [|discriminate].
    destruct (caseval d (bs "Connection")) as [c|] eqn:EC; [|discriminate].
    destruct (caseval d (bs "Sec-WebSocket-Key")) as [k|] eqn:EK; [|discriminate].
    exists k. constructor; auto.
    + exists u. split; [|now apply casestr_iff]. rewrite (single_lower d (bs "Upgrade") (bs "upgrade")) by reflexivity. apply single_iff. auto.
    + exists c. split; [apply single_iff; auto|]. rewrite (mentions_lower c (bs "upgrade") (bs "Upgrade")) by reflexivity. now apply casestr_iff.
    + apply single_iff; auto.
    + apply single_iff; auto.
  - intros (k & [G P (u & U & MU) (c & C & MC) V K]).
    rewrite (single_lower d (bs "Upgrade") (bs "upgrade")) in U by reflexivity. apply single_iff in U as [U1 U2].
    apply single_iff in C as [C1 C2]. apply single_iff in V as [V1 V2]. apply single_iff in K as [K1 K2].
    rewrite U1, U2, C1, C2, V1, V2, K1, K2. rewrite (mentions_lower c (bs "upgrade") (bs "Upgrade")) in MC by reflexivity.
    apply casestr_iff in MU, MC. rewrite MU, MC. repeat (split; auto).
Qed.

Lemma valid_key : forall d protocol verb key, valid_request d protocol verb key -> caseval d (bs "Sec-WebSocket-Key") = Some key.
Proof. intros d p v k H. destruct H as [_ _ _ _ _ K]. now apply single_iff in K as [_ K]. Qed.

(** ** Extensions *)
Section Ext.
Variable server_match : nat -> Z -> option str -> str -> list str -> Z * option str.
(** a match function that accepts gives a name *)
Hypothesis names : forall n f o t l c, server_match n f o t l = (U_OK, c) -> c <> None.

Definition evolve (a b : wext) : Prop := same_extension a b /\ x_enabled a = x_enabled b /\ (x_enabled a = true -> a = b).
Lemma evolve_refl : forall e, evolve e e.
Proof. intros e. repeat split. Qed.
Lemma evolve_list : forall l, Forall2 evolve l l.
Proof. induction l; constructor; auto using evolve_refl. Qed.
Lemma evolve_enabled : forall l l', Forall2 evolve l l' -> filter x_enabled l = filter x_enabled l'.
Proof.
  induction 1 as [|a b l l' (_ & E & S) F IH]; auto. cbn [filter]. rewrite <- E. destruct (x_enabled a) eqn:X; [|exact IH].
  rewrite IH. f_equal. now apply S.
Qed.

(** one more extension was enabled *)
Definition one_more (elem : str) (rsv : Z) (nm : option str) (exts : list wext) (n : neg) : Prop :=
  exists a e b a' c, exts = a ++ e :: b /\ n_exts n = a' ++ enable e (Some c) :: b /\ Forall2 evolve a a' /\
    x_enabled e = false /\ Z.land (x_rsv e) rsv = 0 /\ n_rsv n = Z.lor rsv (x_rsv e) /\
    n_names n = Some (match nm with None => c | Some x => x ++ bs ", " ++ c end) /\
    match x_match e with
    | None => x_server e = Some c /\ trim c = trim elem
    | Some f => exists k old l, server_match k f old (trim elem) l = (U_OK, Some c)
    end.
Definition none_more (rsv : Z) (nm : option str) (exts : list wext) (n : neg) : Prop :=
  Forall2 evolve exts (n_exts n) /\ n_rsv n = rsv /\ n_names n = nm.

Lemma add_name_ok : forall nm c, add_name nm (Some c) = Ret (Some (match nm with None => c | Some x => x ++ bs ", " ++ c end)).
Proof. intros [x|] c; reflexivity. Qed.

Lemma ext_loop_ok : forall before after exts elem calls rsv nm, exists n,
  ext_loop server_match before after exts elem calls rsv nm = Ret n /\ trim (n_elem n) = trim elem /\
  (none_more rsv nm exts n \/ one_more elem rsv nm exts n).
Proof.
  intros before after. induction exts as [|e r IH]; intros elem calls rsv nm.
  - eexists. split; [reflexivity|]. split; [reflexivity|]. left. split; [constructor|auto].
  - assert (CONT : forall e' elem' calls', evolve e e' -> trim elem' = trim elem -> exists n,
      (do n <- ext_loop server_match before after r elem' calls' rsv nm;
       Ret (mk_neg (e' :: n_exts n) (n_elem n) (n_calls n) (n_rsv n) (n_names n))) = Ret n /\ trim (n_elem n) = trim elem /\
      (none_more rsv nm (e :: r) n \/ one_more elem rsv nm (e :: r) n)).
    { intros e' elem' calls' EV T. destruct (IH elem' calls' rsv nm) as (n & E & TE & H). rewrite E. cbn [bind].
      eexists. split; [reflexivity|]. cbn [n_elem]. split; [congruence|]. destruct H as [(H1 & H2 & H3)|H].
      - left. split; [|auto]. constructor; auto.
      - right. destruct H as (a & x & b & a' & c & H1 & H2 & H3 & H4 & H5 & H6 & H7 & H8).
        exists (e :: a), x, b, (e' :: a'), c. cbn [n_exts n_rsv n_names app]. rewrite H1, H2. rewrite T in H8.
        repeat (split; auto). }
    cbn [ext_loop]. cbv zeta. destruct (x_enabled e) eqn:EN; [apply CONT; [apply evolve_refl|reflexivity]|].
    destruct (x_match e) as [f|] eqn:XM.
    + destruct (server_match calls f (x_client e) (trim elem) (before ++ trim_left elem :: after)) as [ret c] eqn:SM.
      assert (EV : evolve e (set_client e c)) by (repeat split; congruence).
      destruct (ret =? U_OK) eqn:RT; [|apply CONT; [exact EV|apply trim_left_trim]].
      apply Z.eqb_eq in RT. subst ret. pose proof (names _ _ _ _ _ _ SM) as NN. destruct c as [c|]; [|congruence].
      destruct (Z.land (x_rsv e) rsv =? 0) eqn:LD.
      * apply Z.eqb_eq in LD. rewrite add_name_ok. cbn [bind]. eexists. split; [reflexivity|]. split; [apply trim_left_trim|]. right.
        exists [], e, r, [], c. cbn [n_exts n_rsv n_names app]. split; [reflexivity|]. split; [reflexivity|]. split; [constructor|].
        repeat (split; [assumption || reflexivity|]). rewrite XM. eauto.
      * eexists. split; [reflexivity|]. split; [apply trim_left_trim|]. left. split; [|auto]. constructor; auto using evolve_list.
    + destruct (ostr_eqb (Some elem) (x_server e) && (Z.land (x_rsv e) rsv =? 0)) eqn:M; [|apply CONT; [apply evolve_refl|reflexivity]].
      apply andb_true_iff in M as [M LD]. apply ostr_eqb_iff in M. apply Z.eqb_eq in LD. rewrite add_name_ok. cbn [bind].
      eexists. split; [reflexivity|]. split; [reflexivity|]. right.
      exists [], e, r, [], elem. cbn [n_exts n_rsv n_names app]. split; [reflexivity|]. split; [reflexivity|]. split; [constructor|].
      repeat (split; [assumption || reflexivity|]). rewrite XM. auto.
Qed.

(** the extensions enabled so far, in order *)
Record on_ok (offer : list str) (exts0 : list wext) (on : list wext) (exts : list wext) (rsv : Z) (nm : option str) : Prop := {
  oo_perm : Permutation on (filter x_enabled exts);
  oo_apart : apart 0 on;
  oo_rsv : rsv = union_bits 0 on;
  oo_names : nm = match on with [] => None | _ => Some (join (bs ", ") (map client_name on)) end;
  oo_asked : Forall (asked server_match offer) on;
  oo_same : Forall2 same_extension exts0 exts }.

Lemma apart_snoc : forall l r0 e, apart r0 l -> Z.land (x_rsv e) (union_bits r0 l) = 0 -> apart r0 (l ++ [e]).
Proof.
  induction l as [|x l IH]; intros r0 e A D; cbn [app apart] in *; [split; [exact D|exact I]|]. destruct A as [A1 A2]. split; auto.
Qed.
Lemma union_snoc : forall l r0 e, union_bits r0 (l ++ [e]) = Z.lor (union_bits r0 l) (x_rsv e).
Proof. intros. unfold union_bits. rewrite fold_left_app. reflexivity. Qed.

Lemma same_trans : forall l1 l2, Forall2 same_extension l1 l2 -> forall l3, Forall2 same_extension l2 l3 -> Forall2 same_extension l1 l3.
Proof.
  induction 1 as [|a b l1 l2 (A1 & A2 & A3) F IH]; intros l3 G; inversion G as [|? c ? ? (B1 & B2 & B3) G']; subst; constructor; auto.
  repeat split; congruence.
Qed.
Lemma evolve_same : forall l l', Forall2 evolve l l' -> Forall2 same_extension l l'.
Proof. induction 1 as [|a b l l' H F IH]; constructor; auto. apply H. Qed.

Lemma offer_loop_ok : forall offer all exts0 before on exts calls rsv nm, incl offer all -> on_ok all exts0 on exts rsv nm ->
  exists n on', offer_loop server_match before offer exts calls rsv nm = Ret n /\ on_ok all exts0 on' (n_exts n) (n_rsv n) (n_names n).
Proof.
  induction offer as [|x offer IH]; intros all exts0 before on exts calls rsv nm IN OK.
  - exists (mk_neg exts [] calls rsv nm), on. split; [reflexivity|exact OK].
  - cbn [offer_loop]. destruct (ext_loop_ok before offer exts x calls rsv nm) as (n & E & T & H). rewrite E. cbn [bind].
    assert (IN' : incl offer all) by (intros y I; apply IN; now right). assert (IX : In x all) by (apply IN; now left).
    assert (exists on2, on_ok all exts0 on2 (n_exts n) (n_rsv n) (n_names n)) as (on2 & OK2).
    { destruct OK as [P A R N AS SM]. destruct H as [(H1 & H2 & H3)|H].
      - exists on. constructor; try congruence; auto.
        + now rewrite <- (evolve_enabled _ _ H1).
        + eapply same_trans; [exact SM|]. now apply evolve_same.
      - destruct H as (a & e & b & a' & c & H1 & H2 & H3 & H4 & H5 & H6 & H7 & H8).
        exists (on ++ [enable e (Some c)]). constructor.
        + rewrite H2, filter_app. cbn [filter x_enabled enable]. rewrite <- (evolve_enabled _ _ H3).
          subst exts. rewrite filter_app in P. cbn [filter] in P. rewrite H4 in P. rewrite P.
          rewrite <- app_assoc. apply Permutation_app_head. now rewrite Permutation_app_comm.
        + apply apart_snoc; auto. cbn [x_rsv enable]. now rewrite <- R.
        + rewrite union_snoc, H6, <- R. reflexivity.
        + rewrite H7, N. destruct on as [|o on]; [reflexivity|]. cbn [app]. f_equal.
          change (map client_name (o :: on ++ [enable e (Some c)])) with (map client_name ((o :: on) ++ [enable e (Some c)])).
          rewrite map_app. cbn [map]. rewrite join_app by discriminate. reflexivity.
        + apply Forall_app. split; auto. constructor; [|constructor]. exists x. split; auto. cbn [x_match enable x_client x_server].
          destruct (x_match e) as [f|].
          * destruct H8 as (k & old & l & S). exists k, old, (trim x), l. split; [apply trim_trimmed|exact S].
          * destruct H8 as [S TC]. split; [congruence|]. exists c. split; auto. intros t. rewrite !trimmed_iff. rewrite TC. tauto.
        + rewrite H2. subst exts. eapply same_trans; [exact SM|]. apply Forall2_app; [now apply evolve_same|].
          constructor; [repeat split|]. clear. induction b; constructor; auto. repeat split. }
    apply (IH all exts0 (before ++ [n_elem n]) on2); auto.
Qed.
End Ext.

(** ** The client *)
Lemma cut_colon_ok : forall s, match cut_colon s with
  | Some (k, v) => s = k ++ [58] ++ v /\ ~ In 58 k
  | None => ~ In 58 s
  end.
Proof.
  induction s as [|c s IH]; [exact (fun H => H)|]. cbn [cut_colon]. destruct (c =? 58) eqn:E.
  - apply Z.eqb_eq in E. subst c. split; auto.
  - apply Z.eqb_neq in E. destruct (cut_colon s) as [[k v]|].
    + destruct IH as [-> N]. split; auto. intros [H|H]; [congruence|contradiction].
    + intros [H|H]; [congruence|contradiction].
Qed.

Lemma accept_never : forall line k v, cut_colon line = Some (k, v) -> str_caseeqb line (bs "Sec-WebSocket-Accept") = false.
Proof.
  intros line k v C. destruct (str_caseeqb line (bs "Sec-WebSocket-Accept")) eqn:E; auto. exfalso.
  unfold str_caseeqb in E. apply str_eqb_eq in E. pose proof (cut_colon_ok line) as H. rewrite C in H. destruct H as [-> _].
  assert (I : In 58 (lowers (k ++ [58] ++ v))).
  { rewrite lowers_app. apply in_app_iff. right. now left. }
  rewrite E in I. cbn in I. repeat (destruct I as [I|I]; [discriminate|]). exact I.
Qed.

Lemma header_line_check : forall c1 c2 line w, header_line c1 line w = header_line c2 line w.
Proof.
  intros c1 c2 line w. unfold header_line. destruct (cut_colon line) as [[k v]|] eqn:C; auto.
  rewrite (accept_never _ _ _ C). reflexivity.
Qed.

Lemma header_lines_check : forall c1 c2 fuel inp w, header_lines c1 fuel inp w = header_lines c2 fuel inp w.
Proof.
  intros c1 c2. induction fuel as [|f IH]; intros inp w; auto. cbn [header_lines].
  destruct (next_line inp []) as [[[|x line]|] rest]; auto. rewrite IH. now rewrite (header_line_check c1 c2).
Qed.


Lemma up_to_nul_id : forall l, Forall (fun c => c <> 0) l -> up_to_nul l = l.
Proof. induction 1 as [|c l N F IH]; auto. cbn [up_to_nul]. apply Z.eqb_neq in N. now rewrite N, IH. Qed.

Lemma next_line_go : forall l acc rest, Forall (fun c => c <> 0 /\ c <> 13 /\ c <> 10) l ->
  match acc with 13 :: _ => False | _ => True end -> zlen acc + zlen l <= 4094 ->
  next_line (l ++ [13; 10] ++ rest) acc =
    ((if utf8_valid (rev acc ++ l) then Some (up_to_nul (rev acc ++ l)) else None), rest).
Proof.
  induction l as [|c l IH]; intros acc rest F A L.
  - rewrite app_nil_r. pose proof (zlen_nonneg _ acc). change (zlen (@nil Z)) with 0 in L. cbn [app].
    assert (S1 : next_line (13 :: 10 :: rest) acc = next_line (10 :: rest) (13 :: acc)).
    { cbn [next_line]. replace (zlen acc + 1 <? RESPONSE_BUFFER_LEN) with true by (symmetry; apply Z.ltb_lt; unfold RESPONSE_BUFFER_LEN; lia).
      destruct acc as [|a acc]; auto. destruct (Z.eq_dec a 13) as [->|N]; [destruct A|].
      destruct a as [|p|p]; auto. do 4 (destruct p; auto). }
    rewrite S1. reflexivity.
  - inversion F as [|? ? (N0 & N13 & N10) F']; subst. rewrite zlen_cons in L. pose proof (zlen_nonneg _ l).
    assert (G : next_line ((c :: l) ++ [13; 10] ++ rest) acc = next_line (l ++ [13; 10] ++ rest) (c :: acc)).
    { cbn [app next_line]. replace (zlen acc + 1 <? RESPONSE_BUFFER_LEN) with true by (symmetry; apply Z.ltb_lt; unfold RESPONSE_BUFFER_LEN; lia).
      apply Z.eqb_neq in N10. rewrite N10. destruct acc as [|a acc']; auto. destruct a as [|p|p]; auto. do 4 (destruct p; auto). }
    rewrite G. rewrite IH; auto.
    + cbn [rev]. now rewrite <- app_assoc.
    + destruct c as [|p|p]; auto. do 4 (destruct p; auto).
    + rewrite zlen_cons. lia.
Qed.

Lemma next_line_ok : forall l rest, line_ok l -> next_line (l ++ crlf ++ rest) [] = (Some l, rest).
Proof.
  intros l rest (F & U & L). unfold crlf. rewrite next_line_go; auto. cbn [rev app]. rewrite U.
  rewrite up_to_nul_id; auto. eapply Forall_impl; [|exact F]. cbv beta. tauto.
Qed.

Lemma header_lines_ok : forall check hs fuel rest w, Forall (fun h => line_ok h /\ h <> []) hs ->
  (length (flat_map (fun h => h ++ crlf) hs ++ crlf ++ rest) <= fuel)%nat ->
  header_lines check fuel (flat_map (fun h => h ++ crlf) hs ++ crlf ++ rest) w = fold_left (fun w h => header_line check h w) hs w.
Proof.
  intros check. induction hs as [|h hs IH]; intros fuel rest w F L.
  - destruct fuel as [|f]; [cbn in L; lia|]. cbn [flat_map app header_lines].
    change (crlf ++ rest) with ([] ++ crlf ++ rest). rewrite next_line_ok; [reflexivity|]. split; [constructor|]. split; [reflexivity|]. cbn. lia.
  - inversion F as [|? ? (LO & NE) F']; subst. destruct fuel as [|f]; [cbn in L; rewrite !app_length in L; cbn in L; lia|].
    cbn [flat_map]. rewrite <- !app_assoc. cbn [header_lines]. rewrite next_line_ok by auto.
    destruct h as [|c h]; [congruence|]. cbn [fold_left]. apply IH; auto.
    clear - L. cbn [flat_map] in L. repeat rewrite app_length in L. repeat rewrite app_length. change (length crlf) with 2%nat in *.
    cbn [length] in L. lia.
Qed.

(** what each header contributes *)
Lemma header_flags : forall check h w, exists extra, p_flags (header_line check h w) = Z.lor (p_flags w) extra /\
  (extra = 0 \/ (extra = W_UPGRADE /\ upgrade_line h) \/ (extra = W_CONNECTION /\ connection_line h) \/
   (extra = W_PROTOCOL /\ exists v, header_of (bs "Sec-WebSocket-Protocol") h v) \/
   (extra = W_EXTENSION /\ exists v, header_of (bs "Sec-WebSocket-Extensions") h v)).
Proof.
  intros check h w. unfold header_line. pose proof (cut_colon_ok h) as C.
  destruct (cut_colon h) as [[k v]|] eqn:CC; [|exists 0; rewrite Z.lor_0_r; split; [reflexivity|now left]].
  destruct C as [E N].
  destruct (str_caseeqb h (bs "Upgrade: websocket")) eqn:E1.
  { exists W_UPGRADE. apply caseeq_iff in E1. split; [reflexivity|]. right. left. split; [reflexivity|exact E1]. }
  destruct (str_caseeqb h (bs "Connection: Upgrade")) eqn:E2.
  { exists W_CONNECTION. apply caseeq_iff in E2. split; [reflexivity|]. right. right. left. split; [reflexivity|exact E2]. }
  destruct (str_caseeqb k (bs "Sec-WebSocket-Protocol")) eqn:E3.
  { exists W_PROTOCOL. apply caseeq_iff in E3. split; [reflexivity|]. do 3 right. left. split; [reflexivity|].
    exists v, k. auto. }
  destruct (str_caseeqb k (bs "Sec-WebSocket-Extensions")) eqn:E4.
  { exists W_EXTENSION. apply caseeq_iff in E4. split; [reflexivity|]. do 4 right. split; [reflexivity|]. exists v, k. auto. }
  rewrite (accept_never _ _ _ CC). cbn [andb]. exists 0. rewrite Z.lor_0_r. split; [reflexivity|now left].
Qed.

Definition mask_of (ap ae : bool) : Z :=
  Z.lor (Z.lor (Z.lor W_UPGRADE (Z.lor W_CONNECTION W_ACCEPT)) (if ap then W_PROTOCOL else 0)) (if ae then W_EXTENSION else 0).

Lemma land_lor_zero : forall a b m, Z.land (Z.lor a b) m = 0 <-> Z.land a m = 0 /\ Z.land b m = 0.
Proof.
  intros a b m. rewrite Z.land_lor_distr_l. apply Z.lor_eq_0_iff.
Qed.

Lemma cut_colon_app : forall k v, ~ In 58 k -> cut_colon (k ++ [58] ++ v) = Some (k, v).
Proof.
  induction k as [|c k IH]; intros v N; [reflexivity|]. cbn [app cut_colon]. destruct (c =? 58) eqn:E.
  - apply Z.eqb_eq in E. exfalso. apply N. now left.
  - cbn [app] in IH. rewrite IH; [reflexivity|]. intros I. apply N. now right.
Qed.

Lemma has_colon : forall h t, lowers h = t -> In 58 t -> exists k v, cut_colon h = Some (k, v).
Proof.
  intros h t <- I. pose proof (cut_colon_ok h) as C. destruct (cut_colon h) as [[k v]|]; eauto. exfalso. apply C.
  unfold lowers in I. apply in_map_iff in I as (c & E & I). unfold lower in E.
  destruct ((65 <=? c) && (c <=? 90)) eqn:B; [|congruence]. apply andb_true_iff in B as [B1 B2]. lia.
Qed.

(** does this header count? *)
Lemma header_counts : forall check ap ae h w, Z.land (p_flags (header_line check h w)) (mask_of ap ae) = 0 <->
  Z.land (p_flags w) (mask_of ap ae) = 0 /\ ~ telling ap ae h.
Proof.
  intros check ap ae h w.
  assert (MU : Z.land W_UPGRADE (mask_of ap ae) <> 0) by (destruct ap, ae; discriminate).
  assert (MC : Z.land W_CONNECTION (mask_of ap ae) <> 0) by (destruct ap, ae; discriminate).
  unfold header_line. pose proof (cut_colon_ok h) as C.
  assert (TU : upgrade_line h -> exists k v, cut_colon h = Some (k, v)) by (intros U; eapply has_colon; [exact U|cbn; tauto]).
  assert (TC : connection_line h -> exists k v, cut_colon h = Some (k, v)) by (intros U; eapply has_colon; [exact U|cbn; tauto]).
  destruct (cut_colon h) as [[k v]|] eqn:CC.
  2:{ split; [|tauto]. intros Z0. split; auto. intros [U|[U|[[_ (v & k & -> & _ & N)]|[_ (v & k & -> & _ & N)]]]].
      - destruct (TU U) as (? & ? & X). discriminate.
      - destruct (TC U) as (? & ? & X). discriminate.
      - rewrite cut_colon_app in CC by auto. discriminate.
      - rewrite cut_colon_app in CC by auto. discriminate. }
  destruct C as [E N].
  assert (SAME : forall name v', header_of name h v' -> same_name k name).
  { intros name v' (k' & E' & S & N'). rewrite E' in CC. rewrite cut_colon_app in CC by auto. injection CC as <- <-. exact S. }
  destruct (str_caseeqb h (bs "Upgrade: websocket")) eqn:E1.
  { apply caseeq_iff in E1. cbn [p_flags]. rewrite land_lor_zero. split; [tauto|]. intros [_ T]. exfalso. apply T. now left. }
  destruct (str_caseeqb h (bs "Connection: Upgrade")) eqn:E2.
  { apply caseeq_iff in E2. cbn [p_flags]. rewrite land_lor_zero. split; [tauto|]. intros [_ T]. exfalso. apply T. right. now left. }
  assert (NU : ~ upgrade_line h) by (intros U; assert (str_caseeqb h (bs "Upgrade: websocket") = true) by (now apply caseeq_iff); congruence).
  assert (NC : ~ connection_line h) by (intros U; assert (str_caseeqb h (bs "Connection: Upgrade") = true) by (now apply caseeq_iff); congruence).
  destruct (str_caseeqb k (bs "Sec-WebSocket-Protocol")) eqn:E3.
  { apply caseeq_iff in E3. cbn [p_flags]. rewrite land_lor_zero.
    assert (H : header_of (bs "Sec-WebSocket-Protocol") h v) by (exists k; auto).
    assert (NX : forall v', ~ header_of (bs "Sec-WebSocket-Extensions") h v').
    { intros v' X. apply SAME in X. unfold same_name in *. rewrite E3 in X. discriminate. }
    unfold telling. destruct ap; cbn [mask_of].
    - split; [intros [_ X]; exfalso; revert X; destruct ae; discriminate|]. intros [_ T]. exfalso. apply T. right. right. left. eauto.
    - assert (Z.land W_PROTOCOL (mask_of false ae) = 0) by (destruct ae; reflexivity). split; [intros [Z0 _]; split; auto|intros [Z0 _]; auto].
      intros [U|[U|[[X _]|[_ (v' & X)]]]]; [tauto|tauto|discriminate|exact (NX _ X)]. }
  assert (NP : forall v', ~ header_of (bs "Sec-WebSocket-Protocol") h v').
  { intros v' X. apply SAME in X. apply caseeq_iff in X. congruence. }
  destruct (str_caseeqb k (bs "Sec-WebSocket-Extensions")) eqn:E4.
  { apply caseeq_iff in E4. cbn [p_flags]. rewrite land_lor_zero.
    assert (H : header_of (bs "Sec-WebSocket-Extensions") h v) by (exists k; auto).
    unfold telling. destruct ae.
    - split; [intros [_ X]; exfalso; revert X; destruct ap; discriminate|]. intros [_ T]. exfalso. apply T. right. right. right. eauto.
    - assert (Z.land W_EXTENSION (mask_of ap false) = 0) by (destruct ap; reflexivity). split; [intros [Z0 _]; split; auto|intros [Z0 _]; auto].
      intros [U|[U|[[_ (v' & X)]|[X _]]]]; [tauto|tauto|exact (NP _ X)|discriminate]. }
  assert (NX : forall v', ~ header_of (bs "Sec-WebSocket-Extensions") h v').
  { intros v' X. apply SAME in X. apply caseeq_iff in X. congruence. }
  rewrite (accept_never _ _ _ CC). cbn [andb]. unfold telling.
  split; [|tauto]. intros Z0. split; auto. intros [U|[U|[[_ (v' & X)]|[_ (v' & X)]]]]; [tauto|tauto|exact (NP _ X)|exact (NX _ X)].
Qed.

Lemma fold_counts : forall check ap ae hs w, Z.land (p_flags (fold_left (fun w h => header_line check h w) hs w)) (mask_of ap ae) = 0 <->
  Z.land (p_flags w) (mask_of ap ae) = 0 /\ Forall (fun h => ~ telling ap ae h) hs.
Proof.
  intros check ap ae. induction hs as [|h hs IH]; intros w; cbn [fold_left].
  - split; [intros H; split; auto|tauto].
  - rewrite IH, header_counts. rewrite Forall_cons_iff. tauto.
Qed.

Lemma header_no_ext : forall check h w, (forall v, ~ header_of (bs "Sec-WebSocket-Extensions") h v) ->
  p_extensions (header_line check h w) = p_extensions w.
Proof.
  intros check h w N. unfold header_line. pose proof (cut_colon_ok h) as C. destruct (cut_colon h) as [[k v]|]; auto. destruct C as [E NI].
  destruct (str_caseeqb h (bs "Upgrade: websocket")); auto. destruct (str_caseeqb h (bs "Connection: Upgrade")); auto.
  destruct (str_caseeqb k (bs "Sec-WebSocket-Protocol")); auto.
  destruct (str_caseeqb k (bs "Sec-WebSocket-Extensions")) eqn:E4.
  - exfalso. apply (N v). exists k. apply caseeq_iff in E4. auto.
  - destruct (str_caseeqb h (bs "Sec-WebSocket-Accept") && check v); auto.
Qed.
Lemma fold_no_ext : forall check hs w, Forall (fun h => forall v, ~ header_of (bs "Sec-WebSocket-Extensions") h v) hs ->
  p_extensions (fold_left (fun w h => header_line check h w) hs w) = p_extensions w.
Proof.
  intros check. induction hs as [|h hs IH]; intros w F; auto. inversion F; subst. cbn [fold_left]. rewrite IH by auto. now apply header_no_ext.
Qed.

(** any input: a line read was there *)
Lemma next_line_raw : forall inp acc line rest, next_line inp acc = (Some line, rest) ->
  exists raw, rev acc ++ inp = raw ++ crlf ++ rest /\ line = up_to_nul raw.
Proof.
  induction inp as [|c r IH]; intros acc line rest H; [discriminate|]. cbn [next_line] in H.
  assert (GO : (if zlen acc + 1 <? RESPONSE_BUFFER_LEN then next_line r (c :: acc) else (None, r)) = (Some line, rest) ->
    exists raw, rev acc ++ c :: r = raw ++ crlf ++ rest /\ line = up_to_nul raw).
  { intros G. destruct (zlen acc + 1 <? RESPONSE_BUFFER_LEN); [|discriminate]. apply IH in G as (raw & E & L). exists raw. split; auto.
    cbn [rev] in E. rewrite <- app_assoc in E. exact E. }
  destruct acc as [|a acc']; [exact (GO H)|]. destruct (Z.eq_dec a 13) as [->|NA].
  - destruct (c =? 10) eqn:E10; [|exact (GO H)]. apply Z.eqb_eq in E10. subst c. injection H as H <-.
    destruct (utf8_valid (rev acc')); [|discriminate]. injection H as <-. exists (rev acc'). split; auto.
    cbn [rev]. rewrite <- app_assoc. reflexivity.
  - apply GO. destruct a as [|p|p]; try exact H. do 4 (destruct p; try exact H). congruence.
Qed.

Lemma telling_dec : forall ap ae h, telling ap ae h \/ ~ telling ap ae h.
Proof.
  intros ap ae h. destruct (Z.eq_dec (Z.land (p_flags (header_line (fun _ => true) h (mk_wresp 0 None None false))) (mask_of ap ae)) 0) as [Z0|NZ].
  - apply header_counts in Z0 as [_ H]. now right.
  - destruct (header_flags (fun _ => true) h (mk_wresp 0 None None false)) as (x & E & D). rewrite E in NZ. cbn [p_flags] in NZ. rewrite Z.lor_0_l in NZ.
    destruct D as [->|[[-> U]|[[-> U]|[[-> U]|[-> U]]]]].
    + contradiction.
    + left. now left.
    + left. right. now left.
    + destruct ap; [left; right; right; left; auto|]. destruct ae; exfalso; now apply NZ.
    + destruct ae; [left; right; right; right; auto|]. destruct ap; exfalso; now apply NZ.
Qed.

Lemma header_lines_sound : forall check ap ae fuel inp w, Z.land (p_flags w) (mask_of ap ae) = 0 ->
  Z.land (p_flags (header_lines check fuel inp w)) (mask_of ap ae) <> 0 ->
  exists pre raw post, inp = pre ++ raw ++ crlf ++ post /\ telling ap ae (up_to_nul raw).
Proof.
  intros check ap ae. induction fuel as [|f IH]; intros inp w Z0 H; [contradiction|]. cbn [header_lines] in H.
  destruct (next_line inp []) as [[line|] rest] eqn:NL; [|contradiction].
  destruct (next_line_raw _ _ _ _ NL) as (raw & E & L). cbn [rev app] in E.
  destruct line as [|c line]; [contradiction|].
  destruct (Z.eq_dec (Z.land (p_flags (header_line check (c :: line) w)) (mask_of ap ae)) 0) as [Z1|NZ].
  - destruct (IH _ _ Z1 H) as (pre & raw2 & post & -> & T). exists (raw ++ crlf ++ pre), raw2, post. split; [|exact T].
    rewrite E, <- !app_assoc. reflexivity.
  - exists [], raw, rest. split; [exact E|]. rewrite <- L. 
    assert (~ (Z.land (p_flags w) (mask_of ap ae) = 0 /\ ~ telling ap ae (c :: line))) by (intros X; now apply (header_counts check) in X).
    assert (D : telling ap ae (c :: line) \/ ~ telling ap ae (c :: line)) by apply telling_dec. destruct D; auto. tauto.
Qed.
