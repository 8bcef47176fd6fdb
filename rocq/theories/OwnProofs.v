(** Proofs about the memory of endpoints (C94): the blocks in use are counted. *)
From Coq Require Import ZArith Bool List Lia Sorted Permutation.
From Verif Require Import Base BaseFacts UMapModel UMapProofs RouterModel RouterSpec RouterProofs EndpointProofs OwnModel OwnSpec.
Import ListNotations.
Open Scope Z_scope.

Definition cnt (l : list nat) (x : nat) : nat := count_occ Nat.eq_dec l x.
Arguments cnt : simpl never.
Definition one (a x : nat) : nat := if Nat.eq_dec a x then 1%nat else 0%nat.
Lemma cnt_nil : forall x, cnt [] x = 0%nat.
Proof. reflexivity. Qed.
Lemma cnt_cons : forall a l x, cnt (a :: l) x = (one a x + cnt l x)%nat.
Proof. intros. unfold cnt, one. cbn [count_occ]. destruct (Nat.eq_dec a x); lia. Qed.
Lemma cnt_app : forall a b x, cnt (a ++ b) x = (cnt a x + cnt b x)%nat.
Proof. intros. unfold cnt. apply count_occ_app. Qed.
Lemma cnt_in : forall l x, In x l <-> (0 < cnt l x)%nat.
Proof. intros. unfold cnt. rewrite (count_occ_In Nat.eq_dec). lia. Qed.
Lemma cnt_remove : forall l i x, cnt (remove Nat.eq_dec i l) x = if Nat.eq_dec i x then 0%nat else cnt l x.
Proof.
  induction l as [|a l IH]; intros i x; simpl.
  - destruct (Nat.eq_dec i x); reflexivity.
  - destruct (Nat.eq_dec i a) as [->|N]; rewrite ?cnt_cons, IH; unfold one; repeat destruct (Nat.eq_dec _ _); congruence || lia.
Qed.

(** the blocks in use are [ids], each once *)
Definition owns (h : heap) (ids : list nat) : Prop :=
  (forall x, cnt (h_live h) x = cnt ids x) /\ (forall x, (cnt (h_live h) x <= 1)%nat) /\
  (forall x, (h_next h <= x)%nat -> cnt (h_live h) x = 0%nat).

Ltac count := let x := fresh "x" in intros x; repeat rewrite ?cnt_app, ?cnt_cons, ?cnt_nil; lia.

Lemma owns_ext : forall h a b, owns h a -> (forall x, cnt a x = cnt b x) -> owns h b.
Proof. intros h a b (A & B & C) E. split; [intros x; now rewrite A, E|split; auto]. Qed.
Ltac owns_by H := eapply owns_ext; [exact H|count].

Lemma is_live_in : forall h i, is_live h i = true <-> In i (h_live h).
Proof.
  intros h i. unfold is_live. rewrite existsb_exists. split.
  - intros (x & I & E). apply Nat.eqb_eq in E. now subst.
  - intros I. exists i. split; auto. apply Nat.eqb_refl.
Qed.
Lemma owns_live : forall h ids i, owns h ids -> In i ids -> is_live h i = true.
Proof. intros h ids i (A & _) I. apply is_live_in, cnt_in. rewrite A. now apply cnt_in. Qed.

Lemma use_ok : forall h ids i, owns h ids -> In i ids -> h_use h i = Ret tt.
Proof. intros. unfold h_use. erewrite owns_live by eauto. reflexivity. Qed.

Lemma malloc_ok : forall h ids, owns h ids -> owns (snd (h_malloc h)) (h_next h :: ids).
Proof.
  intros h ids (A & B & C). split; [|split]; simpl; intros x.
  - rewrite !cnt_cons, A. reflexivity.
  - rewrite cnt_cons. unfold one. destruct (Nat.eq_dec (h_next h) x) as [<-|N].
    + rewrite C by lia. lia.
    + specialize (B x). lia.
  - intros L. rewrite cnt_cons. unfold one. destruct (Nat.eq_dec (h_next h) x); [lia|]. rewrite C by lia. reflexivity.
Qed.

Lemma free_ok : forall h i ids, owns h (i :: ids) -> exists h', h_free h i = Ret h' /\ owns h' ids.
Proof.
  intros h i ids O. unfold h_free. rewrite (owns_live h (i :: ids) i O) by now left.
  eexists. split; [reflexivity|]. destruct O as (A & B & C). split; [|split]; simpl; intros x; rewrite cnt_remove.
  - specialize (A x). specialize (B x). rewrite cnt_cons in A. unfold one in A.
    destruct (Nat.eq_dec i x); lia.
  - destruct (Nat.eq_dec i x); [lia|apply B].
  - intros L. destruct (Nat.eq_dec i x); auto.
Qed.

Lemma realloc_ok : forall h i ids, owns h (i :: ids) ->
  exists j h', h_realloc h i = Ret (j, h') /\ owns h' (j :: ids).
Proof.
  intros h i ids O. unfold h_realloc. destruct (free_ok _ _ _ O) as (h1 & -> & O1). unfold bind. unfold h_malloc.
  do 2 eexists. split; [reflexivity|]. exact (malloc_ok _ _ O1).
Qed.

(** ** texts *)
Definition t_val (t : text) : option str := match t with Some (_, s) => Some s | None => None end.
Lemma strdup_ok : forall h ids o t h', owns h ids -> t_strdup h o = (t, h') ->
  owns h' (text_blocks t ++ ids) /\ t_val t = o.
Proof.
  intros h ids [s|] t h' O E; unfold t_strdup in E; injection E as <- <-; split; try reflexivity; auto.
  exact (malloc_ok _ _ O).
Qed.
Lemma t_free_ok : forall h t ids, owns h (text_blocks t ++ ids) -> exists h', t_free h t = Ret h' /\ owns h' ids.
Proof. intros h [[i s]|] ids O; simpl in *; eauto. now apply free_ok. Qed.
Lemma t_read_ok : forall h ids t, owns h ids -> incl (text_blocks t) ids -> t_read h t = Ret (t_val t).
Proof.
  intros h ids [[i s]|] O I; simpl; auto. rewrite (use_ok h ids) by (auto; apply I; now left). reflexivity.
Qed.

(** ** endpoints *)
Definition erase (e : hep) : endpoint :=
  mk_ep (t_val (h_method e)) (t_val (h_prefix e)) (t_val (h_format e)) (h_prio e) (h_cb e) (h_data e).
Lemma e_read_ok : forall h ids e, owns h ids -> incl (ep_blocks e) ids -> e_read h e = Ret (erase e).
Proof.
  intros h ids e O I. unfold e_read, ep_blocks in *.
  rewrite (t_read_ok h ids) by (auto; intros x X; apply I; apply in_or_app; auto). unfold bind at 1.
  rewrite (t_read_ok h ids) by (auto; intros x X; apply I; apply in_or_app; right; apply in_or_app; auto). unfold bind at 1.
  rewrite (t_read_ok h ids) by (auto; intros x X; apply I; apply in_or_app; right; apply in_or_app; auto). reflexivity.
Qed.
Lemma e_copy_ok : forall h ids e c h', owns h ids -> e_copy h e = (c, h') -> owns h' (ep_blocks c ++ ids) /\ erase c = e.
Proof.
  intros h ids e c h' O E. unfold e_copy in E.
  destruct (t_strdup h (http_method e)) as [m h1] eqn:E1. destruct (strdup_ok _ _ _ _ _ O E1) as [O1 V1].
  destruct (t_strdup h1 (url_prefix e)) as [p h2] eqn:E2. destruct (strdup_ok _ _ _ _ _ O1 E2) as [O2 V2].
  destruct (t_strdup h2 (url_format e)) as [f h3] eqn:E3. destruct (strdup_ok _ _ _ _ _ O2 E3) as [O3 V3].
  injection E as <- <-. split.
  - unfold ep_blocks. simpl. owns_by O3.
  - unfold erase. simpl. rewrite V1, V2, V3. now destruct e.
Qed.
Lemma e_free_ok : forall h e ids, owns h (ep_blocks e ++ ids) -> exists h1 h2 h3,
  t_free h (h_method e) = Ret h1 /\ t_free h1 (h_prefix e) = Ret h2 /\ t_free h2 (h_format e) = Ret h3 /\ owns h3 ids.
Proof.
  intros h e ids O. unfold ep_blocks in O. rewrite <- !app_assoc in O.
  destruct (t_free_ok _ _ _ O) as (h1 & E1 & O1). destruct (t_free_ok _ _ _ O1) as (h2 & E2 & O2).
  destruct (t_free_ok _ _ _ O2) as (h3 & E3 & O3). eauto 10.
Qed.
Lemma e_clean_ok : forall h e ids, owns h (ep_blocks e ++ ids) -> exists h' x, e_clean h e = Ret (h', x) /\ owns h' ids.
Proof.
  intros h e ids O. destruct (e_free_ok _ _ _ O) as (h1 & h2 & h3 & E1 & E2 & E3 & O3).
  unfold e_clean. rewrite E1. unfold bind at 1. rewrite E2. unfold bind at 1. rewrite E3. unfold bind. eauto.
Qed.

(** ** the table *)
Definition hzero : hep := mk_hep None None None 0 None 0.
Definition slots (hs : list hep) : list (option hep) := map Some hs ++ [Some hzero].
Definition hsb (hs : list hep) : list nat := flat_map ep_blocks hs.
Lemma slots_blocks : forall hs, flat_map slot_blocks (slots hs) = hsb hs.
Proof.
  intros hs. unfold slots, hsb. rewrite flat_map_app. simpl. rewrite app_nil_r.
  induction hs as [|e hs IH]; simpl; auto. now rewrite IH.
Qed.
Lemma hsb_app : forall a b, hsb (a ++ b) = hsb a ++ hsb b.
Proof. intros. apply flat_map_app. Qed.
Lemma hsb_in : forall hs e, In e hs -> incl (ep_blocks e) (hsb hs).
Proof. intros hs e I x X. apply in_flat_map. eauto. Qed.
Lemma hsb_cons : forall e hs, hsb (e :: hs) = ep_blocks e ++ hsb hs.
Proof. reflexivity. Qed.

(** the instance holds the endpoints [hs] *)
Definition tinv (u : hinst) (hs : list hep) : Prop :=
  Forall registered (map erase hs) /\ h_nb u = length hs /\
  match h_list u with Some (_, arr) => arr = slots hs | None => hs = [] end.

Lemma tinv_blocks : forall u hs, tinv u hs -> match h_list u with
  | Some (i, _) => table_blocks u = i :: hsb hs | None => table_blocks u = [] /\ hs = [] end.
Proof.
  intros u hs (_ & _ & A). unfold table_blocks. destruct (h_list u) as [[i arr]|]; auto. subst arr. now rewrite slots_blocks.
Qed.

Lemma e_copy_empty : forall h, e_copy h empty_endpoint = (hzero, h).
Proof. reflexivity. Qed.

Lemma h_add_ok : forall h u hs e fr, tinv u hs -> owns h (table_blocks u ++ fr) -> not_empty_ep e ->
  (complete e -> exists h' u' c, h_add h u e = Ret (U_OK, (h', u')) /\ tinv u' (hs ++ [c]) /\ erase c = e /\
     h_default u' = h_default u /\ owns h' (table_blocks u' ++ fr)) /\
  (~ complete e -> h_add h u e = Ret (U_ERROR_PARAMS, (h, u))).
Proof.
  intros h u hs e fr T O NE. pose proof (valid_complete e NE) as V. unfold h_add. split.
  - intros C. assert (V1 : is_valid_endpoint e false = true) by now apply V. rewrite V1.
    pose proof (tinv_blocks u hs T) as TB. destruct T as (F & N & A).
    assert (X : exists h1 i x y, (match h_list u with
             | None => let '(i, h1) := h_malloc h in Ret (h1, (i, ([None; None], 1%nat)))
             | Some (i, arr) =>
                 do x <- h_realloc h i;
                 Ret (snd x, (fst x, (arealloc arr (Datatypes.S (h_nb u) + 1) None, Datatypes.S (h_nb u))))
             end) = Ret (h1, (i, (map Some hs ++ [x; y], Datatypes.S (length hs)))) /\ owns h1 (i :: hsb hs ++ fr)).
    { destruct (h_list u) as [[i arr]|].
      - subst arr. rewrite TB in O. destruct (realloc_ok h i (hsb hs ++ fr)) as (j & h1 & -> & O1); [exact O|].
        unfold bind. cbn [fst snd]. exists h1, j, (Some hzero), None. rewrite N. split; [|exact O1].
        rewrite arealloc_grow1 by (unfold slots; rewrite app_length, map_length; simpl; lia).
        unfold slots. rewrite <- app_assoc. reflexivity.
      - destruct TB as [TB ->]. rewrite TB in O. cbn -[h_malloc]. unfold h_malloc.
        do 4 eexists. split; [reflexivity|]. exact (malloc_ok _ _ O). }
    destruct X as (h1 & i & x & y & -> & O1). unfold bind at 1.
    destruct (e_copy h1 e) as [c h2] eqn:E. destruct (e_copy_ok _ _ _ _ _ O1 E) as [O2 EC].
    replace (Datatypes.S (length hs) - 1)%nat with (length (map (@Some hep) hs)) by (rewrite map_length; lia).
    rewrite aset_mid. unfold bind at 1. rewrite e_copy_empty.
    replace (map (@Some hep) hs ++ [Some c; y]) with (map Some (hs ++ [c]) ++ [y]) by (rewrite map_app, <- app_assoc; reflexivity).
    assert (L : Datatypes.S (length hs) = length (map (@Some hep) (hs ++ [c]))) by (rewrite map_length, app_length; simpl; lia).
    rewrite L. rewrite aset_mid. unfold bind at 1.
    do 3 eexists. split; [reflexivity|]. split; [|split; [exact EC|split; [reflexivity|]]].
    + split; [|split]; simpl.
      * rewrite map_app. apply Forall_app. split; auto. constructor; auto. rewrite EC. apply C.
      * now rewrite map_length.
      * reflexivity.
    + unfold table_blocks. simpl. change (map Some (hs ++ [c]) ++ [Some hzero]) with (slots (hs ++ [c])).
      rewrite slots_blocks, hsb_app. unfold hsb at 2. simpl. owns_by O2.
  - intros C. destruct (is_valid_endpoint e false); auto. exfalso. apply C. now apply V.
Qed.

Lemma h_add_list_ok : forall l h u hs fr, tinv u hs -> owns h (table_blocks u ++ fr) -> Forall not_empty_ep l ->
  exists a b c h' u' hs', l = a ++ b /\ Forall complete a /\ (b = [] \/ exists x r, b = x :: r /\ ~ complete x) /\
    h_add_list h u (map Some l ++ [Some empty_endpoint]) = Ret (c, (h', u')) /\ tinv u' (hs ++ hs') /\ map erase hs' = a /\
    h_default u' = h_default u /\ owns h' (table_blocks u' ++ fr).
Proof.
  induction l as [|e l IH]; intros h u hs fr T O F.
  - exists [], [], U_OK, h, u, []. rewrite app_nil_r. split; [auto|]. split; [constructor|]. split; [auto|]. split; [reflexivity|].
    split; [rewrite ?app_nil_r; exact T|]. split; [reflexivity|]. split; [reflexivity|exact O].
  - inversion F as [|? ? NE F']; subst. cbn [map app h_add_list].
    replace (equals_endpoints e empty_endpoint) with false
      by (symmetry; apply not_true_iff_false; rewrite equals_empty; tauto).
    destruct (h_add_ok h u hs e fr T O NE) as [A1 A2]. destruct (complete_dec e) as [C|C].
    + destruct (A1 C) as (h1 & u1 & c & E1 & T1 & EC & D1 & O1). rewrite E1. unfold bind at 1. cbn [fst snd].
      change (U_OK =? U_OK) with true. cbv iota.
      destruct (IH h1 u1 _ fr T1 O1 F') as (a & b & r & h' & u' & hs' & -> & FA & B & R & T' & EA & D' & O').
      exists (e :: a), b, r, h', u', (c :: hs'). split; auto. split; [constructor; auto|]. split; auto. split; auto.
      split; [now rewrite <- app_assoc in T'|]. split; [simpl; congruence|]. split; [congruence|auto].
    + exists [], (e :: l), U_ERROR_PARAMS, h, u, []. rewrite (A2 C). unfold bind at 1. cbn [fst].
      change (U_ERROR_PARAMS =? U_OK) with false. cbv iota. rewrite app_nil_r.
      split; auto. split; [constructor|]. split; [right; eauto|]. split; [reflexivity|].
      split; [rewrite ?app_nil_r; exact T|]. split; [reflexivity|]. split; [reflexivity|exact O].
Qed.

Lemma h_shift_spec : forall c a x, h_shift (a ++ x :: c) (length a) (length c) = Ret (a ++ c ++ match rev c with y :: _ => [y] | [] => [x] end).
Proof.
  induction c as [|y c IH]; intros a x.
  - reflexivity.
  - cbn [length h_shift]. replace (length a + 1)%nat with (length (a ++ [x])) by (rewrite app_length; simpl; lia).
    replace (a ++ x :: y :: c) with ((a ++ [x]) ++ y :: c) at 1 by now rewrite <- app_assoc.
    rewrite aget_mid. unfold bind at 1. rewrite aset_mid. unfold bind at 1.
    replace (a ++ y :: y :: c) with ((a ++ [y]) ++ y :: c) by now rewrite <- app_assoc.
    replace (Datatypes.S (length a)) with (length (a ++ [y])) by (rewrite app_length; simpl; lia).
    rewrite IH. f_equal. rewrite <- app_assoc. simpl. f_equal. f_equal. f_equal.
    destruct (rev c); reflexivity.
Qed.

Definition misses (t : endpoint) (x : hep) : bool := negb (hit t (erase x)).

Lemma h_remove_loop_ok : forall t pre post h i fr found, owns h (i :: hsb (pre ++ post) ++ fr) ->
  exists h' i', h_remove_loop h i (slots (pre ++ post)) (length (pre ++ post)) t (length pre) found
    = Ret (found || existsb (hit t) (map erase pre),
           (h', (i', (slots (filter (misses t) pre ++ post), length (filter (misses t) pre ++ post))))) /\
    owns h' (i' :: hsb (filter (misses t) pre ++ post) ++ fr).
Proof.
  intros t pre. induction pre as [|e pre IH] using rev_ind; intros post h i fr found O.
  - exists h, i. simpl. rewrite orb_false_r. split; auto.
  - replace (length (pre ++ [e])) with (Datatypes.S (length pre)) by (rewrite app_length; simpl; lia).
    cbn [h_remove_loop]. replace ((pre ++ [e]) ++ post) with (pre ++ e :: post) in * by (now rewrite <- app_assoc).
    assert (G : h_at h i (slots (pre ++ e :: post)) (length pre) = Ret e).
    { unfold h_at. rewrite (use_ok h _ i O) by now left. unfold bind at 1. unfold slots. rewrite map_app. cbn [map]. rewrite <- app_assoc. cbn [app].
      rewrite <- (map_length (@Some hep) pre) at 1. rewrite aget_mid. reflexivity. }
    rewrite G. unfold bind at 1.
    rewrite (e_read_ok h _ e O).
    2:{ intros x X. right. apply in_or_app. left. rewrite hsb_app. apply in_or_app. right. rewrite hsb_cons. apply in_or_app. auto. }
    unfold bind at 1.
    destruct (t_strdup h (url_prefix (erase e))) as [cp h1] eqn:E1. destruct (strdup_ok _ _ _ _ _ O E1) as [O1 _].
    destruct (t_strdup h1 (url_format (erase e))) as [cf h2] eqn:E2. destruct (strdup_ok _ _ _ _ _ O1 E2) as [O2 _].
    fold (hit t (erase e)). rewrite filter_app, map_app, existsb_app. cbn [filter existsb map]. unfold misses at 2 4 6.
    rewrite orb_false_r. destruct (hit t (erase e)) eqn:H; cbn [negb].
    + assert (O2' : owns h2 (ep_blocks e ++ (i :: text_blocks cp ++ text_blocks cf ++ hsb (pre ++ post) ++ fr))).
      { rewrite hsb_app, hsb_cons in O2. rewrite hsb_app. owns_by O2. }
      destruct (e_free_ok _ _ _ O2') as (h3 & h4 & h5 & F3 & F4 & F5 & O5).
      rewrite F3. unfold bind at 1. rewrite F4. unfold bind at 1. rewrite F5. unfold bind at 1.
      unfold slots at 1. rewrite map_app. cbn [map]. rewrite <- app_assoc. cbn [app].
      replace (length (pre ++ e :: post) - length pre)%nat with (length (map (@Some hep) post ++ [Some hzero]))
        by (rewrite !app_length, map_length; simpl; lia).
      pose proof (h_shift_spec (map Some post ++ [Some hzero]) (map Some pre) (Some e)) as SH.
      rewrite (map_length Some pre) in SH. rewrite SH. unfold bind at 1. rewrite rev_app_distr. cbn [rev app].
      destruct (realloc_ok _ _ _ O5) as (j & h6 & R6 & O6). rewrite R6. unfold bind at 1. cbn [fst snd].
      destruct (t_free_ok h6 cp (j :: text_blocks cf ++ hsb (pre ++ post) ++ fr)) as (h7 & R7 & O7); [owns_by O6|].
      rewrite R7. unfold bind at 1.
      destruct (t_free_ok h7 cf (j :: hsb (pre ++ post) ++ fr)) as (h8 & R8 & O8); [owns_by O7|].
      rewrite R8. unfold bind at 1.
      replace (firstn (length (pre ++ e :: post)) (map Some pre ++ (map Some post ++ [Some hzero]) ++ [Some hzero]))
        with (slots (pre ++ post)).
      * replace (length (pre ++ e :: post) - 1)%nat with (length (pre ++ post)) by (rewrite !app_length; simpl; lia).
        rewrite app_nil_r, orb_true_r.
        destruct (IH post h8 j fr true O8) as (h' & i' & R & O').
        exists h', i'. split; [|exact O']. rewrite R. rewrite orb_true_r. reflexivity.
      * unfold slots. rewrite map_app, <- app_assoc.
        replace (map Some pre ++ (map Some post ++ [Some hzero]) ++ [Some hzero])
          with ((map Some pre ++ map Some post ++ [Some hzero]) ++ [Some hzero]) by now rewrite <- !app_assoc.
        rewrite firstn_app.
        replace (length (pre ++ e :: post) - length (map (@Some hep) pre ++ map Some post ++ [Some hzero]))%nat with 0%nat
          by (rewrite !app_length, !map_length; simpl; lia).
        rewrite firstn_O, app_nil_r. symmetry. apply firstn_all2. rewrite !app_length, !map_length. simpl. lia.
    + destruct (t_free_ok h2 cp (text_blocks cf ++ i :: hsb (pre ++ e :: post) ++ fr)) as (h3 & R3 & O3); [owns_by O2|].
      rewrite R3. unfold bind at 1.
      destruct (t_free_ok h3 cf _ O3) as (h4 & R4 & O4). rewrite R4. unfold bind at 1.
      destruct (IH (e :: post) h4 i fr found O4) as (h' & i' & R & O').
      exists h', i'. rewrite <- !app_assoc. cbn [app]. rewrite orb_false_r. split; [exact R|exact O'].
Qed.

Lemma filter_erase : forall t hs, map erase (filter (misses t) hs) = filter (fun e => negb (hit t e)) (map erase hs).
Proof. induction hs as [|x hs IH]; simpl; auto. unfold misses at 1. destruct (hit t (erase x)); simpl; congruence. Qed.

Lemma h_remove_ok : forall h u hs t fr, tinv u hs -> owns h (table_blocks u ++ fr) ->
  ~ (http_method t = None \/ (url_prefix t = None /\ url_format t = None)) ->
  exists r h' u', h_remove h u t = Ret (r, (h', u')) /\ tinv u' (filter (misses t) hs) /\
    h_default u' = h_default u /\ owns h' (table_blocks u' ++ fr).
Proof.
  intros h u hs t fr T O V. unfold h_remove. apply delete_valid in V. rewrite V.
  destruct (t_strdup h (url_prefix t)) as [tp h1] eqn:E1. destruct (strdup_ok _ _ _ _ _ O E1) as [O1 _].
  destruct (t_strdup h1 (url_format t)) as [tf h2] eqn:E2. destruct (strdup_ok _ _ _ _ _ O1 E2) as [O2 _].
  pose proof (tinv_blocks u hs T) as TB. destruct T as (F & N & A).
  destruct (h_list u) as [[i arr]|] eqn:L.
  - subst arr. rewrite TB in O2. rewrite N.
    destruct (h_remove_loop_ok t hs [] h2 i (text_blocks tp ++ text_blocks tf ++ fr) false) as (h3 & i3 & R & O3).
    { rewrite app_nil_r. owns_by O2. }
    rewrite !app_nil_r in R. rewrite app_nil_r in O3. rewrite R. unfold bind at 2. unfold bind at 1. cbn [orb].
    destruct (t_free_ok h3 tp (text_blocks tf ++ i3 :: hsb (filter (misses t) hs) ++ fr)) as (h4 & R4 & O4); [owns_by O3|].
    rewrite R4. unfold bind at 1. destruct (t_free_ok _ _ _ O4) as (h5 & R5 & O5). rewrite R5. unfold bind at 1.
    do 3 eexists. split; [reflexivity|]. split; [|split; [reflexivity|]].
    + split; [|split]; cbn [h_nb h_list]; auto. rewrite filter_erase. apply Forall_forall. intros e I.
      apply filter_In in I. rewrite Forall_forall in F. apply F; tauto.
    + unfold table_blocks. cbn [h_list]. rewrite slots_blocks. exact O5.
  - subst hs. rewrite N. cbn [length Nat.eqb]. unfold bind at 1.
    destruct TB as [TB _]. rewrite TB in *.
    destruct (t_free_ok h2 tp (text_blocks tf ++ [] ++ fr)) as (h4 & R4 & O4); [owns_by O2|].
    rewrite R4. unfold bind at 1. destruct (t_free_ok _ _ _ O4) as (h5 & R5 & O5). rewrite R5. unfold bind at 1.
    do 3 eexists. split; [reflexivity|]. split; [|split; [reflexivity|]].
    + split; [|split]; auto. now rewrite L.
    + rewrite TB. exact O5.
Qed.

Lemma h_remove_bad : forall h u t, http_method t = None \/ (url_prefix t = None /\ url_format t = None) ->
  h_remove h u t = Ret (U_ERROR_PARAMS, (h, u)).
Proof.
  intros h u t H. unfold h_remove. destruct (negb _ && _) eqn:E; auto. apply delete_valid in E. contradiction.
Qed.

(** ** the copies of a request *)
Definition lb (l : list (nat * hep)) : list nat := flat_map (fun x => fst x :: ep_blocks (snd x)) l.
Lemma lb_app : forall a b, lb (a ++ b) = lb a ++ lb b.
Proof. intros. apply flat_map_app. Qed.
Definition lval (l : list (nat * hep)) : list endpoint := map (fun x => erase (snd x)) l.

Lemma h_match_loop_ok : forall hs h m url a l fr, Forall registered (map erase hs) ->
  owns h (hsb hs ++ a :: lb l ++ fr) ->
  exists h' a' l', h_match_loop h (slots hs) m (words url) (a, l) = Ret (h', (a', l ++ l')) /\
    lval l' = filter (sel m url) (map erase hs) /\ owns h' (hsb hs ++ a' :: lb (l ++ l') ++ fr).
Proof.
  induction hs as [|x hs IH]; intros h m url a l fr F O.
  - exists h, a, []. rewrite app_nil_r. repeat split; try reflexivity; apply O.
  - inversion F as [|? ? R F']; subst. cbn [slots map app h_match_loop]. fold (slots hs).
    rewrite (e_read_ok h _ x O) by (intros y Y; rewrite hsb_cons; apply in_or_app; left; apply in_or_app; auto).
    unfold bind at 1. change (map Some hs ++ [Some hzero]) with (slots hs). rewrite registered_not_empty by exact R. unfold method_match.
    cbn [filter]. unfold sel at 1. unfold registered in R. destruct (http_method (erase x)) as [mm|]; [|congruence].
    unfold bind at 1. destruct ((str_caseeqb mm m || starts_with 42 mm) && _) eqn:B.
    + cbn [fst snd]. destruct (realloc_ok h a (hsb (x :: hs) ++ lb l ++ fr)) as (b & h1 & R1 & O1); [owns_by O|].
      rewrite R1. unfold bind at 1. cbn [fst snd]. unfold h_malloc at 1.
      pose proof (malloc_ok _ _ O1) as O2. unfold h_malloc in O2. cbn [snd] in O2.
      destruct (e_copy _ (erase x)) as [c h3] eqn:E. destruct (e_copy_ok _ _ _ _ _ O2 E) as [O3 EC].
      destruct (IH h3 m url b (l ++ [(h_next h1, c)]) (ep_blocks x ++ fr) F') as (h' & a' & l' & R' & V' & O').
      { rewrite lb_app. unfold lb at 2. cbn [flat_map fst snd]. rewrite hsb_cons in O3. owns_by O3. }
      exists h', a', ((h_next h1, c) :: l'). rewrite <- app_assoc in R'. split; [exact R'|].
      split; [unfold lval in *; cbn [map snd]; congruence|].
      replace ((l ++ [(h_next h1, c)]) ++ l') with (l ++ (h_next h1, c) :: l') in O' by (now rewrite <- app_assoc). rewrite hsb_cons. owns_by O'.
    + destruct (IH h m url a l (ep_blocks x ++ fr) F') as (h' & a' & l' & R' & V' & O').
      { rewrite hsb_cons in O. owns_by O. }
      exists h', a', l'. split; [exact R'|]. split; [exact V'|]. rewrite hsb_cons. owns_by O'.
Qed.

Lemma perm_cnt : forall a b, Permutation a b -> forall x, cnt a x = cnt b x.
Proof. intros a b P x. unfold cnt. induction P; simpl; auto; repeat destruct (Nat.eq_dec _ _); lia. Qed.
Lemma lb_perm : forall a b, Permutation a b -> forall x, cnt (lb a) x = cnt (lb b) x.
Proof. intros a b P. apply perm_cnt. unfold lb. now apply Permutation_flat_map. Qed.

Lemma sorted_lval : forall l, StronglySorted (fun a b : nat * hep => h_prio (snd a) <= h_prio (snd b)) l -> StronglySorted prio_le (lval l).
Proof.
  induction 1 as [|x l S IH F]; simpl; constructor; auto. apply Forall_forall. intros e I.
  apply in_map_iff in I. destruct I as (y & <- & I). rewrite Forall_forall in F. exact (F y I).
Qed.

Definition dval (u : hinst) : option endpoint := match h_default u with Some (_, e) => Some e | None => None end.

Lemma h_match_ok : forall order h u hs m url fr, orders order -> tinv u hs ->
  owns h (table_blocks u ++ default_blocks u ++ fr) ->
  exists h' q, h_match order h u m url = Ret (h', q) /\ given (map erase hs) (dval u) m url (lval (snd q)) /\
    owns h' (table_blocks u ++ default_blocks u ++ copies_blocks q ++ fr).
Proof.
  intros order h u hs m url fr OR T O. unfold h_match. unfold h_malloc at 1.
  pose proof (malloc_ok _ _ O) as O1. unfold h_malloc in O1. cbn [snd] in O1.
  set (h1 := mk_heap (Datatypes.S (h_next h)) (h_next h :: h_live h)) in *.
  pose proof (tinv_blocks u hs T) as TB. destruct T as (F & N & A).
  assert (X : exists h2 b l, (match h_list u with
           | None => Ret (h1, (h_next h, []))
           | Some (i, arr) => do _ <- h_use h1 i; h_match_loop h1 arr m (split_url (Some url) None) (h_next h, [])
           end) = Ret (h2, (b, l)) /\ lval l = filter (sel m url) (map erase hs) /\
           owns h2 (table_blocks u ++ default_blocks u ++ (b :: lb l) ++ fr)).
  { destruct (h_list u) as [[i arr]|].
    - subst arr. rewrite TB in *. rewrite (use_ok h1 _ i O1) by (right; left; reflexivity). unfold bind at 1.
      rewrite split_url_url.
      destruct (h_match_loop_ok hs h1 m url (h_next h) [] (i :: default_blocks u ++ fr) F) as (h2 & b & l & R & V & O2).
      { change (lb []) with (@nil nat). owns_by O1. }
      exists h2, b, l. split; [exact R|]. split; [exact V|]. cbn [app] in O2. owns_by O2.
    - destruct TB as [TB ->]. rewrite TB in *. exists h1, (h_next h), []. split; [reflexivity|]. split; [reflexivity|].
      change (lb []) with (@nil nat). owns_by O1. }
  destruct X as (h2 & b & l & -> & V & O2). unfold bind at 1.
  destruct (OR l) as [P S].
  assert (G : exists p, (forall e, p e = true <-> selected m url e) /\ Permutation (filter p (map erase hs)) (lval (order l)) /\ StronglySorted prio_le (lval (order l))).
  { exists (sel m url). split; [apply sel_selected|]. split; [|now apply sorted_lval]. rewrite <- V. unfold lval. now apply Permutation_map. }
  destruct G as (p & G1 & G2 & G3).
  assert (O3 : owns h2 (table_blocks u ++ default_blocks u ++ (b :: lb (order l)) ++ fr)).
  { eapply owns_ext; [exact O2|]. intros x. rewrite !cnt_app, !cnt_cons. rewrite (lb_perm _ _ P x). lia. }
  destruct (order l) as [|y l'] eqn:EL.
  - unfold dval. destruct (h_default u) as [[d e]|] eqn:D.
    + unfold default_blocks in *. rewrite D in *. change (lb []) with (@nil nat) in O3.
      destruct (realloc_ok h2 b (d :: table_blocks u ++ fr)) as (c & h3 & R3 & O4); [owns_by O3|].
      rewrite R3. unfold bind at 1. cbn [snd fst]. rewrite (use_ok h3 _ d O4) by (right; left; reflexivity). unfold bind at 1.
      unfold h_malloc at 1. pose proof (malloc_ok _ _ O4) as O5. unfold h_malloc in O5. cbn [snd] in O5.
      destruct (e_copy _ e) as [x h5] eqn:E. destruct (e_copy_ok _ _ _ _ _ O5 E) as [O6 EC].
      do 2 eexists. split; [reflexivity|]. split.
      * exists p, (lval []). split; [exact G1|]. split; [exact G2|]. split; [exact G3|]. cbn. congruence.
      * unfold copies_blocks. cbn [fst snd flat_map]. owns_by O6.
    + do 2 eexists. split; [reflexivity|]. split.
      * exists p, (lval []). split; [exact G1|]. split; [exact G2|]. split; [exact G3|]. reflexivity.
      * exact O3.
  - do 2 eexists. split; [reflexivity|]. split.
    + exists p, (lval (y :: l')). split; [exact G1|]. split; [exact G2|]. split; [exact G3|]. reflexivity.
    + exact O3.
Qed.

Lemma h_release_list_ok : forall l h fr, owns h (lb l ++ fr) -> exists h', h_release_list h l = Ret h' /\ owns h' fr.
Proof.
  induction l as [|[i c] l IH]; intros h fr O; cbn [h_release_list].
  - eauto.
  - rewrite (use_ok h _ i O) by now left. unfold bind at 1.
    unfold lb in O. cbn [flat_map fst snd] in O. fold (lb l) in O.
    destruct (e_clean_ok h c (i :: lb l ++ fr)) as (h1 & x & R1 & O1); [owns_by O|]. rewrite R1. unfold bind at 1. cbn [fst].
    destruct (free_ok _ _ _ O1) as (h2 & R2 & O2). rewrite R2. unfold bind at 1. auto.
Qed.
Lemma h_release_ok : forall h q fr, owns h (copies_blocks q ++ fr) -> exists h', h_release h q = Ret h' /\ owns h' fr.
Proof.
  intros h [a l] fr O. unfold h_release. unfold copies_blocks in O. cbn [fst snd] in *.
  rewrite (use_ok h _ a O) by now left. unfold bind at 1. fold (lb l) in O.
  destruct (h_release_list_ok l h (a :: fr)) as (h1 & R1 & O1); [owns_by O|]. rewrite R1. unfold bind at 1. now apply free_ok.
Qed.

Lemma h_clean_slots_ok : forall hs h fr, Forall registered (map erase hs) -> owns h (hsb hs ++ fr) ->
  exists h', h_clean_slots h (slots hs) = Ret h' /\ owns h' fr.
Proof.
  induction hs as [|x hs IH]; intros h fr F O.
  - exists h. split; [reflexivity|exact O].
  - inversion F as [|? ? R F']; subst. cbn [slots map app h_clean_slots].
    change (map Some hs ++ [Some hzero]) with (slots hs).
    unfold registered, erase, t_val in R. cbn in R. destruct (h_method x) as [[i s]|] eqn:M; [|congruence].
    rewrite hsb_cons, <- app_assoc in O. destruct (e_clean_ok _ _ _ O) as (h1 & z & R1 & O1). rewrite R1. unfold bind at 1. auto.
Qed.
Lemma h_clean_ok : forall h u hs fr, tinv u hs -> owns h (table_blocks u ++ default_blocks u ++ fr) ->
  exists h' u', h_clean h u = Ret (h', u') /\ owns h' fr.
Proof.
  intros h u hs fr T O. pose proof (tinv_blocks u hs T) as TB. destruct T as (F & N & A). unfold h_clean.
  assert (X : exists h1, (match h_list u with
            | None => Ret h
            | Some (i, arr) => do _ <- h_use h i; do h1 <- h_clean_slots h arr; h_free h1 i
            end) = Ret h1 /\ owns h1 (default_blocks u ++ fr)).
  { destruct (h_list u) as [[i arr]|].
    - subst arr. rewrite TB in O. rewrite (use_ok h _ i O) by now left. unfold bind at 1.
      destruct (h_clean_slots_ok hs h (i :: default_blocks u ++ fr) F) as (h1 & R1 & O1); [owns_by O|]. rewrite R1. unfold bind at 1.
      now apply free_ok.
    - destruct TB as [TB _]. rewrite TB in O. eauto. }
  destruct X as (h1 & -> & O1). unfold bind at 1. unfold default_blocks in O1. destruct (h_default u) as [[d e]|].
  - destruct (free_ok _ _ _ O1) as (h2 & R2 & O2). rewrite R2. unfold bind. eauto.
  - unfold bind. eauto.
Qed.

(** ** the whole server *)
Definition sinv (s : server) (m : meaning) : Prop :=
  exists hs, tinv (s_inst s) hs /\ map erase hs = m_table m /\ dval (s_inst s) = m_default m /\
    map (fun q => lval (snd q)) (s_open s) = m_open m /\ owns (s_heap s) (reachable s).

Lemma tinv_ext : forall u v hs, h_list v = h_list u -> h_nb v = h_nb u -> tinv u hs -> tinv v hs.
Proof. intros u v hs A B (X & Y & Z). unfold tinv. rewrite A, B. auto. Qed.

Lemma map_remove_nth : forall A B (f : A -> B) i l, map f (remove_nth i l) = remove_nth i (map f l).
Proof. intros. unfold remove_nth. now rewrite map_app, firstn_map, skipn_map. Qed.

Lemma remove_nth_none : forall A i (l : list A), nth_error l i = None -> remove_nth i l = l.
Proof. intros A i l E. apply nth_error_None in E. unfold remove_nth. rewrite firstn_all2 by lia. rewrite skipn_all2 by lia. apply app_nil_r. Qed.

Lemma nth_split : forall A i (l : list A) q, nth_error l i = Some q -> l = firstn i l ++ q :: skipn (Datatypes.S i) l.
Proof.
  induction i as [|i IH]; intros [|a l] q E; try discriminate.
  - injection E as ->. reflexivity.
  - cbn [nth_error] in E. cbn [firstn app skipn]. f_equal. now apply IH.
Qed.

Lemma hstep_ok : forall order s m o, orders order -> sinv s m -> hop_ok o ->
  exists s' m', hstep order s o = Ret s' /\ hmeans m o m' /\ sinv s' m'.
Proof.
  intros order [h u q] [es d qs] o OR (hs & T & E1 & E2 & E3 & O) K. cbn [s_inst s_heap s_open m_table m_default m_open] in *.
  unfold reachable in O. cbn [s_inst s_heap s_open] in O.
  set (qb := flat_map copies_blocks q) in *.
  destruct o as [[e|l|t]|cb x|me url|i]; cbn [hop_ok eop_ok hstep s_inst s_heap s_open] in *.
  - destruct (h_add_ok h u hs e _ T O K) as [A1 A2]. destruct (complete_dec e) as [C|C].
    + destruct (A1 C) as (h' & u' & c & R & T' & EC & D & O'). rewrite R. unfold bind at 1. cbn [fst snd].
      do 2 eexists. split; [reflexivity|]. split; [apply hm_table; now apply em_add|].
      exists (hs ++ [c]). cbn [s_inst s_heap s_open m_table m_default m_open]. split; auto.
      split; [rewrite map_app; cbn [map]; congruence|]. split; [unfold dval; rewrite D; exact E2|]. split; auto.
      unfold reachable, default_blocks. cbn [s_inst s_open]. rewrite D. exact O'.
    + rewrite (A2 C). unfold bind at 1. cbn [fst snd].
      do 2 eexists. split; [reflexivity|]. split; [apply hm_table; now apply em_add_bad|]. exists hs. auto.
  - destruct (h_add_list_ok l h u hs _ T O K) as (a & b & c & h' & u' & hs' & -> & FA & B & R & T' & EA & D & O').
    rewrite R. unfold bind at 1. cbn [fst snd].
    do 2 eexists. split; [reflexivity|]. split; [apply hm_table; now apply em_add_list|].
    exists (hs ++ hs'). cbn [s_inst s_heap s_open m_table m_default m_open]. split; auto.
    split; [rewrite map_app; congruence|]. split; [unfold dval; rewrite D; exact E2|]. split; auto.
    unfold reachable, default_blocks. cbn [s_inst s_open]. rewrite D. exact O'.
  - destruct (delete_arg_dec t) as [D|D].
    + rewrite (h_remove_bad h u t D). unfold bind at 1. cbn [fst snd].
      do 2 eexists. split; [reflexivity|]. split; [apply hm_table; now apply em_remove_bad|]. exists hs. auto.
    + destruct (h_remove_ok h u hs t _ T O D) as (r & h' & u' & R & T' & DD & O'). rewrite R. unfold bind at 1. cbn [fst snd].
      do 2 eexists. split; [reflexivity|]. split.
      * apply hm_table. eapply em_remove; [exact D|apply hit_same_route|reflexivity].
      * exists (filter (misses t) hs). cbn [s_inst s_heap s_open m_table m_default m_open]. split; auto.
        split; [rewrite filter_erase; congruence|]. split; [unfold dval; rewrite DD; exact E2|]. split; auto.
        unfold reachable, default_blocks. cbn [s_inst s_open]. rewrite DD. exact O'.
  - unfold h_set_default. destruct (h_default u) as [[i e]|] eqn:D.
    + do 2 eexists. split; [reflexivity|]. split; [apply hm_default|]. exists hs. cbn [s_inst s_heap s_open m_table m_default m_open].
      split; [now apply (tinv_ext u)|]. split; auto. split; [reflexivity|]. split; auto.
      unfold reachable, table_blocks, default_blocks in *. cbn [s_inst s_open h_list h_default]. rewrite D in O. exact O.
    + unfold h_malloc. do 2 eexists. split; [reflexivity|]. split; [apply hm_default|]. exists hs.
      cbn [s_inst s_heap s_open m_table m_default m_open].
      split; [now apply (tinv_ext u)|]. split; auto. split; [reflexivity|]. split; auto.
      unfold reachable, table_blocks, default_blocks in *. cbn [s_inst s_open h_list h_default]. rewrite D in O.
      pose proof (malloc_ok _ _ O) as O'. unfold h_malloc in O'. cbn [snd] in O'. fold qb. owns_by O'.
  - destruct (h_match_ok order h u hs me url qb OR T O) as (h' & c & R & G & O'). rewrite R. unfold bind at 1. cbn [fst snd].
    do 2 eexists. split; [reflexivity|]. split; [apply hm_begin; rewrite <- E1, <- E2; exact G|].
    exists hs. cbn [s_inst s_heap s_open m_table m_default m_open]. split; auto. split; auto. split; auto.
    split; [rewrite map_app; cbn [map]; f_equal; exact E3|].
    unfold reachable. cbn [s_inst s_open]. rewrite flat_map_app. cbn [flat_map]. fold qb. owns_by O'.
  - destruct (nth_error q i) as [c|] eqn:N.
    + pose proof (nth_split _ _ _ _ N) as SP.
      destruct (h_release_ok h c (table_blocks u ++ default_blocks u ++ flat_map copies_blocks (remove_nth i q))) as (h' & R & O').
      { unfold qb in O. rewrite SP in O. unfold remove_nth. rewrite flat_map_app in *. cbn [flat_map] in O. owns_by O. }
      rewrite R. unfold bind at 1. do 2 eexists. split; [reflexivity|]. split; [apply hm_end|].
      exists hs. cbn [s_inst s_heap s_open m_table m_default m_open]. split; auto. split; auto. split; auto.
      split; [rewrite map_remove_nth; f_equal; exact E3|]. exact O'.
    + do 2 eexists. split; [reflexivity|]. split; [apply hm_end|].
      exists hs. cbn [s_inst s_heap s_open m_table m_default m_open]. split; auto. split; auto. split; auto.
      split; [|exact O]. rewrite <- E3. rewrite <- map_remove_nth. now rewrite remove_nth_none.
Qed.

Lemma hrun_ok : forall order l s m, orders order -> sinv s m -> Forall hop_ok l ->
  exists s' m', hrun order s l = Ret s' /\ hmeans_all m l m' /\ sinv s' m'.
Proof.
  intros order. induction l as [|o l IH]; intros s m OR I F.
  - exists s, m. split; [reflexivity|]. split; [constructor|auto].
  - inversion F as [|? ? K F']; subst. destruct (hstep_ok order s m o OR I K) as (s1 & m1 & R1 & M1 & I1).
    destruct (IH s1 m1 OR I1 F') as (s2 & m2 & R2 & M2 & I2).
    exists s2, m2. cbn [hrun]. rewrite R1. unfold bind at 1. split; auto. split; auto. econstructor; eauto.
Qed.

Lemma sinv_start : sinv new_server (mk_meaning [] None []).
Proof.
  exists []. split; [repeat split; constructor|]. split; [reflexivity|]. split; [reflexivity|]. split; [reflexivity|].
  split; [reflexivity|]. split; [|reflexivity]. intros x. change (0 <= 1)%nat. lia.
Qed.

(** ** reading *)
Lemma read_slots_ok : forall hs h ids, Forall registered (map erase hs) -> owns h ids -> incl (hsb hs) ids ->
  read_slots h (slots hs) = Ret (map erase hs).
Proof.
  induction hs as [|x hs IH]; intros h ids F O I.
  - reflexivity.
  - inversion F as [|? ? R F']; subst. cbn [slots map app read_slots]. change (map Some hs ++ [Some hzero]) with (slots hs).
    rewrite hsb_cons in I. rewrite (e_read_ok h ids x O) by (intros y Y; apply I, in_or_app; auto). unfold bind at 1.
    rewrite registered_not_empty by exact R. rewrite (IH h ids) by (auto; intros y Y; apply I, in_or_app; auto). reflexivity.
Qed.
Lemma read_copies_ok : forall l h ids, owns h ids -> incl (lb l) ids -> read_copies h l = Ret (lval l).
Proof.
  induction l as [|[i c] l IH]; intros h ids O I; cbn [read_copies].
  - reflexivity.
  - unfold lb in I. cbn [flat_map fst snd] in I. fold (lb l) in I.
    rewrite (use_ok h ids) by (auto; apply I; now left). unfold bind at 1.
    rewrite (e_read_ok h ids) by (auto; intros y Y; apply I; right; apply in_or_app; auto). unfold bind at 1.
    rewrite (IH h ids) by (auto; intros y Y; apply I; right; apply in_or_app; auto). reflexivity.
Qed.
Lemma read_open_ok : forall q h ids, owns h ids -> incl (flat_map copies_blocks q) ids ->
  read_open h q = Ret (map (fun c => lval (snd c)) q).
Proof.
  induction q as [|[a l] q IH]; intros h ids O I; cbn [read_open].
  - reflexivity.
  - cbn [flat_map] in I. unfold copies_blocks at 1 in I. cbn [fst snd] in I. fold (lb l) in I.
    rewrite (use_ok h ids) by (auto; apply I; now left). unfold bind at 1.
    rewrite (read_copies_ok l h ids) by (auto; intros y Y; apply I; right; apply in_or_app; auto). unfold bind at 1.
    rewrite (IH h ids) by (auto; intros y Y; apply I; right; apply in_or_app; auto). reflexivity.
Qed.
Lemma sinv_read : forall s m, sinv s m -> read_server s = Ret m.
Proof.
  intros [h u q] [es d qs] (hs & T & E1 & E2 & E3 & O). cbn [s_inst s_heap s_open m_table m_default m_open] in *.
  unfold read_server. cbn [s_inst s_heap s_open]. pose proof (tinv_blocks u hs T) as TB. destruct T as (F & N & A).
  unfold reachable in O. cbn [s_inst s_heap s_open] in O.
  assert (R : read_table h u = Ret es).
  { unfold read_table. destruct (h_list u) as [[i arr]|].
    - subst arr. rewrite TB in O. rewrite (use_ok h _ i O) by now left. unfold bind.
      erewrite read_slots_ok; [congruence|exact F|exact O|]. intros y Y. right. apply in_or_app. auto.
    - subst hs. cbn in E1. congruence. }
  rewrite R. unfold bind at 1. unfold read_default, dval in *.
  assert (D : (match h_default u with None => Ret None | Some (i, e) => do _ <- h_use h i; Ret (Some e) end) = Ret d).
  { unfold default_blocks in O. destruct (h_default u) as [[i e]|]; [|congruence].
    rewrite (use_ok h _ i O) by (apply in_or_app; right; left; reflexivity). unfold bind. congruence. }
  rewrite D. unfold bind at 1. erewrite read_open_ok; [|exact O|intros y Y; apply in_or_app; right; apply in_or_app; auto].
  unfold bind. now rewrite E3.
Qed.

Lemma owns_spec : forall h ids, owns h ids -> (forall x, In x (h_live h) <-> In x ids) /\ NoDup ids /\ NoDup (h_live h).
Proof.
  intros h ids (A & B & _). split; [|split].
  - intros x. rewrite !cnt_in. rewrite A. tauto.
  - apply (NoDup_count_occ Nat.eq_dec). intros x. unfold cnt in *. rewrite <- A. apply B.
  - apply (NoDup_count_occ Nat.eq_dec). intros x. apply B.
Qed.
