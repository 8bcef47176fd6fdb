(** C18, C26, C27: pairs, body and form parameters of a request. *)
From Coq Require Import String ZArith Bool List Lia.
From Verif Require Import Base BaseFacts UMapModel UMapSpec UMapProofs UMapReach Utf8Model Utf8Spec Utf8Proofs SMap
  RouterSpec InputModel InputSpec InputProofs.
Import ListNotations.
Open Scope Z_scope.

(** ** C18 *)

(** C18. For every list of pairs with non-empty names: the map built from it has exactly the
    names with a kept pair, each with its kept values joined in order. *)
Theorem C18_values_joined_in_order_partial : forall check pairs, Forall pair_ok pairs -> pairs_weight pairs + 3 < two64 ->
  exists m', fill_all check u_map_init pairs = Ret m' /\
    forall k l, vals check pairs k l ->
      u_map_has_key m' (Some k) = Ret (match l with [] => false | _ => true end) /\
      get_str m' k = Ret (match l with [] => None | _ => Some (join l) end).
Proof.
  intros check pairs F S. destruct (C18_lemma check pairs u_map_init [] repr_init ltac:(constructor) F S) as (m' & d' & E & R & N & G).
  exists m'. split; auto. intros k l V. specialize (G k l V). simpl in G. rewrite (repr_has m' d' k R), (repr_get m' d' k R).
  rewrite shas_sget. unfold sval. rewrite G. destruct l; auto.
Qed.
Print Assumptions C18_values_joined_in_order_partial.

(** each name has one list of kept values, so the statement above covers every name *)
Theorem C18_values_exist : forall check pairs k, Forall pair_ok pairs -> exists l, vals check pairs k l.
Proof. exact vals_total. Qed.
Print Assumptions C18_values_exist.

Definition ex_pairs : list (option str * option str) :=
  [(Some (bs "a"), Some (bs "1")); (Some (bs "b"), None); (Some (bs "a"), Some (bs "2")); (Some (bs "b"), Some (bs "x"));
   (Some (bs "c"), Some [255])].
Example ex18_hyp : Forall pair_ok ex_pairs /\ pairs_weight ex_pairs + 3 < two64.
Proof.
  split; [|vm_compute; reflexivity].
  repeat constructor; simpl; try (eexists; split; [reflexivity|split; [repeat constructor; lia|discriminate]]); repeat constructor; lia.
Qed.
Example ex18_vals : vals true ex_pairs (bs "a") [bs "1"; bs "2"].
Proof.
  unfold ex_pairs.
  assert (U : forall v, cstr v -> keptb true (bs "a") (Some v) = true -> pair_kept true (bs "a") (Some v)).
  { intros v C B. apply keptb_spec; auto. repeat constructor; lia. }
  apply (v_take true (bs "a") (Some (bs "1"))); [apply U; [repeat constructor; lia|vm_compute; reflexivity]|].
  apply v_other; [discriminate|].
  apply (v_take true (bs "a") (Some (bs "2"))); [apply U; [repeat constructor; lia|vm_compute; reflexivity]|].
  apply v_other; [discriminate|]. apply v_other; [discriminate|]. constructor.
Qed.
Example ex18_run :
  (do m <- fill_all true u_map_init ex_pairs;
   do a <- get_str m (bs "a"); do b <- get_str m (bs "b"); do c <- u_map_has_key m (Some (bs "c")); Ret (a, b, c))
  = Ret (Some (bs "1,2"), Some (bs ",x"), false).
Proof. vm_compute. reflexivity. Qed.

(** C18 does not hold with an empty name: u_map_put refuses it, the callback answers MHD_NO and
    libmicrohttpd stops, so the pairs after it are lost. *)
Theorem C18_empty_name_refuted : exists pairs m,
  Forall (fun p => match fst p, snd p with Some k, Some v => cstr k /\ cstr v | _, _ => False end) pairs /\
  In (Some (bs "a"), Some (bs "b")) pairs /\
  fill_all false u_map_init pairs = Ret m /\ u_map_has_key m (Some (bs "a")) = Ret false.
Proof.
  exists [(Some [], Some (bs "v")); (Some (bs "a"), Some (bs "b"))], u_map_init. split.
  - repeat constructor; simpl; lia.
  - split; [right; left; reflexivity|]. split; vm_compute; reflexivity.
Qed.
Print Assumptions C18_empty_name_refuted.

(** ** C26 *)

(** C26. The body seen by the callbacks does not depend on the chunks. *)
Theorem C26_body_intact_up_to_limit : forall max chunks, 0 <= max < two64 -> Forall (fun c => c <> []) chunks ->
  zlen (concat chunks) < two64 ->
  let seen := if max =? 0 then concat chunks else zfirstn max (concat chunks) in
  body_calls max (mk_body [] 0) chunks = Ret (mk_body (block_of seen) (zlen seen)).
Proof.
  intros max chunks M F S. apply (body_calls_ok chunks max [] M F); [intros; change (zlen (@nil Z)) with 0; lia|exact S].
Qed.
Print Assumptions C26_body_intact_up_to_limit.

(** ... and each call tells libmicrohttpd that the whole chunk was taken, limit or not. *)
Theorem C26_every_chunk_consumed : forall max chunks c b, 0 <= max < two64 ->
  Forall (fun c => c <> []) chunks -> c <> [] -> zlen (concat chunks) + zlen c < two64 ->
  body_calls max (mk_body [] 0) chunks = Ret b -> exists b', body_call max b c = Ret (0, b').
Proof.
  intros max chunks c b M F NE S E. pose proof (zlen_nonneg _ c).
  assert (X := body_calls_ok chunks max [] M F ltac:(intros; change (zlen (@nil Z)) with 0; lia) ltac:(change (zlen (@nil Z)) with 0; lia)).
  change (mk_body (block_of []) (zlen [])) with (mk_body [] 0) in X. rewrite X in E. injection E as <-. simpl app.
  pose proof (limited_len max (concat chunks) ltac:(lia)) as [L1 L2].
  eexists. apply body_call_ok; auto. lia.
Qed.
Print Assumptions C26_every_chunk_consumed.

Example ex26 : body_calls 5 (mk_body [] 0) [bs "abc"; bs "de"; bs "fgh"] = Ret (mk_body (block_of (bs "abcde")) 5) /\
  body_calls 0 (mk_body [] 0) [bs "abc"; bs "de"; bs "fgh"] = Ret (mk_body (block_of (bs "abcdefgh")) 8).
Proof. split; vm_compute; reflexivity. Qed.

(** ** C27 *)

Lemma holds_has : forall m es k v, layout m es -> holds m k v -> has_bytes es k v.
Proof. intros m es k v L (es' & L' & H). rewrite (layout_unique m es es' L L') in H. exact H. Qed.

(** what [holds] means for the reader of the map *)
Theorem C27_holds_observable : forall m k v, holds m k v -> v <> [] ->
  u_map_get m (Some k) = Ret (Some (block_of (v ++ [0]))) /\ u_map_get_length m (Some k) = Ret (zlen v).
Proof.
  intros m k v (es & L & H) N. rewrite (get_layout m es k L), (get_length_layout m es k L).
  change (fun e => str_eqb (ek e) k) with (key_is k) in H.
  destruct (find (key_is k) es) as [e|]; [|congruence]. destruct H as [B E]. rewrite B, E. split; auto.
  replace (0 <? zlen v) with true.
  - unfold block_of. now rewrite map_app.
  - symmetry. apply Z.ltb_lt. destruct v; [congruence|]. rewrite zlen_cons. pose proof (zlen_nonneg _ v). lia.
Qed.
Print Assumptions C27_holds_observable.

(** C27, one parameter on any reachable map. Partial: with check_utf8 every piece has to be valid
    UTF-8 on its own (always so for ASCII values), see C27_split_character_refuted. *)
Theorem C27_value_independent_of_split_partial : forall g check max m key filename v pieces old,
  reachable g m -> key <> [] -> 0 <= max < two64 ->
  (check = true -> utf8_text key /\ bytes key /\ Forall utf8_text pieces /\ Forall bytes pieces /\
     match filename with Some f => utf8_text f | None => True end) ->
  match filename with Some f => cstr f /\ zlen f + 2 < two64 | None => True end ->
  split_of v pieces -> holds m key old -> zlen old + zlen v + 3 < two64 ->
  exists m', post_pieces check max m key filename 0 pieces = Ret (true, m') /\
    holds m' key (appended old (limited max v)) /\
    (forall x, x <> key -> (filename <> None -> x <> key ++ bs "_filename") ->
       u_map_get m' (Some x) = u_map_get m (Some x) /\ u_map_get_length m' (Some x) = u_map_get_length m (Some x)).
Proof.
  intros g check max m key filename v pieces old R K M CH FN SP H S.
  destruct (reachable_good g m R) as (es & L & OK & _).
  assert (PK : Forall (piece_ok check key filename) pieces).
  { apply Forall_forall. intros p I C. destruct (CH C) as (A & B & D & E & G). rewrite Forall_forall in D, E.
    split; [now apply utf8_valid_spec|]. split; [apply utf8_valid_spec; auto|].
    destruct filename; auto. apply utf8_valid_spec; auto. apply cstr_bytes. tauto. }
  destruct (C27_entries check max m es key filename v pieces old L OK K PK M FN SP (holds_has _ _ _ _ L H) S)
    as (m' & es' & E & L' & OK' & HB & F).
  exists m'. split; auto. split.
  - exists es'. split; auto.
  - intros x D1 D2. pose proof (get_layout m' es' x L') as G1. pose proof (get_layout m es x L) as G2.
    pose proof (get_length_layout m' es' x L') as G3. pose proof (get_length_layout m es x L) as G4.
    rewrite (F x D1 D2) in G1, G3. split; [exact (eq_trans G1 (eq_sym G2))|exact (eq_trans G3 (eq_sym G4))].
Qed.
Print Assumptions C27_value_independent_of_split_partial.

(** a whole form without files: under each name, its values up to the limit, in order *)
Theorem C27_form_independent_of_splits_partial : forall check max form params,
  0 <= max < two64 -> form_split form params ->
  (check = true -> Forall (fun q => utf8_text (fst (fst q)) /\ bytes (fst (fst q)) /\ Forall utf8_text (snd q) /\ Forall bytes (snd q)) params) ->
  form_weight form + 3 < two64 ->
  exists m', post_form check max u_map_init params = Ret (true, m') /\
    forall k, holds m' k (form_value max [] form k).
Proof.
  intros check max form params M FS CH S.
  destruct (post_form_ok check max form params u_map_init [] (fun _ => []) M FS) as (m' & es' & E & L & OK & HB).
  - apply Forall_forall. intros q I C. specialize (CH C). rewrite Forall_forall in CH. apply CH; auto.
  - repeat split; constructor.
  - split; constructor.
  - intros k. reflexivity.
  - intros k. change (zlen (@nil Z)) with 0. lia.
  - exists m'. split; auto. intros k. exists es'. split; auto. apply HB.
Qed.
Print Assumptions C27_form_independent_of_splits_partial.

Example ex27_split : split_of (bs "hello") [bs "he"; bs "l"; bs "lo"].
Proof. repeat split; [discriminate|]. left. repeat constructor; discriminate. Qed.
Example ex27_form : form_split [(bs "a", bs "hello"); (bs "b", []); (bs "a", bs "you")]
  [(bs "a", None, [bs "he"; bs "l"; bs "lo"]); (bs "b", None, [[]]); (bs "a", None, [bs "you"])].
Proof.
  repeat constructor; (eexists; split; [reflexivity|split; [discriminate|]]).
  - exact ex27_split.
  - repeat split; [discriminate|]. now right.
  - repeat split; [discriminate|]. left. repeat constructor; discriminate.
Qed.
Example ex27_run :
  (do r <- post_form false 4 u_map_init [(bs "a", None, [bs "he"; bs "l"; bs "lo"]); (bs "b", None, [[]]); (bs "a", None, [bs "you"])];
   get_str (snd r) (bs "a")) = Ret (Some (bs "hell,you"))
  /\ form_value 4 [] [(bs "a", bs "hello"); (bs "b", []); (bs "a", bs "you")] (bs "a") = bs "hell,you".
Proof. split; vm_compute; reflexivity. Qed.

(** C27 does not hold with check_utf8 (the default): a character cut by a piece boundary is
    lost, while the same value in one piece is kept. *)
Theorem C27_split_character_refuted : exists v p1 p2 m1 m2,
  utf8_text v /\ split_of v p1 /\ split_of v p2 /\
  post_pieces true 0 u_map_init (bs "k") None 0 p1 = Ret (true, m1) /\
  post_pieces true 0 u_map_init (bs "k") None 0 p2 = Ret (true, m2) /\
  get_str m1 (bs "k") = Ret (Some v) /\ get_str m2 (bs "k") = Ret None.
Proof.
  exists [195; 169], [[195; 169]], [[195]; [169]]. do 2 eexists. split; [|split; [|split; [|split; [|split]]]].
  - exists [233]. split; [repeat constructor; unfold scalar; lia|reflexivity].
  - repeat split; [discriminate|]. left. repeat constructor; discriminate.
  - repeat split; [discriminate|]. left. repeat constructor; discriminate.
  - vm_compute. reflexivity.
  - vm_compute. reflexivity.
  - split; vm_compute; reflexivity.
Qed.
Print Assumptions C27_split_character_refuted.

(** and on a byte boundary inside a longer value, the value is silently shortened *)
Theorem C27_value_shortened_refuted : exists v p m w,
  utf8_text v /\ split_of v p /\ post_pieces true 0 u_map_init (bs "k") None 0 p = Ret (true, m) /\
  get_str m (bs "k") = Ret (Some w) /\ w <> v.
Proof.
  exists (bs "a" ++ [195; 169] ++ bs "b"), [bs "a"; [195]; [169]; bs "b"]. do 2 eexists.
  split; [|split; [|split; [vm_compute; reflexivity|split; [vm_compute; reflexivity|discriminate]]]].
  - exists [97; 233; 98]. split; [repeat constructor; unfold scalar; lia|reflexivity].
  - repeat split; [discriminate|]. left. repeat constructor; discriminate.
Qed.
Print Assumptions C27_value_shortened_refuted.
