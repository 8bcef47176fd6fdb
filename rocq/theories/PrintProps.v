(** C123, C124: print_map and the counter of the simple example. *)
From Coq Require Import String ZArith Bool List Lia.
From Verif Require Import Base BaseFacts Dec UMapModel UMapSpec SMap StrModel YuarelModel.
From Verif Require Import PrintModel PrintSpec.
Import ListNotations.
Open Scope Z_scope.

Lemma bs_cstr : forall s, cstrb (bs s) = true -> cstr (bs s).
Proof. intros s H. unfold cstrb in H. rewrite forallb_forall in H. apply Forall_forall. intros b I. specialize (H b I). apply andb_prop in H as [A B]. apply Z.ltb_lt in A, B. lia. Qed.
Lemma cstr_app : forall a b, cstr a -> cstr b -> cstr (a ++ b).
Proof. intros. apply Forall_app. now split. Qed.
Lemma line_cstr : forall k v, cstr k -> cstr v -> cstr (line_of k v).
Proof. intros k v K V. unfold line_of. apply cstr_app; [now apply bs_cstr|]. apply cstr_app; [exact K|]. apply cstr_app; [now apply bs_cstr|exact V]. Qed.
Lemma line_len : forall k v, zlen (line_of k v) = zlen k + zlen v + 18.
Proof. intros. unfold line_of. rewrite !zlen_app. change (zlen (bs "key is ")) with 7. change (zlen (bs ", value is ")) with 11. lia. Qed.
Lemma read_cblock : forall s, cstr s -> read_cstr (cblock s) = Ret s.
Proof. intros s C. rewrite cblock_split. now apply read_cstr_block. Qed.
Lemma zlen_malloc : forall n, 0 <= n -> zlen (malloc n) = n.
Proof. intros n N. unfold malloc, zlen. rewrite repeat_length. lia. Qed.
(** strcat in a block with just enough room after the text *)
Lemma strcat_ok : forall s t rest, cstr s -> zlen t <= zlen rest -> strcat (block_of s ++ Some 0 :: rest) t = Ret (block_of (s ++ t) ++ Some 0 :: zskipn (zlen t) rest).
Proof.
  intros s t rest C R. unfold strcat. rewrite read_cstr_block by exact C. cbn [bind]. pose proof (zlen_nonneg _ s) as NS. pose proof (zlen_nonneg _ t) as NT.
  assert (LB : zlen (block_of s) = zlen s) by (unfold block_of; apply zlen_map).
  rewrite memcpy_ok; [|lia|lia|rewrite zlen_app, LB, zlen_cons; lia|rewrite zlen_cblock; lia].
  rewrite zfirstn_app_exact by now rewrite LB. rewrite <- (zlen_cblock t). unfold zfirstn at 1, zlen at 1. rewrite Nat2Z.id, firstn_all. rewrite zlen_cblock, cblock_split. unfold block_of at 4. rewrite map_app. fold (block_of s) (block_of t).
  rewrite <- !app_assoc. do 2 f_equal. cbn [app]. do 2 f_equal. unfold zskipn. rewrite skipn_app. replace (Z.to_nat (zlen s + (zlen t + 1)) - length (block_of s))%nat with (S (Z.to_nat (zlen t))) by (unfold zlen in LB |- *; lia).
  rewrite skipn_all2 by (unfold zlen in LB |- *; lia). reflexivity.
Qed.
Lemma to_int_small : forall n, 0 <= n <= INT_MAX -> to_int n = n.
Proof. intros n B. unfold to_int, two32, INT_MAX in *. rewrite Z.mod_small by lia. destruct (Z.ltb_spec n 2147483648); lia. Qed.
Lemma incr_small : forall n, n < INT_MAX -> incr_int n = Ret (n + 1).
Proof. intros n B. unfold incr_int. destruct (Z.eqb_spec n INT_MAX); [lia|reflexivity]. Qed.
Lemma snprintf_ok : forall t, zlen t < INT_MAX -> snprintf_into (malloc (zlen t + 1)) (zlen t + 1) t = Ret (cblock t).
Proof.
  intros t B. pose proof (zlen_nonneg _ t) as N. unfold snprintf_into. destruct (Z.leb_spec (zlen t) INT_MAX); [|lia]. destruct (Z.eqb_spec (zlen t + 1) 0); [lia|].
  replace (zlen t + 1 - 1) with (zlen t) by lia. assert (ZT : zfirstn (zlen t) t = t) by (apply firstn_all2; unfold zlen; lia). cbv zeta. rewrite ZT. rewrite memcpy_ok; [|lia|lia|rewrite zlen_malloc; lia|rewrite zlen_cblock; lia].
  change (zfirstn 0 (malloc (zlen t + 1))) with (@nil (option Z)). unfold zfirstn, zskipn, malloc. cbn [app]. rewrite skipn_all2 by (rewrite repeat_length; lia). rewrite app_nil_r. f_equal. apply firstn_all2.
  pose proof (zlen_cblock t) as L. unfold zlen in *. lia.
Qed.

(** ** one pair *)
Section Loop.
Variable mem : nat -> bool.
Hypothesis MEM : forall i, mem i = true.
Variable m : umap.

Lemma first_pair : forall k v r i, get_str m k = Ret (Some v) -> cstr k -> cstr v -> zlen (line_of k v) < INT_MAX ->
  print_go mem m (Some k :: r) i None = print_go mem m r (S i) (Some (cblock (line_of k v))).
Proof.
  intros k v r i G K V B. cbn [print_go]. rewrite G. cbn [bind]. fold (line_of k v). unfold snprintf_len. destruct (Z.leb_spec (zlen (line_of k v)) INT_MAX); [|lia]. rewrite incr_small by exact B. cbn [bind]. rewrite !MEM.
  rewrite snprintf_ok by exact B. cbn [bind]. pose proof (line_cstr k v K V) as LC. rewrite read_cblock by exact LC. cbn [bind]. pose proof (zlen_nonneg _ (line_of k v)) as N.
  unfold store. rewrite memcpy_ok; [|lia|lia|rewrite zlen_malloc; lia|reflexivity]. cbn [bind].
  assert (E : zfirstn 0 (malloc (zlen (line_of k v) + 1)) ++ zfirstn 1 [Some 0] ++ zskipn (0 + 1) (malloc (zlen (line_of k v) + 1)) = block_of [] ++ Some 0 :: malloc (zlen (line_of k v))).
  { unfold malloc. replace (Z.to_nat (zlen (line_of k v) + 1)) with (S (Z.to_nat (zlen (line_of k v)))) by lia. reflexivity. }
  rewrite E. rewrite strcat_ok; [|constructor|rewrite zlen_malloc; lia]. cbn [bind app]. unfold zskipn, malloc. rewrite skipn_all2 by (rewrite repeat_length; lia). now rewrite <- cblock_split.
Qed.
Lemma next_pair : forall s k v r i, get_str m k = Ret (Some v) -> cstr k -> cstr v -> cstr s -> s <> [] -> zlen s + zlen (line_of k v) + 1 < INT_MAX ->
  print_go mem m (Some k :: r) i (Some (cblock s)) = print_go mem m r (S i) (Some (cblock (s ++ [10] ++ line_of k v))).
Proof.
  intros s k v r i G K V C NE B. cbn [print_go]. rewrite G. cbn [bind]. fold (line_of k v). pose proof (zlen_nonneg _ (line_of k v)) as N. pose proof (zlen_nonneg _ s) as NS.
  unfold snprintf_len. destruct (Z.leb_spec (zlen (line_of k v)) INT_MAX); [|lia]. rewrite incr_small by lia. cbn [bind]. rewrite !MEM.
  rewrite snprintf_ok by lia. cbn [bind]. pose proof (line_cstr k v K V) as LC. rewrite read_cblock by exact LC. cbn [bind]. rewrite read_cblock by exact C. cbn [bind].
  rewrite to_int_small by lia. rewrite incr_small by lia. cbn [bind]. destruct (Z.ltb_spec 0 (zlen s + zlen (line_of k v) + 1 + 1)); [|lia]. cbn [andb]. 
  assert (E : realloc (cblock s) (zlen s + zlen (line_of k v) + 1 + 1) = block_of s ++ Some 0 :: malloc (zlen (line_of k v) + 1)).
  { unfold realloc. pose proof (zlen_cblock s) as L. unfold zfirstn. rewrite firstn_all2 by (unfold zlen in *; lia). rewrite cblock_split, <- app_assoc. cbn [app]. do 2 f_equal. unfold malloc. f_equal. rewrite <- cblock_split. unfold zlen in *. lia. }
  rewrite E. rewrite read_cstr_block by exact C. cbn [bind]. destruct (Z.ltb_spec 0 (zlen s)); [|exfalso; destruct s; [congruence|rewrite zlen_cons in *; pose proof (zlen_nonneg _ s); lia]].
  rewrite strcat_ok; [|exact C|rewrite zlen_malloc by lia; change (zlen [10]) with 1; lia]. cbn [bind].
  rewrite strcat_ok; [|apply cstr_app; [exact C|repeat constructor]|change (zlen [10]) with 1; rewrite zlen_zskipn by (rewrite zlen_malloc; lia); rewrite zlen_malloc; lia].
  cbn [bind]. rewrite <- app_assoc. f_equal. f_equal. rewrite cblock_split. f_equal. f_equal. unfold zskipn, malloc. rewrite skipn_all2; [reflexivity|]. rewrite skipn_length, repeat_length. change (zlen [10]) with 1. lia.
Qed.

Definition tail_text (d : smap) : str := concat (map (fun p => [10] ++ line_of (fst p) (match snd p with Some v => v | None => [] end)) d).
Lemma print_size_nonneg : forall d, 0 <= print_size d.
Proof. induction d as [|[k v] d IH]; cbn [print_size fold_right fst snd]; [lia|]. fold (print_size d). pose proof (zlen_nonneg _ k). destruct v as [v|]; [pose proof (zlen_nonneg _ v)|]; lia. Qed.
Lemma print_rest : forall d s i, Forall (fun p => cstr (fst p) /\ exists v, snd p = Some v /\ cstr v /\ get_str m (fst p) = Ret (Some v)) d -> cstr s -> s <> [] -> zlen s + 1 + print_size d <= INT_MAX ->
  print_go mem m (map (fun p => Some (fst p)) d ++ [None]) i (Some (cblock s)) = Ret (Some (cblock (s ++ tail_text d))).
Proof.
  induction d as [|[k ov] d IH]; intros s i F C NE B; [cbn [map app print_go tail_text concat]; now rewrite app_nil_r|].
  inversion F as [|? ? (K & v & E & V & G) F']; subst. cbn [fst snd] in *. subst ov. cbn [map app fst]. cbn [print_size fold_right fst snd] in B. fold (print_size d) in B. pose proof (line_len k v) as L. pose proof (print_size_nonneg d) as PN.
  rewrite (next_pair s k v); auto; [|lia]. rewrite (IH (s ++ [10] ++ line_of k v)); [|exact F'| | |].
  - cbn [tail_text map concat fst snd]. fold (tail_text d). now rewrite <- !app_assoc.
  - apply cstr_app; [exact C|apply cstr_app; [repeat constructor|now apply line_cstr]].
  - destruct s; discriminate.
  - rewrite !zlen_app. change (zlen [10]) with 1. lia.
Qed.
End Loop.

Lemma repr_keys : forall m d, repr m d -> keys m = map (fun p => Some (fst p)) d ++ [None] /\ NoDup (map fst d).
Proof.
  intros m d (es & (K & _) & (_ & ND) & _ & F & _). rewrite K.
  assert (E : map ek es = map fst d) by (clear - F; induction F as [|e p es d (H & _) F IH]; [reflexivity|cbn; now rewrite H, IH]). split; [|now rewrite <- E].
  f_equal. rewrite <- (map_map ek Some), <- (map_map fst Some), E. reflexivity.
Qed.
Lemma sval_in : forall d k v, NoDup (map fst d) -> In (k, v) d -> sval d k = v.
Proof.
  unfold sval, sget, sfind. induction d as [|[k' v'] d IH]; intros k v N I; [destruct I|]. cbn [find fst]. inversion N as [|? ? N1 N2]; subst. destruct (str_eqb k' k) eqn:E.
  - apply str_eqb_eq in E. subst k'. destruct I as [[= <-]|I]; [reflexivity|]. exfalso. apply N1. apply (in_map fst) in I. exact I.
  - destruct I as [[= -> ->]|I]; [rewrite str_eqb_refl in E; discriminate|]. now apply IH.
Qed.
Lemma pairs_readable : forall m d, repr m d -> keys_ok d -> no_null d -> Forall (fun p => cstr (fst p) /\ exists v, snd p = Some v /\ cstr v /\ get_str m (fst p) = Ret (Some v)) d.
Proof.
  intros m d R K N. apply Forall_forall. intros [k ov] I. unfold keys_ok, no_null in *. rewrite Forall_forall in K, N. split; [exact (K _ I)|]. specialize (N _ I). cbn [fst snd] in *. destruct ov as [v|]; [|congruence]. exists v. split; [reflexivity|].
  split. { destruct R as (es & _ & _ & _ & _ & V). rewrite Forall_forall in V. exact (proj1 (V _ I)). }
  rewrite (repr_get m d k R). f_equal. apply sval_in; [apply (repr_keys m d R)|exact I].
Qed.
Lemma prints_tail : forall d k v, Forall (fun p => exists v, snd p = Some v) d -> prints ((k, Some v) :: d) (line_of k v ++ tail_text d).
Proof.
  induction d as [|[k2 ov] d IH]; intros k v F; [cbn [tail_text map concat]; rewrite app_nil_r; constructor|]. inversion F as [|? ? (v2 & E) F']; subst. cbn [snd] in E. subst ov. cbn [tail_text map concat fst snd]. fold (tail_text d).
  rewrite <- app_assoc. apply p_more. now apply IH.
Qed.

(** C123. A map of texts that fits in an int is printed whole, a line for each pair in the order of the map, in a block of exactly that size; an empty map or none gives NULL. *)
Theorem C123_prints_partial : forall mem m d, (forall i, mem i = true) -> repr m d -> keys_ok d -> no_null d -> print_size d <= INT_MAX ->
  match d with
  | [] => print_map mem (Some m) = Ret None
  | _ => exists t, prints d t /\ print_map mem (Some m) = Ret (Some (cblock t)) /\ zlen t + 1 = print_size d
  end.
Proof.
  intros mem m d MEM R K N B. destruct (repr_keys m d R) as [KS ND]. pose proof (pairs_readable m d R K N) as F. unfold print_map. rewrite KS. destruct d as [|[k ov] d]; [reflexivity|].
  inversion F as [|? ? (KC & v & E & V & G) F']; subst. cbn [fst snd] in *. subst ov. exists (line_of k v ++ tail_text d).
  assert (FE : Forall (fun p : str * option str => exists v, snd p = Some v) d) by (eapply Forall_impl; [|exact F']; intros p (_ & v' & E & _); now exists v').
  split; [now apply prints_tail|]. cbn [map app fst]. cbn [print_size fold_right fst snd] in B |- *. fold (print_size d) in B |- *. pose proof (line_len k v) as L. pose proof (print_size_nonneg d) as PN. split.
  - rewrite (first_pair mem MEM m k v); auto; [|lia]. apply print_rest; auto; [now apply line_cstr|discriminate|lia].
  - rewrite zlen_app, L. clear - FE. assert (T : zlen (tail_text d) = print_size d).
    { induction d as [|[k2 o] d IH]; [reflexivity|]. inversion FE as [|? ? (v2 & E) FE']; subst. cbn [snd] in E. subst o. cbn [tail_text map concat print_size fold_right fst snd]. fold (tail_text d) (print_size d). rewrite !zlen_app, line_len, IH by exact FE'. change (zlen [10]) with 1. lia. }
    lia.
Qed.

(** C123, refuted: a map without pairs gives NULL, which callback_post_test and the others print with %s: undefined for every request without a parameter; *)
Theorem C123_empty_refuted : forall mem m, repr m [] -> print_map mem (Some m) = Ret None /\ post_test mem m = UB NullDeref.
Proof. intros mem m R. destruct (repr_keys m [] R) as [KS _]. unfold post_test, print_map. rewrite KS. split; reflexivity. Qed.
(** C123, refuted: a value that is NULL is printed with %s too. (No request makes one, see C18: a parameter without a value is stored as the empty text; a program can, with u_map_put.) *)
Theorem C123_null_refuted : forall mem m d k, (forall i, mem i = true) -> repr m (d ++ [(k, None)]) -> keys_ok d -> no_null d -> print_size d <= INT_MAX -> print_map mem (Some m) = UB NullDeref.
Proof.
  intros mem m d k MEM R K N B. destruct (repr_keys _ _ R) as [KS ND]. unfold print_map. rewrite KS. rewrite map_app, <- app_assoc. cbn [map app fst].
  assert (GK : get_str m k = Ret None) by (rewrite (repr_get _ _ k R); f_equal; apply sval_in; [exact ND|apply in_or_app; right; now left]).
  assert (F : Forall (fun p => cstr (fst p) /\ exists v, snd p = Some v /\ cstr v /\ get_str m (fst p) = Ret (Some v)) d).
  { apply Forall_forall. intros [k' ov] I. unfold keys_ok, no_null in *. rewrite Forall_forall in K, N. split; [exact (K _ I)|]. specialize (N _ I). cbn [fst snd] in *. destruct ov as [v|]; [|congruence]. exists v. split; [reflexivity|].
    split. { destruct R as (es & _ & _ & _ & _ & V). apply Forall_app in V as [V _]. rewrite Forall_forall in V. exact (proj1 (V _ I)). }
    rewrite (repr_get _ _ k' R). f_equal. apply sval_in; [exact ND|apply in_or_app; now left]. }
  assert (G : forall d s i, Forall (fun p => cstr (fst p) /\ exists v, snd p = Some v /\ cstr v /\ get_str m (fst p) = Ret (Some v)) d -> cstr s -> s <> [] -> zlen s + 1 + print_size d <= INT_MAX ->
    print_go mem m (map (fun p => Some (fst p)) d ++ [Some k; None]) i (Some (cblock s)) = UB NullDeref).
  { clear - MEM GK. induction d as [|[k' ov] d IH]; intros s i F C NE B; [cbn [map app print_go]; rewrite GK; reflexivity|].
    inversion F as [|? ? (K & v & E & V & G) F']; subst. cbn [fst snd] in *. subst ov. cbn [map app fst]. cbn [print_size fold_right fst snd] in B. fold (print_size d) in B. pose proof (line_len k' v) as L. pose proof (print_size_nonneg d) as PN.
    rewrite (next_pair mem MEM m s k' v); auto; [|lia]. apply IH; auto; [apply cstr_app; [exact C|apply cstr_app; [repeat constructor|now apply line_cstr]]|destruct s; discriminate|]. rewrite !zlen_app. change (zlen [10]) with 1. lia. }
  destruct d as [|[k' ov] d]; [cbn [map app print_go]; rewrite GK; reflexivity|]. inversion F as [|? ? (KC & v & E & V & GG) F']; subst. cbn [fst snd] in *. subst ov. cbn [map app fst].
  cbn [print_size fold_right fst snd] in B. fold (print_size d) in B. pose proof (line_len k' v) as L. pose proof (print_size_nonneg d) as PN. rewrite (first_pair mem MEM m k' v); auto; [|lia].
  apply G; auto; [now apply line_cstr|discriminate|lia].
Qed.
(** C123, refuted: without memory, for the line or for the text, NULL is written to. *)
Theorem C123_memory_refuted : forall mem m k v d, repr m ((k, Some v) :: d) -> cstr k -> zlen (line_of k v) < INT_MAX -> mem 0%nat = false \/ mem 1%nat = false -> print_map mem (Some m) = UB NullDeref.
Proof.
  intros mem m k v d R K B M. destruct (repr_keys _ _ R) as [KS ND]. unfold print_map. rewrite KS. cbn [map app fst print_go]. rewrite (repr_get _ _ k R), (sval_in _ k (Some v) ND (or_introl eq_refl)). cbn [bind]. fold (line_of k v).
  assert (V : cstr v). { destruct R as (es & _ & _ & _ & _ & V). inversion V as [|? ? V1 _]; subst. exact (proj1 V1). }
  unfold snprintf_len. destruct (Z.leb_spec (zlen (line_of k v)) INT_MAX); [|lia]. rewrite incr_small by exact B. cbn [bind]. change (2 * 0)%nat with 0%nat. change (0 + 1)%nat with 1%nat. destruct (mem 0%nat); [|reflexivity].
  rewrite snprintf_ok by exact B. cbn [bind]. rewrite read_cblock by now apply line_cstr. cbn [bind]. destruct M as [M|M]; [discriminate|]. rewrite M. reflexivity.
Qed.
(** C123, refuted: a line of INT_MAX bytes makes the int overflow, and a longer one is read from a block of no bytes *)
Theorem C123_long_refuted : forall mem m k v d, (forall i, mem i = true) -> repr m ((k, Some v) :: d) ->
  (zlen (line_of k v) = INT_MAX -> print_map mem (Some m) = UB Overflow) /\ (INT_MAX < zlen (line_of k v) -> print_map mem (Some m) = UB OutOfBounds).
Proof.
  intros mem m k v d MEM R. destruct (repr_keys _ _ R) as [KS ND]. unfold print_map. rewrite KS. cbn [map app fst print_go]. rewrite (repr_get _ _ k R), (sval_in _ k (Some v) ND (or_introl eq_refl)). cbn [bind]. fold (line_of k v).
  unfold snprintf_len. split; intros B.
  - rewrite B. destruct (Z.leb_spec INT_MAX INT_MAX); [|lia]. reflexivity.
  - destruct (Z.leb_spec (zlen (line_of k v)) INT_MAX); [lia|]. change (incr_int (-1)) with (Ret 0). cbn [bind]. rewrite MEM. unfold snprintf_into. destruct (Z.leb_spec (zlen (line_of k v)) INT_MAX); [lia|]. reflexivity.
Qed.

(** ** C124 *)
Lemma digits_fold : forall s r, Forall digit s -> digits_value s r = fold_left (fun a c => 10 * a + (c - 48)) s r.
Proof.
  induction s as [|c s IH]; intros r F; [reflexivity|]. cbn [digits_value fold_left]. inversion F as [|? ? D F']; subst. unfold digit in D. unfold isdigit.
  destruct (Z.leb_spec 48 c); [|lia]. destruct (Z.leb_spec c 57); [|lia]. cbn [andb]. now apply IH.
Qed.
Lemma strtol_digits : forall s, Forall digit s -> s <> [] -> dec_value s <= INT_MAX -> strtol s = dec_value s.
Proof.
  intros s F NE B. unfold strtol. destruct s as [|c s]; [congruence|]. pose proof (Forall_inv F) as D. unfold digit in D.
  assert (L : lstrip (c :: s) = c :: s). { cbn [lstrip]. replace (isspace c) with false; [reflexivity|]. symmetry. unfold isspace. rewrite !orb_false_iff, ?andb_false_iff, ?Z.eqb_neq, ?Z.leb_gt. lia. }
  rewrite L. destruct (Z.eqb_spec c 45); [lia|]. destruct (Z.eqb_spec c 43); [lia|]. rewrite digits_fold by exact F. fold (dec_value (c :: s)). unfold INT_MAX in B. lia.
Qed.
Lemma dec_go_short : forall fuel n acc k, 0 <= n < 10 ^ Z.of_nat (S k) -> zlen (dec_go fuel n acc) <= zlen acc + Z.of_nat (S k).
Proof.
  induction fuel as [|f IH]; intros n acc k B; cbn [dec_go]; [lia|]. destruct (Z.ltb_spec n 10) as [L|L]; [rewrite zlen_cons; lia|].
  destruct k as [|k]; [cbn in B; lia|]. specialize (IH (n / 10) ((48 + n mod 10) :: acc) k). rewrite zlen_cons in IH. rewrite Nat2Z.inj_succ, Z.pow_succ_r in B by lia.
  assert (0 <= n / 10 < 10 ^ Z.of_nat (S k)) by (split; [apply Z.div_pos; lia|apply Z.div_lt_upper_bound; lia]). specialize (IH H). lia.
Qed.
Lemma sdec_room : forall n, 0 <= n <= INT_MAX -> zfirstn 31 (sdec n) = udec n.
Proof.
  intros n B. unfold sdec. destruct (Z.ltb_spec n 0); [lia|]. unfold zfirstn. apply firstn_all2. pose proof (dec_go_short (S (Z.to_nat (Z.log2 n))) n [] 9) as L. unfold udec, INT_MAX in *.
  change (10 ^ Z.of_nat 10) with 10000000000 in L. specialize (L ltac:(lia)). unfold zlen in L. cbn [length] in L. change (Z.to_nat 31) with 31%nat. lia.
Qed.
(** the cookie after n more visits of a client that sends back what it was given *)
Fixpoint visits (n : nat) (c : option str) : outcome (option str) :=
  match n with O => Ret c | S n => do c' <- cookietest c; visits n (Some c') end.

(** C124. A counter written in decimal goes up by one, in the room there is; it begins with 0. *)
Theorem C124_counts_partial : cookietest None = Ret (bs "0") /\
  forall s, Forall digit s -> s <> [] -> dec_value s < INT_MAX -> exists t, cookietest (Some s) = Ret t /\ Forall digit t /\ t <> [] /\ dec_value t = dec_value s + 1 /\ zlen t < 33.
Proof.
  split; [reflexivity|]. intros s F NE B. assert (N : 0 <= dec_value s).
  { clear - F. unfold dec_value. assert (G : forall a, 0 <= a -> 0 <= fold_left (fun a c => 10 * a + (c - 48)) s a); [|apply G; lia]. induction F as [|c s D F IH]; intros a A; [exact A|]. cbn [fold_left]. apply IH. unfold digit in D. lia. }
  unfold cookietest. rewrite strtol_digits by (auto; lia). rewrite to_int_small by lia. rewrite incr_small by exact B. cbn [bind]. exists (udec (dec_value s + 1)).
  rewrite sdec_room by lia. destruct (udec_ok (dec_value s + 1) ltac:(lia)) as (D & V & U). split; [reflexivity|]. split; [exact D|]. split; [exact U|]. split; [exact V|].
  rewrite <- (sdec_room (dec_value s + 1)) by lia. unfold zfirstn, zlen. rewrite firstn_length. lia.
Qed.
(** C124. The client that sends the cookie back is at n after n + 1 visits, *)
Theorem C124_visits : forall n, Z.of_nat n <= INT_MAX -> visits (S n) None = Ret (Some (udec (Z.of_nat n))).
Proof.
  intros n B. cbn [visits]. change (cookietest None) with (Ret (udec 0)). cbn [bind].
  assert (G : forall n k, 0 <= k -> k + Z.of_nat n <= INT_MAX -> visits n (Some (udec k)) = Ret (Some (udec (k + Z.of_nat n)))).
  { clear. induction n as [|n IH]; intros k K B; [cbn [visits]; now rewrite Z.add_0_r|]. cbn [visits]. destruct (udec_ok k K) as (D & V & U). unfold cookietest. rewrite strtol_digits by (auto; lia). rewrite V, to_int_small, incr_small by lia. cbn [bind].
    rewrite sdec_room by lia. rewrite IH by lia. do 3 f_equal. lia. }
  rewrite G by lia. reflexivity.
Qed.
(** C124, refuted: the client writes the cookie. "2147483647" makes the int overflow, which is undefined; a longer number loses its upper bits, and what is no number counts as 0; *)
Theorem C124_overflow_refuted : cookietest (Some (bs "2147483647")) = UB Overflow /\ (forall s, to_int (strtol s) = INT_MAX -> cookietest (Some s) = UB Overflow) /\
  cookietest (Some (bs "4294967300")) = Ret (bs "5") /\ cookietest (Some (bs "abc")) = Ret (bs "1") /\ cookietest (Some (bs "9223372036854775807")) = Ret (bs "0").
Proof. split; [vm_compute; reflexivity|]. split; [intros s E; unfold cookietest; rewrite E; reflexivity|]. repeat split; vm_compute; reflexivity. Qed.

(** ** cases *)
Definition two_pairs : umap := match (do a <- u_map_put u_map_init (Some (bs "a")) (Some (bs "1")); do b <- u_map_put (snd a) (Some (bs "key")) (Some (bs "value")); Ret (snd b)) with Ret m => m | UB _ => u_map_init end.
Example C123_ex : exists b, print_map (fun _ => true) (Some two_pairs) = Ret (Some b) /\ read_cstr b = Ret (bs "key is a, value is 1" ++ [10] ++ bs "key is key, value is value").
Proof. eexists. split; vm_compute; reflexivity. Qed.
Example C123_hyps : repr two_pairs [(bs "a", Some (bs "1")); (bs "key", Some (bs "value"))] /\ keys_ok [(bs "a", Some (bs "1")); (bs "key", Some (bs "value"))] /\
  no_null [(bs "a", Some (bs "1")); (bs "key", Some (bs "value"))] /\ print_size [(bs "a", Some (bs "1")); (bs "key", Some (bs "value"))] <= INT_MAX.
Proof.
  split; [|split; [repeat constructor; lia|split; [repeat constructor; discriminate|vm_compute; discriminate]]].
  destruct (repr_put u_map_init [] (bs "a") (Some (bs "1")) repr_init ltac:(discriminate) ltac:(split; [repeat constructor; lia|reflexivity])) as (m1 & E1 & R1).
  destruct (repr_put m1 _ (bs "key") (Some (bs "value")) R1 ltac:(discriminate) ltac:(split; [repeat constructor; lia|reflexivity])) as (m2 & E2 & R2).
  unfold two_pairs. rewrite E1. cbn [bind snd]. rewrite E2. cbn [bind snd]. exact R2.
Qed.
Example C124_ex : visits 12 None = Ret (Some (bs "11")).
Proof. vm_compute. reflexivity. Qed.

Print Assumptions C123_prints_partial.
Print Assumptions C123_empty_refuted.
Print Assumptions C123_null_refuted.
Print Assumptions C123_memory_refuted.
Print Assumptions C123_long_refuted.
Print Assumptions C124_counts_partial.
Print Assumptions C124_visits.
Print Assumptions C124_overflow_refuted.
