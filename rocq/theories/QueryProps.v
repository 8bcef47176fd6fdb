(** C88 and C89: the parts of a path, the parameters of a query. *)
From Coq Require Import String ZArith Bool List Lia.
From Verif Require Import Base BaseFacts YuarelModel YuarelSpec YuarelProofs YuarelProps QueryModel QuerySpec QueryProofs.
Import ListNotations.
Open Scope Z_scope.

Lemma holds_block : forall s, cstr s -> holds (cblock s) 0 s.
Proof. intros s C. split; [now apply cstr_no0|]. intros i c E. cbn [Nat.add]. unfold cblock, block_of. rewrite nth_error_map, E. reflexivity. Qed.
Lemma first_char : forall s, cstr s -> s <> [] -> exists c, load (cblock s) 0 = Ret c /\ (c =? 0) = false.
Proof.
  intros s C N. pose proof (load_holds _ _ _ (holds_block s C)) as L. exists (hd 0 s). split; [exact L|]. destruct s as [|c s]; [congruence|]. cbn [hd]. apply Z.eqb_neq. apply cstr_no0 in C. intros ->. apply C. now left.
Qed.
Lemma block_length : forall s, length (cblock s) = S (length s).
Proof. intros s. unfold cblock, block_of. rewrite map_length, app_length. cbn. lia. Qed.

(** C88. The parts of the path, up to max_parts of them, and nothing else is written to the array *)
Theorem C88_parts : forall s l parts max, cstr s -> s <> [] -> pieces_of 47 s l -> (1 <= max <= length parts)%nat ->
  exists b' parts', split_path (cblock s) parts (Z.of_nat max) = Ret (Z.of_nat (Nat.min (length (filter filled l)) max), b', parts') /\
    (forall i x, (i < max)%nat -> nth_error (filter filled l) i = Some x -> exists p, nth_error parts' i = Some (Some p) /\ text_at b' p = Ret x) /\
    (forall i, (Nat.min (length (filter filled l)) max <= i)%nat -> nth_error parts' i = nth_error parts i).
Proof.
  intros s l parts max C N P M. apply pieces_unique in P as ->. destruct (first_char s C N) as (c & LD & NZ). unfold split_path. rewrite LD. cbn [bind]. rewrite NZ, block_length.
  destruct (split_loop_ok (S (S (length s))) (cblock s) 0 s parts 0 max (holds_block s C) ltac:(lia) ltac:(lia) ltac:(lia)) as (b' & parts' & R & (KL & KN) & _ & EN). rewrite Nat.sub_0_r in *. cbn [Nat.add] in *.
  exists b', parts'. split; [exact R|]. split.
  - intros i x I X. assert (i < length (filter filled (pieces 47 s)))%nat by (apply nth_error_Some; congruence). destruct (EN i x ltac:(lia) X) as (p & Q & HP). exists (Z.of_nat p). split; [exact Q|now apply text_holds].
  - intros i I. apply KN. lia.
Qed.
(** an empty text is an error, and nothing is done *)
Theorem C88_empty : forall parts max, split_path (cblock []) parts max = Ret (-1, cblock [], parts).
Proof. reflexivity. Qed.
(** round trip: the parts that were written with slashes before them *)
Definition path_text (l : list str) : str := concat (map (fun x => 47 :: x) l).
Lemma path_pieces : forall l, Forall (fun x => ~ In 47 x) l -> pieces_of 47 (path_text l) ([] :: l).
Proof.
  intros l F. split; [discriminate|]. split; [|constructor; [intros []|exact F]]. unfold path_text. clear F. induction l as [|x l IH]; [reflexivity|]. cbn [map concat]. destruct l as [|y l]; [cbn; now rewrite app_nil_r|].
  cbn [join app] in *. f_equal. now rewrite IH.
Qed.
Theorem C88_round_trip : forall l parts max, l <> [] -> Forall (fun x => cstr x /\ x <> [] /\ ~ In 47 x) l -> (length l <= max <= length parts)%nat ->
  exists b' parts', split_path (cblock (path_text l)) parts (Z.of_nat max) = Ret (Z.of_nat (length l), b', parts') /\
    (forall i x, nth_error l i = Some x -> exists p, nth_error parts' i = Some (Some p) /\ text_at b' p = Ret x).
Proof.
  intros l parts max N F M. assert (FF : filter filled ([] :: l) = l).
  { cbn [filter filled]. clear N M. induction F as [|x l (C & X & S) F IH]; [reflexivity|]. cbn [filter]. destruct x; [congruence|]. cbn [filled]. now rewrite IH. }
  assert (L0 : (1 <= length l)%nat) by (destruct l; [congruence|cbn; lia]).
  destruct (C88_parts (path_text l) ([] :: l) parts max) as (b' & parts' & R & EN & _).
  - unfold path_text, cstr. apply Forall_concat, Forall_map. eapply Forall_impl; [|exact F]. intros x (C & _). constructor; [lia|exact C].
  - destruct l; [congruence|discriminate].
  - apply path_pieces. eapply Forall_impl; [|exact F]. intros x (_ & _ & S). exact S.
  - lia.
  - rewrite FF in *. replace (Nat.min (length l) max) with (length l) in R by lia. exists b', parts'. split; [exact R|]. intros i x X. apply EN; [|exact X].
    assert (i < length l)%nat by (apply nth_error_Some; congruence). lia.
Qed.
Example C88_example : exists b', split_path (cblock (bs "//api//v1/x/")) [None; None; None; None] 4 = Ret (3, b', [Some 2; Some 7; Some 10; None]) /\
  text_at b' 2 = Ret (bs "api") /\ text_at b' 7 = Ret (bs "v1") /\ text_at b' 10 = Ret (bs "x") /\ pieces_of 47 (bs "//api//v1/x/") [[]; []; bs "api"; []; bs "v1"; bs "x"; []].
Proof.
  eexists. split; [vm_compute; reflexivity|]. split; [reflexivity|]. split; [reflexivity|]. split; [reflexivity|]. split; [discriminate|]. split; [reflexivity|].
  repeat (constructor; [intros X; cbn in X; intuition discriminate|]). constructor.
Qed.
(** with max_parts = 0 a part is written all the same, outside an array of that size *)
Theorem C88_no_room_refuted : split_path (cblock (bs "/a")) [] 0 = UB OutOfBounds /\ (exists b', split_path (cblock (bs "/a")) [None] 0 = Ret (1, b', [Some 1])).
Proof. split; [vm_compute; reflexivity|]. eexists. vm_compute. reflexivity. Qed.

(** an empty query is an error, and nothing is done *)
Theorem C89_empty : forall d params max, parse_query (cblock []) d params max = Ret (-1, cblock [], params).
Proof. reflexivity. Qed.
(** ** C89. The parameters: every piece split at its first equals sign; beyond max_params the last piece is the whole rest *)
Definition reads (b : buf) (p : param) (key : str) (val : option str) : Prop :=
  exists o vp, p = (Some o, Some vp) /\ text_at b o = Ret key /\ shows b vp val.
Lemma entry_reads : forall b p x lim, entry b p x lim -> exists key val, binds x key val /\ reads b p key val.
Proof.
  intros b p x lim (o & key & vp & val & -> & B & H & _ & V). exists key, val. split; [exact B|]. exists (Z.of_nat o), vp. split; [reflexivity|]. split; [now apply text_holds|].
  destruct vp as [z|], val as [v|]; cbn in *; auto. destruct V as (q & -> & HV & _). now apply text_holds.
Qed.
Lemma binds_fun : forall x k v k' v', binds x k v -> binds x k' v' -> k = k' /\ v = v'.
Proof.
  intros x k v k' v' [N ->] [N' E]. assert (A : cut 61 (match v with Some v => k ++ 61 :: v | None => k end) = (k, v)) by (destruct v; [now apply cut_intro|now apply cut_intro_none]).
  assert (B : cut 61 (match v' with Some v => k' ++ 61 :: v | None => k' end) = (k', v')) by (destruct v'; [now apply cut_intro|now apply cut_intro_none]). rewrite E, B in A. now injection A as <- <-.
Qed.
Theorem C89_parameters : forall s d l params max, cstr s -> s <> [] -> d <> 0 -> pieces_of d s l -> (1 <= max <= length params)%nat ->
  exists b' params', parse_query (cblock s) d params (Z.of_nat max) = Ret (Z.of_nat (Nat.min (length l) max), b', params') /\
    (forall i x key val, nth_error (at_most d max l) i = Some x -> binds x key val -> exists p, nth_error params' i = Some p /\ reads b' p key val) /\
    (forall i, (Nat.min (length l) max <= i)%nat -> nth_error params' i = nth_error params i).
Proof.
  intros s d l params max C N D P M. apply pieces_unique in P as ->. destruct (first_char s C N) as (c & LD & NZ). unfold parse_query. rewrite LD. cbn [bind]. rewrite NZ, block_length.
  destruct params as [|p0 params]; [cbn in M; lia|]. cbn [aget nth_error bind]. rewrite aset_ok by (cbn; lia). cbn [bind set_nth].
  destruct (query_loop_ok (S (S (length s))) (cblock s) 0 s d ((Some 0, snd p0) :: params) 1 max (snd p0) D (holds_block s C) ltac:(lia) ltac:(lia) ltac:(cbn in *; lia) eq_refl) as (b' & params' & R & (KL & KN) & _ & EN).
  cbn [Nat.sub Nat.add] in *. rewrite Nat.sub_0_r in *. rewrite at_most_length in * by (try lia; apply pieces_nonempty). exists b', params'. split; [exact R|]. split.
  - intros i x key val X B. destruct (EN i x X) as (p & Q & H). exists p. split; [exact Q|]. apply entry_reads in H as (k & v & B' & RD). destruct (binds_fun _ _ _ _ _ B B') as [<- <-]. exact RD.
  - intros i I. rewrite KN by lia. pose proof (pieces_nonempty d s) as PN. destruct (pieces d s); [congruence|]. cbn [length] in I. destruct i; [lia|reflexivity].
Qed.
(** with room for all of them, they are the pieces themselves *)
Lemma at_most_all : forall d max l, (length l <= max)%nat -> at_most d max l = l.
Proof.
  intros d max. induction max as [|max IH]; intros [|x l] L; [reflexivity|cbn in L; lia|unfold at_most; rewrite firstn_nil, skipn_nil; reflexivity|]. destruct max as [|max].
  - destruct l; [reflexivity|cbn in L; lia].
  - rewrite at_most_cons by lia. rewrite IH; [reflexivity|cbn in L; lia].
Qed.
Definition binding (kv : str * option str) : str := match snd kv with None => fst kv | Some v => fst kv ++ 61 :: v end.
Theorem C89_round_trip : forall (l : list (str * option str)) d params max, l <> [] -> d <> 0 -> join d (map binding l) <> [] ->
  Forall (fun kv => cstr (fst kv) /\ ~ In 61 (fst kv) /\ ~ In d (binding kv) /\ match snd kv with Some v => cstr v | None => True end) l -> 0 < d < 256 -> (length l <= max <= length params)%nat ->
  exists b' params', parse_query (cblock (join d (map binding l))) d params (Z.of_nat max) = Ret (Z.of_nat (length l), b', params') /\
    (forall i kv, nth_error l i = Some kv -> exists p, nth_error params' i = Some p /\ reads b' p (fst kv) (snd kv)).
Proof.
  intros l d params max N D NE F DB M. assert (L0 : (1 <= length l)%nat) by (destruct l; [congruence|cbn; lia]).
  destruct (C89_parameters (join d (map binding l)) d (map binding l) params max) as (b' & params' & R & EN & _).
  - clear N NE M L0. induction F as [|kv l (A & B & C & V) F IH]; [constructor|]. assert (CB : cstr (binding kv)).
    { unfold binding. destruct (snd kv); [|exact A]. apply Forall_app. split; [exact A|]. constructor; [lia|exact V]. }
    destruct l as [|y l]; [exact CB|]. cbn [map join] in *. apply Forall_app. split; [exact CB|]. constructor; [lia|exact IH].
  - exact NE.
  - exact D.
  - split; [destruct l; [congruence|discriminate]|]. split; [reflexivity|]. apply Forall_map. eapply Forall_impl; [|exact F]. intros kv (_ & _ & C & _). exact C.
  - lia.
  - rewrite map_length in *. replace (Nat.min (length l) max) with (length l) in R by lia. exists b', params'. split; [exact R|]. intros i kv X. rewrite at_most_all in EN by (rewrite map_length; lia).
    apply (EN i (binding kv)); [now apply map_nth_error|]. split; [|reflexivity]. apply nth_error_In in X. rewrite Forall_forall in F. now apply F.
Qed.
Example C89_example : exists b', parse_query (cblock (bs "a=1&b&c=2=3")) 38 [(None, None); (None, None); (None, None)] 3 = Ret (3, b', [(Some 0, Some (Some 2)); (Some 4, Some None); (Some 6, Some (Some 8))]) /\
  text_at b' 0 = Ret (bs "a") /\ text_at b' 2 = Ret (bs "1") /\ text_at b' 4 = Ret (bs "b") /\ text_at b' 6 = Ret (bs "c") /\ text_at b' 8 = Ret (bs "2=3").
Proof. eexists. split; [vm_compute; reflexivity|]. repeat split; reflexivity. Qed.
(** beyond max_params the last value holds the other parameters, delimiter included *)
Theorem C89_rest_refuted : exists b', parse_query (cblock (bs "a=1&b=2")) 38 [(None, None)] 1 = Ret (1, b', [(Some 0, Some (Some 2))]) /\ text_at b' 2 = Ret (bs "1&b=2").
Proof. eexists. split; [vm_compute; reflexivity|reflexivity]. Qed.
(** no room: the first parameter is written all the same; the delimiter NUL: outside the text *)
Theorem C89_bounds_refuted : parse_query (cblock (bs "a=1")) 38 [] 0 = UB OutOfBounds /\ parse_query (cblock (bs "a=1")) 0 (repeat (None, None) 9) 9 = UB OutOfBounds.
Proof. split; vm_compute; reflexivity. Qed.
Print Assumptions C88_parts.
Print Assumptions C88_empty.
Print Assumptions C88_round_trip.
Print Assumptions C88_no_room_refuted.
Print Assumptions C89_empty.
Print Assumptions C89_parameters.
Print Assumptions C89_round_trip.
Print Assumptions C89_rest_refuted.
Print Assumptions C89_bounds_refuted.
