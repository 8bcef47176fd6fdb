(** The case-insensitive functions of u_map on the dictionary view of SMap. *)
From Coq Require Import ZArith Bool List Lia.
From Verif Require Import Base BaseFacts UMapModel UMapSpec UMapProofs UMapReach SMap ClientModel.
Import ListNotations.
Open Scope Z_scope.

Definition is_case (k : str) (p : str * option str) : bool := str_caseeqb (fst p) k.
Definition shas_case (d : smap) (k : str) : bool := existsb (is_case k) d.
(** a NULL value is read as an empty text by u_map_get_case *)
Definition otext (v : option str) : str := match v with Some s => s | None => [] end.
Definition sval_case (d : smap) (k : str) : option str := match find (is_case k) d with Some p => Some (otext (snd p)) | None => None end.
Definition sremove_case (k : str) (d : smap) : smap := filter (fun p => negb (is_case k p)) d.

Lemma repr_find_case : forall es d k, Forall2 entry_view es d ->
  match find (key_is_case k) es, find (is_case k) d with Some e, Some p => entry_view e p /\ In e es | None, None => True | _, _ => False end.
Proof.
  induction 1 as [|e p es d V F IH]; cbn [find]; auto. destruct V as [V1 V2]. replace (key_is_case k e) with (is_case k p) by (unfold key_is_case, is_case; now rewrite V1).
  destruct (is_case k p); [split; [split; auto|now left]|]. revert IH. destruct (find (key_is_case k) es) as [x|], (find (is_case k) d) as [y|]; auto. intros [I1 I2]. split; [exact I1|right; exact I2].
Qed.

Lemma repr_has_case : forall m d k, repr m d -> u_map_has_key_case m (Some k) = Ret (shas_case d k).
Proof.
  intros m d k (es & L & _ & _ & F & _). rewrite (has_key_case_layout m es k L). f_equal. unfold shas_case. rewrite !existsb_find.
  pose proof (repr_find_case es d k F) as H. destruct (find (key_is_case k) es), (find (is_case k) d); tauto.
Qed.

Lemma repr_get_case : forall m d k, repr m d -> get_case_str m (Some k) = Ret (sval_case d k).
Proof.
  intros m d k (es & L & (OK & _) & W & F & _). unfold get_case_str. rewrite (get_case_layout m es k L). cbn [bind].
  pose proof (repr_find_case es d k F) as H. unfold sval_case. destruct (find (key_is_case k) es) as [e|], (find (is_case k) d) as [p|]; [|destruct H|destruct H|reflexivity].
  destruct H as [[_ V] I]. rewrite Forall_forall in OK. destruct (OK e I) as (_ & E0 & _ & EB & _). unfold e_cstr in V.
  destruct (0 <? el e) eqn:P.
  - unfold deref_cstr in *. cbn [bind] in *. destruct (read_cstr (eb e)) as [s|]; [|discriminate]. cbn in V |- *. injection V as <-. reflexivity.
  - injection V as <-. assert (el e = 0) as Z0 by (apply Z.ltb_ge in P; lia). unfold evalue in EB. rewrite Z0 in EB. cbn in EB. rewrite EB. reflexivity.
Qed.

Lemma Forall_filter : forall {A} (P : A -> Prop) f l, Forall P l -> Forall P (filter f l).
Proof. intros A P f l H. rewrite Forall_forall in *. intros x I. apply filter_In in I as [I _]. auto. Qed.

Lemma repr_remove_case : forall m d k, repr m d ->
  exists m', u_map_remove_from_key_case m (Some k) = Ret (if shas_case d k then U_OK else U_ERROR_NOT_FOUND, m') /\ repr m' (sremove_case k d).
Proof.
  intros m d k (es & L & (OK & ND) & W & F & T). destruct (remove_key_case_layout m es k L) as (m' & R & L').
  exists m'. split.
  - rewrite R. do 2 f_equal. unfold shas_case. replace (existsb (fun e => str_caseeqb (ek e) k) es) with (existsb (key_is_case k) es) by reflexivity. rewrite !existsb_find.
    pose proof (repr_find_case es d k F) as H. destruct (find (key_is_case k) es), (find (is_case k) d); tauto.
  - exists (filter (fun e => negb (str_caseeqb (ek e) k)) es). split; [exact L'|]. split; [split|split; [|split]].
    + now apply Forall_filter.
    + clear - ND. induction es as [|e es IH]; cbn; [constructor|]. inversion ND as [|x l N1 N2]; subst. destruct (negb (str_caseeqb (ek e) k)); [|auto]. cbn. constructor; [|auto].
      intros I. apply N1. apply in_map_iff in I as (e' & E & I). apply filter_In in I as [I _]. rewrite <- E. now apply in_map.
    + now apply Forall_filter.
    + clear - F. induction F as [|e p es d V F IH]; cbn; [constructor|]. unfold is_case at 1. rewrite <- (proj1 V). destruct (str_caseeqb (ek e) k); cbn; auto.
    + now apply Forall_filter.
Qed.
