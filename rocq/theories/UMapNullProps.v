(** C10, continued: what the functions of u_map.c do when they are given NULL instead of a key or of a value. *)
From Coq Require Import String ZArith Bool List Lia.
From Verif Require Import Base BaseFacts UMapModel UMapSpec UMapProofs UMapReach.
Import ListNotations.
Open Scope Z_scope.

(** C10. Looking up NULL is looking up a key that no entry has: for every map and every key [k] which no entry carries, whatever the case,
    the eight reading functions answer for NULL what they answer for [k]: not there, no value, the length -1, no entry. *)
Theorem C10_null_key : forall m k, u_map_has_key_case m (Some k) = Ret false -> u_map_has_key m (Some k) = Ret false ->
  u_map_has_key m None = u_map_has_key m (Some k) /\ u_map_has_key_case m None = u_map_has_key_case m (Some k) /\
  u_map_get m None = u_map_get m (Some k) /\ u_map_get_case m None = u_map_get_case m (Some k) /\
  u_map_get_length m None = u_map_get_length m (Some k) /\ u_map_get_case_length m None = u_map_get_case_length m (Some k) /\
  u_map_get m (Some k) = Ret None /\ u_map_get_length m (Some k) = Ret (-1) /\
  u_map_count_keys_case m None = u_map_count_keys_case m (Some k) /\ u_map_count_keys_case m (Some k) = Ret 0.
Proof.
  intros m k Hc Hk.
  assert (Cn : u_map_count_keys_case m (Some k) = Ret 0).
  { unfold u_map_has_key_case in Hc. unfold u_map_count_keys_case.
    assert (G : forall ks i c, (do r <- scan_null ks (fun x => str_caseeqb x k) i; Ret (match r with Some _ => true | None => false end)) = Ret false ->
      count_case_go ks k c = Ret c).
    { intros ks. induction ks as [|[x|] r IH]; intros i c H; cbn [scan_null count_case_go bind] in *.
      - discriminate.
      - destruct (str_caseeqb x k); [cbn in H; discriminate|]. apply (IH _ _ H).
      - reflexivity. }
    apply (G _ _ _ Hc). }
  unfold u_map_has_key, u_map_has_key_case, u_map_get, u_map_get_case, u_map_get_length, u_map_get_case_length in *.
  destruct (scan_null (keys m) (fun x => str_eqb x k) 0) as [[i|]|u]; try discriminate Hk.
  destruct (scan_null (keys m) (fun x => str_caseeqb x k) 0) as [[i|]|u]; try discriminate Hc.
  cbn [bind]. rewrite Cn. repeat split; reflexivity.
Qed.
Print Assumptions C10_null_key.

(** C10. No entry has the value NULL, whichever way one asks; removing or adding with a NULL key, and removing with a NULL value,
    is refused with the error U_ERROR_PARAMS (3) and leaves the map as it was. *)
Theorem C10_null_refused : forall m v value offset length,
  u_map_has_value m None = Ret false /\ u_map_has_value_binary m None length = Ret false /\ u_map_has_value_case m None = Ret false /\
  u_map_remove_from_key m None = Ret (3, m) /\ u_map_remove_from_key_case m None = Ret (3, m) /\
  u_map_remove_from_value m None = Ret (3, m) /\ u_map_remove_from_value_binary m None length = Ret (3, m) /\ u_map_remove_from_value_case m None = Ret (3, m) /\
  u_map_put m None v = Ret (3, m) /\ u_map_put_binary m None value offset length = Ret (3, m).
Proof. intros m v value offset length. unfold u_map_put. destruct v; repeat split; reflexivity. Qed.
Print Assumptions C10_null_refused.

(** Meets the hypotheses: a map with the key "a", asked for "b". *)
Example C10_ex_null : exists m, u_map_put u_map_init (Some (bs "a")) (Some (bs "1")) = Ret (U_OK, m) /\
  u_map_has_key_case m (Some (bs "b")) = Ret false /\ u_map_has_key m (Some (bs "b")) = Ret false /\ u_map_has_key m (Some (bs "a")) = Ret true.
Proof. eexists. split; [vm_compute; reflexivity|]. split; [vm_compute; reflexivity|]. split; vm_compute; reflexivity. Qed.
