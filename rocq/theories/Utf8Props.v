(** C14: utf8_check (src/ulfius.c:1790-1841). *)
From Coq Require Import ZArith Bool List Lia.
From Verif Require Import Base BaseFacts Utf8Model Utf8Spec Utf8Proofs.
Import ListNotations.
Open Scope Z_scope.

(** No read at or beyond [len] (memory of exactly [len] bytes suffices), NULL only for UTF-8,
    otherwise the start of the first ill-formed sequence. *)
Theorem C14_utf8_check_exact : forall s len, bytes s -> 0 <= len <= zlen s ->
  match utf8_check s len with
  | UB _ => False
  | Ret None => utf8_text (zfirstn len s)
  | Ret (Some p) => 0 <= p < len /\ utf8_text (zfirstn p s) /\
      ~ starts_char (zskipn p (zfirstn len s)) /\ ~ utf8_text (zfirstn len s)
  end.
Proof. exact C14_lemma. Qed.
Print Assumptions C14_utf8_check_exact.

Theorem C14_utf8_valid_iff : forall s, bytes s -> (utf8_valid s = true <-> utf8_text s).
Proof. exact utf8_valid_spec. Qed.
Print Assumptions C14_utf8_valid_iff.

Example C14_ex_ok : utf8_check [97; 195; 169; 226; 130; 172; 240; 159; 152; 128; 239; 191; 191] 13 = Ret None.
Proof. reflexivity. Qed.
Example C14_ex_bad : utf8_check [97; 237; 160; 128] 4 = Ret (Some 1) /\ utf8_check [192; 128] 2 = Ret (Some 0) /\
  utf8_check [226; 130] 2 = Ret (Some 0).
Proof. repeat split. Qed.
