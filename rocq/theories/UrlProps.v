(** C11-C13: URL encoding and decoding (src/ulfius.c:1843-1925). *)
From Coq Require Import String ZArith Bool List Lia.
From Verif Require Import Base BaseFacts UrlModel UrlSpec UrlProofs.
Import ListNotations.
Open Scope Z_scope.

(** C11. For every locale, every C string: encoding succeeds with a C string, and decoding that
    gives back the string, without undefined behaviour (even in the strict reading). *)
Theorem C11_decode_encode : forall ah tl strict s, cstr s ->
  exists e, url_encode ah s = Ret (e ++ [0]) /\ cstr e /\ url_decode tl strict e = Ret (s ++ [0]).
Proof. exact C11_lemma. Qed.
Print Assumptions C11_decode_encode.
Example C11_ex : cstr [195; 169; 32; 37; 43; 47; 97; 255] /\
  url_encode (fun _ => false) [195; 169; 32; 37; 43; 47; 97; 255] = Ret (bs "%C3%A9+%25%2B%2Fa%FF" ++ [0]).
Proof. split; [apply cstrb_true; reflexivity|vm_compute; reflexivity]. Qed.

(** C12. The encoder stays inside its 3*strlen+1 bytes (else the result would be UB) and the
    text is made of unreserved bytes, '+', upper-case escapes and bytes above 127 that the
    locale calls alphanumeric. *)
Theorem C12_encoded_text_safe : forall ah s, cstr s ->
  exists e, url_encode ah s = Ret (e ++ [0]) /\ safe_text (fun b => ah b = true) e /\ zlen e <= 3 * zlen s.
Proof. intros ah. exact (C12_alphabet_lemma ah (fun _ => 0)). Qed.
Print Assumptions C12_encoded_text_safe.

(** in the C locale (and any locale without 8 bit letters) there are no such extra bytes *)
Theorem C12_encoded_text_safe_c_locale : forall s, cstr s ->
  exists e, url_encode (fun _ => false) s = Ret (e ++ [0]) /\ safe_text (fun _ => False) e.
Proof.
  intros s C. destruct (C12_alphabet_lemma (fun _ => false) (fun _ => 0) s C) as (e & E & S & _). exists e. split; auto.
  clear E. induction S; try (econstructor; eauto; fail). discriminate.
Qed.
Print Assumptions C12_encoded_text_safe_c_locale.

Theorem C12_encode_injective : forall ah s t e, cstr s -> cstr t ->
  url_encode ah s = Ret e -> url_encode ah t = Ret e -> s = t.
Proof. intros ah. exact (C12_injective_lemma ah (fun _ => 0)). Qed.
Print Assumptions C12_encode_injective.

(** C12 as stated is false in a locale whose isalnum accepts a byte above 127 *)
Theorem C12_locale_refuted : exists ah s e, cstr s /\ url_encode ah s = Ret (e ++ [0]) /\ ~ safe_text (fun _ => False) e.
Proof.
  exists (fun b => b =? 233), [233], [233]. split; [apply cstrb_true; reflexivity|]. split; [vm_compute; reflexivity|].
  intros S. inversion S; subst; auto. unfold unreserved in H1. simpl in H1. lia.
Qed.
Print Assumptions C12_locale_refuted.

(** C13. Any C string decodes, inside both blocks, to what the specification says. gcc
    semantics for the shift of a negative value. *)
Theorem C13_decode_total : forall tl s, cstr s ->
  exists o, url_decode tl false s = Ret (o ++ [0]) /\ zlen o <= zlen s /\ decodes s o.
Proof.
  intros tl s C. unfold url_decode.
  apply (decode_spec_len tl false (length s)); auto; [lia|discriminate].
Qed.
Print Assumptions C13_decode_total.

(** In the strict reading of C it is enough that the first digit of every escape is a hex digit. *)
Theorem C13_decode_total_strict_partial : forall tl s, cstr s ->
  (forall a c1 c2 b, s = a ++ 37 :: c1 :: c2 :: b -> exists v, hexval c1 v) ->
  exists o, url_decode tl true s = Ret (o ++ [0]) /\ zlen o <= zlen s /\ decodes s o.
Proof.
  intros tl s C H. unfold url_decode.
  apply (decode_spec_len tl true (length s)); auto; [lia|].
  intros _ a c1 c2 b E. apply hexb_spec. eauto.
Qed.
Print Assumptions C13_decode_total_strict_partial.

Theorem C13_negative_shift_refuted : exists s, cstr s /\ forall tl, url_decode tl true s = UB ShiftNegative.
Proof. exists (bs "%!0"). split; [apply cstrb_true; reflexivity|]. intro; reflexivity. Qed.
Print Assumptions C13_negative_shift_refuted.

Example C13_ex : url_decode (fun c => c) false (bs "a%2Fb+c%2") = Ret (bs "a/b c2" ++ [0]) /\
  url_decode (fun c => c) true (bs "%e9%") = Ret [233; 0].
Proof. vm_compute. auto. Qed.
