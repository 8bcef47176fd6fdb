(** C111: the callback that compresses the body of a response, also when allocations fail. *)
From Coq Require Import String ZArith Bool List Lia.
From Verif Require Import Base BaseFacts StrModel CompressModel OwnModel OwnSpec OwnProofs MapMemModel MapMemSpec MapMemProofs
  RespMemModel HttpMemSpec DefMemModel DefMemSpec DefMemProofs SiteMemModel SiteMemProofs ZipMemModel ZipMemSpec ZipMemProofs.
Import ListNotations.
Open Scope Z_scope.

Lemma has_are : forall m l, has m l -> blocks_are m l.
Proof. intros m l O. destruct (owns_spec _ _ O) as (A & B & C). split; [exact B|]. split; [exact C|exact A]. Qed.
Lemma few_lost : forall p l rs n p', all_turned p l rs n p' -> (n <= List.length (filter grow_fails l))%nat.
Proof.
  intros p l rs n p' A. induction A as [p|p t l a rs n n' p1 p2 T A IH]; [cbn; lia|]. cbn [filter].
  destruct T as [(_ & ->)|[(G & _ & _ & _ & L)|(_ & -> & _)]]; [destruct (grow_fails t); cbn [List.length]; lia| |destruct (grow_fails t); cbn [List.length]; lia].
  replace (grow_fails t) with true; [cbn [List.length]; lia|]. symmetry. unfold grow_fails. apply existsb_exists. exists false. auto.
Qed.

(** C111. A response with a body goes through the callback any number of times, each time with what the allocations answer and what zlib
    writes: nothing undefined happens, every result and what is sent then are those that [all_turned] says; the blocks in use are those of the
    response and the lost ones, of which there is at most one for each time that o_realloc failed, and they are what is left when the response is released. *)
Theorem C111_history_partial : forall b label l, Forall turn_ok l -> exists rs r lost m,
  x_turns (zstart b label) l = Ret (rs, r) /\ all_turned (Some b, label) l rs (List.length lost) (parcel_of r) /\ blocks_are (r_mem r) (parcel_blocks r ++ lost) /\
  (List.length lost <= List.length (filter grow_fails l))%nat /\ x_done r = Ret m /\ blocks_are m lost.
Proof.
  intros b label l F. destruct (turns_has l (zstart b label) [] (zstart_has b label) F) as (rs & r & lost & E & O & T). rewrite app_nil_r in O.
  destruct (done_has r lost O) as (m & D & OM). exists rs, r, lost, m. split; [exact E|].
  assert (PZ : parcel_of (zstart b label) = (Some b, label)) by (destruct label; reflexivity). rewrite PZ in T. split; [exact T|]. split; [now apply has_are|]. split; [eapply few_lost; eauto|]. split; [exact D|now apply has_are].
Qed.
Print Assumptions C111_history_partial.

Lemma fed_turns : forall p l rs n p', Forall turn_fed l -> all_turned p l rs n p' -> (rs, p') = presses p l /\ n = 0%nat.
Proof.
  intros p l rs n p' F A. induction A as [p|p t l a rs n n' p1 p2 T A IH]; [split; reflexivity|]. inversion F as [|? ? (F1 & F2) F3]; subst. cbn [presses].
  destruct T as [(E & ->)|[(G & _)|(G & _)]]; [|contradiction|contradiction]. rewrite <- E. destruct (IH F3) as [<- ->]. split; reflexivity.
Qed.
(** With memory the results and what is sent are exactly those of [presses], and everything is released. *)
Theorem C111_memory : forall b label l, Forall turn_ok l -> Forall turn_fed l -> exists rs r m,
  x_turns (zstart b label) l = Ret (rs, r) /\ (rs, parcel_of r) = presses (Some b, label) l /\ blocks_are (r_mem r) (parcel_blocks r) /\ x_done r = Ret m /\ blocks_are m [].
Proof.
  intros b label l F FD. destruct (C111_history_partial b label l F) as (rs & r & lost & m & E & T & B & _ & D & BM). destruct (fed_turns _ _ _ _ _ FD T) as [P L].
  destruct lost; [|discriminate]. rewrite app_nil_r in B. exists rs, r, m. auto.
Qed.
Print Assumptions C111_memory.

(** Whatever o_realloc and zlib do, a response that is to be compressed is sent as it was, or compressed and labelled, unless another allocation fails. *)
Theorem C111_readable_partial : forall b t gz, turn_ok t -> chosen t (Some b, None) = Some gz -> exists a r, x_turn (zstart b None) t = Ret (a, r) /\
  (parcel_of r = (Some b, None) \/ (exists z, produced (z_out t) = Some z /\ parcel_of r = (Some z, Some gz)) \/ In false (z_new t)).
Proof.
  intros b t gz F C. destruct (turn_has (zstart b None) t [] (zstart_has b None) F) as (a & r & lost & E & _ & T). exists a, r. split; [exact E|].
  change (parcel_of (zstart b None)) with (Some b, @None bool) in T. destruct T as [(P & _)|[(_ & _ & _ & P & _)|(S1 & _)]]; auto.
  unfold pressed in P. rewrite C in P. destruct (produced (z_out t)) as [z|]; apply (f_equal snd) in P; cbn [snd] in P; eauto.
Qed.
Print Assumptions C111_readable_partial.

(** ** Examples *)
Definition zcalls : list zcall := [(0, repeat 7 256); (1, [1; 2; 3])].
Definition zbody := repeat 65 600.
Definition once (new grow : list bool) : zturn := mk_zturn None (Some (bs "br, gzip")) new grow zcalls.
Example once_ok : forall new grow, turn_ok (once new grow).
Proof. intros new grow. split; [repeat constructor; cbn; discriminate|discriminate]. Qed.
Example once_fed : turn_fed (once [] []).
Proof. split; cbn; tauto. Qed.
Example once_chosen : chosen (once [] []) (Some zbody, None) = Some true.
Proof. reflexivity. Qed.
Example once_done : match x_turns (zstart zbody None) [once [] []] with Ret (rs, r) => rs = [U_CALLBACK_IGNORE] /\ parcel_of r = (Some (repeat 7 256 ++ [1; 2; 3]), Some true) | UB _ => False end.
Proof. vm_compute. split; reflexivity. Qed.

(** http_compression_callback.c:129: the result of u_map_put is not looked at. When the header cannot be stored the compressed bytes are sent without
    Content-Encoding, with the result that says that all is well. *)
Theorem C111_label_refuted : exists b t r z, turn_ok t /\ z_grow t = [] /\ produced (z_out t) = Some z /\ x_turn (zstart b None) t = Ret (U_CALLBACK_IGNORE, r) /\ parcel_of r = (Some z, None).
Proof. exists zbody, (once [true; true; true; false] []). do 2 eexists. split; [apply once_ok|]. split; [reflexivity|]. split; [vm_compute; reflexivity|]. split; vm_compute; reflexivity. Qed.
Print Assumptions C111_label_refuted.
(** :128: nor is the result of ulfius_set_binary_body_response, which releases the old body before it has memory for the new one. When there is none the
    response is sent without a body, with its old status, and labelled as compressed. *)
Theorem C111_body_refuted : exists b t r, b <> [] /\ turn_ok t /\ z_grow t = [] /\ x_turn (zstart b None) t = Ret (U_CALLBACK_IGNORE, r) /\ parcel_of r = (None, Some true).
Proof. exists zbody, (once [true; true; false] []). eexists. split; [discriminate|]. split; [apply once_ok|]. split; [reflexivity|]. split; vm_compute; reflexivity. Qed.
Print Assumptions C111_body_refuted.
(** :107: data_zip = o_realloc(data_zip, ..) loses the block when it fails: nothing releases it any more. *)
Theorem C111_grow_refuted : exists b t r m, turn_ok t /\ z_new t = [] /\ x_turn (zstart b None) t = Ret (U_CALLBACK_ERROR, r) /\ parcel_of r = (Some b, None) /\ x_done r = Ret m /\ List.length (h_live (m_heap m)) = 1%nat.
Proof. exists zbody, (once [] [true; false]). do 2 eexists. split; [apply once_ok|]. split; [reflexivity|]. split; [vm_compute; reflexivity|]. split; [vm_compute; reflexivity|]. split; vm_compute; reflexivity. Qed.
Print Assumptions C111_grow_refuted.
(** :75: when split_string fails for lack of memory the response is sent as it is and the result is the same as ever; that is harmless, the body can be read. *)
Example split_fails : match x_turn (zstart zbody None) (once [false] []) with Ret (a, r) => a = U_CALLBACK_IGNORE /\ parcel_of r = (Some zbody, None) | UB _ => False end.
Proof. vm_compute. split; reflexivity. Qed.
