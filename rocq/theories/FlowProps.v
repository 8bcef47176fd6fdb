(** C121: the stream example. *)
From Coq Require Import String ZArith Bool List Lia.
From Verif Require Import Base BaseFacts Dec UMapModel DispatchModel.
From Verif Require RouterModel RouterSpec RouterProps RouterSpec.
From Verif Require Import FlowModel FlowSpec.
Import ListNotations.
Open Scope Z_scope.

Lemma udec_small : forall n, 0 <= n <= 100 -> Forall digit (udec n) /\ udec n <> [] /\ dec_value (udec n) = n /\ zlen (udec n) <= 3.
Proof.
  intros n B. assert (H : forall k, (k <= 100)%nat -> let s := udec (Z.of_nat k) in
    forallb (fun c => (48 <=? c) && (c <=? 57)) s = true /\ s <> [] /\ dec_value s = Z.of_nat k /\ (zlen s <=? 3) = true).
  { intros k L. do 101 (destruct k as [|k]; [vm_compute; repeat split; discriminate|]). lia. }
  specialize (H (Z.to_nat n) ltac:(lia)). rewrite Z2Nat.id in H by lia. destruct H as (A & N & V & L).
  split; [|split; [exact N|split; [exact V|now apply Z.leb_le]]]. rewrite forallb_forall in A. apply Forall_forall. intros c I. specialize (A c I). apply andb_prop in A as [A1 A2].
  apply Z.leb_le in A1, A2. split; assumption.
Qed.

(** C121. The stream of texts: whatever room MHD has at each call, as long as a line fits, the body is the numbered text, whole, and it ends. *)
Theorem C121_text_partial : forall c rooms, Forall (fun r => zlen c + 6 <= r) rooms -> (102 <= length rooms)%nat ->
  exists body, get_stream (Some c) rooms = Ret (body, Finished) /\ numbered c 0 body.
Proof.
  intros c rooms F L.
  assert (G : forall k got rooms, (Z.to_nat (101 - zlen got) < k)%nat -> (k <= length rooms)%nat -> Forall (fun r => zlen c + 6 <= r) rooms ->
    exists t, pull (fun _ : unit => stream_data (Some c)) None (map (fun r => (tt, r)) rooms) got = Ret (got ++ t, Finished) /\ numbered c (zlen got) t).
  { clear. induction k as [|k IH]; intros got rooms K LR F; [lia|]. destruct rooms as [|r rooms]; [cbn in LR; lia|]. inversion F as [|? ? B F']; subst. cbn [map pull]. unfold stream_data at 1.
    pose proof (zlen_nonneg _ got) as NG. pose proof (zlen_nonneg _ c) as NC. destruct (Z.leb_spec (zlen got) 100) as [P|P].
    - destruct (udec_small (zlen got) (conj NG P)) as (D1 & D2 & D3 & D4). replace (r =? 0) with false by (symmetry; apply Z.eqb_neq; lia).
      assert (ZL : zlen (c ++ [32] ++ udec (zlen got) ++ [10]) = zlen c + 2 + zlen (udec (zlen got))) by (rewrite !zlen_app; change (zlen [32]) with 1; change (zlen [10]) with 1; lia).
      replace (zfirstn (r - 1) (c ++ [32] ++ udec (zlen got) ++ [10])) with (c ++ [32] ++ udec (zlen got) ++ [10]) by (symmetry; apply firstn_all2; unfold zlen in ZL, D4, B |- *; lia). cbn [bind]. destruct (IH (got ++ c ++ [32] ++ udec (zlen got) ++ [10]) rooms) as (t & E & N); [| |exact F'|].
      + rewrite (zlen_app _ got). pose proof (zlen_nonneg _ (udec (zlen got))). lia.
      + cbn [length] in LR. lia.
      + exists ((c ++ [32] ++ udec (zlen got) ++ [10]) ++ t). rewrite E. rewrite <- app_assoc. split; [reflexivity|]. apply n_line; auto. rewrite <- zlen_app. exact N.
    - exists []. rewrite app_nil_r. split; [reflexivity|]. constructor. lia. }
  destruct (G 102%nat [] rooms) as (t & E & N); [cbn; lia|exact L|exact F|]. exists t. split; [exact E|exact N].
Qed.

(** C121. The file: whatever room MHD has at each call, the body is the file as it was when the request came, if it only grows meanwhile. *)
Theorem C121_file_partial : forall l asked, Forall (fun a => extends l (fst a) /\ 1 <= snd a) asked -> zlen l <= Z.of_nat (length asked) ->
  get_audio (Regular l) = (U_CALLBACK_CONTINUE, Some (zlen l)) /\ audio_body l asked = Ret (l, Finished).
Proof.
  intros l asked F L. split; [reflexivity|]. unfold audio_body.
  assert (G : forall asked got rest, l = got ++ rest -> Forall (fun a => extends l (fst a) /\ 1 <= snd a) asked -> zlen rest <= Z.of_nat (length asked) ->
    pull stream_audio_file (Some (zlen l)) asked got = Ret (l, Finished)).
  { clear. induction asked as [|[f room] asked IH]; intros got rest -> F L.
    - cbn [length] in L. pose proof (zlen_nonneg _ rest) as NR. assert (rest = []) as -> by (destruct rest as [|x y]; [reflexivity|rewrite zlen_cons in L; pose proof (zlen_nonneg _ y); lia]).
      rewrite app_nil_r. cbn [pull]. rewrite Z.leb_refl. reflexivity.
    - cbn [pull]. rewrite zlen_app. destruct (Z.leb_spec (zlen got + zlen rest) (zlen got)) as [Q|Q].
      + pose proof (zlen_nonneg _ rest) as NR. assert (rest = []) as -> by (destruct rest as [|x y]; [reflexivity|rewrite zlen_cons in Q; pose proof (zlen_nonneg _ y); lia]). rewrite app_nil_r. reflexivity.
      + inversion F as [|? ? ((t & E) & R1) F']; subst. cbn [fst snd] in E, R1. subst f. unfold stream_audio_file at 1. cbn [bind].
        rewrite <- app_assoc, zskipn_app_exact by reflexivity. set (k := Z.min room (zlen got + zlen rest - zlen got)). assert (K : 1 <= k <= zlen rest) by lia.
        assert (Z1 : zfirstn k (rest ++ t) = zfirstn k rest) by (unfold zfirstn; rewrite firstn_app; replace (Z.to_nat k - length rest)%nat with 0%nat by (unfold zlen in K; lia); cbn [firstn]; apply app_nil_r).
        rewrite Z1. rewrite <- zlen_app. apply (IH (got ++ zfirstn k rest) (zskipn k rest)); [rewrite <- app_assoc; f_equal; symmetry; apply firstn_skipn|exact F'|].
        rewrite zlen_zskipn by lia. cbn [length] in L. lia. }
  apply (G asked [] l eq_refl F L).
Qed.

(** C121, refuted: the file gets shorter while it is sent. The reader gives 0 bytes, which is not the end: MHD asks for ever; *)
Theorem C121_shorter_refuted : forall l l' room n, zlen l' < zlen l -> 1 <= room -> exists got, audio_body l (repeat (l', room) n) = Ret (got, Asking).
Proof.
  intros l l' room n B R. unfold audio_body.
  assert (G : forall n got, zlen got <= zlen l' -> exists g, pull stream_audio_file (Some (zlen l)) (repeat (l', room) n) got = Ret (g, Asking)).
  { clear n. induction n as [|n IH]; intros got G; cbn [repeat pull]; (destruct (Z.leb_spec (zlen l) (zlen got)); [lia|]); [eexists; reflexivity|]. unfold stream_audio_file at 1. cbn [bind].
    apply IH. pose proof (zlen_nonneg _ got). set (k := Z.min room (zlen l - zlen got)). assert (0 <= k) by lia.
    rewrite zlen_app. unfold zfirstn, zskipn, zlen in *. rewrite firstn_length, skipn_length. lia. }
  apply G. apply zlen_nonneg.
Qed.
Definition audio_as (nd : node) (f ud pos : Z) (m : umap) (r : response) (n : Z) : Z * response * Z := (fst (get_audio nd), r, n).
Definition audio_callback := audio_as Special.
Definition streams : RouterModel.instance :=
  match RouterSpec.eop_run RouterModel.init_instance [RouterSpec.EAdd (RouterProps.ep "GET" "/stream" "/audio" 0 1)] with Ret u => u | UB _ => RouterModel.init_instance end.
(** C121. A file that cannot be opened is an error to the client: 500, and nothing of a stream *)
Theorem C121_missing : get_audio Missing = (U_CALLBACK_ERROR, None) /\
  exists res body, dispatch Z RouterProps.id_tl RouterProps.isort (audio_as Missing) (fun _ _ => true) (fun _ => inl []) None None None true (bs "/stream/audio") u_map_init (bs "GET")
    (RouterModel.endpoint_list streams) u_map_init 0 = Ret res /\ answers res = [Queue 500 (mk_mhd (CBuffer body) [])].
Proof. split; [reflexivity|]. do 2 eexists. split; vm_compute; reflexivity. Qed.
(** a file that is not a regular one (a directory, which fopen opens for reading): U_ERROR is the number of U_CALLBACK_IGNORE, so what the program refuses to serve is answered
    with status 200 and no body; *)
Theorem C121_special_refuted : get_audio Special = (U_CALLBACK_IGNORE, None) /\
  exists res, dispatch Z RouterProps.id_tl RouterProps.isort audio_callback (fun _ _ => true) (fun _ => inl []) None None None true (bs "/stream/audio") u_map_init (bs "GET")
    (RouterModel.endpoint_list streams) u_map_init 0 = Ret res /\ answers res = [Queue 200 (mk_mhd (CBuffer []) [])].
Proof. split; [reflexivity|]. eexists. split; vm_compute; reflexivity. Qed.
(** without memory for the text of the stream, the reader prints NULL; *)
Theorem C121_memory_refuted : forall room rooms, get_stream None (room :: rooms) = UB NullDeref.
Proof. reflexivity. Qed.
(** with no room at all the reader takes the length of a text it did not write; with room for one byte the reader of the texts gives 0 bytes for ever; with room for less than a line the lines are cut *)
Theorem C121_room_refuted : (forall c rooms, get_stream (Some c) (0 :: rooms) = UB Uninit) /\ (forall c n, get_stream (Some c) (repeat 1 n) = Ret ([], Asking)) /\
  exists body, get_stream (Some (bs "stream test")) (repeat 13 102) = Ret (body, Finished) /\ ~ numbered (bs "stream test") 0 body.
Proof.
  split; [reflexivity|]. split.
  - intros c n. unfold get_stream. induction n as [|n IH]; [reflexivity|]. cbn [repeat map pull]. change (stream_data (Some c) (zlen []) 1) with (Ret (Bytes (zfirstn 0 (c ++ [32] ++ udec 0 ++ [10])))).
    cbn [bind]. exact IH.
  - assert (D : forall b, numbered (bs "stream test") 0 b -> exists d, nth_error b 12 = Some d /\ digit d).
    { intros b N. inversion N as [n0 L0|n0 ds t B0 FD NE V0 L3 N0 E0 E1]; [lia|]. destruct ds as [|d ds]; [congruence|]. inversion FD as [|? ? D _]; subst. exists d. split; [reflexivity|exact D]. }
    destruct (get_stream (Some (bs "stream test")) (repeat 13 102)) as [[body e]|k] eqn:E; [|vm_compute in E; discriminate E]. exists body.
    assert (X : e = Finished /\ nth_error body 12 = Some 115) by (revert E; vm_compute; intros [= <- <-]; split; reflexivity). destruct X as [-> X].
    split; [reflexivity|]. intros N. destruct (D body N) as (d & Y & B). rewrite X in Y. injection Y as <-. destruct B; lia.
Qed.

(** ** cases *)
Example C121_ex_text : exists body, get_stream (Some (bs "stream test")) (repeat 32768 102) = Ret (body, Finished) /\ firstn 29 body = bs "stream test 0" ++ [10] ++ bs "stream test 14" ++ [10].
Proof. eexists. split; vm_compute; reflexivity. Qed.
Example C121_ex_file : audio_body [1; 2; 3; 4; 5] [([1; 2; 3; 4; 5], 2); ([1; 2; 3; 4; 5; 6], 2); ([1; 2; 3; 4; 5; 6], 9)] = Ret ([1; 2; 3; 4; 5], Finished).
Proof. reflexivity. Qed.
Example C121_ex_hyps : Forall (fun a : list Z * Z => extends [1; 2; 3] (fst a) /\ 1 <= snd a) [([1; 2; 3], 2); ([1; 2; 3; 6], 2); ([1; 2; 3; 6], 9)].
Proof. repeat constructor; cbn [snd]; try lia; cbn [fst]; [exists []|exists [6]|exists [6]]; reflexivity. Qed.
Example C121_ex_shorter : audio_body [1; 2; 3] (([1; 2; 3], 1) :: repeat ([1; 2], 5) 4) = Ret ([1; 2], Asking).
Proof. reflexivity. Qed.

Print Assumptions C121_text_partial.
Print Assumptions C121_file_partial.
Print Assumptions C121_shorter_refuted.
Print Assumptions C121_special_refuted.
Print Assumptions C121_memory_refuted.
Print Assumptions C121_room_refuted.
Print Assumptions C121_missing.
