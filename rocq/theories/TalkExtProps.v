(** C90: conversations through extensions. *)
From Coq Require Import String ZArith Bool List Lia.
From Verif Require Import Base BaseFacts Utf8Model Utf8Spec Utf8Proofs WsFrameModel WsRecvModel WsSpec WsRecvSpec WsRecvProofs WsProps WsSendModel WsSendSpec
  ExtModel ExtSpec ExtProps TokenModel TalkModel TalkSpec TalkProofs TalkProps TalkExtModel TalkExtSpec TalkExtProofs TalkExtFrames.
Import ListNotations.
Open Scope Z_scope.

(** C90. The same with extensions that keep contexts from one message to the next, every function of the receiver undoing the one of the sender: what goes over the wire is [encoded] (each message with the
    bits of the extensions applied to it and the data they made of it), and the receiver notices the messages as they were given. The bits of the extensions are distinct and were agreed upon. *)
Theorem C90_extensions : forall C out_perform in_perform alloc_ok server rx exts exts' l enc, (forall n, alloc_ok n = true) ->
  Forall2 (paired C out_perform in_perform) exts exts' -> bits_apart C exts -> Forall (fun e => e_in_data e = e_out_data e) exts' ->
  (forall e, In e exts -> (exists k, 0 <= k < 8 /\ e_rsv e = 16 * k) /\ (e_enabled e = true -> Z.land rx (e_rsv e) = e_rsv e)) ->
  encoded C out_perform exts (map (fun x => (snd (fst x), snd x)) l) enc ->
  Forall2 (fun x p => sendable (snd (fst x)) (snd x) /\ bytes (snd p) /\ zlen (snd p) < 4294967296 /\ fortunate server (fst (fst x)) (snd p)) l enc ->
  exists ws pieces, send_all C out_perform alloc_ok server true exts l = Ret (map (fun _ => U_OK) l, pieces) /\ List.concat pieces = block_of (List.concat ws) /\
    Forall2 (fun p w => exists key opcode, wire (mk_frame true (fst p) opcode key (snd p)) w) enc ws /\
    forall evs, calm evs -> stream evs = List.concat ws -> exists k, forall is, Forall undisturbed is -> (k <= length is)%nat ->
      map bare (seen (fst (run_x C in_perform alloc_ok (negb server) rx (start evs, exts') is))) = flat_map (fun x => expected (snd (fst x)) (snd x)) l.
Proof.
  intros C out_perform in_perform alloc_ok server rx exts exts' l enc AL P A UD BI EN F.
  assert (BO : Forall (bit_ok C rx) exts) by (apply Forall_forall; exact BI).
  destruct (send_many_x C out_perform in_perform alloc_ok AL rx server _ _ _ EN l eq_refl BO F) as (ws & wm & pieces & E & CC & W & ST).
  exists ws, pieces. split; [exact E|]. split; [exact CC|]. split.
  - clear -W ST. revert ws W. induction ST as [|x p m xs ps ms (MO & MR & MD & _) ST IH]; intros ws W; inversion W as [|? w ? ws' WW W']; subst; constructor; [|now apply IH].
    exists (if m_has_mask m then Some (m_mask m) else None), (m_opcode m). rewrite <- MR, <- MD. exact WW.
  - intros evs CA S.
    destruct (receive_x C out_perform in_perform alloc_ok AL rx (negb server) _ _ _ EN wm ws) with (l' := exts') (s := start evs) as (k & R); auto; [rewrite negb_involutive; exact ST|].
    exists k. intros is UN L. rewrite R by assumption. cbn [start seen w_out flat_map map app]. rewrite flat_map_concat_map, map_map, <- flat_map_concat_map. reflexivity.
Qed.

(** C90. Whatever frames come, in whatever chunks: messages in one frame or in fragments, control frames in between. Each complete message goes once, whole, through the extensions as
    the messages before left them; what is noticed is what the frames mean, up to the first frame that cannot follow. A message an extension refuses is such a frame: nothing of it
    reaches the program and the connection ends. *)
Theorem C90_frames : forall C in_perform alloc_ok server rx exts evs fs, (forall f c op d fr u x c', bytes d -> in_perform f c op d fr u = (Some x, c') -> bytes x) ->
  calm evs -> receivable alloc_ok server fs (stream evs) ->
  exists k, forall is, Forall undisturbed is -> (k <= length is)%nat ->
    let s := fst (run_x C in_perform alloc_ok server rx (start evs, exts) is) in
    (exists t os l, history_x C in_perform alloc_ok rx exts fs t os l /\ seen s = os) \/
    (exists a f b t os l, fs = a ++ f :: b /\ history_x C in_perform alloc_ok rx exts a t os l /\ (forall t' o l', ~ follows_x C in_perform alloc_ok rx l t f t' o l') /\
      seen s = os ++ closing f).
Proof.
  intros C in_perform alloc_ok server rx exts evs fs IB CA (ws & rest & W & S & R & G).
  destruct (frames_run_x C in_perform alloc_ok rx server IB exts fs ws W G (start evs) exts [] [] []) with (rest := rest) as (k & H); auto; try reflexivity; try constructor.
  exists k. exact H.
Qed.

(** nothing goes out when an extension refuses a message; the connection stays open *)
Theorem C90_extension_error : forall C out_perform alloc_ok server ch exts opcode data ret rsv d exts', out_message C out_perform alloc_ok opcode 0 exts data = (ret, rsv, d, exts') -> ret <> U_OK ->
  send_message C out_perform alloc_ok server ch true false exts opcode data = Ret (ret, [], true, exts').
Proof.
  intros C out_perform alloc_ok server ch exts opcode data ret rsv d exts' E N. unfold send_message, send_fragmented. rewrite andb_false_r, E. destruct (Z.eqb_spec ret U_OK); [contradiction|reflexivity].
Qed.

(** ** cases *)
(** two extensions: the first puts the number of the message in front, the second its user data *)
Definition z_out (f c opcode : Z) (d : list Z) (fragment u : Z) : option (list Z) * Z := if f =? 1 then (Some (Z.modulo c 256 :: d), c + 1) else (Some (u :: d), c).
Definition z_in (f c opcode : Z) (d : list Z) (fragment u : Z) : option (list Z) * Z :=
  match d with v :: r => if f =? 1 then if v =? Z.modulo c 256 then (Some r, c + 1) else (None, c) else if u =? v then (Some r, c) else (None, c) | [] => (None, c) end.
Definition z_list := [mk_ext 64 true (Some 1) 0 (Some 1) 0 7; mk_ext 16 false (Some 1) 0 (Some 1) 0 7; mk_ext 32 true (Some 2) 9 (Some 2) 9 0].
Definition z_msgs := [(ex_chance, 1, bs "hello"); (ex_chance, 9, [7; 8]); (ex_chance, 2, [])].
Definition z_enc := [(96, 9 :: 7 :: bs "hello"); (0, [7; 8]); (96, [9; 8])].
Example C90_extensions_hyps : Forall2 (paired Z z_out z_in) z_list z_list /\ bits_apart Z z_list /\ Forall (fun e => e_in_data e = e_out_data e) z_list /\
  (forall e, In e z_list -> (exists k, 0 <= k < 8 /\ e_rsv e = 16 * k) /\ (e_enabled e = true -> Z.land 96 (e_rsv e) = e_rsv e)) /\
  encoded Z z_out z_list (map (fun x => (snd (fst x), snd x)) z_msgs) z_enc /\
  Forall2 (fun x p => sendable (snd (fst x)) (snd x) /\ bytes (snd p) /\ zlen (snd p) < 4294967296 /\ fortunate false (fst (fst x)) (snd p)) z_msgs z_enc.
Proof.
  assert (I1 : inverse Z z_out z_in 1 0 1 0 eq).
  { intros s r op d fr x s' -> H. unfold z_out in H. change (1 =? 1) with true in H. cbv iota in H. injection H as <- <-. exists (r + 1). split; auto.
    unfold z_in. change (1 =? 1) with true. cbv iota. now rewrite Z.eqb_refl. }
  assert (I2 : inverse Z z_out z_in 2 9 2 9 eq).
  { intros s r op d fr x s' -> H. unfold z_out in H. change (2 =? 1) with false in H. cbv iota in H. injection H as <- <-. exists r. split; reflexivity. }
  split; [|split; [|split; [|split; [|split]]]].
  - unfold z_list. constructor; [|constructor; [|constructor; [|constructor]]]; (split; [reflexivity|split; [reflexivity|split; [discriminate|]]]).
    + intros _ f [= <-]. exists 1, eq. auto.
    + discriminate.
    + intros _ f [= <-]. exists 2, eq. auto.
  - unfold z_list. repeat constructor; discriminate.
  - repeat constructor.
  - intros e [<-|[<-|[<-|[]]]]; (split; [|first [reflexivity|discriminate]]); [exists 4|exists 1|exists 2]; split; try reflexivity; lia.
  - assert (T : forall op c d, 0 <= c < 256 -> op = 1 \/ op = 2 -> through Z z_out op [mk_ext 64 true (Some 1) 0 (Some 1) 0 c; mk_ext 16 false (Some 1) 0 (Some 1) 0 7; mk_ext 32 true (Some 2) 9 (Some 2) 9 0] 0 d 96 (9 :: c :: d)
        [mk_ext 64 true (Some 1) 0 (Some 1) 0 (c + 1); mk_ext 16 false (Some 1) 0 (Some 1) 0 7; mk_ext 32 true (Some 2) 9 (Some 2) 9 0]).
    { intros op c d CR _. apply (th_apply Z z_out op (mk_ext 64 true (Some 1) 0 (Some 1) 0 c) _ 0 d 1 (c :: d) (c + 1)); [reflexivity|reflexivity|cbn; unfold z_out; change (1 =? 1) with true; cbv iota; rewrite Z.mod_small by lia; reflexivity|].
      apply th_skip; [left; reflexivity|].
      apply (th_apply Z z_out op (mk_ext 32 true (Some 2) 9 (Some 2) 9 0) [] 64 (c :: d) 2 (9 :: c :: d) 0); [reflexivity|reflexivity|reflexivity|]. apply th_nil. }
    unfold z_msgs, z_enc. cbn [map fst snd]. eapply en_data; [left; reflexivity|apply (T 1 7 (bs "hello")); [lia|auto]|]. apply en_control; [left; reflexivity|]. eapply en_data; [right; reflexivity|apply (T 2 (7 + 1) []); [lia|auto]|]. apply en_nil.
  - assert (FO : forall d, (length d <= 26)%nat -> fortunate false ex_chance d).
    { intros d L. split; [apply Forall_forall; intros e I; apply repeat_spec in I; subst; split; [reflexivity|exists 3; split; [reflexivity|lia]]|].
      split; [cbn; lia|]. split; [reflexivity|]. intros _. exists [1; 2; 3; 250]. repeat split; repeat constructor; lia. }
    unfold z_msgs, z_enc. constructor; [|constructor; [|constructor; [|constructor]]]; (split; [|split; [repeat constructor; lia|split; [reflexivity|apply FO; cbn; lia]]]); cbn [fst snd].
    + split; [repeat constructor; lia|]. split; [reflexivity|]. left. split; [reflexivity|]. apply Utf8Proofs.utf8_valid_spec; [repeat constructor; lia|]. vm_compute. reflexivity.
    + split; [repeat constructor; lia|]. split; [reflexivity|]. right. right. split; [auto|]. discriminate.
    + split; [constructor|]. split; [reflexivity|]. right. left. reflexivity.
Qed.
Example C90_extensions_ex : exists pieces, send_all Z z_out (fun _ => true) true true z_list z_msgs = Ret ([0; 0; 0], pieces) /\
  exists w, List.concat pieces = block_of w /\ seen (fst (run_x Z z_in (fun _ => true) false 96 (start [RData (firstn 4 w); RIdle; RData (skipn 4 w)], z_list) (repeat quiet 9))) =
    [SMsg 1 96 (bs "hello"); SSend 10 [7; 8]; SMsg 2 96 []].
Proof. eexists. split; [vm_compute; reflexivity|]. eexists. split; [vm_compute; instantiate (1 := [_;_;_;_;_;_;_;_;_;_;_;_;_;_;_;_;_]); reflexivity|vm_compute; reflexivity]. Qed.
Example C90_extension_error_ex : send_message Z (fun _ c _ _ _ _ => (None, c)) (fun _ => true) true ex_chance true false z_list 1 [65] = Ret (U_ERROR, [], true, z_list).
Proof. reflexivity. Qed.

Print Assumptions C90_extensions.
(** a text in three frames with a ping in between, then a second text that the first extension refuses: its number is wrong *)
Definition z_frames := [mk_frame false 96 1 None [9; 7]; mk_frame true 0 9 None [5]; mk_frame false 0 0 None (bs "he"); mk_frame true 0 0 None (bs "llo"); mk_frame true 96 1 None [9; 7; 65]].
Example C90_frames_ex : exists w, Forall2 wire z_frames w /\ receivable (fun _ => true) false z_frames (List.concat w) /\
  seen (fst (run_x Z z_in (fun _ => true) false 96 (start [RData (firstn 6 (List.concat w)); RIdle; RData (skipn 6 (List.concat w))], z_list) (repeat quiet 9))) =
    [SSend 10 [5]; SMsg 1 96 (bs "hello")].
Proof.
  exists [[97; 2; 9; 7]; [137; 1; 5]; [0; 2; 104; 101]; [128; 3; 108; 108; 111]; [225; 3; 9; 7; 65]].
  assert (W : Forall2 wire z_frames [[97; 2; 9; 7]; [137; 1; 5]; [0; 2; 104; 101]; [128; 3; 108; 108; 111]; [225; 3; 9; 7; 65]]).
  { unfold z_frames. repeat constructor. }
  split; [exact W|]. split; [|vm_compute; reflexivity].
  exists [[97; 2; 9; 7]; [137; 1; 5]; [0; 2; 104; 101]; [128; 3; 108; 108; 111]; [225; 3; 9; 7; 65]], []. split; [exact W|]. split; [rewrite app_nil_r; reflexivity|]. split; [left; reflexivity|].
  unfold z_frames. repeat constructor; cbn; try lia; try discriminate; try (exists 6; lia); try (exists 0; lia).
Qed.

Print Assumptions C90_extension_error.
Print Assumptions C90_frames.
