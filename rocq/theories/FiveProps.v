(** C133: the messages of the manager callbacks of the websocket example arrive. *)
From Coq Require Import String ZArith Bool List Lia.
From Verif Require Import Base BaseFacts Utf8Model Utf8Spec Utf8Proofs WsFrameModel WsRecvModel WsSpec WsFrameProofs WsRecvSpec WsRecvProofs WsProps WsSendModel WsSendSpec WsSendProps ExtModel TokenModel TalkModel TalkSpec TalkProofs.
From Verif Require Import FiveModel FiveSpec FiveProofs.
Import ListNotations.
Open Scope Z_scope.

Lemma line_ok : forall who, In who [bs "server"; bs "client"] -> bytes (bs "Message without fragmentation from " ++ who) /\ utf8_text (bs "Message without fragmentation from " ++ who) /\ bytes (bs "Message with fragmentation from " ++ who).
Proof.
  intros who [<-|[<-|[]]]; (split; [repeat constructor; vm_compute; intuition discriminate|split; [|repeat constructor; vm_compute; intuition discriminate]]);
    (apply utf8_valid_spec; [repeat constructor; vm_compute; intuition discriminate|vm_compute; reflexivity]).
Qed.
Lemma shorter : forall server ch a b, fortunate server ch a -> (length b <= length a)%nat -> fortunate server ch b.
Proof. intros server ch a b (W & L & R) LE. split; [exact W|]. split; [lia|exact R]. Qed.

(** C133, the part that holds. The callback of a server for a browser (the header User-Agent is not that of ulfius), without extensions; the socket takes the bytes of each message in pieces of any size. Whatever
    waits end early or find the websocket closed: every call returns U_OK, and when what went out arrives, in pieces of any size and with any pauses, the other side notices the messages whose turn came, in order, the
    data messages unchanged and the ping answered. *)
Theorem C133_browser_partial : forall C out_perform alloc_ok server dumps who text t1 t2 t3 t4, (forall n, alloc_ok n = true) -> In who [bs "server"; bs "client"] ->
  dumps (JObj [(bs "send", JStr (bs "JSON message without fragmentation"))]) = Some text -> bytes text -> utf8_text text -> zlen text < 4294967296 ->
  Forall (fun t => fst t = true -> fortunate server (snd t) (bs "Message without fragmentation from " ++ who) /\ fortunate server (snd t) text) [t1; t2; t3; t4] ->
  exists w rs pieces, manage C out_perform alloc_ok server dumps true [] (callback who false) [t1; t2; t3; t4] = Ret (rs, pieces) /\ Forall (fun r => r = U_OK) rs /\ List.concat pieces = block_of w /\
    forall evs, calm evs -> stream evs = w -> eventually alloc_ok (negb server) plain 0 evs (fun s => seen s = shown who text [fst t1; fst t2; fst t3; fst t4]).
Proof.
  intros C out_perform alloc_ok server dumps who text t1 t2 t3 t4 AL W D BT UT LT F. destruct (line_ok who W) as (BL & UL & _).
  assert (LL : zlen (bs "Message without fragmentation from " ++ who) < 4294967296) by (destruct W as [<-|[<-|[]]]; vm_compute; reflexivity).
  repeat match goal with H : Forall _ (_ :: _) |- _ => apply Forall_cons_iff in H; let A := fresh "A" in destruct H as [A H] end.
  destruct (manage_prefix C out_perform alloc_ok server dumps AL (callback who false) [t1; t2; t3; t4]) as (ms & ws & rs & pieces & RS & CC & WW & FF & N & E).
  { unfold callback. cbn [app]. constructor; [|constructor; [|constructor; [|constructor; [|constructor]]]]; intros H; cbn [content unbroken fst snd]; (split; [reflexivity || exact Logic.I|]).
    - split; [|apply (A H)]. split; [exact BL|]. split; [exact LL|]. left. auto.
    - split; [|eapply shorter; [apply (A0 H)|cbn; lia]]. split; [constructor|]. split; [reflexivity|]. right. right. split; [auto|]. discriminate.
    - split; [|apply (A1 H)]. split; [exact BL|]. split; [exact LL|]. right. left. reflexivity.
    - rewrite D. split; [|apply (A2 H)]. split; [exact BT|]. split; [exact LT|]. left. auto. }
  exists (List.concat ws), rs, pieces. split; [|split; [exact RS|split; [exact CC|]]].
  - specialize (E [] []). rewrite !app_nil_r in E. rewrite E. cbn [manage bind fst snd]. now rewrite !app_nil_r.
  - intros evs CA S. destruct (whole_stream alloc_ok (negb server) ms ws evs FF AL WW CA S) as (k & H). exists k. intros is U L. rewrite (H is U L), N.
    unfold reaching, callback, shown. cbn [app combine flat_map map List.concat fst snd content expected]. rewrite D. unfold OP_TEXT, OP_PING, OP_BINARY, expected.
    cbn [Z.eqb Pos.eqb]. destruct (fst t1), (fst t2), (fst t3), (fst t4); cbn [app]; reflexivity.
Qed.

(** the server sends the fragmented message to those whose User-Agent begins like that of ulfius *)
Theorem C133_agent : forall a, to_ulfius a = true <-> exists rest, a = Some (AGENT ++ rest).
Proof.
  intros [a|]; cbn [to_ulfius]; [|split; [discriminate|intros (r & E); discriminate]]. rewrite str_eqb_eq. split.
  - intro E. exists (skipn (length AGENT) a). rewrite <- E at 1. now rewrite firstn_skipn.
  - intros (r & E). assert (X : a = AGENT ++ r) by congruence. rewrite X, firstn_app, Nat.sub_diag, firstn_all, firstn_O, app_nil_r. reflexivity.
Qed.

(** C133, refuted when the fragmented message is sent: by the server to a program that uses ulfius, by the client always. Its first frame has no opcode (see C35_fragmented_refuted), the other side gives up
    the connection when it reads it, and neither this message nor any later one arrives: the ping is not answered, the binary and the JSON message are lost. Whatever happens to the later messages and whatever the
    bytes never written hold. *)
Theorem C133_fragmented_refuted : forall C out_perform alloc_ok server dumps who o1 ch1 ch2 e es turns rs pieces w, (forall n, alloc_ok n = true) -> In who [bs "server"; bs "client"] ->
  (o1 = true -> fortunate server ch1 (bs "Message without fragmentation from " ++ who)) ->
  c_locked ch2 = true -> c_evs ch2 = e :: es -> willing e -> (server = false -> exists key, c_key ch2 = Some key /\ length key = 4%nat /\ bytes key) ->
  manage C out_perform alloc_ok server dumps true [] (callback who true) ((o1, ch1) :: (true, ch2) :: turns) = Ret (rs, pieces) -> fits (List.concat pieces) w ->
  forall evs, calm evs -> stream evs = w -> eventually alloc_ok (negb server) plain 0 evs (fun s => over s /\ seen s = if o1 then [SMsg 1 0 (bs "Message without fragmentation from " ++ who)] else []).
Proof.
  intros C out_perform alloc_ok server dumps who o1 ch1 ch2 e es turns rs pieces w AL W FO LO EV WI KE H FI evs CA S. destruct (line_ok who W) as (BL & UL & BF).
  assert (LL : zlen (bs "Message without fragmentation from " ++ who) < 4294967296) by (destruct W as [<-|[<-|[]]]; vm_compute; reflexivity).
  assert (LF : 5 < zlen (bs "Message with fragmentation from " ++ who) < 4294967296) by (destruct W as [<-|[<-|[]]]; vm_compute; split; reflexivity).
  set (first := IMessage OP_TEXT 0 (bs "Message without fragmentation from " ++ who)).
  destruct (manage_prefix C out_perform alloc_ok server dumps AL [first] [(o1, ch1)]) as (ms & ws & rs1 & pieces1 & RS & CC & WW & FF & N & E).
  { constructor; [|constructor]. intros O1. cbn [fst] in O1. split; [reflexivity|]. cbn [first content fst snd]. split; [|exact (FO O1)]. split; [exact BL|]. split; [exact LL|]. left. auto. }
  change (callback who true) with ([first] ++ IMessage OP_TEXT 5 (bs "Message with fragmentation from " ++ who) :: skipn 2 (callback who true)) in H.
  change ((o1, ch1) :: (true, ch2) :: turns) with ([(o1, ch1)] ++ (true, ch2) :: turns) in H. rewrite E in H. set (rest := skipn 2 (callback who true)) in *. clearbody rest.
  cbn [manage andb send_item] in H.
  destruct (send_fragmented C out_perform alloc_ok server ch2 true false [] OP_TEXT 5 (bs "Message with fragmentation from " ++ who)) as [[[[ret css] conn] l]|] eqn:SF; [|discriminate].
  destruct (fragmented_blank _ _ _ _ _ _ _ _ _ _ _ _ e es AL (or_introl eq_refl) BF (proj2 LF) (conj (eq_refl : 0 < 5) (proj1 LF)) LO EV WI KE SF) as (b0 & t & CB & Z0).
  unfold bind in H at 1. unfold bind in H at 1. cbv beta iota in H.
  destruct (manage C out_perform alloc_ok server dumps conn l rest turns) as [[rs2 p2]|]; [|discriminate]. cbn [bind fst snd] in H. injection H as _ <-.
  rewrite !concat_app, CC, CB in FI. unfold fits in FI. apply Forall2_app_inv_l in FI as (wa & wb & FA & FB & ->). apply fits_block in FA. subst wa.
  cbn [app] in FB. inversion FB as [|? y ? wb' FC FD]. subst. destruct FC as [FC|FC]; [|discriminate]. injection FC as <-.
  destruct (cut_stream alloc_ok (negb server) ms ws FF AL WW (start evs) [] b0 wb') as (k & K); auto.
  exists k. intros is U L. destruct (K is U L) as [I1 SE]. split; [exact I1|]. rewrite SE. cbn [app]. rewrite N. unfold reaching. cbn [combine flat_map fst snd first content]. destruct o1; reflexivity.
Qed.

(** nothing is sent and no call is made once the websocket is closed *)
Theorem C133_closed : forall C out_perform alloc_ok server dumps l items turns, manage C out_perform alloc_ok server dumps false l items turns = Ret ([], []).
Proof. intros C out_perform alloc_ok server dumps l items. induction items as [|i items IH]; intros [|[o ch] turns]; try reflexivity. cbn [manage]. rewrite andb_false_r. apply IH. Qed.

(** ** cases *)
Definition f_chance : chance := mk_chance (repeat (mk_wev WReady (Some 7)) 90) true (Some [9; 8; 7; 6]).
Definition f_dumps (j : json) : option (list Z) := Some (bs "{""send"":""JSON message without fragmentation""}").
Definition f_wire (r : outcome (list Z * list buf)) : list Z := match r with Ret (_, p) => map (fun o => match o with Some b => b | None => 0 end) (List.concat p) | UB _ => [] end.
Notation f_sends who server fragmented turns := (manage unit (fun _ c _ d _ _ => (Some d, c)) (fun _ => true) server f_dumps true [] (callback (bs who) fragmented) (map (fun o => (o, f_chance)) turns)).
Notation f_sees server bytes := (seen (run (fun _ => true) server plain 0 (start [RData (firstn 30 bytes); RIdle; RData (skipn 30 bytes)]) (repeat quiet 12))).
(** a browser that gets everything; one for which the second wait ends early *)
Example C133_ex_browser : f_sees false (f_wire (f_sends "server" true false [true; true; true; true])) = shown (bs "server") (bs "{""send"":""JSON message without fragmentation""}") [true; true; true; true] /\
  f_sees false (f_wire (f_sends "server" true false [true; false; true; true])) =
    [SMsg 1 0 (bs "Message without fragmentation from server"); SMsg 2 0 (bs "Message without fragmentation from server"); SMsg 1 0 (bs "{""send"":""JSON message without fragmentation""}")].
Proof. split; vm_compute; reflexivity. Qed.
(** the client of the example and the server of the example: each sees the first message of the other one only; all calls return U_OK *)
Example C133_ex_fragmented : f_sees true (f_wire (f_sends "client" false true [true; true; true; true; true])) = [SMsg 1 0 (bs "Message without fragmentation from client")] /\
  f_sees false (f_wire (f_sends "server" true (to_ulfius (Some (AGENT ++ bs "/2.7.16"))) [true; true; true; true; true])) = [SMsg 1 0 (bs "Message without fragmentation from server")] /\
  match f_sends "client" false true [true; true; true; true; true] with Ret (rs, _) => rs = [0; 0; 0; 0; 0] | UB _ => False end /\ to_ulfius (Some (bs "Mozilla/5.0")) = false /\ to_ulfius None = false.
Proof. split; [vm_compute; reflexivity|]. split; [vm_compute; reflexivity|]. split; [vm_compute; reflexivity|]. split; vm_compute; reflexivity. Qed.
Example C133_ex_hyps : fortunate false f_chance (bs "Message without fragmentation from client") /\ fortunate true f_chance (bs "{""send"":""JSON message without fragmentation""}") /\ bytes (bs "{""send"":""JSON message without fragmentation""}") /\
  utf8_text (bs "{""send"":""JSON message without fragmentation""}").
Proof.
  assert (FO : forall server d, (length d <= 76)%nat -> fortunate server f_chance d).
  { intros server d L. split; [apply Forall_forall; intros e I; apply repeat_spec in I; subst; split; [reflexivity|exists 7; split; [reflexivity|lia]]|].
    split; [cbn; lia|]. split; [reflexivity|]. intros _. exists [9; 8; 7; 6]. repeat split; repeat constructor; lia. }
  split; [apply FO; vm_compute; lia|]. split; [apply FO; vm_compute; lia|]. assert (B : bytes (bs "{""send"":""JSON message without fragmentation""}")) by (repeat constructor; vm_compute; intuition discriminate).
  split; [exact B|]. apply utf8_valid_spec; [exact B|vm_compute; reflexivity].
Qed.

Print Assumptions C133_browser_partial.
Print Assumptions C133_agent.
Print Assumptions C133_closed.
Print Assumptions C133_fragmented_refuted.
