(** C90 and C91: a conversation from the sending program to the receiving one. *)
From Coq Require Import String ZArith Bool List Lia.
From Verif Require Import Base BaseFacts Utf8Model Utf8Spec Utf8Proofs WsFrameModel WsRecvModel WsSpec WsFrameProofs WsRecvSpec WsRecvProofs WsProps WsSendModel WsSendSpec ExtModel TokenModel TalkModel TalkSpec TalkProofs.
Import ListNotations.
Open Scope Z_scope.

(** C90. Text, binary, ping and pong messages sent one after the other without extensions, each with a socket that takes its bytes in pieces of any size: every call returns U_OK, and
    when what went out arrives at the other side, in pieces of any size and with any pauses, the other side notices exactly these messages in this order: data messages are delivered
    unchanged, pings are answered with their data. *)
Theorem C90_conversation : forall C out_perform alloc_ok server l, (forall n, alloc_ok n = true) ->
  (forall ch opcode data, In (ch, opcode, data) l -> sendable opcode data /\ fortunate server ch data) ->
  exists w pieces, send_all C out_perform alloc_ok server true [] l = Ret (map (fun _ => U_OK) l, pieces) /\ List.concat pieces = block_of w /\
    forall evs, calm evs -> stream evs = w -> eventually alloc_ok (negb server) plain 0 evs (fun s => seen s = flat_map (fun x => expected (snd (fst x)) (snd x)) l).
Proof.
  intros C out_perform alloc_ok server l AL F. destruct (send_many C out_perform alloc_ok server l AL) as (ms & ws & pieces & E & CC & W & FF & N).
  { apply Forall_forall. intros [[ch op] d] I. apply F, I. }
  exists (List.concat ws), pieces. split; [exact E|]. split; [exact CC|]. intros evs CA S. rewrite <- N. now apply (whole_stream alloc_ok (negb server) ms ws).
Qed.

(** nothing goes out once the connection is closed *)
Theorem C90_closed : forall C out_perform alloc_ok server l exts, send_all C out_perform alloc_ok server false exts l = Ret (map (fun _ => U_ERROR_PARAMS) l, []).
Proof.
  intros C out_perform alloc_ok server l exts. induction l as [|[[ch op] d] l IH]; [reflexivity|]. cbn [send_all]. unfold send_message at 1, send_fragmented. unfold bind at 1. cbv beta iota.
  rewrite IH. reflexivity.
Qed.

(** C90, refuted for messages of 2^32 bytes or more sent by a client: the first call does not return *)
Theorem C90_endless_refuted : forall C out_perform alloc_ok ch key data l, (forall n, alloc_ok n = true) -> c_locked ch = true -> c_key ch = Some key -> length key = 4%nat -> bytes key -> bytes data ->
  4294967296 <= zlen data < 2 ^ 63 -> send_all C out_perform alloc_ok false true [] ((ch, 2, data) :: l) = UB Endless.
Proof.
  intros C out_perform alloc_ok ch key data l AL LK KE K4 KB DB L. cbn [send_all]. unfold send_message, send_fragmented. change (2 =? OP_PING) with false. cbn [andb].
  unfold out_message. rewrite AL. cbn [negb]. rewrite andb_false_r. change (zlen (@nil (ext C)) =? 0) with true. cbv beta iota delta [negb andb].
  change (U_OK =? U_OK) with true. cbv iota. unfold built. rewrite KE. cbv iota beta. set (m := mk_wmsg 2 0 false true key data 0).
  assert (BM : build_message 2 0 true key data = Some m) by reflexivity. rewrite BM. unfold send_managed. rewrite LK. change (m_data m) with data.
  replace (zlen data =? 0) with false by (symmetry; apply Z.eqb_neq; lia).
  destruct (length data) as [|k] eqn:LD; [unfold zlen in L; rewrite LD in L; cbn in L; lia|]. cbn [send_loop]. change (m_data m) with data.
  replace (0 <? zlen data) with true by (symmetry; apply Z.ltb_lt; lia). rewrite Z.sub_0_r, Z.ltb_irrefl. change (0 =? 0) with true. cbv iota.
  assert (E := C34_masked_endless_refuted m). change (m_data m) with data in E. rewrite E; [reflexivity| |reflexivity|exact L].
  split; [cbn; lia|]. split; [exists 0; cbn; lia|]. split; [exact DB|]. intros _. split; assumption.
Qed.
Example C90_endless_hyps : exists data, bytes data /\ zlen data = 4294967296.
Proof.
  exists (repeat 0 (Z.to_nat 4294967296)). split; [apply Forall_forall; intros x I; apply repeat_spec in I; subst; lia|]. unfold zlen. rewrite repeat_length. apply Z2Nat.id. discriminate.
Qed.

(** the values that the receiving program reads from the messages it is given *)
Definition values (loadb : list Z -> option json) (s : wst) : list (option json) := flat_map (fun o => match o with Deliver m => [parse_json loadb (Some m)] | _ => [] end) (w_out s).
Lemma values_seen : forall loadb os js ts, Forall2 (fun j t => t <> [] /\ loadb t = Some j) js ts -> flat_map view os = map (SMsg 1 0) ts ->
  flat_map (fun o => match o with Deliver m => [parse_json loadb (Some m)] | _ => [] end) os = map Some js.
Proof.
  intros loadb os. induction os as [|o os IH]; intros js ts F E.
  - destruct ts; [|discriminate]. inversion F. reflexivity.
  - cbn [flat_map] in E |- *. destruct o as [m|op d|m|]; cbn [view app] in E |- *.
    + destruct ts as [|t ts]; [discriminate|]. inversion F as [|j ? js' ? [NE LB] F']; subst. cbn [map] in E |- *. injection E as E1 E2 E3 E4.
      f_equal; [|exact (IH js' ts F' E4)]. unfold parse_json. rewrite E1, E3. cbn [Z.eqb Pos.eqb OP_TEXT orb andb]. destruct t as [|x t]; [contradiction|]. exact LB.
    + destruct ts; [discriminate|]. cbn in E. discriminate.
    + exact (IH js ts F E).
    + exact (IH js ts F E).
Qed.

(** C91. JSON values sent with ulfius_websocket_send_json_message are what ulfius_websocket_parse_json_message gives on the other side, in this order. *)
Theorem C91_json_conversation : forall C out_perform alloc_ok server dumps loadb l, (forall n, alloc_ok n = true) ->
  (forall ch j, In (ch, j) l -> exists t, printable dumps loadb j t /\ fortunate server ch t) ->
  exists w pieces, send_all_json C out_perform alloc_ok server dumps true [] l = Ret (map (fun _ => U_OK) l, pieces) /\ List.concat pieces = block_of w /\
    forall evs, calm evs -> stream evs = w -> eventually alloc_ok (negb server) plain 0 evs (fun s => values loadb s = map (fun x => Some (snd x)) l).
Proof.
  intros C out_perform alloc_ok server dumps loadb l AL F. set (text := fun x : chance * json => match dumps (snd x) with Some t => t | None => [] end).
  set (l2 := map (fun x => (fst x, 1, text x)) l).
  assert (E : send_all_json C out_perform alloc_ok server dumps true [] l = send_all C out_perform alloc_ok server true [] l2).
  { unfold l2, text. clear. generalize true at 1 2. generalize (@nil (ext C)). induction l as [|[ch j] l IH]; intros es b; [reflexivity|]. cbn [send_all_json send_all map fst snd].
    unfold send_json. change OP_TEXT with 1. destruct (send_message _ _ _ _ _ _ _ _ _ _) as [[[[ret css] c2] l2]|k]; [|reflexivity]. unfold bind at 1 3. rewrite IH. reflexivity. }
  destruct (C90_conversation C out_perform alloc_ok server l2 AL) as (w & pieces & S & CC & R).
  { intros ch op d I. apply in_map_iff in I as ([ch' j] & X & I). destruct (F ch' j I) as (t & (D & NE & LB & B & U & L) & FO). unfold text in X. cbn [fst snd] in X. rewrite D in X.
    injection X as <- <- <-. split; [|exact FO]. split; [exact B|]. split; [exact L|]. left. auto. }
  exists w, pieces. rewrite E. split; [rewrite S; unfold l2; now rewrite map_map|]. split; [exact CC|]. intros evs CA ST. destruct (R evs CA ST) as (k & H). exists k. intros is UN LE. specialize (H is UN LE). cbn beta in H.
  unfold values. transitivity (map Some (map snd l)); [|now rewrite map_map]. apply values_seen with (ts := map text l).
  - clear -F. assert (G : forall x, In x l -> exists t, dumps (snd x) = Some t /\ t <> [] /\ loadb t = Some (snd x)).
    { intros [ch j] I. destruct (F ch j I) as (t & (D & NE & LB & _) & _). eauto. }
    clear F. induction l as [|x l IH]; [constructor|]. cbn [map]. constructor; [|apply IH; intros y I; apply G; right; exact I].
    destruct (G x (or_introl eq_refl)) as (t & D & NE & LB). unfold text. rewrite D. auto.
  - unfold seen in H. rewrite H. unfold l2. clear. induction l as [|x l IH]; [reflexivity|]. cbn [map flat_map fst snd]. rewrite IH. reflexivity.
Qed.

(** only non-empty text and binary messages are parsed, and they are parsed as a whole *)
Theorem C91_parsed : forall loadb m j, parse_json loadb m = Some j <-> exists w, m = Some w /\ (m_opcode w = 1 \/ m_opcode w = 2) /\ m_data w <> [] /\ loadb (m_data w) = Some j.
Proof.
  intros loadb m j. unfold parse_json. destruct m as [w|]; [|split; [discriminate|intros (w & X & _); discriminate]]. change OP_TEXT with 1. change OP_BINARY with 2. split.
  - intros H. exists w. split; [reflexivity|]. destruct (Z.eqb_spec (m_opcode w) 1), (Z.eqb_spec (m_opcode w) 2); cbn [orb andb] in H; try discriminate;
      destruct (Z.eqb_spec (zlen (m_data w)) 0) as [|Z0]; cbn [negb] in H; try discriminate; (split; [auto|]); (split; [|exact H]); intros X; rewrite X in Z0; now apply Z0.
  - intros (v & X & O & NE & LB). assert (v = w) as -> by congruence. replace ((m_opcode w =? 1) || (m_opcode w =? 2)) with true
      by (symmetry; destruct O as [-> | ->]; reflexivity). destruct (m_data w); [contradiction|]. exact LB.
Qed.

(** without a value nothing is sent, whatever the state of the connection, and the call tells so *)
Theorem C91_no_value : forall C out_perform alloc_ok server dumps ch conn ping l, send_json C out_perform alloc_ok server dumps ch conn ping l None = Ret (U_ERROR_PARAMS, [], conn, l).
Proof. reflexivity. Qed.

(** json_dumps with JSON_COMPACT alone prints arrays and objects only. Any other value (parse_json reads them: JSON_DECODE_ANY) is sent as an empty text message, and U_OK is returned: the receiver gets no value. *)
Theorem C91_scalar_refuted : forall C out_perform alloc_ok server dumps j ch, (forall n, alloc_ok n = true) -> dumps j = None -> fortunate server ch [] ->
  exists w pieces, send_all_json C out_perform alloc_ok server dumps true [] [(ch, j)] = Ret ([U_OK], pieces) /\ List.concat pieces = block_of w /\
    forall loadb evs, calm evs -> stream evs = w -> eventually alloc_ok (negb server) plain 0 evs (fun s => seen s = [SMsg 1 0 []] /\ ~ exists x, In (Some x) (values loadb s)).
Proof.
  intros C out_perform alloc_ok server dumps j ch AL D FO. destruct (C90_conversation C out_perform alloc_ok server [(ch, 1, [])] AL) as (w & pieces & S & CC & R).
  { intros ch' op d [X|[]]. injection X as <- <- <-. split; [|exact FO]. split; [constructor|]. split; [reflexivity|]. left. split; [reflexivity|exists []; split; constructor]. }
  exists w, pieces. split; [cbn [send_all_json]; unfold send_json; rewrite D; exact S|]. split; [exact CC|]. intros loadb evs CA ST. destruct (R evs CA ST) as (k & H). exists k. intros is UN LE.
  specialize (H is UN LE). cbn in H. split; [exact H|]. unfold seen in H. unfold values. revert H. generalize (w_out (run alloc_ok (negb server) plain 0 (start evs) is)). clear. intros os H (x & I).
  apply in_flat_map in I as (o & I & V). destruct o as [m| | |]; try (destruct V; fail). destruct V as [V|[]]. apply C91_parsed in V as (m' & X & _ & NE & _). assert (m' = m) as -> by congruence.
  assert (Y : In (SMsg (m_opcode m) (m_rsv m) (m_data m)) (flat_map view os)) by (apply in_flat_map; exists (Deliver m); split; [exact I|left; reflexivity]).
  rewrite H in Y. destruct Y as [Y|[]]. injection Y as _ _ Y. congruence.
Qed.

(** ** cases *)
Definition ex_sock (n : nat) : list wev := repeat (mk_wev WReady (Some 3)) n.
Definition ex_chance : chance := mk_chance (ex_sock 40) true (Some [1; 2; 3; 250]).
Example C90_ex : exists pieces, send_all unit (fun _ c _ d _ _ => (Some d, c)) (fun _ => true) false true [] [(ex_chance, 1, bs "hello"); (ex_chance, 9, [7; 8]); (ex_chance, 2, []); (ex_chance, 10, [5])] = Ret ([0; 0; 0; 0], pieces) /\
  exists w, List.concat pieces = block_of w /\ seen (run (fun _ => true) true plain 0 (start [RData (firstn 4 w); RIdle; RData (skipn 4 w)]) (repeat quiet 9)) = [SMsg 1 0 (bs "hello"); SSend 10 [7; 8]; SMsg 2 0 []].
Proof. eexists. split; [vm_compute; reflexivity|]. eexists. split; [vm_compute; instantiate (1 := [_;_;_;_;_;_;_;_;_;_;_;_;_;_;_;_;_;_;_;_;_;_;_;_;_;_;_;_;_;_;_;_]); reflexivity|vm_compute; reflexivity]. Qed.
Example C90_ex_hyps : forall ch opcode data, In (ch, opcode, data) [(ex_chance, 1, bs "hello"); (ex_chance, 9, [7; 8])] -> sendable opcode data /\ fortunate false ch data.
Proof.
  assert (FO : forall d, (length d <= 26)%nat -> fortunate false ex_chance d).
  { intros d L. split; [apply Forall_forall; intros e I; apply repeat_spec in I; subst; split; [reflexivity|exists 3; split; [reflexivity|lia]]|].
    split; [cbn; lia|]. split; [reflexivity|]. intros _. exists [1; 2; 3; 250]. repeat split; repeat constructor; lia. }
  intros ch opcode data [X|[X|[]]]; injection X as <- <- <-; (split; [|apply FO; cbn; lia]).
  - split; [repeat constructor; lia|]. split; [reflexivity|]. left. split; [reflexivity|]. apply Utf8Proofs.utf8_valid_spec; [repeat constructor; lia|]. vm_compute. reflexivity.
  - split; [repeat constructor; lia|]. split; [reflexivity|]. right. right. split; [auto|]. discriminate.
Qed.
Definition ex_dumps (j : json) : option (list Z) := match j with JArr [JInt 1] => Some (bs "[1]") | _ => None end.
Definition ex_loadb (t : list Z) : option json := if str_eqb t (bs "[1]") then Some (JArr [JInt 1]) else if str_eqb t (bs "1") then Some (JInt 1) else None.
Example C91_ex : exists pieces w, send_all_json unit (fun _ c _ d _ _ => (Some d, c)) (fun _ => true) true ex_dumps true [] [(ex_chance, JArr [JInt 1]); (ex_chance, JInt 1)] = Ret ([0; 0], pieces) /\
  List.concat pieces = block_of w /\ values ex_loadb (run (fun _ => true) false plain 0 (start [RData w]) (repeat quiet 9)) = [Some (JArr [JInt 1]); None].
Proof. do 2 eexists. split; [vm_compute; reflexivity|]. split; [vm_compute; instantiate (1 := [_;_;_;_;_;_;_]); reflexivity|vm_compute; reflexivity]. Qed.

Print Assumptions C90_conversation.
Print Assumptions C90_closed.
Print Assumptions C90_endless_refuted.
Print Assumptions C91_json_conversation.
Print Assumptions C91_parsed.
Print Assumptions C91_scalar_refuted.
Print Assumptions C91_no_value.
