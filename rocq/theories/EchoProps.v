(** C125: the echo server. *)
From Coq Require Import String ZArith Bool List Lia.
From Verif Require Import Base BaseFacts Utf8Spec WsFrameModel WsRecvModel WsSpec WsRecvSpec WsRecvProofs WsProps WsSendModel WsSendSpec ExtModel TalkModel TalkSpec TalkProofs TalkProps PropModel.
From Verif Require Utf8Proofs.
From Verif Require Import EchoModel.
Import ListNotations.
Open Scope Z_scope.

(** the messages with data of what the client sends: text and binary *)
Definition spoken (l : list (chance * Z * list Z)) : list sitem := flat_map (fun x => if (snd (fst x) =? 1) || (snd (fst x) =? 2) then [SMsg (snd (fst x)) 0 (snd x)] else []) l.

Lemma replies_seen : forall s, replies s = map (fun i => match i with SMsg op _ d => (op, d) | SSend op d => (op, d) end) (seen s).
Proof.
  intros s. unfold replies, seen. induction (w_out s) as [|o l IH]; [reflexivity|]. cbn [flat_map]. rewrite map_app, IH. f_equal. destruct o; reflexivity.
Qed.
Lemma combine_in : forall chs (l : list (Z * list Z)) ch op d, In (ch, op, d) (with_chances chs l) -> In (ch, (op, d)) (combine chs l).
Proof. intros chs l ch op d I. unfold with_chances in I. apply in_map_iff in I as ([c [o x]] & E & I). cbn in E. injection E as -> -> ->. exact I. Qed.
Lemma combine_second : forall (chs : list chance) (l : list (Z * list Z)), length chs = length l -> map (fun x => (snd (fst x), snd x)) (with_chances chs l) = l.
Proof.
  induction chs as [|c chs IH]; intros [|[o d] l] L; try discriminate L; [reflexivity|]. cbn [with_chances combine map fst snd]. f_equal. apply IH. now injection L.
Qed.

(** C125. What a client says to the echo server comes back: whatever text, binary, ping and pong messages it sends, however the bytes are cut on both ways, the server sends one answer for each
    text, binary and ping message, and the client is given its own text and binary messages, unchanged and in order. *)
Theorem C125_echo_partial : forall C out_perform alloc_ok l, (forall n, alloc_ok n = true) ->
  (forall ch opcode data, In (ch, opcode, data) l -> sendable opcode data /\ fortunate false ch data) ->
  exists w pieces, send_all C out_perform alloc_ok false true [] l = Ret (map (fun _ => U_OK) l, pieces) /\ List.concat pieces = block_of w /\
    forall evs, calm evs -> stream evs = w -> eventually alloc_ok true plain 0 evs (fun s =>
      forall chs, length chs = length (replies s) -> (forall ch op d, In (ch, (op, d)) (combine chs (replies s)) -> fortunate true ch d) ->
      exists w2 pieces2, send_all C out_perform alloc_ok true true [] (with_chances chs (replies s)) = Ret (map (fun _ => U_OK) (with_chances chs (replies s)), pieces2) /\ List.concat pieces2 = block_of w2 /\
        forall evs2, calm evs2 -> stream evs2 = w2 -> eventually alloc_ok false plain 0 evs2 (fun c => seen c = spoken l)).
Proof.
  intros C out_perform alloc_ok l AL F. destruct (C90_conversation C out_perform alloc_ok false l AL F) as (w & pieces & S & CC & R). exists w, pieces. split; [exact S|]. split; [exact CC|].
  intros evs CA ST. destruct (R evs CA ST) as (k & H). exists k. intros is UN LE. specialize (H is UN LE). cbn [negb] in H. set (s := run alloc_ok true plain 0 (start evs) is) in *.
  intros chs LC FO. assert (RE : replies s = flat_map (fun x => if snd (fst x) =? 9 then [(10, snd x)] else if snd (fst x) =? 10 then [] else [(snd (fst x), snd x)]) l).
  { rewrite replies_seen, H. clear. induction l as [|[[ch op] d] l IH]; [reflexivity|]. cbn [flat_map fst snd]. rewrite map_app, IH. f_equal. unfold expected. destruct (op =? 9); [reflexivity|]. destruct (op =? 10); reflexivity. }
  destruct (C90_conversation C out_perform alloc_ok true (with_chances chs (replies s)) AL) as (w2 & pieces2 & S2 & CC2 & R2).
  { intros ch op d I. apply combine_in in I. split; [|now apply (FO ch op d)]. apply in_combine_r in I. rewrite RE in I. apply in_flat_map in I as ([[c o] x] & I & E). cbn [fst snd] in E. destruct (F c o x I) as [(B & L & SE) _].
    destruct (Z.eqb_spec o 9) as [->|N9].
    - destruct E as [[= <- <-]|[]]. split; [exact B|]. split; [exact L|]. destruct SE as [[? _]|[?|[_ SE]]]; [lia|lia|right; right; split; [now right|exact SE]].
    - destruct (Z.eqb_spec o 10) as [->|N10]; [destruct E|]. destruct E as [[= <- <-]|[]]. split; [exact B|]. split; [exact L|exact SE]. }
  exists w2, pieces2. split; [exact S2|]. split; [exact CC2|]. intros evs2 CA2 ST2. destruct (R2 evs2 CA2 ST2) as (k2 & H2). exists k2. intros is2 UN2 LE2. specialize (H2 is2 UN2 LE2). cbn [negb] in H2. rewrite H2.
  assert (E : flat_map (fun x => expected (snd (fst x)) (snd x)) (with_chances chs (replies s)) = flat_map (fun p => expected (fst p) (snd p)) (replies s)).
  { rewrite <- (combine_second chs (replies s) LC) at 2. rewrite flat_map_concat_map, flat_map_concat_map, map_map. reflexivity. }
  rewrite E, RE. clear - F. unfold spoken. induction l as [|[[ch op] d] l IH]; [reflexivity|]. cbn [flat_map fst snd]. rewrite flat_map_app, IH by (intros c o x I; apply (F c o x); now right). f_equal.
  destruct (F ch op d (or_introl eq_refl)) as [(_ & _ & SE) _]. destruct SE as [[-> _]|[->|[[->| ->] _]]]; reflexivity.
Qed.

(** C125, refuted: the line that is logged for every message passes data_len, a size_t, where %.*s reads an int: undefined for every message (the same line of the other callback has the cast) *)
Theorem C125_log_refuted : forall m, 0 <= m_rsv m -> 0 <= m_opcode m -> read_log (log_arguments m) = UB BadArgument.
Proof.
  intros m R O. unfold read_log, log_arguments. cbn [va_uint]. destruct (Z.leb_spec 0 (m_rsv m)); [|lia]. cbn [bind snd]. cbn [va_uint]. destruct (Z.leb_spec 0 (m_opcode m)); [|lia]. cbn [bind snd].
  destruct (m_has_mask m); cbn [va_int]; [change (1 <? 2147483648) with true|change (0 <? 2147483648) with true]; cbn [bind snd va_size]; pose proof (zlen_nonneg _ (m_data m)); (destruct (Z.leb_spec 0 (zlen (m_data m))); [|lia]); reflexivity.
Qed.
(** with the cast it is read as it was meant *)
Theorem C125_cast : forall m, zlen (m_data m) < 2147483648 -> read_payload (log_arguments_cast m) = Ret (zlen (m_data m), PMem (block_of (m_data m))).
Proof. intros m B. unfold read_payload, log_arguments_cast. cbn [va_int]. destruct (Z.ltb_spec (zlen (m_data m)) 2147483648); [|lia]. reflexivity. Qed.

(** ** cases *)
Definition e_sock (n : nat) : list wev := repeat (mk_wev WReady (Some 3)) n.
Definition e_chance : chance := mk_chance (e_sock 40) true (Some [1; 2; 3; 250]).
Definition e_said : list (chance * Z * list Z) := [(e_chance, 1, bs "hello"); (e_chance, 9, [7; 8]); (e_chance, 2, [0; 255]); (e_chance, 10, [5])].
Example C125_ex_hyps : forall ch opcode data, In (ch, opcode, data) e_said -> sendable opcode data /\ fortunate false ch data.
Proof.
  assert (FO : forall d, (length d <= 26)%nat -> fortunate false e_chance d).
  { intros d L. split; [apply Forall_forall; intros e I; apply repeat_spec in I; subst; split; [reflexivity|exists 3; split; [reflexivity|lia]]|].
    split; [cbn; lia|]. split; [reflexivity|]. intros _. exists [1; 2; 3; 250]. repeat split; repeat constructor; lia. }
  intros ch opcode data [X|[X|[X|[X|[]]]]]; injection X as <- <- <-; (split; [|apply FO; cbn; lia]); (split; [repeat constructor; lia|]; split; [reflexivity|]).
  - left. split; [reflexivity|]. apply Utf8Proofs.utf8_valid_spec; [repeat constructor; lia|]. vm_compute. reflexivity.
  - right. right. split; [auto|]. discriminate.
  - right. left. reflexivity.
  - right. right. split; [auto|]. discriminate.
Qed.
Definition all_bytes (b : list buf) : list Z := map (fun o => match o with Some z => z | None => 0 end) (List.concat b).
Definition e_wire : list Z := match send_all unit (fun _ c _ d _ _ => (Some d, c)) (fun _ => true) false true [] e_said with Ret (_, p) => all_bytes p | UB _ => [] end.
Definition e_server : wst := run (fun _ => true) true plain 0 (start [RData (firstn 4 e_wire); RIdle; RData (skipn 4 e_wire)]) (repeat quiet 9).
Definition e_back : list Z := match send_all unit (fun _ c _ d _ _ => (Some d, c)) (fun _ => true) true true [] (with_chances [e_chance; e_chance; e_chance] (replies e_server)) with Ret (_, p) => all_bytes p | UB _ => [] end.
Example C125_ex : replies e_server = [(1, bs "hello"); (10, [7; 8]); (2, [0; 255])] /\
  seen (run (fun _ => true) false plain 0 (start [RData e_back]) (repeat quiet 9)) = [SMsg 1 0 (bs "hello"); SMsg 2 0 [0; 255]].
Proof. split; vm_compute; reflexivity. Qed.

Print Assumptions C125_echo_partial.
Print Assumptions C125_log_refuted.
Print Assumptions C125_cast.
