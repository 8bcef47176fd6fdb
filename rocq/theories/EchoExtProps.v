(** C125: the echo server with extensions. *)
From Coq Require Import String ZArith Bool List Lia.
From Verif Require Import Base BaseFacts Utf8Spec WsFrameModel WsRecvModel WsSpec WsRecvSpec WsRecvProofs WsProps WsSendModel WsSendSpec ExtModel ExtSpec ExtProps TalkModel TalkSpec TalkProofs TalkProps
  TalkExtModel TalkExtSpec TalkExtProofs TalkExtProps PropModel EchoModel EchoProps.
From Verif Require Utf8Proofs.
Import ListNotations.
Open Scope Z_scope.

(** two sides that have agreed on extensions for one way: each function of the receiver undoes the one of the sender, the bits are apart and expected *)
Definition agreed (C : Type) (out_perform in_perform : Z -> C -> Z -> list Z -> Z -> Z -> option (list Z) * C) (rx : Z) (sender receiver : list (ext C)) : Prop :=
  Forall2 (paired C out_perform in_perform) sender receiver /\ bits_apart C sender /\ Forall (fun e => e_in_data e = e_out_data e) receiver /\
  (forall e, In e sender -> (exists k, 0 <= k < 8 /\ e_rsv e = 16 * k) /\ (e_enabled e = true -> Z.land rx (e_rsv e) = e_rsv e)).

Lemma replies_bare : forall s, replies s = map (fun i => match i with SMsg op _ d => (op, d) | SSend op d => (op, d) end) (map bare (seen s)).
Proof. intros s. rewrite replies_seen, map_map. apply map_ext. intros [op r d|op d]; reflexivity. Qed.

(** C125. The same with extensions on both ways, as callback_websocket_echo installs one (/repo/example_programs/websocket_example/websocket_server.c:302): the client hears its own messages,
    whatever the extensions make of them in between. The extensions of the two ways are two lists, because what an extension keeps for sending (the deflate stream) is apart from what it
    keeps for receiving (the inflate stream, /repo/src/u_websocket.c:1980-1989 and 2075-2083). *)
Theorem C125_extensions_partial : forall C out_perform in_perform alloc_ok rx rx2 exts exts' back back' l enc, (forall n, alloc_ok n = true) ->
  agreed C out_perform in_perform rx exts exts' -> agreed C out_perform in_perform rx2 back back' ->
  encoded C out_perform exts (map (fun x => (snd (fst x), snd x)) l) enc ->
  Forall2 (fun x p => sendable (snd (fst x)) (snd x) /\ bytes (snd p) /\ zlen (snd p) < 4294967296 /\ fortunate false (fst (fst x)) (snd p)) l enc ->
  exists w pieces, send_all C out_perform alloc_ok false true exts l = Ret (map (fun _ => U_OK) l, pieces) /\ List.concat pieces = block_of w /\
    forall evs, calm evs -> stream evs = w -> exists k, forall is, Forall undisturbed is -> (k <= length is)%nat ->
      let s := fst (run_x C in_perform alloc_ok true rx (start evs, exts') is) in
      forall chs enc2, length chs = length (replies s) -> encoded C out_perform back (replies s) enc2 ->
      Forall2 (fun ch p => bytes (snd p) /\ zlen (snd p) < 4294967296 /\ fortunate true ch (snd p)) chs enc2 ->
      exists w2 pieces2, send_all C out_perform alloc_ok true true back (with_chances chs (replies s)) = Ret (map (fun _ => U_OK) (with_chances chs (replies s)), pieces2) /\ List.concat pieces2 = block_of w2 /\
        forall evs2, calm evs2 -> stream evs2 = w2 -> exists k2, forall is2, Forall undisturbed is2 -> (k2 <= length is2)%nat ->
          map bare (seen (fst (run_x C in_perform alloc_ok false rx2 (start evs2, back') is2))) = spoken l.
Proof.
  intros C out_perform in_perform alloc_ok rx rx2 exts exts' back back' l enc AL (P & A & UD & BI) (P2 & A2 & UD2 & BI2) EN F.
  destruct (C90_extensions C out_perform in_perform alloc_ok false rx exts exts' l enc AL P A UD BI EN F) as (ws & pieces & S & CC & _ & R).
  assert (SA : forall x, In x l -> sendable (snd (fst x)) (snd x)).
  { clear -F. induction F as [|x p l enc (X & _) F IH]; intros y I; [destruct I|]. destruct I as [<-|I]; auto. }
  exists (List.concat ws), pieces. split; [exact S|]. split; [exact CC|]. intros evs CA ST. destruct (R evs CA ST) as (k & H). exists k. intros is UN LE s chs enc2 LC EN2 F2.
  specialize (H is UN LE). cbn [negb] in H. fold s in H.
  assert (RE : replies s = flat_map (fun x => if snd (fst x) =? 9 then [(10, snd x)] else if snd (fst x) =? 10 then [] else [(snd (fst x), snd x)]) l).
  { rewrite replies_bare, H. clear. induction l as [|[[ch op] d] l IH]; [reflexivity|]. cbn [flat_map fst snd]. rewrite map_app, IH. f_equal. unfold expected. destruct (op =? 9); [reflexivity|]. destruct (op =? 10); reflexivity. }
  assert (SR : Forall (fun p => sendable (fst p) (snd p)) (replies s)).
  { apply Forall_forall. intros [op d] I. rewrite RE in I. apply in_flat_map in I as ([[c o] x] & I & E). cbn [fst snd] in E |- *. destruct (SA _ I) as (B & L & SE). cbn [fst snd] in B, L, SE.
    destruct (Z.eqb_spec o 9) as [->|N9].
    - destruct E as [[= <- <-]|[]]. split; [exact B|]. split; [exact L|]. destruct SE as [[? _]|[?|[_ SE]]]; [lia|lia|right; right; split; [now right|exact SE]].
    - destruct (Z.eqb_spec o 10) as [->|N10]; [destruct E|]. destruct E as [[= <- <-]|[]]. split; [exact B|]. split; [exact L|exact SE]. }
  destruct (C90_extensions C out_perform in_perform alloc_ok true rx2 back back' (with_chances chs (replies s)) enc2 AL P2 A2 UD2 BI2) as (ws2 & pieces2 & S2 & CC2 & _ & R2).
  { rewrite combine_second by exact LC. exact EN2. }
  { clear -SR LC F2. generalize dependent (replies s). revert F2. induction 1 as [|ch p chs enc2 (X1 & X2 & X3) F2 IH]; intros [|[o d] r] LC SR; try discriminate LC; [constructor|].
    inversion SR as [|? ? Y SR']; subst. cbn [with_chances combine map fst snd]. constructor; [cbn [fst snd] in Y |- *; auto|]. apply IH; [now injection LC|exact SR']. }
  exists (List.concat ws2), pieces2. split; [exact S2|]. split; [exact CC2|]. intros evs2 CA2 ST2. destruct (R2 evs2 CA2 ST2) as (k2 & H2). exists k2. intros is2 UN2 LE2. specialize (H2 is2 UN2 LE2). cbn [negb] in H2. rewrite H2.
  assert (E : flat_map (fun x => expected (snd (fst x)) (snd x)) (with_chances chs (replies s)) = flat_map (fun p => expected (fst p) (snd p)) (replies s)).
  { rewrite <- (combine_second chs (replies s) LC) at 2. rewrite flat_map_concat_map, flat_map_concat_map, map_map. reflexivity. }
  rewrite E, RE. clear - SA. unfold spoken. induction l as [|[[ch op] d] l IH]; [reflexivity|]. cbn [flat_map fst snd]. rewrite flat_map_app, IH by (intros x I; apply SA; now right). f_equal.
  destruct (SA (ch, op, d) (or_introl eq_refl)) as (_ & _ & SE). cbn [fst snd] in SE. destruct SE as [[-> _]|[->|[[->| ->] _]]]; reflexivity.
Qed.

(** ** a case: the extensions of TalkExtProps on both ways, the numbers of the way back starting at 3 *)
Definition x_back := [mk_ext 64 true (Some 1) 0 (Some 1) 0 3; mk_ext 32 true (Some 2) 9 (Some 2) 9 0].
Definition x_wire : list Z := match send_all Z z_out (fun _ => true) false true z_list e_said with Ret (_, p) => all_bytes p | UB _ => [] end.
Definition x_server : wst := fst (run_x Z z_in (fun _ => true) true 96 (start [RData (firstn 4 x_wire); RIdle; RData (skipn 4 x_wire)], z_list) (repeat quiet 9)).
Definition x_wire_back : list Z := match send_all Z z_out (fun _ => true) true true x_back (with_chances [e_chance; e_chance; e_chance] (replies x_server)) with Ret (_, p) => all_bytes p | UB _ => [] end.
Example C125_extensions_ex : replies x_server = [(1, bs "hello"); (10, [7; 8]); (2, [0; 255])] /\
  seen (fst (run_x Z z_in (fun _ => true) false 96 (start [RData x_wire_back], x_back) (repeat quiet 9))) = [SMsg 1 96 (bs "hello"); SMsg 2 96 [0; 255]].
Proof. split; vm_compute; reflexivity. Qed.
Example C125_extensions_ex_agreed : agreed Z z_out z_in 96 z_list z_list /\ agreed Z z_out z_in 96 x_back x_back.
Proof.
  destruct C90_extensions_hyps as (P & A & UD & BI & _). split; [repeat split; try assumption; apply BI; assumption|].
  assert (NTH : exists a b c, z_list = [a; b; c] /\ x_back = [set_ctx a 3; c]) by (do 3 eexists; split; reflexivity).
  split; [|split; [|split]].
  - unfold z_list in P. inversion P as [|? ? ? ? P1 P2]; subst. inversion P2 as [|? ? ? ? _ P3]; subst. inversion P3 as [|? ? ? ? P4 _]; subst.
    constructor; [|constructor; [exact P4|constructor]].
    split; [reflexivity|split; [reflexivity|split; [discriminate|]]]. intros _ f [= <-]. exists 1, eq. split; [reflexivity|]. split; [|reflexivity].
    intros s r op d fr x s' -> H. unfold z_out in H. change (1 =? 1) with true in H. cbv iota in H. injection H as <- <-. exists (r + 1). split; auto.
    unfold z_in. change (1 =? 1) with true. cbv iota. now rewrite Z.eqb_refl.
  - unfold x_back. repeat constructor; discriminate.
  - repeat constructor.
  - intros e [<-|[<-|[]]]; (split; [|first [reflexivity|discriminate]]); [exists 4|exists 2]; split; try reflexivity; lia.
Qed.

Print Assumptions C125_extensions_partial.
