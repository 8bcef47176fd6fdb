(** What uwsc should do (C116, C117), according to its manual page and its help. *)
From Coq Require Import String ZArith Bool List.
From Verif Require Import Base.
From Verif Require Import UwscModel.
Import ListNotations.
Open Scope Z_scope.

(** ** lines *)
(** a line that can be typed: no newline, no NUL, not the command to leave; 254 characters at most *)
Definition line_ok (l : list Z) : Prop := Forall (fun c => 0 < c < 256 /\ c <> 10) l /\ ~ (exists r, l = 33 :: 113 :: r) /\ (length l <= 254)%nat.
Definition typed (lines : list (list Z)) : list Z := concat (map (fun l => l ++ [10]) lines).
(** the turns of the loop while the websocket is open: it is asked at the end of each turn *)
Fixpoint turns (opens : list bool) : nat := match opens with [] => 0 | true :: r => S (turns r) | false :: _ => 1 end.
(** a regular file: ftell tells how many bytes there are *)
Definition regular (f : file) : Prop := f_told f = zlen (f_bytes f) /\ bytes (f_bytes f) /\ f_told f < two64 - 1.

(** ** options *)
Inductive item := OLog (v : str) | OHeader (k v : str) | OBinary (v : str) | OText (v : str) | ONonInteractive | ONonListening | OFragmentation (v : str) | OProtocol (v : str)
  | OExtensions (v : str) | ONonSecure | OQuiet.
(** the ways to write an option with an argument: -xV, -x V, --name=V, --name V *)
Inductive with_arg (c : Z) (name v : str) : list str -> Prop :=
| wa_attached : v <> [] -> with_arg c name v [[45; c] ++ v]
| wa_next : with_arg c name v [[45; c]; v]
| wa_equal : with_arg c name v [bs "--" ++ name ++ [61] ++ v]
| wa_long : with_arg c name v [bs "--" ++ name; v].
(** without: -x, --name *)
Inductive no_arg (c : Z) (name : str) : list str -> Prop :=
| na_short : no_arg c name [[45; c]]
| na_long : no_arg c name [bs "--" ++ name].
Inductive spelled : item -> list str -> Prop :=
| sp_log : forall v ws, with_arg 111 (bs "output-log-file") v ws -> spelled (OLog v) ws
| sp_header : forall k v ws, ~ In 58 k -> with_arg 120 (bs "add-header") (k ++ [58] ++ v) ws -> spelled (OHeader k v) ws
| sp_binary : forall v ws, with_arg 98 (bs "send-binary-file") v ws -> spelled (OBinary v) ws
| sp_text : forall v ws, with_arg 116 (bs "send-text-file") v ws -> spelled (OText v) ws
| sp_noninteractive : forall ws, no_arg 105 (bs "non-interactive-send") ws -> spelled ONonInteractive ws
| sp_nonlistening : forall ws, no_arg 108 (bs "non-listening") ws -> spelled ONonListening ws
| sp_fragmentation : forall v ws, with_arg 102 (bs "fragmentation") v ws -> spelled (OFragmentation v) ws
| sp_protocol : forall v ws, with_arg 112 (bs "protocol") v ws -> spelled (OProtocol v) ws
| sp_extensions : forall v ws, with_arg 101 (bs "extensions") v ws -> ws <> [[45; 101]; v] -> spelled (OExtensions v) ws
| sp_nonsecure : forall ws, no_arg 115 (bs "non-secure") ws -> spelled ONonSecure ws
| sp_quiet : forall ws, no_arg 113 (bs "quiet") ws -> spelled OQuiet ws.

(** the last value that [f] finds in the items *)
Definition lastly {A} (f : item -> option A) (items : list item) : option A := fold_left (fun a i => match f i with Some v => Some v | None => a end) items None.
Definition asked (f : item -> bool) (items : list item) : bool := existsb f items.
(** the configuration the items ask for *)
Definition meant (items : list item) : uconf :=
  mk_uconf (lastly (fun i => match i with OLog v => Some v | _ => None end) items)
    (lastly (fun i => match i with OBinary v => Some v | _ => None end) items)
    (lastly (fun i => match i with OText v => Some v | _ => None end) items)
    (asked (fun i => match i with ONonInteractive => true | _ => false end) items)
    (asked (fun i => match i with ONonListening => true | _ => false end) items)
    (asked (fun i => match i with OQuiet => true | _ => false end) items)
    (lastly (fun i => match i with OFragmentation v => Some v | _ => None end) items)
    (lastly (fun i => match i with OProtocol v => Some v | _ => None end) items)
    (lastly (fun i => match i with OExtensions v => Some v | _ => None end) items)
    (flat_map (fun i => match i with OHeader k v => [(k, v)] | _ => [] end) items)
    (negb (asked (fun i => match i with ONonSecure => true | _ => false end) items)).
Definition sends_binary (items : list item) : Prop := exists v, In (OBinary v) items.
Definition sends_text (items : list item) : Prop := exists v, In (OText v) items.
(** a word that is not an option *)
Definition plain_word (w : str) : Prop := ~ exists x r, w = 45 :: x :: r.
(** a word that may ask not to check the certificate: the long option or an abbreviation that no other option has, or letters after a single '-' with an s among them *)
Definition insecure_word (w : str) : Prop := (exists p q, w = bs "--" ++ p /\ p ++ q = bs "non-secure" /\ (5 <= length p)%nat) \/ exists x r, w = 45 :: x :: r /\ x <> 45 /\ In 115 (x :: r).
