(** Independent readers of texts on the wire: HTTP messages (RFC 7230) and pairs of a query or a form. *)
From Coq Require Import String ZArith Bool List Lia.
From Verif Require Import Base BaseFacts YuarelSpec YuarelProofs.
Import ListNotations.
Open Scope Z_scope.

(** ** Messages: a start line, fields, an empty line, the rest *)
Definition eol : str := [13; 10].
(** the text before the first CR LF, and the text after it *)
Fixpoint take_line (s : str) : option (str * str) :=
  match s with
  | [] => None
  | c :: r => match (if c =? 13 then match r with d :: r' => if d =? 10 then Some r' else None | [] => None end else None) with
              | Some r' => Some ([], r')
              | None => match take_line r with Some (a, b) => Some (c :: a, b) | None => None end
              end
  end.
(** optional blanks around a value *)
Definition blank (c : Z) : bool := (c =? 32) || (c =? 9).
Fixpoint unblank (s : str) : str := match s with c :: r => if blank c then unblank r else s | [] => [] end.
Definition strip (s : str) : str := rev (unblank (rev (unblank s))).
(** a field is a name, a colon and a value with optional blanks around it *)
Definition read_field (l : str) : option (str * str) :=
  match cut 58 l with (n, Some v) => match n with [] => None | _ => Some (n, strip v) end | _ => None end.
Fixpoint read_fields (fuel : nat) (s : str) : option (list (str * str) * str) :=
  match fuel with
  | O => None
  | S f => match take_line s with
           | None => None
           | Some ([], rest) => Some ([], rest)
           | Some (l, rest) => match read_field l, read_fields f rest with
                               | Some p, Some (fs, body) => Some (p :: fs, body)
                               | _, _ => None
                               end
           end
  end.
(** start line, fields, what follows the empty line *)
Definition read_message (s : str) : option (str * list (str * str) * str) :=
  match take_line s with
  | Some (start, rest) => match read_fields (S (length s)) rest with Some (fs, body) => Some (start, fs, body) | None => None end
  | None => None
  end.

(** ** Pairs *)
Definition hexv (c : Z) : option Z :=
  if (48 <=? c) && (c <=? 57) then Some (c - 48) else if (65 <=? c) && (c <=? 70) then Some (c - 55) else if (97 <=? c) && (c <=? 102) then Some (c - 87) else None.
(** percent decoding; None for an escape that is not one *)
Fixpoint unescape (s : str) : option str :=
  match s with
  | [] => Some []
  | 37 :: a :: b :: r => match hexv a, hexv b, unescape r with Some x, Some y, Some t => Some (16 * x + y :: t) | _, _, _ => None end
  | 37 :: _ => None
  | 43 :: r => option_map (cons 32) (unescape r)
  | c :: r => option_map (cons c) (unescape r)
  end.
(** the texts between separators *)
Fixpoint pieces (sep : Z) (s : str) : list str :=
  match s with
  | [] => [[]]
  | c :: r => if c =? sep then [] :: pieces sep r else match pieces sep r with h :: t => (c :: h) :: t | [] => [[c]] end
  end.
Definition read_pair (s : str) : option (str * option str) :=
  match cut 61 s with
  | (k, None) => option_map (fun k => (k, None)) (unescape k)
  | (k, Some v) => match unescape k, unescape v with Some k, Some v => Some (k, Some v) | _, _ => None end
  end.
Fixpoint all_some {A} (l : list (option A)) : option (list A) :=
  match l with [] => Some [] | Some x :: r => option_map (cons x) (all_some r) | None :: _ => None end.
Definition read_pairs (s : str) : option (list (str * option str)) := all_some (map read_pair (pieces 38 s)).

(** ** Facts about the readers *)
Lemma take_line_intro : forall a r, ~ In 13 a -> take_line (a ++ eol ++ r) = Some (a, r).
Proof.
  induction a as [|c a IH]; intros r N; [reflexivity|]. cbn [app take_line]. destruct (Z.eqb_spec c 13) as [->|]; [exfalso; apply N; now left|].
  rewrite IH by (intros I; apply N; now right). reflexivity.
Qed.

(** no blank at either end *)
Definition tight (s : str) : Prop := hd 0 s <> 32 /\ hd 0 s <> 9 /\ last s 0 <> 32 /\ last s 0 <> 9.
Lemma unblank_id : forall s, hd 0 s <> 32 -> hd 0 s <> 9 -> unblank s = s.
Proof. intros [|c s] A B; [reflexivity|]. cbn [hd] in A, B. cbn [unblank]. unfold blank. destruct (Z.eqb_spec c 32); [congruence|]. destruct (Z.eqb_spec c 9); [congruence|]. reflexivity. Qed.
Lemma hd_rev : forall (s : str), hd 0 (rev s) = last s 0.
Proof. intros s. destruct s as [|c s _] using rev_ind; [reflexivity|]. rewrite rev_app_distr, last_last. reflexivity. Qed.
Lemma strip_tight : forall s, tight s -> strip s = s.
Proof.
  intros s (A & B & C & D). unfold strip. rewrite (unblank_id s A B). rewrite unblank_id by (rewrite hd_rev; assumption). apply rev_involutive.
Qed.
Lemma strip_space : forall s, tight s -> strip (32 :: s) = s.
Proof. intros s T. change (strip (32 :: s)) with (strip s). now apply strip_tight. Qed.
(** the lines written for a name and a value *)
Lemma read_field_intro : forall (n v : str), n <> [] -> ~ In 58 n -> read_field (n ++ 58 :: v) = Some (n, strip v).
Proof. intros n v N I. unfold read_field. rewrite (cut_intro 58 n v I). destruct n; [congruence|reflexivity]. Qed.

(** a line written for a field *)
Definition writes (l : str) (f : str * str) : Prop := ~ In 13 l /\ read_field l = Some f.
Lemma writes_ne : forall l f, writes l f -> l <> [].
Proof. intros l f [_ H] ->. discriminate. Qed.

Lemma read_fields_intro : forall ls fs body fuel, Forall2 writes ls fs -> (length ls < fuel)%nat ->
  read_fields fuel (concat (map (fun l => l ++ eol) ls) ++ eol ++ body) = Some (fs, body).
Proof.
  intros ls fs body fuel F. revert fuel. induction F as [|l f ls fs W F IH]; intros [|fuel] L; cbn [length] in L; try lia.
  - reflexivity.
  - cbn [map concat read_fields]. rewrite <- !app_assoc. pose proof (writes_ne _ _ W). destruct W as [N R]. rewrite take_line_intro by exact N. destruct l as [|c l]; [congruence|].
    rewrite R, IH by lia. reflexivity.
Qed.

Lemma read_message_intro : forall start ls fs body, ~ In 13 start -> Forall2 writes ls fs ->
  read_message (start ++ eol ++ concat (map (fun l => l ++ eol) ls) ++ eol ++ body) = Some (start, fs, body).
Proof.
  intros start ls fs body N F. unfold read_message. rewrite take_line_intro by exact N. rewrite (read_fields_intro ls fs body) by (try exact F; rewrite !app_length;
    assert (length ls <= length (concat (map (fun l => l ++ eol) ls)))%nat by (clear; induction ls as [|l ls IH]; [cbn; lia|]; cbn [map concat length]; rewrite !app_length; cbn [eol length]; lia); lia). reflexivity.
Qed.

(** no empty line, no message *)
Lemma take_line_none : forall a, ~ In 13 a -> take_line a = None.
Proof.
  induction a as [|c a IH]; intros N; [reflexivity|]. cbn [take_line]. destruct (Z.eqb_spec c 13) as [->|]; [exfalso; apply N; now left|]. rewrite IH by (intros I; apply N; now right). reflexivity.
Qed.
Lemma read_fields_open : forall ls fs fuel, Forall2 writes ls fs -> read_fields fuel (concat (map (fun l => l ++ eol) ls)) = None.
Proof.
  intros ls fs fuel F. revert fuel. induction F as [|l f ls fs W F IH]; intros [|fuel]; try reflexivity. cbn [map concat read_fields]. rewrite <- app_assoc. pose proof (writes_ne _ _ W). destruct W as [N R].
  rewrite take_line_intro by exact N. destruct l as [|c l]; [congruence|]. rewrite R, IH. reflexivity.
Qed.
Lemma read_message_open : forall start ls fs, ~ In 13 start -> Forall2 writes ls fs -> read_message (start ++ eol ++ concat (map (fun l => l ++ eol) ls)) = None.
Proof. intros start ls fs N F. unfold read_message. rewrite take_line_intro by exact N. now rewrite (read_fields_open ls fs _ F). Qed.

Lemma pieces_nosep : forall sep s, ~ In sep s -> pieces sep s = [s].
Proof.
  induction s as [|c s IH]; intros N; [reflexivity|]. cbn [pieces]. destruct (Z.eqb_spec c sep) as [->|]; [exfalso; apply N; now left|]. rewrite IH by (intros I; apply N; now right). reflexivity.
Qed.
Lemma pieces_app : forall sep a b, ~ In sep a -> pieces sep (a ++ sep :: b) = a :: pieces sep b.
Proof.
  induction a as [|c a IH]; intros b N; cbn [app pieces]; [now rewrite Z.eqb_refl|]. destruct (Z.eqb_spec c sep) as [->|]; [exfalso; apply N; now left|]. rewrite IH by (intros I; apply N; now right). reflexivity.
Qed.
(** the texts joined by a separator *)
Fixpoint join_with (sep : str) (l : list str) : str := match l with [] => [] | [x] => x | x :: r => x ++ sep ++ join_with sep r end.
Lemma pieces_join : forall sep l, l <> [] -> Forall (fun s => ~ In sep s) l -> pieces sep (join_with [sep] l) = l.
Proof.
  intros sep l N F. induction F as [|x l X F IH]; [congruence|]. destruct l as [|y l]; [now apply pieces_nosep|]. cbn [join_with]. cbn [app]. rewrite pieces_app by exact X. f_equal. apply IH. discriminate.
Qed.
