(** The command line client uwsc sends what it is told to send and shows what it gets (C116); its options do what the manual says, whatever their order (C117). *)
From Coq Require Import String ZArith Bool List Lia.
From Verif Require Import Base BaseFacts ExportModel.
From Verif Require Import UwscModel UwscSpec UwscProofs.
Import ListNotations.
Open Scope Z_scope.

(** ** C116 *)
(** C116, partial: the lines typed are sent as text messages, each without its newline, in their order, as long as the websocket is open, for lines of at most 254 characters that do not begin with "!q" and end with a
    newline. Missing: longer lines, other lines that begin with "!q", a last line without newline, the end of the input (all refuted below). *)
Theorem C116_lines_partial : forall opens lines rest, Forall line_ok lines -> (turns opens <= length lines)%nat ->
  talk opens [] (typed lines ++ rest) = (map (Sent 1) (firstn (turns opens) lines), existsb negb opens, typed (skipn (turns opens) lines) ++ rest).
Proof. intros opens lines rest F L. now apply talk_lines. Qed.
(** the line "!q" sends a close message after the lines before it, and ends the loop *)
Theorem C116_quit : forall lines rest more, Forall line_ok lines ->
  talk (repeat true (length lines) ++ true :: more) [] (typed lines ++ typed [bs "!q"] ++ rest) = (map (Sent 1) lines ++ [Closing], true, rest).
Proof. intros lines rest more F. exact (talk_quit lines [] [] rest more F (Forall_nil _) (Nat.le_0_l _)). Qed.
(** C116, partial: a file is sent as one message with exactly its bytes, of the kind asked for, before the lines; for a regular file that is not empty and does not change. Missing: other files ([C116_pipe_refuted],
    [C116_shrinks_refuted]; of an empty file nothing is sent). *)
Theorem C116_file_partial : forall alloc_ok files c opens input p f, (forall n, alloc_ok n = true) -> files p = Some f -> regular f -> f_bytes f <> [] ->
  (u_text c = Some p -> manager alloc_ok files c opens input = Ret (Sent 1 (f_bytes f) :: if u_noninteractive c then [] else fst (fst (talk opens [] input)))) /\
  (u_text c = None -> u_bin c = Some p -> manager alloc_ok files c opens input = Ret (Sent 2 (f_bytes f) :: if u_noninteractive c then [] else fst (fst (talk opens [] input)))).
Proof.
  intros alloc_ok files c opens input p f AL FI R N. unfold manager. split; [intros ->|intros -> ->]; rewrite FI, file_sent by assumption; reflexivity.
Qed.
(** of an empty file nothing is sent *)
Theorem C116_empty : forall alloc_ok files c opens input p, (u_text c = Some p \/ u_text c = None /\ u_bin c = Some p) -> files p = Some (mk_file 0 []) ->
  manager alloc_ok files c opens input = Ret (if u_noninteractive c then [] else fst (fst (talk opens [] input))).
Proof.
  intros alloc_ok files c opens input p H F. assert (E : forall o, send_file alloc_ok (files p) o = Ret []) by (intros o; rewrite F; unfold send_file, read_file; cbn [f_told f_bytes]; destruct (alloc_ok (add64 0 1)); reflexivity).
  unfold manager. destruct H as [->|[-> ->]]; rewrite E; reflexivity.
Qed.
(** no file, or none that can be opened or read into memory: only the lines are sent *)
Theorem C116_no_file : forall alloc_ok files c opens input, (forall p, u_text c = Some p \/ u_bin c = Some p -> match files p with Some f => alloc_ok (add64 (f_told f) 1) = false | None => True end) ->
  manager alloc_ok files c opens input = Ret (if u_noninteractive c then [] else fst (fst (talk opens [] input))).
Proof.
  intros alloc_ok files c opens input H. unfold manager. destruct (u_text c) as [p|] eqn:T; [|destruct (u_bin c) as [p|] eqn:B; [|reflexivity]]; specialize (H p); unfold send_file, read_file; (destruct (files p) as [f|]; [rewrite H by auto|]; reflexivity).
Qed.
(** C116, partial: in quiet mode a text message is shown as it is, between two backspaces and a newline. Missing: texts with a NUL ([C116_nul_refuted]) and those of 2^31 bytes or more. *)
Theorem C116_shown_partial : forall dec c d rest, u_quiet c = true -> u_nonlistening c = false -> cstr d -> zlen d < 2147483648 ->
  shown dec c 1 (block_of d ++ rest) (zlen d) = Ret ([8; 8] ++ d ++ [10]).
Proof.
  intros dec c d rest Q L F B. assert (P : 0 <= zlen d) by (unfold zlen; lia). unfold shown. rewrite L, Q. change (1 =? 1) with true. cbv iota. unfold print_n. rewrite Z.mod_small by lia.
  replace (zlen d <? 2147483648) with true by (symmetry; apply Z.ltb_lt; exact B). rewrite up_to_text by exact F. reflexivity.
Qed.
Theorem C116_shown_prompt_partial : forall dec c d rest, u_quiet c = false -> u_noninteractive c = false -> u_nonlistening c = false -> cstr d -> zlen d < 2147483648 ->
  shown dec c 1 (block_of d ++ rest) (zlen d) = Ret ([8; 8] ++ bs "Server message: '" ++ d ++ bs "'" ++ [10] ++ bs "> ").
Proof.
  intros dec c d rest Q N L F B. assert (P : 0 <= zlen d) by (unfold zlen; lia). unfold shown. rewrite L, Q, N. change (1 =? 1) with true. cbv iota. unfold print_n. rewrite Z.mod_small by lia.
  replace (zlen d <? 2147483648) with true by (symmetry; apply Z.ltb_lt; exact B). rewrite up_to_text by exact F. reflexivity.
Qed.
(** with --non-listening nothing is shown *)
Theorem C116_silent : forall dec c opcode b len, u_nonlistening c = true -> shown dec c opcode b len = Ret [].
Proof. intros dec c opcode b len L. unfold shown. now rewrite L. Qed.

Example C116_lines_hyps : Forall line_ok [bs "hello"; []; bs "it is !quiet"] /\ talk [true; true; false; true] [] (typed [bs "hello"; []; bs "it is !quiet"] ++ bs "x") = ([Sent 1 (bs "hello"); Sent 1 []; Sent 1 (bs "it is !quiet")], true, bs "x").
Proof.
  split; [|vm_compute; reflexivity].
  assert (Q : forall l : list Z, forallb (fun c => (0 <? c) && (c <? 256) && negb (c =? 10)) l = true -> Forall (fun c => 0 < c < 256 /\ c <> 10) l)
    by (intros l H; rewrite forallb_forall in H; apply Forall_forall; intros x X; specialize (H x X); apply andb_true_iff in H as [H N]; apply andb_true_iff in H as [H1 H2]; apply Z.ltb_lt in H1, H2; apply negb_true_iff, Z.eqb_neq in N; lia).
  repeat apply Forall_cons; try apply Forall_nil; (split; [apply Q; reflexivity|]; split; [intros (r & H); vm_compute in H; discriminate|cbn; lia]).
Qed.
Example C116_file_hyps : regular (mk_file 3 [0; 255; 10]) /\ manager (fun _ => true) (fun p => if str_eqb p (bs "a.bin") then Some (mk_file 3 [0; 255; 10]) else None)
  (meant [OBinary (bs "a.bin")]) [true; true] (typed [bs "hi"; bs "!q"]) = Ret [Sent 2 [0; 255; 10]; Sent 1 (bs "hi"); Closing].
Proof. split; [|vm_compute; reflexivity]. split; [reflexivity|]. split; [|reflexivity]. repeat constructor; cbn; lia. Qed.
Example C116_shown_hyps : shown (fun _ => bs "5") (meant [OQuiet]) 1 (block_of (bs "hello")) 5 = Ret ([8; 8] ++ bs "hello" ++ [10]) /\ shown (fun _ => bs "5") (meant []) 2 (block_of (bs "hello")) 5 = Ret ([8; 8] ++ bs "Server sent binary message, length 5" ++ [10] ++ bs "> ").
Proof. split; vm_compute; reflexivity. Qed.

(** uwsc says that messages may have 256 characters (uwsc.c:400), but fgets reads 255 and the last character read is taken for the newline (uwsc.c:137, 151): of a line of 255 characters all but the last one are sent, then an
    empty message; of a longer line, one character out of 255 is lost and the rest is sent as a message of its own. *)
Theorem C116_long_refuted : exists lines, Forall (fun l => Forall (fun c => 0 < c < 256 /\ c <> 10) l /\ (length l <= 256)%nat) lines /\
  talk [true; true] [] (typed lines) = ([Sent 1 (repeat 97 254); Sent 1 []], false, []) /\ lines = [repeat 97 255].
Proof.
  exists [repeat 97 255]. split; [|split; [vm_compute; reflexivity|reflexivity]]. constructor; [|constructor]. split; [|rewrite repeat_length; lia]. apply Forall_forall. intros c I. apply repeat_spec in I. subst c. lia.
Qed.
(** Any line that begins with "!q" ends uwsc, not only the line "!q" (uwsc.c:139, 157): "!quote of the day" is not sent, the websocket is closed. *)
Theorem C116_quote_refuted : exists l, l <> bs "!q" /\ talk [true; true] [] (typed [l; bs "next"]) = ([Closing], true, typed [bs "next"]).
Proof. exists (bs "!quote of the day"). split; [discriminate|vm_compute; reflexivity]. Qed.
(** The last character read is always taken for a newline (uwsc.c:151): of an input that does not end with one, as of printf hello piped into uwsc, the last character is not sent. *)
Theorem C116_last_refuted : exists l, talk [true] [] l = ([Sent 1 (bs "hell")], false, []) /\ l = bs "hello".
Proof. exists (bs "hello"). split; [vm_compute|]; reflexivity. Qed.
(** uwsc does not notice the end of its input (uwsc.c:136-157): fgets returns NULL and the loop turns without waiting and without sending anything, as long as the server leaves the websocket open; nothing is
    closed. *)
Theorem C116_end_refuted : forall n, talk (repeat true n) [] [] = ([], false, []).
Proof. intros n. now apply talk_over. Qed.
(** A file that cannot be sought, as a pipe given with -t /dev/stdin or <(command): ftell is -1 (uwsc.c:85), o_malloc gets length + 1, which is 0, and fread is told that there is room for 2^64 - 1 bytes: what the pipe holds
    is written after the end of the block. *)
Theorem C116_pipe_refuted : exists f, f_bytes f = bs "hello" /\ forall opcode, send_file (fun _ => true) (Some f) opcode = UB OutOfBounds.
Proof. exists (mk_file (two64 - 1) (bs "hello")). split; [reflexivity|]. intros opcode. vm_compute. reflexivity. Qed.
(** A file that gets shorter between ftell and fread: the result of fread is only compared with 0 (uwsc.c:92), the length that ftell told is sent, its end comes from memory that was never written. *)
Theorem C116_shrinks_refuted : exists f, f_bytes f = bs "log" /\ forall opcode, send_file (fun _ => true) (Some f) opcode = UB Uninit.
Proof. exists (mk_file 5 (bs "log")). split; [reflexivity|]. intros opcode. vm_compute. reflexivity. Qed.
(** The option -f (--fragmentation) is read (uwsc.c:349) and never used: files and lines are sent with ulfius_websocket_send_message, each in one frame, however small the length asked for. *)
Theorem C116_fragmentation_refuted : exists argv c url e, start_uwsc argv = Goes c url e /\ u_frag c = Some (bs "2") /\
  forall files, manager (fun _ => true) files c [true] (typed [bs "hello"]) = Ret [Sent 1 (bs "hello")].
Proof. exists [bs "--fragmentation=2"; bs "ws://localhost/"]. do 3 eexists. split; [vm_compute; reflexivity|]. split; [reflexivity|]. intros files. vm_compute. reflexivity. Qed.
(** The text of a message is shown with %.*s (uwsc.c:171-174): a text message with a NUL, which is valid UTF-8, is shown up to it. *)
Theorem C116_nul_refuted : exists d, zlen d = 3 /\ shown (fun _ => []) (meant [OQuiet]) 1 (block_of d) 3 = Ret ([8; 8] ++ bs "a" ++ [10]).
Proof. exists [97; 0; 98]. split; [reflexivity|]. vm_compute. reflexivity. Qed.

(** ** C117 *)
(** C117, partial: the options, each written in one of the ways the manual shows and in any order, before or after the url, give the configuration they mean. Missing: -e with its argument in the next word
    ([C117_extension_refuted]), several options after one dash ([C117_together_refuted]), unknown options ([C117_unknown_refuted]). *)
Theorem C117_options_partial : forall items1 items2 ws1 ws2 url, Forall2 spelled items1 ws1 -> Forall2 spelled items2 ws2 -> plain_word url ->
  ~ (sends_binary (items1 ++ items2) /\ sends_text (items1 ++ items2)) ->
  start_uwsc (concat ws1 ++ [url] ++ concat ws2) = Goes (meant (items1 ++ items2)) url
    (match u_exts (meant (items1 ++ items2)) with Some (x :: e) => (x :: e) ++ bs ",permessage-deflate" | _ => bs "permessage-deflate" end).
Proof.
  intros items1 items2 ws1 ws2 url F1 F2 P N. unfold start_uwsc. rewrite (getopt_words _ _ _ _ _ F1 F2 P). pose proof (spelled_keys _ _ (Forall2_app F1 F2)) as K. rewrite apply_items by assumption. reflexivity.
Qed.
(** a binary file and a text file: refused, in whatever order *)
Theorem C117_both : forall items1 items2 ws1 ws2 url, Forall2 spelled items1 ws1 -> Forall2 spelled items2 ws2 -> plain_word url -> sends_binary (items1 ++ items2) -> sends_text (items1 ++ items2) ->
  start_uwsc (concat ws1 ++ [url] ++ concat ws2) = Exits 1.
Proof.
  intros items1 items2 ws1 ws2 url F1 F2 P B T. unfold start_uwsc. rewrite (getopt_words _ _ _ _ _ F1 F2 P). pose proof (spelled_keys _ _ (Forall2_app F1 F2)) as K. rewrite apply_both by assumption. reflexivity.
Qed.
(** no url: refused *)
Theorem C117_no_url : forall items ws, Forall2 spelled items ws -> start_uwsc (concat ws) = Exits 1.
Proof.
  intros items ws F. unfold start_uwsc. pose proof (getopt_items _ _ F []) as G. rewrite app_nil_r in G. rewrite G. cbn [getopt fst snd]. rewrite app_nil_r. pose proof (spelled_keys _ _ F) as K.
  destruct (binary_dec items) as [B|NB]; [destruct (text_dec items) as [T|NT]|]; [now rewrite apply_both|rewrite apply_items by tauto; reflexivity|rewrite apply_items by tauto; reflexivity].
Qed.
(** a header without a colon: refused, whatever follows *)
Theorem C117_header : forall items ws v w rest, Forall2 spelled items ws -> ~ (sends_binary items /\ sends_text items) -> with_arg 120 (bs "add-header") v w -> ~ In 58 v ->
  start_uwsc (concat ws ++ w ++ rest) = Exits 1.
Proof.
  intros items ws v w rest F N W V. unfold start_uwsc. rewrite (getopt_items _ _ F). pose proof (spelled_keys _ _ F) as K.
  assert (G : exists l p, getopt (w ++ rest) = (Opt 120 (Some v) :: l, p)).
  { destruct (getopt rest) as [l p] eqn:E. exists l, p. inversion W; subst; try (cbn; rewrite E; reflexivity).
    destruct v as [|a u]; [congruence|]. cbn. rewrite E. reflexivity. }
  destruct G as (l & p & ->). cbn [fst snd]. rewrite apply_app, apply_items by assumption. cbn [apply_options apply_option]. change (120 =? 111) with false. change (120 =? 120) with true. cbv iota.
  rewrite cut_missing by exact V. reflexivity.
Qed.
(** the version or the help: uwsc ends with 0, whatever follows *)
Theorem C117_help : forall items ws w rest, Forall2 spelled items ws -> ~ (sends_binary items /\ sends_text items) -> no_arg 118 (bs "version") w \/ no_arg 104 (bs "help") w ->
  start_uwsc (concat ws ++ w ++ rest) = Exits 0.
Proof.
  intros items ws w rest F N W. unfold start_uwsc. rewrite (getopt_items _ _ F). pose proof (spelled_keys _ _ F) as K.
  assert (G : exists c l p, (c = 118 \/ c = 104) /\ getopt (w ++ rest) = (Opt c None :: l, p)).
  { destruct (getopt rest) as [l p] eqn:E. destruct W as [W|W]; [exists 118|exists 104]; exists l, p; (split; [auto|]); inversion W; subst; cbn; rewrite E; reflexivity. }
  destruct G as (c & l & p & C & ->). cbn [fst snd]. rewrite apply_app, apply_items by assumption. destruct C as [-> | ->]; reflexivity.
Qed.
Example C117_header_hyps : with_arg 120 (bs "add-header") (bs "no colon") [bs "-x"; bs "no colon"] /\ ~ In 58 (bs "no colon") /\ start_uwsc (map bs ["-q"; "-x"; "no colon"; "ws://h/"]%string) = Exits 1.
Proof. split; [exact (wa_next _ _ _)|]. split; [intros I; cbn in I; repeat (destruct I as [I|I]; [discriminate|]); exact I|vm_compute; reflexivity]. Qed.
Example C117_help_hyps : no_arg 104 (bs "help") [bs "--help"] /\ start_uwsc (map bs ["-q"; "--help"; "-b"; "x"; "-t"; "y"]%string) = Exits 0.
Proof. split; [exact (na_long _ _)|vm_compute; reflexivity]. Qed.
Example C116_empty_hyps : manager (fun _ => true) (fun _ => Some (mk_file 0 [])) (meant [OText (bs "f")]) [true] (typed [bs "hello"]) = Ret [Sent 1 (bs "hello")].
Proof. vm_compute. reflexivity. Qed.
(** whatever the words, the certificate of the server is checked unless one of them asks for the contrary *)
Theorem C117_certificate : forall argv c url e, start_uwsc argv = Goes c url e -> u_check c = false -> exists w, In w argv /\ insecure_word w.
Proof.
  intros argv c url e E N. unfold start_uwsc in E. destruct (getopt argv) as [l p] eqn:G. destruct (apply_options init_config l) as [c'|] eqn:A; [|discriminate]. destruct p as [|u p]; [discriminate|]. injection E as -> -> _.
  destruct (checks_kept _ _ _ A eq_refl N) as (a & I). apply (getopt_115 (length argv) argv a (le_n _)). rewrite G. exact I.
Qed.

Example C117_options_hyps : exists items1 items2 ws1 ws2, Forall2 spelled items1 ws1 /\ Forall2 spelled items2 ws2 /\ plain_word (bs "ws://h/") /\
  concat ws1 ++ [bs "ws://h/"] ++ concat ws2 = map bs ["-xA:b:c"; "-t"; "f.txt"; "ws://h/"; "--extensions=foo"; "-q"; "--protocol"; "chat"; "-s"]%string /\
  start_uwsc (map bs ["-xA:b:c"; "-t"; "f.txt"; "ws://h/"; "--extensions=foo"; "-q"; "--protocol"; "chat"; "-s"]%string) =
    Goes (mk_uconf None None (Some (bs "f.txt")) false false true None (Some (bs "chat")) (Some (bs "foo")) [(bs "A", bs "b:c")] false) (bs "ws://h/") (bs "foo,permessage-deflate").
Proof.
  exists [OHeader (bs "A") (bs "b:c"); OText (bs "f.txt")], [OExtensions (bs "foo"); OQuiet; OProtocol (bs "chat"); ONonSecure].
  exists [[bs "-xA:b:c"]; [bs "-t"; bs "f.txt"]], [[bs "--extensions=foo"]; [bs "-q"]; [bs "--protocol"; bs "chat"]; [bs "-s"]].
  split; [|split; [|split; [|split; vm_compute; reflexivity]]].
  - constructor; [|constructor; [|constructor]].
    + apply sp_header; [intros [H|[]]; vm_compute in H; discriminate|]. apply (wa_attached 120 (bs "add-header") (bs "A" ++ [58] ++ bs "b:c")). discriminate.
    + apply sp_text. apply (wa_next 116 (bs "send-text-file") (bs "f.txt")).
  - constructor; [|constructor; [|constructor; [|constructor; [|constructor]]]].
    + apply sp_extensions; [apply (wa_equal 101 (bs "extensions") (bs "foo"))|discriminate].
    + apply sp_quiet. apply (na_short 113 (bs "quiet")).
    + apply sp_protocol. apply (wa_long 112 (bs "protocol") (bs "chat")).
    + apply sp_nonsecure. apply (na_short 115 (bs "non-secure")).
  - intros (x & r & H). vm_compute in H. discriminate.
Qed.

(** The short options say that the argument of -e is optional ("e::", uwsc.c:275) while the long option requires one: in "uwsc -e foo ws://host/" the extension foo is taken for the url, and the url is ignored. *)
Theorem C117_extension_refuted : exists c, start_uwsc (map bs ["-e"; "foo"; "ws://host/"]%string) = Goes c (bs "foo") (bs "permessage-deflate").
Proof. eexists. vm_compute. reflexivity. Qed.
(** The options without an argument (i, l, s, q) are declared with an optional argument ("i::l::...s::q::", uwsc.c:275): in "-iq" the q is taken for the argument of i, and ignored; "-qs" goes on checking the certificate. *)
Theorem C117_together_refuted : exists c, start_uwsc (map bs ["-iq"; "ws://host/"]%string) = Goes c (bs "ws://host/") (bs "permessage-deflate") /\ u_noninteractive c = true /\ u_quiet c = false.
Proof. eexists. split; [vm_compute; reflexivity|]. split; reflexivity. Qed.
(** An option that uwsc does not know is reported by getopt_long and ignored (uwsc.c:373 default): "uwsc --nonlistening ws://host/" connects and listens. *)
Theorem C117_unknown_refuted : exists c, start_uwsc (map bs ["--nonlistening"; "ws://host/"]%string) = Goes c (bs "ws://host/") (bs "permessage-deflate") /\ c = init_config.
Proof. eexists. split; [vm_compute; reflexivity|]. reflexivity. Qed.

Print Assumptions C116_lines_partial.
Print Assumptions C116_quit.
Print Assumptions C116_file_partial.
Print Assumptions C116_no_file.
Print Assumptions C116_shown_partial.
Print Assumptions C116_shown_prompt_partial.
Print Assumptions C116_silent.
Print Assumptions C116_long_refuted.
Print Assumptions C116_quote_refuted.
Print Assumptions C116_last_refuted.
Print Assumptions C116_end_refuted.
Print Assumptions C116_pipe_refuted.
Print Assumptions C116_shrinks_refuted.
Print Assumptions C116_fragmentation_refuted.
Print Assumptions C116_nul_refuted.
Print Assumptions C117_options_partial.
Print Assumptions C117_both.
Print Assumptions C117_no_url.
Print Assumptions C117_certificate.
Print Assumptions C117_extension_refuted.
Print Assumptions C117_together_refuted.
Print Assumptions C117_unknown_refuted.
Print Assumptions C116_empty.
Print Assumptions C117_header.
Print Assumptions C117_help.
