(** Model of the command line client tools/uwsc/uwsc.c: the reading of its options (272-394), the sending of files and of typed lines (77-161), the messages shown (163-186).
    What ulfius_websocket_send_message does with a message is TalkModel; what the opening of the connection does with the request is OpenModel. *)
From Coq Require Import String ZArith Bool List.
From Verif Require Import Base ExportModel.
Import ListNotations.
Open Scope Z_scope.

(** ** Options *)
Inductive kind := Required | Optional | NoArgument.
(** uwsc.c:275 short_options *)
Definition short_kind (c : Z) : option kind :=
  if existsb (Z.eqb c) (bs "oxbtfp") then Some Required else if existsb (Z.eqb c) (bs "ilesqvh") then Some Optional else None.
(** uwsc.c:276-291 long_options *)
Definition long_options : list (str * kind * Z) :=
  [(bs "output-log-file", Required, 111); (bs "add-header", Required, 120); (bs "send-binary-file", Required, 98); (bs "send-text-file", Required, 116);
   (bs "non-interactive-send", NoArgument, 105); (bs "non-listening", NoArgument, 108); (bs "fragmentation", Required, 102); (bs "protocol", Required, 112);
   (bs "extensions", Required, 101); (bs "non-secure", NoArgument, 115); (bs "quiet", NoArgument, 113); (bs "version", NoArgument, 118); (bs "help", NoArgument, 104)].
(** the option with this name, or the only one whose name begins with it *)
Definition long_kind (name : str) : option (kind * Z) :=
  match find (fun x => str_eqb (fst (fst x)) name) long_options with
  | Some x => Some (snd (fst x), snd x)
  | None => match filter (fun x => prefixb name (fst (fst x))) long_options with [x] => Some (snd (fst x), snd x) | _ => None end
  end.

(** what getopt_long returns, with optarg; [Bad]: '?' *)
Inductive opt := Opt (c : Z) (arg : option str) | Bad.
(** the letters after a single '-': the options, and the one whose argument is the next word *)
Fixpoint cluster (cs : str) : list opt * option Z :=
  match cs with
  | [] => ([], None)
  | c :: r =>
      match short_kind c with
      | None => let (l, p) := cluster r in (Bad :: l, p)
      | Some NoArgument => let (l, p) := cluster r in (Opt c None :: l, p)
      | Some Optional => ([Opt c (match r with [] => None | _ => Some r end)], None)
      | Some Required => match r with [] => ([], Some c) | _ => ([Opt c (Some r)], None) end
      end
  end.
(** the text up to the first [c], and what follows it *)
Fixpoint cut (c : Z) (s : str) : str * option str :=
  match s with [] => ([], None) | x :: r => if x =? c then ([], Some r) else let (a, b) := cut c r in (x :: a, b) end.
(** a word after "--" *)
Definition long (w : str) : list opt * option Z :=
  let (name, value) := cut 61 w in
  match long_kind name, value with
  | Some (Required, c), Some v => ([Opt c (Some v)], None)
  | Some (Required, c), None => ([], Some c)
  | Some (_, c), None => ([Opt c None], None)
  | _, _ => ([Bad], None)
  end.
Inductive word := Plain | Options (l : list opt) (needs : option Z) | End.
Definition word_of (w : str) : word :=
  match w with
  | d :: e :: r =>
      if d =? 45 then
        if e =? 45 then match r with [] => End | _ => let (l, p) := long r in Options l p end
        else let (l, p) := cluster (e :: r) in Options l p
      else Plain
  | _ => Plain
  end.
(** getopt_long of the GNU library, called until it returns -1: the options and the other words (argv from optind on). Not modelled: POSIXLY_CORRECT. *)
Fixpoint getopt (argv : list str) : list opt * list str :=
  match argv with
  | [] => ([], [])
  | w :: r =>
      match word_of w with
      | End => ([], r)
      | Plain => let (l, p) := getopt r in (l, w :: p)
      | Options l None => let (l', p) := getopt r in (l ++ l', p)
      | Options l (Some c) =>
          match r with
          | [] => (l ++ [Bad], [])
          | a :: r' => let (l', p) := getopt r' in (l ++ Opt c (Some a) :: l', p)
          end
      end
  end.

(** struct _config with what is changed in its request: the headers put, check_server_certificate. fragmentation is kept as the text given: strtol (349) is not modelled, the value is never read. *)
Record uconf := mk_uconf { u_log : option str; u_bin : option str; u_text : option str; u_noninteractive : bool; u_nonlistening : bool; u_quiet : bool; u_frag : option str;
  u_protocol : option str; u_exts : option str; u_puts : list (str * str); u_check : bool }.
(** uwsc.c:227-256 init_config; check_server_certificate is 1 after ulfius_init_request *)
Definition init_config : uconf := mk_uconf None None None false false false None None None [] true.
Definition set_log c v := mk_uconf v (u_bin c) (u_text c) (u_noninteractive c) (u_nonlistening c) (u_quiet c) (u_frag c) (u_protocol c) (u_exts c) (u_puts c) (u_check c).
Definition set_bin c v := mk_uconf (u_log c) v (u_text c) (u_noninteractive c) (u_nonlistening c) (u_quiet c) (u_frag c) (u_protocol c) (u_exts c) (u_puts c) (u_check c).
Definition set_text c v := mk_uconf (u_log c) (u_bin c) v (u_noninteractive c) (u_nonlistening c) (u_quiet c) (u_frag c) (u_protocol c) (u_exts c) (u_puts c) (u_check c).
Definition set_noninteractive c v := mk_uconf (u_log c) (u_bin c) (u_text c) v (u_nonlistening c) (u_quiet c) (u_frag c) (u_protocol c) (u_exts c) (u_puts c) (u_check c).
Definition set_nonlistening c v := mk_uconf (u_log c) (u_bin c) (u_text c) (u_noninteractive c) v (u_quiet c) (u_frag c) (u_protocol c) (u_exts c) (u_puts c) (u_check c).
Definition set_quiet c v := mk_uconf (u_log c) (u_bin c) (u_text c) (u_noninteractive c) (u_nonlistening c) v (u_frag c) (u_protocol c) (u_exts c) (u_puts c) (u_check c).
Definition set_frag c v := mk_uconf (u_log c) (u_bin c) (u_text c) (u_noninteractive c) (u_nonlistening c) (u_quiet c) v (u_protocol c) (u_exts c) (u_puts c) (u_check c).
Definition set_protocol c v := mk_uconf (u_log c) (u_bin c) (u_text c) (u_noninteractive c) (u_nonlistening c) (u_quiet c) (u_frag c) v (u_exts c) (u_puts c) (u_check c).
Definition set_exts c v := mk_uconf (u_log c) (u_bin c) (u_text c) (u_noninteractive c) (u_nonlistening c) (u_quiet c) (u_frag c) (u_protocol c) v (u_puts c) (u_check c).
Definition add_put c k v := mk_uconf (u_log c) (u_bin c) (u_text c) (u_noninteractive c) (u_nonlistening c) (u_quiet c) (u_frag c) (u_protocol c) (u_exts c) (u_puts c ++ [(k, v)]) (u_check c).
Definition set_check c v := mk_uconf (u_log c) (u_bin c) (u_text c) (u_noninteractive c) (u_nonlistening c) (u_quiet c) (u_frag c) (u_protocol c) (u_exts c) (u_puts c) v.

(** uwsc.c:313-375 one turn of the switch: the configuration, or the value the program exits with. o_strchr and o_strndup of NULL are NULL: an option 'x' has an argument. *)
Definition apply_option (c : uconf) (o : opt) : uconf + Z :=
  match o with
  | Bad => inl c
  | Opt k a =>
      if k =? 111 then inl (set_log c a)
      else if k =? 120 then match a with
                            | Some s => match cut 58 s with (key, Some v) => inl (add_put c key v) | (_, None) => inr 1 end
                            | None => inr 1
                            end
      else if k =? 98 then (if u_text c then inr 1 else inl (set_bin c a))
      else if k =? 116 then (if u_bin c then inr 1 else inl (set_text c a))
      else if k =? 105 then inl (set_noninteractive c true)
      else if k =? 108 then inl (set_nonlistening c true)
      else if k =? 102 then inl (set_frag c a)
      else if k =? 112 then inl (set_protocol c a)
      else if k =? 101 then inl (set_exts c a)
      else if k =? 115 then inl (set_check c false)
      else if k =? 113 then inl (set_quiet c true)
      else if (k =? 118) || (k =? 104) then inr 0
      else inl c
  end.
Fixpoint apply_options (c : uconf) (l : list opt) : uconf + Z :=
  match l with [] => inl c | o :: r => match apply_option c o with inl c => apply_options c r | inr n => inr n end end.

(** uwsc.c:306-394 up to ulfius_set_websocket_request: the program exits, or goes on with a configuration, a url and the extensions it asks for *)
Inductive started := Exits (code : Z) | Goes (c : uconf) (url : str) (extensions : str).
Definition start_uwsc (argv : list str) : started :=
  let (opts, words) := getopt argv in
  match apply_options init_config opts with
  | inr n => Exits n
  | inl c =>
      match words with
      | [] => Exits 1
      | url :: _ => Goes c url (match u_exts c with Some (x :: e) => (x :: e) ++ bs ",permessage-deflate" | _ => bs "permessage-deflate" end)
      end
  end.

(** ** Sending *)
(** a call of ulfius_websocket_send_message *)
Inductive sending := Sent (opcode : Z) (data : list Z) | Closing.

(** a file that can be opened: what ftell says at its end, as a size_t; the bytes fread finds *)
Record file := mk_file { f_told : Z; f_bytes : list Z }.
(** uwsc.c:77-102 read_file; [alloc_ok]: o_malloc gives a block of this size. The block has f_told + 1 bytes, modulo 2^64. *)
Definition read_file (alloc_ok : Z -> bool) (f : option file) : outcome (option (buf * Z)) :=
  match f with
  | None => Ret None
  | Some f =>
      let size := add64 (f_told f) 1 in
      if alloc_ok size then
        let got := zfirstn (Z.min (f_told f) (zlen (f_bytes f))) (f_bytes f) in
        if zlen got =? 0 then Ret (Some (malloc size, f_told f))
        else if (size <? zlen got) || (size <=? f_told f) then UB OutOfBounds
        else Ret (Some (block_of got ++ repeat None (Z.to_nat (f_told f - zlen got)) ++ [Some 0], f_told f))
      else Ret None
  end.
(** uwsc.c:114-123, 124-133 *)
Definition send_file (alloc_ok : Z -> bool) (f : option file) (opcode : Z) : outcome (list sending) :=
  do x <- read_file alloc_ok f;
  match x with
  | Some (b, len) => if 0 <? len then do d <- read_n (Z.to_nat len) b; Ret [Sent opcode d] else Ret []
  | None => Ret []
  end.

(** fgets(message, n + 1, stdin): the bytes read, and what is left; none: NULL *)
Fixpoint take_line (n : nat) (input : list Z) : list Z * list Z :=
  match n, input with
  | O, _ => ([], input)
  | _, [] => ([], [])
  | S n, c :: r => if c =? 10 then ([c], r) else let (a, b) := take_line n r in (c :: a, b)
  end.
Definition fgets (n : nat) (input : list Z) : option (list Z * list Z) := match input with [] => None | _ => Some (take_line n input) end.
(** the text in a buffer: up to the first NUL *)
Definition text_in (l : list Z) : str := fst (cut 0 l).

(** uwsc.c:136-157: the loop over the lines. [opens]: what ulfius_websocket_status says at the end of each turn, whether the websocket is open. The messages sent, whether the loop ended, what is left of the
    input. What is printed is not modelled. *)
Fixpoint talk (opens : list bool) (message : str) (input : list Z) : list sending * bool * list Z :=
  match opens with
  | [] => ([], false, input)
  | o :: r =>
      let '(message, input, sent) :=
        match fgets 255 input with
        | None => (message, input, [])
        | Some (l, rest) =>
            let m := text_in l in
            (m, rest, match m with [] => [] | _ => if prefixb (bs "!q") m then [Closing] else [Sent 1 (removelast m)] end)
        end in
      if negb (prefixb (bs "!q") message) && o then let '(s, e, i) := talk r message input in (sent ++ s, e, i) else (sent, true, input)
  end.
(** uwsc.c:104-161 uwsc_manager_callback; [files]: what there is at a path. 159: the loop of the other mode sends nothing. *)
Definition manager (alloc_ok : Z -> bool) (files : str -> option file) (c : uconf) (opens : list bool) (input : list Z) : outcome (list sending) :=
  do first <- match u_text c, u_bin c with
              | Some p, _ => send_file alloc_ok (files p) 1
              | None, Some p => send_file alloc_ok (files p) 2
              | None, None => Ret []
              end;
  Ret (first ++ if u_noninteractive c then [] else fst (fst (talk opens [] input))).

(** ** Messages shown: uwsc.c:163-186 uwsc_manager_incoming; %zu of the length is [dec]. [data]: the block of the message. *)
Definition shown (dec : Z -> str) (c : uconf) (opcode : Z) (data : buf) (len : Z) : outcome str :=
  let prompt := negb (u_quiet c) && negb (u_noninteractive c) in
  if u_nonlistening c then Ret []
  else if opcode =? 1 then
    do t <- print_n (Some data) len;
    Ret (if prompt then [8; 8] ++ bs "Server message: '" ++ t ++ bs "'" ++ [10] ++ bs "> " else [8; 8] ++ t ++ [10])
  else if opcode =? 2 then
    Ret ([8; 8] ++ bs "Server sent binary message, length " ++ dec len ++ [10] ++ (if prompt then bs "> " else []))
  else Ret [].
