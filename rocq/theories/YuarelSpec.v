(** What a URL is made of (C55) and what the parser finds in any text (C64). *)
From Coq Require Import String ZArith Bool List.
From Verif Require Import Base Dec StrModel.
Import ListNotations.
Open Scope Z_scope.

(** ** C55: the parts of a URL and its text *)
Record url := mk_url { u_scheme : str; u_user : option (str * str); u_host : str; u_port : option Z; u_path : option str; u_query : option str; u_fragment : option str }.
Definition part (before : str) (o : option str) : str := match o with Some s => before ++ s | None => [] end.
(** everything up to the path *)
Definition authority (u : url) : str :=
  match u_user u with Some (n, p) => n ++ bs ":" ++ p ++ bs "@" | None => [] end ++ u_host u ++ part (bs ":") (option_map udec (u_port u)).
Definition url_text (u : url) : str :=
  u_scheme u ++ bs "://" ++ authority u ++ part (bs "/") (u_path u) ++ part (bs "?") (u_query u) ++ part (bs "#") (u_fragment u).
(** the same without the host *)
Definition relative_text (path : str) (query fragment : option str) : str :=
  bs "/" ++ path ++ part (bs "?") query ++ part (bs "#") fragment.

(** none of these characters, nor NUL *)
Definition without (chars : string) (s : str) : Prop := cstr s /\ Forall (fun c => ~ In c s) (bs chars).
Definition oall (P : str -> Prop) (o : option str) : Prop := match o with Some s => P s | None => True end.
(** admissible characters. A scheme starts with a letter; here it is enough that it does not start with a slash. *)
Definition url_ok (u : url) : Prop :=
  u_scheme u <> [] /\ without ":?#" (u_scheme u) /\ hd 0 (u_scheme u) <> 47 /\
  match u_user u with Some (n, p) => without ":@/?#" n /\ without "@/?#" p | None => True end /\
  u_host u <> [] /\ without ":@/?#" (u_host u) /\
  match u_port u with Some n => 0 <= n < 2147483648 | None => True end /\
  oall (without "?#") (u_path u) /\ oall (without "#") (u_query u) /\ oall cstr (u_fragment u).

(** ** C64: reading any text *)
Record parts := mk_parts { p_scheme : option str; p_user : option str; p_pass : option str; p_host : option str; p_port : Z; p_path : option str; p_query : option str; p_fragment : option str }.
(** the text before the first [c], and the text after it *)
Fixpoint cut (c : Z) (s : str) : str * option str :=
  match s with
  | [] => ([], None)
  | x :: r => if x =? c then ([], Some r) else let (a, b) := cut c r in (x :: a, b)
  end.
(** the number written before a path: every character counts for its distance to '0'; after the end of the text: strtol *)
Definition int_of (n : Z) : Z := let m := n mod 4294967296 in if m <? 2147483648 then m else m - 4294967296.
Definition weight_of (c : Z) : Z := (if c <? 128 then c else c - 256) - 48.
Fixpoint number (s : str) (r : Z) : Z := match s with [] => r | c :: t => number t (10 * r + weight_of c) end.
Definition port_value (s : str) (path : option str) : Z := int_of (match path with Some _ => number s 0 | None => strtol s end).
Definition nonempty (s : str) : bool := match s with [] => false | _ => true end.

(** user and password, then the host and the port *)
Definition host_parts (h : str) (path : option str) : option (str * Z) :=
  match cut 58 h with
  | (n, None) => if nonempty n then Some (n, 0) else None
  | (n, Some p) => if nonempty n && nonempty p then Some (n, port_value p path) else None
  end.
Definition user_parts (a : str) : option (option str * option str * str) :=
  match cut 64 a with
  | (h, None) => Some (None, None, h)
  | (ui, Some h) => match cut 58 ui with
                    | (n, Some p) => Some (Some n, Some p, h)
                    | (_, None) => None
                    end
  end.
Definition parse_text (s : str) : option parts :=
  let (s1, fragment) := cut 35 s in
  let (s2, query) := cut 63 s1 in
  match s2 with
  | 47 :: path => Some (mk_parts None None None None 0 (Some path) query fragment)
  | _ =>
      match cut 58 s2 with
      | (scheme, Some (47 :: 47 :: r)) =>
          if nonempty scheme then
            let (a, path) := cut 47 r in
            match user_parts a with
            | Some (n, p, h) =>
                match host_parts h path with
                | Some (host, port) => Some (mk_parts (Some scheme) n p (Some host) port path query fragment)
                | None => None
                end
            | None => None
            end
          else None
      | _ => None
      end
  end.
