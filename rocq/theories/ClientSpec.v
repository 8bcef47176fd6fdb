(** What the clients should collect and send (C51-C54). *)
From Coq Require Import String ZArith Bool List.
From Verif Require Import Base StrModel CookieModel CookieSpec.
Import ListNotations.
Open Scope Z_scope.

(** ** C51 *)
(** the part of the stream to keep *)
Definition kept (limit : Z) (stream : list Z) : list Z := if limit =? 0 then stream else zfirstn limit stream.
(** a call of libcurl: the block has size * nmemb bytes, all written *)
Definition delivers (c : buf * Z * Z) (data : list Z) : Prop :=
  fst (fst c) = block_of data /\ 0 <= snd (fst c) /\ 0 <= snd c /\ snd (fst c) * snd c = zlen data.

(** ** C52 *)
Definition spaces (s : str) : Prop := Forall (fun c => isspace c = true) s.
Definition bare (s : str) : Prop := (forall c r, s = c :: r -> isspace c = false) /\ (forall c r, s = r ++ [c] -> isspace c = false).

Inductive line :=
| Field (name value : str)
| Status (text : str)
| Blank.
(** the texts a server may write for a line; [eol] is CR LF, possibly with spaces before it *)
Inductive written_as : line -> str -> Prop :=
| wa_field : forall n v w eol, n <> [] -> bare n -> ~ In 58 n -> bare v -> spaces w -> spaces eol -> eol <> [] -> cstr n -> cstr v -> written_as (Field n v) (n ++ [58] ++ w ++ v ++ eol)
| wa_status : forall s eol, s <> [] -> bare s -> ~ In 58 s -> spaces eol -> written_as (Status s) (s ++ eol)
| wa_blank : forall eol, spaces eol -> written_as Blank eol.

Fixpoint fields_of (ls : list line) : list (str * str) :=
  match ls with [] => [] | Field n v :: r => (n, v) :: fields_of r | _ :: r => fields_of r end.
(** names are compared without case *)
Definition same_name (a b : str) : Prop := lowers a = lowers b.
Definition values_of (name : str) (fs : list (str * str)) : list str := map snd (filter (fun p => str_eqb (lowers (fst p)) (lowers name)) fs).
Fixpoint joined (vs : list str) : str := match vs with [] => [] | [v] => v | v :: r => v ++ bs ", " ++ joined r end.
Definition at_most {A} (max : Z) (l : list A) : list A := if max =? 0 then l else zfirstn max l.
Fixpoint last_status (ls : list line) : option str :=
  match ls with
  | [] => None
  | l :: r => match last_status r with Some s => Some s | None => match l with Status s => Some s | _ => None end end
  end.

(** ** C53: the text of a cookie as libcurl gives it (CURLINFO_COOKIELIST, Netscape format):
    domain, include subdomains, path, secure, expiry, name, value *)
Record curl_cookie := mk_curl { c_domain : str; c_tailmatch : bool; c_path : str; c_secure : bool; c_expires : str; c_name : str; c_value : str }.
Definition yes_no (b : bool) : str := if b then bs "TRUE" else bs "FALSE".
Definition netscape (c : curl_cookie) : str :=
  c_domain c ++ [9] ++ yes_no (c_tailmatch c) ++ [9] ++ c_path c ++ [9] ++ yes_no (c_secure c) ++ [9] ++ c_expires c ++ [9] ++ c_name c ++ [9] ++ c_value c.
Definition no_tab (s : str) : Prop := ~ In 9 s.
Definition curl_ok (c : curl_cookie) : Prop :=
  Forall (fun s => s <> [] /\ no_tab s) [c_domain c; c_path c; c_expires c; c_name c] /\ no_tab (c_value c).
(** the cookie of the response has the name, value, expiry, domain and path of the cookie of libcurl *)
Definition records (c : curl_cookie) (r : cookie) : Prop :=
  ck_key r = c_name c /\ ck_value r = c_value c /\ ck_expires r = Some (c_expires c) /\ ck_domain r = Some (c_domain c) /\ ck_path r = Some (c_path c).
(** [c] is the last cookie of the list with its name *)
Definition last_named (l : list curl_cookie) (c : curl_cookie) : Prop := exists a b, l = a ++ c :: b /\ forall x, In x b -> c_name x <> c_name c.
