(** What a client request must carry (C65-C69), stated on the options a libcurl handle has received. *)
From Coq Require Import String ZArith Bool List.
From Verif Require Import Base SMap SendModel YuarelSpec HttpText.
Import ListNotations.
Open Scope Z_scope.

(** ** The state of a handle: an option keeps the last value it was given; [None]: libcurl's default *)
Fixpoint last_of {A} (f : opt -> option A) (l : list opt) : option A :=
  match l with [] => None | o :: r => match last_of f r with Some x => Some x | None => f o end end.
Definition o_peer (o : opt) := match o with VerifyPeer n => Some n | _ => None end.
Definition o_host (o : opt) := match o with VerifyHost n => Some n | _ => None end.
Definition o_proxy_peer (o : opt) := match o with ProxyVerifyPeer n => Some n | _ => None end.
Definition o_proxy_host (o : opt) := match o with ProxyVerifyHost n => Some n | _ => None end.
Definition o_protocols (o : opt) := match o with Protocols s => Some s | _ => None end.
Definition o_redir (o : opt) := match o with RedirProtocols s => Some s | _ => None end.
Definition o_user (o : opt) := match o with Username s => Some s | _ => None end.
Definition o_password (o : opt) := match o with Password s => Some s | _ => None end.
Definition o_cert (o : opt) := match o with SslCert s => Some s | _ => None end.
Definition o_key (o : opt) := match o with SslKey s => Some s | _ => None end.
Definition o_proxy (o : opt) := match o with Proxy s => Some s | _ => None end.
Definition o_follow (o : opt) := match o with FollowLocation => Some tt | _ => None end.
Definition o_network (o : opt) := match o with IpResolve n => Some n | _ => None end.
Definition o_url (o : opt) := match o with Url s => Some s | _ => None end.
Definition o_verb (o : opt) := match o with CustomRequest s => Some s | _ => None end.
Definition o_headers (o : opt) := match o with HttpHeader l => Some l | _ => None end.
Definition o_cookies (o : opt) := match o with CookieText s => Some s | _ => None end.
Definition o_body (o : opt) := match o with PostFields b => Some b | _ => None end.
Definition o_size (o : opt) := match o with PostFieldSize n | PostFieldSizeLarge n => Some n | _ => None end.
Definition o_ca (o : opt) := match o with CaPath s => Some s | _ => None end.
Definition o_timeout (o : opt) := match o with Timeout n => Some n | _ => None end.
Definition o_from (o : opt) := match o with MailFrom s => Some s | _ => None end.
Definition o_rcpt (o : opt) := match o with MailRcpt l => Some l | _ => None end.
Definition o_text (o : opt) := match o with ReadData s => Some s | _ => None end.
Definition o_ssl (o : opt) := match o with UseSsl => Some tt | _ => None end.

(** every call was accepted *)
Definition all_accepted (c : curl) (l : list opt) : Prop := forall a o b, l = a ++ o :: b -> c a o = true.

(** a certificate check that is wanted stays as libcurl has it (on); one that is not wanted is off *)
Definition check_state (wanted : bool) (v : option Z) : Prop := v = if wanted then None else Some 0.

(** ** Headers: libcurl's rule for a custom header. A line without a value after the colon is not sent. *)
Definition has_value (l : str) : bool := match cut 58 l with (_, Some v) => match strip v with [] => false | _ => true end | _ => false end.
Definition sent_lines (l : list str) : list str := filter has_value l.
(** the lines as they go on the wire, read back *)
Definition wire (l : list str) : str := concat (map (fun x => x ++ eol) (sent_lines l)) ++ eol.

(** ** Cookies: pairs name=value between semicolons *)
Definition read_cookie (s : str) : option (str * str) := match cut 61 s with (k, Some v) => Some (k, v) | _ => None end.
Definition read_cookies (s : str) : option (list (str * str)) := all_some (map read_cookie (pieces 59 s)).

(** ** URLs *)
(** the text before the first '?', and the query *)
Definition split_url (u : str) : str * option str := cut 63 u.
Definition query_pairs (q : option str) : option (list (str * option str)) := match q with Some q => read_pairs q | None => Some [] end.

Definition names_ok (d : smap) : Prop := Forall (fun p => cstr (fst p)) d.
