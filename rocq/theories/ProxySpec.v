(** What C119 asks of a program that passes a request on and gives the answer back. *)
From Coq Require Import String ZArith Bool List.
From Verif Require Import Base UMapModel SMap CopyModel CopySpec CookieModel CookieSpec ClientSpec SendModel SendSpec HttpText.
From Verif Require Import ProxyModel.
Import ListNotations.
Open Scope Z_scope.

(** ** The request: its dictionaries *)
Record qdicts := mk_qdicts { qd_url : smap; qd_header : smap; qd_cookie : smap; qd_form : smap }.
Definition has_dicts (q : request) (x : qdicts) : Prop :=
  repr (q_url q) (qd_url x) /\ repr (q_header q) (qd_header x) /\ repr (q_cookie q) (qd_cookie x) /\ repr (q_post q) (qd_form x) /\
  match q_body q with Some b => 0 <= q_body_length q <= zlen b | None => q_body_length q = 0 end /\
  List.length (q_strs q) = 11%nat /\ List.length (q_ints q) = 8%nat.
(** the header fields that are sent again *)
Definition not_host (d : smap) : smap := filter (fun p => negb (str_eqb (fst p) (bs "Host"))) d.
Definition field_line (p : str * option str) : str := fst p ++ 58 :: match snd p with Some v => v | None => [] end.

(** ** The answer: what a reader of the response sees *)
Record seen_answer := mk_seen { sn_status : Z; sn_fields : smap; sn_body : list Z; sn_cookies : list (option (list Z) * option (list Z) * option (list Z) * option (list Z) * option (list Z) * list Z) }.
Definition shows (h : heap) (r : hresp) (s : seen_answer) : Prop :=
  hr_status r = sn_status s /\ repr (hr_header r) (sn_fields s) /\ view_body h (hr_body r) (hr_body_length r) = sn_body s /\ hr_body_length r = zlen (sn_body s) /\
  map (view_cookie h) (hr_cookies r) = sn_cookies s.
Definition cookie_seen (c : cookie) :=
  (Some (ck_key c), Some (ck_value c), ck_expires c, ck_domain c, ck_path c, [ck_max_age c; ck_secure c; ck_http_only c; ck_same_site c]).
(** exactly the blocks of the response are in use *)
Definition only_own (h : heap) (r : hresp) : Prop := owned h r /\ forall a, (exists b, nth_error h a = Some (Some b)) -> In a (addrs r).

(** ** libcurl: with CURLOPT_ACCEPT_ENCODING a body that the header says to be compressed is handed over decompressed, the header lines are not changed *)
Definition decodes (l : list opt) : bool := existsb (fun o => match o with AcceptEncoding (Some _) => true | _ => false end) l.
(** the body that libcurl hands over for the bytes [raw] of the origin; [unzip] is its decoder *)
Definition handed (unzip : list Z -> list Z) (l : list opt) (raw : list Z) : list Z := if decodes l then unzip raw else raw.
