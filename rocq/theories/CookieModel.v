(** Model of the response cookies, /repo/src/u_response.c:29-151 and 207-288. Allocation
    succeeds (the U_ERROR_MEMORY branches are not modelled). *)
From Coq Require Import String ZArith Bool List.
From Verif Require Import Base Dec.
Import ListNotations.
Open Scope Z_scope.

(** include/ulfius.h:215-225 struct _u_cookie. [ck_key] and [ck_value] are never NULL in a cookie
    stored in a response. max_age is unsigned 32 bit. *)
Record cookie := mk_cookie {
  ck_key : str; ck_value : str; ck_expires : option str; ck_max_age : Z;
  ck_domain : option str; ck_path : option str; ck_secure : Z; ck_http_only : Z; ck_same_site : Z }.

Definition U_COOKIE_SAME_SITE_EMPTY := 0.
Definition U_COOKIE_SAME_SITE_STRICT := 1.
Definition U_COOKIE_SAME_SITE_LAX := 2.
Definition U_COOKIE_SAME_SITE_NONE := 3.

(** printf("%d", x) for an unsigned int x: reinterpreted as int *)
Definition as_int (x : Z) : Z := if x <? 2147483648 then x else x - 4294967296.

(** u_response.c:29-151 ulfius_generate_cookie_header *)
Definition attr (name : str) (v : option str) : str :=
  match v with Some s => bs "; " ++ name ++ bs "=" ++ s | None => [] end.
Definition generate_cookie_header (c : cookie) : str :=
  let attr_expires := attr (bs "Expires") (ck_expires c) in
  let attr_max_age := if 0 <? ck_max_age c then bs "; " ++ bs "Max-Age" ++ bs "=" ++ sdec (as_int (ck_max_age c)) else [] in
  let attr_domain := attr (bs "Domain") (ck_domain c) in
  let attr_path := attr (bs "Path") (ck_path c) in
  let attr_secure := if negb (ck_secure c =? 0) then bs "; " ++ bs "Secure" else [] in
  let attr_http_only := if negb (ck_http_only c =? 0) then bs "; " ++ bs "HttpOnly" else [] in
  let same_site :=
    if ck_same_site c =? U_COOKIE_SAME_SITE_STRICT then bs "; SameSite=Strict"
    else if ck_same_site c =? U_COOKIE_SAME_SITE_LAX then bs "; SameSite=Lax"
    else if ck_same_site c =? U_COOKIE_SAME_SITE_NONE then bs "; SameSite=None"
    else [] in
  ck_key c ++ bs "=" ++ ck_value c ++ attr_expires ++ attr_max_age ++ attr_domain ++ attr_path ++ attr_secure
    ++ attr_http_only ++ same_site.

(** response->map_cookie (its length is the allocated size) and nb_cookies *)
Record jar := mk_jar { map_cookie : list (option cookie); nb_cookies : nat }.
Definition empty_jar : jar := mk_jar [] 0.

(** the arguments of ulfius_add_same_site_cookie_to_response *)
Record cookie_args := mk_args {
  a_key : option str; a_value : option str; a_expires : option str; a_max_age : Z;
  a_domain : option str; a_path : option str; a_secure : Z; a_http_only : Z; a_same_site : Z }.

(** u_response.c:216-218: index of the first cookie with this key; [i] counts up, [n] remain *)
Fixpoint find_cookie (l : list (option cookie)) (key : str) (i n : nat) : outcome (option nat) :=
  match n with
  | O => Ret None
  | S n' => do o <- aget l i;
            match o with
            | None => UB Uninit
            | Some c => if str_eqb (ck_key c) key then Ret (Some i) else find_cookie l key (S i) n'
            end
  end.

(** u_response.c:212-288 ulfius_add_same_site_cookie_to_response *)
Definition add_same_site_cookie (j : jar) (a : cookie_args) : outcome (Z * jar) :=
  match a_key a with
  | None => Ret (U_ERROR_PARAMS, j)
  | Some key =>
      if (a_same_site a =? U_COOKIE_SAME_SITE_EMPTY) || (a_same_site a =? U_COOKIE_SAME_SITE_NONE)
         || (a_same_site a =? U_COOKIE_SAME_SITE_STRICT) || (a_same_site a =? U_COOKIE_SAME_SITE_LAX) then
        let value := match a_value a with Some v => v | None => [] end in
        do r <- find_cookie (map_cookie j) key 0 (nb_cookies j);
        match r with
        | Some i =>
            do o <- aget (map_cookie j) i;
            let key0 := match o with Some c => ck_key c | None => [] end in
            do l <- aset (map_cookie j) i (Some (mk_cookie key0 value (a_expires a) (a_max_age a) (a_domain a) (a_path a)
                                                   (a_secure a) (a_http_only a) (a_same_site a)));
            Ret (U_OK, mk_jar l (nb_cookies j))
        | None =>
            let arr := if (nb_cookies j =? 0)%nat then [None]
                       else firstn (nb_cookies j + 1) (map_cookie j) ++ repeat None (nb_cookies j + 1 - length (map_cookie j)) in
            do l <- aset arr (nb_cookies j) (Some (mk_cookie key value (a_expires a) (a_max_age a) (a_domain a) (a_path a)
                                                     (a_secure a) (a_http_only a) (a_same_site a)));
            Ret (U_OK, mk_jar l (nb_cookies j + 1))
        end
      else Ret (U_ERROR_PARAMS, j)
  end.

(** u_response.c:207-210 ulfius_add_cookie_to_response *)
Definition add_cookie (j : jar) (a : cookie_args) : outcome (Z * jar) :=
  add_same_site_cookie j (mk_args (a_key a) (a_value a) (a_expires a) (a_max_age a) (a_domain a) (a_path a)
                            (a_secure a) (a_http_only a) U_COOKIE_SAME_SITE_EMPTY).

(** a history of calls; [true] = the same-site variant *)
Fixpoint add_cookies (j : jar) (calls : list (bool * cookie_args)) : outcome (list Z * jar) :=
  match calls with
  | [] => Ret ([], j)
  | (same, a) :: r =>
      do x <- (if same : bool then add_same_site_cookie j a else add_cookie j a);
      do y <- add_cookies (snd x) r;
      Ret (fst x :: fst y, snd y)
  end.
