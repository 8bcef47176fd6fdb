(** Model of the example callbacks that check access tokens: example_callbacks/oauth2_bearer/glewlwyd_resource.c, example_callbacks/jwt_profile/oidc_resource.c and
    example_callbacks/iddawc_jwt_profile/iddawc_resource.c. Allocation and locking succeed. The JSON functions are those of jansson, the token functions those of
    rhonabwy and iddawc; their sources are not in /repo. *)
From Coq Require Import String ZArith Bool List.
From Verif Require Import Base UMapModel SMap StrModel ClientModel.
Import ListNotations.
Open Scope Z_scope.

(** jansson values; real numbers are never read. Texts have no NUL (jansson refuses them unless asked). *)
Inductive json := JNull | JBool (b : bool) | JInt (z : Z) | JReal | JStr (s : str) | JArr (l : list json) | JObj (l : list (str * json)).
(** json_object_get, json_integer_value, json_string_value, json_string_length: NULL and values of another type give NULL or 0 *)
Definition jget (j : option json) (k : str) : option json := match j with Some (JObj l) => option_map snd (find (fun p => str_eqb (fst p) k) l) | _ => None end.
Definition jint (j : option json) : Z := match j with Some (JInt z) => z | _ => 0 end.
Definition jstr (j : option json) : option str := match j with Some (JStr s) => Some s | _ => None end.
Definition jlen (j : option json) : Z := match j with Some (JStr s) => zlen s | _ => 0 end.

(** glewlwyd_resource.h, oidc_resource.h: struct _glewlwyd_resource_config, struct _oidc_resource_config. An algorithm is a number. *)
Record tconfig := mk_tconfig { t_method : Z; t_scope : option str; t_alg : Z; t_realm : option str; t_access : bool; t_client : bool }.
(** the parts of the request that are read *)
Record trequest := mk_trequest { q_headers : umap; q_post : umap; q_url : umap; q_verb : option str; q_path : option str }.
(** the parts of the response that are written: headers and shared data *)
Record tresponse := mk_tresponse { p_headers : umap; p_shared : option json }.

Definition U_CALLBACK_CONTINUE := 0. Definition U_CALLBACK_UNAUTHORIZED := 3. Definition U_CALLBACK_ERROR := 4.

(** a + b of json_int_t (64 bits, signed) *)
Definition add_int (a b : Z) : outcome Z := if (-9223372036854775808 <=? a + b) && (a + b <? 9223372036854775808) then Ret (a + b) else UB Overflow.

(** the texts of the header WWW-Authenticate *)
Definition complaint (realm : option str) (e : str) : str := bs "Bearer " ++ match realm with Some r => bs "realm=" ++ r ++ bs "," | None => [] end ++ e.
Definition e_scope := bs "error=""insufficient_scope"",error_description=""The scope is invalid""".
Definition e_internal := bs "error=""invalid_request"",error_description=""Internal server error""".
Definition e_invalid := bs "error=""invalid_request"",error_description=""The access token is invalid""".
Definition e_missing := bs "error=""invalid_token"",error_description=""The access token is missing""".
Definition e_dpop := bs "error=""invalid_request"",error_description=""The DPoP token is invalid""".
(** msprintf, u_map_put, o_free: glewlwyd_resource.c:203-205 and the other error answers *)
Definition refuse (realm : option str) (r : tresponse) (e : str) : outcome (Z * tresponse) :=
  do x <- u_map_put (p_headers r) (Some (bs "WWW-Authenticate")) (Some (complaint realm e));
  Ret (U_CALLBACK_UNAUTHORIZED, mk_tresponse (snd x) (p_shared r)).

(** o_strstr(a, b) == a *)
Definition after_prefix (p : str) (v : option str) : option str := match v with Some s => if prefixb p s then Some (skipn (length p) s) else None | None => None end.
(** glewlwyd_resource.c:177-194 and oidc_resource.c:190-207. They differ in the way the Content-Type is looked up: [exact]. *)
Definition token_value (exact : bool) (method : Z) (q : trequest) : outcome (option str) :=
  if method =? 0 then
    do a <- ClientModel.get_case_str (q_headers q) (Some (bs "Authorization"));
    Ret (after_prefix (bs "Bearer ") a)
  else if method =? 1 then
    do t <- (if exact then get_str (q_headers q) (bs "Content-Type") else ClientModel.get_case_str (q_headers q) (Some (bs "Content-Type")));
    if match t with Some x => containsb x (bs "application/x-www-form-urlencoded") | None => false end then get_str (q_post q) (bs "access_token") else Ret None
  else if method =? 2 then get_str (q_url q) (bs "access_token")
  else Ret None.

Inductive checked := Good (scope : option json) | Insufficient | Internal.
(** the words of both texts: 59-75. [writes]: whether split_string(NULL, ...) sets the array to NULL; otherwise it stays uninitialised and is freed. *)
Definition common (expected token : str) : list str := filter (fun e => existsb (str_eqb e) (split_string 32 token)) (split_string 32 expected).
(** glewlwyd_resource.c:53-93 access_token_check_scope and oidc_resource.c:56-96; [scopeless]: what is kept of the scope when none is configured. json_pack with a
    NULL value for O gives NULL, which is not a result. *)
Definition check_scope (writes : bool) (scopeless : json -> option json) (scope : option str) (claims : json) : outcome checked :=
  let token := jstr (jget (Some claims) (bs "scope")) in
  let r :=
    match scope with
    | Some (c :: s) =>
        match token with
        | None => Internal
        | Some t => match common (c :: s) t with [] => Insufficient | l => Good (Some (JArr (map JStr l))) end
        end
    | _ => match scopeless claims with Some x => Good (Some x) | None => Internal end
    end in
  match token with None => if writes then Ret r else UB Uninit | Some _ => Ret r end.

Section Check.
(** r_jwt_advanced_parse and r_jwt_verify_signature with the keys of the configuration: None if one of them fails; otherwise the algorithm and the claims
    (r_jwt_get_full_claims_json_t) *)
Variable verify : str -> option (Z * option json).
Variable writes : bool.
Variable now : Z.

(** glewlwyd_resource.c:101-137 access_token_check_validity *)
Definition glewlwyd_validity (c : tconfig) (claims : json) : outcome bool :=
  let get := jget (Some claims) in
  do e <- add_int (jint (get (bs "iat"))) (jint (get (bs "expires_in")));
  Ret (if now <? e then
         match jstr (get (bs "type")) with
         | Some t =>
             if t_access c && str_eqb (bs "access_token") t && (0 <? jlen (get (bs "username"))) then true
             else t_client c && str_eqb (bs "client_token") t && (0 <? jlen (get (bs "client_id")))
         | None => false
         end
       else false).
(** oidc_resource.c:104-138 access_token_check_validity *)
Definition oidc_validity (c : tconfig) (claims : json) : outcome bool :=
  let get := jget (Some claims) in
  Ret (if now <? jint (get (bs "exp")) then
         match jstr (get (bs "type")) with
         | Some t =>
             if t_access c && str_eqb (bs "access_token") t && (0 <? jlen (get (bs "sub"))) then true
             else t_client c && str_eqb (bs "client_token") t && (0 <? jlen (get (bs "aud")))
         | None => false
         end
       else false).

(** json_pack("{sssO}", "username", ...), NULL without a text: glewlwyd_resource.c:212 *)
Definition glewlwyd_shared (claims : json) (scope : option json) : option json :=
  match jstr (jget (Some claims) (bs "username")), scope with
  | Some u, Some s => Some (JObj [(bs "username", JStr u); (bs "scope", s)])
  | _, _ => None
  end.
(** oidc_resource.c:225-237: json_pack, then json_object_set, which does nothing on NULL *)
Definition kept (claims : json) (k : str) : list (str * json) := match jget (Some claims) k with Some v => [(k, v)] | None => [] end.
Definition oidc_shared (claims : json) (scope : option json) : option json :=
  match jstr (jget (Some claims) (bs "sub")), scope with
  | Some u, Some s => Some (JObj ([(bs "sub", JStr u); (bs "scope", s)] ++ match jget (jget (Some claims) (bs "cnf")) (bs "jkt") with Some v => [(bs "jkt", v)] | None => [] end
                                  ++ kept claims (bs "aud") ++ kept claims (bs "client_id") ++ kept claims (bs "claims")))
  | _, _ => None
  end.

(** glewlwyd_resource.c:142-163, 169-250 and oidc_resource.c:143-177, 182-262. When no shared data can be made, the first leaves the response as it is
    (ulfius_set_response_shared_data refuses NULL) and the second sets NULL: [clears]. *)
Definition check_token (exact clears : bool) (validity : tconfig -> json -> outcome bool) (scopeless : json -> option json) (shared : json -> option json -> option json)
                       (config : option tconfig) (q : trequest) (r : tresponse) : outcome (Z * tresponse) :=
  match config with
  | None => Ret (U_CALLBACK_UNAUTHORIZED, r)
  | Some c =>
      do token <- token_value exact (t_method c) q;
      match token with
      | None => refuse (t_realm c) r e_missing
      | Some tok =>
          match verify tok with
          | Some (alg, Some claims) =>
              if alg =? t_alg c then
                do v <- validity c claims;
                if (v : bool) then
                  do s <- check_scope writes scopeless (t_scope c) claims;
                  match s with
                  | Insufficient => refuse (t_realm c) r e_scope
                  | Internal => refuse (t_realm c) r e_internal
                  | Good s =>
                      match shared claims s with
                      | Some x => Ret (U_CALLBACK_CONTINUE, mk_tresponse (p_headers r) (Some x))
                      | None => Ret (U_CALLBACK_ERROR, if clears then mk_tresponse (p_headers r) None else r)
                      end
                  end
                else refuse (t_realm c) r e_internal
              else refuse (t_realm c) r e_invalid
          | _ => refuse (t_realm c) r e_invalid
          end
      end
  end.
Definition glewlwyd := check_token false false glewlwyd_validity (fun _ => Some (JArr [])) glewlwyd_shared.
Definition oidc := check_token true true oidc_validity (fun claims => jget (Some claims) (bs "scope")) oidc_shared.
End Check.

(** oidc_resource.c:143-177 access_token_check_signature: the key is found by its name, which must be known; without a name it is the default one (possibly none).
    [parse]: r_jwt_advanced_parse, with the name of the key in the header; [key]: r_jwks_get_by_kid; [signed]: r_jwt_verify_signature with a key or with all. *)
Section Keys.
Context {K : Type}.
Variable parse : str -> option (option str).
Variable key : str -> option K.
Variable default : option K.
Variable signed : str -> option K -> option (Z * option json).
Definition by_key (tok : str) : option (Z * option json) :=
  match parse tok with
  | None => None
  | Some (Some kid) => match key kid with Some k => signed tok (Some k) | None => None end
  | Some None => signed tok default
  end.
End Keys.

(** ** oidc_resource.c:267-366 verify_dpop_proof *)
Inductive jwa := RS256 | RS384 | RS512 | ES256 | ES384 | ES512 | EDDSA | ES256K | OtherAlg.
(** a proof that r_jwt_parse accepts; the claims read with r_jwt_get_claim_str_value and r_jwt_get_claim_int_value are those of the full claims *)
Record proof := mk_proof { d_verified : bool; d_alg : jwa; d_header : json; d_claims : json }.
Inductive dpop_result := DGood (header claims : json) | DBad (code : Z).
Section Dpop.
Variable parse : str -> option proof.
(** r_jwk_import_from_json_t and r_jwk_thumbprint (SHA-256) *)
Variable import : option json -> bool.
Variable thumbprint : json -> option str.
Variable now : Z.
Definition allowed_alg (a : jwa) : bool := match a with OtherAlg => false | _ => true end.
(** o_strcmp(a, b) == 0: two NULLs are equal *)
Definition verify_dpop (header : option str) (htm htu : option str) (max_iat : Z) (jkt : option str) : outcome dpop_result :=
  match header with
  | None => Ret (DBad 4)
  | Some h =>
      match parse h with
      | None => Ret (DBad 4)
      | Some p =>
          let hget := jget (Some (d_header p)) in
          let cget k := jget (Some (d_claims p)) k in
          if negb (d_verified p) then Ret (DBad 3)
          else if negb (ostr_eqb (Some (bs "dpop+jwt")) (jstr (hget (bs "typ")))) then Ret (DBad 4)
          else if negb (allowed_alg (d_alg p)) then Ret (DBad 4)
          else if match hget (bs "x5c"), hget (bs "x5u") with None, None => false | _, _ => true end then Ret (DBad 4)
          else if negb (import (hget (bs "jwk"))) then Ret (DBad 4)
          else if match jstr (cget (bs "jti")) with Some (_ :: _) => false | _ => true end then Ret (DBad 4)
          else if negb (ostr_eqb htm (jstr (cget (bs "htm")))) then Ret (DBad 4)
          else if negb (ostr_eqb htu (jstr (cget (bs "htu")))) then Ret (DBad 4)
          else
            do late <- (if now <? jint (cget (bs "iat")) then Ret true else do e <- add_int (jint (cget (bs "iat"))) max_iat; Ret (e <? now));
            if (late : bool) then Ret (DBad 4)
            else match (match hget (bs "jwk") with Some j => thumbprint j | None => None end) with
                 | None => Ret (DBad 1)
                 | Some t => if negb (ostr_eqb jkt (Some t)) then Ret (DBad 4) else Ret (DGood (d_header p) (d_claims p))
                 end
      end
  end.
End Dpop.

(** ** iddawc_resource.c *)
Record iconfig := mk_iconfig { i_method : Z; i_scope : option str; i_realm : option str; i_aud : option str; i_root : option str; i_max_iat : Z }.
Section Iddawc.
(** i_verify_jwt_access_token on the token set in the session: the payload. i_set_str_parameter succeeds. *)
Variable verify : str -> option str -> option json.
(** i_verify_dpop_proof(proof, htm, htu, max_iat, jkt, access token) == I_OK *)
Variable dpop_ok : option str -> option str -> str -> Z -> option str -> str -> bool.
(** 56-66 get_auth_header_token, 131-146: the token, and whether the scheme is DPoP *)
Definition scheme_token (v : option str) : option (str * bool) :=
  match after_prefix (bs "Bearer ") v with
  | Some t => Some (t, false)
  | None => match after_prefix (bs "DPoP ") v with Some t => Some (t, true) | None => None end
  end.
Definition iddawc_token (method : Z) (q : trequest) : outcome (option (str * bool)) :=
  if method =? 0 then
    do n <- u_map_count_keys_case (q_headers q) (Some (bs "Authorization"));
    if n =? 1 then do a <- ClientModel.get_case_str (q_headers q) (Some (bs "Authorization")); Ret (scheme_token a) else Ret None
  else do t <- token_value true method q; Ret (option_map (fun t => (t, false)) t).
(** request->url_path + 1, printed *)
Definition path_tail (p : option str) : outcome str := match p with None => UB NullDeref | Some [] => UB OutOfBounds | Some (_ :: s) => Ret s end.
(** 123-210 callback_check_jwt_profile_access_token. The method is an unsigned short. *)
Definition iddawc (config : option iconfig) (q : trequest) (r : tresponse) : outcome (Z * tresponse) :=
  do dpop <- ClientModel.get_case_str (q_headers q) (Some (bs "DPoP"));
  do count <- u_map_count_keys_case (q_headers q) (Some (bs "DPoP"));
  match config with
  | None => Ret (U_CALLBACK_UNAUTHORIZED, r)
  | Some c =>
      do t <- iddawc_token (i_method c) q;
      match t with
      | Some ((_ :: _) as tok, is_dpop) =>
          match verify tok (i_aud c) with
          | None => refuse (i_realm c) r e_invalid
          | Some claims =>
              do s <- check_scope true (fun _ => Some JNull) (i_scope c) claims;
              let jkt := jget (jget (Some claims) (bs "cnf")) (bs "jkt") in
              match s with
              | Insufficient => refuse (i_realm c) r e_scope
              | Internal => refuse (i_realm c) r e_internal
              | Good _ =>
                  if is_dpop && match jkt with Some _ => true | None => false end && match dpop with Some _ => true | None => false end && (count =? 1) then
                    match i_root c with
                    | None => UB NullDeref
                    | Some root =>
                        do tail <- path_tail (q_path q);
                        if dpop_ok dpop (q_verb q) (root ++ tail) (i_max_iat c) (jstr jkt) tok then Ret (U_CALLBACK_CONTINUE, mk_tresponse (p_headers r) (Some claims))
                        else refuse (i_realm c) r e_dpop
                    end
                  else if negb is_dpop && match jkt with Some _ => false | None => true end && match dpop with Some _ => false | None => true end
                  then Ret (U_CALLBACK_CONTINUE, mk_tresponse (p_headers r) (Some claims))
                  else Ret (U_CALLBACK_UNAUTHORIZED, r)
              end
          end
      | _ => refuse (i_realm c) r e_missing
      end
  end.
End Iddawc.
