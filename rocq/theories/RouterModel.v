(** Model of the endpoint table and of URL routing: /repo/src/u_request.c:38-260 and
    /repo/src/ulfius.c:140-162, 1357-1565. Allocation succeeds. *)
From Coq Require Import String ZArith Bool List.
From Verif Require Import Base UMapModel UrlModel Utf8Model SMap.
Import ListNotations.
Open Scope Z_scope.

(** include/ulfius.h struct _u_endpoint. The callback is an identifier ([None] = NULL);
    priority is an unsigned int. *)
Record endpoint := mk_ep {
  http_method : option str;
  url_prefix : option str;
  url_format : option str;
  priority : Z;
  callback : option Z;
  user_data : Z
}.

(** ulfius.c:1537-1546 ulfius_empty_endpoint *)
Definition empty_endpoint : endpoint := mk_ep None None None 0 None 0.

(** ulfius.c:1548-1565 ulfius_equals_endpoints on two non-NULL pointers. The pointer-equality
    shortcut gives the same answer. *)
Definition equals_endpoints (a b : endpoint) : bool :=
  ostr_eqb (http_method b) (http_method a) && ostr_eqb (url_prefix b) (url_prefix a)
  && ostr_eqb (url_format b) (url_format a).

(** ulfius.c:140-162 ulfius_is_valid_endpoint *)
Definition is_valid_endpoint (e : endpoint) (to_delete : bool) : bool :=
  if equals_endpoints e empty_endpoint then true
  else match http_method e with
  | None => false
  | Some _ =>
      if negb to_delete && match callback e with None => true | Some _ => false end then false
      else match url_prefix e, url_format e with None, None => false | _, _ => true end
  end.

(** the instance fields used here: ulfius.h struct _u_instance. A slot [None] of the array is
    uninitialised memory. *)
Record instance := mk_inst { endpoint_list : option (list (option endpoint)); nb_endpoints : nat }.
(** ulfius.c:1698-1699 *)
Definition init_instance : instance := mk_inst None 0.

(** ulfius.c:1357-1372 ulfius_copy_endpoint to a slot: every field is copied *)
Definition copy_endpoint (arr : list (option endpoint)) (i : nat) (e : endpoint) : outcome (Z * list (option endpoint)) :=
  do a <- aset arr i (Some e);
  Ret (if is_valid_endpoint e false then U_OK else U_ERROR_MEMORY, a).

(** ulfius.c:1426-1464 ulfius_add_endpoint *)
Definition add_endpoint (u : instance) (e : endpoint) : outcome (Z * instance) :=
  if is_valid_endpoint e false then
    let '(arr, n) := match endpoint_list u with
                     | None => ([None; None], 1%nat)
                     | Some l => (arealloc l (S (nb_endpoints u) + 1) None, S (nb_endpoints u))
                     end in
    do r <- copy_endpoint arr (n - 1) e;
    let '(res, arr1) := r in
    if negb (res =? U_OK) then Ret (res, mk_inst (Some arr1) n)
    else do r2 <- copy_endpoint arr1 n empty_endpoint;
         Ret (U_OK, mk_inst (Some (snd r2)) n)
  else Ret (U_ERROR_PARAMS, u).

(** reading an endpoint slot *)
Definition ep_at (arr : list (option endpoint)) (i : nat) : outcome endpoint :=
  do s <- aget arr i; match s with Some e => Ret e | None => UB Uninit end.

(** ulfius.c:1466-1481 ulfius_add_endpoint_list: an array of pointers, [None] = NULL pointer.
    ulfius_equals_endpoints(NULL, _) is 1, so NULL ends the list like an empty endpoint. *)
Fixpoint add_endpoint_list (u : instance) (l : list (option endpoint)) : outcome (Z * instance) :=
  match l with
  | [] => UB OutOfBounds
  | None :: _ => Ret (U_OK, u)
  | Some e :: r =>
      if equals_endpoints e empty_endpoint then Ret (U_OK, u)
      else do x <- add_endpoint u e;
           if fst x =? U_OK then add_endpoint_list (snd x) r else Ret x
  end.

(** orcania trimcharacter(s, '/'): leading and trailing separators removed *)
Fixpoint triml (c : Z) (s : str) : str :=
  match s with x :: r => if x =? c then triml c r else s | [] => [] end.
Definition trimc (c : Z) (s : str) : str := rev (triml c (rev (triml c s))).
Definition otrim (o : option str) : option str := match o with Some s => Some (trimc 47 s) | None => None end.

(** ulfius.c:1508-1510 endpoint_list[j] = endpoint_list[j+1] for j in [i, i+n) *)
Fixpoint ep_shift (arr : list (option endpoint)) (i n : nat) : outcome (list (option endpoint)) :=
  match n with
  | O => Ret arr
  | S n' => do x <- aget arr (i + 1); do a <- aset arr i x; ep_shift a (S i) n'
  end.

(** ulfius.c:1492-1523 the loop, [n] = i+1 *)
Fixpoint remove_ep_loop (arr : list (option endpoint)) (nb : nat) (t : endpoint) (n : nat) (found : bool)
  : outcome (bool * (list (option endpoint) * nat)) :=
  match n with
  | O => Ret (found, (arr, nb))
  | S i =>
      do e <- ep_at arr i;
      if ostr_eqb (http_method e) (http_method t) && ostr_eqb (otrim (url_prefix e)) (otrim (url_prefix t))
         && ostr_eqb (otrim (url_format e)) (otrim (url_format t))
      then do a <- ep_shift arr i (nb - i);
           remove_ep_loop (firstn nb a) (nb - 1) t i true
      else remove_ep_loop arr nb t i found
  end.
(** ulfius.c:1483-1535 ulfius_remove_endpoint; a NULL list is only dereferenced when nb_endpoints > 0 *)
Definition remove_endpoint (u : instance) (t : endpoint) : outcome (Z * instance) :=
  if negb (equals_endpoints t empty_endpoint) && is_valid_endpoint t true then
    match endpoint_list u with
    | None => if (nb_endpoints u =? 0)%nat then Ret (U_ERROR_NOT_FOUND, u) else UB NullDeref
    | Some arr =>
        do r <- remove_ep_loop arr (nb_endpoints u) t (nb_endpoints u) false;
        let '(found, (a, n)) := r in
        Ret (if found then U_OK else U_ERROR_NOT_FOUND, mk_inst (Some a) n)
    end
  else Ret (U_ERROR_PARAMS, u).

(** ulfius.c:1648-1655 the endpoint part of ulfius_clean_instance: the list is freed and set to
    NULL; nb_endpoints is left as it is. *)
Definition clean_endpoints (u : instance) : instance := mk_inst None (nb_endpoints u).

(** The successive results of strtok_r(s, "/", &saveptr) until NULL: the maximal runs of
    characters other than '/'. [cur] is the word being read. *)
Fixpoint words_go (s : str) (cur : str) : list str :=
  match s with
  | [] => match cur with [] => [] | _ => [cur] end
  | c :: r => if c =? 47 then match cur with [] => words_go r [] | _ => cur :: words_go r [] end
              else words_go r (cur ++ [c])
  end.
Definition words (s : str) : list str := words_go s [].
Definition owords (o : option str) : list str := match o with Some s => words s | None => [] end.

(** cur_word[0] == '?' *)
Definition starts_with (c : Z) (w : str) : bool := match w with x :: _ => x =? c | [] => false end.

(** u_request.c:41-95 ulfius_split_url: words of the prefix, then words of the url that do not
    start with '?' *)
Definition split_url (prefix url : option str) : list str :=
  owords prefix ++ filter (fun w => negb (starts_with 63 w)) (owords url).

(** u_request.c:118-130 ulfius_url_format_match; the arrays are NULL-terminated, so a list end
    stands for the NULL element *)
Fixpoint url_format_match (u f : list str) {struct f} : bool :=
  match f with
  | [] => match u with [] => true | _ => false end
  | fw :: fr =>
      if starts_with 42 fw && match fr with [] => true | _ => false end then true
      else match u with
           | [] => false
           | uw :: ur =>
               if negb (starts_with 64 fw) && negb (starts_with 58 fw) && negb (str_eqb fw uw) then false
               else url_format_match ur fr
           end
  end.

(** u_request.c:152 o_strcasecmp(http_method, method) == 0 || http_method[0] == '*' *)
Definition method_match (e : endpoint) (method : str) : outcome bool :=
  match http_method e with
  | None => UB NullDeref
  | Some m => Ret (str_caseeqb m method || starts_with 42 m)
  end.

(** u_request.c:151-177 the loop over the table *)
Fixpoint match_loop (arr : list (option endpoint)) (method : str) (uw : list str) : outcome (list endpoint) :=
  match arr with
  | [] => UB OutOfBounds
  | None :: _ => UB Uninit
  | Some e :: r =>
      if equals_endpoints e empty_endpoint then Ret []
      else do mm <- method_match e method;
           do rest <- match_loop r method uw;
           Ret (if mm && url_format_match uw (split_url (url_prefix e) (url_format e)) then e :: rest else rest)
  end.

(** u_request.c:101-112 compare_endpoint_priorities(a, b) <= 0 *)
Definition prio_le (a b : endpoint) : Prop := priority a <= priority b.

Section Match.
(** libc qsort with compare_endpoint_priorities: a parameter; the theorems require only that
    it returns a sorted permutation *)
Variable qsort : list endpoint -> list endpoint.

(** u_request.c:139-189 ulfius_endpoint_match *)
Definition endpoint_match (method url : option str) (table : option (list (option endpoint))) : outcome (list endpoint) :=
  match method, url, table with
  | Some m, Some u, Some arr => do l <- match_loop arr m (split_url (Some u) None); Ret (qsort l)
  | _, _, _ => Ret (qsort [])
  end.
End Match.

(** bytes up to the first NUL: what C string functions see *)
Fixpoint c_text (l : list Z) : str :=
  match l with [] => [] | c :: r => if c =? 0 then [] else c :: c_text r end.

Section Parse.
(** tolower on bytes above 127 *)
Variable tl : Z -> Z.

(** u_request.c:204-214 the prefix loop: url words left after skipping one per prefix word *)
Fixpoint skip_words (pw uw : list str) : list str :=
  match pw, uw with
  | _ :: pr, _ :: ur => skip_words pr ur
  | _, _ => uw
  end.

(** u_request.c:223-249 the second loop. A word is decoded when it is reached (gcc semantics
    of the shift, see UrlModel); the decoding of skipped words has no effect. *)
Fixpoint parse_loop (check_utf8 : bool) (fw uw : list str) (m : umap) : outcome (Z * umap) :=
  match fw, uw with
  | f :: fr, u :: ur =>
      do raw <- url_decode tl false u;
      let cur := c_text raw in
      let name := tail f in
      if (starts_with 58 f || starts_with 64 f) && (negb check_utf8 || utf8_valid cur) then
        do has <- u_map_has_key m (Some name);
        do v <- (if has : bool then
                   do g <- get_str m name;
                   Ret (match g with Some s => s | None => bs "(null)" end ++ [44] ++ cur)
                 else Ret cur);
        do r <- u_map_put m (Some name) (Some v);
        if fst r =? U_OK then parse_loop check_utf8 fr ur (snd r) else Ret (U_ERROR_MEMORY, snd r)
      else parse_loop check_utf8 fr ur m
  | _, _ => Ret (U_OK, m)
  end.

(** u_request.c:196-260 ulfius_parse_url, map and endpoint not NULL *)
Definition parse_url (url : str) (e : endpoint) (m : umap) (check_utf8 : bool) : outcome (Z * umap) :=
  parse_loop check_utf8 (owords (url_format e)) (skip_words (owords (url_prefix e)) (words url)) m.

(** ulfius.c:641-652 for each endpoint run by the dispatcher: u_map_empty(map_url),
    u_map_copy_into(map_url, &map_url_initial), ulfius_parse_url(url_path, endpoint, map_url) *)
Definition prepare_map_url (map_url initial : umap) (url : str) (e : endpoint) (check_utf8 : bool) : outcome (Z * umap) :=
  do r <- u_map_copy_into (u_map_empty map_url) initial;
  parse_url url e (snd r) check_utf8.
End Parse.
