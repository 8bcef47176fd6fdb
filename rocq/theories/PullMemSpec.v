(** What a response that the HTTP client receives should be, and what is left of it when allocations fail (C108). *)
From Coq Require Import String ZArith Bool List.
From Verif Require Import Base UMapModel StrModel ClientSpec MapMemModel MapMemSpec RespMemModel RespMemSpec PullMemModel.
Import ListNotations.
Open Scope Z_scope.

(** ** What the server sent: header lines and bytes; [true]: an allocation fails meanwhile *)
Inductive told := Heard (l : line) | Got (b : list Z).
Definition fails (answers : list bool) : bool := existsb negb answers.
Inductive comes : event -> bool * told -> Prop :=
| comes_line : forall answers l t, written_as l t -> cstr t -> comes (Line answers t) (fails answers, Heard l)
| comes_bytes : forall grow b, comes (Chunk grow b) (negb grow, Got b).

(** the response so far, the number of its fields, the bytes of its body *)
Record astate := mk_astate { as_resp : aresp; as_count : Z; as_body : list Z }.
(** the value of a name, and the map without it; names without case *)
Definition is_name (k : str) (e : str * list Z) : bool := str_caseeqb (fst e) k.
Definition field (k : str) (a : amap) : option (list Z) := match find (is_name k) a with Some e => Some (snd e) | None => None end.
Definition without (k : str) (a : amap) : amap := filter (fun e => negb (is_name k e)) a.
Definition text (v : list Z) : str := match a_text v with Some t => t | None => [] end.
Definition counted (s : astate) (h : amap) : astate := mk_astate (set_header (as_resp s) h) (as_count s + 1) (as_body s).
Definition open (max : Z) (s : astate) : Prop := max = 0 \/ as_count s < max.

(** what is received goes on *)
Inductive hears (max limit : Z) (short : bool) : told -> astate -> astate -> Prop :=
| h_closed : forall n v s, ~ open max s -> hears max limit short (Heard (Field n v)) s s
| h_new : forall n v s, open max s -> field n (ar_header (as_resp s)) = None ->
    hears max limit short (Heard (Field n v)) s (counted s (a_put n (Some v) (ar_header (as_resp s))))
| h_lost : forall n v s, open max s -> field n (ar_header (as_resp s)) = None -> short = true ->
    hears max limit short (Heard (Field n v)) s (counted s (ar_header (as_resp s)))
| h_joined : forall n v s old, open max s -> field n (ar_header (as_resp s)) = Some old ->
    hears max limit short (Heard (Field n v)) s (counted s (a_put n (Some (text old ++ bs ", " ++ v)) (without n (ar_header (as_resp s)))))
| h_emptied : forall n v s old, open max s -> field n (ar_header (as_resp s)) = Some old -> short = true ->
    hears max limit short (Heard (Field n v)) s (counted s (a_put n None (without n (ar_header (as_resp s)))))
| h_dropped : forall n v s old, open max s -> field n (ar_header (as_resp s)) = Some old -> short = true ->
    hears max limit short (Heard (Field n v)) s (counted s (without n (ar_header (as_resp s))))
| h_status : forall t s, hears max limit short (Heard (Status t)) s (mk_astate (set_protocol (as_resp s) (Some t)) (as_count s) (as_body s))
| h_blank : forall s, hears max limit short (Heard Blank) s s
| h_bytes : forall b s, hears max limit short (Got b) s (mk_astate (as_resp s) (as_count s) (kept limit (as_body s ++ b))).
(** libcurl is stopped; the number of blocks lost *)
Inductive stops (limit : Z) : told -> astate -> astate -> nat -> Prop :=
| st_status : forall t s, stops limit (Heard (Status t)) s (mk_astate (set_protocol (as_resp s) None) (as_count s) (as_body s)) 0
| st_bytes : forall b s, kept limit (as_body s ++ b) <> as_body s ->
    stops limit (Got b) s (mk_astate (as_resp s) (as_count s) []) (match as_body s with [] => 0 | _ => 1 end).
(** NULL is printed: a field that is there without a value comes again *)
Inductive nulls (max : Z) : told -> astate -> Prop :=
| nl_field : forall n v s, open max s -> field n (ar_header (as_resp s)) = Some [] -> nulls max (Heard (Field n v)) s.

Inductive performed := All (s : astate) | Stopped (s : astate) (lost : nat) | Null.
Inductive performs (max limit : Z) : list (bool * told) -> astate -> performed -> Prop :=
| pf_all : forall s, performs max limit [] s (All s)
| pf_go : forall short t r s s' x, hears max limit short t s s' -> performs max limit r s' x -> performs max limit ((short, t) :: r) s x
| pf_stop : forall t r s s' n, stops limit t s s' n -> performs max limit ((true, t) :: r) s (Stopped s' n)
| pf_null : forall short t r s, nulls max t s -> performs max limit ((short, t) :: r) s Null.

(** ** The cookies: what o_strdup answers for the line, the domain, the path, the expiration date, the name, the value; what the
    allocations answer while the cookie is added; the cookie *)
Definition baked := (list bool * list bool * curl_cookie)%type.
Definition lent (fields : list bool) (i : nat) (s : str) : option str := if nth i fields true then Some s else None.
Definition as_call (fields : list bool) (c : curl_cookie) : rop :=
  RCookie 0 (c_name c) (lent fields 5 (c_value c)) (lent fields 3 (c_expires c)) (lent fields 1 (c_domain c)) (lent fields 2 (c_path c)).
Definition added (adding : list bool) (a : aresp) (o : rop) (z : Z) (a' : aresp) : Prop := (z, a') = ar_call a o \/ (In false adding /\ ar_fail a o z a').
(** the response with the cookies, or None when NULL is printed *)
Inductive bakes : aresp -> list baked -> option aresp -> Prop :=
| bk_all : forall a, bakes a [] (Some a)
| bk_skip : forall a f ad c r x, nth 0 f true = false -> bakes a r x -> bakes a ((f, ad, c) :: r) x
| bk_add : forall a f ad c r z a' x, nth 0 f true = true -> nth 4 f true = true -> added ad a (as_call f c) z a' -> z = U_OK \/ nth 5 f true = true ->
    bakes a' r x -> bakes a ((f, ad, c) :: r) x
| bk_no_name : forall a f ad c r, nth 0 f true = true -> nth 4 f true = false -> bakes a ((f, ad, c) :: r) None
| bk_no_value : forall a f ad c r z a', nth 0 f true = true -> nth 4 f true = true -> added ad a (as_call f c) z a' -> z <> U_OK -> nth 5 f true = false ->
    bakes a ((f, ad, c) :: r) None.

(** ** A response: what the program has at the end, and the number of blocks lost *)
Record story := mk_story { y_told : list (bool * told); y_cookies : option (list baked) }.
Inductive tells : pull -> story -> Prop :=
| tells_all : forall p l ck, Forall2 comes (p_events p) l ->
    match p_cookies p, ck with
    | None, None => True
    | Some ts, Some cs => ts = map (fun b => (fst b, netscape (snd b))) cs
    | _, _ => False
    end -> tells p (mk_story l ck).
Inductive ending := Back (z : Z) (a : aresp) (lost : nat) | Printed.
Definition had_body (a : aresp) : nat := match ar_body a with Some _ => 1 | None => 0 end.
(** the body replaces the old one, which is lost; no bytes leave it *)
Definition ends (p : pull) (a : aresp) (body : list Z) : ending :=
  match body with
  | [] => Back U_OK a 0
  | _ => if p_body p then Back U_OK (set_body a (Some body)) (had_body a) else Back U_ERROR_MEMORY (set_body a None) (had_body a)
  end.
Inductive pulled (p : pull) (y : story) (a : aresp) : ending -> Prop :=
| pl_stopped : forall s n, performs (p_max p) (p_limit p) (y_told y) (mk_astate a 0 []) (Stopped s n) -> pulled p y a (Back U_ERROR_LIBCURL (as_resp s) n)
| pl_null : performs (p_max p) (p_limit p) (y_told y) (mk_astate a 0 []) Null -> pulled p y a Printed
| pl_curl : forall s, performs (p_max p) (p_limit p) (y_told y) (mk_astate a 0 []) (All s) ->
    p_performs p = false \/ p_status p = false \/ y_cookies y = None -> pulled p y a (Back U_ERROR_LIBCURL (as_resp s) 0)
| pl_cookie : forall s l, performs (p_max p) (p_limit p) (y_told y) (mk_astate a 0 []) (All s) -> p_performs p = true -> p_status p = true ->
    y_cookies y = Some l -> bakes (as_resp s) l None -> pulled p y a Printed
| pl_ends : forall s l a', performs (p_max p) (p_limit p) (y_told y) (mk_astate a 0 []) (All s) -> p_performs p = true -> p_status p = true ->
    y_cookies y = Some l -> bakes (as_resp s) l (Some a') -> pulled p y a (ends p a' (as_body s)).

(** the responses of a program: None when NULL was printed *)
Inductive all_pulled : list aresp -> list (nat * pull) -> list story -> option (list Z * list aresp * nat) -> Prop :=
| ap_nil : forall l, all_pulled l [] [] (Some ([], l, 0%nat))
| ap_skip : forall l i p r y ys x, nth_error l i = None -> all_pulled l r ys x -> all_pulled l ((i, p) :: r) (y :: ys) x
| ap_null : forall l i p r y ys a, nth_error l i = Some a -> pulled p y a Printed -> all_pulled l ((i, p) :: r) (y :: ys) None
| ap_null_later : forall l i p r y ys a z a' n, nth_error l i = Some a -> pulled p y a (Back z a' n) -> all_pulled (set_nth l i a') r ys None ->
    all_pulled l ((i, p) :: r) (y :: ys) None
| ap_back : forall l i p r y ys a z a' n zs l' n', nth_error l i = Some a -> pulled p y a (Back z a' n) ->
    all_pulled (set_nth l i a') r ys (Some (zs, l', n')) -> all_pulled l ((i, p) :: r) (y :: ys) (Some (z :: zs, l', (n + n')%nat)).

(** ** What is asked of libcurl and of the memory. The cookies have a value (C53); a cookie that is added may fail at its first
    allocation only (C97). *)
Definition baked_ok (b : baked) : Prop :=
  curl_ok (snd b) /\ c_value (snd b) <> [] /\ (~ In false (snd (fst b)) \/ hd true (snd (fst b)) = false).
Definition story_ok (y : story) : Prop := match y_cookies y with Some l => Forall baked_ok l | None => True end.
Definition size (e : event) : Z := match e with Line _ t => zlen t | Chunk _ b => zlen b end.
Fixpoint sizes (l : list event) : Z := match l with [] => 0 | e :: r => size e + sizes r end.
Definition all_sizes (l : list (nat * pull)) : Z := fold_right (fun x n => sizes (p_events (snd x)) + n) 0 l.
Definition pull_ok (p : pull) : Prop := 0 <= p_max p /\ 0 <= p_limit p.

(** ** With memory: no allocation fails; the headers that are there have values *)
Definition plenty (p : pull) (y : story) : Prop :=
  p_body p = true /\ Forall (fun x => fst x = false) (y_told y) /\
  match y_cookies y with Some l => Forall (fun b => ~ In false (fst (fst b)) /\ ~ In false (snd (fst b))) l | None => True end.
Definition valued (a : aresp) : Prop := Forall (fun e => snd e <> []) (ar_header a).
(** a name that is there gets the value behind the old one *)
Definition heard (max limit : Z) (s : astate) (x : bool * told) : astate :=
  let h := ar_header (as_resp s) in
  match snd x with
  | Heard (Field n v) =>
      if (max =? 0) || (as_count s <? max) then
        counted s (match field n h with None => a_put n (Some v) h | Some old => a_put n (Some (text old ++ bs ", " ++ v)) (without n h) end)
      else s
  | Heard (Status t) => mk_astate (set_protocol (as_resp s) (Some t)) (as_count s) (as_body s)
  | Heard Blank => s
  | Got b => mk_astate (as_resp s) (as_count s) (kept limit (as_body s ++ b))
  end.
Definition cooked (a : aresp) (b : baked) : aresp := snd (ar_call a (as_call [] (snd b))).
Definition meant (p : pull) (y : story) (a : aresp) : Z * aresp * nat :=
  let s := fold_left (heard (p_max p) (p_limit p)) (y_told y) (mk_astate a 0 []) in
  match p_performs p && p_status p, y_cookies y with
  | true, Some l =>
      let a' := fold_left cooked l (as_resp s) in
      match as_body s with [] => (U_OK, a', 0%nat) | b => (U_OK, set_body a' (Some b), had_body a') end
  | _, _ => (U_ERROR_LIBCURL, as_resp s, 0%nat)
  end.
Fixpoint all_meant (la : list aresp) (l : list (nat * pull)) (ys : list story) : list Z * list aresp * nat :=
  match l, ys with
  | (i, p) :: l', y :: ys' =>
      match nth_error la i with
      | None => all_meant la l' ys'
      | Some a => let '(z, a', n) := meant p y a in let '(zs, la', n') := all_meant (set_nth la i a') l' ys' in (z :: zs, la', (n + n')%nat)
      end
  | _, _ => ([], la, 0%nat)
  end.
