(** What C110 says about the compressed web site: the answers, the files that stay open and the memory. *)
From Coq Require Import String ZArith Bool List.
From Verif Require Import Base StrModel StaticModel MapMemModel DefMemModel DefMemSpec SiteMemModel.
Import ListNotations.
Open Scope Z_scope.

(** ** The file that is asked for: what follows the prefix, without leading slashes, up to '#' or '?' *)
Fixpoint no_slash (s : str) : str := match s with 47 :: r => no_slash r | _ => s end.
Fixpoint up_to (s : str) : str := match s with [] => [] | c :: r => if (c =? 35) || (c =? 63) then [] else c :: up_to r end.
Definition name_of (c : gconfig) (url : str) : str :=
  match up_to (no_slash (skipn (olen (g_prefix c)) url)) with [] => bs "index.html" | s => s end.
(** ftell at its end, and the bytes that can be read *)
Definition readable (w : fsystem) (c : gconfig) (s : str) : option (Z * list Z) :=
  match g_root c with
  | None => None
  | Some root =>
      let p := root ++ bs "/" ++ s in
      match fs_real w p with Some q => if prefixb root q then fs_open w p else None | None => None end
  end.

(** ** The answers *)
Definition gone_answer (c : gconfig) : ganswer :=
  match g_redirect c with None => mk_ganswer U_CALLBACK_IGNORE 0 NoBytes None | Some _ => mk_ganswer U_CALLBACK_CONTINUE 302 NoBytes None end.
Definition error_answer : ganswer := mk_ganswer U_CALLBACK_ERROR 0 NoBytes None.
Definition plain_answer (w : fsystem) (c : gconfig) (s : str) : ganswer :=
  match readable w c s with
  | Some (n, l) => mk_ganswer U_CALLBACK_CONTINUE 200 (if (0 <=? n) && (n <=? zlen l) then Streamed (zfirstn n l) else Hangs) None
  | None => gone_answer c
  end.
Definition zip_answer (gz : bool) (z : list Z) : ganswer :=
  match z with [] => mk_ganswer U_CALLBACK_CONTINUE 0 NoBytes (Some gz) | _ => mk_ganswer U_CALLBACK_CONTINUE 200 (Body z) (Some gz) end.
(** an answer that lacks the body or the header *)
Definition torn_answer (gz : bool) (z : list Z) (a : ganswer) : Prop :=
  v_ret a = U_CALLBACK_CONTINUE /\
  (v_status a = 0 /\ v_body a = NoBytes \/ v_status a = 200 /\ v_body a = Body z) /\ (v_encoding a = None \/ v_encoding a = Some gz).

(** the caches: gzip and deflate *)
Definition acaches := (list (str * list Z) * list (str * list Z))%type.
Definition pick (gz : bool) (k : acaches) : list (str * list Z) := if gz then fst k else snd k.
Definition enter (gz : bool) (s : str) (z : list Z) (k : acaches) : acaches := if gz then (fst k ++ [(s, z)], snd k) else (fst k, snd k ++ [(s, z)]).
Definition known (c : gconfig) (gz : bool) (s : str) (k : acaches) : option (list Z) :=
  if g_cache c then option_map snd (find (fun e => str_eqb (fst e) s) (pick gz k)) else None.
(** the encoding that the request asks for *)
Definition wants (c : gconfig) (q : greq) : option bool :=
  if q_encoded q then None else match q_accept q with None => None | Some a => gmode c a end.

(** ** With memory: the answer, the number of blocks or files that are lost, the caches *)
Definition ideal (c : gconfig) (k : acaches) (v : gvisit) : ganswer * nat * acaches :=
  let q := n_req v in
  let s := name_of c (q_url q) in
  if 0 <? q_pos q then (mk_ganswer U_CALLBACK_IGNORE 0 NoBytes None, 0%nat, k)
  else match wants c q with
  | None => (plain_answer (n_fs v) c s, 0%nat, k)
  | Some gz =>
      match known c gz s k with
      | Some z => (zip_answer gz z, 0%nat, k)
      | None =>
          match readable (n_fs v) c s with
          | None => (gone_answer c, 0%nat, k)
          | Some (n, l) =>
              if g_squeeze c s then
                if n =? 0 then (mk_ganswer U_CALLBACK_CONTINUE 0 NoBytes None, 0%nat, k)
                else if n <? 0 then (error_answer, 0%nat, k)
                else match produced (n_calls v) with
                     | None => (error_answer, 0%nat, k)
                     | Some z => (zip_answer gz z, 0%nat, if g_cache c then enter gz s z k else k)
                     end
              else (plain_answer (n_fs v) c s, 1%nat, k)
          end
      end
  end.
(** the file that a request leaves open *)
Definition left_open (c : gconfig) (k : acaches) (v : gvisit) : nat := snd (fst (ideal c k v)).
(** the requests, one after the other: the answers, the number of files that are left open, the caches *)
Fixpoint ideals (c : gconfig) (k : acaches) (l : list gvisit) : list ganswer * nat * acaches :=
  match l with
  | [] => ([], 0%nat, k)
  | v :: r => let '(a, n, k1) := ideal c k v in let '(rs, n', k2) := ideals c k1 r in (a :: rs, (n + n')%nat, k2)
  end.
(** fewer bytes can be read from a file that is compressed than ftell says *)
Definition truncated (c : gconfig) (v : gvisit) : Prop :=
  exists n l, readable (n_fs v) c (name_of c (q_url (n_req v))) = Some (n, l) /\ zlen l < n.

(** ** When allocations fail *)
Definition served (c : gconfig) (k : acaches) (v : gvisit) (a : ganswer) (n : nat) (k' : acaches) : Prop :=
  let s := name_of c (q_url (n_req v)) in
  (a, n, k') = ideal c k v \/
  (In false (n_grow v) /\ a = error_answer /\ n = 1%nat /\ k' = k) \/
  (In false (n_new v) /\ (n <= left_open c k v)%nat /\
     (k' = k /\ (a = plain_answer (n_fs v) c s \/ a = gone_answer c \/ a = error_answer) \/
      exists gz z, wants c (n_req v) = Some gz /\ torn_answer gz z a /\
        (known c gz s k = Some z /\ k' = k \/ known c gz s k = None /\ produced (n_calls v) = Some z /\ (k' = k \/ k' = enter gz s z k)))).
Inductive all_served (c : gconfig) : acaches -> list gvisit -> list ganswer -> nat -> acaches -> Prop :=
| as_end : forall k, all_served c k [] [] 0 k
| as_more : forall k v l a rs n n' k1 k2, served c k v a n k1 -> all_served c k1 l rs n' k2 -> all_served c k (v :: l) (a :: rs) (n + n') k2.

(** ** What is expected of the visits: the url is a text and has the length of the prefix at least; zlib writes at most what it may write *)
Definition visit_ok (c : gconfig) (v : gvisit) : Prop :=
  cstr (q_url (n_req v)) /\ (olen (g_prefix c) <= List.length (q_url (n_req v)))%nat /\ Forall (fun x : zcall => zlen (snd x) <= 256) (n_calls v).
Definition starved (v : gvisit) : Prop := In false (n_new v).
Definition fed (v : gvisit) : Prop := ~ In false (n_new v) /\ ~ In false (n_grow v).

(** ** The blocks of the caches *)
Definition entries (k : gcache) : list (str * list Z) := map (fun e => (fst e, snd (snd e))) k.
Definition cache_blocks (k : gcache) : list nat := map (fun e => fst (snd e)) k.
Definition site_blocks (s : site) : list nat := cache_blocks (t_gzip s) ++ cache_blocks (t_deflate s).
Definition site_caches (s : site) : acaches := (entries (t_gzip s), entries (t_deflate s)).
