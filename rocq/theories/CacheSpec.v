(** Specification vocabulary for requests that share a cache of compressed files (C102). *)
From Coq Require Import ZArith Bool List.
From Verif Require Import Base MapMemModel MapMemSpec CacheModel.
Import ListNotations.
Open Scope Z_scope.

(** ** Executions in which nothing is written to the cache while another thread is looking something up in it.
    A lookup lasts from its first read to the copy of the value. *)
Definition looking (ph : phase) : bool :=
  match ph with Load Has O => false | Miss => false | Done _ => false | _ => true end.
Definition quiet_step (s : site) (a : action) : Prop :=
  match a with
  | Go t =>
      match nth_error (w_threads s) t with
      | Some (_, Miss) => forall x, In x (w_threads s) -> looking (snd x) = false
      | _ => True
      end
  | _ => True
  end.
Fixpoint quiet (zip : list Z -> option (list Z)) (s : site) (l : list action) : Prop :=
  match l with
  | [] => True
  | a :: r => quiet_step s a /\ match act zip s a with Ret s1 => quiet zip s1 r | UB _ => True end
  end.

(** ** What the requests mean: a cache is a list of names and values; a request waits, knows that its name is not in
    the cache, or is answered *)
Inductive request := Waiting | Missed | Answered (b : option (list Z)).
Record aweb := mk_aweb { g_cache : amap; g_files : str -> option (list Z); g_reqs : list (str * request) }.
Definition stored (name : str) (z : list Z) (c : amap) : amap := a_change name (fun old => overlay old z 0) c.
Inductive a_act (zip : list Z -> option (list Z)) : aweb -> action -> aweb -> Prop :=
| aa_idle : forall s t, a_act zip s (Go t) s
| aa_hit : forall s t name v, nth_error (g_reqs s) t = Some (name, Waiting) -> In (name, v) (g_cache s) ->
    a_act zip s (Go t) (mk_aweb (g_cache s) (g_files s) (set_nth (g_reqs s) t (name, Answered (Some v))))
| aa_miss : forall s t name, nth_error (g_reqs s) t = Some (name, Waiting) -> ~ In name (map fst (g_cache s)) ->
    a_act zip s (Go t) (mk_aweb (g_cache s) (g_files s) (set_nth (g_reqs s) t (name, Missed)))
| aa_store : forall s t name c z v, nth_error (g_reqs s) t = Some (name, Missed) -> g_files s name = Some c -> c <> [] -> zip c = Some z ->
    In (name, v) (stored name z (g_cache s)) ->
    a_act zip s (Go t) (mk_aweb (stored name z (g_cache s)) (g_files s) (set_nth (g_reqs s) t (name, Answered (Some v))))
| aa_none : forall s t name, nth_error (g_reqs s) t = Some (name, Missed) ->
    (forall c, g_files s name = Some c -> c = [] \/ zip c = None) ->
    a_act zip s (Go t) (mk_aweb (g_cache s) (g_files s) (set_nth (g_reqs s) t (name, Answered None)))
| aa_ask : forall s name, a_act zip s (Ask name) (mk_aweb (g_cache s) (g_files s) (g_reqs s ++ [(name, Waiting)]))
| aa_write : forall s g, a_act zip s (Write g) (mk_aweb (g_cache s) g (g_reqs s)).
Inductive a_serves (zip : list Z -> option (list Z)) : aweb -> list action -> aweb -> Prop :=
| as_nil : forall s, a_serves zip s [] s
| as_cons : forall s a s1 l s2, a_act zip s a s1 -> a_serves zip s1 l s2 -> a_serves zip s (a :: l) s2.

(** a request as it is seen from outside *)
Definition seen (ph : phase) : request := match ph with Miss => Missed | Done b => Answered b | _ => Waiting end.
Definition requests (s : site) : list (str * request) := map (fun x => (fst x, seen (snd x))) (w_threads s).
(** what is asked of the requests and of zlib: names, compressed files that are not empty and fit in memory *)
Definition action_ok (a : action) : Prop := match a with Ask name => name <> [] | _ => True end.
Definition zip_ok (zip : list Z -> option (list Z)) (max : Z) : Prop := forall c z, zip c = Some z -> z <> [] /\ zlen z <= max.
(** what a request is answered when the files do not change *)
Definition served (zip : list Z -> option (list Z)) (g : str -> option (list Z)) (name : str) : option (list Z) :=
  match g name with Some (c :: r) => zip (c :: r) | _ => None end.
Definition is_write (a : action) : bool := match a with Write _ => true | _ => false end.
