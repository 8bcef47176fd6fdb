(** C102: requests served at the same time from the cache of compressed files. *)
From Coq Require Import String ZArith Bool List Lia.
From Verif Require Import Base OwnModel MapMemModel MapMemSpec CacheModel CacheSpec CacheProofs.
Import ListNotations.
Open Scope Z_scope.
Open Scope list_scope.

(** C102, any number of requests, any order of their steps, files that change at any time: when no thread stores a
    file while another one is looking one up, nothing undefined happens, and the requests are answered as the
    specification says, in which a lookup is one step.
    Partial: the condition on the order, which the lock does not ensure (C102_race_refuted). *)
Theorem C102_exact_partial : forall zip max fs l, zip_ok zip max -> max + 1 < two64 -> Forall action_ok l ->
  exists s0, opened_site fs = Ret s0 /\
    (quiet zip s0 l -> exists s g, serve_all zip s0 l = Ret s /\ a_serves zip (mk_aweb [] fs []) l g /\ g_reqs g = requests s).
Proof.
  intros zip max fs l Z M1 A. destruct (open_ok max fs) as (s0 & E & I). exists s0. split; [exact E|]. intros Q.
  destruct (run_ok zip max Z M1 l s0 _ I Q A) as (s & g & R & S & J). exists s, g. split; [exact R|]. split; [exact S|].
  destruct J as (ik & iv & il & es & _ & _ & _ & _ & _ & _ & _ & J & _). exact J.
Qed.
Print Assumptions C102_exact_partial.

(** C102: when, besides, the files do not change, every request is answered with the compressed content of the file
    it asks for, whether it found it in the cache or stored it. *)
Theorem C102_constant_partial : forall zip max fs l, zip_ok zip max -> max + 1 < two64 -> Forall action_ok l ->
  forallb (fun a => negb (is_write a)) l = true ->
  exists s0, opened_site fs = Ret s0 /\
    (quiet zip s0 l -> exists s, serve_all zip s0 l = Ret s /\ forall name b, In (name, Done b) (w_threads s) -> b = served zip fs name).
Proof.
  intros zip max fs l Z M1 A W. destruct (C102_exact_partial zip max fs l Z M1 A) as (s0 & E & H). exists s0. split; [exact E|]. intros Q.
  destruct (H Q) as (s & g & R & S & RQ). exists s. split; [exact R|]. intros name b I.
  assert (R1 : right_now zip fs g).
  { eapply right_run; [exact S| |exact W]. repeat split; [intros k v []|intros k v []]. }
  destruct R1 as (_ & _ & R1). apply R1. rewrite RQ. unfold requests. apply in_map_iff. exists (name, Done b). auto.
Qed.
Print Assumptions C102_constant_partial.

(** a site, an execution, and what its requests were answered *)
Definition ex_zip (c : list Z) : option (list Z) := Some (31 :: c).
Definition two_files (name : str) : option (list Z) :=
  if str_eqb name (bs "a") then Some (bs "one") else if str_eqb name (bs "b") then Some (bs "second") else None.
Definition gos (t n : nat) : list action := repeat (Go t) n.
Definition answers (l : list action) : outcome (list (str * phase)) :=
  do s0 <- opened_site two_files; do s <- serve_all ex_zip s0 l; Ret (w_threads s).

(** three requests take turns; the last one is answered from the cache *)
Definition turns : list action :=
  [Ask (bs "a"); Ask (bs "b"); Go 0; Go 1; Go 1; Go 0; Go 0; Go 1; Ask (bs "b"); Ask (bs "c")] ++ gos 2 7 ++ gos 3 3 ++ gos 2 6 ++ gos 3 4.
Example C102_ex_run : answers turns =
  Ret [(bs "a", Done (Some (31 :: bs "one"))); (bs "b", Done (Some (31 :: bs "second"))); (bs "b", Done (Some (31 :: bs "second"))); (bs "c", Done None)].
Proof. vm_compute. reflexivity. Qed.
Fixpoint quietb (s : site) (l : list action) : bool :=
  match l with
  | [] => true
  | a :: r =>
      match a with
      | Go t => match nth_error (w_threads s) t with Some (_, Miss) => forallb (fun x => negb (looking (snd x))) (w_threads s) | _ => true end
      | _ => true
      end && match act ex_zip s a with Ret s1 => quietb s1 r | UB _ => true end
  end.
Lemma quietb_ok : forall l s, quietb s l = true -> quiet ex_zip s l.
Proof.
  induction l as [|a l IH]; intros s H; cbn [quietb quiet] in *; auto. apply andb_prop in H. destruct H as [H1 H2]. split.
  - destruct a as [t| |]; cbn [quiet_step]; auto. destruct (nth_error (w_threads s) t) as [[n []]|]; auto. rewrite forallb_forall in H1.
    intros x X. specialize (H1 x X). now destruct (looking (snd x)).
  - destruct (act ex_zip s a); auto.
Qed.
Example C102_ex_quiet : exists s0, opened_site two_files = Ret s0 /\ quiet ex_zip s0 turns /\ Forall action_ok turns /\
  forallb (fun a => negb (is_write a)) turns = true.
Proof.
  eexists. split; [vm_compute; reflexivity|]. split; [apply quietb_ok; vm_compute; reflexivity|]. split; [|reflexivity].
  repeat constructor; discriminate.
Qed.

(** C102 is false of the code: the cache is searched without the lock (static_compressed_inmemory_website_callback.c:346)
    while another request stores a file, and u_map_put_binary moves the array of the names: two requests for two small files
    that never change are enough for a read of memory that was released. *)
Theorem C102_race_refuted : exists fs l, forallb (fun a => negb (is_write a)) l = true /\ Forall action_ok l /\
  (do s0 <- opened_site fs; serve_all ex_zip s0 l) = UB UseAfterFree.
Proof.
  exists two_files, ([Ask (bs "a"); Ask (bs "b")] ++ gos 0 2 ++ [Go 1] ++ gos 0 1 ++ [Go 1]). split; [reflexivity|].
  split; [repeat constructor; discriminate|]. vm_compute. reflexivity.
Qed.
Print Assumptions C102_race_refuted.

(** one file that grows while it is served *)
Definition grown (name : str) : option (list Z) := if str_eqb name (bs "a") then Some (bs "one and more") else None.
(** C102 is false of the code for one file, too: two requests miss it, one stores it, a third one finds it and
    holds a pointer to the value; the file grows, the second request stores it again, the value moves, and the
    third one copies released memory (347). *)
Theorem C102_grown_refuted : exists fs l, (forall a, In a l -> match a with Ask name => name = bs "a" | _ => True end) /\
  (do s0 <- opened_site fs; serve_all ex_zip s0 l) = UB UseAfterFree.
Proof.
  exists two_files, ([Ask (bs "a"); Ask (bs "a")] ++ gos 0 2 ++ gos 1 2 ++ gos 0 1 ++ [Ask (bs "a")] ++ gos 2 4 ++ [Write grown; Go 1] ++ gos 2 3). split.
  - intros a I. repeat destruct I as [<-|I]; try exact Logic.I; try reflexivity. destruct I.
  - vm_compute. reflexivity.
Qed.
Print Assumptions C102_grown_refuted.

(** one file that becomes shorter *)
Definition shorter (name : str) : option (list Z) := if str_eqb name (bs "a") then Some (bs "1") else None.
(** C102 is false of the code when a file changes: two requests miss it, one stores it, the file becomes
    shorter, the other one stores it over the first value (441), whose end stays: the cache holds, and the requests that
    follow get, bytes that are neither the compressed old content nor the compressed new one. No thread reads while another one writes. *)
Theorem C102_mixed_refuted : exists l s0 s b, Forall action_ok l /\ opened_site two_files = Ret s0 /\ quiet ex_zip s0 l /\
  serve_all ex_zip s0 l = Ret s /\ map snd (w_threads s) = [Done (ex_zip (bs "one")); Done (Some b); Done (Some b)] /\
  (forall fs, In fs [two_files; shorter] -> served ex_zip fs (bs "a") <> Some b) /\ b = 31 :: bs "1ne".
Proof.
  exists ([Ask (bs "a"); Ask (bs "a")] ++ gos 0 2 ++ gos 1 2 ++ [Go 0; Write shorter; Go 1; Ask (bs "a")] ++ gos 2 7).
  eexists _, _, _. split; [repeat constructor; discriminate|]. split; [vm_compute; reflexivity|]. split; [apply quietb_ok; vm_compute; reflexivity|].
  split; [vm_compute; reflexivity|]. split; [vm_compute; reflexivity|]. split; [|reflexivity].
  intros fs [<-|[<-|[]]]; vm_compute; discriminate.
Qed.
Print Assumptions C102_mixed_refuted.
