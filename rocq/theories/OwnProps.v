(** C94: the memory of endpoints, of their copies and of the table. *)
From Coq Require Import String ZArith Bool List Lia Sorted Permutation.
From Verif Require Import Base BaseFacts RouterModel RouterSpec RouterProps OwnModel OwnSpec OwnProofs.
Import ListNotations.
Open Scope Z_scope.

(** C94. Endpoints are added and removed, the default endpoint is set, requests begin and end, in
    any order and any number at a time. No block is used after its release or released twice; what
    the pointers show is what the operations mean: each request keeps the endpoints it selected
    when it began, whatever happens to the table; the blocks in use are exactly those reachable
    from the table, the default endpoint and the requests, each from one place only. *)
Theorem C94_exact : forall order ops, orders order -> Forall hop_ok ops ->
  exists s m, hrun order new_server ops = Ret s /\ hmeans_all (mk_meaning [] None []) ops m /\ read_server s = Ret m /\
    NoDup (reachable s) /\ NoDup (h_live (s_heap s)) /\ (forall x, In x (h_live (s_heap s)) <-> In x (reachable s)).
Proof.
  intros order ops OR F. destruct (hrun_ok order ops new_server _ OR sinv_start F) as (s & m & R & M & I).
  exists s, m. split; [exact R|]. split; [exact M|]. split; [now apply sinv_read|].
  destruct I as (hs & _ & _ & _ & _ & O). destruct (owns_spec _ _ O) as (A & B & C). auto.
Qed.
Print Assumptions C94_exact.

(** C94. Cleaning the instance releases everything except what the requests still being served
    hold, and these still read their endpoints; when no request is left, no block is. *)
Theorem C94_released : forall order ops s, orders order -> Forall hop_ok ops -> hrun order new_server ops = Ret s ->
  exists s', shut s = Ret s' /\ (forall x, In x (h_live (s_heap s')) <-> In x (flat_map copies_blocks (s_open s))) /\
    s_open s' = s_open s /\ read_open (s_heap s') (s_open s') = read_open (s_heap s) (s_open s) /\
    (s_open s = [] -> h_live (s_heap s') = []).
Proof.
  intros order ops s OR F R. destruct (hrun_ok order ops new_server _ OR sinv_start F) as (s1 & m & R1 & _ & I).
  rewrite R in R1. injection R1 as <-. destruct I as (hs & T & _ & _ & _ & O). unfold reachable in O.
  destruct (h_clean_ok (s_heap s) (s_inst s) hs _ T O) as (h' & u' & C & O').
  unfold shut. rewrite C. unfold bind. cbn [fst snd]. eexists. split; [reflexivity|]. cbn [s_heap s_open].
  destruct (owns_spec _ _ O') as (A & _ & _). split; [exact A|]. split; [reflexivity|]. split.
  - rewrite (read_open_ok (s_open s) h' _ O') by (intros x X; exact X). symmetry.
    eapply read_open_ok; [exact O|]. intros x X. apply in_or_app. right. apply in_or_app. auto.
  - intros E. rewrite E in A. cbn in A. destruct (h_live h') as [|x l]; auto. exfalso. apply (A x). now left.
Qed.
Print Assumptions C94_released.

(** an order for the examples *)
Fixpoint pins (x : nat * hep) (l : list (nat * hep)) : list (nat * hep) :=
  match l with [] => [x] | y :: r => if h_prio (snd x) <=? h_prio (snd y) then x :: l else y :: pins x r end.
Definition psort (l : list (nat * hep)) : list (nat * hep) := fold_right pins [] l.
Lemma psort_orders : orders psort.
Proof.
  intros l. induction l as [|x l [P S]]; cbn [psort fold_right].
  - split; constructor.
  - fold (psort l). assert (PI : forall x l, Permutation (x :: l) (pins x l)).
    { clear. intros x l. induction l as [|y l IH]; simpl; auto. destruct (_ <=? _); auto.
      eapply perm_trans; [apply perm_swap|]. now constructor. }
    split; [eapply perm_trans; [constructor; exact P|apply PI]|].
    clear P. induction (psort l) as [|y r IH]; simpl.
    + constructor; constructor.
    + inversion S as [|? ? S' F]; subst. destruct (h_prio (snd x) <=? h_prio (snd y)) eqn:E.
      * constructor; auto. apply Z.leb_le in E. constructor; auto. eapply Forall_impl; [|exact F]. cbv beta. intros; lia.
      * apply Z.leb_gt in E. constructor; [now apply IH|].
        eapply Permutation_Forall; [apply PI|]. constructor; auto. lia.
Qed.

(** two requests begin, one endpoint is removed and the default set, a third request begins and the first ends *)
Definition ex_ops : list hop :=
  [Table (EAddList [ep "GET" "/api" "/user/:id" 5 1; ep "GET" "/api" "*" 2 2; ep "POST" "/api" "/user" 0 3]);
   Begin (bs "get") (bs "/api/user/7"); Begin (bs "PUT") (bs "/x"); Table (ERemove (ep "GET" "api" "*/" 0 0));
   Default 9 4; Begin (bs "PUT") (bs "/x"); End 1].
Example C94_ex : orders psort /\ Forall hop_ok ex_ops /\
  match hrun psort new_server ex_ops with
  | Ret s => read_server s = Ret (mk_meaning [ep "GET" "/api" "/user/:id" 5 1; ep "POST" "/api" "/user" 0 3]
               (Some (mk_ep None None None 0 (Some 9) 4))
               [[ep "GET" "/api" "*" 2 2; ep "GET" "/api" "/user/:id" 5 1]; [mk_ep None None None 0 (Some 9) 4]]) /\
      length (h_live (s_heap s)) = 19%nat /\
      match shut s with Ret s' => length (h_live (s_heap s')) = 11%nat | UB _ => False end
  | UB _ => False end /\
  match hrun psort new_server (ex_ops ++ [End 0; End 0]) with
  | Ret s => match shut s with Ret s' => h_live (s_heap s') = [] | UB _ => False end
  | UB _ => False end.
Proof.
  split; [apply psort_orders|]. split.
  - unfold ex_ops. repeat (constructor; [exact Logic.I || (cbn; unfold not_empty_ep; cbn; repeat (constructor; [left; discriminate|]); constructor)|]). constructor.
  - split; [vm_compute; auto|vm_compute; reflexivity].
Qed.

(** C94. What is excluded: the empty endpoint is accepted by ulfius_add_endpoint and becomes an
    endpoint of the table; ulfius_clean_endpoint_list stops at it and the texts of the endpoints
    after it are never released. *)
Theorem C94_empty_endpoint_refuted : forall order e, complete e ->
  exists s s', hrun order new_server [Table (EAdd empty_endpoint); Table (EAdd e)] = Ret s /\ shut s = Ret s' /\
    s_open s = [] /\ h_live (s_heap s') <> [].
Proof.
  intros order [m p f pr cb d] (C1 & C2 & C3). cbn in *. destruct m as [m|]; [|congruence]. destruct cb as [cb|]; [|congruence].
  destruct p as [p|], f as [f|]; try (destruct C3; congruence); cbn; do 2 eexists; (split; [reflexivity|]);
    (split; [reflexivity|]); (split; [reflexivity|]); discriminate.
Qed.
Print Assumptions C94_empty_endpoint_refuted.
Example C94_empty_ex : complete (ep "GET" "/api" "*" 2 2).
Proof. split; [discriminate|]. split; [discriminate|]. left. discriminate. Qed.

(** C94. ulfius_duplicate_endpoint_list: the block has room for pointers, not for endpoints, so the
    copy of the first endpoint already goes outside, whatever the list. *)
Theorem C94_duplicate_refuted : forall e r, http_method e <> None -> duplicate_endpoint_list (e :: r) = UB OutOfBounds.
Proof. intros e r N. unfold duplicate_endpoint_list. cbn. destruct (http_method e); [reflexivity|congruence]. Qed.
Print Assumptions C94_duplicate_refuted.

(** with the size of an endpoint instead, the same loop would copy the list; the terminating empty
    endpoint is not copied, so ulfius_clean_endpoint_list of the copy would read outside it *)
Theorem C94_duplicate_intended : forall l k acc, Forall registered l ->
  duplicate_loop sizeof_endpoint sizeof_endpoint (l ++ [empty_endpoint]) k acc = Ret (acc ++ l).
Proof.
  induction l as [|e l IH]; intros k acc F; cbn [app duplicate_loop].
  - now rewrite app_nil_r.
  - inversion F as [|? ? R F']; subst. unfold registered in R. destruct (http_method e); [|congruence].
    cbv zeta. replace (_ <? _) with false by (symmetry; apply Z.ltb_ge; lia).
    rewrite IH by auto. now rewrite <- app_assoc.
Qed.
Print Assumptions C94_duplicate_intended.
