(** Proofs about the memory of websockets opened by a client (C101): the calls. *)
From Coq Require Import String ZArith Bool List Lia.
From Verif Require Import Base BaseFacts StrModel UMapModel UMapProofs OwnModel OwnSpec OwnProofs MapMemModel MapMemSpec MapMemProofs MapMemPut MapMemRun MapMemSteps
  RespMemModel RespMemSpec RespMemProofs RespMemSteps WsMemModel WsMemSpec WsMemProofs WsMemCalls HandMemModel HandMemSpec HandMemProofs CliMemModel CliMemSpec CliMemProofs CliMemClear.
Import ListNotations.
Open Scope Z_scope.
Open Scope list_scope.

Lemma some_match : forall A B (l : list A) (x y : B), l <> [] -> match l with [] => x | _ :: _ => y end = y.
Proof. intros A B [|a l] x y H; [contradiction|reflexivity]. Qed.

Section Calls.
Variable E : cenv.
(** ** an extension is added *)
Lemma cadd_ok : forall m pm g conn bits l name rsv f ids, manrel E (Some (pm, g)) conn bits l -> (c_free E f = true -> c_match E f <> None) -> mowns m (man_blocks (Some (pm, g)) ++ ids) ->
  exists c m' g' l' more, x_add_wext m g name rsv f = Ret (c, (m', g')) /\ later m m' /\ manrel E (Some (pm, g')) conn bits l' /\ mowns m' (man_blocks (Some (pm, g')) ++ more ++ ids) /\
    (c = U_OK /\ l' = l ++ [mk_cext (Some name) None rsv f false None] /\ more = [] \/
     short m /\ (c = U_ERROR_MEMORY /\ l' = l /\ (List.length more <= 2)%nat \/ c = U_OK /\ l' = l ++ [mk_cext None None rsv f false None] /\ more = [])).
Proof.
  intros m pm g conn bits l name rsv f ids (pm0 & li & lo & ex & es & EQ & A & G & ->) CF W. injection EQ as <- ->.
  assert (SAME : forall ex1, exfit ex1 es -> manrel E (Some (pm, mk_hman conn (empty_list li) (empty_list lo) true true bits (Some ex1))) conn bits (map cabs es)).
  { intros ex1 A1. exists pm, li, lo, ex1, es. auto. }
  unfold x_add_wext.
  destruct (x_malloc_ok _ _ W) as (p & m1 & -> & L1 & [(pe & -> & W1)|(-> & S1 & W1)]).
  2:{ exists U_ERROR_MEMORY, m1. do 2 eexists. exists []. split; [reflexivity|]. split; [exact L1|]. split; [apply SAME, A|]. split; [exact W1|]. right. split; [exact S1|]. left. cbn [List.length]. split; [reflexivity|]. split; [reflexivity|lia]. }
  destruct (x_strdup_ok m1 (Some name) _ W1) as (n & m2 & -> & L2 & W2 & T2).
  cbn [g_exts x_member]. unfold bind at 1. cbn [man_blocks g_in g_out g_exts of_member empty_list mlist_blocks l_arr] in W2.
  assert (LL2 : later m m2) by chain.
  assert (H : exists l1 m3, (match ex with None => let '(pl, m3) := x_malloc m2 in (at_block pl None, m3) | Some _ => (ex, m2) end) = (l1, m3) /\ later m m3 /\
     ((l1 <> None /\ exfit l1 es /\ mowns m3 (wexts_blocks l1 ++ (ptr_blocks n ++ pe :: pm :: li :: lo :: ids))) \/
      (l1 = None /\ ex = None /\ short m /\ mowns m3 (ptr_blocks n ++ pe :: pm :: li :: lo :: ids)))).
  { destruct ex as [ex|].
    - do 2 eexists. split; [reflexivity|]. split; [exact LL2|]. left. split; [discriminate|]. split; [exact A|]. mowns_by W2.
    - destruct (x_malloc_ok _ _ W2) as (p & m3 & -> & L3 & [(pl & -> & W3)|(-> & S3 & W3)]); do 2 eexists; (split; [reflexivity|]); (split; [chain|]).
      + left. split; [discriminate|]. split; [exact A|]. cbn [at_block wexts_blocks app] in *. mowns_by W3.
      + right. split; [reflexivity|]. split; [reflexivity|]. split; [now apply LL2|]. cbn [wexts_blocks app] in *. mowns_by W3. }
  destruct H as (l1 & m3 & -> & L3 & [(NN & A1 & W3)|(-> & EN & S3 & W3)]).
  2:{ exists U_ERROR_MEMORY, m3. do 2 eexists. exists (pe :: ptr_blocks n). split; [reflexivity|]. split; [exact L3|]. split; [apply SAME, A|]. split.
      { subst ex. cbn [man_blocks g_in g_out g_exts of_member empty_list mlist_blocks l_arr wexts_blocks]. mowns_by W3. }
      right. split; [exact S3|]. left. split; [reflexivity|]. split; [reflexivity|]. destruct n as [[]|]; cbn [ptr_blocks List.length]; lia. }
  destruct l1 as [[il ar]|]; [|now elim NN].
  rewrite (x_deref_ok _ m3 il ar _ W3) by now left. unfold bind at 1. cbn [fst snd].
  assert (W4 : mowns m3 (ptr_blocks ar ++ (il :: flat_map xb es ++ ptr_blocks n ++ pe :: pm :: li :: lo :: ids))).
  { eapply mowns_ext; [exact W3|]. intros x. rewrite cnt_app, (wexts_eq _ _ _ A1). cbn [spine]. repeat rewrite ?cnt_app, ?cnt_cons. lia. }
  destruct (x_realloc_ok _ _ _ _ W4) as (j & m4 & R4 & W5 & L4). go R4. cbn iota beta.
  assert (OLD : (match ar with Some (_, x) => x | None => [] end) = map Some es) by (destruct ar as [[z y]|]; cbn in A1; subst; reflexivity). rewrite OLD.
  set (e := (pe, mk_wext None n rsv f false None)).
  assert (OUT : manrel E (Some (pm, mk_hman conn (empty_list li) (empty_list lo) true true bits (Some (Some (il, Some (j, map Some es ++ [Some e])))))) conn bits (map cabs es ++ [mk_cext (ptext n) None rsv f false None])).
  { exists pm, li, lo, (Some (il, Some (j, map Some (es ++ [e])))), (es ++ [e]). split; [now rewrite map_app|]. split; [reflexivity|]. split; [|now rewrite map_app].
    apply Forall_app. split; [exact G|]. constructor; [|constructor]. split; cbn [snd x_fun x_on]; [exact CF|discriminate]. }
  assert (W6 : mowns m4 (man_blocks (Some (pm, mk_hman conn (empty_list li) (empty_list lo) true true bits (Some (Some (il, Some (j, map Some es ++ [Some e])))))) ++ [] ++ ids)).
  { eapply mowns_ext; [exact W5|]. intros x. unfold e. cbn [man_blocks g_in g_out g_exts of_member wexts_blocks empty_list mlist_blocks l_arr]. rewrite flat_map_app, xb_map. cbn [flat_map wext_blocks x_server x_client x_context of_member ptr_blocks app].
    rewrite !app_nil_r. repeat rewrite ?cnt_app, ?cnt_cons, ?cnt_nil. lia. }
  exists U_OK, m4. do 2 eexists. exists []. split; [reflexivity|]. split; [chain|]. split; [exact OUT|]. split; [exact W6|].
  destruct T2 as [T2|(N2 & S2 & _)]; [left; rewrite T2; auto|right; split; [now apply L1|right; subst n; auto]].
Qed.

(** ** the extensions of the answer *)
Definition mk_hman0 (conn : bool) (li lo : nat) (bits : Z) (ex : wexts) : hman := mk_hman conn (empty_list li) (empty_list lo) true true bits (Some ex).
Lemma answer_ok : forall m pm g conn bits l text ids, manrel E (Some (pm, g)) conn bits l -> mowns m (man_blocks (Some (pm, g)) ++ ids) -> incl (ptr_blocks text) ids ->
  exists ok m' g' bits' l' more, x_answer E m g text = Ret (ok, (m', g')) /\ later m m' /\ manrel E (Some (pm, g')) conn bits' l' /\ mowns m' (man_blocks (Some (pm, g')) ++ more ++ ids) /\
    ((forall s, t_text s = ptext text -> t_bits s = bits -> t_exts s = l -> a_answer E s = (ok, (put_cexts s l' bits', List.length more))) \/ short m) /\
    Forall2 same_cext l l' /\ (Forall (plain_cext E) l -> more = [] /\ Forall (plain_cext E) l').
Proof.
  intros m pm g conn bits l text ids (pm0 & li & lo & ex & es & EQ & A & G & ->) W IN. injection EQ as <- ->.
  assert (MR : manrel E (Some (pm, mk_hman conn (empty_list li) (empty_list lo) true true bits (Some ex))) conn bits (map cabs es)) by (exists pm, li, lo, ex, es; auto).
  unfold x_answer.
  assert (RT : (match text with None => Ret [] | Some _ => do y <- x_deref m text; Ret (snd y) end) = Ret (match ptext text with Some s => s | None => [] end)).
  { destruct text as [[j s]|]; [|reflexivity]. rewrite (x_deref_ok _ m j s _ W); [reflexivity|]. apply in_or_app. right. apply IN. now left. }
  rewrite RT. unfold bind at 1. cbn [g_exts x_member]. unfold bind at 1.
  cbn [man_blocks g_in g_out g_exts of_member empty_list mlist_blocks l_arr] in W.
  assert (W0 : mowns m (wexts_blocks ex ++ (pm :: li :: lo :: ids))) by mowns_by W.
  rewrite (x_elements_ok m ex es _ A W0).
  2:{ apply incl_appl. destruct ex as [[pl [[pa x]|]]|]; cbn [spine ptr_blocks wexts_blocks]; intros z Z; [destruct Z as [<-|[<-|[]]]; [now left|right; now left]|exact Z|exact Z]. }
  unfold bind at 1. cbn [g_expected].
  set (txt := match ptext text with Some s => s | None => [] end).
  assert (NONE : (txt = [] \/ es = []) -> exists ok m' g' bits' l' more, Ret (true, (m, mk_hman conn (empty_list li) (empty_list lo) true true bits (Some ex))) = Ret (ok, (m', g')) /\ later m m' /\ manrel E (Some (pm, g')) conn bits' l' /\ mowns m' (man_blocks (Some (pm, g')) ++ more ++ ids) /\
    ((forall s, t_text s = ptext text -> t_bits s = bits -> t_exts s = map cabs es -> a_answer E s = (ok, (put_cexts s l' bits', List.length more))) \/ short m) /\
    Forall2 same_cext (map cabs es) l' /\ (Forall (plain_cext E) (map cabs es) -> more = [] /\ Forall (plain_cext E) l')).
  { intros H. exists true, m. eexists. exists bits, (map cabs es), []. split; [reflexivity|]. split; [eapply later_refl; eauto|]. split; [exact MR|]. split; [exact W|].
    split; [|split; [apply f2_csame|auto]]. left. intros s T B X. unfold a_answer.
    assert (PS : put_cexts s (map cabs es) bits = s) by (destruct s; cbn in *; subst; reflexivity). rewrite PS.
    rewrite T, X. unfold txt in H. destruct (ptext text) as [[|c t]|]; [reflexivity| |reflexivity]. destruct H as [H| ->]; [discriminate|reflexivity]. }
  destruct txt as [|c t] eqn:TX; [apply NONE; auto|].
  destruct ex as [[pl [[pa x]|]]|]; [|apply NONE; auto|apply NONE; auto].
  cbn [exfit] in A. destruct es as [|e es0] eqn:ES; [cbn [map]; apply NONE; auto|]. rewrite <- ES in *. subst x.
  rewrite some_match by (rewrite ES; discriminate).
  assert (W1 : mowns m (flat_map xb es ++ (pa :: pl :: pm :: li :: lo :: ids))).
  { eapply mowns_ext; [exact W0|]. intros y. cbn [wexts_blocks]. rewrite xb_map. repeat rewrite ?cnt_app, ?cnt_cons. lia. }
  destruct (x_celems_ok E (split_string 44 (c :: t)) es m bits _ G W1) as (m' & b & ok & es' & more & -> & L & G' & W2 & EX & SM & PN). unfold bind. cbn iota beta.
  exists ok, m'. eexists. exists b, (map cabs es'), more. split; [reflexivity|]. split; [exact L|]. split; [|split; [|split; [|auto]]].
  - exists pm, li, lo, (Some (pl, Some (pa, map Some es'))), es'. split; [reflexivity|]. split; [reflexivity|]. auto.
  - cbn [with_exts g_connected g_in g_out g_keep_in g_keep_out man_blocks g_exts of_member empty_list mlist_blocks l_arr wexts_blocks].
    eapply mowns_ext; [exact W2|]. intros y. rewrite xb_map. repeat rewrite ?cnt_app, ?cnt_cons, ?cnt_nil. lia.
  - destruct EX as [EX|SH]; [left|now right]. intros s T B X. unfold a_answer. rewrite T, X, B. unfold txt in TX. destruct (ptext text) as [u|]; [|discriminate]. subst u. rewrite ES at 1. cbn [map].
    rewrite EX. reflexivity.
Qed.
End Calls.
