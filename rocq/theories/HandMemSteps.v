(** Proofs about the memory of websockets opened by the server (C100): whole runs of a server. *)
From Coq Require Import String ZArith Bool List Lia.
From Verif Require Import Base BaseFacts UMapModel UMapProofs OwnModel OwnSpec OwnProofs MapMemModel MapMemSpec MapMemProofs MapMemPut MapMemRun MapMemSteps
  RespMemModel RespMemSpec RespMemProofs RespMemSteps WsMemModel WsMemSpec WsMemProofs WsMemCalls HandMemModel HandMemSpec HandMemProofs.
Import ListNotations.
Open Scope Z_scope.
Open Scope list_scope.

Definition vread (F : matches_of) (v : option swebsocket) (av : option (list sext)) (es : list (nat * wext)) : Prop :=
  match v, av with
  | None, None => True
  | Some v, Some a => exists es', vok v es' /\ a = map absx es' /\ Forall2 same_ext (map absx es) (map absx es') /\ (Forall (plain_ext F) (map absx es) -> Forall (plain_ext F) (map absx es'))
  | _, _ => False
  end.
Definition vblocks (v : option swebsocket) : list nat := match v with Some v => sws_blocks v | None => [] end.
Definition upgrade_result (F : matches_of) (m : mem) (l : wexts) (es : list (nat * wext)) (u : shake) (ids : list nat) : Prop :=
  exists c m1 l1 v m2 av more, x_upgrade F m l u = Ret (c, (m1, (l1, v))) /\ x_clean_handle_list m1 l1 = Ret m2 /\ later m m2 /\
    vread F v av es /\ c = (match v with Some _ => U_OK | None => U_ERROR end) /\ mowns m2 (vblocks v ++ more ++ ids) /\
    (a_upgrade F (map absx es) u = (c, (av, List.length more)) \/ short m) /\ (Forall (plain_ext F) (map absx es) -> u_mhd u = true -> more = []).

(** the extensions that were offered, or the texts that were compared *)
Lemma offered_ok : forall F m l es u ids, lfit l es -> Forall cset es -> mowns m (wexts_blocks l ++ ids) ->
  exists m3 ok b ans l1 es1 more,
    (do xs <- x_elements m l;
     match u_offer u, l, xs with
     | Some toks, Some (pl, Some (pa, _)), _ :: _ =>
         do x <- x_offers F toks toks m 0 None xs;
         let '(m3, (b, (a, es1))) := x in Ret (m3, (true, (b, (a, Some (pl, Some (pa, es1))))))
     | _, _, _ => let '(ok, (a, m3)) := x_check m (u_list u) in Ret (m3, (ok, (0, (a, l))))
     end) = Ret (m3, (ok, (b, (ans, l1)))) /\ later m m3 /\ lfit l1 es1 /\ Forall cset es1 /\ mowns m3 (wexts_blocks l1 ++ ptr_blocks ans ++ more ++ ids) /\
    ((match u_offer u, map absx es with
      | Some toks, _ :: _ => (true, snd (a_offers F toks toks 0 (map absx es)))
      | _, _ => (checked (u_list u), (map absx es, 0%nat))
      end) = (ok, (map absx es1, List.length more)) \/ short m) /\
    Forall2 same_ext (map absx es) (map absx es1) /\ (Forall (plain_ext F) (map absx es) -> more = [] /\ Forall (plain_ext F) (map absx es1)).
Proof.
  intros F m l es u ids A C W. rewrite (x_elements_ok m l es _ (lfit_ex _ _ A) W).
  2:{ apply incl_appl. destruct A as (pl & [[pa x]|] & -> & H); cbn [spine ptr_blocks wexts_blocks]; intros z Z; [destruct Z as [<-|[<-|[]]]; [now left|right; now left]|exact Z]. }
  unfold bind at 1.
  assert (LIST : exists m3 ok b ans l1 es1 more, (let '(ok, (a, m3)) := x_check m (u_list u) in Ret (m3, (ok, (0, (a, l))))) = Ret (m3, (ok, (b, (ans, l1)))) /\ later m m3 /\ lfit l1 es1 /\ Forall cset es1 /\
     mowns m3 (wexts_blocks l1 ++ ptr_blocks ans ++ more ++ ids) /\ ((checked (u_list u), (map absx es, 0%nat)) = (ok, (map absx es1, List.length more)) \/ short m) /\
     Forall2 same_ext (map absx es) (map absx es1) /\ (Forall (plain_ext F) (map absx es) -> more = [] /\ Forall (plain_ext F) (map absx es1))).
  { destruct (x_check_ok m (u_list u) _ W) as (ok & p & m3 & -> & L & W3 & OK). exists m3, ok, 0, p, l, es, []. split; [reflexivity|]. split; [exact L|]. split; [exact A|]. split; [exact C|].
    split; [mowns_by W3|]. split; [destruct OK as [->|SH]; [now left|now right]|]. split; [apply f2_same|auto]. }
  destruct (u_offer u) as [toks|]; [|exact LIST]. destruct es as [|e es].
  { cbn [map] in *. destruct l as [[pl [[pa x]|]]|]; exact LIST. }
  destruct A as (pl & [[pa x]|] & -> & H); [|discriminate H]. destruct H as [-> _]. cbn [map].
  assert (W1 : mowns m (flat_map xb (e :: es) ++ ptr_blocks (@None (nat * str)) ++ (pl :: pa :: ids))).
  { cbn [wexts_blocks] in W. rewrite xb_map in W. mowns_by W. }
  destruct (x_offers_ok F toks toks (e :: es) m 0 None _ C W1) as (m3 & b & ans & es1 & more & R & L & CS & W3 & EX & SM & PN).
  cbn [map] in R. rewrite R. unfold bind at 1. exists m3, true, b, ans, (Some (pl, Some (pa, map Some es1))), es1, more. split; [reflexivity|]. split; [exact L|]. split.
  { exists pl, (Some (pa, map Some es1)). split; [reflexivity|]. split; [reflexivity|]. intros ->. inversion SM. }
  split; [exact CS|]. split.
  { cbn [wexts_blocks]. rewrite xb_map. mowns_by W3. }
  split; [|split; [exact SM|exact PN]]. destruct EX as [EX|SH]; [left|now right]. cbn [map] in EX. now rewrite EX.
Qed.

Lemma len_sws : forall v es, vok v es -> List.length (sws_blocks v) = sws_size (map absx es).
Proof.
  intros v es (p & pm & li & lo & b & exp & q & ex & -> & (pl & ar & -> & H) & CS). unfold sws_blocks, sws_size. cbn [fst snd of_member man_blocks g_in g_out g_exts mlist_blocks l_arr ptr_blocks app length wexts_blocks].
  rewrite <- (len_xb es CS). destruct ar as [[pa x]|].
  - destruct H as [-> N]. rewrite xb_map. destruct es as [|e es]; [contradiction|]. cbn [map negb one_if]. rewrite app_length. cbn [length]. lia.
  - subst es. reflexivity.
Qed.

Lemma upgrade_ok : forall F m l es u ids, lfit l es -> Forall cset es -> mowns m (wexts_blocks l ++ ids) -> u_thread u = true ->
  (u_onclose u = true -> nth 0 (m_new m) true = true) -> w_memory_ok (WNew false true) (m_new m) -> upgrade_result F m l es u ids.
Proof.
  intros F m l es u ids A C W TH OC MO. unfold upgrade_result, x_upgrade. cbn [w_memory_ok] in MO.
  (* the list goes with the response *)
  assert (GONE : forall m1, mowns m1 (wexts_blocks l ++ ids) -> later m m1 -> short m \/ a_upgrade F (map absx es) u = (U_ERROR, (None, contexts (map absx es))) ->
    exists c m1' l1 v m2 av more, Ret (U_ERROR, (m1, (l, @None swebsocket))) = Ret (c, (m1', (l1, v))) /\ x_clean_handle_list m1' l1 = Ret m2 /\ later m m2 /\
      vread F v av es /\ c = (match v with Some _ => U_OK | None => U_ERROR end) /\ mowns m2 (vblocks v ++ more ++ ids) /\
      (a_upgrade F (map absx es) u = (c, (av, List.length more)) \/ short m) /\ (Forall (plain_ext F) (map absx es) -> u_mhd u = true -> more = [])).
  { intros m1 W1 L1 SH. destruct (clean_list_ok l es m1 ids (lfit_ex _ _ A) W1) as (m2 & E2 & W2 & L2).
    exists U_ERROR, m1, l, None, m2, None, (flat_map ctx es). split; [reflexivity|]. split; [exact E2|]. split; [chain|]. split; [exact Logic.I|]. split; [reflexivity|]. split; [exact W2|]. split.
    - destruct SH as [SH|EQ]; [now right|left]. rewrite EQ. now rewrite (len_contexts es C).
    - intros PL _. exact (proj1 (no_contexts F es C PL)). }
  destruct (x_malloc_ok _ _ W) as (p0 & m1 & E1 & L1 & [(p & -> & W1)|(-> & S1 & W1)]); rewrite E1; destruct (malloc_tl _ _ _ E1) as [T1 N1].
  2:{ destruct N1 as [N1 _]. specialize (N1 eq_refl). destruct (u_onclose u); [specialize (OC eq_refl); congruence|]. apply (GONE m1 W1 L1). now left. }
  destruct (x_init_ws_ok m1 _ W1) as (c & m2 & w & EI & L2 & CASES).
  { rewrite T1, !nth_tl. destruct MO as [MO|MO]; [|exact MO]. destruct N1 as [_ N1]. now specialize (N1 MO). }
  rewrite EI. unfold bind at 1. cbv beta iota.
  destruct CASES as [(CE & SH & -> & W2)|(CE & pm & li & lo & -> & W2)]; rewrite CE; cbn [negb orb].
  { destruct (clear_new_ok m2 p (Some None) (wexts_blocks l ++ ids)) as (m3 & E3 & W3 & L3); [left; auto|].
    go E3. apply (GONE m3 W3); [chain|]. left. apply L1, SH. }
  destruct (u_valid u) eqn:UV; cbn [negb orb].
  2:{ destruct (clear_new_ok m2 p (Some (Some (pm, mk_hman false (Some (Some (li, mk_hlist None 0))) (Some (Some (lo, mk_hlist None 0))) true true 0 (Some None)))) (wexts_blocks l ++ ids)) as (m3 & E3 & W3 & L3); [right; exists pm, li, lo; split; [reflexivity|]; mowns_by W2|].
      go E3. apply (GONE m3 W3); [chain|]. right. unfold a_upgrade. now rewrite UV. }
  assert (W2' : mowns m2 (wexts_blocks l ++ (p :: pm :: li :: lo :: ids))) by mowns_by W2.
  destruct (offered_ok F m2 l es u _ A C W2') as (m3 & ok & b & ans & l1 & es1 & more & R & L3 & A1 & C1 & W3 & EX & SM & PN).
  destruct (x_elements m2 l) as [xs|k] eqn:XE; [|discriminate R]. unfold bind at 1 in R. unfold bind at 1. rewrite R. unfold bind at 1. clear R.
  assert (CHK : exists ok2 pr m4, (if ok then x_check m3 (u_proto u) else (false, (None, m3))) = (ok2, (pr, m4)) /\ later m3 m4 /\
    mowns m4 (ptr_blocks pr ++ (wexts_blocks l1 ++ ptr_blocks ans ++ more ++ (p :: pm :: li :: lo :: ids))) /\ (ok && ok2 = ok && checked (u_proto u) \/ short m3)).
  { destruct ok.
    - destruct (x_check_ok m3 (u_proto u) _ W3) as (ok2 & pr & m4 & -> & L4 & W4 & OK). exists ok2, pr, m4. split; [reflexivity|]. split; [exact L4|]. split; [exact W4|]. destruct OK as [->|SH]; [now left|now right].
    - exists false, None, m3. split; [reflexivity|]. split; [eapply later_refl; eauto|]. split; [exact W3|]. now left. }
  destruct CHK as (ok2 & pr & m4 & -> & L4 & W4 & OK2).
  (* what the handshake means *)
  assert (AU : (ok && ok2 = ok && checked (u_proto u) /\ (forall X, (let '(ok, (l1, n)) := match u_offer u, map absx es with
                          | Some toks, _ :: _ => (true, snd (a_offers F toks toks 0 (map absx es)))
                          | _, _ => (checked (u_list u), (map absx es, 0%nat))
                          end in X ok l1 n) = (X ok (map absx es1) (List.length more) : Z * (option (list sext) * nat)))) \/ short m).
  { destruct EX as [EX|SH]; [|right; apply L1, L2, SH]. destruct OK2 as [OK2|SH]; [|right; apply L1, L2, L3, SH]. left. split; [exact OK2|]. intros X. now rewrite EX. }
  (* the websocket is cleared, the list goes with the response *)
  assert (DROP : forall m5, later m m5 -> mowns m5 (ptr_blocks pr ++ (wexts_blocks l1 ++ ptr_blocks ans ++ more ++ (p :: pm :: li :: lo :: ids))) ->
     short m \/ a_upgrade F (map absx es) u = (U_ERROR, (None, (List.length more + contexts (map absx es1))%nat)) ->
     exists c m1 l0 v m0 av more0,
     (do m6 <- x_free m5 (addr pr); do m7 <- x_free m6 (addr ans);
      (do m1 <- x_clear_sws m7 (p, (Some (Some (pm, mk_hman false (Some (Some (li, mk_hlist None 0))) (Some (Some (lo, mk_hlist None 0))) true true 0 (Some None))), None)); Ret (U_ERROR, (m1, (l1, None)))))
       = Ret (c, (m1, (l0, v))) /\ x_clean_handle_list m1 l0 = Ret m0 /\ later m m0 /\
      vread F v av es /\ c = (match v with Some _ => U_OK | None => U_ERROR end) /\ mowns m0 (vblocks v ++ more0 ++ ids) /\
      (a_upgrade F (map absx es) u = (c, (av, List.length more0)) \/ short m) /\ (Forall (plain_ext F) (map absx es) -> u_mhd u = true -> more0 = [])).
  { intros m5 L5 W5 EQ. destruct (x_free_ptr _ _ _ _ W5) as (m6 & -> & W6 & L6). unfold bind at 1.
    assert (W6' : mowns m6 (ptr_blocks ans ++ (p :: pm :: li :: lo :: (wexts_blocks l1 ++ more ++ ids)))) by mowns_by W6.
    destruct (x_free_ptr _ _ _ _ W6') as (m7 & -> & W7 & L7). unfold bind at 1.
    destruct (clear_new_ok m7 p (Some (Some (pm, mk_hman false (Some (Some (li, mk_hlist None 0))) (Some (Some (lo, mk_hlist None 0))) true true 0 (Some None)))) (wexts_blocks l1 ++ more ++ ids)) as (m8 & E8 & W8 & L8); [right; exists pm, li, lo; split; [reflexivity|exact W7]|]. go E8.
    destruct (clean_list_ok l1 es1 m8 _ (lfit_ex _ _ A1) W8) as (m9 & E9 & W9 & L9).
    exists U_ERROR, m8, l1, None, m9, None, (more ++ flat_map ctx es1). split; [reflexivity|]. split; [exact E9|]. split; [chain|]. split; [exact Logic.I|]. split; [reflexivity|]. split; [cbn [vblocks]; mowns_by W9|]. split.
    - destruct EQ as [SH|EQ]; [now right|left]. rewrite EQ. now rewrite app_length, (len_contexts es1 C1).
    - intros PL _. destruct (PN PL) as [-> PL1]. exact (proj1 (no_contexts F es1 C1 PL1)). }
  assert (L04 : later m m4) by chain.
  destruct (ok && ok2 && u_key u) eqn:ALL.
  2:{ unfold bind at 1. apply (DROP m4 L04 W4). destruct AU as [(OK3 & AU)|SH]; [right|now left]. unfold a_upgrade. rewrite UV.
      rewrite (AU (fun ok l1 n => if ok && checked (u_proto u) && u_key u then (if u_mhd u then if u_headers u then (U_OK, (Some l1, n)) else (U_ERROR, (None, (n + idle_contexts l1)%nat)) else (U_ERROR, (None, (n + sws_size l1)%nat))) else (U_ERROR, (None, (n + contexts l1)%nat)))).
      rewrite <- OK3, ALL. reflexivity. }
  destruct (x_malloc_ok _ _ W4) as (q0 & m5 & -> & L5 & [(q & -> & W5)|(-> & S5 & W5)]).
  2:{ unfold bind at 1. apply (DROP m5); [chain|exact W5|]. left. apply L04, S5. }
  cbn [x_member]. unfold bind at 2.
  rewrite (x_deref_ok _ m5 pm _ _ W5) by (right; do 4 (apply in_or_app; right); right; now left). unfold bind at 2. cbn [fst snd]. cbn [with_exts g_connected g_in g_out g_keep_in g_keep_out]. unfold bind at 1.
  assert (W5' : mowns m5 (ptr_blocks pr ++ (ptr_blocks ans ++ (q :: wexts_blocks l1 ++ more ++ (p :: pm :: li :: lo :: ids))))) by mowns_by W5.
  destruct (x_free_ptr _ _ _ _ W5') as (m6 & -> & W6 & L6). unfold bind at 1.
  destruct (x_free_ptr _ _ _ _ W6) as (m7 & -> & W7 & L7). unfold bind at 1.
  assert (L07 : later m m7) by chain.
  assert (AX : short m \/ a_upgrade F (map absx es) u = (if u_mhd u then if u_headers u then (U_OK, (Some (map absx es1), List.length more)) else (U_ERROR, (None, (List.length more + idle_contexts (map absx es1))%nat)) else (U_ERROR, (None, (List.length more + sws_size (map absx es1))%nat)))).
  { destruct AU as [(OK3 & AU)|SH]; [right|now left]. unfold a_upgrade. rewrite UV.
    rewrite (AU (fun ok l1 n => if ok && checked (u_proto u) && u_key u then (if u_mhd u then if u_headers u then (U_OK, (Some l1, n)) else (U_ERROR, (None, (n + idle_contexts l1)%nat)) else (U_ERROR, (None, (n + sws_size l1)%nat))) else (U_ERROR, (None, (n + contexts l1)%nat)))).
    rewrite <- OK3, ALL. reflexivity. }
  match goal with |- context [Some (pm, ?g)] => set (G := g) end.
  assert (V : forall bb, vok (p, (Some (Some (pm, connect G bb)), Some (q, tt))) es1).
  { intros bb. exists p, pm, li, lo, bb, b, q, l1. split; [reflexivity|]. auto. }
  assert (WV : forall bb, mowns m7 (sws_blocks (p, (Some (Some (pm, connect G bb)), Some (q, tt))) ++ more ++ ids)).
  { intros bb. unfold sws_blocks, G. cbn [fst snd of_member man_blocks connect with_exts g_connected g_keep_in g_keep_out g_expected g_in g_out g_exts mlist_blocks l_arr ptr_blocks]. mowns_by W7. }
  destruct (u_mhd u) eqn:MHD; cbn [negb].
  2:{ exists U_ERROR, m7, None, None, m7, None, (sws_blocks (p, (Some (Some (pm, connect G false)), Some (q, tt))) ++ more). split; [reflexivity|]. split; [reflexivity|]. split; [exact L07|]. split; [exact Logic.I|]. split; [reflexivity|].
      split; [cbn [vblocks app]; rewrite <- app_assoc; apply WV|]. split.
      - destruct AX as [SH|AX]; [now right|left]. rewrite AX, app_length, (len_sws _ _ (V false)), Nat.add_comm. reflexivity.
      - discriminate. }
  destruct (u_headers u) eqn:HD; cbn [negb].
  - rewrite TH. cbn [negb fst snd x_member]. unfold bind at 1. rewrite (x_deref_ok _ m7 pm _ _ (WV false)) by (right; now left). unfold bind at 1. cbn [fst snd].
    exists U_OK, m7, None, (Some (p, (Some (Some (pm, connect G true)), Some (q, tt)))), m7, (Some (map absx es1)), more. split; [reflexivity|]. split; [reflexivity|]. split; [exact L07|].
    split; [exists es1; split; [apply V|]; split; [reflexivity|]; split; [exact SM|intros PL; exact (proj2 (PN PL))]|]. split; [reflexivity|]. split; [cbn [vblocks]; apply WV|]. split.
    + destruct AX as [SH|AX]; [now right|now left].
    + intros PL _. exact (proj1 (PN PL)).
  - destruct (clear_sws_ok m7 _ es1 _ (V false) (WV false)) as (m8 & E8 & W8 & L8). go E8.
    exists U_ERROR, m8, None, None, m8, None, (flat_map idle es1 ++ more). split; [reflexivity|]. split; [reflexivity|]. split; [chain|]. split; [exact Logic.I|]. split; [reflexivity|]. split; [cbn [vblocks app]; rewrite <- app_assoc; exact W8|]. split.
    + destruct AX as [SH|AX]; [now right|left]. rewrite AX, app_length, (len_idle es1 C1), Nat.add_comm. reflexivity.
    + intros PL _. destruct (PN PL) as [-> PL1]. rewrite app_nil_r. exact (proj2 (no_contexts F es1 C1 PL1)).
Qed.

(** ** the program *)
Definition lread (l : wexts) (a : list sext) : Prop := exists es, lfit l es /\ Forall cset es /\ a = map absx es.
Definition wread (v : swebsocket) (a : list sext) : Prop := exists es, vok v es /\ a = map absx es.
Definition hpinv (s : hprog) (st : hstate) (gone : list nat) : Prop :=
  Forall2 lread (h_resps s) (fst st) /\ Forall2 wread (h_wss s) (snd st) /\ mowns (h_mem s) (hprog_blocks s ++ gone).

Lemma x_add_sext_ok : forall m l es name rsv f ids, lfit l es -> Forall cset es -> mowns m (wexts_blocks l ++ ids) ->
  exists c m' l', x_add_sext m l name rsv f = Ret (c, (m', l')) /\ later m m' /\ mowns m' (wexts_blocks l' ++ ids) /\
    (c = U_OK /\ lread l' (map absx es ++ [mk_sext (Some name) None rsv f false false]) \/
     short m /\ (c = U_ERROR_MEMORY /\ l' = l \/ c = U_OK /\ lread l' (map absx es ++ [mk_sext None None rsv f false false]))).
Proof.
  intros m l es name rsv f ids A C W. unfold x_add_sext.
  destruct (x_malloc_ok _ _ W) as (p0 & m1 & -> & L1 & [(pe & -> & W1)|(-> & S1 & W1)]).
  2:{ do 3 eexists. split; [reflexivity|]. split; [exact L1|]. split; [exact W1|]. right. auto. }
  destruct (x_strdup_ok m1 (Some name) _ W1) as (n & m2 & -> & L2 & W2 & TX).
  destruct A as (pl & ar & -> & H). cbn [wexts_blocks] in W2. assert (IP : In pl (ptr_blocks n ++ pe :: (pl :: match ar with None => [] | Some (j, x) => j :: flat_map wext_blocks x end) ++ ids)) by (apply in_or_app; right; right; now left).
  rewrite (x_deref_ok _ m2 pl ar _ W2 IP). unfold bind at 1. cbn [fst snd].
  assert (W3 : mowns m2 (ptr_blocks ar ++ (pl :: pe :: ptr_blocks n ++ flat_map xb es ++ ids))).
  { eapply mowns_ext; [exact W2|]. intros x. destruct ar as [[pa y]|].
    - destruct H as [-> _]. rewrite xb_map. cbn [ptr_blocks]. repeat rewrite ?cnt_app, ?cnt_cons, ?cnt_nil. lia.
    - subst es. cbn [ptr_blocks flat_map]. repeat rewrite ?cnt_app, ?cnt_cons, ?cnt_nil. lia. }
  destruct (x_realloc_ok _ _ _ _ W3) as (pa & m3 & -> & W4 & L3). unfold bind at 1. cbv iota beta.
  set (e := (pe, mk_wext n None rsv f false (Some None))).
  assert (OLD : (match ar with Some (_, a) => a | None => [] end) = map Some es) by (destruct ar as [[j y]|]; [apply H|subst es; reflexivity]). rewrite OLD.
  assert (FIT : lfit (Some (pl, Some (pa, map Some es ++ [Some e]))) (es ++ [e])).
  { exists pl, (Some (pa, map Some es ++ [Some e])). split; [reflexivity|]. split; [now rewrite map_app|]. destruct es; discriminate. }
  assert (CE : Forall cset (es ++ [e])) by (apply Forall_app; split; [exact C|constructor; [discriminate|constructor]]).
  do 3 eexists. split; [reflexivity|]. split; [chain|]. split.
  { eapply mowns_ext; [exact W4|]. intros x. cbn [wexts_blocks]. rewrite flat_map_app, xb_map. cbn [flat_map wext_blocks e x_server x_client x_context of_member ptr_blocks].
    repeat rewrite ?cnt_app, ?cnt_cons, ?cnt_nil. lia. }
  destruct TX as [TX|(-> & SH & _)].
  - left. split; [reflexivity|]. exists (es ++ [e]). split; [exact FIT|]. split; [exact CE|]. rewrite map_app. change (map absx [e]) with [mk_sext (ptext n) None rsv f false false]. now rewrite TX.
  - right. split; [apply L1, SH|]. right. split; [reflexivity|]. exists (es ++ [e]). split; [exact FIT|]. split; [exact CE|]. now rewrite map_app.
Qed.

Lemma hpick : forall s st gone i l, hpinv s st gone -> nth_error (h_resps s) i = Some l ->
  exists es rest, lfit l es /\ Forall cset es /\ nth_error (fst st) i = Some (map absx es) /\ mowns (h_mem s) (wexts_blocks l ++ rest) /\
    (forall m' l' a' more, lread l' a' -> mowns m' (wexts_blocks l' ++ more ++ rest) -> hpinv (mk_hprog m' (set_nth (h_resps s) i l') (h_wss s)) (set_nth (fst st) i a', snd st) (more ++ gone)) /\
    (forall m' v av more, Forall2 wread (match v with Some v => [v] | None => [] end) (match av with Some a => [a] | None => [] end) -> mowns m' (vblocks v ++ more ++ rest) ->
       hpinv (mk_hprog m' (drop i (h_resps s)) (h_wss s ++ match v with Some v => [v] | None => [] end)) (drop i (fst st), snd st ++ match av with Some a => [a] | None => [] end) (more ++ gone)).
Proof.
  intros s st gone i l (F & V & W) N. destruct (pick2 _ _ _ _ _ _ _ F N) as (u & w & u' & a & w' & EU & EA & Lu & Lu' & Fu & (es & A & C & ->) & Fw).
  exists es, (flat_map wexts_blocks u ++ flat_map wexts_blocks w ++ flat_map sws_blocks (h_wss s) ++ gone). split; [exact A|]. split; [exact C|]. split; [rewrite EA, <- Lu'; apply nth_mid|]. split; [|split].
  - eapply mowns_ext; [exact W|]. intros x. unfold hprog_blocks. rewrite EU, flat_map_app. cbn [flat_map]. repeat rewrite ?cnt_app. lia.
  - intros m' l' a' more R W'. split; [|split; [exact V|]].
    + cbn [h_resps fst]. rewrite EU, EA. rewrite <- Lu at 1. rewrite <- Lu'. rewrite !set_nth_mid. apply f2_app; [exact Fu|]. constructor; assumption.
    + cbn [h_mem]. eapply mowns_ext; [exact W'|]. intros x. unfold hprog_blocks. cbn [h_resps h_wss]. rewrite EU. rewrite <- Lu. rewrite set_nth_mid, flat_map_app. cbn [flat_map]. repeat rewrite ?cnt_app. lia.
  - intros m' v av more R W'. split; [|split].
    + cbn [h_resps fst]. rewrite EU, EA. rewrite <- Lu at 1. rewrite <- Lu'. rewrite !drop_mid. apply f2_app; assumption.
    + cbn [h_wss snd]. apply f2_app; [exact V|exact R].
    + cbn [h_mem]. eapply mowns_ext; [exact W'|]. intros x. unfold hprog_blocks. cbn [h_resps h_wss]. rewrite EU. rewrite <- Lu. rewrite drop_mid, !flat_map_app.
      assert (EV : flat_map sws_blocks (match v with Some v => [v] | None => [] end) = vblocks v) by (destruct v; cbn [flat_map vblocks]; [apply app_nil_r|reflexivity]). rewrite EV. repeat rewrite ?cnt_app. lia.
Qed.
Lemma hstep_ok : forall F s st gone o, hpinv s st gone -> hop_ok o -> h_memory_ok o (m_new (h_mem s)) ->
  exists c s' st' more, hstep F s o = Ret (c, s') /\ hpinv s' st' (more ++ gone) /\
    (a_hstep F st o = (c, (st', List.length more)) \/ (short (h_mem s) /\ a_hstep_fail F st o c st' (List.length more))).
Proof.
  intros F s st gone o P OK MO. destruct o as [|i name rsv f|i u|i|j]; cbn [hstep a_hstep hop_ok h_memory_ok] in *.
  - destruct P as (FR & FV & W). destruct (x_malloc_ok _ _ W) as (p0 & m1 & -> & L1 & [(p & -> & W1)|(-> & S1 & W1)]).
    + exists U_OK. eexists. exists (fst st ++ [[]], snd st), []. split; [reflexivity|]. split; [|left; reflexivity]. split; [|split; [exact FV|]].
      * cbn [h_resps fst]. apply f2_app; [exact FR|]. constructor; [|constructor]. exists []. split; [exists p, None; auto|]. split; [constructor|reflexivity].
      * cbn [h_mem app]. eapply mowns_ext; [exact W1|]. intros x. unfold hprog_blocks. cbn [h_resps h_wss]. rewrite flat_map_app. cbn [flat_map wexts_blocks]. repeat rewrite ?cnt_app, ?cnt_cons, ?cnt_nil. lia.
    + exists U_ERROR_MEMORY. eexists. exists st, []. split; [reflexivity|]. split; [split; [exact FR|split; [exact FV|exact W1]]|]. right. cbn [a_hstep_fail length]. auto.
  - destruct (nth_error (h_resps s) i) as [l|] eqn:N.
    + destruct (hpick _ _ _ _ _ P N) as (es & rest & A & C & NA & W & PUT & _). rewrite NA.
      destruct (x_add_sext_ok _ l es name rsv f rest A C W) as (c & m1 & l1 & -> & L1 & W1 & RES). unfold bind. cbv iota beta.
      destruct RES as [(-> & R)|(SH & [(-> & ->)|(-> & R)])].
      * do 2 eexists. exists (set_nth (fst st) i (map absx es ++ [mk_sext (Some name) None rsv f false false]), snd st), []. split; [reflexivity|]. split; [apply PUT; assumption|]. left. reflexivity.
      * do 2 eexists. exists st, []. split; [reflexivity|]. split.
        { assert (RL : lread l (map absx es)) by (exists es; auto). pose proof (PUT m1 l (map absx es) [] RL W1) as P1.
          assert (EQ : forall (A : Type) (x : list A) k y, nth_error x k = Some y -> set_nth x k y = x).
          { intros T x. induction x as [|z x IHx]; intros [|k] y Y; cbn in *; try congruence. f_equal. now apply IHx. }
          rewrite (EQ _ _ _ _ N), (EQ _ _ _ _ NA) in P1. rewrite (EQ _ _ _ _ N). destruct st as [s1 s2]. exact P1. }
        right. split; [exact SH|]. cbn [a_hstep_fail length]. auto.
      * do 2 eexists. exists (set_nth (fst st) i (map absx es ++ [mk_sext None None rsv f false false]), snd st), []. split; [reflexivity|]. split; [apply PUT; assumption|]. right. split; [exact SH|].
        cbn [a_hstep_fail length]. split; [|reflexivity]. right. exists (map absx es). auto.
    + destruct P as (FR & FV & W). rewrite (pick2_none _ _ _ _ _ _ FR N). do 2 eexists. exists st, []. split; [reflexivity|]. split; [split; [exact FR|split; [exact FV|exact W]]|]. left. reflexivity.
  - destruct (nth_error (h_resps s) i) as [l|] eqn:N.
    + destruct (hpick _ _ _ _ _ P N) as (es & rest & A & C & NA & W & _ & DROP). rewrite NA. destruct MO as [OC MO].
      destruct (upgrade_ok F _ l es u rest A C W OK OC MO) as (c & m1 & l1 & v & m2 & av & more & -> & E2 & L2 & VR & CC & W2 & EX & PN). unfold bind at 1. cbv iota beta. rewrite E2. unfold bind at 1.
      assert (FV : Forall2 wread (match v with Some v => [v] | None => [] end) (match av with Some a => [a] | None => [] end)).
      { destruct v as [v|], av as [a|]; cbn [vread] in VR; try contradiction; constructor; [|constructor]. destruct VR as (es' & V & -> & _). exists es'. auto. }
      do 2 eexists. eexists. exists more. split; [reflexivity|]. split; [apply (DROP m2 v av more FV W2)|]. destruct EX as [EX|SH]; [left; now rewrite EX|right]. split; [exact SH|]. cbn [a_hstep_fail].
      exists (map absx es). split; [exact NA|]. split; [|intros PL MH; rewrite (PN PL MH); reflexivity]. destruct v as [v|], av as [a|]; cbn [vread] in VR; try contradiction.
      * right. destruct VR as (es' & V & -> & SM & PP). exists (map absx es'). auto.
      * left. split; [exact CC|]. now rewrite app_nil_r.
    + destruct P as (FR & FV & W). rewrite (pick2_none _ _ _ _ _ _ FR N). do 2 eexists. exists st, []. split; [reflexivity|]. split; [split; [exact FR|split; [exact FV|exact W]]|]. left. reflexivity.
  - destruct (nth_error (h_resps s) i) as [l|] eqn:N.
    + destruct (hpick _ _ _ _ _ P N) as (es & rest & A & C & NA & W & _ & DROP). rewrite NA.
      destruct (clean_list_ok l es _ rest (lfit_ex _ _ A) W) as (m1 & -> & W1 & L1). unfold bind.
      pose proof (DROP m1 None None (flat_map ctx es) (Forall2_nil _) W1) as P1. rewrite !app_nil_r in P1. do 2 eexists. eexists. exists (flat_map ctx es). split; [reflexivity|]. split; [exact P1|]. left. now rewrite (len_contexts es C).
    + destruct P as (FR & FV & W). rewrite (pick2_none _ _ _ _ _ _ FR N). do 2 eexists. exists st, []. split; [reflexivity|]. split; [split; [exact FR|split; [exact FV|exact W]]|]. left. reflexivity.
  - destruct P as (FR & FV & W). destruct (nth_error (h_wss s) j) as [v|] eqn:N.
    + destruct (pick2 _ _ _ _ _ _ _ FV N) as (u & w & u' & a & w' & EU & EA & Lu & Lu' & Fu & (es & V & ->) & Fw).
      assert (NA : nth_error (snd st) j = Some (map absx es)) by (rewrite EA, <- Lu'; apply nth_mid). rewrite NA.
      assert (W1 : mowns (h_mem s) (sws_blocks v ++ (flat_map wexts_blocks (h_resps s) ++ flat_map sws_blocks u ++ flat_map sws_blocks w ++ gone))).
      { eapply mowns_ext; [exact W|]. intros x. unfold hprog_blocks. rewrite EU, flat_map_app. cbn [flat_map]. repeat rewrite ?cnt_app. lia. }
      destruct (clear_sws_ok _ v es _ V W1) as (m1 & -> & W2 & L1). unfold bind. do 2 eexists. exists (fst st, drop j (snd st)), (flat_map idle es). split; [reflexivity|]. split.
      * split; [exact FR|]. split.
        -- cbn [h_wss snd]. rewrite EU, EA. rewrite <- Lu at 1. rewrite <- Lu'. rewrite !drop_mid. apply f2_app; assumption.
        -- cbn [h_mem]. eapply mowns_ext; [exact W2|]. intros x. unfold hprog_blocks. cbn [h_resps h_wss]. rewrite EU. rewrite <- Lu. rewrite drop_mid, flat_map_app. repeat rewrite ?cnt_app. lia.
      * left. destruct V as (? & ? & ? & ? & ? & ? & ? & ? & _ & _ & CS). now rewrite (len_idle es CS).
    + rewrite (pick2_none _ _ _ _ _ _ FV N). do 2 eexists. exists st, []. split; [reflexivity|]. split; [split; [exact FR|split; [exact FV|exact W]]|]. left. reflexivity.
Qed.
Lemma hrun_ok : forall F ops s st gone, hpinv s st gone -> Forall (fun x => hop_ok (snd x) /\ h_memory_ok (snd x) (fst x)) ops ->
  exists cs s' st' more, hrun F s ops = Ret (cs, s') /\ h_means F st ops cs st' (List.length more) /\ hpinv s' st' (more ++ gone).
Proof.
  intros F. induction ops as [|[a o] ops IH]; intros s st gone P OK.
  - exists [], s, st, []. split; [reflexivity|]. split; [constructor|exact P].
  - inversion OK as [|? ? [O1 M1] O2]; subst. cbn [fst snd] in O1, M1.
    assert (P0 : hpinv (h_answers s a) st gone) by (destruct P as (FR & FV & W); split; [exact FR|]; split; [exact FV|]; split; [exact (proj1 W)|reflexivity]).
    destruct (hstep_ok F _ st gone o P0 O1 M1) as (c & s1 & st1 & more & R & P1 & EX).
    destruct (IH s1 st1 _ P1 O2) as (cs & s2 & st2 & more2 & R2 & M2 & P2).
    exists (c :: cs), s2, st2, (more2 ++ more). cbn [hrun]. rewrite R. unfold bind at 1. cbn [fst snd]. rewrite R2. unfold bind. cbn [fst snd]. split; [reflexivity|]. split.
    + rewrite app_length, Nat.add_comm. apply hm_step with (st1 := st1); [exact EX|exact M2].
    + rewrite <- app_assoc. exact P2.
Qed.
Lemma hpinv_start : hpinv hstart ([], []) [].
Proof. split; [constructor|]. split; [constructor|]. split; [|reflexivity]. split; [reflexivity|]. split; [|reflexivity]. intros x. change (0 <= 1)%nat. lia. Qed.

(** ** reading the memory *)
Lemma read_sexts_ok : forall m ids es, mowns m ids -> incl (flat_map xb es) ids -> Forall cset es -> read_sexts m (map Some es) = Ret (map absx es).
Proof.
  intros m ids es W. induction es as [|[i e] es IH]; intros I C; [reflexivity|]. inversion C as [|? ? C1 C2]; subst. cbn [map read_sexts]. cbn [flat_map] in I.
  assert (IE : incl (wext_blocks (Some (i, e))) ids) by (intros z Z; apply I; apply in_or_app; now left). cbn [wext_blocks] in IE.
  unfold read_sext. rewrite (x_deref_ok _ m i e _ W) by (apply IE; now left). unfold bind at 2. cbn [snd].
  rewrite (read_text_ok m ids (x_server e) W) by (intros z Z; apply IE; right; apply in_or_app; now left). unfold bind at 2.
  rewrite (read_text_ok m ids (x_client e) W) by (intros z Z; apply IE; right; apply in_or_app; right; apply in_or_app; now left). unfold bind at 2.
  unfold cset in C1. cbn [snd] in C1. unfold absx at 1. cbn [snd]. unfold ctx_of.
  destruct (x_context e) as [[[c []]|]|] eqn:XC; [| |contradiction]; cbn [x_member]; unfold bind at 2.
  - rewrite (x_deref_ok _ m c tt _ W) by (apply IE; right; apply in_or_app; right; apply in_or_app; right; cbn [of_member ptr_blocks]; now left).
    unfold bind at 3. unfold bind at 2. unfold bind at 1. rewrite IH; [reflexivity| |exact C2]. intros z Z; apply I; apply in_or_app; now right.
  - unfold bind at 2. unfold bind at 1. rewrite IH; [reflexivity| |exact C2]. intros z Z; apply I; apply in_or_app; now right.
Qed.
Lemma read_list_ok : forall m ids l a, mowns m ids -> incl (wexts_blocks l) ids -> lread l a -> read_list m l = Ret a.
Proof.
  intros m ids l a W I (es & A & C & ->). unfold read_list. rewrite (x_elements_ok m l es ids (lfit_ex _ _ A) W).
  - unfold bind. apply (read_sexts_ok m ids es W); [|exact C]. intros z Z. apply I. destruct A as (pl & [[pa x]|] & -> & H); cbn [wexts_blocks].
    + destruct H as [-> _]. rewrite xb_map. right. right. exact Z.
    + subst es. destruct Z.
  - intros z Z. apply I. destruct A as (pl & [[pa x]|] & -> & H); cbn [spine ptr_blocks wexts_blocks] in *; [destruct Z as [<-|[<-|[]]]; [now left|right; now left]|exact Z].
Qed.
Lemma read_lists_ok : forall m ids ls a, mowns m ids -> incl (flat_map wexts_blocks ls) ids -> Forall2 lread ls a -> read_lists m ls = Ret a.
Proof.
  intros m ids ls a W I F. induction F as [|l a ls al L F IH]; [reflexivity|]. cbn [read_lists]. cbn [flat_map] in I.
  rewrite (read_list_ok m ids l a W) by (try exact L; intros z Z; apply I; apply in_or_app; now left). unfold bind at 1.
  rewrite IH by (intros z Z; apply I; apply in_or_app; now right). reflexivity.
Qed.
Lemma ws_lists_ok : forall m ids vs a, mowns m ids -> incl (flat_map sws_blocks vs) ids -> Forall2 wread vs a ->
  exists ls, ws_lists m vs = Ret ls /\ Forall2 lread ls a /\ incl (flat_map wexts_blocks ls) ids.
Proof.
  intros m ids vs a W I F. induction F as [|v a vs al L F IH]; [exists []; split; [reflexivity|split; [constructor|intros z []]]|]. cbn [flat_map] in I.
  destruct IH as (ls & R & FL & IL); [intros z Z; apply I; apply in_or_app; now right|].
  destruct L as (es & (p & pm & li & lo & b & exp & q & ex & -> & A & CS) & ->).
  assert (IV : incl (sws_blocks (p, (Some (Some (pm, mk_hman b (Some (Some (li, mk_hlist None 0))) (Some (Some (lo, mk_hlist None 0))) true true exp (Some ex))), Some (q, tt)))) ids) by (intros z Z; apply I; apply in_or_app; now left).
  unfold sws_blocks in IV. cbn [fst snd of_member man_blocks g_in g_out g_exts mlist_blocks l_arr ptr_blocks app] in IV.
  exists (ex :: ls). cbn [ws_lists]. unfold ws_list. cbn [fst snd]. rewrite (use_ok _ _ p (proj1 W)) by (apply IV; now left). unfold bind at 2. cbn [x_member]. unfold bind at 2.
  rewrite (x_deref_ok _ m pm _ _ W) by (apply IV; right; now left). unfold bind at 2. cbn [snd g_exts x_member]. unfold bind at 1. rewrite R. unfold bind. split; [reflexivity|]. split.
  - constructor; [exists es; auto|exact FL].
  - cbn [flat_map]. intros z Z. apply in_app_or in Z as [Z|Z]; [|apply IL, Z]. apply IV. do 4 right. apply in_or_app. now left.
Qed.
Lemma read_hprog_ok : forall s st gone, hpinv s st gone -> read_hprog s = Ret st.
Proof.
  intros s [a b] gone (FR & FV & W). cbn [fst snd] in FR, FV. unfold read_hprog.
  rewrite (read_lists_ok _ _ (h_resps s) a W); [|unfold hprog_blocks; do 2 apply incl_appl; apply incl_refl|exact FR]. unfold bind at 1.
  destruct (ws_lists_ok _ _ (h_wss s) b W) as (ls & -> & FL & IL); [unfold hprog_blocks; apply incl_appl, incl_appr, incl_refl|exact FV|]. unfold bind at 1.
  rewrite (read_lists_ok _ _ _ _ W IL FL). reflexivity.
Qed.

(** ** servers that lose nothing *)
Lemma plain_offer : forall F toks tok l exp, Forall (plain_ext F) l -> Forall (plain_ext F) (fst (snd (a_offer F toks tok exp l))) /\ snd (snd (a_offer F toks tok exp l)) = 0%nat.
Proof.
  intros F toks tok. induction l as [|e l IH]; intros exp P; [split; [constructor|reflexivity]|]. inversion P as [|? ? (P1 & P2 & P3) P4]; subst. cbn [a_offer].
  destruct (IH exp P4) as [I1 I2]. destruct (a_offer F toks tok exp l) as [b [r k]]. cbn [fst snd] in I1, I2. subst k.
  assert (SK : Forall (plain_ext F) (fst (snd (b, (e :: r, (0 + 0)%nat)))) /\ snd (snd (b, (e :: r, (0 + 0)%nat))) = 0%nat) by (cbn [fst snd]; split; [constructor; [unfold plain_ext; auto|exact I1]|reflexivity]).
  destruct (s_on e) eqn:ON; [exact SK|]. rewrite P1. destruct (match s_name e with Some s => str_eqb tok s | None => false end && (Z.land (s_rsv e) exp =? 0)); [|exact SK].
  cbn [fst snd]. rewrite (P3 eq_refl). split; [|reflexivity]. constructor; [|exact P4]. unfold plain_ext, accept. cbn [s_fun s_ctx s_on]. split; [exact P1|]. split; [exact P2|discriminate].
Qed.
Lemma plain_offers : forall F all toks l exp, Forall (plain_ext F) l -> Forall (plain_ext F) (fst (snd (a_offers F toks all exp l))) /\ snd (snd (a_offers F toks all exp l)) = 0%nat.
Proof.
  intros F all. induction toks as [|tok toks IH]; intros l exp P; [auto|]. cbn [a_offers]. destruct (plain_offer F all tok l exp P) as [P1 P2]. destruct (a_offer F all tok exp l) as [b [l1 n]]. cbn [fst snd] in P1, P2. subst n.
  destruct (IH l1 b P1) as [P3 P4]. destruct (a_offers F toks all b l1) as [b2 [l2 k]]. cbn [fst snd] in *. auto.
Qed.
Lemma plain_counts : forall F l, Forall (plain_ext F) l -> contexts l = 0%nat /\ idle_contexts l = 0%nat.
Proof.
  intros F l P. unfold contexts, idle_contexts, number. induction P as [|e l (P1 & P2 & P3) P IH]; [auto|]. cbn [filter]. rewrite P2. exact IH.
Qed.
Lemma plain_upgrade : forall F l u, Forall (plain_ext F) l -> u_mhd u = true -> snd (snd (a_upgrade F l u)) = 0%nat /\ (forall l', fst (snd (a_upgrade F l u)) = Some l' -> Forall (plain_ext F) l').
Proof.
  intros F l u P MH. unfold a_upgrade. destruct (u_valid u); [|cbn [fst snd]; split; [exact (proj1 (plain_counts F l P))|discriminate]].
  assert (G : exists ok l1 n, (match u_offer u, l with Some toks, _ :: _ => (true, snd (a_offers F toks toks 0 l)) | _, _ => (checked (u_list u), (l, 0%nat)) end) = (ok, (l1, n)) /\ n = 0%nat /\ Forall (plain_ext F) l1).
  { destruct (u_offer u) as [toks|]; [|do 3 eexists; split; [reflexivity|auto]]. destruct l as [|e l]; [do 3 eexists; split; [reflexivity|auto]|].
    destruct (plain_offers F toks toks (e :: l) 0 P) as [P1 P2]. destruct (a_offers F toks toks 0 (e :: l)) as [b [l1 n]]. cbn [fst snd] in *. do 3 eexists. split; [reflexivity|auto]. }
  destruct G as (ok & l1 & n & -> & -> & P1). destruct (plain_counts F l1 P1) as [C1 C2]. destruct (ok && checked (u_proto u) && u_key u); [|cbn [fst snd]; split; [now rewrite C1|discriminate]].
  rewrite MH. destruct (u_headers u); cbn [fst snd]; [split; [reflexivity|intros l' E; injection E as <-; exact P1]|split; [now rewrite C2|discriminate]].
Qed.
Definition plain_state (F : matches_of) (st : hstate) : Prop := Forall (Forall (plain_ext F)) (fst st) /\ Forall (Forall (plain_ext F)) (snd st).
Lemma forall_nth : forall A (P : A -> Prop) l i x, Forall P l -> nth_error l i = Some x -> P x.
Proof. intros A P l i x F N. rewrite Forall_forall in F. apply F. now apply nth_error_In in N. Qed.
Lemma in_firstn : forall A (l : list A) n x, In x (firstn n l) -> In x l.
Proof. intros A l n x X. rewrite <- (firstn_skipn n l). apply in_or_app. now left. Qed.
Lemma forall_drop : forall A (P : A -> Prop) l i, Forall P l -> Forall P (drop i l).
Proof. intros A P l i F. unfold drop. rewrite Forall_forall in *. intros x X. apply F. rewrite <- (firstn_skipn (S i) l). apply in_app_or in X as [X|X]; apply in_or_app; [left|right; exact X].
  replace (firstn i l) with (firstn i (firstn (S i) l)) in X by (rewrite firstn_firstn; f_equal; lia). eapply in_firstn; exact X. Qed.
Lemma forall_set : forall A (P : A -> Prop) l i x, Forall P l -> P x -> Forall P (set_nth l i x).
Proof. intros A P l. induction l as [|y l IH]; intros [|i] x F X; inversion F; subst; cbn [set_nth]; constructor; auto. Qed.
Lemma plain_step : forall F st o c st1 k a, plain_state F st -> plain_op F o -> a_hstep F st o = (c, (st1, k)) \/ (In false a /\ a_hstep_fail F st o c st1 k) -> k = 0%nat /\ plain_state F st1.
Proof.
  intros F [ra wa] o c st1 k a [PR PW] PO EX. cbn [fst snd] in PR, PW. destruct EX as [EX|[_ EX]].
  - destruct o as [|i name rsv f|i u|i|j]; cbn [a_hstep plain_op fst snd] in *.
    + injection EX as <- <- <-. split; [reflexivity|]. split; [apply Forall_app; split; [exact PR|repeat constructor]|exact PW].
    + destruct (nth_error ra i) as [l|] eqn:N; injection EX as <- <- <-; (split; [reflexivity|]); [|split; assumption]. split; [|exact PW]. cbn [fst]. apply forall_set; [exact PR|]. apply Forall_app. split; [exact (forall_nth _ _ _ _ _ PR N)|].
      constructor; [|constructor]. unfold plain_ext. cbn. auto.
    + destruct (nth_error ra i) as [l|] eqn:N; [|injection EX as <- <- <-; split; [reflexivity|split; assumption]].
      destruct (plain_upgrade F l u (forall_nth _ _ _ _ _ PR N) PO) as [U1 U2]. destruct (a_upgrade F l u) as [c1 [v n]]. cbn [fst snd] in U1, U2. injection EX as <- <- <-. split; [exact U1|]. split; [apply forall_drop, PR|].
      cbn [snd]. apply Forall_app. split; [exact PW|]. destruct v as [v|]; constructor; [apply U2; reflexivity|constructor].
    + destruct (nth_error ra i) as [l|] eqn:N; injection EX as <- <- <-; [|split; [reflexivity|split; assumption]]. split; [exact (proj1 (plain_counts F l (forall_nth _ _ _ _ _ PR N)))|]. split; [apply forall_drop, PR|exact PW].
    + destruct (nth_error wa j) as [l|] eqn:N; injection EX as <- <- <-; [|split; [reflexivity|split; assumption]]. split; [exact (proj2 (plain_counts F l (forall_nth _ _ _ _ _ PW N)))|]. split; [exact PR|apply forall_drop, PW].
  - destruct o as [|i name rsv f|i u|i|j]; cbn [a_hstep_fail plain_op fst snd] in *; [| | |contradiction|contradiction].
    + destruct EX as (_ & -> & ->). split; [reflexivity|split; assumption].
    + destruct EX as ([(_ & ->)|(l & N & _ & ->)] & ->); (split; [reflexivity|]); [split; assumption|]. split; [|exact PW]. cbn [fst]. apply forall_set; [exact PR|]. apply Forall_app. split; [exact (forall_nth _ _ _ _ _ PR N)|].
      constructor; [|constructor]. unfold plain_ext. cbn. auto.
    + destruct EX as (l & N & EX & LO). pose proof (forall_nth _ _ _ _ _ PR N) as PL. split; [exact (LO PL PO)|]. destruct EX as [(_ & ->)|(l' & _ & _ & PP & ->)]; (split; [apply forall_drop, PR|]); [exact PW|].
      cbn [snd]. apply Forall_app. split; [exact PW|]. constructor; [exact (PP PL)|constructor].
Qed.
Lemma plain_run : forall F st ops cs st' n, h_means F st ops cs st' n -> plain_state F st -> Forall (fun x => plain_op F (snd x)) ops -> n = 0%nat.
Proof.
  intros F st ops cs st' n M. induction M as [|st a o r c st1 k cs st2 n EX M IH]; intros PS PO; [reflexivity|]. inversion PO as [|? ? P1 P2]; subst. cbn [snd] in P1.
  destruct (plain_step _ _ _ _ _ _ _ PS P1 EX) as [-> PS1]. now rewrite (IH PS1 P2).
Qed.

(** an extension that is not used has neither a text nor a context, and its bit is free *)
Definition calm (e : sext) : Prop := s_on e = false -> s_ctx e = false /\ s_text e = None.
Definition free_bit (exp : Z) (e : sext) : Prop := s_on e = false -> Z.land (s_rsv e) exp = 0.
Lemma offer_calm : forall F toks tok l exp, Forall calm l -> Forall (free_bit exp) l -> apart l ->
  let r := a_offer F toks tok exp l in
  snd (snd r) = 0%nat /\ Forall calm (fst (snd r)) /\ Forall (free_bit (fst r)) (fst (snd r)) /\ map s_rsv (fst (snd r)) = map s_rsv l /\
  (forall z, Z.land z exp = 0 -> Forall (fun e => Z.land z (s_rsv e) = 0) l -> Z.land z (fst r) = 0).
Proof.
  intros F toks tok. induction l as [|e l IH]; intros exp C B A; cbn [a_offer]; cbv zeta.
  - cbn [fst snd map]. repeat split; auto; constructor.
  - inversion C as [|? ? C1 C2]; subst. inversion B as [|? ? B1 B2]; subst. unfold apart in A. cbn [map] in A. inversion A as [|? ? A1 A2]; subst.
    specialize (IH exp C2 B2 A2). cbv zeta in IH. destruct (a_offer F toks tok exp l) as [b [r k]]. cbn [fst snd] in IH. destruct IH as (-> & I1 & I2 & I3 & I4).
    assert (AF : Forall (fun x => Z.land (s_rsv e) (s_rsv x) = 0) l) by (apply Forall_map in A1; exact A1).
    assert (NEXT : forall e1, s_rsv e1 = s_rsv e -> s_on e1 = s_on e -> calm e1 ->
       let r0 := (b, (e1 :: r, (0 + 0)%nat)) in snd (snd r0) = 0%nat /\ Forall calm (fst (snd r0)) /\ Forall (free_bit (fst r0)) (fst (snd r0)) /\ map s_rsv (fst (snd r0)) = s_rsv e :: map s_rsv l /\
         (forall z, Z.land z exp = 0 -> Forall (fun e => Z.land z (s_rsv e) = 0) (e :: l) -> Z.land z (fst r0) = 0)).
    { intros e1 E1 E2 C3. cbn [fst snd map]. split; [reflexivity|]. split; [constructor; assumption|]. split.
      - constructor; [|exact I2]. unfold free_bit. rewrite E1, E2. intros ON. apply I4; [exact (B1 ON)|exact AF].
      - split; [now rewrite E1, I3|]. intros z Z1 Z2. inversion Z2; subst. apply I4; assumption. }
    destruct (s_on e) eqn:ON; [apply (NEXT e); auto|]. destruct (C1 ON) as [CX CT]. pose proof (B1 ON) as BB.
    assert (TAKE : forall t ctx, let r0 := (Z.lor exp (s_rsv e), (accept e t true ctx :: l, 0%nat)) in snd (snd r0) = 0%nat /\ Forall calm (fst (snd r0)) /\ Forall (free_bit (fst r0)) (fst (snd r0)) /\ map s_rsv (fst (snd r0)) = s_rsv e :: map s_rsv l /\
         (forall z, Z.land z exp = 0 -> Forall (fun e => Z.land z (s_rsv e) = 0) (e :: l) -> Z.land z (fst r0) = 0)).
    { intros t cx. cbn [fst snd map]. split; [reflexivity|]. split; [constructor; [unfold calm, accept; cbn; discriminate|exact C2]|]. split; [|split; [reflexivity|]].
      - constructor; [unfold free_bit, accept; cbn; discriminate|]. rewrite Forall_forall in *. intros x X XO. rewrite Z.land_lor_distr_r, (B2 x X XO), (Z.land_comm (s_rsv x)), (AF x X). reflexivity.
      - intros z Z1 Z2. inversion Z2; subst. rewrite Z.land_lor_distr_r, Z1. cbn. assumption. }
    destruct (F (s_fun e)) as [f|].
    + destruct (f tok toks) as [| |t].
      * apply (NEXT e); auto.
      * rewrite CX. apply (NEXT (refuse e)); [reflexivity|reflexivity|]. unfold calm, refuse. cbn. auto.
      * rewrite BB. cbn [Z.eqb]. rewrite CX, CT. apply TAKE.
    + destruct ((match s_name e with Some s => str_eqb tok s | None => false end) && (Z.land (s_rsv e) exp =? 0)); [rewrite CT; apply TAKE|apply (NEXT e); auto].
Qed.
Lemma offers_calm : forall F all toks l exp, Forall calm l -> Forall (free_bit exp) l -> apart l ->
  snd (snd (a_offers F toks all exp l)) = 0%nat /\ Forall calm (fst (snd (a_offers F toks all exp l))).
Proof.
  intros F all. induction toks as [|tok toks IH]; intros l exp C B A; [auto|]. cbn [a_offers]. generalize (offer_calm F all tok l exp C B A). cbv zeta. destruct (a_offer F all tok exp l) as [b [l1 n]]. cbn [fst snd].
  intros (-> & C1 & B1 & R1 & _). assert (A1 : apart l1) by (unfold apart; rewrite R1; exact A). destruct (IH l1 b C1 B1 A1) as [I1 I2]. destruct (a_offers F toks all b l1) as [b2 [l2 k]]. cbn [fst snd] in *. auto.
Qed.
Definition fresh_ext (e : sext) : Prop := s_on e = false /\ s_ctx e = false /\ s_text e = None.
Lemma fresh_calm : forall l, Forall fresh_ext l -> Forall calm l /\ Forall (free_bit 0) l /\ contexts l = 0%nat.
Proof.
  intros l F. unfold contexts, number. induction F as [|e l (F1 & F2 & F3) F (I1 & I2 & I3)]; [auto|]. split; [constructor; [intros _; auto|exact I1]|]. split; [constructor; [intros _; apply Z.land_0_r|exact I2]|]. cbn [filter]. now rewrite F2.
Qed.
Lemma calm_idle : forall l, Forall calm l -> idle_contexts l = 0%nat.
Proof.
  intros l F. unfold idle_contexts, number. induction F as [|e l C F IH]; [reflexivity|]. cbn [filter]. destruct (s_on e) eqn:ON; [now rewrite andb_false_r|]. destruct (C ON) as [-> _]. exact IH.
Qed.
Lemma careful_upgrade : forall F l u, Forall fresh_ext l -> apart l -> fst (a_upgrade F l u) = U_OK \/ u_valid u = false \/ (u_offer u = None /\ u_mhd u = true) ->
  snd (snd (a_upgrade F l u)) = 0%nat /\ (forall l', fst (snd (a_upgrade F l u)) = Some l' -> Forall calm l').
Proof.
  intros F l u FR A H. destruct (fresh_calm l FR) as (C & B & CX). unfold a_upgrade in *. destruct (u_valid u); [|cbn [fst snd]; split; [exact CX|discriminate]].
  destruct H as [H|[H|[H MH]]]; [|discriminate|].
  - assert (G : exists ok l1 n, (match u_offer u, l with Some toks, _ :: _ => (true, snd (a_offers F toks toks 0 l)) | _, _ => (checked (u_list u), (l, 0%nat)) end) = (ok, (l1, n)) /\ n = 0%nat /\ Forall calm l1).
    { destruct (u_offer u) as [toks|]; [|do 3 eexists; split; [reflexivity|auto]]. destruct l as [|e l]; [do 3 eexists; split; [reflexivity|auto]|].
      destruct (offers_calm F toks toks (e :: l) 0 C B A) as [P1 P2]. destruct (a_offers F toks toks 0 (e :: l)) as [b [l1 n]]. cbn [fst snd] in *. do 3 eexists. split; [reflexivity|auto]. }
    destruct G as (ok & l1 & n & E & -> & P1). rewrite E in *. destruct (ok && checked (u_proto u) && u_key u); [|discriminate H]. destruct (u_mhd u); [|discriminate H]. destruct (u_headers u); [|discriminate H].
    cbn [fst snd]. split; [reflexivity|]. intros l' X. injection X as <-. exact P1.
  - rewrite H, MH. destruct (checked (u_list u) && checked (u_proto u) && u_key u); [|cbn [fst snd]; split; [now rewrite CX|discriminate]].
    destruct (u_headers u); cbn [fst snd]; [split; [reflexivity|intros l' X; injection X as <-; exact C]|split; [now rewrite (calm_idle l C)|discriminate]].
Qed.
Definition calm_state (st : hstate) : Prop := Forall (Forall fresh_ext) (fst st) /\ Forall (Forall calm) (snd st).
Lemma careful_run : forall F ops st cs st' n, h_means F st (map (pair []) ops) cs st' n -> calm_state st -> careful F st ops -> n = 0%nat.
Proof.
  intros F. induction ops as [|o ops IH]; intros st cs st' n M CS CA; cbn [map] in M; inversion M as [|? ? ? ? ? st1 k cs1 st2 n1 EX M1]; subst; [reflexivity|].
  destruct EX as [EX|[[] _]]. cbn [careful] in CA. destruct CA as [CO CA]. rewrite EX in CA. cbn [fst snd] in CA.
  assert (G : k = 0%nat /\ calm_state st1).
  { clear IH M M1 CA. destruct st as [ra wa]. destruct CS as [PR PW]. cbn [fst snd] in PR, PW. destruct o as [|i name rsv f|i u|i|j]; cbn [a_hstep careful_op fst snd] in *.
    - injection EX as <- <- <-. split; [reflexivity|]. split; [apply Forall_app; split; [exact PR|repeat constructor]|exact PW].
    - destruct (nth_error ra i) as [l|] eqn:N; injection EX as <- <- <-; (split; [reflexivity|]); [|split; assumption]. split; [|exact PW]. cbn [fst]. apply forall_set; [exact PR|]. apply Forall_app. split; [exact (forall_nth _ _ _ _ _ PR N)|].
      constructor; [|constructor]. unfold fresh_ext. cbn. auto.
    - destruct (nth_error ra i) as [l|] eqn:N; [|injection EX as <- <- <-; split; [reflexivity|split; assumption]]. destruct (CO l eq_refl) as [AP H].
      destruct (careful_upgrade F l u (forall_nth _ _ _ _ _ PR N) AP H) as [U1 U2]. destruct (a_upgrade F l u) as [c1 [v m]]. cbn [fst snd] in U1, U2. injection EX as <- <- <-. split; [exact U1|]. split; [apply forall_drop, PR|].
      cbn [snd]. apply Forall_app. split; [exact PW|]. destruct v as [v|]; constructor; [apply U2; reflexivity|constructor].
    - destruct (nth_error ra i) as [l|] eqn:N; injection EX as <- <- <-; [|split; [reflexivity|split; assumption]]. split; [exact (proj2 (proj2 (fresh_calm l (forall_nth _ _ _ _ _ PR N))))|]. split; [apply forall_drop, PR|exact PW].
    - destruct (nth_error wa j) as [l|] eqn:N; injection EX as <- <- <-; [|split; [reflexivity|split; assumption]]. split; [exact (calm_idle l (forall_nth _ _ _ _ _ PW N))|]. split; [exact PR|apply forall_drop, PW]. }
  destruct G as [-> CS1]. now rewrite (IH _ _ _ _ M1 CS1 CA).
Qed.

(** ** runs that have memory *)
Lemma rich_ok : forall ops, Forall hop_ok ops -> Forall (fun x => hop_ok (snd x) /\ h_memory_ok (snd x) (fst x)) (map (pair []) ops).
Proof. intros ops F. apply Forall_forall. intros x X. apply in_map_iff in X as (o & <- & X). cbn [fst snd]. rewrite Forall_forall in F. split; [auto|]. destruct o; cbn; auto. Qed.
Lemma rich_step : forall F st o r cs st' n, h_means F st (([], o) :: r) cs st' n ->
  exists c st1 k cs' n', a_hstep F st o = (c, (st1, k)) /\ h_means F st1 r cs' st' n' /\ cs = c :: cs' /\ n = (k + n')%nat.
Proof. intros F st o r cs st' n M. inversion M as [|st0 a0 o0 r0 c st1 k cs' st2 n' EX M1]; subst. destruct EX as [EX|[[] _]]. exists c, st1, k, cs', n'. auto. Qed.
