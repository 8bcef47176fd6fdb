(** C134: the example of callbacks in cascade. *)
From Coq Require Import String ZArith Bool List Lia Sorted Permutation.
From Verif Require Import Base BaseFacts UMapModel SMap RouterModel RouterSpec RouterProofs RouterProps DispatchModel DispatchSpec DispatchProofs DoorModel.
From Verif Require Import LevelModel LevelSpec LevelProofs.
Import ListNotations.
Open Scope Z_scope.

(** nothing undefined happened, and the memory is as before the request *)
Definition tidy (live : list Z) (res : result (outcome shared)) : Prop :=
  (forall ev, In ev (calls res) -> exists s, ev_world ev = Ret s) /\ exists evs last s, calls res = evs ++ [last] /\ ev_world last = Ret s /\ sh_live s = live.

Ltac eqs := repeat match goal with |- context [str_eqb (bs ?a) (bs ?b)] => let v := eval vm_compute in (str_eqb (bs a) (bs b)) in change (str_eqb (bs a) (bs b)) with v end.
Ltac sorted := repeat (constructor; [|repeat (constructor; [unfold prio_lt; cbn; lia|]); constructor]); constructor.
Section Request.
Variables (verb : str) (user password : option str) (tl : Z -> Z) (qsort : list endpoint -> list endpoint) (accepts : str -> str -> bool) (handshake : Z -> list (str * str) + (Z * list Z)) (url : str) (initial map_url : umap).
Variables (live : list Z) (next : Z).
Hypothesis RQ : request_ok url initial.
Hypothesis QS : sorts qsort.
Hypothesis AC : accepts (bs "Access-Control-Allow-Origin") (bs "*") = true.
Hypothesis NEW : Forall (fun a => a < next) live.
Notation req := (multiple verb user password tl qsort accepts handshake url initial map_url (Ret (mk_shared live next None))).
Notation loop := (callback_loop (outcome shared) tl (levels_cb verb user password) accepts handshake (Some (bs "default_realm")) true url initial).
Notation after := (after verb user password accepts).

Definition gives (a : answer) (fs : list Z) : Prop :=
  exists res, req = Ret res /\ answers res = [a] /\ extra res = [] /\ map (fun ev => callback (ev_ep ev)) (calls res) = map Some fs /\ tidy live res.

Lemma get_not_put : str_caseeqb (bs "GET") verb = true -> str_caseeqb (bs "PUT") verb = false.
Proof. unfold str_caseeqb. intros H. apply str_eqb_eq in H. rewrite <- H. reflexivity. Qed.

Lemma run_zero : forall l0 fs rest, StronglySorted prio_lt l0 -> Permutation (chosen (str_caseeqb (bs "GET") verb) (str_caseeqb (bs "PUT") verb) (words url)) l0 ->
  (map callback l0 = [Some 0; Some 5] /\ fs = [0; 5] /\ rest = ["Level zero"%string]) \/
  (map callback l0 = [Some 0; Some 1; Some 5] /\ fs = [0; 1; 5] /\ rest = ["Level zero"; "Level one"]%string) \/
  (map callback l0 = [Some 0; Some 1; Some 2; Some 5] /\ fs = [0; 1; 2; 5] /\ rest = ["Level zero"; "Level one"; "Level two"]%string) \/
  (map callback l0 = [Some 0; Some 1; Some 2; Some 3; Some 5] /\ fs = [0; 1; 2; 3; 5] /\ rest = ["Level zero"; "Level one"; "Level two"; "Level three"]%string) \/
  ((map callback l0 = [Some 0; Some 4; Some 5] \/ map callback l0 = [Some 0; Some 4; Some 2; Some 5]) /\ fs = [0; 4] /\ rest = ["Level zero"; "Level one"]%string) ->
  gives (says 200 (lines rest)) fs.
Proof.
  intros l0 fs rest S P H. unfold gives.
  pose proof (the_run verb user password tl qsort accepts handshake url initial map_url live next QS l0 S P) as R. unfold s0 in R. rewrite R. clear R S P.
  assert (B1 : bs "Level zero" <> []) by discriminate.
  assert (Z0 : forall e rest m, callback e = Some 0 -> rest <> [] -> exists m', loop (e :: rest) (mk_st _ 0 m (resp 200 []) (Ret (mk_shared live next None)) None false 0 None []) =
    loop rest (mk_st _ 1 m' (resp 200 (bs "Level zero")) (Ret (s1 live next)) None false 0 None [mk_event e 0 U_CALLBACK_CONTINUE (resp 200 (bs "Level zero")) (Ret (s1 live next))])).
  { intros e rs m C N. apply (step_on verb user password tl accepts handshake url initial RQ e rs 0 m _ _ [] 0 _ _ C N); [intros m'; apply (cb_zero verb user password live next)|reflexivity|reflexivity]. }
  assert (MO : forall e rest pos m status body tr f text, callback e = Some f -> (f, text) = (1, "Level one"%string) \/ (f, text) = (2, "Level two"%string) \/ (f, text) = (3, "Level three"%string) -> body <> [] -> rest <> [] ->
    exists m', loop (e :: rest) (mk_st _ pos m (resp status body) (Ret (s1 live next)) None false 0 None tr) =
    loop rest (mk_st _ ((pos + 1) mod 4294967296) m' (resp 200 (c_text body ++ [10] ++ bs text)) (Ret (s1 live next)) None false 0 None
      (tr ++ [mk_event e pos U_CALLBACK_CONTINUE (resp 200 (c_text body ++ [10] ++ bs text)) (Ret (s1 live next))]))).
  { intros e rs pos m status body tr f text C FT B N. apply (step_on verb user password tl accepts handshake url initial RQ e rs pos m _ _ tr f _ _ C N); [intros m'; now apply (cb_more verb user password live next)|reflexivity|reflexivity]. }
  assert (FI : forall e pos m status body tr, callback e = Some 5 -> 0 < pos < 10 ->
    after (loop [e] (mk_st _ pos m (resp status body) (Ret (s1 live next)) None false 0 None tr)) = Ret (mk_result [says status body] (tr ++ [mk_event e pos U_CALLBACK_COMPLETE (resp status body) (Ret (s2 live next))]) [])).
  { intros e pos m status body tr C PO.
    destruct (step_stop verb user password tl accepts handshake url initial RQ e [] pos m (resp status body) (Ret (s1 live next)) tr 5 U_CALLBACK_COMPLETE (resp status body) (Ret (s2 live next)) C (or_introl eq_refl)) as (m' & ->); [intros m'; now apply (cb_final verb user password live next)|reflexivity|reflexivity|].
    apply after_complete; [exact AC|]. rewrite Z.mod_small by lia. lia. }
  assert (TI : forall evs last, (forall ev, In ev evs -> ev_world ev = Ret (s1 live next)) -> ev_world last = Ret (s2 live next) -> tidy live (mk_result [says 200 (lines rest)] (evs ++ [last]) [])).
  { intros evs last E1 E2. split; [|exists evs, last, (s2 live next); repeat split; exact E2]. intros ev I. cbn [calls] in I. apply in_app_or in I as [I|[<-|[]]]; eexists; [apply (E1 _ I)|exact E2]. }
  destruct H as [(M & -> & ->)|[(M & -> & ->)|[(M & -> & ->)|[(M & -> & ->)|([M|M] & -> & ->)]]]].
  - destruct l0 as [|a [|b [|c l0]]]; try discriminate M. injection M as CA CB. destruct (Z0 a [b] map_url CA ltac:(discriminate)) as (m1 & ->). rewrite (FI _ _ _ _ _ _ CB) by lia.
    eexists. split; [reflexivity|]. split; [reflexivity|]. split; [reflexivity|]. split; [cbn; now rewrite CA, CB|]. apply TI; [intros ev [<-|[]]; reflexivity|reflexivity].
  - destruct l0 as [|a [|b [|c [|d l0]]]]; try discriminate M. injection M as CA CB CC. destruct (Z0 a [b; c] map_url CA ltac:(discriminate)) as (m1 & ->).
    destruct (MO b [c] 1 m1 200 (bs "Level zero") [mk_event a 0 U_CALLBACK_CONTINUE (resp 200 (bs "Level zero")) (Ret (s1 live next))] 1 "Level one"%string CB ltac:(auto) B1 ltac:(discriminate)) as (m2 & ->). change ((1 + 1) mod 4294967296) with 2. rewrite (FI _ _ _ _ _ _ CC) by lia.
    eexists. split; [reflexivity|]. split; [reflexivity|]. split; [reflexivity|]. split; [cbn; now rewrite CA, CB, CC|]. apply TI; [intros ev [<-|[<-|[]]]; reflexivity|reflexivity].
  - destruct l0 as [|a [|b [|c [|d [|e l0]]]]]; try discriminate M. injection M as CA CB CC CD. destruct (Z0 a [b; c; d] map_url CA ltac:(discriminate)) as (m1 & ->).
    destruct (MO b [c; d] 1 m1 200 (bs "Level zero") [mk_event a 0 U_CALLBACK_CONTINUE (resp 200 (bs "Level zero")) (Ret (s1 live next))] 1 "Level one"%string CB ltac:(auto) B1 ltac:(discriminate)) as (m2 & ->). change ((1 + 1) mod 4294967296) with 2.
    match goal with |- context [loop [c; d] (mk_st _ 2 m2 (resp 200 ?b) _ None false 0 None ?tr)] => destruct (MO c [d] 2 m2 200 b tr 2 "Level two"%string CC ltac:(auto) ltac:(discriminate) ltac:(discriminate)) as (m3 & ->) end.
    change ((2 + 1) mod 4294967296) with 3. rewrite (FI _ _ _ _ _ _ CD) by lia.
    eexists. split; [reflexivity|]. split; [reflexivity|]. split; [reflexivity|]. split; [cbn; now rewrite CA, CB, CC, CD|]. apply TI; [intros ev [<-|[<-|[<-|[]]]]; reflexivity|reflexivity].
  - destruct l0 as [|a [|b [|c [|d [|e [|f l0]]]]]]; try discriminate M. injection M as CA CB CC CD CE. destruct (Z0 a [b; c; d; e] map_url CA ltac:(discriminate)) as (m1 & ->).
    destruct (MO b [c; d; e] 1 m1 200 (bs "Level zero") [mk_event a 0 U_CALLBACK_CONTINUE (resp 200 (bs "Level zero")) (Ret (s1 live next))] 1 "Level one"%string CB ltac:(auto) B1 ltac:(discriminate)) as (m2 & ->). change ((1 + 1) mod 4294967296) with 2.
    match goal with |- context [loop [c; d; e] (mk_st _ 2 m2 (resp 200 ?b) _ None false 0 None ?tr)] => destruct (MO c [d; e] 2 m2 200 b tr 2 "Level two"%string CC ltac:(auto) ltac:(discriminate) ltac:(discriminate)) as (m3 & ->) end.
    change ((2 + 1) mod 4294967296) with 3.
    match goal with |- context [loop [d; e] (mk_st _ 3 m3 (resp 200 ?b) _ None false 0 None ?tr)] => destruct (MO d [e] 3 m3 200 b tr 3 "Level three"%string CD ltac:(auto) ltac:(discriminate) ltac:(discriminate)) as (m4 & ->) end.
    change ((3 + 1) mod 4294967296) with 4. rewrite (FI _ _ _ _ _ _ CE) by lia.
    eexists. split; [reflexivity|]. split; [reflexivity|]. split; [reflexivity|]. split; [cbn; now rewrite CA, CB, CC, CD, CE|]. apply TI; [intros ev [<-|[<-|[<-|[<-|[]]]]]; reflexivity|reflexivity].
  - destruct l0 as [|a [|b [|c [|d l0]]]]; try discriminate M. injection M as CA CB CC. destruct (Z0 a [b; c] map_url CA ltac:(discriminate)) as (m1 & ->).
    destruct (step_stop verb user password tl accepts handshake url initial RQ b [c] 1 m1 (resp 200 (bs "Level zero")) (Ret (s1 live next)) [mk_event a 0 U_CALLBACK_CONTINUE (resp 200 (bs "Level zero")) (Ret (s1 live next))] 4 U_CALLBACK_COMPLETE
       (resp 200 (c_text (bs "Level zero") ++ [10] ++ bs "Level one")) (Ret (s2 live next)) CB (or_introl eq_refl)) as (m2 & ->); [intros m2; now apply (cb_one_complete verb user password live next)|reflexivity|reflexivity|].
    rewrite after_complete by (exact AC || discriminate).
    eexists. split; [reflexivity|]. split; [reflexivity|]. split; [reflexivity|]. split; [cbn; now rewrite CA, CB|]. apply TI; [intros ev [<-|[]]; reflexivity|reflexivity].
  - destruct l0 as [|a [|b [|c [|d [|e l0]]]]]; try discriminate M. injection M as CA CB CC CD. destruct (Z0 a [b; c; d] map_url CA ltac:(discriminate)) as (m1 & ->).
    destruct (step_stop verb user password tl accepts handshake url initial RQ b [c; d] 1 m1 (resp 200 (bs "Level zero")) (Ret (s1 live next)) [mk_event a 0 U_CALLBACK_CONTINUE (resp 200 (bs "Level zero")) (Ret (s1 live next))] 4 U_CALLBACK_COMPLETE
       (resp 200 (c_text (bs "Level zero") ++ [10] ++ bs "Level one")) (Ret (s2 live next)) CB (or_introl eq_refl)) as (m2 & ->); [intros m2; now apply (cb_one_complete verb user password live next)|reflexivity|reflexivity|].
    rewrite after_complete by (exact AC || discriminate).
    eexists. split; [reflexivity|]. split; [reflexivity|]. split; [reflexivity|]. split; [cbn; now rewrite CA, CB|]. apply TI; [intros ev [<-|[]]; reflexivity|reflexivity].
Qed.
End Request.

Lemma to_end : forall (a : endpoint) l, Permutation (a :: l) (l ++ [a]).
Proof. intros. apply Permutation_cons_append. Qed.
Lemma is_get_eq : forall verb, is_get verb -> str_caseeqb (bs "GET") verb = true.
Proof. intros verb H. unfold str_caseeqb. rewrite H. reflexivity. Qed.
Lemma not_get_eq : forall verb, ~ is_get verb -> str_caseeqb (bs "GET") verb = false.
Proof. intros verb H. destruct (str_caseeqb (bs "GET") verb) eqn:E; [|reflexivity]. exfalso. apply H. unfold str_caseeqb in E. apply str_eqb_eq in E. unfold is_get. rewrite <- E. reflexivity. Qed.
Lemma is_put_eq : forall verb, is_put verb -> str_caseeqb (bs "PUT") verb = true.
Proof. intros verb H. unfold str_caseeqb. rewrite H. reflexivity. Qed.
Lemma not_put_eq : forall verb, ~ is_put verb -> str_caseeqb (bs "PUT") verb = false.
Proof. intros verb H. destruct (str_caseeqb (bs "PUT") verb) eqn:E; [|reflexivity]. exfalso. apply H. unfold str_caseeqb in E. apply str_eqb_eq in E. unfold is_put. rewrite <- E. reflexivity. Qed.

(** C134. The cascade: for every rest of the path, every order that qsort may give, every credentials and every memory, GET /multiple/zero/rest is answered once, with status 200 and with
    exactly the lines that the README promises; the text that is handed from level to level is never missing, never read after its release, and it is released once. *)
Theorem C134_cascade : forall verb user password tl qsort accepts handshake url initial map_url live next rest,
  request_ok url initial -> sorts qsort -> accepts (bs "Access-Control-Allow-Origin") (bs "*") = true -> Forall (fun a => a < next) live ->
  is_get verb -> segs url (bs "multiple" :: bs "zero" :: rest) ->
  exists res, multiple verb user password tl qsort accepts handshake url initial map_url (Ret (mk_shared live next None)) = Ret res /\
    answers res = [says 200 (lines (said rest))] /\ extra res = [] /\ tidy live res.
Proof.
  intros verb user password tl qsort accepts handshake url initial map_url live next rest RQ QS AC NEW G SG.
  assert (X : exists fs, gives verb user password tl qsort accepts handshake url initial map_url live next (says 200 (lines (said rest))) fs).
  { apply segs_words in SG. pose proof (is_get_eq verb G) as HG. pose proof (get_not_put verb HG) as HP.
    pose proof (run_zero verb user password tl qsort accepts handshake url initial map_url live next RQ QS AC NEW) as RZ. rewrite HG, HP, <- SG in RZ. clear SG.
    assert (BASE : chosen true false (bs "multiple" :: bs "zero" :: rest) =
      level_ep "*" "/zero/*" 99 5 :: level_ep "GET" "/zero/*" 0 0 ::
      (if under [bs "one"] rest then [level_ep "GET" "/zero/one/*" 1 1] else []) ++ (if under [bs "one"; bs "two"] rest then [level_ep "GET" "/zero/one/two/*" 2 2] else []) ++
      (if exactly [bs "one"; bs "two"; bs "three"] rest then [level_ep "GET" "/zero/one/two/three/" 3 3] else []) ++
      (if under [bs "onec"] rest then [level_ep "GET" "/zero/onec/*" 1 4] else []) ++ (if under [bs "onec"; bs "two"] rest then [level_ep "GET" "/zero/onec/two/*" 2 2] else [])).
    { unfold chosen. cbn [under exactly]. eqs. cbn [andb app]. rewrite app_nil_r. reflexivity. }
    rewrite BASE in RZ. clear BASE. pose proof (fun fs txt S => RZ _ fs txt S (to_end _ _)) as RY. clear RZ. rename RY into RZ.
    destruct rest as [|w r].
    { cbn [under exactly app] in RZ. eexists. apply (RZ [0; 5] (said [])); [|left; repeat split; reflexivity]. cbn [app]. sorted. }
    unfold said. cbn [under exactly] in RZ. destruct (str_eqb w (bs "onec")) eqn:E1.
    { apply str_eqb_eq in E1. subst w. change (str_eqb (bs "onec") (bs "one")) with false in RZ. cbn [andb app] in RZ. destruct r as [|w2 r].
      - cbn [app] in RZ. eexists. apply (RZ [0; 4] ["Level zero"; "Level one"]%string); [|do 4 right; split; [left; reflexivity|split; reflexivity]]. cbn [app]. sorted.
      - rewrite andb_true_r in RZ. destruct (str_eqb w2 (bs "two")); cbn [app] in RZ; eexists.
        + apply (RZ [0; 4] ["Level zero"; "Level one"]%string); [|do 4 right; split; [right; reflexivity|split; reflexivity]]. cbn [app]. sorted.
        + apply (RZ [0; 4] ["Level zero"; "Level one"]%string); [|do 4 right; split; [left; reflexivity|split; reflexivity]]. cbn [app]. sorted. }
    cbn [andb app] in RZ. destruct (str_eqb w (bs "one")) eqn:E2; cbn [andb app] in RZ.
    2:{ eexists. apply (RZ [0; 5] ["Level zero"%string]); [|left; repeat split; reflexivity]. cbn [app]. sorted. }
    destruct r as [|w2 r].
    { cbn [app] in RZ. eexists. apply (RZ [0; 1; 5] ["Level zero"; "Level one"]%string); [|right; left; repeat split; reflexivity]. cbn [app]. sorted. }
    rewrite andb_true_r in RZ. destruct (str_eqb w2 (bs "two")) eqn:E3; cbn [andb app] in RZ.
    2:{ eexists. apply (RZ [0; 1; 5] ["Level zero"; "Level one"]%string); [|right; left; repeat split; reflexivity]. cbn [app]. sorted. }
    destruct r as [|w3 r].
    { cbn [app] in RZ. eexists. apply (RZ [0; 1; 2; 5] ["Level zero"; "Level one"; "Level two"]%string); [|right; right; left; repeat split; reflexivity]. cbn [app]. sorted. }
    destruct r as [|w4 r]; [rewrite andb_true_r in RZ; destruct (str_eqb w3 (bs "three"))|rewrite andb_false_r in RZ]; cbn [app] in RZ; eexists.
    - apply (RZ [0; 1; 2; 3; 5] ["Level zero"; "Level one"; "Level two"; "Level three"]%string); [|right; right; right; left; repeat split; reflexivity]. cbn [app]. sorted.
    - apply (RZ [0; 1; 2; 5] ["Level zero"; "Level one"; "Level two"]%string); [|right; right; left; repeat split; reflexivity]. cbn [app]. sorted.
    - apply (RZ [0; 1; 2; 5] ["Level zero"; "Level one"; "Level two"]%string); [|right; right; left; repeat split; reflexivity]. cbn [app]. sorted. }
  destruct X as (fs & res & R & A & E & _ & T). exists res. split; [exact R|]. split; [exact A|]. split; [exact E|exact T].
Qed.
Print Assumptions C134_cascade.

(** one callback alone, which ends the request *)
Lemma run_one : forall verb user password tl qsort accepts handshake url initial map_url live next e f code status body,
  request_ok url initial -> sorts qsort -> accepts (bs "Access-Control-Allow-Origin") (bs "*") = true -> callback e = Some f ->
  (chosen (str_caseeqb (bs "GET") verb) (str_caseeqb (bs "PUT") verb) (words url) = [e] \/ (chosen (str_caseeqb (bs "GET") verb) (str_caseeqb (bs "PUT") verb) (words url) = [] /\ e = level_dflt)) ->
  (code = U_CALLBACK_COMPLETE \/ code = U_CALLBACK_CONTINUE) ->
  (forall m ud, levels_cb verb user password f ud 0 m (resp 200 []) (Ret (mk_shared live next None)) = (code, resp status body, Ret (mk_shared live next None))) ->
  exists res, multiple verb user password tl qsort accepts handshake url initial map_url (Ret (mk_shared live next None)) = Ret res /\
    answers res = [says status body] /\ extra res = [] /\ tidy live res.
Proof.
  intros verb user password tl qsort accepts handshake url initial map_url live next e f code status body RQ QS AC C CH CO CB.
  assert (R : multiple verb user password tl qsort accepts handshake url initial map_url (Ret (mk_shared live next None)) =
    after verb user password accepts (callback_loop (outcome shared) tl (levels_cb verb user password) accepts handshake (Some (bs "default_realm")) true url initial [e] (mk_st (outcome shared) 0 map_url (resp 200 []) (Ret (mk_shared live next None)) None false 0 None []))).
  { destruct CH as [CH|[CH ->]]; [apply (the_run verb user password tl qsort accepts handshake url initial map_url live next QS [e]); [repeat constructor|rewrite CH; apply Permutation_refl]|].
    apply (the_run verb user password tl qsort accepts handshake url initial map_url live next QS []); [constructor|rewrite CH; constructor]. }
  rewrite R. destruct (step_stop verb user password tl accepts handshake url initial RQ e [] 0 map_url (resp 200 []) (Ret (mk_shared live next None)) [] f code (resp status body) (Ret (mk_shared live next None)) C) as (m' & ->);
    [destruct CO; [left|right; split]; auto|intros m'; apply CB|reflexivity|reflexivity|].
  rewrite after_complete by (exact AC || discriminate). eexists. split; [reflexivity|]. split; [reflexivity|]. split; [reflexivity|].
  split; [intros ev [<-|[]]; eexists; reflexivity|]. exists [], (mk_event e 0 code (resp status body) (Ret (mk_shared live next None))), (mk_shared live next None). repeat split; reflexivity.
Qed.

(** C134. Any other method on /multiple/zero/rest only meets the last callback: an empty page; nothing is released that was not there. *)
Theorem C134_other : forall verb user password tl qsort accepts handshake url initial map_url live next rest,
  request_ok url initial -> sorts qsort -> accepts (bs "Access-Control-Allow-Origin") (bs "*") = true ->
  ~ is_get verb -> segs url (bs "multiple" :: bs "zero" :: rest) ->
  exists res, multiple verb user password tl qsort accepts handshake url initial map_url (Ret (mk_shared live next None)) = Ret res /\
    answers res = [says 200 []] /\ extra res = [] /\ tidy live res.
Proof.
  intros verb user password tl qsort accepts handshake url initial map_url live next rest RQ QS AC G SG. apply segs_words in SG.
  apply (run_one verb user password tl qsort accepts handshake url initial map_url live next (level_ep "*" "/zero/*" 99 5) 5 U_CALLBACK_COMPLETE 200 [] RQ QS AC eq_refl); [left|left; reflexivity|reflexivity].
  rewrite (not_get_eq verb G), <- SG. unfold chosen. cbn [under exactly andb]. eqs. cbn [andb app]. rewrite andb_false_r. reflexivity.
Qed.
Print Assumptions C134_other.

(** C134. Every page but those under /multiple/zero and /multiple/auth is the page of the default callback. *)
Theorem C134_default : forall verb user password tl qsort accepts handshake url initial map_url live next,
  request_ok url initial -> sorts qsort -> accepts (bs "Access-Control-Allow-Origin") (bs "*") = true ->
  (forall rest, ~ segs url (bs "multiple" :: bs "zero" :: rest)) -> (forall rest, ~ segs url (bs "multiple" :: bs "auth" :: rest)) ->
  exists res, multiple verb user password tl qsort accepts handshake url initial map_url (Ret (mk_shared live next None)) = Ret res /\
    answers res = [says 404 (bs "Page not found, do what you want")] /\ extra res = [] /\ tidy live res.
Proof.
  intros verb user password tl qsort accepts handshake url initial map_url live next RQ QS AC N1 N2.
  apply (run_one verb user password tl qsort accepts handshake url initial map_url live next level_dflt 8 U_CALLBACK_CONTINUE 404 (bs "Page not found, do what you want") RQ QS AC eq_refl); [right; split; [|reflexivity]|right; reflexivity|reflexivity].
  assert (U : forall p, under (bs "multiple" :: bs "zero" :: p) (words url) = false /\ under (bs "multiple" :: bs "auth" :: p) (words url) = false /\
     exactly (bs "multiple" :: bs "zero" :: p) (words url) = false /\ exactly (bs "multiple" :: bs "auth" :: p) (words url) = false).
  { intros p. pose proof (words_segs url) as W. destruct (words url) as [|w [|w2 r]]; cbn [under exactly]; rewrite ?andb_false_r; [repeat split| |].
    - destruct (str_eqb w (bs "multiple")); repeat split.
    - destruct (str_eqb w (bs "multiple")) eqn:E1; [|repeat split]. apply str_eqb_eq in E1. subst w.
      destruct (str_eqb w2 (bs "zero")) eqn:E2; [apply str_eqb_eq in E2; subst w2; destruct (N1 r W)|]. destruct (str_eqb w2 (bs "auth")) eqn:E3; [apply str_eqb_eq in E3; subst w2; destruct (N2 r W)|]. repeat split. }
  unfold chosen. repeat match goal with |- context [under (?a :: ?b :: ?p) (words url)] => rewrite (proj1 (U p)) || rewrite (proj1 (proj2 (U p))) end.
  rewrite (proj1 (proj2 (proj2 (U [bs "one"; bs "two"; bs "three"])))), (proj2 (proj2 (proj2 (U [bs "data"])))). rewrite !andb_false_r. reflexivity.
Qed.
Print Assumptions C134_default.

Lemma check_ok : forall verb user password ud pos m r s, knows user password -> levels_cb verb user password 6 ud pos m r (Ret s) = (U_CALLBACK_CONTINUE, r, Ret s).
Proof. intros verb user password ud pos m r s [-> ->]. reflexivity. Qed.
Lemma check_bad : forall verb user password ud pos m s, ~ knows user password ->
  levels_cb verb user password 6 ud pos m (resp 200 []) (Ret s) =
  (U_CALLBACK_UNAUTHORIZED, mk_resp 401 acao_copy [] (bs "Error authentication") (if str_eqb (bs "PUT") verb then Some (bs "specific_realm") else None) None None, Ret s).
Proof.
  intros verb user password ud pos m s N. unfold levels_cb. change (level verb user password 6) with (auth_check verb user password). unfold auth_check.
  destruct user as [u|], password as [p|]; try (destruct (str_eqb (bs "PUT") verb); reflexivity).
  destruct (str_eqb u (bs "test") && str_eqb p (bs "testpassword")) eqn:E; [|destruct (str_eqb (bs "PUT") verb); reflexivity].
  exfalso. apply N. apply andb_prop in E as [E1 E2]. apply str_eqb_eq in E1, E2. subst. split; reflexivity.
Qed.

(** C134. Behind the password: GET and PUT of /multiple/auth/rest are answered with the page (or, without one, an empty page) for the user "test" with the password "testpassword", and with
    the demand for a password for everybody else, of the realm "specific_realm" for PUT and "default_realm" for the others. *)
Theorem C134_auth_partial : forall verb user password tl qsort accepts handshake url initial map_url live next rest,
  request_ok url initial -> sorts qsort -> accepts (bs "Access-Control-Allow-Origin") (bs "*") = true ->
  is_get verb \/ is_put verb -> segs url (bs "multiple" :: bs "auth" :: rest) ->
  exists res, multiple verb user password tl qsort accepts handshake url initial map_url (Ret (mk_shared live next None)) = Ret res /\ extra res = [] /\ tidy live res /\
    (knows user password -> rest = [bs "data"] -> answers res = [says 200 (bs "Hello World!")]) /\
    (knows user password -> rest <> [bs "data"] -> answers res = [says 200 []]) /\
    (~ knows user password -> verb = bs "PUT" -> answers res = [wants_password "specific_realm"]) /\
    (~ knows user password -> verb <> bs "PUT" -> answers res = [wants_password "default_realm"]).
Proof.
  intros verb user password tl qsort accepts handshake url initial map_url live next rest RQ QS AC G SG. apply segs_words in SG.
  assert (M : exists m, chosen (str_caseeqb (bs "GET") verb) (str_caseeqb (bs "PUT") verb) (words url) =
    level_ep m "/auth/*" 1 6 :: (if exactly [bs "data"] rest then [level_ep "*" "/auth/data/" 2 7] else [])).
  { rewrite <- SG. assert (X : forall g p, (g = true /\ p = false) \/ (g = false /\ p = true) -> exists m, chosen g p (bs "multiple" :: bs "auth" :: rest) =
      level_ep m "/auth/*" 1 6 :: (if exactly [bs "data"] rest then [level_ep "*" "/auth/data/" 2 7] else [])).
    { intros g p X. unfold chosen. change (exactly [bs "multiple"; bs "auth"; bs "data"] (bs "multiple" :: bs "auth" :: rest)) with (str_eqb (bs "multiple") (bs "multiple") && (str_eqb (bs "auth") (bs "auth") && exactly [bs "data"] rest)).
      change (exactly [bs "multiple"; bs "zero"; bs "one"; bs "two"; bs "three"] (bs "multiple" :: bs "auth" :: rest)) with (str_eqb (bs "multiple") (bs "multiple") && (str_eqb (bs "auth") (bs "zero") && exactly [bs "one"; bs "two"; bs "three"] rest)).
      cbn [under]. eqs. cbn [andb]. rewrite !andb_false_r. destruct X as [[-> ->]|[-> ->]]; eexists; reflexivity. }
    apply X. destruct G as [G|G]; [left; split; [now apply is_get_eq|now apply get_not_put, is_get_eq]|right; split; [|now apply is_put_eq]]. apply not_get_eq. unfold is_get. rewrite G. discriminate. }
  destruct M as (m & M).
  assert (DATA : exactly [bs "data"] rest = true <-> rest = [bs "data"]).
  { destruct rest as [|w [|w2 r]]; cbn [exactly]; [split; discriminate| |rewrite andb_false_r; split; discriminate]. rewrite andb_true_r, str_eqb_eq. split; [now intros ->|now intros [= ->]]. }
  pose proof (the_run verb user password tl qsort accepts handshake url initial map_url live next QS (level_ep m "/auth/*" 1 6 :: (if exactly [bs "data"] rest then [level_ep "*" "/auth/data/" 2 7] else []))) as R.
  rewrite M in R. unfold s0 in R. rewrite R; [clear R M|destruct (exactly [bs "data"] rest); sorted|apply Permutation_refl].
  assert (KD : knows user password \/ ~ knows user password).
  { unfold knows. destruct user as [u|]; [|right; intros [? _]; discriminate]. destruct password as [p|]; [|right; intros [_ ?]; discriminate].
    destruct (str_eqb u (bs "test")) eqn:E1; [apply str_eqb_eq in E1; subst u|right; intros [[= ->] _]; rewrite str_eqb_refl in E1; discriminate].
    destruct (str_eqb p (bs "testpassword")) eqn:E2; [apply str_eqb_eq in E2; subst p; left; split; reflexivity|right; intros [_ [= ->]]; rewrite str_eqb_refl in E2; discriminate]. }
  set (w0 := Ret (mk_shared live next None)).
  destruct KD as [K|K].
  - destruct (exactly [bs "data"] rest) eqn:ED.
    + destruct (step_on verb user password tl accepts handshake url initial RQ (level_ep m "/auth/*" 1 6) [level_ep "*" "/auth/data/" 2 7] 0 map_url (resp 200 []) w0 [] 6 (resp 200 []) w0 eq_refl) as (m1 & ->);
        [discriminate|intros m1; now apply check_ok|reflexivity|reflexivity|].
      match goal with |- context [callback_loop _ _ _ _ _ _ _ _ _ _ (mk_st _ ?pos ?mm ?r ?w None false 0 None ?tr)] =>
        destruct (step_stop verb user password tl accepts handshake url initial RQ (level_ep "*" "/auth/data/" 2 7) [] pos mm r w tr 7 U_CALLBACK_CONTINUE (resp 200 (bs "Hello World!")) w0 eq_refl) as (m2 & ->) end;
        [right; split; reflexivity|intros m2; reflexivity|reflexivity|reflexivity|].
      rewrite after_complete by (exact AC || discriminate). eexists. split; [reflexivity|]. split; [reflexivity|]. split; [|split; [reflexivity|split; [intros _ N; exfalso; apply N, DATA; reflexivity|split; intros; contradiction]]].
      split; [intros ev [<-|[<-|[]]]; eexists; reflexivity|]. eexists [_], _, _. split; [reflexivity|]. split; reflexivity.
    + destruct (step_stop verb user password tl accepts handshake url initial RQ (level_ep m "/auth/*" 1 6) [] 0 map_url (resp 200 []) w0 [] 6 U_CALLBACK_CONTINUE (resp 200 []) w0 eq_refl) as (m2 & ->);
        [right; split; reflexivity|intros m2; now apply check_ok|reflexivity|reflexivity|].
      rewrite after_complete by (exact AC || discriminate). eexists. split; [reflexivity|]. split; [reflexivity|]. split; [|split; [intros _ E; apply DATA in E; discriminate|split; [reflexivity|split; intros; contradiction]]].
      split; [intros ev [<-|[]]; eexists; reflexivity|]. eexists [], _, _. split; [reflexivity|]. split; reflexivity.
  - match goal with |- context [callback_loop _ _ _ _ _ _ _ _ _ ?l _] => change l with (level_ep m "/auth/*" 1 6 :: (if exactly [bs "data"] rest then [level_ep "*" "/auth/data/" 2 7] else [])) end.
    destruct (step_refuse verb user password tl accepts handshake url initial RQ (level_ep m "/auth/*" 1 6) (if exactly [bs "data"] rest then [level_ep "*" "/auth/data/" 2 7] else []) 0 map_url (resp 200 []) w0 [] 6
      (mk_resp 401 acao_copy [] (bs "Error authentication") (if str_eqb (bs "PUT") verb then Some (bs "specific_realm") else None) None None) w0 eq_refl) as (m2 & ->);
      [intros m2; now apply check_bad|reflexivity|reflexivity|].
    rewrite after_refuse by (exact AC || discriminate). eexists. split; [reflexivity|]. split; [reflexivity|]. split; [|split; [intros; contradiction|split; [intros; contradiction|split; intros _ V]]].
    + split; [intros ev [<-|[]]; eexists; reflexivity|]. eexists [], _, _. split; [reflexivity|]. split; reflexivity.
    + subst verb. reflexivity.
    + destruct (str_eqb (bs "PUT") verb) eqn:E; [apply str_eqb_eq in E; congruence|reflexivity].
Qed.
Print Assumptions C134_auth_partial.

(** Refuted: the page behind the password. callback_multiple_level_auth_check is registered for GET and PUT, the page for every method: with any other method, for example POST or DELETE,
    everybody gets "Hello World!", whatever the user and the password are. *)
Theorem C134_open_refuted : forall verb user password tl qsort accepts handshake url initial map_url live next,
  request_ok url initial -> sorts qsort -> accepts (bs "Access-Control-Allow-Origin") (bs "*") = true ->
  ~ is_get verb -> ~ is_put verb -> segs url [bs "multiple"; bs "auth"; bs "data"] ->
  exists res, multiple verb user password tl qsort accepts handshake url initial map_url (Ret (mk_shared live next None)) = Ret res /\ answers res = [says 200 (bs "Hello World!")].
Proof.
  intros verb user password tl qsort accepts handshake url initial map_url live next RQ QS AC NG NP SG. apply segs_words in SG.
  destruct (run_one verb user password tl qsort accepts handshake url initial map_url live next (level_ep "*" "/auth/data/" 2 7) 7 U_CALLBACK_CONTINUE 200 (bs "Hello World!") RQ QS AC eq_refl) as (res & R & A & _);
    [left|right; reflexivity|reflexivity|exists res; split; assumption].
  rewrite (not_get_eq verb NG), (not_put_eq verb NP), <- SG. vm_compute. reflexivity.
Qed.
Print Assumptions C134_open_refuted.

(** ** cases *)
Definition ask (user password : option str) (verb url : string) : list answer :=
  match multiple (bs verb) user password id_tl isort (fun _ _ => true) (fun _ => inl []) (bs url) u_map_init u_map_init (Ret (mk_shared [3] 7 None)) with Ret r => answers r | UB _ => [] end.
Example C134_ex_pages :
  ask None None "GET" "/multiple/zero" = [says 200 (bs "Level zero")] /\
  ask None None "GET" "/multiple/zero/x" = [says 200 (bs "Level zero")] /\
  ask None None "GET" "/multiple/zero/one/two/three" = [says 200 (bs "Level zero" ++ [10] ++ bs "Level one" ++ [10] ++ bs "Level two" ++ [10] ++ bs "Level three")] /\
  ask None None "GET" "/multiple/zero/onec/two" = [says 200 (bs "Level zero" ++ [10] ++ bs "Level one")] /\
  ask None None "POST" "/multiple/zero/one" = [says 200 []] /\
  ask (Some (bs "test")) (Some (bs "testpassword")) "GET" "/multiple/auth/data" = [says 200 (bs "Hello World!")] /\
  ask (Some (bs "test")) None "GET" "/multiple/auth/data" = [wants_password "default_realm"] /\ ask None None "PUT" "/multiple/auth/data" = [wants_password "specific_realm"] /\
  ask None None "DELETE" "/multiple/auth/data" = [says 200 (bs "Hello World!")] /\
  ask None None "GET" "/multiple" = [says 404 (bs "Page not found, do what you want")].
Proof. repeat (split; [vm_compute; reflexivity|]). vm_compute. reflexivity. Qed.
Example C134_ex_hyps : sorts isort /\ request_ok (bs "/multiple/zero/one") u_map_init /\ is_get (bs "GET") /\ ~ is_get (bs "PUT") /\ is_put (bs "PUT") /\ ~ is_get (bs "POST") /\ ~ is_put (bs "POST") /\
  segs (bs "/multiple/zero/one") [bs "multiple"; bs "zero"; bs "one"] /\ segs (bs "/multiple/auth/data") [bs "multiple"; bs "auth"; bs "data"] /\ Forall (fun a => a < 7) [3].
Proof.
  split; [apply isort_sorts|]. split; [split; [repeat constructor; discriminate|exists []; split; [apply repr_init|split; [constructor|reflexivity]]]|].
  split; [reflexivity|]. split; [discriminate|]. split; [reflexivity|]. split; [discriminate|]. split; [discriminate|].
  split; [change [bs "multiple"; bs "zero"; bs "one"] with (words (bs "/multiple/zero/one")); apply words_segs|]. split; [change [bs "multiple"; bs "auth"; bs "data"] with (words (bs "/multiple/auth/data")); apply words_segs|].
  repeat constructor.
Qed.
