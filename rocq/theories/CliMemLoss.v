(** Proofs about the memory of websockets opened by a client (C101): what is lost, on the side of the
    specification. *)
From Coq Require Import String ZArith Bool List Lia.
From Verif Require Import Base BaseFacts StrModel UMapModel MapMemSpec WsMemModel HandMemModel HandMemSpec HandMemSteps ReqMemCopy ReqMemProofs CliMemModel CliMemSpec CliMemSteps.
Import ListNotations.
Open Scope Z_scope.
Open Scope list_scope.

Section Loss.
Variable E : cenv.
Lemma celem_plain : forall tok l exp b ok l' n, Forall (plain_cext E) l -> a_celem E tok exp l = (b, (ok, (l', n))) -> n = 0%nat /\ Forall (plain_cext E) l'.
Proof.
  intros tok l. induction l as [|e l IH]; intros exp b ok l' n P R; cbn [a_celem] in R.
  - injection R as <- <- <- <-. auto.
  - inversion P as [|? ? P1 P2]; subst. assert (NEXT : (let '(b, (ok, (r1, k))) := a_celem E tok exp l in (b, (ok, (e :: r1, (0 + k)%nat)))) = (b, (ok, (l', n))) -> n = 0%nat /\ Forall (plain_cext E) l').
    { destruct (a_celem E tok exp l) as (b1 & ok1 & l1 & k1) eqn:R1. intros H. injection H as <- <- <- <-. destruct (IH _ _ _ _ _ P2 R1) as [-> P3]. split; [reflexivity|]. constructor; assumption. }
    pose proof P1 as (F & H & T). destruct (e_on e) eqn:ON; [auto|]. rewrite F in R.
    destruct (match e_name e with Some s => str_eqb (trim tok) s | None => false end); [|auto].
    destruct (Z.land (e_rsv e) exp =? 0).
    + injection R as <- <- <- <-. rewrite (T eq_refl). split; [reflexivity|]. constructor; [|exact P2]. split; [exact F|]. split; [exact H|]. discriminate.
    + injection R as <- <- <- <-. auto.
Qed.
Lemma celems_plain : forall toks l exp b ok l' n, Forall (plain_cext E) l -> a_celems E toks exp l = (b, (ok, (l', n))) -> n = 0%nat /\ Forall (plain_cext E) l'.
Proof.
  induction toks as [|tok toks IH]; intros l exp b ok l' n P R; cbn [a_celems] in R.
  - injection R as <- <- <- <-. auto.
  - destruct (a_celem E tok exp l) as (b1 & ok1 & l1 & k1) eqn:R1. destruct (celem_plain _ _ _ _ _ _ _ P R1) as [-> P1]. destruct ok1.
    + destruct (a_celems E toks b1 l1) as (b2 & ok2 & l2 & k2) eqn:R2. injection R as <- <- <- <-. destruct (IH _ _ _ _ _ _ P1 R2) as [-> P2]. auto.
    + injection R as <- <- <- <-. auto.
Qed.
Lemma headers_once : forall l s s' n, a_headers s l = (s', n) -> t_exts s' = t_exts s /\ t_bits s' = t_bits s /\
  ((List.length (filter (fun h => match h with HProt _ => true | _ => false end) l) + one_if (has (t_prot s)) <= 1)%nat ->
   (List.length (filter (fun h => match h with HExts _ => true | _ => false end) l) + one_if (has (t_text s)) <= 1)%nat -> n = 0%nat).
Proof.
  induction l as [|h l IH]; intros s s' n R; cbn [a_headers] in R.
  - injection R as <- <-. auto.
  - destruct (a_header s h) as [s1 k1] eqn:R1. destruct (a_headers s1 l) as [s2 k2] eqn:R2. injection R as <- <-. destruct (IH _ _ _ R2) as (X & B & L).
    destruct h; cbn [a_header] in R1; injection R1 as <- <-; cbn [t_exts t_bits t_prot t_text filter] in *; (split; [exact X|]); (split; [exact B|]); intros H1 H2; cbn [List.length has one_if] in *.
    + destruct (t_prot s); cbn [has one_if] in *; [lia|]. rewrite L; lia.
    + destruct (t_text s); cbn [has one_if] in *; [lia|]. rewrite L; lia.
    + rewrite L; auto.
Qed.
Lemma answer_plain : forall s ok s' n, Forall (plain_cext E) (t_exts s) -> a_answer E s = (ok, (s', n)) -> n = 0%nat /\ Forall (plain_cext E) (t_exts s').
Proof.
  intros s ok s' n P R. unfold a_answer in R. destruct (t_text s) as [[|c t]|]; [injection R as <- <- <-; auto| |injection R as <- <- <-; auto].
  destruct (t_exts s) as [|e l] eqn:X; [injection R as <- <- <-; rewrite X; auto|]. rewrite <- X in *.
  destruct (a_celems E (split_string 44 (c :: t)) (t_bits s) (t_exts s)) as (b & ok1 & l1 & k1) eqn:R1. injection R as <- <- <-. apply (celems_plain _ _ _ _ _ _ _ P R1).
Qed.

Definition plain_h (h : chand) : Prop := match h with CLive s => Forall (plain_cext E) (t_exts s) | _ => True end.
Definition unopened_h (h : chand) : Prop := match h with CLive s => unopened s | _ => True end.
Lemma open_plain : forall h u c h' n, plain_h h -> unopened_h h -> once (o_headers u) -> a_open E h u = Some (c, (h', n)) -> n = 0%nat /\ plain_h h'.
Proof.
  intros h u c h' n P U [O1 O2] R. unfold a_open in R. destruct (o_url u); [|injection R as <- <- <-; auto].
  assert (GO : forall s, Forall (plain_cext E) (t_exts s) -> unopened s -> a_rest E s u = Some (c, (h', n)) -> n = 0%nat /\ plain_h h').
  { clear R. intros s PS (U1 & U2 & U3) R. unfold a_rest in R. rewrite U3 in R. destruct (o_connect u).
    2:{ unfold gone in R. injection R as <- <- <-. rewrite (left_plain _ _ PS). split; [reflexivity|exact I]. }
    destruct (a_headers (put_req s) (o_headers u)) as [s1 k] eqn:R1. destruct (headers_once _ _ _ _ R1) as (X1 & _ & K). cbn [put_req t_exts t_prot t_text] in *. rewrite U1, U2 in K. cbn [has one_if] in *.
    rewrite K in R by lia. destruct (o_answer u).
    2:{ unfold gone in R. injection R as <- <- <-. rewrite X1, (left_plain _ _ PS). split; [reflexivity|exact I]. }
    destruct (a_answer E (put_conn s1 true)) as (ok & s2 & j) eqn:R2. apply answer_plain in R2 as [-> P2]; [|cbn [put_conn t_exts]; now rewrite X1].
    destruct ok; [injection R as <- <- <-; auto|]. unfold gone in R. injection R as <- <- <-. rewrite (left_plain _ _ P2). split; [reflexivity|exact I]. }
  destruct h as [| | |s]; try discriminate R.
  - apply (GO fresh); [constructor|repeat split|exact R].
  - apply (GO s); [exact P|exact U|exact R].
Qed.
Lemma step_plain : forall a o h c h' n, plain_cop E (a, o) -> plain_h h -> (forall i u, o = COpen i u -> unopened_h h) -> a_cstep1 E h o = Some (c, (h', n)) ->
  n = 0%nat /\ plain_h h' /\ ((forall i u, o <> COpen i u) -> unopened_h h -> unopened_h h').
Proof.
  intros a o h c h' n PO P U R. destruct o as [|i name rsv f|i u|i|i|i|i late|i]; cbn [a_cstep1] in R.
  - injection R as <- <- <-. auto.
  - unfold plain_cop in PO. cbn [snd fst] in PO. destruct PO as [PO _].
    assert (GO : forall s, Forall (plain_cext E) (t_exts s) -> unopened_h h -> Forall (plain_cext E) (t_exts (put_cexts s (t_exts s ++ [mk_cext (Some name) None rsv f false None]) (t_bits s)))).
    { intros s PS _. cbn [put_cexts t_exts]. apply Forall_app. split; [exact PS|]. constructor; [|constructor]. repeat split; assumption. }
    destruct h as [| | |s]; try discriminate R; injection R as <- <- <-.
    + split; [reflexivity|]. split; [apply (GO fresh); [constructor|exact I]|]. intros _ _. repeat split.
    + split; [reflexivity|]. split; [cbn [plain_h]; apply Forall_app; split; [exact P|]; constructor; [|constructor]; repeat split; assumption|]. intros _ US. exact US.
  - destruct (open_plain _ _ _ _ _ P (U i u eq_refl) PO R) as [-> P']. split; [reflexivity|]. split; [exact P'|]. intros N. now elim (N i u).
  - injection R as <- <- <-. split; [reflexivity|]. destruct h; auto.
  - destruct h; try discriminate R; injection R as <- <- <-; auto.
  - destruct h; try discriminate R; injection R as <- <- <-; auto.
  - destruct h as [| | |s]; try discriminate R; [injection R as <- <- <-; auto|]. destruct (t_conn s && late); injection R as <- <- <-; [auto|]. rewrite (left_plain _ _ P). split; [reflexivity|]. split; [exact I|]. intros _ _. exact I.
  - destruct h as [| | |s]; try discriminate R; [injection R as <- <- <-; auto|injection R as <- <- <-; auto|]. unfold gone in R. injection R as <- <- <-. rewrite (left_plain _ _ P). split; [reflexivity|]. split; [exact I|]. intros _ _. exact I.
Qed.
Definition unopened_at (st : list chand) (l : list nat) : Prop := forall i h, In i l -> nth_error st i = Some h -> unopened_h h.
Lemma plain_crun : forall ops st cs st' n, c_means E st ops (Done cs st' n) -> Forall (plain_cop E) ops -> NoDup (opened ops) -> Forall plain_h st -> unopened_at st (opened ops) -> n = 0%nat.
Proof.
  induction ops as [|[a o] ops IH]; intros st cs st' n M PO ND PS US.
  - inversion M; subst. reflexivity.
  - inversion M as [|? ? ? ? c st1 k cs1 ? n1 CM M1| |]; subst. inversion PO as [|? ? PO1 PO2]; subst.
    assert (ND2 : NoDup (opened ops)) by (unfold opened in ND; cbn [flat_map snd] in ND; destruct o; try exact ND; inversion ND; assumption).
    assert (US2 : unopened_at st (opened ops)) by (intros i h IN; apply US; unfold opened; cbn [flat_map snd]; apply in_or_app; now right).
    (* the handler of the call *)
    assert (ONE : forall i h h', cname o = Some i -> nth_error st i = Some h -> k = 0%nat -> plain_h h' -> ((forall j u, o <> COpen j u) -> unopened_h h -> unopened_h h') -> st1 = set_nth st i h' -> (k + n1)%nat = 0%nat).
    { intros i h h' N NE K PH UH ->. subst k. cbn [Nat.add]. apply (IH _ _ _ _ M1 PO2 ND2); [apply forall_set; assumption|].
      intros j g IN NJ. destruct (Nat.eq_dec i j) as [<-|D].
      - rewrite (set_nth_some _ _ _ _ _ NE) in NJ. injection NJ as <-. apply UH; [|apply (US2 i h IN NE)].
        intros j u ->. injection N as ->. unfold opened in ND, IN. cbn [flat_map snd] in ND. inversion ND as [|? ? NI _]. contradiction.
      - rewrite (nth_set_other _ _ _ _ _ D) in NJ. apply (US2 j g IN NJ). }
    destruct CM as [EX|(IF & i & h & h1 & N & NE & ES & FL)].
    + unfold a_cstep in EX. destruct (cname o) as [i|] eqn:N.
      * destruct (nth_error st i) as [h|] eqn:NE.
        -- destruct (a_cstep1 E h o) as [(c1 & h1 & k1)|] eqn:R; [|discriminate]. injection EX as -> <- ->.
           destruct (step_plain a o h c h1 k PO1 (forall_nth _ _ _ _ _ PS NE)) as (K & PH & UH); [|exact R|eapply ONE; eauto].
           intros j u ->. injection N as ->. apply (US i h); [|exact NE]. unfold opened. cbn [flat_map snd]. now left.
        -- injection EX as <- <- <-. cbn [Nat.add]. apply (IH _ _ _ _ M1 PO2 ND2 PS US2).
      * injection EX as <- <- <-. cbn [Nat.add]. apply (IH _ _ _ _ M1 PO2 ND2); [apply Forall_app; split; [exact PS|constructor; [exact I|constructor]]|].
        intros j g IN NJ. destruct (nth_error_Some st j) as [_ B]. destruct (Nat.lt_ge_cases j (List.length st)) as [L|L].
        -- rewrite nth_error_app1 in NJ by exact L. apply (US2 j g IN NJ).
        -- rewrite nth_error_app2 in NJ by exact L. destruct (j - List.length st)%nat as [|[|]]; cbn in NJ; try discriminate; injection NJ as <-; exact I.
    + destruct o as [|j name rsv f|j u|j|j|j|j late|j]; try contradiction FL.
      * unfold plain_cop in PO1. cbn [fst snd] in PO1. destruct PO1 as [_ PO1]. contradiction.
      * injection N as ->. assert (PH := forall_nth _ _ _ _ _ PS NE). assert (UH : unopened_h h) by (apply (US i h); [unfold opened; cbn [flat_map snd]; now left|exact NE]).
        unfold plain_cop in PO1. cbn [snd] in PO1. destruct FL as [(_ & -> & K)|[(_ & _ & -> & K)|(s & AS & SH & K)]].
        -- eapply ONE; [reflexivity|exact NE|exact K|exact PH| |exact ES]. intros X. now elim (X i u).
        -- apply (ONE i h CNull); [reflexivity|exact NE|exact K|exact I| |exact ES]. intros X. now elim (X i u).
        -- assert (PX : Forall (plain_cext E) (t_exts s) /\ unopened s) by (destruct AS as [->|[-> ->]]; [auto|split; [constructor|repeat split]]). destruct PX as [P1 P2].
           apply (ONE i h h1); [reflexivity|exact NE|exact (K P1 P2 PO1)| | |exact ES]; [|intros X; now elim (X i u)].
           destruct SH as [[_ ->]|(s' & _ & -> & _ & _ & P3)]; [exact I|exact (P3 P1)].
Qed.

(** runs with memory *)
Lemma rich_crun : forall ops st r, c_means E st (map (pair []) ops) r ->
  a_crun E st ops = match r with Misused => None | Done cs st' n => Some (cs, (st', n)) end.
Proof.
  induction ops as [|o ops IH]; intros st r M; cbn [map a_crun] in *.
  - inversion M; subst. reflexivity.
  - assert (CM : forall c st1 k, call_means E st [] o c st1 k -> a_cstep E st o = Some (c, (st1, k))) by (intros c st1 k [H|[[] _]]; exact H).
    inversion M as [|? ? ? ? c st1 k cs1 st2 n1 C M1|? ? ? ? c st1 k C M1|? ? ? ? C]; subst.
    + rewrite (CM _ _ _ C), (IH _ _ M1). reflexivity.
    + rewrite (CM _ _ _ C), (IH _ _ M1). reflexivity.
    + destruct C as [C|(i & h & _ & _ & N)]; [now rewrite C|]. exfalso. unfold no_list in N. destruct h; try contradiction; destruct o; try contradiction; cbn in N; [destruct N as (_ & _ & N)|destruct N as (_ & _ & _ & _ & N)]; discriminate.
Qed.
End Loss.
