(** C92 and C93: from a server of the library to a client of the library, and back. *)
From Coq Require Import String ZArith Bool List Lia.
From Verif Require Import Base BaseFacts UMapModel UMapSpec SMap Utf8Spec InputModel InputSpec InputProofs InputProps StrModel ClientModel ClientSpec ClientProps RoundSpec RoundProofs.
From Verif Require YuarelSpec YuarelProofs RouterSpec RouterProps DispatchModel DispatchSpec DispatchProofs SendModel SendSpec SendProofs SendProps HttpText CookieModel.
Import ListNotations.
Open Scope Z_scope.

(** ** C92: the answer *)
(** the fields MHD adds on its own (Date, Content-Length, ...) may come anywhere *)
Theorem C92_answer_arrives : forall accepts r d own fs status calls chunks,
  repr (DispatchModel.r_header r) d -> DispatchSpec.all_accepted accepts (DispatchSpec.all_headers d (DispatchModel.r_cookies r)) ->
  mixed (DispatchSpec.all_headers d (DispatchModel.r_cookies r)) own fs -> Forall field_ok fs -> status_ok status -> zlen (head_text status fs) + 2 < two64 ->
  Forall2 delivers calls chunks -> List.concat chunks = DispatchModel.r_body r -> zlen (DispatchModel.r_body r) + 1 < two64 ->
  exists hs h b, DispatchModel.set_headers accepts r [] = Ret (true, hs) /\ mixed hs own fs /\
    write_headers (headers0 0) (lines_of (head_text status fs)) = Ret (map zlen (lines_of (head_text status fs)), h) /\ h_protocol h = Some status /\
    (forall name, get_case_str (h_map h) (Some name) = Ret (match values_of name fs with [] => None | vs => Some (joined vs) end)) /\
    (forall k v, In (k, Some v) d -> (forall k' v', In (k', v') d -> same_name k' k -> k' = k) -> (forall f, In f own -> ~ same_name (fst f) k) -> ~ same_name (bs "Set-Cookie") k ->
       get_case_str (h_map h) (Some k) = Ret (Some v)) /\
    write_bodies (body0 0) calls = Ret (map zlen chunks, b) /\
    give_body b = Ret (if zlen (DispatchModel.r_body r) =? 0 then None else Some (block_of (DispatchModel.r_body r)), zlen (DispatchModel.r_body r)).
Proof.
  intros accepts r d own fs status calls chunks R AA MX FF SO W DL CB BL. set (hs := DispatchSpec.all_headers d (DispatchModel.r_cookies r)) in *.
  destruct (DispatchProofs.set_headers_ok accepts r d [] R) as (b0 & SH & B0). fold hs in SH, B0. rewrite (proj2 B0 AA) in SH. rewrite (DispatchProofs.prefix_all accepts hs AA) in SH.
  assert (LE : lines_of (head_text status fs) = (status ++ [13; 10]) :: map field_line fs ++ [[13; 10]]) by (apply lines_of_head; [apply SO|exact FF]).
  destruct (C52_headers_joined_partial 0 _ _ (Z.le_refl 0) (head_written status fs SO FF)) as (h & WH & G & _ & P).
  { replace (List.concat ((status ++ [13; 10]) :: map field_line fs ++ [[13; 10]])) with (head_text status fs); [exact W|]. unfold head_text. cbn [List.concat]. rewrite <- app_assoc. do 2 f_equal.
    rewrite concat_app. cbn. rewrite flat_map_concat_map. reflexivity. }
  rewrite fields_of_head in G. rewrite last_status_head in P. unfold at_most in G. cbn [Z.eqb] in G.
  destruct (C51_body_exact 0 calls chunks (Z.le_refl 0) DL) as (b & WB & GB & _); [rewrite CB; exact BL|]. unfold kept in GB. cbn [Z.eqb] in GB. rewrite CB in GB.
  exists hs, h, b. split; [exact SH|]. split; [exact MX|]. split; [rewrite LE; exact WH|]. split; [exact P|]. split; [exact G|]. split.
  - intros k v I U OW SC. rewrite G.
    assert (X : values_of k fs = [v]); [|rewrite X; reflexivity]. unfold values_of. rewrite (mixed_filter _ _ hs own fs MX) by (intros f J; apply str_eqb_neq; exact (OW f J)).
    unfold hs, DispatchSpec.all_headers. fold (values_of k (DispatchSpec.set_entries d ++ map (fun c => (bs "Set-Cookie", CookieModel.generate_cookie_header c)) (DispatchModel.r_cookies r))).
    apply in_split in I as (a & e & E). pose proof (proj1 (repr_nodup _ _ R)) as ND. rewrite E, map_app in ND. cbn [map fst] in ND. apply NoDup_remove_2 in ND.
    assert (SE : forall x y, DispatchSpec.set_entries (x ++ y) = DispatchSpec.set_entries x ++ DispatchSpec.set_entries y).
    { induction x as [|[k1 [v1|]] x IH]; intros y; cbn [DispatchSpec.set_entries app]; [reflexivity| |]; rewrite IH; reflexivity. }
    apply (values_single _ (DispatchSpec.set_entries a) k v (DispatchSpec.set_entries e ++ map (fun c => (bs "Set-Cookie", CookieModel.generate_cookie_header c)) (DispatchModel.r_cookies r))).
    + rewrite E, SE. cbn [DispatchSpec.set_entries]. rewrite <- app_assoc. reflexivity.
    + assert (IS : forall l f, In f (DispatchSpec.set_entries l) -> In (fst f, Some (snd f)) l).
      { induction l as [|[k1 [v1|]] l IH]; intros f J; cbn [DispatchSpec.set_entries] in J; [destruct J| |].
        - destruct J as [<-|J]; [left; reflexivity|right; exact (IH f J)].
        - right. exact (IH f J). }
      assert (OTH : forall f, In (fst f, Some (snd f)) (a ++ e) -> lowers (fst f) <> lowers k).
      { intros f J Q. assert (fst f = k) as K by (eapply U; [|exact Q]; rewrite E; apply in_app_or in J; apply in_or_app; cbn [In]; destruct J as [J|J]; [left; exact J|right; right; exact J]).
        apply ND. rewrite <- K. apply in_app_or in J. apply in_or_app. destruct J as [J|J]; [left|right]; apply in_map_iff; eexists; (split; [|exact J]); reflexivity. }
      intros f J. apply in_app_or in J as [J|J]; [apply OTH, in_or_app; left; exact (IS a f J)|]. apply in_app_or in J as [J|J]; [apply OTH, in_or_app; right; exact (IS e f J)|].
      apply in_map_iff in J as (c & <- & _). exact SC.
  - split; [exact WB|]. rewrite GB. destruct (DispatchModel.r_body r) as [|x l]; [reflexivity|]. replace (zlen (x :: l) =? 0) with false; [reflexivity|].
    symmetry. apply Z.eqb_neq. rewrite zlen_cons. pose proof (zlen_nonneg _ l). lia.
Qed.

(** One header that MHD refuses, an empty value for instance, and the answer is sent all the same, without this header, the headers after it and the cookies. *)
Definition no_empty (k v : str) : bool := negb (zlen k =? 0) && negb (zlen v =? 0).
Definition ex_map : umap := SendProps.map_of [(bs "X-Empty", Some []); (bs "Cache-Control", Some (bs "no-store"))].
Definition ex_answer (f ud pos : Z) (m : umap) (r : DispatchModel.response) (n : Z) : Z * DispatchModel.response * Z :=
  (DispatchModel.U_CALLBACK_COMPLETE, DispatchModel.mk_resp 200 ex_map [] (bs "secret") None None None, n).
Theorem C92_refused_header_refuted : repr ex_map [(bs "X-Empty", Some []); (bs "Cache-Control", Some (bs "no-store"))] /\
  exists res, DispatchModel.dispatch Z RouterProps.id_tl RouterProps.isort ex_answer no_empty (fun _ => inl []) (Some (RouterProps.ep "" "" "" 0 1)) None None true
    (bs "/a/b") u_map_init (bs "GET") None u_map_init 0 = Ret res /\
    DispatchModel.answers res = [DispatchModel.Queue 200 (DispatchModel.mk_mhd (DispatchModel.CBuffer (bs "secret")) [])].
Proof. split; [exact (SendProps.repr_map_of [(bs "X-Empty", Some []); (bs "Cache-Control", Some (bs "no-store"))] eq_refl)|]. eexists. split; vm_compute; reflexivity. Qed.

(** ** C93: the request *)
Definition pairs_of (d : list (str * option str)) : list (option str * option str) := map (fun p => (Some (fst p), snd p)) d.
Definition text (v : option str) : str := match v with Some s => s | None => [] end.
Lemma vals_absent : forall check l k, Forall pair_ok l -> (forall p, In p l -> fst p <> Some k) -> vals check l k [].
Proof.
  intros check l k F. induction F as [|[ko v] l ((k' & E & _) & _) F IH]; intros N; [constructor|]. cbn [fst] in E. subst ko. apply v_other.
  - intros ->. apply (N (Some k, v)); [left; reflexivity|reflexivity].
  - apply IH. intros p I. apply N. right. exact I.
Qed.
Lemma vals_once : forall check a k v b, Forall pair_ok (a ++ (Some k, v) :: b) -> (forall p, In p (a ++ b) -> fst p <> Some k) -> pair_kept check k v -> vals check (a ++ (Some k, v) :: b) k [text v].
Proof.
  intros check a k v b F N K. induction a as [|[ko w] a IH].
  - cbn [app]. apply v_take; [exact K|]. inversion F; subst. apply vals_absent; [assumption|exact N].
  - cbn [app] in *. inversion F as [|? ? ((k' & E & _) & _) F']; subst. cbn [fst] in E. subst ko. apply v_other.
    + intros ->. apply (N (Some k, w)); [left; reflexivity|reflexivity].
    + apply IH; [exact F'|]. intros p I. apply N. right. exact I.
Qed.
(** the server reads the pairs of a dictionary, mixed with others of other names: each name has its value, no value counts as the empty one *)
Lemma filled_in : forall check d own pairs, NoDup (map fst d) -> Forall (fun p => fst p <> [] /\ cstr (fst p) /\ match snd p with Some v => cstr v | None => True end) d -> Forall pair_ok own ->
  mixed (pairs_of d) own pairs -> pairs_weight pairs + 3 < two64 ->
  exists m, fill_all check u_map_init pairs = Ret m /\
    (forall k v, In (k, v) d -> pair_kept check k v -> (forall p, In p own -> fst p <> Some k) -> get_str m k = Ret (Some (text v))) /\
    (forall k, (forall p, In p d -> fst p <> k) -> (forall p, In p own -> fst p <> Some k) -> u_map_has_key m (Some k) = Ret false).
Proof.
  intros check d own pairs ND FD FO MX W.
  assert (FP : Forall pair_ok pairs).
  { apply Forall_forall. intros p I. apply (mixed_in _ _ _ _ p MX) in I as [I|I]; [|rewrite Forall_forall in FO; apply FO, I].
    apply in_map_iff in I as (q & <- & I). rewrite Forall_forall in FD. destruct (FD q I) as (A & B & C). split; [exists (fst q); auto|exact C]. }
  destruct (C18_values_joined_in_order_partial check pairs FP W) as (m & E & G). exists m. split; [exact E|]. split.
  - intros k v I K OW.
    assert (S : exists a b, pairs = a ++ (Some k, v) :: b /\ forall p, In p (a ++ b) -> fst p <> Some k).
    { clear -ND MX I OW. remember (pairs_of d) as pd eqn:EP. revert d EP ND I. induction MX as [|x pa b c M IH|x pa b c M IH]; intros d EP ND I.
      - destruct d; [destruct I|discriminate].
      - destruct d as [|q d]; [discriminate|]. cbn [pairs_of map] in EP. injection EP as -> EP. cbn [map] in ND. inversion ND as [|? ? NI ND']; subst. destruct I as [-> | I].
        + cbn [fst snd] in *. exists [], c. split; [reflexivity|]. cbn [app]. intros p J Q. apply (mixed_in _ _ _ _ p M) in J as [J|J]; [|exact (OW p J Q)].
          apply in_map_iff in J as (q & <- & J). cbn [fst] in Q. apply NI. injection Q as <-. now apply in_map.
        + destruct (IH OW d eq_refl ND' I) as (a & e & -> & N). exists ((Some (fst q), snd q) :: a), e. split; [reflexivity|]. cbn [app]. intros p [<-|J]; [|exact (N p J)].
          cbn [fst]. intros Q. apply NI. injection Q as Q. rewrite Q. exact (in_map fst d (k, v) I).
      - destruct (IH (fun p J => OW p (or_intror J)) d EP ND I) as (a & e & -> & N). exists (x :: a), e. split; [reflexivity|]. cbn [app]. intros p [<-|J]; [apply OW; left; reflexivity|exact (N p J)]. }
    destruct S as (a & b & -> & N). destruct (G k [text v] (vals_once check a k v b FP N K)) as [_ GS]. exact GS.
  - intros k ND1 OW. destruct (G k []) as [H _]; [|exact H]. apply vals_absent; [exact FP|]. intros p I. apply (mixed_in _ _ _ _ p MX) in I as [I|I]; [|exact (OW p I)].
    apply in_map_iff in I as (q & <- & I). cbn [fst]. intros Q. injection Q as Q. exact (ND1 q I Q).
Qed.
Lemma mixed_nil : forall A (a : list A), mixed a [] a.
Proof. induction a; constructor; auto. Qed.
Lemma dict_ok : forall m d, repr m d -> SendSpec.names_ok d -> Forall (fun p => fst p <> [] /\ cstr (fst p) /\ match snd p with Some v => cstr v | None => True end) d.
Proof.
  intros m d R N. pose proof (repr_ovalues _ _ R) as V. pose proof (proj2 (repr_nodup _ _ R)) as E. unfold SendSpec.names_ok in N. rewrite Forall_forall in *. intros p I. split; [|split; [exact (N p I)|]].
  - intros Q. apply E. rewrite <- Q. now apply in_map.
  - specialize (V p I). destruct p as [k [v|]]; cbn [snd] in *; [apply V|exact Logic.I].
Qed.

(** URL parameters, those of the URL itself ([own]) and those of map_url: the server reads the former, then the latter *)
Theorem C93_parameters_arrive : forall c r w da h x opts url own check, SendProofs.holds_dicts r x -> SendSpec.names_ok (SendProofs.dp x) -> SendModel.h_url r = Some url -> ~ In 35 url ->
  SendSpec.query_pairs (option_map SendProps.no_blanks (snd (SendSpec.split_url url))) = Some own -> Forall pair_ok (pairs_of own) ->
  pairs_weight (pairs_of own ++ pairs_of (SendProofs.dp x)) + 3 < two64 -> SendModel.send_request c r w da h = Ret (Some opts) ->
  exists sent pairs m, SendSpec.last_of SendSpec.o_url opts = Some (Some sent) /\ SendSpec.query_pairs (snd (SendSpec.split_url sent)) = Some pairs /\
    fill_all check u_map_init (pairs_of pairs) = Ret m /\
    (forall k v, In (k, v) (SendProofs.dp x) -> pair_kept check k v -> (forall p, In p own -> fst p <> k) -> get_str m k = Ret (Some (text v))) /\
    (forall k, (forall p, In p (SendProofs.dp x) -> fst p <> k) -> (forall p, In p own -> fst p <> k) -> u_map_has_key m (Some k) = Ret false) /\
    (forall k vs, vals check (pairs_of own ++ pairs_of (SendProofs.dp x)) k vs -> get_str m k = Ret (match vs with [] => None | _ => Some (RouterSpec.join vs) end)).
Proof.
  intros c r w da h x opts url own check HD NO U H35 Q0 FO W S. destruct (SendProps.C66_query_sent_partial c r w da h x opts url HD NO U H35 S) as (sent & LU & _ & _ & Q).
  specialize (Q own Q0). destruct HD as (_ & RP & _). pose proof (dict_ok _ _ RP NO) as DO.
  assert (PA : pairs_of (own ++ SendProofs.dp x) = pairs_of own ++ pairs_of (SendProofs.dp x)) by apply map_app.
  assert (MX : mixed (pairs_of (SendProofs.dp x)) (pairs_of own) (pairs_of own ++ pairs_of (SendProofs.dp x))).
  { generalize (pairs_of own). intros l. induction l as [|y l IH]; [apply mixed_nil|]. constructor. exact IH. }
  destruct (filled_in check (SendProofs.dp x) (pairs_of own) _ (proj1 (repr_nodup _ _ RP)) DO FO MX W) as (m & E & G & A).
  assert (OW : forall k, (forall p, In p own -> fst p <> k) -> forall p, In p (pairs_of own) -> fst p <> Some k).
  { intros k N p I X. apply in_map_iff in I as (q & <- & I). injection X as X. exact (N q I X). }
  exists sent, (own ++ SendProofs.dp x), m. split; [exact LU|]. split; [exact Q|]. split; [rewrite PA; exact E|]. split; [intros k v I K N; apply G; auto|]. split; [intros k N1 N2; apply A; auto|].
  assert (FP : Forall pair_ok (pairs_of own ++ pairs_of (SendProofs.dp x))).
  { apply Forall_app. split; [exact FO|]. apply Forall_forall. intros p I. apply in_map_iff in I as (q & <- & I). rewrite Forall_forall in DO. destruct (DO q I) as (X & B & D). split; [exists (fst q); auto|exact D]. }
  destruct (C18_values_joined_in_order_partial check _ FP W) as (m' & E' & G'). rewrite E in E'. injection E' as <-. intros k vs V. apply (G' k vs V).
Qed.
(** a URL with a fragment: the parameters are put after it, in the part of the URL that is not sent to the server *)
Theorem C93_fragment_refuted : SendProofs.holds_dicts SendProps.ex_fragment (SendProofs.mk_dicts [] [(bs "k", Some (bs "v"))] [] []) /\
  exists l sent, SendModel.send_request SendProps.yes SendProps.ex_fragment true true true = Ret (Some l) /\ SendSpec.last_of SendSpec.o_url l = Some (Some sent) /\
    SendSpec.query_pairs (snd (SendSpec.split_url (fst (YuarelSpec.cut 35 sent)))) = Some [].
Proof. split; [exact (proj1 SendProps.C66_fragment_refuted)|]. do 2 eexists. split; [vm_compute; reflexivity|]. split; vm_compute; reflexivity. Qed.
(** headers: libcurl adds its own (Host, User-Agent, ...) anywhere *)
Theorem C93_headers_arrive : forall c r w da h x opts own pairs check, SendProofs.holds_dicts r x -> SendProofs.df x = [] -> Forall SendProps.header_ok (SendProofs.dh x) -> SendSpec.names_ok (SendProofs.dh x) ->
  Forall pair_ok own -> mixed (pairs_of (SendProofs.dh x)) own pairs -> pairs_weight pairs + 3 < two64 -> SendModel.send_request c r w da h = Ret (Some opts) ->
  exists lines fields m, SendSpec.last_of SendSpec.o_headers opts = Some lines /\
    HttpText.read_fields (Datatypes.S (length (SendSpec.wire lines))) (SendSpec.wire lines) = Some (fields, []) /\ mixed (map (fun f => (Some (fst f), Some (snd f))) fields) own pairs /\
    fill_all check u_map_init pairs = Ret m /\
    (forall k v, In (k, Some v) (SendProofs.dh x) -> pair_kept check k (Some v) -> (forall p, In p own -> fst p <> Some k) -> get_str m k = Ret (Some v)).
Proof.
  intros c r w da h x opts own pairs check HD DF HO NO FO MX W S. destruct (SendProps.C68_headers_sent_partial c r w da h x opts HD DF HO S) as (lines & LH & RF). destruct HD as (RH & _).
  destruct (filled_in check (SendProofs.dh x) own pairs (proj1 (repr_nodup _ _ RH)) (dict_ok _ _ RH NO) FO MX W) as (m & E & G & _).
  exists lines, (map SendProps.plain_field (SendProofs.dh x)), m. split; [exact LH|]. split; [exact RF|]. split.
  - replace (map (fun f => (Some (fst f), Some (snd f))) (map SendProps.plain_field (SendProofs.dh x))) with (pairs_of (SendProofs.dh x)); [exact MX|]. unfold pairs_of. rewrite map_map. apply map_ext_in.
    intros p I. rewrite Forall_forall in HO. destruct (HO p I) as (_ & _ & v & V & _). unfold SendProps.plain_field. destruct p as [k o]. cbn [fst snd] in *. subst o. reflexivity.
  - split; [exact E|]. intros k v I K OW. exact (G k (Some v) I K OW).
Qed.
(** cookies *)
Theorem C93_cookies_arrive : forall c r w da h x opts check, SendProofs.holds_dicts r x -> SendProofs.dc x <> [] -> Forall SendProps.cookie_ok (SendProofs.dc x) -> SendSpec.names_ok (SendProofs.dc x) ->
  pairs_weight (pairs_of (SendProofs.dc x)) + 3 < two64 -> SendModel.send_request c r w da h = Ret (Some opts) ->
  exists text cookies m, SendSpec.last_of SendSpec.o_cookies opts = Some (Some text) /\ SendSpec.read_cookies text = Some cookies /\
    fill_all check u_map_init (map (fun f => (Some (fst f), Some (snd f))) cookies) = Ret m /\
    (forall k v, In (k, Some v) (SendProofs.dc x) -> pair_kept check k (Some v) -> get_str m k = Ret (Some v)) /\
    (forall k, (forall p, In p (SendProofs.dc x) -> fst p <> k) -> u_map_has_key m (Some k) = Ret false).
Proof.
  intros c r w da h x opts check HD DC CO NO W S. destruct (SendProps.C68_cookies_sent_partial c r w da h x opts HD DC CO S) as (t & LC & RC). destruct HD as (_ & _ & _ & RK).
  destruct (filled_in check (SendProofs.dc x) [] (pairs_of (SendProofs.dc x)) (proj1 (repr_nodup _ _ RK)) (dict_ok _ _ RK NO) (Forall_nil _) (mixed_nil _ _) W) as (m & E & G & A).
  exists t, (map SendProps.plain_field (SendProofs.dc x)), m. split; [exact LC|]. split; [exact RC|]. split; [|split; [intros k v I K; apply (G k (Some v) I K); intros p []|intros k N; apply A; auto; intros p []]].
  rewrite <- E. f_equal. unfold pairs_of. rewrite map_map. apply map_ext_in. intros p I. rewrite Forall_forall in CO. destruct (CO p I) as (_ & _ & v & V & _). unfold SendProps.plain_field. destruct p as [k o]. cbn [fst snd] in *. subst o. reflexivity.
Qed.
(** the form: MHD decodes the body as pairs and gives each value in pieces of any size; a value that is NULL or empty is absent from the map of the server or empty there *)
Theorem C93_form_arrives : forall c r w da h x opts check max params, SendProofs.holds_dicts r x -> SendSpec.names_ok (SendProofs.df x) -> SendProofs.df x <> [] -> 0 <= max < two64 ->
  let form := map (fun p => (fst p, text (snd p))) (SendProofs.df x) in form_split form params ->
  (check = true -> Forall (fun q => utf8_text (fst (fst q)) /\ bytes (fst (fst q)) /\ Forall utf8_text (snd q) /\ Forall bytes (snd q)) params) -> form_weight form + 3 < two64 ->
  SendModel.send_request c r w da h = Ret (Some opts) ->
  exists body pairs m, SendSpec.last_of SendSpec.o_body opts = Some (map Some body ++ [Some 0]) /\ SendSpec.last_of SendSpec.o_size opts = Some (zlen body) /\ HttpText.read_pairs body = Some pairs /\
    form = map (fun p => (fst p, text (snd p))) pairs /\ post_form check max u_map_init params = Ret (true, m) /\
    forall k v, In (k, Some v) (SendProofs.df x) -> limited max v <> [] -> u_map_get m (Some k) = Ret (Some (block_of (limited max v ++ [0]))) /\ u_map_get_length m (Some k) = Ret (zlen (limited max v)).
Proof.
  intros c r w da h x opts check max params HD NO DF MX form FS UT W S. destruct (SendProps.C67_form_sent c r w da h x opts HD NO DF S) as (body & RP & SZ & BD & _). destruct HD as (_ & _ & RF & _).
  destruct (C27_form_independent_of_splits_partial check max form params MX FS UT W) as (m & E & H). exists body, (SendProofs.df x), m. split; [exact BD|]. split; [exact SZ|]. split; [exact RP|]. split; [reflexivity|]. split; [exact E|].
  intros k v I NE. apply C27_holds_observable; [|exact NE]. replace (limited max v) with (form_value max [] form k); [apply H|]. unfold form. pose proof (proj1 (repr_nodup _ _ RF)) as ND. clear -ND I.
  assert (Z : forall d old, ~ In k (map fst d) -> form_value max old (map (fun p : str * option str => (fst p, text (snd p))) d) k = old).
  { induction d as [|q d IH]; intros old N; [reflexivity|]. cbn [map form_value]. replace (str_eqb (fst q) k) with false by (symmetry; apply str_eqb_neq; intros Q; apply N; left; exact Q). apply IH. intros J. apply N. right. exact J. }
  induction (SendProofs.df x) as [|q d IH]; [destruct I|]. cbn [map form_value] in *. inversion ND as [|? ? NI ND']; subst. destruct I as [-> | I].
  - cbn [fst snd]. rewrite str_eqb_refl, Z by exact NI. reflexivity.
  - replace (str_eqb (fst q) k) with false; [exact (IH I ND')|]. symmetry. apply str_eqb_neq. intros Q. apply NI. rewrite Q. exact (in_map fst d (k, Some v) I).
Qed.
(** the body, in chunks of any size *)
Theorem C93_body_arrives : forall c r w da h x opts b max chunks, SendProofs.holds_dicts r x -> SendProofs.df x = [] -> SendModel.h_body r = Some (block_of b) -> SendModel.h_length r = zlen b -> b <> [] -> 0 <= max < two64 ->
  List.concat chunks = b -> Forall (fun c => c <> []) chunks -> zlen b < two64 -> SendModel.send_request c r w da h = Ret (Some opts) ->
  SendSpec.last_of SendSpec.o_body opts = Some (block_of b) /\ SendSpec.last_of SendSpec.o_size opts = Some (zlen b) /\
  body_calls max (InputModel.mk_body [] 0) chunks = Ret (InputModel.mk_body (block_of (limited max b)) (zlen (limited max b))).
Proof.
  intros c r w da h x opts b max chunks HD DF HB HL NE MX CC CH L S. pose proof (SendProps.C67_body_sent c r w da h x opts HD DF S) as B. rewrite HB, HL in B.
  replace (zlen b =? 0) with false in B by (symmetry; apply Z.eqb_neq; destruct b; [congruence|]; rewrite zlen_cons; pose proof (zlen_nonneg _ b); lia).
  injection B as B1 B2. split; [exact B1|]. split; [exact B2|]. rewrite <- CC. apply C26_body_intact_up_to_limit; auto. rewrite CC. exact L.
Qed.

(** ** cases *)
Example C92_ex : let r := DispatchModel.mk_resp 200 (SendProps.map_of [(bs "X-A", Some (bs "a: b")); (bs "X-N", None)]) [CookieModel.mk_cookie (bs "c") (bs "1") None 0 None None 1 0 0] (bs "hello") None None None in
  let hs := [(bs "X-A", bs "a: b"); (bs "Set-Cookie", bs "c=1; Secure")] in
  let fs := (bs "Date", bs "today") :: hs ++ [(bs "Content-Length", bs "5")] in
  DispatchModel.set_headers no_empty r [] = Ret (true, hs) /\ mixed hs [(bs "Date", bs "today"); (bs "Content-Length", bs "5")] fs /\
  (do x <- write_headers (headers0 0) (lines_of (head_text (bs "HTTP/1.1 200 OK") fs)); do a <- get_case_str (h_map (snd x)) (Some (bs "x-a")); do b <- get_case_str (h_map (snd x)) (Some (bs "set-cookie")); Ret (a, b))
    = Ret (Some (bs "a: b"), Some (bs "c=1; Secure")).
Proof. cbv zeta. split; [vm_compute; reflexivity|]. split; [cbn [app]; repeat constructor|]. vm_compute. reflexivity. Qed.
Definition ex_fields : list (str * str) := [(bs "Date", bs "today"); (bs "X-A", bs "a: b")].
Example C92_ex_hyps : Forall field_ok ex_fields /\ status_ok (bs "HTTP/1.1 200 OK").
Proof.
  assert (B : forall s, match s with c :: _ => isspace c = false | [] => True end -> match rev s with c :: _ => isspace c = false | [] => True end -> bare s).
  { intros s A Z. split; [intros c r ->; exact A|]. intros c r ->. rewrite rev_app_distr in Z. exact Z. }
  split; [repeat constructor; cbn [fst snd]; try discriminate; try (apply B; reflexivity); try (intros I; cbn in I; intuition discriminate); try (apply cstrb_true; reflexivity)|].
  split; [discriminate|]. split; [apply B; reflexivity|]. split; intros I; cbn in I; intuition discriminate.
Qed.
(** a request with parameters, headers and cookies, as the server sees it *)
Example C93_ex : SendProofs.holds_dicts SendProps.ex_h SendProps.ex_hx /\
  exists m, fill_all true u_map_init ((Some (bs "Host"), Some (bs "h")) :: pairs_of (SendProofs.dh SendProps.ex_hx)) = Ret m /\ get_str m (bs "X-A") = Ret (Some (bs "a b")) /\ get_str m (bs "Host") = Ret (Some (bs "h")).
Proof.
  split; [split; [exact (SendProps.repr_map_of (SendProofs.dh SendProps.ex_hx) eq_refl)|split; [apply repr_init|split; [apply repr_init|exact (SendProps.repr_map_of (SendProofs.dc SendProps.ex_hx) eq_refl)]]]|].
  eexists. split; [vm_compute; reflexivity|]. split; vm_compute; reflexivity.
Qed.

(** the URL has a query of its own, one of its names is also in map_url *)
Definition ex_own : SendModel.hreq := SendModel.mk_hreq None (Some (bs "http://h/p?a=1&b=2")) None None None None None None 0 17 u_map_init (SendProps.map_of [(bs "a", Some (bs "x&y")); (bs "k", None)]) u_map_init u_map_init None 0 1 17 1 17 None 0.
Example C93_parameters_ex : SendProofs.holds_dicts ex_own (SendProofs.mk_dicts [] [(bs "a", Some (bs "x&y")); (bs "k", None)] [] []) /\
  SendSpec.query_pairs (option_map SendProps.no_blanks (snd (SendSpec.split_url (bs "http://h/p?a=1&b=2")))) = Some [(bs "a", Some (bs "1")); (bs "b", Some (bs "2"))] /\
  Forall pair_ok (pairs_of [(bs "a", Some (bs "1")); (bs "b", Some (bs "2"))]) /\
  exists l sent pairs m, SendModel.send_request SendProps.yes ex_own true true true = Ret (Some l) /\ SendSpec.last_of SendSpec.o_url l = Some (Some sent) /\
    SendSpec.query_pairs (snd (SendSpec.split_url sent)) = Some pairs /\ fill_all true u_map_init (pairs_of pairs) = Ret m /\
    get_str m (bs "a") = Ret (Some (bs "1,x&y")) /\ get_str m (bs "b") = Ret (Some (bs "2")) /\ get_str m (bs "k") = Ret (Some []) /\ u_map_has_key m (Some (bs "c")) = Ret false.
Proof.
  split; [split; [apply repr_init|split; [exact (SendProps.repr_map_of [(bs "a", Some (bs "x&y")); (bs "k", None)] eq_refl)|split; apply repr_init]]|].
  split; [vm_compute; reflexivity|]. split.
  - apply Forall_cons; [|apply Forall_cons; [|apply Forall_nil]]; (split; [eexists; split; [reflexivity|split]|]; first [discriminate|apply cstrb_true; reflexivity]).
  - do 4 eexists. split; [vm_compute; reflexivity|]. split; [vm_compute; reflexivity|]. split; [vm_compute; reflexivity|]. split; [vm_compute; reflexivity|]. repeat split; vm_compute; reflexivity.
Qed.

Print Assumptions C92_answer_arrives.
Print Assumptions C92_refused_header_refuted.
Print Assumptions C93_parameters_arrive.
Print Assumptions C93_fragment_refuted.
Print Assumptions C93_headers_arrive.
Print Assumptions C93_cookies_arrive.
Print Assumptions C93_form_arrives.
Print Assumptions C93_body_arrives.
