(** Proofs about the properties of requests and responses. *)
From Coq Require Import String ZArith Bool List Lia.
From Verif Require Import Base BaseFacts UMapModel UMapSpec UMapProofs UMapReach SMap SMapCase CopyModel CopyProofs SendModel PropModel PropSpec.
From Verif Require NegoModel NegoSpec NegoProofs CompressProofs ClientModel.
From Verif Require TokenModel OpenProofs.
Import ListNotations.
Open Scope Z_scope.

Lemma repr_remove_code : forall m d k, repr m d ->
  exists m', u_map_remove_from_key m (Some k) = Ret (fst (remove_effect d (Some k)), m') /\ repr m' (snd (remove_effect d (Some k))).
Proof.
  intros m d k R. destruct (OpenProofs.repr_remove m d k R) as (r & m' & E & R').
  assert (C : r = if shas d k then U_OK else U_ERROR_NOT_FOUND).
  { pose proof (repr_has m d k R) as H. destruct R as (es & L & _ & _ & F & _). destruct (remove_key_layout m es k L) as (m2 & E2 & _). rewrite E2 in E.
    assert (X : existsb (key_is k) es = shas d k).
    { clear - F. unfold shas. induction F as [|e p es d V F IH]; cbn; auto. unfold key_is at 1. rewrite (proj1 V). rewrite IH. reflexivity. }
    rewrite X in E. inversion E. reflexivity. }
  subst r. exists m'. unfold remove_effect. destruct (shas d k) eqn:H; (split; [exact E|]); cbn [snd]; [exact R'|].
  replace d with (sdel k d); [exact R'|]. clear - H. unfold sdel, shas in *. induction d as [|p d IH]; cbn in *; auto. apply orb_false_iff in H. destruct H as (A & B).
  rewrite A. cbn. now rewrite IH.
Qed.
Lemma repr_put_code : forall m d k v, repr m d -> otext_ok k -> otext_ok v ->
  exists m', u_map_put m k v = Ret (fst (put_effect d k v), m') /\ repr m' (snd (put_effect d k v)).
Proof.
  intros m d k v R K V. destruct k as [[|c k]|]; cbn [put_effect fst snd].
  - exists m. split; auto. destruct v; reflexivity.
  - apply repr_put; auto. discriminate.
  - exists m. split; auto. destruct v; reflexivity.
Qed.

Section P.
Variable dumps : TokenModel.json -> option str.
Variable ht : tfield -> option str.
Variable hb : option buf.
Lemma text_of_c : forall ft fb s, cstr s -> text_of ht hb ft fb (PMem (cblock s)) = Ret (Some s).
Proof.
  intros ft fb s K. unfold text_of, mem_of. unfold bind at 1. unfold cblock.
  assert (X : read_cstr (block_of (s ++ [0])) = Ret s).
  { unfold block_of. rewrite map_app. now apply (read_cstr_block s []). }
  rewrite X. reflexivity.
Qed.
Lemma text_of_atext : forall ft fb v, otext_ok v -> text_of ht hb ft fb (match v with Some s => PMem (cblock s) | None => PNull end) = Ret v.
Proof.
  intros ft fb [s|] K; [|reflexivity]. unfold text_of, mem_of. unfold bind at 1. unfold cblock. 
  assert (X : read_cstr (block_of (s ++ [0])) = Ret s).
  { unfold block_of. rewrite map_app. apply (read_cstr_block s []). apply K. }
  rewrite X. reflexivity.
Qed.
Lemma set_text_ok : forall q f v a, otext_ok v -> shows q a -> exists q', set_text ht hb q f (match v with Some s => PMem (cblock s) | None => PNull end) = Ret q' /\ shows q' (on_text a f (some_text v)).
Proof.
  intros q f v a K (A & B & C & D). unfold set_text. cbv zeta. rewrite text_of_atext by auto. unfold bind. eexists. split; [reflexivity|].
  split; [|split; [|split]]; auto. intros x. cbn [q_text on_text a_text]. unfold upd_t. rewrite A. destruct (tfield_beq x f); auto; destruct v as [[|]|]; reflexivity.
Qed.
Lemma text_option_ok : forall q f v a rest, otext_ok v -> shows q a ->
  exists q', text_option ht hb q f (atext v :: rest) = Ret (U_OK, q', rest) /\ shows q' (on_text a f (some_text v)).
Proof.
  intros q f v a rest K S. unfold text_option, atext, va_ptr. unfold bind at 1. cbn [fst snd]. destruct (set_text_ok q f v a K S) as (q' & -> & S').
  unfold bind. eauto.
Qed.
Lemma put_option_ok : forall q f k v a rest, otext_ok k -> otext_ok v -> shows q a ->
  exists q', put_option ht hb q f (atext k :: atext v :: rest) = Ret (fst (put_effect (a_map a f) k v), q', rest) /\ shows q' (snd (on_map a f (put_effect (a_map a f) k v))).
Proof.
  intros q f k v a rest K V (A & B & C & D). unfold put_option, atext, va_ptr. unfold bind at 1. cbn [fst snd]. unfold bind at 1. cbn [fst snd].
  unfold put_in. rewrite !text_of_atext by auto. unfold bind at 2. unfold bind at 2. destruct (repr_put_code (q_map q f) (a_map a f) k v (C f) K V) as (m' & -> & R).
  unfold bind. cbn [fst snd]. eexists. split; [reflexivity|]. split; [|split; [|split]]; auto.
  intros x. cbn [q_map on_map snd a_map]. unfold upd_m. destruct (mfield_beq x f) eqn:E; auto.
Qed.
Lemma remove_option_ok : forall q f k a rest, otext_ok k -> shows q a ->
  exists q', remove_option ht hb q f (atext k :: rest) = Ret (fst (remove_effect (a_map a f) k), q', rest) /\ shows q' (snd (on_map a f (remove_effect (a_map a f) k))).
Proof.
  intros q f k a rest K (A & B & C & D). unfold remove_option, atext, va_ptr. unfold bind at 1. cbn [fst snd].
  unfold remove_in. rewrite !text_of_atext by auto. unfold bind at 2.
  assert (X : exists m', u_map_remove_from_key (q_map q f) k = Ret (fst (remove_effect (a_map a f) k), m') /\ repr m' (snd (remove_effect (a_map a f) k))).
  { destruct k as [k|]; [now apply repr_remove_code|]. exists (q_map q f). split; auto. cbn. auto. }
  destruct X as (m' & -> & R).
  unfold bind. cbn [fst snd]. eexists. split; [reflexivity|]. split; [|split; [|split]]; auto.
  intros x. cbn [q_map on_map snd a_map]. unfold upd_m. destruct (mfield_beq x f) eqn:E; auto.
Qed.
Lemma body_ok : forall q a b d fb, shows q a -> body_is b d -> shows (with_body q b fb) (on_body a d).
Proof. intros q a b d fb (A & B & C & D) X. split; [|split; [|split]]; auto. Qed.
Lemma cblock_body : forall s st, body_is (mk_msg (Some (cblock s)) (zlen s) st) (Some s).
Proof. intros s st. split; [|reflexivity]. exists [Some 0]. cbn [m_body]. unfold cblock, block_of. now rewrite map_app. Qed.
Lemma copied : forall d n st, 0 <= n <= zlen d -> exists b, memcpy (malloc n) 0 (block_of d) n = Ret b /\ body_is (mk_msg (Some b) n st) (Some (zfirstn n d)).
Proof.
  intros d n st H. assert (X : memcpy (malloc n) 0 (block_of d) n = Ret (block_of (zfirstn n d))).
  { apply memcpy_fresh. lia. }
  rewrite X. eexists. split; [reflexivity|]. split; cbn [m_body m_length]; [exists []; now rewrite app_nil_r|]. rewrite zlen_zfirstn; lia.
Qed.

Lemma request_option_ok : forall o q a rest, for_request o -> opt_ok o -> shows q a ->
  exists q', request_option dumps ht hb (code o) q (args o ++ rest) = Ret (fst (effect dumps a o), q', rest) /\ shows q' (snd (effect dumps a o)).
Proof.
  intros o q a rest FR K S. destruct o as [f v|u p|s|f z|m k v|m k|d n|s|j|z|v|p|n|c]; try contradiction; cbn [code args app].
  - cbn [effect fst snd opt_ok] in *. destruct f; exact (text_option_ok q _ v a rest K S).
  - cbn [opt_ok] in K. destruct K as (K1 & K2). cbn [effect fst snd]. destruct (set_text_ok q User u a K1 S) as (q1 & E1 & S1). destruct (set_text_ok q1 Password p _ K2 S1) as (q2 & E2 & S2).
    exists q2. split; auto. unfold request_option. cbn [Z.eqb Pos.eqb]. unfold atext, va_ptr. unfold bind at 1. cbn [fst snd]. rewrite E1. unfold bind at 1. unfold bind at 1. cbn [fst snd].
    rewrite E2. reflexivity.
  - cbn [opt_ok] in K. cbn [effect fst snd]. unfold request_option. cbn [Z.eqb Pos.eqb]. unfold atext, va_ptr. unfold bind at 1. cbn [fst snd].
    unfold append_url.
    rewrite (text_of_c _ _ _ K). unfold bind. eexists. split; [reflexivity|]. destruct S as (A & B & C & D). split; [|split; [|split]]; auto.
    intros x. cbn [q_text on_text a_text]. unfold upd_t, catf. rewrite !A. destruct (tfield_beq x Url); auto.
  - cbn [opt_ok] in K. destruct K as (K1 & K2 & K3). cbn [effect fst snd].
    assert (G : forall conv, conv z = z -> exists q', int_option q f conv (VInt z :: rest) = Ret (U_OK, q', rest) /\
       shows q' (mk_view (a_text a) (fun x => if ifield_beq x f then z else a_int a x) (a_map a) (a_body a))).
    { intros conv CV. unfold int_option, va_int. replace (z <? 2147483648) with true by (symmetry; apply Z.ltb_lt; lia). unfold bind. cbn [fst snd]. eexists. split; [reflexivity|].
      destruct S as (A & B & C & D). split; [|split; [|split]]; auto. intros x. cbn [q_int set_int a_int]. unfold upd_i. rewrite CV, B. reflexivity. }
    destruct f; try exact (G ident eq_refl).
    + apply (G (fun z => z mod 65536)). apply Z.mod_small. auto.
    + apply (G (fun z => z mod two64)). apply Z.mod_small. unfold two64. specialize (K3 eq_refl). lia.
  - destruct K as (K1 & K2). cbn [effect]. destruct m; exact (put_option_ok q _ k v a rest K1 K2 S).
  - cbn [effect opt_ok] in *. destruct m; exact (remove_option_ok q _ k a rest K S).
  - cbn [opt_ok] in K. destruct K as (K1 & K2). unfold request_option. cbn [Z.eqb Pos.eqb]. unfold adata, va_ptr, va_size. unfold bind at 1. cbn [fst snd].
    replace (0 <=? n) with true by (symmetry; apply Z.leb_le; lia). unfold bind at 1. cbn [fst snd]. cbn [effect asked_body]. destruct d as [d|].
    + unfold binary_body. destruct (n =? 0) eqn:N; [unfold bind; eexists; split; [reflexivity|exact S]|]. cbn [mem_of]. unfold bind at 2.
      destruct (copied d n (m_status (q_body q)) ltac:(destruct K2; lia)) as (b & E & BI). rewrite E. unfold bind. cbn [fst snd].
      eexists. split; [reflexivity|]. now apply body_ok.
    + cbn [binary_body]. unfold bind. eexists. split; [reflexivity|exact S].
  - cbn [opt_ok] in K. unfold request_option. cbn [Z.eqb Pos.eqb]. unfold atext, va_ptr. unfold bind at 1. cbn [fst snd]. cbn [effect asked_body]. destruct s as [s|].
    + unfold string_body. rewrite (text_of_c _ _ s (proj1 K)). unfold bind. cbn [set_string_body fst snd].
      eexists. split; [reflexivity|]. apply body_ok; auto. apply cblock_body.
    + cbn [string_body]. unfold bind. eexists. split; [reflexivity|exact S].
  - unfold request_option. cbn [Z.eqb Pos.eqb]. unfold va_json. unfold bind at 1. cbn [fst snd]. unfold json_body_request, json_body. cbn [effect asked_body].
    assert (G : forall jj, document dumps (Some jj) = Some (dumps jj) -> container (Some jj) = true -> exists q',
      (do x <- (do x <- match document dumps (Some jj) with
          | None => Ret (U_ERROR_PARAMS, (q_body q, q_map q MHeader))
          | Some None => Ret (U_ERROR_MEMORY, (mk_msg None 0 (m_status (q_body q)), q_map q MHeader))
          | Some (Some t) => do h <- u_map_put (q_map q MHeader) (Some (bs "Content-Type")) (Some (bs "application/json"));
              Ret (U_OK, (mk_msg (Some (cblock t)) (zlen t) (m_status (q_body q)), snd h)) end;
        Ret (fst x, mk_preq (q_text q) (q_int q) (upd_m (q_map q) MHeader (snd (snd x))) (fst (snd x)) (q_freed_text q)
          (match document dumps (Some jj) with None => q_freed_body q | _ => true end)));
       Ret (fst x, snd x, rest)) = Ret (fst (effect dumps a (OJson (Some jj))), q', rest) /\ shows q' (snd (effect dumps a (OJson (Some jj))))).
    { intros jj DO CO. cbn [effect asked_body]. rewrite DO, CO. destruct S as (A & B & C & D). destruct (dumps jj) as [t|].
      - destruct (repr_put_code (q_map q MHeader) (a_map a MHeader) (Some (bs "Content-Type")) (Some (bs "application/json")) (C MHeader)) as (m' & E & R).
        + split; [apply cstrb_true; reflexivity|reflexivity].
        + split; [apply cstrb_true; reflexivity|reflexivity].
        + rewrite E. unfold bind. cbn [fst snd]. eexists. split; [reflexivity|]. split; [|split; [|split]]; auto.
          * intros x. cbn [q_map on_body on_map snd a_map]. unfold upd_m. destruct (mfield_beq x MHeader); auto.
          * cbn [q_body on_body on_map snd a_body]. apply cblock_body.
      - unfold bind. cbn [fst snd]. eexists. split; [reflexivity|]. split; [|split; [|split]]; auto.
        + intros x. cbn [q_map on_body a_map]. unfold upd_m. destruct (mfield_beq x MHeader) eqn:E; auto. destruct x; discriminate || auto.
        + split; reflexivity. }
    assert (N : forall jj, document dumps jj = None -> container jj = false -> exists q',
      (do x <- (do x <- match document dumps jj with
          | None => Ret (U_ERROR_PARAMS, (q_body q, q_map q MHeader))
          | Some None => Ret (U_ERROR_MEMORY, (mk_msg None 0 (m_status (q_body q)), q_map q MHeader))
          | Some (Some t) => do h <- u_map_put (q_map q MHeader) (Some (bs "Content-Type")) (Some (bs "application/json"));
              Ret (U_OK, (mk_msg (Some (cblock t)) (zlen t) (m_status (q_body q)), snd h)) end;
        Ret (fst x, mk_preq (q_text q) (q_int q) (upd_m (q_map q) MHeader (snd (snd x))) (fst (snd x)) (q_freed_text q)
          (match document dumps jj with None => q_freed_body q | _ => true end)));
       Ret (fst x, snd x, rest)) = Ret (fst (effect dumps a (OJson jj)), q', rest) /\ shows q' (snd (effect dumps a (OJson jj)))).
    { intros jj DO CO. cbn [effect]. rewrite DO, CO. destruct S as (A & B & C & D). unfold bind. cbn [fst snd]. eexists. split; [reflexivity|]. split; [|split; [|split]]; auto.
      intros x. cbn [q_map]. unfold upd_m. destruct (mfield_beq x MHeader) eqn:E; auto. destruct x; discriminate || auto. }
    destruct j as [[]|]; first [apply N; reflexivity | apply G; reflexivity].
  - cbn [opt_ok] in K. cbn [effect fst snd]. exists q. split; auto. unfold request_option.
    repeat match goal with |- context [c =? ?n] => replace (c =? n) with false by (symmetry; apply Z.eqb_neq; lia) end. reflexivity.
Qed.
Lemma code_pos : forall o, opt_ok o -> 0 < code o.
Proof. intros o K. destruct o as [f v|u p|s|f z|m k v|m k|d n|s|j|z|v|p|n|c]; try destruct f; try destruct m; cbn in *; lia. Qed.
Lemma request_loop_ok : forall l q a n, Forall for_request l -> Forall opt_ok l -> shows q a -> (length (call l) <= n)%nat ->
  exists q', request_loop dumps ht hb n U_OK q (call l) = Ret (fst (effects dumps a l), q') /\ shows q' (snd (effects dumps a l)).
Proof.
  induction l as [|o l IH]; intros q a n FR K S N.
  - destruct n; [cbn in N; lia|]. exists q. split; auto.
  - inversion FR; subst. inversion K; subst. destruct n as [|n]; [cbn in N; lia|].
    unfold call in *. cbn [flat_map] in *. rewrite <- !app_assoc in *. cbn [app] in *. cbn [request_loop]. pose proof (code_pos o H3) as P. unfold va_uint.
    replace (0 <=? code o) with true by (symmetry; apply Z.leb_le; lia). unfold bind at 1. cbn [fst snd]. replace (code o =? 0) with false by (symmetry; apply Z.eqb_neq; lia).
    cbn [negb andb]. change (U_OK =? U_OK) with true. cbv iota.
    match goal with |- context [request_option _ _ _ _ _ (args o ++ ?r)] => destruct (request_option_ok o q a r H1 H3 S) as (q' & E & S') end.
    rewrite E. unfold bind at 1. cbn [fst snd]. cbn [effects]. destruct (effect dumps a o) as (c & a') eqn:EF. cbn [fst snd] in *.
    destruct (c =? U_OK) eqn:CO.
    + apply Z.eqb_eq in CO. subst c. apply (IH q' a' n H2 H4 S').
      cbn [length] in N. rewrite app_length in N. lia.
    + destruct n as [|n]; [cbn [length] in N; rewrite app_length in N; cbn in N; rewrite app_length in N; cbn in N; lia|].
      assert (NX : exists z r, flat_map (fun o => VInt (code o) :: args o) l ++ [VInt 0] = VInt z :: r /\ 0 <= z).
      { destruct l as [|o2 l]; [exists 0; eexists; split; [reflexivity|lia]|]. inversion H4; subst. pose proof (code_pos o2 H5). cbn [flat_map app]. do 2 eexists. split; [reflexivity|lia]. }
      destruct NX as (z & r & NX & ZP). exists q'. split; auto. rewrite NX. cbn [request_loop va_uint]. replace (0 <=? z) with true by (symmetry; apply Z.leb_le; lia).
      unfold bind. cbn [fst]. rewrite CO, andb_false_r. reflexivity.
Qed.
End P.

(** ** responses *)
Section R.
Variable dumps : TokenModel.json -> option str.
Lemma own_atext : forall v, otext_ok v -> own_text (match v with Some s => PMem (cblock s) | None => PNull end) = Ret v.
Proof.
  intros [s|] K; [|reflexivity]. unfold own_text, own. unfold bind at 1. unfold cblock.
  assert (X : read_cstr (block_of (s ++ [0])) = Ret s).
  { unfold block_of. rewrite map_app. apply (read_cstr_block s []). apply K. }
  rewrite X. reflexivity.
Qed.
Lemma response_option_ok : forall o r a rest, for_response o -> opt_ok o -> rshows r a ->
  exists r', response_option dumps (code o) r (args o ++ rest) = Ret (fst (reffect dumps a o), r', rest) /\ rshows r' (snd (reffect dumps a o)).
Proof.
  intros o r a rest FR K S. pose proof S as S0. destruct S as (A & A2 & B & C & D & E & F).
  assert (U : uint (m_status (p_body r)) = r_status a) by (rewrite A; apply Z.mod_small; lia).
  destruct o as [f v|u p|s|f z|m k v|m k|d n|s|j|z|v|p|n|c]; try contradiction; cbn [code args app].
  - cbn in FR. subst m. destruct K as (K1 & K2). unfold response_option. cbn [map_code Z.eqb Pos.eqb]. unfold atext, va_ptr. unfold bind at 1. cbn [fst snd]. unfold bind at 1. cbn [fst snd].
    rewrite !own_atext by auto. unfold bind at 1. unfold bind at 1. destruct (repr_put_code _ _ k v B K1 K2) as (m' & -> & R). unfold bind. cbn [fst snd reffect].
    eexists. split; [reflexivity|]. unfold rshows. cbn. auto 10.
  - cbn in FR. subst m. unfold response_option. cbn [map_code Z.eqb Pos.eqb Z.add Pos.add]. unfold atext, va_ptr. cbn [opt_ok] in K. unfold bind at 1. cbn [fst snd]. rewrite own_atext by auto. unfold bind at 1.
    assert (X : exists m', u_map_remove_from_key (p_headers r) k = Ret (fst (remove_effect (r_headers a) k), m') /\ repr m' (snd (remove_effect (r_headers a) k))).
    { destruct k as [k|]; [now apply repr_remove_code|]. exists (p_headers r). split; auto. }
    destruct X as (m' & -> & R). unfold bind. cbn [fst snd reffect]. eexists. split; [reflexivity|]. unfold rshows. cbn. auto 10.
  - cbn [opt_ok] in K. destruct K as (K1 & K2). unfold response_option. cbn [Z.eqb Pos.eqb]. unfold adata, va_ptr, va_size. unfold bind at 1. cbn [fst snd].
    replace (0 <=? n) with true by (symmetry; apply Z.leb_le; lia). unfold bind at 1. cbn [fst snd reffect asked_body]. destruct d as [d|].
    + cbn [own]. unfold bind at 1. destruct (n =? 0); [eexists; split; [reflexivity|exact S0]|]. rewrite U.
      destruct (copied d n (r_status a) ltac:(destruct K2; lia)) as (b & EE & BI). rewrite EE. unfold bind. eexists. split; [reflexivity|].
      unfold rshows. cbn. auto 10.
    + cbn [own]. unfold bind. eexists. split; [reflexivity|exact S0].
  - cbn [opt_ok] in K. unfold response_option. cbn [Z.eqb Pos.eqb]. unfold atext, va_ptr. unfold bind at 1. cbn [fst snd]. rewrite own_atext by auto. unfold bind at 1. cbn [reffect asked_body]. destruct s as [s|].
    + cbn [set_string_body]. unfold bind. cbn [fst snd]. rewrite U. eexists. split; [reflexivity|]. pose proof (cblock_body s (r_status a)). unfold rshows. cbn. auto 10.
    + cbn [set_string_body]. unfold bind. eexists. split; [reflexivity|]. exact S0.
  - unfold response_option. cbn [Z.eqb Pos.eqb]. unfold va_json. unfold bind at 1. cbn [fst snd]. unfold json_body. cbn [reffect asked_body]. rewrite U.
    assert (X : document dumps j = if container j then Some (match j with Some jj => dumps jj | None => None end) else None) by (destruct j as [[]|]; reflexivity).
    rewrite X. destruct (container j) eqn:CO.
    + destruct j as [jj|]; [|discriminate]. rewrite CO. destruct (dumps jj) as [t|].
      * destruct (repr_put_code (p_headers r) (r_headers a) (Some (bs "Content-Type")) (Some (bs "application/json")) B) as (m' & EE & R).
        -- split; [apply cstrb_true; reflexivity|reflexivity].
        -- split; [apply cstrb_true; reflexivity|reflexivity].
        -- rewrite EE. unfold bind. cbn [fst snd]. eexists. split; [reflexivity|]. pose proof (cblock_body t (r_status a)).
           split; [reflexivity|]. split; [exact A2|]. split; [exact R|]. auto.
      * unfold bind. cbn [fst snd]. eexists. split; [reflexivity|]. split; [exact A|]. split; [exact A2|]. split; [exact B|]. split; [auto|]. split; [auto|]. split; [auto|]. split; reflexivity.
    + unfold bind. cbn [fst snd]. eexists. split; [reflexivity|]. exact S0.
  - cbn [opt_ok] in K. unfold response_option. cbn [Z.eqb Pos.eqb]. unfold va_long. replace (z <? 9223372036854775808) with true by (symmetry; apply Z.ltb_lt; lia).
    unfold bind. cbn [fst snd reffect]. eexists. split; [reflexivity|]. unfold rshows. cbn. auto 10.
  - cbn [opt_ok] in K. unfold response_option. cbn [Z.eqb Pos.eqb]. unfold atext, va_ptr. unfold bind at 1. cbn [fst snd]. rewrite own_atext by auto. unfold bind. cbn [fst snd reffect].
    eexists. split; [reflexivity|]. unfold rshows. cbn. repeat (split; auto).
  - unfold response_option. cbn [Z.eqb Pos.eqb]. unfold va_void, bind. cbn [fst snd reffect]. eexists. split; [reflexivity|]. unfold rshows. cbn. auto 10.
  - cbn [opt_ok] in K. unfold response_option. cbn [Z.eqb Pos.eqb]. unfold va_uint. replace (0 <=? n) with true by (symmetry; apply Z.leb_le; lia). unfold bind. cbn [fst snd reffect].
    eexists. split; [reflexivity|]. unfold rshows. cbn. auto 10.
  - cbn [opt_ok] in K. cbn [reffect fst snd]. exists r. split; auto. unfold response_option.
    repeat match goal with |- context [c =? ?n] => replace (c =? n) with false by (symmetry; apply Z.eqb_neq; lia) end. reflexivity.
Qed.
Lemma response_loop_ok : forall l r a n, Forall for_response l -> Forall opt_ok l -> rshows r a -> (length (call l) <= n)%nat ->
  exists r', response_loop dumps n U_OK r (call l) = Ret (fst (reffects dumps a l), r') /\ rshows r' (snd (reffects dumps a l)).
Proof.
  induction l as [|o l IH]; intros r a n FR K S N.
  - destruct n; [cbn in N; lia|]. exists r. split; auto.
  - inversion FR; subst. inversion K; subst. destruct n as [|n]; [cbn in N; lia|].
    unfold call in *. cbn [flat_map] in *. rewrite <- !app_assoc in *. cbn [app] in *. cbn [response_loop]. pose proof (code_pos o H3) as P. unfold va_uint.
    replace (0 <=? code o) with true by (symmetry; apply Z.leb_le; lia). unfold bind at 1. cbn [fst snd]. replace (code o =? 0) with false by (symmetry; apply Z.eqb_neq; lia).
    cbn [negb andb]. change (U_OK =? U_OK) with true. cbv iota.
    match goal with |- context [response_option _ _ _ (args o ++ ?x)] => destruct (response_option_ok o r a x H1 H3 S) as (r' & E & S') end.
    rewrite E. unfold bind at 1. cbn [fst snd]. cbn [reffects]. destruct (reffect dumps a o) as (c & a') eqn:EF. cbn [fst snd] in *.
    destruct (c =? U_OK) eqn:CO.
    + apply Z.eqb_eq in CO. subst c. apply (IH r' a' n H2 H4 S').
      cbn [length] in N. rewrite app_length in N. lia.
    + destruct n as [|n]; [cbn [length] in N; rewrite app_length in N; cbn in N; rewrite app_length in N; cbn in N; lia|].
      assert (NX : exists z x, flat_map (fun o => VInt (code o) :: args o) l ++ [VInt 0] = VInt z :: x /\ 0 <= z).
      { destruct l as [|o2 l]; [exists 0; eexists; split; [reflexivity|lia]|]. inversion H4; subst. pose proof (code_pos o2 H5). cbn [flat_map app]. do 2 eexists. split; [reflexivity|lia]. }
      destruct NX as (z & x & NX & ZP). exists r'. split; auto. rewrite NX. cbn [response_loop va_uint]. replace (0 <=? z) with true by (symmetry; apply Z.leb_le; lia).
      unfold bind. cbn [fst]. rewrite CO, andb_false_r. reflexivity.
Qed.
End R.

(** ** the last value wins *)
Lemma effect_text : forall dumps a o f, f <> Url -> a_text (snd (effect dumps a o)) f = match sets f o with Some v => v | None => a_text a f end.
Proof.
  intros dumps a o f NU. destruct o as [g v|u p|s|g z|m k v|m k|d n|s|j|z|v|p|n|c]; try reflexivity.
  - cbn. destruct f, g; reflexivity.
  - cbn. destruct f; reflexivity.
  - cbn. destruct f; try reflexivity. congruence.
  - cbn [effect]. destruct (asked_body dumps (OBinary d n)); reflexivity.
  - cbn [effect]. destruct (asked_body dumps (OString s)); reflexivity.
  - cbn [effect]. destruct (container j); [|reflexivity]. destruct (asked_body dumps (OJson j)); reflexivity.
Qed.
Lemma last_text : forall dumps f l a, f <> Url -> fst (effects dumps a l) = U_OK -> a_text (snd (effects dumps a l)) f = match last_set f l with Some v => v | None => a_text a f end.
Proof.
  induction l as [|o l IH]; intros a NU E; [reflexivity|]. cbn [effects last_set] in *. pose proof (effect_text dumps a o f NU) as T. destruct (effect dumps a o) as (c & a'). cbn [snd] in T.
  destruct (c =? U_OK) eqn:C; [|cbn in E; subst; discriminate]. rewrite IH by auto. destruct (last_set f l); auto.
Qed.
Lemma effect_int : forall dumps a o f, a_int (snd (effect dumps a o)) f = match sets_int f o with Some v => v | None => a_int a f end.
Proof.
  intros dumps a o f. destruct o as [g v|u p|s|g z|m k v|m k|d n|s|j|z|v|p|n|c]; try reflexivity.
  - cbn. destruct f, g; reflexivity.
  - cbn [effect]. destruct (asked_body dumps (OBinary d n)); reflexivity.
  - cbn [effect]. destruct (asked_body dumps (OString s)); reflexivity.
  - cbn [effect]. destruct (container j); [|reflexivity]. destruct (asked_body dumps (OJson j)); reflexivity.
Qed.
Lemma last_number : forall dumps f l a, fst (effects dumps a l) = U_OK -> a_int (snd (effects dumps a l)) f = match last_int f l with Some v => v | None => a_int a f end.
Proof.
  induction l as [|o l IH]; intros a E; [reflexivity|]. cbn [effects last_int] in *. pose proof (effect_int dumps a o f) as T. destruct (effect dumps a o) as (c & a'). cbn [snd] in T.
  destruct (c =? U_OK) eqn:C; [|cbn in E; subst; discriminate]. rewrite IH by auto. destruct (last_int f l); auto.
Qed.

(** ** shared data *)
Definition pending (r : presp) : list (Z * Z) := match p_free r, p_shared r with Some g, Some d => [(g, d)] | _, _ => [] end.
Lemma shared_run : forall l r e, Forall gives l ->
  let x := fold_left shared_step l (r, e) in snd x ++ pending (fst x) = e ++ pending r ++ flat_map given l.
Proof.
  induction l as [|o l IH]; intros r e G.
  - cbn. now rewrite app_nil_r.
  - inversion G; subst. destruct o as [d f|]; [|contradiction]. cbn [fold_left flat_map].
    destruct d as [d|].
    + unfold shared_step at 2. cbn [set_shared_data fst snd]. cbv zeta in *. rewrite IH by auto. rewrite <- !app_assoc. reflexivity.
    + unfold shared_step at 2. cbn [set_shared_data fst snd]. cbv zeta in *. rewrite IH by auto. rewrite <- !app_assoc. reflexivity.
Qed.
Lemma given_data : forall l, NoDup (flat_map data_of l) -> NoDup (map snd (flat_map given l)).
Proof.
  assert (I : forall l x, In x (map snd (flat_map given l)) -> In x (flat_map data_of l)).
  { induction l as [|o l IH]; intros x H; [destruct H|]. cbn [flat_map] in *. rewrite map_app in H. apply in_app_or in H. apply in_or_app. destruct H as [H|H]; [left|right; auto].
    destruct o as [[d|] [f|]|]; cbn in *; auto. }
  induction l as [|o l IH]; intros N; [constructor|]. cbn [flat_map] in *. rewrite map_app.
  destruct o as [[d|] [f|]|d]; cbn in *; auto; inversion N; subst; auto. constructor; auto.
Qed.


(** ** JSON bodies *)
Lemma put_single : forall d (name v : str), NoDup (map fst d) -> (forall k o, In (k, o) d -> NegoSpec.same_name k name -> k = name) ->
  NegoSpec.single (sput name (Some v) d) name v.
Proof.
  induction d as [|[k o] d IH]; intros name v N A.
  - exists [], name, (Some v), []. repeat split; auto.
  - cbn [sput fst]. inversion N; subst. destruct (str_eqb k name) eqn:E.
    + apply str_eqb_eq in E. subst k. exists [], name, (Some v), d. repeat split; auto. cbn [app]. intros (k' & o') I S. cbn [fst] in S.
      assert (k' = name) by (apply (A k' o'); [now right|exact S]). subst k'. apply H1. apply in_map_iff. exists (name, o'). auto.
    + destruct (IH name v H2 (fun k' o' I => A k' o' (or_intror I))) as (l1 & k1 & o1 & l2 & EE & S & V & F). rewrite EE.
      exists ((k, o) :: l1), k1, o1, l2. repeat split; auto. intros p I. cbn [app] in I. destruct I as [<-|I]; [|now apply F].
      cbn [fst]. intros S'. assert (k = name) by (apply (A k o); [now left|exact S']). subst. rewrite str_eqb_refl in E. discriminate.
Qed.
Lemma get_json : forall loadb b t h d, body_is b (Some t) -> repr h d ->
  get_json_body loadb b h = Ret (if (zlen (filter (fun p => str_caseeqb (fst p) (bs "Content-Type")) d) =? 1) &&
     match NegoProofs.caseval d (bs "Content-Type") with Some x => containsb x (bs "application/json") | None => false end then loadb t else None).
Proof.
  intros loadb b t h d ((rest & B) & L) R. unfold get_json_body. rewrite (NegoProofs.repr_count_case _ _ _ R). unfold bind at 1.
  destruct (zlen _ =? 1); [|reflexivity].
  change (ClientModel.get_case_str h (Some (bs "Content-Type"))) with (NegoModel.get_case_str h (bs "Content-Type")). rewrite (NegoProofs.repr_get_case _ _ _ R). unfold bind at 1.
  cbn [andb]. destruct (match NegoProofs.caseval d (bs "Content-Type") with Some x => containsb x (bs "application/json") | None => false end); [|reflexivity].
  rewrite B, L. rewrite CompressProofs.read_bytes_eq by (pose proof (zlen_nonneg _ t); lia). unfold bind. pose proof (zfirstn_app_exact _ t []) as X. rewrite app_nil_r in X. unfold str in *. now rewrite X.
Qed.
