(** C28, C29: cookies of a response. *)
From Coq Require Import String ZArith Bool List Lia Sorted.
From Verif Require Import Base BaseFacts Dec CookieModel CookieSpec CookieProofs.
Import ListNotations.
Open Scope Z_scope.

(** C28. After any history of calls: a call succeeds iff it is admissible, and otherwise answers
    U_ERROR_PARAMS; the cookies are those asked for by the last accepted call for each name, one
    per name, in order of first acceptance. *)
Theorem C28_one_cookie_per_name : forall calls, exists codes j cs,
  add_cookies empty_jar calls = Ret (codes, j) /\ map_cookie j = map Some cs /\ nb_cookies j = length cs /\
  Forall2 (fun c code => (code = U_OK <-> accepted c) /\ (code = U_ERROR_PARAMS <-> ~ accepted c)) calls codes /\
  NoDup (map ck_key cs) /\
  (forall c, In c cs <-> exists k call, last_call calls k call /\ c = asked call k) /\
  StronglySorted (first_before calls) (map ck_key cs).
Proof.
  intros calls. destruct (C28_lemma calls [] empty_jar []) as (codes & j & cs & E & (H1 & H2) & (I1 & I2 & I3) & F).
  - split; [constructor|]. split; [|constructor]. intros c. split; [intros []|].
    intros (k & call & (a & b & C & _) & _). destruct a; discriminate.
  - split; reflexivity.
  - exists codes, j, cs. repeat (split; auto).
Qed.
Print Assumptions C28_one_cookie_per_name.

(** C28. A call that is not accepted changes nothing. *)
Theorem C28_rejected_changes_nothing : forall j same a, ~ accepted (same, a) ->
  (if same : bool then add_same_site_cookie j a else add_cookie j a) = Ret (U_ERROR_PARAMS, j).
Proof. intros j same a N. exact (step_rejected j (same, a) N). Qed.
Print Assumptions C28_rejected_changes_nothing.

Definition ex_call (k v : string) (site : Z) : bool * cookie_args :=
  (true, mk_args (Some (bs k)) (Some (bs v)) None 0 None (Some (bs "/")) 0 1 site).
Example ex28 :
  (do r <- add_cookies empty_jar [ex_call "a" "1" 1; ex_call "b" "2" 0; ex_call "a" "3" 7; ex_call "a" "4" 2; ex_call "c" "5" 3];
   Ret (fst r, map_cookie (snd r)))
  = Ret ([0; 0; 3; 0; 0],
         [Some (mk_cookie (bs "a") (bs "4") None 0 None (Some (bs "/")) 0 1 2);
          Some (mk_cookie (bs "b") (bs "2") None 0 None (Some (bs "/")) 0 1 0);
          Some (mk_cookie (bs "c") (bs "5") None 0 None (Some (bs "/")) 0 1 3)]).
Proof. vm_compute. reflexivity. Qed.
Example ex28_last : last_call [ex_call "a" "1" 1; ex_call "b" "2" 0; ex_call "a" "3" 7] (bs "a") (ex_call "a" "1" 1).
Proof.
  exists [], [ex_call "b" "2" 0; ex_call "a" "3" 7]. split; [reflexivity|]. split; [|split; [reflexivity|]].
  - split; [discriminate|simpl; auto].
  - intros x [<-|[<-|[]]] [_ A]; [discriminate|]. unfold call_site in A; simpl in A. intuition lia.
Qed.

(** C29. The header of a cookie whose texts contain no ';' (and whose name contains no '=') reads
    back as exactly that cookie. Partial: max_age below 2^31, see C29_large_max_age_refuted. *)
Theorem C29_header_reads_back_partial : forall c, plain_cookie c -> 0 <= ck_max_age c < 2147483648 ->
  read_set_cookie (generate_cookie_header c) = Some (view_of c).
Proof. exact C29_lemma. Qed.
Print Assumptions C29_header_reads_back_partial.

(** C29. Without any assumption on the texts: name=value comes first. *)
Theorem C29_starts_with_name_value : forall c, exists rest,
  generate_cookie_header c = ck_key c ++ bs "=" ++ ck_value c ++ rest /\
  (ck_expires c = None -> ck_max_age c = 0 -> ck_domain c = None -> ck_path c = None -> ck_secure c = 0 ->
   ck_http_only c = 0 -> ck_same_site c = 0 -> rest = []).
Proof.
  intros c. rewrite header_segs. exists (flat_map (fun s => 59 :: s) (segs_of c)). rewrite <- !app_assoc. split; auto.
  intros A B C D E F G. unfold segs_of. rewrite A, B, C, D, E, F, G. reflexivity.
Qed.
Print Assumptions C29_starts_with_name_value.

Definition ex_cookie : cookie := mk_cookie (bs "id") (bs "a=b") (Some (bs "Wed, 21 Oct 2015")) 3600 None (Some (bs "/")) 1 0 2.
Example ex29_hyp : plain_cookie ex_cookie /\ 0 <= ck_max_age ex_cookie < 2147483648.
Proof.
  split; [|simpl; lia]. repeat split; try (intros s E; injection E as <-); try (intros s E; discriminate E);
    unfold no_semicolon; simpl; intuition discriminate.
Qed.
Example ex29_run : generate_cookie_header ex_cookie = bs "id=a=b; Expires=Wed, 21 Oct 2015; Max-Age=3600; Path=/; Secure; SameSite=Lax".
Proof. vm_compute. reflexivity. Qed.

(** C29 does not hold for max_age >= 2^31: "%d" prints a negative number, which a client takes as
    "already expired". *)
Theorem C29_large_max_age_refuted : exists c, plain_cookie c /\ 0 <= ck_max_age c < 4294967296 /\
  read_set_cookie (generate_cookie_header c) <> Some (view_of c) /\
  generate_cookie_header c = bs "k=v; Max-Age=-2147483648".
Proof.
  exists (mk_cookie (bs "k") (bs "v") None 2147483648 None None 0 0 0). split; [|split; [simpl; lia|split]].
  - repeat split; try (intros s E; discriminate E); unfold no_semicolon; simpl; intuition discriminate.
  - vm_compute. discriminate.
  - vm_compute. reflexivity.
Qed.
Print Assumptions C29_large_max_age_refuted.
