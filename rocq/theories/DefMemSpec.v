(** What C109 says about the memory of permessage-deflate. What is negotiated when there is memory is what DeflateModel says
    (C58-C60). *)
From Coq Require Import String ZArith Bool List.
From Verif Require Import Base StrModel DeflateModel MapMemModel MapMemSpec RespMemModel DefMemModel.
Import ListNotations.
Open Scope Z_scope.

(** ** What a negotiation loses: the array of every server_max_window_bits that has not exactly one '=' *)
Definition untidy_param (p : str) : bool :=
  starts (bs "server_max_window_bits") (trim p) && negb (Nat.eqb (count_occ Z.eq_dec (trim p) 61) 1).
Definition untidy (e : str) : nat := List.length (filter untidy_param (split_string 59 (skipn (List.length EXT_DEFLATE) e))).

(** ** What is negotiated: return code, name, parameters *)
Definition wanted (e : str) (l : list str) : Z * option str * option dctx := server_match_deflate (fun _ _ => true) e l None.
Definition wanted_client (e : str) : Z * option dctx := client_match_deflate (fun _ _ => true) e.
(** the parts of the answer of the server *)
Definition parts (e : str) : list str :=
  let s := parse_params true e in
  let c := d_ctx s in
  [EXT_DEFLATE] ++
  (if c_snct c then [bs "; server_no_context_takeover"] else []) ++
  (if c_cnct c then [bs "; client_no_context_takeover"] else []) ++
  (if d_schg s then [bs "; server_max_window_bits=" ++ Dec.udec (c_sbits c)] else []) ++
  (if d_cchg s then [bs "; client_max_window_bits=" ++ Dec.udec (c_cbits c)] else []).
(** the text made of parts, NULL if there is none *)
Definition joined (l : list str) : option str := match l with [] => None | _ => Some (concat l) end.

(** ** What zlib produces in a list of calls: everything up to the first call that leaves room; None if one fails *)
Fixpoint produced (calls : list zcall) : option (list Z) :=
  match calls with
  | [] => Some []
  | (code, out) :: r =>
      if (code =? 0) || (code =? 1) || (code =? -5) then
        if zlen out =? 256 then option_map (app out) (produced r) else Some out
      else None
  end.
(** what goes out for that: without its end 00 00 ff ff, or with a byte 0 behind it *)
Definition goes_out (b x : list Z) : Prop :=
  b = x ++ [0; 0; 255; 255] \/ ((forall y, b <> y ++ [0; 0; 255; 255]) /\ x = b ++ [0]).
(** zlib writes at most what it may write; a flush gives four bytes at least *)
Definition zlib_ok (v : devent) : Prop :=
  match v with
  | Sent _ n calls => Forall (fun c : zcall => zlen (snd c) <= 256) calls /\ (forall b, n <> 0 -> produced calls = Some b -> 4 <= zlen b)
  | Received _ _ _ calls => Forall (fun c : zcall => zlen (snd c) <= 256) calls
  | _ => True
  end.

(** ** One event: whether the extension is on before, the event, the result, the blocks lost, whether the extension is on afterwards *)
Inductive step : bool -> devent -> dresult -> nat -> bool -> Prop :=
(* nothing is asked *)
| on_offer : forall answers e l, step true (Offer answers e l) Nothing 0 true
| on_reply : forall answers e, step true (Reply answers e) Nothing 0 true
| off_sent : forall grow n calls, step false (Sent grow n calls) Nothing 0 false
| off_received : forall answers grow n calls, step false (Received answers grow n calls) Nothing 0 false
(* the server: another extension, or not the first offer of this one *)
| other_offer : forall answers e l, starts EXT_DEFLATE e && first_param e l = false -> step false (Offer answers e l) (Matched U_ERROR None None) 0 false
| took_offer : forall answers e l z t par, starts EXT_DEFLATE e && first_param e l = true -> wanted e l = (z, t, par) ->
    step false (Offer answers e l) (Matched z t par) (untidy e) (z =? U_OK)
| failed_offer : forall answers e l n, In false answers -> (n <= untidy e)%nat -> step false (Offer answers e l) (Matched U_ERROR None None) n false
| cut_offer : forall answers e l t par k, In false answers -> wanted e l = (U_OK, t, par) ->
    step false (Offer answers e l) (Matched U_OK (joined (skipn k (parts e))) par) (untidy e) true
(* the client *)
| other_reply : forall answers e, starts EXT_DEFLATE e = false -> step false (Reply answers e) (Matched U_ERROR None None) 0 false
| took_reply : forall answers e z par, starts EXT_DEFLATE e = true -> wanted_client e = (z, par) ->
    step false (Reply answers e) (Matched z (if z =? U_OK then Some e else None) par) (untidy e) (z =? U_OK)
| failed_reply : forall answers e n, In false answers -> (n <= untidy e)%nat -> step false (Reply answers e) (Matched U_ERROR None None) n false
| nameless_reply : forall answers e par, In false answers -> wanted_client e = (U_OK, par) -> step false (Reply answers e) (Matched U_OK None par) (untidy e) true
(* a message goes out *)
| empty_sent : forall grow calls, step true (Sent grow 0 calls) (Message U_OK []) 0 true
| whole_sent : forall grow n calls b x, n <> 0 -> produced calls = Some b -> goes_out b x -> step true (Sent grow n calls) (Message U_OK x) 0 true
| bad_sent : forall grow n calls, n <> 0 -> produced calls = None -> step true (Sent grow n calls) (Message U_ERROR []) 0 true
| failed_sent : forall grow n calls k, n <> 0 -> In false grow -> (k <= 1)%nat -> step true (Sent grow n calls) (Message U_ERROR_MEMORY []) k true
(* a message comes in *)
| empty_received : forall answers grow calls, step true (Received answers grow 0 calls) (Message U_OK []) 0 true
| whole_received : forall answers grow n calls b, n <> 0 -> produced calls = Some b -> step true (Received answers grow n calls) (Message U_OK b) 0 true
| bad_received : forall answers grow n calls, n <> 0 -> produced calls = None -> step true (Received answers grow n calls) (Message U_ERROR []) 0 true
| failed_received : forall answers grow n calls k, In false answers \/ n <> 0 /\ In false grow -> (k <= if existsb negb grow then 1 else 0)%nat ->
    step true (Received answers grow n calls) (Message U_ERROR []) k true.

(** ** A history *)
Inductive story : bool -> list devent -> list dresult -> nat -> bool -> Prop :=
| st_end : forall on, story on [] [] 0 on
| st_more : forall on v l r rs n k on1 on2, step on v r n on1 -> story on1 l rs k on2 -> story on (v :: l) (r :: rs) (n + k) on2.

(** an allocation fails while the extension is negotiated *)
Definition hungry (v : devent) : Prop := match v with Offer answers _ _ | Reply answers _ => In false answers | _ => False end.
(** no allocation fails *)
Definition plenty (v : devent) : Prop :=
  match v with
  | Offer answers _ _ | Reply answers _ => ~ In false answers
  | Sent grow _ _ => ~ In false grow
  | Received answers grow _ _ => ~ In false answers /\ ~ In false grow
  end.
(** what an event loses at most *)
Definition cost (v : devent) : nat :=
  match v with
  | Offer _ e _ | Reply _ e => untidy e
  | Sent grow _ _ | Received _ grow _ _ => if existsb negb grow then 1 else 0
  end.

(** ** The blocks of the extension: the context with its two streams, the name *)
Definition stream_blocks (p : member (option nat)) : list nat := match p with Some (Some i) => [i] | _ => [] end.
Definition context_blocks (p : ptr hctx) : list nat :=
  match p with Some (i, c) => i :: stream_blocks (w_def c) ++ stream_blocks (w_inf c) | None => [] end.
Definition ext_uses (s : wdeflate) : list nat := context_blocks (d_context s) ++ ptr_blocks (d_name s).
