(** What C111 says about the callback that compresses the body of a response. *)
From Coq Require Import String ZArith Bool List.
From Verif Require Import Base StrModel CompressModel OwnModel MapMemModel MapMemSpec RespMemModel DefMemModel DefMemSpec SiteMemModel ZipMemModel.
Import ListNotations.
Open Scope Z_scope.

(** what the client is sent: the body, and what the header Content-Encoding says *)
Definition parcel := (option (list Z) * option bool)%type.
Definition parcel_of (r : zresp) : parcel := (match r_body r with Some (_, b) => Some b | None => None end, match r_label r with Some (_, l) => Some l | None => None end).
Definition parcel_blocks (r : zresp) : list nat := ptr_blocks (r_body r) ++ ptr_blocks (r_label r).
(** the encoding that is asked for, for a response with a body *)
Definition chosen (t : zturn) (p : parcel) : option bool :=
  match fst p, z_accept t with Some _, Some a => CompressModel.wanted (z_conf t) a | _, _ => None end.
(** deflate writes at most what it may, and finishing writes something *)
Definition turn_ok (t : zturn) : Prop := Forall (fun x : zcall => zlen (snd x) <= 256) (z_out t) /\ produced (z_out t) <> Some [].
Definition turn_fed (t : zturn) : Prop := ~ In false (z_new t) /\ ~ In false (z_grow t).

(** ** With memory *)
Definition pressed (t : zturn) (p : parcel) : Z * parcel :=
  match chosen t p with
  | None => (U_CALLBACK_IGNORE, p)
  | Some gz => match produced (z_out t) with Some z => (U_CALLBACK_IGNORE, (Some z, Some gz)) | None => (U_CALLBACK_ERROR, p) end
  end.
Fixpoint presses (p : parcel) (l : list zturn) : list Z * parcel :=
  match l with [] => ([], p) | t :: r => let '(a, p1) := pressed t p in let '(rs, p2) := presses p1 r in (a :: rs, p2) end.

(** ** When allocations fail: the result, what is sent then, the number of blocks that are lost *)
Definition turned (t : zturn) (p : parcel) (a : Z) (n : nat) (p' : parcel) : Prop :=
  ((a, p') = pressed t p /\ n = 0%nat) \/
  (* realloc: at most the data so far are lost *)
  (In false (z_grow t) /\ chosen t p <> None /\ a = U_CALLBACK_ERROR /\ p' = p /\ (n <= 1)%nat) \/
  (In false (z_new t) /\ n = 0%nat /\
     (* nothing is done, and the result does not say so; or it is an error *)
     ((p' = p /\ (a = U_CALLBACK_IGNORE \/ a = U_CALLBACK_ERROR)) \/
      (* the body, or the header, is not there *)
      exists gz z, chosen t p = Some gz /\ produced (z_out t) = Some z /\ a = U_CALLBACK_IGNORE /\ (fst p' = None \/ fst p' = Some z) /\ (snd p' = snd p \/ snd p' = Some gz))).
Inductive all_turned : parcel -> list zturn -> list Z -> nat -> parcel -> Prop :=
| at_end : forall p, all_turned p [] [] 0 p
| at_more : forall p t l a rs n n' p1 p2, turned t p a n p1 -> all_turned p1 l rs n' p2 -> all_turned p (t :: l) (a :: rs) (n + n') p2.
(** the turns in which realloc fails *)
Definition grow_fails (t : zturn) : bool := existsb negb (z_grow t).
