(** What a websocket endpoint should do with the frames it receives (RFC 6455 sections 5.4, 5.5). *)
From Coq Require Import ZArith Bool List.
From Verif Require Import Base Utf8Spec WsFrameModel WsRecvModel WsSpec.
Import ListNotations.
Open Scope Z_scope.

(** the fragments of a message that is not complete yet *)
Inductive starting : list frame -> Prop :=
| st_first : forall f, f_op f = 1 \/ f_op f = 2 -> f_fin f = false -> starting [f]
| st_more : forall t f, starting t -> f_op f = 0 -> f_fin f = false -> starting (t ++ [f]).
(** the fragments of a message *)
Inductive complete : list frame -> Prop :=
| co_single : forall f, f_op f = 1 \/ f_op f = 2 -> f_fin f = true -> complete [f]
| co_last : forall t f, starting t -> f_op f = 0 -> f_fin f = true -> complete (t ++ [f]).

Definition group_op (g : list frame) : Z := match g with f :: _ => f_op f | [] => 0 end.
Definition group_rsv (g : list frame) : Z := match g with f :: _ => f_rsv f | [] => 0 end.
Definition group_data (g : list frame) : list Z := concat (map f_payload g).

(** what the peer and the program notice *)
Inductive sitem := SMsg (op rsv : Z) (data : list Z) | SSend (op : Z) (data : list Z).

Section Spec.
Variable ext_in : Z -> Z -> list Z -> option (list Z).
Variable rsv_expected : Z.

(** a complete message that may be delivered: extensions undone, RSV bits negotiated, text in UTF-8 *)
Definition accepted (g : list frame) (o : sitem) : Prop :=
  exists d, ext_in (group_op g) (group_rsv g) (group_data g) = Some d /\
    (group_rsv g = 0 \/ Z.land rsv_expected (group_rsv g) <> 0) /\
    (group_op g = 1 -> utf8_text d) /\ o = SMsg (group_op g) (group_rsv g) d.

(** frame [f] may follow while the fragments [t] are pending: fragments pending afterwards, and
    what is noticed *)
Inductive follows (t : list frame) (f : frame) : list frame -> list sitem -> Prop :=
| fo_ping : f_op f = 9 -> f_fin f = true -> zlen (f_payload f) <= 125 -> follows t f t [SSend 10 (f_payload f)]
| fo_pong : f_op f = 10 -> f_fin f = true -> follows t f t []
| fo_part : starting (t ++ [f]) -> follows t f (t ++ [f]) []
| fo_message : forall o, complete (t ++ [f]) -> accepted (t ++ [f]) o -> follows t f [] [o].

(** a sequence of frames without error or close: fragments pending at the end, and what is noticed *)
Inductive history : list frame -> list frame -> list sitem -> Prop :=
| h_nil : history [] [] []
| h_next : forall fs f t t' os o, history fs t os -> follows t f t' o -> history (fs ++ [f]) t' (os ++ o).
End Spec.

(** what is answered to the frame that ends the connection *)
Definition closing (f : frame) : list sitem :=
  if (f_op f =? 8) && f_fin f && (zlen (f_payload f) <=? 125) then [SSend 8 []] else [].

(** the items of a run of the library *)
Definition view (o : out) : list sitem :=
  match o with
  | Deliver m => [SMsg (m_opcode m) (m_rsv m) (m_data m)]
  | Send op d => [SSend op d]
  | Keep _ => []
  | OnClose => []
  end.
Definition seen (s : wst) : list sitem := flat_map view (w_out s).

(** nothing else happens during the round *)
Definition undisturbed (i : inp) : Prop := i_close i = false /\ i_gone i = false.

Definition is_data (f : frame) : bool := (f_op f =? 0) || (f_op f =? 1) || (f_op f =? 2).
Fixpoint messages (os : list sitem) : list sitem :=
  match os with
  | [] => []
  | SMsg a b c :: r => SMsg a b c :: messages r
  | _ :: r => messages r
  end.
Fixpoint pongs (os : list sitem) : list (list Z) :=
  match os with
  | [] => []
  | SSend 10 d :: r => d :: pongs r
  | _ :: r => pongs r
  end.
