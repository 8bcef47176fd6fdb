(** Model of requests whose tokens are checked at the same time with one configuration: iddawc_resource.c:123-210 callback_check_jwt_profile_access_token, in several threads. The session of the configuration is shared:
    the token of the request is written to it, i_verify_jwt_access_token reads it from there and leaves the payload there, which is then copied. The decision on the copy is [iddawc] of TokenModel. What the answer
    adds to the response is the thread's own. *)
From Coq Require Import String ZArith Bool List.
From Verif Require Import Base UMapModel TokenModel.
Import ListNotations.
Open Scope Z_scope.

(** where a thread is: before the lock (142), behind it, with the token set (143), verified (144), with its copy (145), at the unlock (201), done *)
Inductive stage := Arrived | Inside | Written | Judged (good : bool) | Holding (claims : option json) | Leaving (a : outcome (Z * tresponse)) | Gone (a : outcome (Z * tresponse)).
(** struct _iddawc_resource_config as far as it changes: who has session_lock, the token and the payload in the session *)
Record desk := mk_desk { k_lock : option nat; k_token : option str; k_payload : option json; k_at : nat -> stage }.
Definition put (s : desk) (i : nat) (x : stage) : desk := mk_desk (k_lock s) (k_token s) (k_payload s) (fun j => if (j =? i)%nat then x else k_at s j).
Definition desk0 : desk := mk_desk None None None (fun _ => Arrived).

Section Desk.
(** iddawc's functions *)
Variable verify : str -> option str -> option json.
Variable dpop_ok : option str -> option str -> str -> Z -> option str -> str -> bool.
(** the configuration, the requests and the responses of the threads *)
Variable c : iconfig.
Variable q : nat -> trequest.
Variable r : nat -> tresponse.
(** whether pthread_mutex_lock and i_set_str_parameter succeed in a thread; [keeps]: whether a set that fails keeps the token that was there *)
Variable lock_ok : nat -> bool.
Variable set_ok : nat -> bool.
Variable keeps : bool.

(** the answer of a thread whose verification gave [claims]: the rest of the callback looks at its copy only *)
Definition judge (i : nat) (claims : option json) : outcome (Z * tresponse) := iddawc (fun _ _ => claims) dpop_ok (Some c) (q i) (r i).
(** i_verify_jwt_access_token without a token fails *)
Definition verified (token : option str) : option json := match token with Some t => verify t (i_aud c) | None => None end.

(** one step of thread [i]; a thread that waits for the lock stays where it is *)
Definition go (s : desk) (i : nat) : desk :=
  match k_at s i with
  | Arrived =>
      match iddawc_token (i_method c) (q i) with
      | Ret (Some (_ :: _, _)) =>
          if lock_ok i then match k_lock s with None => put (mk_desk (Some i) (k_token s) (k_payload s) (k_at s)) i Inside | Some _ => s end
          else put s i (Gone (refuse (i_realm c) (r i) e_internal))
      | _ => put s i (Gone (judge i None))
      end
  | Inside =>
      match iddawc_token (i_method c) (q i) with
      | Ret (Some (tok, _)) =>
          put (mk_desk (k_lock s) (if set_ok i then Some tok else if keeps then k_token s else None) (k_payload s) (k_at s)) i Written
      | _ => s
      end
  | Written =>
      match verified (k_token s) with
      | Some j => put (mk_desk (k_lock s) (k_token s) (Some j) (k_at s)) i (Judged true)
      | None => put s i (Judged false)
      end
  | Judged b => put s i (Holding (if b then k_payload s else None))
  | Holding claims => put s i (Leaving (judge i claims))
  | Leaving a => put (mk_desk None (k_token s) (k_payload s) (k_at s)) i (Gone a)
  | Gone _ => s
  end.
Definition day (sched : list nat) (s : desk) : desk := fold_left go sched s.
Definition answer_of (s : desk) (i : nat) : option (outcome (Z * tresponse)) := match k_at s i with Gone a => Some a | _ => None end.
End Desk.
