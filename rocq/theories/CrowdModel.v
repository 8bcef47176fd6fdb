(** Several threads of a program that send messages on one websocket: /repo/src/u_websocket.c:1493-1588 ulfius_websocket_send_fragmented_message,
    with 338-396 ulfius_send_websocket_message_managed. The write lock is taken in the latter only, after the extensions have made what goes out.
    Simplifications: the functions of the extensions are called in one step ([Leave]; two threads that are [Inside] at once use the same context at once);
    what is done with the lock is one step ([Send]; WsSendModel has the steps, C39 shows that they do not mix); fragment_len is 0; the opcode is not CLOSE;
    ping_sent is never set (TalkModel). *)
From Coq Require Import ZArith Bool List.
From Verif Require Import Base WsFrameModel WsSendModel ExtModel TalkModel.
Import ListNotations.
Open Scope Z_scope.

(** where a thread is: not in a call, or before the lock (1517); in the loop over the extensions (1548); before the lock (1576) with the rsv bits and
    the data that the extensions made *)
Inductive place := Outside | Inside | Made (rsv : Z) (d : list Z).
(** a thread: the messages that it will send, each with what happens during the call; the results so far *)
Record thread := mk_thread { t_todo : list (chance * Z * list Z); t_place : place; t_rets : list Z }.
Inductive action := Enter (t : nat) | Leave (t : nat) | Send (t : nat).

Section Crowd.
Variable C : Type.
Variable out_perform : Z -> C -> Z -> list Z -> Z -> Z -> option (list Z) * C.
Variable alloc_ok : Z -> bool.
Variable server : bool.

(** the extensions of the manager, connected, the threads, the bytes that went out. [k_sent] keeps the messages in the order in which they went out, with the bits and the data that
    were sent for them; the code has no such list, and nothing reads it. *)
Record crowd := mk_crowd { k_exts : list (ext C); k_conn : bool; k_threads : list thread; k_sent : list ((chance * Z * list Z) * (Z * list Z)); k_wire : list buf }.
Definition with_thread (s : crowd) (t : nat) (x : thread) : list thread := set_nth (k_threads s) t x.

Definition act (s : crowd) (a : action) : outcome crowd :=
  match a with
  | Enter t =>
      Ret match nth_error (k_threads s) t with
          | Some (mk_thread (m :: r) Outside rets) =>
              mk_crowd (k_exts s) (k_conn s) (with_thread s t (if k_conn s then mk_thread (m :: r) Inside rets else mk_thread r Outside (rets ++ [U_ERROR_PARAMS]))) (k_sent s) (k_wire s)
          | _ => s
          end
  | Leave t =>
      Ret match nth_error (k_threads s) t with
          | Some (mk_thread ((ch, opcode, data) :: r) Inside rets) =>
              let '(ret, rsv, d, l) := out_message C out_perform alloc_ok opcode 0 (k_exts s) data in
              mk_crowd l (k_conn s) (with_thread s t (if ret =? U_OK then mk_thread ((ch, opcode, data) :: r) (Made rsv d) rets else mk_thread r Outside (rets ++ [ret]))) (k_sent s) (k_wire s)
          | _ => s
          end
  | Send t =>
      match nth_error (k_threads s) t with
      | Some (mk_thread ((ch, opcode, data) :: r) (Made rsv d) rets) =>
          do x <- send_managed server alloc_ok (c_locked ch) (c_evs ch) (k_conn s) (built server opcode rsv (c_key ch) d) 0;
          let '(ret, css, _, conn, _) := x in
          Ret (mk_crowd (k_exts s) conn (with_thread s t (mk_thread r Outside (rets ++ [ret]))) (k_sent s ++ [((ch, opcode, data), (rsv, d))]) (k_wire s ++ concat css))
      | _ => Ret s
      end
  end.
Fixpoint run (s : crowd) (l : list action) : outcome crowd := match l with [] => Ret s | a :: r => do s1 <- act s a; run s1 r end.
Definition begin (exts : list (ext C)) (progs : list (list (chance * Z * list Z))) : crowd := mk_crowd exts true (map (fun p => mk_thread p Outside []) progs) [] [].
End Crowd.
Arguments mk_crowd {C}.
Arguments k_exts {C}.
Arguments k_conn {C}.
Arguments k_threads {C}.
Arguments k_sent {C}.
Arguments k_wire {C}.
