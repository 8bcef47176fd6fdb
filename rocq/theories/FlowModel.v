(** The stream example: /repo/example_programs/stream_example/stream_example.c:80-144, callbacks that answer with a stream, and the readers of the streams. *)
From Coq Require Import String ZArith Bool List.
From Verif Require Import Base Dec.
Import ListNotations.
Open Scope Z_scope.

(** what a reader gives: bytes written at the start of the buffer, or MHD_CONTENT_READER_END_OF_STREAM *)
Inductive chunk := Bytes (l : list Z) | EndOfStream.

(** 114-123 stream_data: snprintf writes at most max - 1 bytes and a NUL, nothing for max = 0; o_strlen reads the buffer. [cls]: the text of the response, NULL when o_strdup failed. *)
Definition stream_data (cls : option str) (pos max : Z) : outcome chunk :=
  if pos <=? 100 then
    match cls with
    | None => UB NullDeref
    | Some c => if max =? 0 then UB Uninit else Ret (Bytes (zfirstn (max - 1) (c ++ [32] ++ udec pos ++ [10])))
    end
  else Ret EndOfStream.
(** 125-130 stream_audio_file: fseek to pos, then fread of at most max bytes; [file]: the bytes of the file at that time *)
Definition stream_audio_file (file : list Z) (pos max : Z) : outcome chunk := Ret (Bytes (zfirstn max (zskipn pos file))).

(** libmicrohttpd: it asks for the bytes at the position it has reached, with room for some bytes; 0 bytes means "ask again", END ends the body. With a known size it asks for no more
    than what is missing, and stops when it has it. [asked]: the room it has at each call, with the state of the world at that time. *)
Inductive ended := Finished | Asking.
Fixpoint pull {W} (reader : W -> Z -> Z -> outcome chunk) (size : option Z) (asked : list (W * Z)) (got : list Z) : outcome (list Z * ended) :=
  if match size with Some n => n <=? zlen got | None => false end then Ret (got, Finished)
  else match asked with
       | [] => Ret (got, Asking)
       | (w, room) :: r =>
           do c <- reader w (zlen got) (match size with Some n => Z.min room (n - zlen got) | None => room end);
           match c with EndOfStream => Ret (got, Finished) | Bytes l => pull reader size r (got ++ l) end
       end.
(** 80-85 callback_get_stream: U_STREAM_SIZE_UNKNOWN; [copy]: o_strdup("stream test") *)
Definition get_stream (copy : option str) (rooms : list Z) : outcome (list Z * ended) :=
  pull (fun _ : unit => stream_data copy) None (map (fun r => (tt, r)) rooms) [].

(** what fopen and fstat say of the file *)
Inductive node := Missing | Special | Regular (l : list Z).
(** 87-112 callback_get_audio_stream: its code, and the length of the stream it sets; U_ERROR is 1 (include/ulfius.h:111) *)
Definition get_audio (f : node) : Z * option Z :=
  match f with
  | Missing => (4, None)      (* U_CALLBACK_ERROR *)
  | Special => (1, None)      (* U_ERROR *)
  | Regular l => (0, Some (zlen l))
  end.
(** the body of the answer, the file being as [asked] says when MHD asks *)
Definition audio_body (l : list Z) (asked : list (list Z * Z)) : outcome (list Z * ended) := pull stream_audio_file (Some (zlen l)) asked [].
