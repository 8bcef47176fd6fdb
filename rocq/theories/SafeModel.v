(** Model of the start of the example programs that can use a secure connection: example_programs/simple_example/simple_example.c:79-155, example_programs/auth_example/auth_server.c:46-67, 130-190,
    example_programs/websocket_example/websocket_server.c:37-58, 101-131, up to the start of the server and what the program then says of it; on LifeModel.start. What follows the start is not modelled. *)
From Coq Require Import String ZArith Bool List.
From Verif Require Import Base UMapModel RouterModel LifeModel.
Import ListNotations.
Open Scope Z_scope.

Definition LONG_MAX : Z := 9223372036854775807.
(** a file that can be opened: what ftell says at its end, a long; the bytes fread finds *)
Record source := mk_source { s_told : Z; s_bytes : list Z }.
(** simple_example.c:79-100, auth_server.c:46-67, websocket_server.c:37-58: the same read_file in the three. [alloc_ok]: o_malloc gives a block of this size. 89: length + 1 is a long. 91: fread may write
    what there is, up to (size_t)length bytes. 92: buffer[length]. The argument is not NULL. The result is the block. *)
Definition read_source (alloc_ok : Z -> bool) (f : option source) : outcome (option buf) :=
  match f with
  | None => Ret None
  | Some f =>
      if s_told f =? LONG_MAX then UB Overflow
      else if alloc_ok (s_told f + 1) then
        let b := malloc (s_told f + 1) in
        let got := zfirstn (Z.min (s_told f mod two64) (zlen (s_bytes f))) (s_bytes f) in
        do b <- memcpy b 0 (block_of got) (zlen got);
        do b <- store b (s_told f) 0;
        Ret (Some b)
      else Ret None
  end.
(** the string that MHD_start_daemon finds in the block *)
Definition pem (b : option buf) : outcome (option str) := match b with None => Ret None | Some b => do s <- read_cstr b; Ret (Some s) end.

(** what the program says after it has tried *)
Inductive said := Secure | Clear | Error.
Section Programs.
(** the memory, the files, whether MHD_start_daemon succeeds *)
Variable alloc_ok : Z -> bool.
Variable files : str -> option source.
Variable ok : bool.

Definition load (path : str) : outcome (option str) := do b <- read_source alloc_ok (files path); pem b.
Definition says (secure : bool) (r : Z * system) : said * system := (if fst r =? U_OK then if secure then Secure else Clear else Error, snd r).

(** simple_example.c:134-155; [argv] without the name of the program. The blocks are freed after the start, which MHD has copied. *)
Definition simple_main (argv : list str) (s : system) : outcome (said * system) :=
  match argv with
  | [o; k; c] =>
      if str_eqb (bs "-secure") o then
        do key <- load k; do cert <- load c;
        do r <- start ok s key cert None; Ret (says true r)
      else do r <- start ok s None None None; Ret (says false r)
  | _ => do r <- start ok s None None None; Ret (says false r)
  end.

(** auth_server.c:152-187, with GnuTLS; argc > 3. The endpoint added in that case (145-149) is part of the instance. *)
Definition auth_main (argv : list str) (s : system) : outcome (said * system) :=
  match argv with
  | k :: c :: a :: _ =>
      do key <- load k; do cert <- load c; do ca <- load a;
      do r <- start ok s key cert ca; Ret (says true r)
  | _ => do r <- start ok s None None None; Ret (says false r)
  end.

(** websocket_server.c:101-124; 120: what is said depends on argv[1] only *)
Definition websocket_main (argv : list str) (s : system) : outcome (said * system) :=
  let asked := match argv with o :: _ => str_eqb o (bs "-https") | [] => false end in
  do r <- match argv with
          | o :: k :: c :: _ =>
              if asked then
                do key <- read_source alloc_ok (files k); do cert <- read_source alloc_ok (files c);
                match key, cert with
                | Some key, Some cert => do key <- read_cstr key; do cert <- read_cstr cert; start ok s (Some key) (Some cert) None
                | _, _ => Ret (U_ERROR_PARAMS, s)
                end
              else start ok s None None None
          | _ => start ok s None None None
          end;
  Ret (says asked r).
End Programs.
