(** Model of the life of an instance: /repo/src/ulfius.c:164-205, 1077-1350, 1673-1762. Built with MHD >= 0.9.53, GnuTLS and websockets, without DEBUG.
    The wait for the websockets in ulfius_stop_framework is in ConcModel. *)
From Coq Require Import String ZArith Bool List.
From Verif Require Import Base UMapModel RouterModel RouterSpec.
Import ListNotations.
Open Scope Z_scope.

(** ulfius.c:168-187 ulfius_validate_endpoint_list, from index [i]; U_OK or U_ERROR_PARAMS *)
Fixpoint validate_from (arr : list (option endpoint)) (i n : nat) : outcome Z :=
  match n with
  | O => Ret U_OK
  | S n =>
      do e <- ep_at arr i;
      if (i =? 0)%nat && equals_endpoints empty_endpoint e then Ret U_ERROR_PARAMS
      else if negb (is_valid_endpoint e false) then Ret U_ERROR_PARAMS
      else validate_from arr (S i) n
  end.
Definition validate_endpoint_list (u : instance) : outcome Z :=
  match endpoint_list u with None => Ret U_ERROR_PARAMS | Some arr => validate_from arr 0 (nb_endpoints u) end.

(** struct _u_instance; addresses are numbers, the daemon is a handle *)
Inductive status := Stopped | Running | Failed.
Record inst := mk_life { l_port : Z; l_endpoints : instance; l_bind4 : option Z; l_bind6 : option Z; l_network : Z; l_timeout : Z;
  l_daemon : option Z; l_status : status; l_client_auth : bool }.
Definition set_daemon (u : inst) (d : option Z) (s : status) : inst :=
  mk_life (l_port u) (l_endpoints u) (l_bind4 u) (l_bind6 u) (l_network u) (l_timeout u) d s (l_client_auth u).
Definition set_client_auth (u : inst) (b : bool) : inst :=
  mk_life (l_port u) (l_endpoints u) (l_bind4 u) (l_bind6 u) (l_network u) (l_timeout u) (l_daemon u) (l_status u) b.

(** 193-202 ulfius_validate_instance *)
Definition validate_instance (u : inst) : outcome Z :=
  if (l_port u <=? 0) || (65536 <=? l_port u) then Ret U_ERROR_PARAMS
  else do r <- validate_endpoint_list (l_endpoints u); Ret (if r =? U_OK then U_OK else U_ERROR_PARAMS).

(** struct MHD_OptionItem and the flags used *)
Inductive mhd_option := Logger | Completed | SockAddr (a : option Z) | UriLog | MemKey (s : str) | MemCert (s : str) | MemTrust (s : str) | Timeout (n : Z) | End.
Inductive flag := ThreadPerConnection | ErrorLog | Polling | Upgrade | Ssl | IPv6 | DualStack.
(** one element of the array mhd_ops *)
Definition put_option (ops : list (option mhd_option)) (i : nat) (o : mhd_option) : outcome (list (option mhd_option)) := aset ops i (Some o).
Definition bit (n k : Z) : bool := Z.testbit n k.
(** 1077-1173 ulfius_run_mhd_daemon up to MHD_start_daemon: None if there is a daemon. U_USE_IPV4 = 1, U_USE_IPV6 = 16. *)
Definition daemon_options (u : inst) (key cert ca : option str) : outcome (option (list flag * list (option mhd_option))) :=
  match l_daemon u with
  | Some _ => Ret None
  | None =>
      let flags := [ThreadPerConnection; ErrorLog; Polling; Upgrade] in
      let ops := repeat None 9 in
      do ops <- put_option ops 0 Logger;
      do ops <- put_option ops 1 Completed;
      do ops <- put_option ops 2 (SockAddr (match l_bind6 u with Some a => Some a | None => l_bind4 u end));
      let flags := match l_bind6 u with
                   | Some _ => flags ++ [IPv6]
                   | None => if bit (l_network u) 0 && bit (l_network u) 4 then flags ++ [DualStack] else if bit (l_network u) 4 then flags ++ [IPv6] else flags
                   end in
      do ops <- put_option ops 3 UriLog;
      do (flags, i, ops) <-
        match key, cert with
        | Some k, Some c =>
            do ops <- put_option ops 4 (MemKey k);
            do ops <- put_option ops 5 (MemCert c);
            match ca with
            | Some t => do ops <- put_option ops 6 (MemTrust t); Ret (flags ++ [Ssl], 7%nat, ops)
            | None => Ret (flags ++ [Ssl], 6%nat, ops)
            end
        | _, _ => Ret (flags, 4%nat, ops)
        end;
      do (i, ops) <- (if 0 <? l_timeout u then do ops <- put_option ops i (Timeout (l_timeout u)); Ret (S i, ops) else Ret (i, ops));
      do ops <- put_option ops i End;
      Ret (Some (flags, ops))
  end.
(** what MHD_start_daemon reads: the options up to MHD_OPTION_END *)
Fixpoint read_options (ops : list (option mhd_option)) : outcome (list mhd_option) :=
  match ops with
  | [] => UB OutOfBounds
  | None :: _ => UB Uninit
  | Some End :: _ => Ret []
  | Some o :: r => do l <- read_options r; Ret (o :: l)
  end.

(** the daemons that run, with the port, the flags and the options they were started with; [d_next]: the handle of the next one *)
Record daemon := mk_daemon { d_handle : Z; d_port : Z; d_flags : list flag; d_options : list mhd_option }.
Record system := mk_system { s_inst : inst; s_live : list daemon; s_next : Z }.
(** MHD_start_daemon: [ok] is whether it succeeds; the port is an uint16_t *)
Definition mhd_start (ok : bool) (s : system) (port : Z) (flags : list flag) (ops : list (option mhd_option)) : outcome (option Z * system) :=
  do l <- read_options ops;
  Ret (if ok then (Some (s_next s), mk_system (s_inst s) (s_live s ++ [mk_daemon (s_next s) (port mod 65536) flags l]) (s_next s + 1)) else (None, s)).
Definition isSome {A} (o : option A) : bool := match o with Some _ => true | None => false end.
Definition with_inst (s : system) (u : inst) : system := mk_system u (s_live s) (s_next s).
(** 1269-1282 *)
Definition started (d : option Z) (s : system) : Z * system :=
  match d with
  | None => (U_ERROR_LIBMHD, with_inst s (set_daemon (s_inst s) None Failed))
  | Some h => (U_OK, with_inst s (set_daemon (s_inst s) (Some h) Running))
  end.
(** 1253-1288 ulfius_start_secure_ca_trust_framework, u_instance != NULL; ulfius_start_framework and ulfius_start_secure_framework call it *)
Definition start (ok : bool) (s : system) (key cert ca : option str) : outcome (Z * system) :=
  if xorb (isSome key) (isSome cert) then Ret (U_ERROR_PARAMS, s)
  else if isSome ca && (negb (isSome key) || negb (isSome cert)) then Ret (U_ERROR_PARAMS, s)
  else
    let s := with_inst s (set_client_auth (s_inst s) (isSome ca)) in
    do v <- validate_instance (s_inst s);
    if v =? U_OK then
      do o <- daemon_options (s_inst s) key cert ca;
      match o with
      | None => Ret (started None s)
      | Some (flags, ops) => do x <- mhd_start ok s (l_port (s_inst s)) flags ops; Ret (started (fst x) (snd x))
      end
    else Ret (U_ERROR_PARAMS, s).
(** 1295-1315 ulfius_start_framework_with_mhd_options *)
Definition start_with_options (ok : bool) (s : system) (flags : list flag) (ops : option (list (option mhd_option))) : outcome (Z * system) :=
  match ops with
  | None => Ret (U_ERROR_PARAMS, s)
  | Some ops => do x <- mhd_start ok s (l_port (s_inst s)) flags ops; Ret (started (fst x) (snd x))
  end.
(** 1324-1350 ulfius_stop_framework; MHD_stop_daemon of a daemon that does not run is undefined *)
Definition stop (s : system) : outcome (Z * system) :=
  match l_daemon (s_inst s) with
  | Some h =>
      if existsb (fun d => d_handle d =? h) (s_live s) then
        Ret (U_OK, mk_system (set_daemon (s_inst s) None Stopped) (filter (fun d => negb (d_handle d =? h)) (s_live s)) (s_next s))
      else UB UseAfterFree
  | None => Ret (U_ERROR_PARAMS, with_inst s (set_daemon (s_inst s) None Failed))
  end.
(** 1426-1535 ulfius_add_endpoint, ulfius_add_endpoint_list, ulfius_remove_endpoint on the instance: RouterModel *)
Definition set_endpoints (u : inst) (e : instance) : inst :=
  mk_life (l_port u) e (l_bind4 u) (l_bind6 u) (l_network u) (l_timeout u) (l_daemon u) (l_status u) (l_client_auth u).
Definition endpoints (s : system) (o : eop) : outcome (Z * system) :=
  do x <- eop_step (l_endpoints (s_inst s)) o; Ret (fst x, with_inst s (set_endpoints (s_inst s) (snd x))).
(** the calls of a program on one instance *)
Inductive call := Start (ok : bool) (key cert ca : option str) | StartOptions (ok : bool) (flags : list flag) (ops : option (list (option mhd_option))) | Stop | Endpoint (o : eop).
Definition perform (c : call) (s : system) : outcome (Z * system) :=
  match c with Start ok k ce ca => start ok s k ce ca | StartOptions ok f o => start_with_options ok s f o | Stop => stop s | Endpoint o => endpoints s o end.
Fixpoint run (l : list call) (s : system) : outcome (list Z * system) :=
  match l with
  | [] => Ret ([], s)
  | c :: r => do x <- perform c s; do y <- run r (snd x); Ret (fst x :: fst y, snd y)
  end.

(** 1673-1745 internal_ulfius_init_instance, u_instance != NULL, the fields above only: None is U_ERROR_PARAMS. The allocations and the mutexes succeed. *)
Definition init_internal (port : Z) (bind4 bind6 : option Z) (network : Z) : option inst :=
  if (0 <? port) && (port <? 65536) && (negb (isSome bind4) || negb (isSome bind6)) && (bit network 0 || bit network 4)
  then Some (mk_life port init_instance bind4 bind6 network 0 None Stopped false) else None.
(** 1747-1749 ulfius_init_instance *)
Definition init (port : Z) (bind : option Z) : option inst := init_internal port bind None 1.
(** 1752-1758 ulfius_init_instance_ipv6 *)
Definition init_ipv6 (port : Z) (bind : option Z) (network : Z) : option inst :=
  if bit network 4 then init_internal port None bind (match bind with Some _ => 16 | None => network end) else None.
