(** Startup: how the astlpc and serial bindings are created on file descriptors
    (/repo/astlpc.c, serial.c, under MCTP_HAVE_FILEIO) and how the demultiplexing daemon
    starts and leaves (/repo/utils/mctp-demux-daemon.c main).

    The language is the one of Daemon.v with other calls: a program is a tree of calls that
    leave the process or the library, and the environment picks every answer.

    Not modelled here: option parsing (the daemon starts with its options parsed, [opts]; see
    Options.v).  Not modelled: the
    contents of error messages, the name of the socket. *)
From Verif Require Import Base Core Crc Astlpc.

(** What an object of the C heap was obtained from and is given back to: the functions of
    mctp_set_alloc_ops (__mctp_alloc, __mctp_free), or the C library (malloc, free). *)
Inductive heap := HMctp | HLibc.

Inductive call :=
| CAlloc (h : heap)                       (* a binding *)
| CFree (h : heap) (p : Z)
| CFault                                  (* a store through a null pointer *)
| COpen (path : list Z)                   (* open(2) *)
| CClose (fd : Z)
| CGetSize (fd : Z)                       (* ASPEED_LPC_CTRL_IOCTL_GET_SIZE *)
| CMapLpc (fd addr size : Z)              (* ASPEED_LPC_CTRL_IOCTL_MAP *)
| CMmap (fd size : Z)                     (* mmap(2), offset 0 *)
| CPread (fd off : Z)                     (* pread(2) of one byte *)
| CPwrite (fd off v : Z)                  (* pwrite(2) of one byte *)
| CSetStatus (p v : Z)                    (* mctp_astlpc_kcs_set_status *)
| CPcapInit | CPcapOpen | CDumpOpen (pcap : Z) (path : list Z) | CDumpClose (dump : Z) | CPcapClose (pcap : Z)
| CRegister (p : Z) (eid : Z)             (* mctp_register_bus *)
| CUnregister (p : Z)                     (* mctp_unregister_bus *)
| CListenFds                              (* sd_listen_fds *)
| CSocket | CBind (fd : Z) | CListen (fd : Z)
| CRun (sock : Z).                        (* run_daemon *)

(** Their answers; [None] is NULL or MAP_FAILED. *)
Definition answer (c : call) : Type :=
  match c with
  | CAlloc _ => option Z
  | CFree _ _ => unit
  | CFault => False
  | COpen _ => Z
  | CClose _ => unit
  | CGetSize _ => option Z
  | CMapLpc _ _ _ => bool
  | CMmap _ _ => option Z
  | CPread _ _ => option Z
  | CPwrite _ _ _ => bool
  | CSetStatus _ _ => unit
  | CPcapInit => bool
  | CPcapOpen => option Z
  | CDumpOpen _ _ => option Z
  | CDumpClose _ => unit
  | CPcapClose _ => unit
  | CRegister _ _ => Z
  | CUnregister _ => unit
  | CListenFds => Z
  | CSocket => Z
  | CBind _ => bool
  | CListen _ => bool
  | CRun _ => Z
  end%type.

Inductive prog (A : Type) :=
| Ret (a : A)
| Do (c : call) (k : answer c -> prog A).
Arguments Ret {A}. Arguments Do {A}.
Fixpoint bind {A B} (p : prog A) (f : A -> prog B) : prog B :=
  match p with
  | Ret a => f a
  | Do c k => Do c (fun a => bind (k a) f)
  end.
Definition ask (c : call) : prog (answer c) := Do c (fun a => Ret a).
Declare Scope sprog_scope.
Notation "'let*' x := p 'in' q" := (bind p (fun x => q))
  (at level 200, x pattern, p at level 100, q at level 200) : sprog_scope.
Notation "p ;; q" := (bind p (fun _ => q)) (at level 60, right associativity) : sprog_scope.
Open Scope sprog_scope.

(** ** astlpc.c *)

(** struct mctp_binding_astlpc as far as the file descriptors are concerned. *)
Record fbinding := mkFb { fb_ptr : Z; fb_core : binding astlpc; fb_map : Z; fb_kcs : Z }.

(** astlpc.c 1249-1284 __mctp_astlpc_init, for a valid mode: the members other than the
    descriptor (0 after the memset) and the map (NULL) are those of Astlpc.astlpc_init *)
Definition new_binding (bmc : bool) (mtu : Z) : prog (option fbinding) :=
  let* o := ask (CAlloc HMctp) in
  match o with
  | None => Ret None
  | Some p => Ret (Some (mkFb p (astlpc_init bmc mtu) 0 0))
  end.
(** astlpc.c 1293-1314 mctp_astlpc_init: kcs_fd is left as it is *)
Definition init_custom (bmc : bool) (mtu map : Z) : prog (option fbinding) :=
  let* o := new_binding bmc mtu in
  match o with
  | None => Ret None
  | Some b => Ret (Some (mkFb (fb_ptr b) (fb_core b) map (fb_kcs b)))
  end.
(** astlpc.c 39 lpc_path: "/dev/aspeed-lpc-ctrl" *)
Definition lpc_path : list Z := [47;100;101;118;47;97;115;112;101;101;100;45;108;112;99;45;99;116;114;108].

(** astlpc.c 1334-1411 mctp_astlpc_init_fileio_lpc: the return code, and lpc_map if it is set *)
Definition fileio_lpc : prog (Z * Z) :=
  let* fd := ask (COpen lpc_path) in
  if fd <? 0 then Ret (-1, 0)
  else
    let* s := ask (CGetSize fd) in
    match s with
    | None => ask (CClose fd) ;; Ret (-1, 0)
    | Some size =>
        let addr := Z.land 268435455 (w32 (- size)) in
        let* ok := ask (CMapLpc fd addr size) in
        if negb ok then ask (CClose fd) ;; Ret (-1, 0)
        else
          let* m := ask (CMmap fd size) in
          ask (CClose fd) ;;
          match m with
          | None => Ret (-1, 0)
          | Some base => Ret (0, base + size - Prog.LPC_WIN_SIZE)
          end
    end.
(** astlpc.c 1464-1499 mctp_astlpc_init_fileio, with 1413-1421 mctp_astlpc_init_fileio_kcs *)
Definition init_fileio (path : list Z) : prog (option fbinding) :=
  let* o := new_binding true 0 in
  match o with
  | None => Ret None
  | Some b =>
      let* (rc, map) := fileio_lpc in
      if negb (rc =? 0) then ask (CFree HLibc (fb_ptr b)) ;; Ret None
      else
        let* fd := ask (COpen path) in
        if fd <? 0 then ask (CFree HLibc (fb_ptr b)) ;; Ret None
        else Ret (Some (mkFb (fb_ptr b) (fb_core b) map fd))
  end.
(** astlpc.c 1423-1446 __mctp_astlpc_fileio_kcs_read and _write; the data register is at
    offset 0, the status register at offset 1 (libmctp-astlpc.h 21-24).  One byte or an
    error. *)
Definition kcs_offset (r : Prog.kreg) : Z := match r with Prog.KData => 0 | Prog.KStatus => 1 end.
Definition fileio_kcs_read (b : fbinding) (r : Prog.kreg) : prog (option Z) := ask (CPread (fb_kcs b) (kcs_offset r)).
Definition fileio_kcs_write (b : fbinding) (r : Prog.kreg) (v : Z) : prog bool := ask (CPwrite (fb_kcs b) (kcs_offset r) v).
(** astlpc.c 1448-1462 mctp_astlpc_init_pollfd: the descriptor, and POLLOUT or POLLIN *)
Definition init_pollfd (b : fbinding) : Z * bool := (fb_kcs b, pollfd_out (bd_priv (fb_core b))).
(** astlpc.c 1324-1330 mctp_astlpc_destroy *)
Definition fileio_destroy (b : fbinding) : prog unit :=
  (if a_bmc (bd_priv (fb_core b)) then ask (CSetStatus (fb_ptr b) 0) else Ret tt) ;; ask (CFree HMctp (fb_ptr b)).

(** ** serial.c *)

(** struct mctp_binding_serial: where it is, and its descriptor *)
Record sbinding := mkSb { sb_ptr : Z; sb_fd : Z }.
(** serial.c 397-415 mctp_serial_init: the memset comes before any check for NULL *)
Definition serial_init : prog sbinding :=
  let* o := ask (CAlloc HMctp) in
  match o with
  | None => let* f := ask CFault in match f : False with end
  | Some p => Ret (mkSb p (-1))
  end.
(** serial.c 351-359 mctp_serial_open_path *)
Definition serial_open_path (b : sbinding) (path : list Z) : prog (sbinding * Z) :=
  let* fd := ask (COpen path) in Ret (mkSb (sb_ptr b) fd, 0).
(** serial.c 361-364 mctp_serial_open_fd *)
Definition serial_open_fd (b : sbinding) (fd : Z) : sbinding := mkSb (sb_ptr b) fd.

(** ** mctp-demux-daemon.c *)

(** The options and arguments: mctp-demux-daemon.c 601-637. *)
Inductive kind := KNull | KSerial | KAstlpc.
Record opts := mkOpts {
  o_eid : Z;
  o_cap_binding : option (list Z);        (* --capture-binding *)
  o_cap_socket : option (list Z);         (* --capture-socket *)
  o_kind : option kind;                   (* binding_lookup of the binding argument *)
  o_params : list (list Z) }.
(** ctx->binding->data *)
Inductive bound := BNull | BSerial (b : sbinding) | BAstlpc (b : fbinding).

(** mctp-demux-daemon.c 157-251 binding_null_init, binding_serial_init, binding_astlpc_init;
    428-442 binding_init.  The result of mctp_register_bus is not looked at. *)
Definition binding_init (o : opts) : prog (option bound) :=
  match o_kind o with
  | None => Ret None
  | Some KNull => match o_params o with [] => Ret (Some BNull) | _ => Ret None end
  | Some KSerial =>
      match o_params o with
      | [path] =>
          let* b := serial_init in
          let* (b1, rc) := serial_open_path b path in
          if negb (rc =? 0) then Ret None
          else ask (CRegister (sb_ptr b1) (o_eid o)) ;; Ret (Some (BSerial b1))
      | _ => Ret None
      end
  | Some KAstlpc =>
      match o_params o with
      | [path] =>
          let* r := init_fileio path in
          match r with
          | None => Ret None
          | Some b => ask (CRegister (fb_ptr b) (o_eid o)) ;; Ret (Some (BAstlpc b))
          end
      | _ => Ret None
      end
  end.
(** mctp-demux-daemon.c 235-242 binding_astlpc_destroy, 444-448 binding_destroy *)
Definition binding_destroy (b : bound) : prog unit :=
  match b with
  | BAstlpc b => ask (CUnregister (fb_ptr b)) ;; fileio_destroy b
  | _ => Ret tt
  end.
(** mctp-capture.c 31-53 capture_prepare, capture_close: (pcap, dumper) *)
Definition capture_prepare (path : list Z) : prog (option (Z * Z)) :=
  let* o := ask CPcapOpen in
  match o with
  | None => Ret None
  | Some pc =>
      let* d := ask (CDumpOpen pc path) in
      match d with None => Ret None | Some dump => Ret (Some (pc, dump)) end
  end.
Definition capture_close (c : option (Z * Z)) : prog unit :=
  match c with Some (pc, dump) => ask (CDumpClose dump) ;; ask (CPcapClose pc) | None => Ret tt end.
(** mctp-demux-daemon.c 288-322 socket_init *)
Definition socket_init : prog (option Z) :=
  let* fd := ask CSocket in
  if fd <? 0 then Ret None
  else
    let* ok := ask (CBind fd) in
    if negb ok then ask (CClose fd) ;; Ret None
    else
      let* ok2 := ask (CListen fd) in
      if negb ok2 then ask (CClose fd) ;; Ret None else Ret (Some fd).
(** SD_LISTEN_FDS_START *)
Definition SD_LISTEN_FDS_START : Z := 3.

(** mctp-demux-daemon.c 639-713 main after option parsing: the exit status.  malloc of the
    receive buffer and mctp_init succeed. *)
Definition main_cleanup_socket (cs cb : option (Z * Z)) (rc : Z) : prog Z :=
  capture_close cs ;; capture_close cb ;; Ret (if rc =? 0 then 0 else 1).
Definition main_cleanup_binding (b : bound) (cs cb : option (Z * Z)) (rc : Z) : prog Z :=
  binding_destroy b ;; main_cleanup_socket cs cb rc.
Definition prepare (path : option (list Z)) : prog (option (option (Z * Z))) :=
  match path with
  | None => Ret (Some None)
  | Some f => let* c := capture_prepare f in Ret (match c with None => None | Some c => Some (Some c) end)
  end.
Definition main (o : opts) : prog Z :=
  let* ok := (match o_cap_binding o, o_cap_socket o with
              | None, None => Ret true
              | _, _ => ask CPcapInit
              end) in
  if negb ok then Ret 1
  else
    let* cb := prepare (o_cap_binding o) in
    match cb with
    | None => Ret 1
    | Some cb =>
        let* cs := prepare (o_cap_socket o) in
        match cs with
        | None => capture_close cb ;; Ret 1
        | Some cs =>
            let* ob := binding_init o in
            match ob with
            | None => main_cleanup_socket cs cb 1
            | Some b =>
                let* n := ask CListenFds in
                if n <=? 0 then
                  let* os := socket_init in
                  match os with
                  | None => main_cleanup_binding b cs cb (-1)
                  | Some fd => let* rc := ask (CRun fd) in main_cleanup_binding b cs cb rc
                  end
                else let* rc := ask (CRun SD_LISTEN_FDS_START) in main_cleanup_binding b cs cb rc
            end
        end
    end.
