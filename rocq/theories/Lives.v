(** Lives: the host and the BMC side of the astlpc channel when either of them can be
    killed and started again at any moment.  The KCS device and the LPC window keep
    their contents. *)
From Verif Require Import Base Prog PktBuf Core Crc Astlpc SpecAst TwoParty PropDuo SpecLive.

(** A window cell is a byte (uint8_t): what is stored in it is the value modulo 256. *)
Definition narrow (sh : shared) : shared := mkShared (s_kcs sh) (fun x => s_mem sh x mod 256).
Definition bytewise (d : duo) : duo := mkDuo (narrow (d_sh d)) (d_prog d) (d_tr d).

(** A process of side [s] configured as [q] that has just been started: it registers its
    binding (SpecAst.ast_history without calls). *)
Definition boot (s : bool) (q : party) : prog (world astlpc) :=
  ast_history (p_app q) s (p_mtu q) (p_eid q) [].
(** Side [s] is killed, wherever it was, and started again as [q]: a crash.  Its trace
    begins anew. *)
Definition reborn (s : bool) (q : party) (d : duo) : duo :=
  mkDuo (d_sh d) (upd (d_prog d) s (boot s q)) (upd (d_tr d) s []).
(** Side [s], in state [w], takes its binding down (mctp_astlpc_destroy) and makes no more
    calls: the binding it is left with is not registered. *)
Definition leave (s : bool) (w : world astlpc) (p : bool -> party) (d : duo) : duo :=
  mkDuo (d_sh d) (upd (d_prog d) s (_ <- astlpc_destroy (ast w false) ;; Ret (astlpc_world s (p_mtu (p s))))) (d_tr d).

(** What can happen from one moment to another; [allowed] says with which MTU a side may be
    started. *)
Inductive goes (allowed : bool -> Z -> Prop) (p : bool -> party) (d : duo) : (bool -> party) -> duo -> Prop :=
| GoRefl : goes allowed p d p d
| GoStep s p1 d1 d2 : goes allowed p d p1 d1 -> dstep s d1 d2 -> goes allowed p d p1 (bytewise d2)
| GoCall s o w p1 d1 : goes allowed p d p1 d1 -> d_prog d1 s = Ret w -> bd_bus (bnd w false) = true ->
    ast_traffic o -> goes allowed p d p1 (begin_call s w o p1 d1)
| GoLeave s w p1 d1 : goes allowed p d p1 d1 -> d_prog d1 s = Ret w -> goes allowed p d p1 (leave s w p1 d1)
| GoRestart s q p1 d1 : goes allowed p d p1 d1 -> allowed s (p_mtu q) ->
    goes allowed p d (upd p1 s q) (reborn s q d1).

(** Power-on: registers and window hold anything, nothing is unread, no status is shown. *)
Definition power_on (p : bool -> party) (idr odr : Z) (mem : Z -> Z) : duo :=
  mkDuo (mkShared (mkKcs idr odr false false 0) mem) (fun s => boot s (p s)) (fun _ => []).
Definition lives (allowed : bool -> Z -> Prop) (p : bool -> party) (d : duo) : Prop :=
  exists p0 idr odr mem, (forall s, allowed s (p_mtu (p0 s))) /\ is_byte idr /\ is_byte odr /\
    (forall x, is_byte (mem x)) /\ goes allowed p0 (power_on p0 idr odr mem) p d.
