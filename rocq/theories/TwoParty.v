(** TwoParty: the host and the BMC side of the astlpc binding running against each
    other over one KCS device and one LPC window, interleaved at the granularity of
    single register and window accesses.

    Throughout, a side is a boolean: [true] is the BMC, [false] the host (as [a_bmc]). *)
From Verif Require Import Base Prog PktBuf Core Crc Astlpc.

(** The KCS device (docs/bindings/vendor-ibm-astlpc.md 80-160): the host writes IDR
    and reads ODR, the BMC reads IDR and writes ODR, both read the status register.
    IBF is set by a host data write and cleared by a BMC data read, OBF is set by a BMC
    data write and cleared by a host data read.  [k_up] holds the software-defined
    status bits (7..2) that the BMC writes; a BMC status write with bit 0 clear
    clears OBF, and with bit 0 set leaves it as it is (astlpc.c 353-361, 586-592). *)
Record kcs := mkKcs { k_idr : Z; k_odr : Z; k_ibf : bool; k_obf : bool; k_up : Z }.

(** The state the two sides share: the KCS device and the LPC window.  A window cell
    holds the value last written to it. *)
Record shared := mkShared { s_kcs : kcs; s_mem : Z -> Z }.

Definition b2z (b : bool) : Z := if b then 1 else 0.
Definition kstatus (k : kcs) : Z := k_up k + 2 * b2z (k_ibf k) + b2z (k_obf k).

(** A register read by a side: its result and the device afterwards. *)
Definition kread (bmc : bool) (r : kreg) (k : kcs) : Z * kcs :=
  match r with
  | KStatus => (kstatus k, k)
  | KData => if bmc then (k_idr k, mkKcs (k_idr k) (k_odr k) false (k_obf k) (k_up k))
             else (k_odr k, mkKcs (k_idr k) (k_odr k) (k_ibf k) false (k_up k))
  end.

(** A register write by a side.  The host cannot write the status register. *)
Definition kwrite (bmc : bool) (r : kreg) (v : Z) (k : kcs) : kcs :=
  match r with
  | KStatus => if bmc then mkKcs (k_idr k) (k_odr k) (k_ibf k) (k_obf k && Z.odd v) (4 * (v / 4))
               else k
  | KData => if bmc then mkKcs (k_idr k) v (k_ibf k) true (k_up k)
             else mkKcs v (k_odr k) true (k_obf k) (k_up k)
  end.

Definition cells (m : Z -> Z) (off len : Z) : list Z :=
  map (fun i => m (off + Z.of_nat i)) (seq 0 (Z.to_nat len)).
Definition store (m : Z -> Z) (off : Z) (bs : list Z) : Z -> Z := fun x =>
  if (off <=? x) && (x <? off + zlen bs) then nth (Z.to_nat (x - off)) bs 0 else m x.

(** One effect of a side's program: the shared state, the rest of the program and the
    events afterwards.  Register accesses and allocations succeed; a window access
    outside the window is a fault. *)
Definition advance (bmc : bool) {A} (sh : shared) (p : prog A)
  : option (shared * prog A * list event) :=
  match p with
  | Ret _ | Flt _ => None
  | KRead r k =>
      let '(v, k') := kread bmc r (s_kcs sh) in
      Some (mkShared k' (s_mem sh), k (Some v), [EvKRead r (Some v)])
  | KWrite r v k =>
      Some (mkShared (kwrite bmc r v (s_kcs sh)) (s_mem sh), k true, [EvKWrite r v true])
  | LRead off len k =>
      if in_window off len then
        let bs := cells (s_mem sh) off len in Some (sh, k bs, [EvLRead off bs])
      else Some (sh, Flt OutOfBounds, [])
  | LWrite off bs k =>
      if in_window off (zlen bs) then
        Some (mkShared (s_kcs sh) (store (s_mem sh) off bs), k, [EvLWrite off bs])
      else Some (sh, Flt OutOfBounds, [])
  | SWrite bs k => Some (sh, k (zlen bs), [EvSWrite bs (zlen bs)])
  | Malloc k => Some (sh, k true, [])
  | Emit e k => Some (sh, k, [e])
  end.

(** The two sides: the shared state, and what each side still has to do and has done. *)
Record duo := mkDuo {
  d_sh : shared;
  d_prog : bool -> prog (world astlpc);
  d_tr : bool -> list event }.
Definition upd {A} (f : bool -> A) (i : bool) (x : A) : bool -> A :=
  fun j => if Bool.eqb i j then x else f j.

(** A step of the system is one effect of one side; [schedule] picks the side. *)
Definition dstep (s : bool) (d d' : duo) : Prop :=
  exists sh p t, advance s (d_sh d) (d_prog d s) = Some (sh, p, t) /\
    d' = mkDuo sh (upd (d_prog d) s p) (upd (d_tr d) s (d_tr d s ++ t)).
Inductive runs : duo -> duo -> Prop :=
| RunRefl d : runs d d
| RunStep s d d1 d2 : runs d d1 -> dstep s d1 d2 -> runs d d2.

(** The packets the core of a side has passed to its binding's tx, and the packets
    its binding has handed to the core. *)
Definition offered (tr : list event) : list (list Z) :=
  flat_map (fun e => match e with EvTxCall _ _ bs => [bs] | _ => [] end) tr.
Definition received (tr : list event) : list (list Z) :=
  flat_map (fun e => match e with EvBusRx _ _ _ bs => [bs] | _ => [] end) tr.

(** A side is about to access window byte [x]; [wr] tells whether it is a write. *)
Definition touches {A} (p : prog A) (wr : bool) (x : Z) : Prop :=
  match p with
  | LRead off len _ => wr = false /\ off <= x < off + len
  | LWrite off bs _ => wr = true /\ off <= x < off + zlen bs
  | _ => False
  end.

(** The data register a side writes holds a command the other side has not read. *)
Definition unread (bmc : bool) (k : kcs) : option Z :=
  if bmc then if k_obf k then Some (k_odr k) else None
  else if k_ibf k then Some (k_idr k) else None.
