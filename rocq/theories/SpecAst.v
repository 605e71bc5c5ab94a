(** SpecAst: the vocabulary in which the astlpc properties are stated (the binding
    document's window layout and protocol versions). *)
From Verif Require Import Base Prog PktBuf Core Walk CoreHist Crc Astlpc.

(** ** Versions *)

(** Version [v] lies in both advertised ranges. *)
Definition common (bmin bcur hmin hcur v : Z) : Prop := bmin <= v <= bcur /\ hmin <= v <= hcur.

(** ** Buffers *)

(** The medium-specific bytes around a packet: a 4-byte length, and from version 3
    on a 4-byte CRC-32. *)
Definition extra (v : Z) : Z := if v =? 3 then 8 else 4.

(** The bytes of the window that belong to a buffer. *)
Definition inside (b : abuf) (x : Z) : Prop := ab_off b <= x < ab_off b + ab_size b.
(** A buffer fits the window: within 1 MiB, beyond the 256 bytes of control space,
    large enough for a packet with a 64-byte body. *)
Definition fits (v : Z) (b : abuf) : Prop :=
  256 <= ab_off b /\ ab_off b + ab_size b <= 1048576 /\ 64 + 4 + extra v <= ab_size b.
Definition valid_layout (v : Z) (l : layout) : Prop :=
  fits v (ly_rx l) /\ fits v (ly_tx l) /\ forall x, ~ (inside (ly_rx l) x /\ inside (ly_tx l) x).

Definition u32 (x : Z) : Prop := 0 <= x < 2 ^ 32.
Definition layout_u32 (l : layout) : Prop :=
  u32 (ab_off (ly_rx l)) /\ u32 (ab_size (ly_rx l)) /\ u32 (ab_off (ly_tx l)) /\ u32 (ab_size (ly_tx l)).

(** The header the BMC publishes for buffers of [sz] bytes: magic, BMC versions 1..3,
    no host versions, nothing negotiated, and the host's receive and transmit buffers. *)
Definition published (sz : Z) : list Z :=
  be32 1296258128 ++ be16 1 ++ be16 3 ++ be16 0 ++ be16 0 ++ be16 0 ++ be16 0
  ++ be32 256 ++ be32 sz ++ be32 (256 + sz) ++ be32 sz.
(** The MTU the BMC publishes when asked for [mtu]. *)
Definition bmc_mtu (mtu : Z) : Z := if mtu =? 0 then 524144 else Z.min mtu 524144.
Definition usable_mtu (mtu : Z) : Prop := mtu = 0 \/ 64 <= mtu <= 2 ^ 32 - 13.

(** ** Histories *)

(** What an application does with a registered astlpc binding. *)
Definition ast_traffic (o : aop) : Prop :=
  match o with
  | ACore (OpSetMax n) => 0 <= n < 2 ^ 64
  | ACore (OpSetCapture _) | ACore (OpSetRx _) | ACore (OpTx _ _ _ _) => True
  | ACore _ => False
  | APoll i => i = false
  end.

(** Registration, and then traffic unless the registration failed. *)
Definition ast_register (app : event -> list txreq) (bmc : bool) (mtu eid : Z) : prog (world astlpc) :=
  aexec_op app (astlpc_world bmc mtu) (ACore (OpRegister eid)).
Definition ast_history (app : event -> list txreq) (bmc : bool) (mtu eid : Z) (l : list aop)
  : prog (world astlpc) :=
  w <- ast_register app bmc mtu eid ;;
  if bd_bus (bnd w false) then aexec app w l else Ret w.

(** A peer that never sends Initialise to the host and shows channel-active only
    together with bmc-ready. *)
Definition sane_bmc : assm := mkAssm false true false (fun r v =>
  match r with
  | KData => negb (v =? cmd_initialise)
  | KStatus => negb (tst v ST_ACTIVE) || tst v ST_BMC_READY
  end).

(** What is assumed of the environment, by side: of the BMC's peer nothing, of the
    host's peer the above. *)
Definition ast_assm (bmc : bool) : assm := if bmc then no_oom else sane_bmc.
Definition ast_mtu (bmc : bool) (mtu : Z) : Prop :=
  if bmc then usable_mtu mtu else 0 <= mtu <= 2 ^ 32 - 13.

(** World [w] is reached in environment [e] after [n] effects, with events [tr], by
    a successful registration followed by the calls [l]. *)
Definition ast_reach (app : event -> list txreq) (bmc : bool) (mtu eid : Z) (l : list aop)
    (e : env) (n : nat) (tr : list event) (w : world astlpc) : Prop :=
  ast_mtu bmc mtu /\ Forall ast_traffic l /\ env_ok (ast_assm bmc) e /\
  run e 0 [] (ast_history app bmc mtu eid l) = Done w n tr /\ bd_bus (bnd w false) = true.

(** ** Reception of one packet *)

(** Contents [d] of the receive buffer after the length field, of which the first
    [body] bytes are the packet, are acceptable: MCTP version 1, and under protocol
    version 3 a trailer that is the packet's CRC-32. *)
Definition acceptable (v body : Z) (d : list Z) : Prop :=
  nth 0 d poison = 1 /\
  (v = 3 -> skipn (Z.to_nat body) d = be32 (crc32 (firstn (Z.to_nat body) d))).

Definition not_busrx (e : event) : Prop := match e with EvBusRx _ _ _ _ => False | _ => True end.

(** The events of the reception of one packet from a buffer at [off] of [sz] bytes,
    with packets of up to [psz] bytes allowed: the length is read; if it is too large
    that is all; otherwise a packet buffer is allocated and filled, and the packet is
    handed to the core if acceptable and dropped if not. *)
Inductive rx_trace (v off sz psz : Z) : list event -> Prop :=
| RxTooLong lb : zlen lb = 4 -> sz - extra v < unbe32 lb \/ psz < unbe32 lb ->
    rx_trace v off sz psz [EvLRead off lb]
| RxDropped lb n d io : zlen lb = 4 -> unbe32 lb <= sz - extra v -> unbe32 lb <= psz ->
    zlen d = unbe32 lb + extra v - 4 -> Forall io_ev io -> ~ acceptable v (unbe32 lb) d ->
    rx_trace v off sz psz (EvLRead off lb :: EvAlloc n :: EvLRead (off + 4) d :: io ++ [EvFree n])
| RxHanded lb n d io lo t : zlen lb = 4 -> unbe32 lb <= sz - extra v -> unbe32 lb <= psz ->
    zlen d = unbe32 lb + extra v - 4 -> Forall io_ev io -> acceptable v (unbe32 lb) d ->
    Forall not_busrx t ->
    rx_trace v off sz psz (EvLRead off lb :: EvAlloc n :: EvLRead (off + 4) d :: io
      ++ EvBusRx false lo n (firstn (Z.to_nat (unbe32 lb)) d) :: t ++ [EvFree n]).
