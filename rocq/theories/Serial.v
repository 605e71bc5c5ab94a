(** Serial: the DSP0253 serial binding (serial.c). *)
From Verif Require Import Base Prog PktBuf Core Crc.

(** serial.c 79-88 enum rx_state *)
Inductive rxst :=
| WaitSyncStart | WaitRevision | WaitLen | SData | SDataEsc | WaitFcs1 | WaitFcs2 | WaitSyncEnd.

(** serial.c 65-92 struct mctp_binding_serial: the receive state.  The fd, tx_fn
    and txbuf members only matter inside one call and are not state. *)
Record serial := mkSerial {
  s_st : rxst;
  s_pkt : option pktbuf;     (* rx_pkt *)
  s_exp : Z;                 (* rx_exp_len *)
  s_fcs : Z;                 (* rx_fcs *)
  s_calc : Z }.              (* rx_fcs_calc *)

Definition s_set_st (s : serial) (x : rxst) : serial :=
  mkSerial x (s_pkt s) (s_exp s) (s_fcs s) (s_calc s).
Definition s_set_pkt (s : serial) (p : option pktbuf) : serial :=
  mkSerial (s_st s) p (s_exp s) (s_fcs s) (s_calc s).
Definition s_set_exp (s : serial) (x : Z) : serial :=
  mkSerial (s_st s) (s_pkt s) x (s_fcs s) (s_calc s).
Definition s_set_fcs (s : serial) (x : Z) : serial :=
  mkSerial (s_st s) (s_pkt s) (s_exp s) x (s_calc s).
Definition s_set_calc (s : serial) (x : Z) : serial :=
  mkSerial (s_st s) (s_pkt s) (s_exp s) (s_fcs s) x.

(** serial.c 97-99 *)
Definition SER_REV : Z := 1.
Definition SER_FLAG : Z := 126.    (* 0x7e *)
Definition SER_ESC : Z := 125.     (* 0x7d *)

(** serial.c 113-136 mctp_serial_pkt_escape applied to the [total_len] bytes at
    the header.  The C function is called twice, once to measure (buf NULL) and
    once to write; both produce this list / its length. *)
Fixpoint ser_escape (bs : list Z) : list Z :=
  match bs with
  | [] => []
  | c :: t =>
      if (c =? 126) || (c =? 125) then 125 :: Z.lxor c 32 :: ser_escape t
      else c :: ser_escape t
  end.

Section Serial.
(** Bound on the iterations of mctp_write_all; running out of it is the fault
    [OutOfFuel], i.e. "still spinning". *)
Variable fuel : nat.

(** serial.c 38-50 mctp_write_all *)
Fixpoint write_all (n : nat) (bs : list Z) : prog Z :=
  match bs with
  | [] => Ret 0
  | _ :: _ =>
  match n with
  | O => Flt OutOfFuel
  | S n' => SWrite bs (fun r => if r <? 0 then Ret r else write_all n' (skipn (Z.to_nat r) bs))
  end end.

(** serial.c 138-184 mctp_binding_serial_tx *)
Definition serial_tx (s : serial) (pkt : pktbuf) : prog (serial * pktbuf * Z * bool) :=
  let len := pktbuf_size pkt in
  body <- deref OutOfBounds (rd (pk_data pkt) (pk_hdr pkt) (w32 len)) ;;
  let fcs := crc16 (crc16 FCS_INIT_16 [SER_REV; w8 len]) body in
  esrc <- deref OutOfBounds (rd (pk_data pkt) (pk_hdr pkt) (w8 (pk_end pkt - pk_hdr pkt))) ;;
  let esc := ser_escape esrc in
  if 256 <? zlen esc + 3 + 3 then Ret (s, pkt, - EMSGSIZE, false)
  else
    let frame := [SER_FLAG; SER_REV; w8 len] ++ esc
                 ++ [Z.shiftr fcs 8; Z.land fcs 255; SER_FLAG] in
    rc <- write_all fuel frame ;;
    Ret (s, pkt, rc, false).

(** serial.c 381-385 mctp_serial_core_start *)
Definition serial_start (s : serial) : prog (serial * Z * bool) := Ret (s, 0, true).

(** serial.c 392-411 mctp_serial_init *)
Definition serial_init : binding serial :=
  mkBinding 1 (MCTP_PACKET_SIZE MCTP_BTU) 0 0 false true false
            (mkSerial WaitSyncStart None 0 0 0).

Variable app : event -> list txreq.
Notation world := (world serial).

Definition put_ser (w : world) (i : bool) (s : serial) : world :=
  set_bnd w i (set_priv (bnd w i) s).

(** serial.c 186-196 mctp_serial_finish_packet.  An invalid packet's buffer is
    forgotten, not freed. *)
Definition finish_packet (w : world) (i : bool) (valid : bool) : prog world :=
  match s_pkt (bd_priv (bnd w i)) with
  | None => Flt AssertFail
  | Some pkt =>
      w' <- (if valid then bus_rx serial_tx app w i pkt else Ret w) ;;
      Ret (put_ser w' i (s_set_pkt (bd_priv (bnd w' i)) None))
  end.

(** serial.c 198-202 mctp_serial_start_packet, and the state update of the
    WAIT_LEN case *)
Definition start_packet (w : world) (i : bool) : prog (world * option pktbuf) :=
  let b := bnd w i in
  let n := m_next (w_m w) in
  o <- pktbuf_alloc n (bd_pkt_size b) (bd_header b) (bd_trailer b) 0 ;;
  Ret (set_m w (set_next (w_m w) (n + 1)), o).

(** serial.c 266-270, 275-281: append one body byte *)
Definition data_byte (w : world) (i : bool) (s : serial) (pkt : pktbuf) (c : Z) : prog world :=
  '(pkt', _) <- pktbuf_push pkt [c] ;;
  let s1 := s_set_calc (s_set_pkt s (Some pkt')) (crc16_byte (s_calc s) c) in
  let full := w64 (pk_end pkt' - pk_hdr pkt') =? s_exp s in
  Ret (put_ser w i (s_set_st s1 (if full then WaitFcs1 else SData))).

(** serial.c 204-313 mctp_rx_consume_one *)
Definition consume_one (w : world) (i : bool) (c : Z) : prog world :=
  let s := bd_priv (bnd w i) in
  _ <- assert_ (Bool.eqb (match s_pkt s with None => true | Some _ => false end)
                (match s_st s with
                 | WaitSyncStart | WaitRevision | WaitLen => true | _ => false end)) ;;
  match s_st s with
  | WaitSyncStart =>
      if c =? SER_FLAG then Ret (put_ser w i (s_set_st s WaitRevision))
      else match s_pkt s with
           | Some _ => finish_packet w i false
           | None => Ret w
           end
  | WaitRevision =>
      if c =? SER_REV then
        Ret (put_ser w i (s_set_calc (s_set_st s WaitLen) (crc16_byte FCS_INIT_16 c)))
      else if c =? SER_FLAG then Ret w
      else Ret (put_ser w i (s_set_st s WaitSyncStart))
  | WaitLen =>
      if (bd_pkt_size (bnd w i) <? c) || (c <? 4)
      then Ret (put_ser w i (s_set_st s WaitSyncStart))
      else
        '(w', o) <- start_packet w i ;;
        Ret (put_ser w' i (mkSerial SData o c (s_fcs s) (crc16_byte (s_calc s) c)))
  | SData =>
      if c =? SER_ESC then Ret (put_ser w i (s_set_st s SDataEsc))
      else pkt <- deref NullDeref (s_pkt s) ;; data_byte w i s pkt c
  | SDataEsc =>
      pkt <- deref NullDeref (s_pkt s) ;; data_byte w i s pkt (Z.lxor c 32)
  | WaitFcs1 => Ret (put_ser w i (s_set_st (s_set_fcs s (w16 (Z.shiftl c 8))) WaitFcs2))
  | WaitFcs2 => Ret (put_ser w i (s_set_st (s_set_fcs s (Z.lor (s_fcs s) c)) WaitSyncEnd))
  | WaitSyncEnd =>
      w' <- finish_packet w i ((s_fcs s =? s_calc s) && (c =? SER_FLAG)) ;;
      Ret (put_ser w' i (s_set_st (bd_priv (bnd w' i)) WaitSyncStart))
  end.

(** serial.c 314-321 mctp_rx_consume; also mctp_serial_rx (374-379) and the part
    of mctp_serial_read (324-340) after a successful read *)
Fixpoint serial_rx (w : world) (i : bool) (bs : list Z) : prog world :=
  match bs with
  | [] => Ret w
  | c :: t => w' <- consume_one w i c ;; serial_rx w' i t
  end.

(** Histories of an application using serial bindings: any API call of the core
    interleaved with received chunks. *)
Inductive sop :=
| SCore (o : @op serial)
| SRx (i : bool) (bs : list Z).

Fixpoint sexec (w : world) (l : list sop) : prog world :=
  match l with
  | [] => Ret w
  | SCore o :: t => w' <- exec_op serial_tx serial_start app w o ;; sexec w' t
  | SRx i bs :: t =>
      w' <- (if m_dead (w_m w) then Flt UseAfterFree else serial_rx w i bs) ;; sexec w' t
  end.

End Serial.

(** A fresh world: mctp_init and two freshly initialised serial bindings. *)
Definition serial_world : world serial := mkWorld mctp_init serial_init serial_init.
