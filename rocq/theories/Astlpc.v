(** Astlpc: the ASPEED LPC/KCS binding (astlpc.c). *)
From Verif Require Import Base Prog PktBuf Core Crc.

(** astlpc.c 43-48 enum mctp_astlpc_cmd *)
Definition cmd_initialise : Z := 0.
Definition cmd_tx_begin : Z := 1.
Definition cmd_rx_complete : Z := 2.
Definition cmd_dummy_value : Z := 255.

(** astlpc.c 50-100 enum mctp_astlpc_buffer_state *)
Inductive bufst := Idle | Acquired | Prepared | Released.

(** astlpc.c 102-106 struct mctp_astlpc_buffer *)
Record abuf := mkBuf { ab_off : Z; ab_size : Z; ab_st : bufst }.
Definition ab_set_st (b : abuf) (s : bufst) : abuf := mkBuf (ab_off b) (ab_size b) s.
Definition ab_set_size (b : abuf) (n : Z) : abuf := mkBuf (ab_off b) n (ab_st b).

(** astlpc.c 108-111 struct mctp_astlpc_layout *)
Record layout := mkLayout { ly_rx : abuf; ly_tx : abuf }.

(** astlpc.c 121-139 struct mctp_binding_astlpc (without the embedded binding and
    the fileio members).  [a_proto] is the protocol table entry proto points to,
    [None] for NULL. *)
Record astlpc := mkAst {
  a_bmc : bool;              (* mode == MCTP_BINDING_ASTLPC_MODE_BMC *)
  a_layout : layout;
  a_mtu : Z;                 (* requested_mtu *)
  a_proto : option Z;
  a_kcs : Z }.               (* kcs_status *)

Definition a_set_layout (a : astlpc) (l : layout) : astlpc :=
  mkAst (a_bmc a) l (a_mtu a) (a_proto a) (a_kcs a).
Definition a_set_proto (a : astlpc) (v : Z) : astlpc :=
  mkAst (a_bmc a) (a_layout a) (a_mtu a) (Some v) (a_kcs a).
Definition a_set_kcs (a : astlpc) (v : Z) : astlpc :=
  mkAst (a_bmc a) (a_layout a) (a_mtu a) (a_proto a) v.
Definition a_set_rx_st (a : astlpc) (s : bufst) : astlpc :=
  a_set_layout a (mkLayout (ab_set_st (ly_rx (a_layout a)) s) (ly_tx (a_layout a))).
Definition a_set_tx_st (a : astlpc) (s : bufst) : astlpc :=
  a_set_layout a (mkLayout (ly_rx (a_layout a)) (ab_set_st (ly_tx (a_layout a)) s)).
Definition a_rx (a : astlpc) : abuf := ly_rx (a_layout a).
Definition a_tx (a : astlpc) : abuf := ly_tx (a_layout a).

(** astlpc.c 163-171 *)
Definition ASTLPC_MCTP_MAGIC : Z := 1296258128.   (* 0x4d435450 *)
Definition ASTLPC_VER_BAD : Z := 0.
Definition ASTLPC_VER_MIN : Z := 1.
Definition ASTLPC_VER_CUR : Z := 3.

(** astlpc.c 177-214, 236-265: the packet_size and body_size members of the
    protocol table, called through astlpc->proto; entry 0 has NULL members. *)
Definition overhead (v : Z) : option Z :=
  if v =? 1 then Some 4 else if v =? 2 then Some 4 else if v =? 3 then Some 8 else None.
Definition packet_size (p : option Z) (body : Z) : prog Z :=
  match p with
  | None => Flt NullDeref
  | Some v =>
      match overhead v with
      | None => Flt NullDeref
      | Some k => _ <- assert_ (body <? w32 (body + k)) ;; Ret (w32 (body + k))
      end
  end.
Definition body_size (p : option Z) (packet : Z) : prog Z :=
  match p with
  | None => Flt NullDeref
  | Some v =>
      match overhead v with
      | None => Flt NullDeref
      | Some k => _ <- assert_ (w32 (packet - k) <? packet) ;; Ret (w32 (packet - k))
      end
  end.

(** astlpc.c 191-194, 216-223: pktbuf_protect.  A refused push is ignored. *)
Definition pktbuf_protect (p : option Z) (pkt : pktbuf) : prog pktbuf :=
  match p with
  | None => Flt NullDeref
  | Some v =>
      if (v =? 1) || (v =? 2) then Ret pkt
      else if v =? 3 then
        bs <- deref OutOfBounds (rd (pk_data pkt) (pk_hdr pkt) (pktbuf_size pkt)) ;;
        '(pkt', _) <- pktbuf_push pkt (be32 (crc32 bs)) ;;
        Ret pkt'
      else Flt NullDeref
  end.

Fixpoint list_eqb (a b : list Z) : bool :=
  match a, b with
  | [], [] => true
  | x :: a', y :: b' => (x =? y) && list_eqb a' b'
  | _, _ => false
  end.

(** astlpc.c 196-200, 225-234: pktbuf_validate *)
Definition pktbuf_validate (p : option Z) (pkt : pktbuf) : prog (pktbuf * bool) :=
  match p with
  | None => Flt NullDeref
  | Some v =>
      if (v =? 1) || (v =? 2) then Ret (pkt, true)
      else if v =? 3 then
        bs <- deref OutOfBounds (rd (pk_data pkt) (pk_hdr pkt) (w64 (pktbuf_size pkt - 4))) ;;
        let code := be32 (crc32 bs) in
        match pktbuf_pop pkt 4 with
        | (pkt', None) => Ret (pkt', false)
        | (pkt', Some off) =>
            chk <- deref OutOfBounds (rd (pk_data pkt') off 4) ;;
            Ret (pkt', list_eqb code chk)
        end
      else Flt NullDeref
  end.

(** astlpc.c 267-283 struct mctp_lpcmap_hdr: field offsets (packed) and size *)
Definition OFF_bmc_ver_min : Z := 4.
Definition OFF_bmc_ver_cur : Z := 6.
Definition OFF_host_ver_min : Z := 8.
Definition OFF_host_ver_cur : Z := 10.
Definition OFF_negotiated : Z := 12.
Definition OFF_layout : Z := 16.
Definition OFF_rx_size : Z := 20.
Definition HDR_SIZE : Z := 32.
Definition fld16 (h : list Z) (off : Z) : Z := unbe16 (firstn 2 (skipn (Z.to_nat off) h)).
Definition fld32 (h : list Z) (off : Z) : Z := unbe32 (firstn 4 (skipn (Z.to_nat off) h)).

(** astlpc.c 285 *)
Definition control_size : Z := 256.
(** astlpc.c 289-292 *)
Definition ST_BMC_READY : Z := 128.
Definition ST_ACTIVE : Z := 64.
Definition ST_IBF : Z := 2.
Definition ST_OBF : Z := 1.
Definition tst (v bit : Z) : bool := negb (Z.land v bit =? 0).

(** astlpc.c 308-350 mctp_astlpc_lpc_write/read: direct mapping, or lpc_read and
    lpc_write operations that succeed; the window bounds are checked by the
    meaning of [LRead]/[LWrite]. *)

(** astlpc.c 363-392 mctp_astlpc_kcs_set_status *)
Definition kcs_set_status (st : Z) : prog Z :=
  KWrite KStatus st (fun ok =>
    if negb ok then Ret (-1)
    else KWrite KData cmd_dummy_value (fun ok2 => if ok2 then Ret 0 else Ret (-1))).

(** astlpc.c 394-420 mctp_astlpc_layout_read.  The state members of the local
    layout are not read by the callers; they are [Idle] here. *)
Definition layout_read (a : astlpc) : prog layout :=
  LRead 0 HDR_SIZE (fun h =>
    let hrx := mkBuf (fld32 h 16) (fld32 h 20) Idle in
    let htx := mkBuf (fld32 h 24) (fld32 h 28) Idle in
    Ret (if a_bmc a then mkLayout htx hrx else mkLayout hrx htx)).

(** astlpc.c 422-456 mctp_astlpc_layout_write *)
Definition layout_write (a : astlpc) (l : layout) : prog unit :=
  if a_bmc a then
    LWrite OFF_layout (be32 (ab_off (ly_tx l)) ++ be32 (ab_size (ly_tx l))
                       ++ be32 (ab_off (ly_rx l)) ++ be32 (ab_size (ly_rx l))) (Ret tt)
  else LWrite OFF_rx_size (be32 (ab_size (ly_rx l))) (Ret tt).

(** astlpc.c 458-504 mctp_astlpc_buffer_validate *)
Definition buffer_validate (p : option Z) (b : abuf) : prog bool :=
  if w32 (ab_off b + ab_size b) <? ab_off b then Ret false
  else if LPC_WIN_SIZE <? w32 (ab_off b + ab_size b) then Ret false
  else
    need <- packet_size p (MCTP_PACKET_SIZE MCTP_BTU) ;;
    if ab_size b <? need then Ret false
    else if ab_off b <? control_size then Ret false
    else Ret true.

(** astlpc.c 506-530 mctp_astlpc_layout_validate *)
Definition layout_validate (p : option Z) (l : layout) : prog bool :=
  let rx := ly_rx l in
  let tx := ly_tx l in
  rv <- buffer_validate p rx ;;
  tv <- buffer_validate p tx ;;
  if negb (rv && tv) then Ret false
  else if ((ab_off rx <=? ab_off tx) && (ab_off tx <? w32 (ab_off rx + ab_size rx)))
       || ((ab_off tx <=? ab_off rx) && (ab_off rx <? w32 (ab_off tx + ab_size tx)))
  then Ret false
  else Ret true.

(** astlpc.c 532-594 mctp_astlpc_init_bmc *)
Definition init_bmc (a : astlpc) : prog (astlpc * Z) :=
  let sz0 := (LPC_WIN_SIZE - control_size) / 2 in
  b0 <- body_size (a_proto a) sz0 ;;
  let sz1 := w32 (MCTP_BODY_SIZE b0) in
  let sz2 := Z.land sz1 (2 ^ 32 - 16) in
  sz3 <- packet_size (a_proto a) (w32 (MCTP_PACKET_SIZE sz2)) ;;
  sz <- (if a_mtu a =? 0 then Ret sz3
         else rpkt <- packet_size (a_proto a) (w32 (MCTP_PACKET_SIZE (a_mtu a))) ;;
              Ret (Z.min sz3 rpkt)) ;;
  let tx := mkBuf control_size sz (ab_st (a_tx a)) in
  let rx := mkBuf (w32 (control_size + sz)) sz (ab_st (a_rx a)) in
  let a1 := a_set_layout a (mkLayout rx tx) in
  ok <- layout_validate (a_proto a1) (a_layout a1) ;;
  if negb ok then Ret (a1, - EINVAL)
  else
    LWrite 0 (be32 ASTLPC_MCTP_MAGIC ++ be16 ASTLPC_VER_MIN ++ be16 ASTLPC_VER_CUR
              ++ be16 0 ++ be16 0 ++ be16 0 ++ be16 0
              ++ be32 (ab_off tx) ++ be32 (ab_size tx) ++ be32 (ab_off rx) ++ be32 (ab_size rx))
      (rc <- kcs_set_status ST_BMC_READY ;; Ret (a1, rc)).

(** astlpc.c 596-604 mctp_binding_astlpc_start_bmc *)
Definition start_bmc (a : astlpc) : prog (astlpc * Z) := init_bmc (a_set_proto a ASTLPC_VER_CUR).

(** astlpc.c 606-637 mctp_astlpc_validate_version *)
Definition validate_version (bmin bcur hmin hcur : Z) : bool :=
  if negb (negb (bmin =? 0) && negb (bcur =? 0) && negb (hmin =? 0) && negb (hcur =? 0)) then false
  else if bcur <? bmin then false
  else if hcur <? hmin then false
  else if (hcur <? bmin) || (bcur <? hmin) then false
  else true.

(** astlpc.c 684-697 mctp_astlpc_negotiate_version *)
Definition negotiate_version (bmin bcur hmin hcur : Z) : Z :=
  if negb (validate_version bmin bcur hmin hcur) then ASTLPC_VER_BAD
  else if bcur <? hcur then bcur else hcur.

(** astlpc.c 639-682 mctp_astlpc_negotiate_layout_host *)
Definition negotiate_layout_host (a : astlpc) : prog Z :=
  l <- layout_read a ;;
  ok <- layout_validate (a_proto a) l ;;
  if negb ok then Ret (- EINVAL)
  else
    sz <- packet_size (a_proto a) (w32 (MCTP_PACKET_SIZE (a_mtu a))) ;;
    let l' := mkLayout (ab_set_size (ly_rx l) sz) (ly_tx l) in
    ok' <- layout_validate (a_proto a) l' ;;
    if negb ok' then Ret (- EINVAL)
    else _ <- layout_write a l' ;; Ret 0.

(** astlpc.c 699-771 mctp_astlpc_init_host (a failed KCS access returns -1) *)
Definition init_host (a : astlpc) : prog (astlpc * Z) :=
  KRead KStatus (fun o =>
  match o with
  | None => Ret (a, -1)
  | Some st =>
      let a1 := a_set_kcs a st in
      if negb (tst st ST_BMC_READY) then Ret (a1, - EHOSTDOWN)
      else LRead 0 HDR_SIZE (fun h =>
        let neg := negotiate_version (fld16 h OFF_bmc_ver_min) (fld16 h OFF_bmc_ver_cur)
                                     ASTLPC_VER_MIN ASTLPC_VER_CUR in
        if neg =? 0 then Ret (a1, - EINVAL)
        else
          _ <- assert_ (neg <? 4) ;;
          let a2 := a_set_proto a1 neg in
          rc <- (if 2 <=? neg then negotiate_layout_host a2 else Ret 0) ;;
          if rc <? 0 then Ret (a2, rc)
          else
            LWrite OFF_host_ver_min (be16 ASTLPC_VER_MIN)
            (LWrite OFF_host_ver_cur (be16 ASTLPC_VER_CUR)
            (KWrite KData cmd_initialise (fun ok =>
               Ret (a_set_proto a2 ASTLPC_VER_BAD, if ok then 0 else -1)))))
  end).

(** astlpc.c 596-604, 773-779: binding.start by mode.  Neither touches the core. *)
Definition astlpc_start (a : astlpc) : prog (astlpc * Z * bool) :=
  '(a', rc) <- (if a_bmc a then start_bmc a else init_host a) ;; Ret (a', rc, false).

(** astlpc.c 781-805 __mctp_astlpc_kcs_ready and its two uses *)
Definition kcs_ready (a : astlpc) (st : Z) (is_write : bool) : bool :=
  let flag := if xorb (a_bmc a) is_write then ST_IBF else ST_OBF in
  Bool.eqb (tst st flag) (negb is_write).
Definition kcs_read_ready (a : astlpc) (st : Z) : bool := kcs_ready a st false.
Definition kcs_write_ready (a : astlpc) (st : Z) : bool := kcs_ready a st true.

(** astlpc.c 807-828 mctp_astlpc_kcs_send *)
Definition kcs_send (a : astlpc) (cmd : Z) : prog Z :=
  KRead KStatus (fun o =>
  match o with
  | None => Ret (- EIO)
  | Some st =>
      if negb (kcs_write_ready a st) then Ret (- EBUSY)
      else KWrite KData cmd (fun ok => if ok then Ret 0 else Ret (- EIO))
  end).

(** astlpc.c 830-871 mctp_binding_astlpc_tx *)
Definition astlpc_tx (a : astlpc) (pkt : pktbuf) : prog (astlpc * pktbuf * Z * bool) :=
  let len := w32 (pktbuf_size pkt) in
  maxlen <- body_size (a_proto a) (ab_size (a_tx a)) ;;
  if maxlen <? len then Ret (a, pkt, - EMSGSIZE, false)
  else
    LWrite (ab_off (a_tx a)) (be32 len)
    (pkt' <- pktbuf_protect (a_proto a) pkt ;;
     bs <- deref OutOfBounds (rd (pk_data pkt') (pk_hdr pkt') (w32 (pktbuf_size pkt'))) ;;
     LWrite (w32 (ab_off (a_tx a) + 4)) bs
     (let a1 := a_set_tx_st a Prepared in
      rc <- kcs_send a1 cmd_tx_begin ;;
      let a2 := if rc =? 0 then a_set_tx_st a1 Released else a1 in
      Ret (a2, pkt', if rc =? - EBUSY then 0 else rc, true))).

(** astlpc.c 873-894 mctp_astlpc_calculate_mtu *)
Definition calculate_mtu (a : astlpc) (proposed : layout) : prog Z :=
  let low := Z.min (ab_off (a_rx a)) (ab_off (a_tx a)) in
  let high := Z.max (ab_off (a_rx a)) (ab_off (a_tx a)) in
  let limit := high - low in
  limit <- (if a_mtu a =? 0 then Ret limit
            else rpkt <- packet_size (a_proto a) (w32 (MCTP_PACKET_SIZE (a_mtu a))) ;;
                 Ret (Z.min limit rpkt)) ;;
  let rpkt := Z.min limit (ab_size (ly_tx proposed)) in
  b <- body_size (a_proto a) rpkt ;;
  Ret (w32 (MCTP_BODY_SIZE b)).

Section Astlpc.
Variable app : event -> list txreq.
Notation world := (world astlpc).

Definition ast (w : world) (i : bool) : astlpc := bd_priv (bnd w i).
Definition put_ast (w : world) (i : bool) (a : astlpc) : world :=
  set_bnd w i (set_priv (bnd w i) a).
Definition put_pkt_size (w : world) (i : bool) (n : Z) : world :=
  set_bnd w i (set_pkt_size (bnd w i) n).

(** astlpc.c 896-947 mctp_astlpc_negotiate_layout_bmc *)
Definition negotiate_layout_bmc (w : world) (i : bool) : prog (world * Z) :=
  let a := ast w i in
  v <- deref NullDeref (a_proto a) ;;
  if v =? 0 then Ret (w, - EINVAL)
  else
    proposed <- layout_read a ;;
    ok <- layout_validate (a_proto a) proposed ;;
    if negb ok then Ret (w, - EINVAL)
    else
      mtu <- calculate_mtu a proposed ;;
      sz <- packet_size (a_proto a) (w32 (MCTP_PACKET_SIZE mtu)) ;;
      let pending := mkLayout (ab_set_size (a_rx a) sz) (ab_set_size (a_tx a) sz) in
      ok2 <- layout_validate (a_proto a) pending ;;
      if negb ok2 then Ret (w, - EINVAL)
      else
        let a1 := a_set_layout a pending in
        let w1 := put_ast w i a1 in
        _ <- layout_write a1 pending ;;
        Ret (if 2 <=? v then put_pkt_size w1 i (MCTP_PACKET_SIZE mtu) else w1, 0).

(** astlpc.c 949-997 mctp_astlpc_init_channel *)
Definition init_channel (w : world) (i : bool) : prog world :=
  LRead 0 HDR_SIZE (fun h =>
    let neg := negotiate_version ASTLPC_VER_MIN ASTLPC_VER_CUR
                                 (fld16 h OFF_host_ver_min) (fld16 h OFF_host_ver_cur) in
    _ <- assert_ (neg <? 4) ;;
    let w1 := put_ast w i (a_set_proto (ast w i) neg) in
    '(w2, rc) <- negotiate_layout_bmc w1 i ;;
    let neg' := if rc <? 0 then ASTLPC_VER_BAD else neg in
    LWrite OFF_negotiated (be16 neg')
    (let w3 := put_ast w2 i (a_set_rx_st (a_set_tx_st (ast w2 i) Acquired) Released) in
     let st := Z.lor ST_BMC_READY ST_OBF in
     let st' := if 0 <? neg' then Z.lor st ST_ACTIVE else st in
     _ <- kcs_set_status st' ;;
     set_tx_enabled astlpc_tx w3 i (tst st' ST_ACTIVE))).

(** astlpc.c 999-1062 mctp_astlpc_rx_start *)
Definition rx_start (w : world) (i : bool) : prog world :=
  let a := ast w i in
  LRead (ab_off (a_rx a)) 4 (fun lb =>
    let body := unbe32 lb in
    mx <- body_size (a_proto a) (ab_size (a_rx a)) ;;
    if mx <? body then Ret w
    else if bd_pkt_size (bnd w i) <? body then Ret w
    else
      ps <- packet_size (a_proto a) body ;;
      let packet := w32 (ps - 4) in
      let b := bnd w i in
      let n := m_next (w_m w) in
      o <- pktbuf_alloc n (bd_pkt_size b) (bd_header b) (bd_trailer b) packet ;;
      let w := set_m w (set_next (w_m w) (n + 1)) in
      match o with
      | None => Ret w
      | Some pkt =>
          LRead (w32 (ab_off (a_rx a) + 4)) packet (fun bs =>
            pkt <- pktbuf_store pkt (pk_hdr pkt) bs ;;
            let a1 := a_set_rx_st a Prepared in
            rc <- kcs_send a1 cmd_rx_complete ;;
            let a2 := if rc =? 0 then a_set_rx_st a1 Released else a1 in
            let w := put_ast w i a2 in
            h <- deref OutOfBounds (rd (pk_data pkt) (pk_hdr pkt) 1) ;;
            if negb (nth 0 h 0 =? 1) then _ <- pktbuf_free pkt ;; Ret w
            else
              '(pkt', ok) <- pktbuf_validate (a_proto a2) pkt ;;
              if (ok : bool) then bus_rx astlpc_tx app w i pkt'
              else _ <- pktbuf_free pkt' ;; Ret w)
      end).

(** astlpc.c 1064-1068 mctp_astlpc_tx_complete *)
Definition tx_complete (w : world) (i : bool) : prog world :=
  set_tx_enabled astlpc_tx (put_ast w i (a_set_tx_st (ast w i) Acquired)) i true.

(** astlpc.c 1070-1116 mctp_astlpc_finalise_channel *)
Definition finalise_channel (w : world) (i : bool) : prog (world * Z) :=
  LRead OFF_negotiated 2 (fun nb =>
    let neg := unbe16 nb in
    if (neg =? ASTLPC_VER_BAD) || (neg <? ASTLPC_VER_MIN) || (ASTLPC_VER_CUR <? neg)
    then Ret (w, - EINVAL)
    else
      _ <- assert_ (neg <? 4) ;;
      let a := a_set_proto (ast w i) neg in
      let w := put_ast w i a in
      l <- layout_read a ;;
      ok <- layout_validate (a_proto a) l ;;
      if negb ok then Ret (w, - EINVAL)
      else
        w <- (if 2 <=? neg
              then bsz <- body_size (a_proto a) (ab_size (ly_tx l)) ;;
                   Ret (put_pkt_size w i bsz)
              else Ret w) ;;
        let l' := mkLayout (ab_set_st (ly_rx l) Released) (ab_set_st (ly_tx l) Acquired) in
        Ret (put_ast w i (a_set_layout a l'), 0)).

(** astlpc.c 1118-1157 mctp_astlpc_update_channel *)
Definition update_channel (w : world) (i : bool) (st : Z) : prog (world * Z) :=
  _ <- assert_ (negb (a_bmc (ast w i))) ;;
  let upd := Z.lxor (a_kcs (ast w i)) st in
  if tst upd ST_BMC_READY && tst st ST_BMC_READY then
    '(a', rc, _) <- astlpc_start (a_set_kcs (ast w i) st) ;;
    Ret (put_ast w i a', rc)
  else
    w1 <- (if tst upd ST_BMC_READY
           then set_tx_enabled astlpc_tx
                  (put_ast w i (a_set_rx_st (a_set_tx_st (ast w i) Idle) Idle)) i false
           else Ret w) ;;
    v <- deref NullDeref (a_proto (ast w1 i)) ;;
    '(w2, rc) <-
      (if (v =? 0) || tst upd ST_ACTIVE then
         '(w', rc) <- finalise_channel
                        (put_ast w1 i (a_set_rx_st (a_set_tx_st (ast w1 i) Idle) Idle)) i ;;
         w'' <- set_tx_enabled astlpc_tx w' i (tst st ST_ACTIVE && (rc =? 0)) ;;
         Ret (w'', rc)
       else Ret (w1, 0)) ;;
    Ret (put_ast w2 i (a_set_kcs (ast w2 i) st), rc).

(** astlpc.c 1159-1162 mctp_astlpc_tx_done *)
Definition tx_done (a : astlpc) : bool := match ab_st (a_tx a) with Acquired => true | _ => false end.

(** astlpc.c 1169-1175: retry of a pending hand-off *)
Definition poll_release_rx (a : astlpc) : prog astlpc :=
  match ab_st (a_rx a) with
  | Prepared => rc <- kcs_send a cmd_rx_complete ;;
                Ret (if rc =? 0 then a_set_rx_st a Released else a)
  | _ => Ret a
  end.
Definition poll_release_tx (a : astlpc) : prog astlpc :=
  match ab_st (a_tx a) with
  | Prepared => rc <- kcs_send a cmd_tx_begin ;;
                Ret (if rc =? 0 then a_set_tx_st a Released else a)
  | _ => Ret a
  end.

(** astlpc.c 1239-1245: silent loss of bmc-ready *)
Definition poll_tail (w : world) (i : bool) (st data rc : Z) : prog (world * Z) :=
  if negb (a_bmc (ast w i)) && negb (tst st ST_BMC_READY && (data =? cmd_dummy_value))
  then update_channel w i st
  else Ret (w, rc).

(** astlpc.c 1196-1245: command dispatch *)
Definition poll_dispatch (w : world) (i : bool) (st data : Z) : prog (world * Z) :=
  v <- deref NullDeref (a_proto (ast w i)) ;;
  if (v =? 0) && negb ((data =? cmd_initialise) || (data =? cmd_dummy_value))
  then Ret (w, 0)
  else if data =? cmd_initialise then
    w' <- init_channel w i ;; poll_tail w' i st data 0
  else if data =? cmd_tx_begin then
    match ab_st (a_rx (ast w i)) with
    | Released => w' <- rx_start w i ;; poll_tail w' i st data 0
    | _ => Ret (w, 0)
    end
  else if data =? cmd_rx_complete then
    match ab_st (a_tx (ast w i)) with
    | Released => w' <- tx_complete w i ;; poll_tail w' i st data 0
    | _ => Ret (w, 0)
    end
  else if data =? cmd_dummy_value then
    if a_bmc (ast w i) then poll_tail w i st data 0
    else
      '(w', rc) <- update_channel w i st ;;
      if rc <? 0 then Ret (w', rc) else poll_tail w' i st data rc
  else poll_tail w i st data 0.

(** astlpc.c 1164-1246 mctp_astlpc_poll *)
Definition poll (w : world) (i : bool) : prog (world * Z) :=
  a1 <- poll_release_rx (ast w i) ;;
  a2 <- poll_release_tx a1 ;;
  let w := put_ast w i a2 in
  KRead KStatus (fun o =>
  match o with
  | None => Ret (w, -1)
  | Some st =>
      if negb (kcs_read_ready a2 st) then Ret (w, 0)
      else KRead KData (fun d =>
        match d with
        | None => Ret (w, -1)
        | Some data => poll_dispatch w i st data
        end)
  end).

(** astlpc.c 1448-1462 mctp_astlpc_init_pollfd: true = POLLOUT, false = POLLIN *)
Definition pollfd_out (a : astlpc) : bool :=
  match ab_st (a_rx a), ab_st (a_tx a) with
  | Prepared, _ => true
  | _, Prepared => true
  | _, _ => false
  end.

(** astlpc.c 1324-1330 mctp_astlpc_destroy *)
Definition astlpc_destroy (a : astlpc) : prog unit :=
  if a_bmc a then _ <- kcs_set_status 0 ;; Ret tt else Ret tt.

(** Histories: API calls of the core interleaved with polls. *)
Inductive aop :=
| ACore (o : @op astlpc)
| APoll (i : bool).

Definition aexec_op (w : world) (o : aop) : prog world :=
  match o with
  | ACore o => exec_op astlpc_tx astlpc_start app w o
  | APoll i => if m_dead (w_m w) then Flt UseAfterFree
               else '(w', rc) <- poll w i ;; Emit (EvRet rc) (Ret w')
  end.

Fixpoint aexec (w : world) (l : list aop) : prog world :=
  match l with
  | [] => Ret w
  | o :: t => w' <- aexec_op w o ;; aexec w' t
  end.

End Astlpc.

(** astlpc.c 1249-1285, 1293-1314 mctp_astlpc_init.  [bmc] selects the mode. *)
Definition astlpc_init (bmc : bool) (mtu : Z) : binding astlpc :=
  mkBinding 1 (MCTP_PACKET_SIZE (if MCTP_BTU <? mtu then mtu else MCTP_BTU)) 4 4 false true false
            (mkAst bmc (mkLayout (mkBuf 0 0 Idle) (mkBuf 0 0 Idle)) mtu None 0).

(** A fresh world with one astlpc binding (binding 1 is unused). *)
Definition astlpc_world (bmc : bool) (mtu : Z) : world astlpc :=
  mkWorld mctp_init (astlpc_init bmc mtu) (astlpc_init bmc mtu).
