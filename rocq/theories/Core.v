(** Core: the MCTP core (core.c, libmctp.h). *)
From Verif Require Import Base Prog PktBuf.

(** libmctp.h 19-20 *)
Definition MCTP_EID_NULL : Z := 0.
Definition MCTP_EID_BROADCAST : Z := 255.
(** libmctp.h 31-39 *)
Definition FLAG_SOM : Z := 128.
Definition FLAG_EOM : Z := 64.
(** libmctp.h 46-48: MCTP_BTU, MCTP_PACKET_SIZE, MCTP_BODY_SIZE *)
Definition MCTP_BTU : Z := 64.
Definition MCTP_PACKET_SIZE (u : Z) : Z := u + 4.
Definition MCTP_BODY_SIZE (u : Z) : Z := w64 (u - 4).
(** core.c 88-90 *)
Definition MCTP_MAX_MESSAGE_SIZE : Z := 65536.

(** core.c 23-27 enum mctp_bus_state *)
Inductive bus_state := Constructed | TxEnabled | TxDisabled.

(** core.c 29-38 struct mctp_bus.  The queue (head, tail and next links) is a
    list, oldest first; Queue.v relates the linked list to this list. *)
Record bus := mkBus { bus_eid : Z; bus_st : bus_state; bus_q : list pktbuf }.

(** The heap object a pointer designates. *)
Inductive hptr := PNull | PLive | PFreed.

(** core.c 40-49 struct mctp_msg_ctx.  [c_data] are the first buf_size bytes of
    the buffer, so buf_size is [zlen c_data]. *)
Record mctx := mkCtx {
  c_src : Z; c_dest : Z; c_tag : Z; c_seq : Z;
  c_buf : hptr;
  c_data : list Z;
  c_alloc : Z;          (* buf_alloc_size *)
  c_frag : Z }.         (* fragment_size *)

(** core.c 69-72 route_policy *)
Inductive policy := RouteEndpoint | RouteBridge.

(** core.c 53 the [busses] pointer and what it points to *)
Inductive bptr := BNull | BLive (l : list bus) | BFreed.

(** core.c 51-74 struct mctp.  [m_next] is the ghost supply of packet identities,
    [m_dead] says the object was freed by mctp_destroy. *)
Record mctp := mkMctp {
  m_nb : Z;
  m_busses : bptr;
  m_rx : bool;            (* message_rx set *)
  m_cap : bool;           (* capture set *)
  m_ctxs : list mctx;     (* 16 of them *)
  m_policy : policy;
  m_max : Z;              (* max_message_size *)
  m_next : Z;
  m_dead : bool }.

(** libmctp.h 126-138 struct mctp_binding; [bd_priv] is the state of the
    concrete binding that embeds it. *)
Record binding (B : Type) := mkBinding {
  bd_version : Z;
  bd_pkt_size : Z;
  bd_header : Z;
  bd_trailer : Z;
  bd_bus : bool;          (* bus pointer is not NULL *)
  bd_has_start : bool;
  bd_ctrl : bool;         (* control_rx set *)
  bd_priv : B }.
Arguments mkBinding {B}.
Arguments bd_version {B}. Arguments bd_pkt_size {B}. Arguments bd_header {B}.
Arguments bd_trailer {B}. Arguments bd_bus {B}. Arguments bd_has_start {B}.
Arguments bd_ctrl {B}. Arguments bd_priv {B}.

(** One MCTP object and the (at most two) bindings attached to it.  Bus [false]
    is busses[0], bus [true] is busses[1] (bridge only).  The binding registered
    with mctp_register_bus is called binding [false]. *)
Record world (B : Type) := mkWorld { w_m : mctp; w_b0 : binding B; w_b1 : binding B }.
Arguments mkWorld {B}. Arguments w_m {B}. Arguments w_b0 {B}. Arguments w_b1 {B}.

Definition set_m {B} (w : world B) (m : mctp) : world B := mkWorld m (w_b0 w) (w_b1 w).
Definition bnd {B} (w : world B) (i : bool) : binding B := if i then w_b1 w else w_b0 w.
Definition set_bnd {B} (w : world B) (i : bool) (b : binding B) : world B :=
  if i then mkWorld (w_m w) (w_b0 w) b else mkWorld (w_m w) b (w_b1 w).
Definition set_priv {B} (b : binding B) (x : B) : binding B :=
  mkBinding (bd_version b) (bd_pkt_size b) (bd_header b) (bd_trailer b) (bd_bus b)
            (bd_has_start b) (bd_ctrl b) x.
Definition set_bdbus {B} (b : binding B) (x : bool) : binding B :=
  mkBinding (bd_version b) (bd_pkt_size b) (bd_header b) (bd_trailer b) x
            (bd_has_start b) (bd_ctrl b) (bd_priv b).
Definition set_pkt_size {B} (b : binding B) (x : Z) : binding B :=
  mkBinding (bd_version b) x (bd_header b) (bd_trailer b) (bd_bus b)
            (bd_has_start b) (bd_ctrl b) (bd_priv b).

Definition set_busses (m : mctp) (n : Z) (b : bptr) : mctp :=
  mkMctp n b (m_rx m) (m_cap m) (m_ctxs m) (m_policy m) (m_max m) (m_next m) (m_dead m).
Definition set_ctxs (m : mctp) (c : list mctx) : mctp :=
  mkMctp (m_nb m) (m_busses m) (m_rx m) (m_cap m) c (m_policy m) (m_max m) (m_next m) (m_dead m).
Definition set_policy (m : mctp) (p : policy) : mctp :=
  mkMctp (m_nb m) (m_busses m) (m_rx m) (m_cap m) (m_ctxs m) p (m_max m) (m_next m) (m_dead m).
Definition set_next (m : mctp) (n : Z) : mctp :=
  mkMctp (m_nb m) (m_busses m) (m_rx m) (m_cap m) (m_ctxs m) (m_policy m) (m_max m) n (m_dead m).
Definition set_dead (m : mctp) : mctp :=
  mkMctp (m_nb m) (m_busses m) (m_rx m) (m_cap m) (m_ctxs m) (m_policy m) (m_max m) (m_next m) true.

Definition nth_bus (l : list bus) (i : bool) : option bus := nth_error l (if i then 1 else 0)%nat.
Definition upd_bus (l : list bus) (i : bool) (b : bus) : list bus :=
  match i, l with
  | false, _ :: t => b :: t
  | true, x :: _ :: t => x :: b :: t
  | _, _ => l
  end.
(** Access through a [struct mctp_bus *]. *)
Definition get_bus (m : mctp) (i : bool) : prog bus :=
  match m_busses m with
  | BNull => Flt NullDeref
  | BFreed => Flt UseAfterFree
  | BLive l => deref OutOfBounds (nth_bus l i)
  end.
Definition set_bus {B} (w : world B) (i : bool) (b : bus) : world B :=
  match m_busses (w_m w) with
  | BLive l => set_m w (set_busses (w_m w) (m_nb (w_m w)) (BLive (upd_bus l i b)))
  | _ => w
  end.

(** core.c 279-292 mctp_init after a successful allocation: memset to 0 *)
Definition ctx0 : mctx := mkCtx 0 0 0 0 PNull [] 0 0.
Definition mctp_init : mctp :=
  mkMctp 0 BNull false false (repeat ctx0 16) RouteEndpoint MCTP_MAX_MESSAGE_SIZE 0 false.

(** core.c 294-297 mctp_set_max_message_size *)
Definition mctp_set_max_message_size (m : mctp) (n : Z) : mctp :=
  mkMctp (m_nb m) (m_busses m) (m_rx m) (m_cap m) (m_ctxs m) (m_policy m) n (m_next m) (m_dead m).
(** core.c 299-303 mctp_set_capture_handler (set or clear) *)
Definition mctp_set_capture_handler (m : mctp) (b : bool) : mctp :=
  mkMctp (m_nb m) (m_busses m) (m_rx m) b (m_ctxs m) (m_policy m) (m_max m) (m_next m) (m_dead m).
(** core.c 334-339 mctp_set_rx_all (set or clear) *)
Definition mctp_set_rx_all (m : mctp) (b : bool) : mctp :=
  mkMctp (m_nb m) (m_busses m) b (m_cap m) (m_ctxs m) (m_policy m) (m_max m) (m_next m) (m_dead m).

(** ** Message reassembly contexts *)

(** core.c 183-197 mctp_msg_ctx_lookup: index of the first matching context *)
Fixpoint ctx_lookup (l : list mctx) (src dest tag : Z) : option nat :=
  match l with
  | [] => None
  | c :: t =>
      if (c_src c =? src) && (c_dest c =? dest) && (c_tag c =? tag) then Some 0%nat
      else option_map S (ctx_lookup t src dest tag)
  end.

(** core.c 205-211 the search of mctp_msg_ctx_create *)
Fixpoint ctx_free_slot (l : list mctx) : option nat :=
  match l with
  | [] => None
  | c :: t => if c_src c =? 0 then Some 0%nat else option_map S (ctx_free_slot t)
  end.

(** core.c 216-219 mctp_msg_ctx_create, the initialisation *)
Definition ctx_create (c : mctx) (src dest tag : Z) : mctx :=
  mkCtx src dest tag (c_seq c) (c_buf c) [] (c_alloc c) (c_frag c).
(** core.c 224-227 mctp_msg_ctx_drop *)
Definition ctx_drop (c : mctx) : mctx :=
  mkCtx 0 (c_dest c) (c_tag c) (c_seq c) (c_buf c) (c_data c) (c_alloc c) (c_frag c).
(** core.c 229-233 mctp_msg_ctx_reset *)
Definition ctx_reset (c : mctx) : mctx :=
  mkCtx (c_src c) (c_dest c) (c_tag c) (c_seq c) (c_buf c) [] (c_alloc c) 0.
(** core.c 602, 608, 676 *)
Definition ctx_set_frag (c : mctx) (n : Z) : mctx :=
  mkCtx (c_src c) (c_dest c) (c_tag c) (c_seq c) (c_buf c) (c_data c) (c_alloc c) n.
Definition ctx_set_seq (c : mctx) (n : Z) : mctx :=
  mkCtx (c_src c) (c_dest c) (c_tag c) n (c_buf c) (c_data c) (c_alloc c) (c_frag c).
Definition ctx_set_buf (c : mctx) (b : hptr) (alloc : Z) : mctx :=
  mkCtx (c_src c) (c_dest c) (c_tag c) (c_seq c) b (c_data c) alloc (c_frag c).
Definition ctx_set_data (c : mctx) (d : list Z) : mctx :=
  mkCtx (c_src c) (c_dest c) (c_tag c) (c_seq c) (c_buf c) d (c_alloc c) (c_frag c).

Fixpoint upd_nth {A} (l : list A) (n : nat) (x : A) : list A :=
  match l, n with
  | [], _ => []
  | _ :: t, O => x :: t
  | a :: t, S n' => a :: upd_nth t n' x
  end.

(** core.c 249-255: the new capacity *)
Definition new_alloc_size (alloc bufsz len : Z) : Z :=
  if alloc =? 0 then Z.max len 4096
  else Z.max (w64 (alloc * 2)) (w64 (len + bufsz)).

(** core.c 261-268: realloc of the buffer; on failure the old block is freed but
    the pointer and the capacity stay in the context. *)
Definition ctx_grow (c : mctx) (nsz : Z) : prog (mctx * bool) :=
  match c_buf c with
  | PFreed => Flt UseAfterFree
  | PNull => Malloc (fun ok =>
      if ok then Ret (ctx_set_buf c PLive nsz, true) else Ret (c, false))
  | PLive => Malloc (fun ok =>
      if ok then Ret (ctx_set_buf c PLive nsz, true)
      else Ret (ctx_set_buf c PFreed (c_alloc c), false))
  end.

(** core.c 271-273: memcpy of the payload to the end of the buffer *)
Definition ctx_append (c : mctx) (pkt : pktbuf) (len : Z) : prog mctx :=
  match c_buf c with
  | PNull => Flt NullDeref
  | PFreed => Flt UseAfterFree
  | PLive =>
      bs <- deref OutOfBounds (rd (pk_data pkt) (w64 (pk_hdr pkt + 4)) len) ;;
      if zlen (c_data c) + len <=? c_alloc c
      then Ret (ctx_set_data c (c_data c ++ bs))
      else Flt OutOfBounds
  end.

(** core.c 235-276 mctp_msg_ctx_add_pkt *)
Definition ctx_add_pkt (c : mctx) (pkt : pktbuf) (max : Z) : prog (mctx * Z) :=
  let len := w64 (pktbuf_size pkt - 4) in
  let bufsz := zlen (c_data c) in
  if w64 (len + bufsz) <? bufsz then Ret (c, -1)
  else if c_alloc c <? w64 (bufsz + len) then
    let nsz := new_alloc_size (c_alloc c) bufsz len in
    if max <? nsz then Ret (c, -1)
    else
      '(c', ok) <- ctx_grow c nsz ;;
      if (ok : bool) then c'' <- ctx_append c' pkt len ;; Ret (c'', 0)
      else Ret (c', -1)
  else c' <- ctx_append c pkt len ;; Ret (c', 0).

(** A request the application may make from inside a receive callback:
    mctp_message_tx(eid, tag_owner, tag, msg). *)
Record txreq := mkReq { r_eid : Z; r_to : bool; r_tag : Z; r_msg : list Z }.

Section Core.
Context {B : Type}.
(** binding->tx.  Result: new private state, the packet as the binding left it,
    the return code, and whether the binding called
    mctp_binding_set_tx_enabled(false) meanwhile.  A binding->tx that re-enters
    the core in any other way is not modelled. *)
Variable btx : B -> pktbuf -> prog (B * pktbuf * Z * bool).
(** binding->start.  Result: new private state, return code, and whether it
    called mctp_binding_set_tx_enabled(true) (as the serial binding does). *)
Variable bstart : B -> prog (B * Z * bool).
(** What the application does inside a receive callback. *)
Variable app : event -> list txreq.

Notation world := (world B).

(** core.c 750-756 (mctp_binding_set_tx_enabled called with false) *)
Definition disable_bus (b : bus) : bus :=
  match bus_st b with
  | TxEnabled => mkBus (bus_eid b) TxDisabled (bus_q b)
  | _ => b
  end.

(** core.c 684-696 mctp_packet_tx *)
Definition packet_tx (w : world) (i : bool) (pkt : pktbuf) : prog (world * pktbuf * Z) :=
  bs <- get_bus (w_m w) i ;;
  match bus_st bs with
  | TxEnabled =>
      bytes <- deref OutOfBounds (pktbuf_bytes pkt) ;;
      _ <- (if m_cap (w_m w) then Emit (EvCapture true bytes) (Ret tt) else Ret tt) ;;
      Emit (EvTxCall i (pk_id pkt) bytes)
        ('(b', pkt', rc, dis) <- btx (bd_priv (bnd w i)) pkt ;;
         let w1 := set_bnd w i (set_priv (bnd w i) b') in
         w2 <- (if (dis : bool)
                then Emit (EvSetTx i false) (Ret (set_bus w1 i (disable_bus bs)))
                else Ret w1) ;;
         Emit (EvTxRet i (pk_id pkt) bytes rc) (Ret (w2, pkt', rc)))
  | _ => Ret (w, pkt, -1)
  end.

Definition set_q (b : bus) (q : list pktbuf) : bus := mkBus (bus_eid b) (bus_st b) q.

(** core.c 698-728 the loop of mctp_send_tx_queue; [n] bounds the iterations
    (the queue only shrinks, so its length is enough). *)
Fixpoint send_loop (n : nat) (w : world) (i : bool) : prog world :=
  bs <- get_bus (w_m w) i ;;
  match bus_q bs with
  | [] => Ret w
  | p :: q =>
      match n with
      | O => Flt OutOfFuel
      | S n' =>
          '(w', p', rc) <- packet_tx w i p ;;
          bs' <- get_bus (w_m w') i ;;
          if (rc =? 0) || (rc =? - EMSGSIZE)
          then let w2 := set_bus w' i (set_q bs' q) in
               _ <- pktbuf_free p' ;; send_loop n' w2 i
          else Ret (set_bus w' i (set_q bs' (p' :: q)))
      end
  end.

(** core.c 698-728 mctp_send_tx_queue *)
Definition send_tx_queue (w : world) (i : bool) : prog world :=
  bs <- get_bus (w_m w) i ;;
  send_loop (length (bus_q bs)) w i.

Definition set_st (b : bus) (s : bus_state) : bus := mkBus (bus_eid b) s (bus_q b).

(** core.c 730-766 mctp_binding_set_tx_enabled *)
Definition set_tx_enabled (w : world) (i : bool) (enable : bool) : prog world :=
  Emit (EvSetTx i enable)
  (if negb (bd_bus (bnd w i)) then Flt NullDeref else
   bs <- get_bus (w_m w) i ;;
   match bus_st bs with
   | Constructed =>
       if negb enable then Ret w
       else if bd_pkt_size (bnd w i) <? MCTP_PACKET_SIZE MCTP_BTU then Ret w
       else Ret (set_bus w i (set_st bs TxEnabled))
   | TxEnabled =>
       if enable then Ret w else Ret (set_bus w i (set_st bs TxDisabled))
   | TxDisabled =>
       if negb enable then Ret w
       else send_tx_queue (set_bus w i (set_st bs TxEnabled)) i
   end).

(** core.c 806-818: the header bytes of packet number [k] (ver, dest, src,
    flags_seq_tag) *)
Definition tx_hdr (ver dest src : Z) (to : bool) (tag : Z) (k : Z) (last : bool) : list Z :=
  let f0 := Z.lor (Z.shiftl (if to then 1 else 0) 3) (Z.shiftl tag 0) in
  let f1 := if k =? 0 then Z.lor f0 FLAG_SOM else f0 in
  let f2 := if last then Z.lor f1 FLAG_EOM else f1 in
  let f3 := Z.lor f2 (Z.shiftl (Z.land k 3) 4) in
  [ Z.land ver 15; dest; src; w8 f3 ].

(** core.c 797-829: the packetisation loop of mctp_message_tx_on_bus; [msg] is
    what is left of the message from position p, [k] the packet number (a C int,
    taken unbounded: it would overflow only after 2^31 packets).  [fuel] bounds
    the iterations. *)
Fixpoint packetise (fuel : nat) (w : world) (i : bool) (src dest : Z) (to : bool) (tag : Z)
         (mtu : Z) (k : Z) (msg : list Z) : prog world :=
  match msg with
  | [] => Ret w
  | _ :: _ =>
  match fuel with
  | O => Flt OutOfFuel
  | S fuel' =>
      let plen := if mtu <? zlen msg then mtu else zlen msg in
      let b := bnd w i in
      o <- pktbuf_alloc (m_next (w_m w)) (bd_pkt_size b) (bd_header b) (bd_trailer b) (plen + 4) ;;
      pkt <- deref NullDeref o ;;
      let w := set_m w (set_next (w_m w) (m_next (w_m w) + 1)) in
      let last := zlen msg <=? plen in
      pkt <- pktbuf_store pkt (pk_hdr pkt) (tx_hdr (bd_version b) dest src to tag k last) ;;
      pkt <- pktbuf_store pkt (pk_hdr pkt + 4) (firstn (Z.to_nat plen) msg) ;;
      bs <- get_bus (w_m w) i ;;
      bytes <- deref OutOfBounds (pktbuf_bytes pkt) ;;
      Emit (EvEnq i (pk_id pkt) bytes)
        (packetise fuel' (set_bus w i (set_q bs (bus_q bs ++ [pkt]))) i src dest to tag mtu
                   (k + 1) (skipn (Z.to_nat plen) msg))
  end end.

(** core.c 768-836 mctp_message_tx_on_bus *)
Definition message_tx_on_bus (w : world) (i : bool) (src dest : Z) (to : bool) (tag : Z)
           (msg : list Z) : prog (world * Z) :=
  bs <- get_bus (w_m w) i ;;
  match bus_st bs with
  | Constructed => Ret (w, - ENXIO)
  | _ =>
      if negb (Z.land tag 7 =? tag) then Ret (w, - EINVAL)
      else
        let mtu := MCTP_BODY_SIZE (bd_pkt_size (bnd w i)) in
        _ <- assert_ (MCTP_BTU <=? mtu) ;;
        w' <- packetise (length msg) w i src dest to tag mtu 0 msg ;;
        w'' <- send_tx_queue w' i ;;
        Ret (w'', 0)
  end.

(** core.c 838-856 mctp_message_tx, with core.c 341-350 find_bus_for_eid *)
Definition message_tx (w : world) (eid : Z) (to : bool) (tag : Z) (msg : list Z)
  : prog (world * Z) :=
  if negb (Z.land tag 7 =? tag) then Ret (w, - EINVAL)
  else if m_nb (w_m w) =? 0 then Ret (w, 0)
  else
    bs <- get_bus (w_m w) false ;;
    message_tx_on_bus w false (bus_eid bs) eid to tag msg.

(** The application's reaction to a callback: a sequence of mctp_message_tx
    calls, results ignored. *)
Fixpoint app_react (w : world) (l : list txreq) : prog world :=
  match l with
  | [] => Ret w
  | r :: t =>
      '(w', _) <- message_tx w (r_eid r) (r_to r) (r_tag r) (r_msg r) ;;
      app_react w' t
  end.

(** A call of message_rx or control_rx. *)
Definition callback (w : world) (e : event) : prog world :=
  Emit e (app_react w (app e)).

(** core.c 476-480 mctp_rx_dest_is_local *)
Definition dest_is_local (b : bus) (dest : Z) : bool :=
  (dest =? bus_eid b) || (dest =? MCTP_EID_NULL) || (dest =? MCTP_EID_BROADCAST).

(** core.c 482-486 mctp_ctrl_cmd_is_request and 440-444 mctp_ctrl_cmd_is_transport
    on the first bytes of the message (libmctp-cmds.h 16-26, 58-59) *)
Definition ctrl_is_request (msg : list Z) : bool :=
  match msg with
  | t :: q :: _ => (t =? 0) && negb (Z.land q 128 =? 0)
  | _ => false
  end.
Definition ctrl_is_transport (msg : list Z) : bool :=
  match msg with
  | _ :: _ :: c :: _ => (240 <=? c) && (c <=? 255)
  | _ => false
  end.

(** core.c 446-474 mctp_ctrl_handle_msg.  control_rx is called with (src,
    msg_tag, tag_owner): its declared parameters are (uint8_t src_eid, bool
    tag_owner, uint8_t msg_tag), so the bool parameter receives msg_tag != 0 and
    the tag parameter receives tag_owner. *)
Definition ctrl_handle (w : world) (i : bool) (src tag : Z) (to : bool) (msg : list Z)
  : prog (world * bool) :=
  if ctrl_is_transport msg && bd_ctrl (bnd w i)
  then w' <- callback w (EvCtrl i src (negb (tag =? 0)) (if to then 1 else 0) msg) ;;
       Ret (w', true)
  else Ret (w, false).

(** core.c 501-519: local delivery *)
Definition rx_local (w : world) (i : bool) (src : Z) (to : bool) (tag : Z) (msg : list Z)
  : prog world :=
  '(w', handled) <-
     (if (4 <=? zlen msg) && ctrl_is_request msg
      then ctrl_handle w i src tag to msg
      else Ret (w, false)) ;;
  if (handled : bool) then Ret w'
  else if m_rx (w_m w') then callback w' (EvRx src to tag msg)
  else Ret w'.

(** core.c 522-534: the bridge loop over the other bus(ses) *)
Definition rx_bridge (w : world) (i : bool) (src dest : Z) (to : bool) (tag : Z) (msg : list Z)
  : prog world :=
  if m_nb (w_m w) =? 2 then
    '(w', _) <- message_tx_on_bus w (negb i) src dest to tag msg ;; Ret w'
  else Ret w.

(** core.c 493-535 mctp_rx *)
Definition mctp_rx (w : world) (i : bool) (src dest : Z) (to : bool) (tag : Z)
           (buf : hptr) (msg : list Z) : prog world :=
  _ <- assert_ (match buf with PNull => false | _ => true end) ;;
  Emit (EvMsg i src dest to tag msg)
  match m_policy (w_m w) with
  | RouteEndpoint =>
      bs <- get_bus (w_m w) i ;;
      if dest_is_local bs dest then rx_local w i src to tag msg else Ret w
  | RouteBridge => rx_bridge w i src dest to tag msg
  end.

Definition put_ctx (w : world) (n : nat) (c : mctx) : world :=
  set_m w (set_ctxs (w_m w) (upd_nth (m_ctxs (w_m w)) n c)).
Definition get_ctx (w : world) (n : nat) : prog mctx := deref OutOfBounds (nth_error (m_ctxs (w_m w)) n).

(** core.c 582-611: SOM packet *)
Definition rx_som (w : world) (pkt : pktbuf) (src dest tag seq : Z) : prog world :=
  let start (n : nat) (c : mctx) :=
    let c1 := ctx_set_frag c (pktbuf_size pkt) in
    '(c2, rc) <- ctx_add_pkt c1 pkt (m_max (w_m w)) ;;
    Ret (put_ctx w n (if rc =? 0 then ctx_set_seq c2 seq else ctx_drop c2)) in
  match ctx_lookup (m_ctxs (w_m w)) src dest tag with
  | Some n => c <- get_ctx w n ;; start n (ctx_reset c)
  | None =>
      match ctx_free_slot (m_ctxs (w_m w)) with
      | None => Ret w
      | Some n => c <- get_ctx w n ;; start n (ctx_create c src dest tag)
      end
  end.

(** core.c 613-644: EOM packet *)
Definition rx_eom (w : world) (i : bool) (pkt : pktbuf) (src dest : Z) (to : bool) (tag seq : Z)
  : prog world :=
  match ctx_lookup (m_ctxs (w_m w)) src dest tag with
  | None => Ret w
  | Some n =>
      c <- get_ctx w n ;;
      if negb ((c_seq c + 1) mod 4 =? seq) then Ret (put_ctx w n (ctx_drop c))
      else if c_frag c <? pktbuf_size pkt then Ret (put_ctx w n (ctx_drop c))
      else
        '(c', rc) <- ctx_add_pkt c pkt (m_max (w_m w)) ;;
        let w1 := put_ctx w n c' in
        w2 <- (if rc =? 0
               then mctp_rx w1 i (c_src c') (c_dest c') to tag (c_buf c') (c_data c')
               else Ret w1) ;;
        c2 <- get_ctx w2 n ;;
        Ret (put_ctx w2 n (ctx_drop c2))
  end.

(** core.c 646-678: packet with neither flag *)
Definition rx_mid (w : world) (pkt : pktbuf) (src dest tag seq : Z) : prog world :=
  match ctx_lookup (m_ctxs (w_m w)) src dest tag with
  | None => Ret w
  | Some n =>
      c <- get_ctx w n ;;
      if negb ((c_seq c + 1) mod 4 =? seq) then Ret (put_ctx w n (ctx_drop c))
      else if negb (pktbuf_size pkt =? c_frag c) then Ret (put_ctx w n (ctx_drop c))
      else
        '(c', rc) <- ctx_add_pkt c pkt (m_max (w_m w)) ;;
        Ret (put_ctx w n (if rc =? 0 then ctx_set_seq c' seq else ctx_drop c'))
  end.

(** core.c 555-679: mctp_bus_rx after the size check *)
Definition bus_rx_body (w : world) (i : bool) (bs : bus) (pkt : pktbuf) : prog world :=
  bytes <- deref OutOfBounds (pktbuf_bytes pkt) ;;
  _ <- (if m_cap (w_m w) then Emit (EvCapture false bytes) (Ret tt) else Ret tt) ;;
  h <- deref OutOfBounds (pktbuf_hdr_bytes pkt) ;;
  let dest := nth 1 h 0 in
  let src := nth 2 h 0 in
  let f := nth 3 h 0 in
  if (match m_policy (w_m w) with RouteEndpoint => true | RouteBridge => false end)
     && negb (dest_is_local bs dest)
  then Ret w
  else
    let flags := Z.land f (Z.lor FLAG_SOM FLAG_EOM) in
    let tag := Z.land (Z.shiftr f 0) 7 in
    let seq := Z.land (Z.shiftr f 4) 3 in
    let to := negb (Z.land (Z.shiftr f 3) 1 =? 0) in
    if flags =? Z.lor FLAG_SOM FLAG_EOM then
      let len := w64 (pk_end pkt - pk_hdr pkt - 4) in
      msg <- deref OutOfBounds (rd (pk_data pkt) (w64 (pk_hdr pkt + 4)) len) ;;
      mctp_rx w i src dest to tag PLive msg
    else if flags =? FLAG_SOM then rx_som w pkt src dest tag seq
    else if flags =? FLAG_EOM then rx_eom w i pkt src dest to tag seq
    else rx_mid w pkt src dest tag seq.

(** core.c 537-682 mctp_bus_rx.  binding->bus must be set (assert, line 549). *)
Definition bus_rx (w : world) (i : bool) (pkt : pktbuf) : prog world :=
  _ <- assert_ (bd_bus (bnd w i)) ;;
  bs <- get_bus (w_m w) i ;;
  bytes0 <- deref OutOfBounds (rd (pk_data pkt) (pk_start pkt) (pktbuf_size pkt)) ;;
  Emit (EvBusRx i (match m_policy (w_m w) with
                   | RouteEndpoint => Some (bus_eid bs) | RouteBridge => None end)
                (pk_id pkt) bytes0)
  (w' <- (if pktbuf_size pkt <=? 4 then Ret w else bus_rx_body w i bs pkt) ;;
   _ <- pktbuf_free pkt ;;
   Ret w').

(** ** Life cycle *)

(** core.c 352-384 mctp_register_bus, on binding [false] *)
Definition register_bus (w : world) (eid : Z) : prog (world * Z) :=
  let m := w_m w in
  _ <- assert_ (m_nb m =? 0) ;;
  Malloc (fun ok =>
  if negb ok then Ret (set_m w (set_busses m 1 BNull), - ENOMEM)
  else
    Emit (EvAttach false eid)
    (let m1 := set_policy (set_busses m 1 (BLive [mkBus eid Constructed []])) RouteEndpoint in
     let w1 := set_bnd (set_m w m1) false (set_bdbus (bnd w false) true) in
     if bd_has_start (bnd w1 false) then
       '(b', rc, en) <- bstart (bd_priv (bnd w1 false)) ;;
       let w2 := set_bnd w1 false (set_priv (bnd w1 false) b') in
       w3 <- (if (en : bool) then set_tx_enabled w2 false true else Ret w2) ;;
       if rc <? 0 then
         Emit EvDetach
         (let w4 := set_bnd w3 false (set_bdbus (bnd w3 false) false) in
          Ret (set_m w4 (set_busses (w_m w4) 0 BNull), rc))
       else Ret (w3, rc)
     else Ret (w1, 0))).

(** core.c 386-396 mctp_unregister_bus, on binding [false].  The queued packets
    are not released. *)
Definition unregister_bus (w : world) : prog world :=
  match m_busses (w_m w) with
  | BFreed => Flt DoubleFree
  | _ =>
    Emit EvDetach
    (let w1 := set_bnd w false (set_bdbus (bnd w false) false) in
     let p := match m_busses (w_m w) with BLive _ => BFreed | x => x end in
     Ret (set_m w1 (set_busses (w_m w1) 0 p)))
  end.

(** core.c 398-438 mctp_bridge_busses *)
Definition bridge_start (w : world) (i : bool) : prog (world * Z) :=
  if bd_has_start (bnd w i) then
    '(b', rc, en) <- bstart (bd_priv (bnd w i)) ;;
    let w2 := set_bnd w i (set_priv (bnd w i) b') in
    w3 <- (if (en : bool) then set_tx_enabled w2 i true else Ret w2) ;;
    Ret (w3, rc)
  else Ret (w, 0).

Definition bridge_busses (w : world) : prog (world * Z) :=
  let m := w_m w in
  _ <- assert_ (m_nb m =? 0) ;;
  Malloc (fun ok =>
  if negb ok then Ret (set_m w (set_busses m 0 BNull), - ENOMEM)
  else
    Emit (EvAttach false 0) (Emit (EvAttach true 0)
    (let m1 := set_policy (set_busses m 2 (BLive [mkBus 0 Constructed []; mkBus 0 Constructed []]))
                          RouteBridge in
     let w1 := set_bnd (set_m w m1) false (set_bdbus (bnd w false) true) in
     let w1 := set_bnd w1 true (set_bdbus (bnd w1 true) true) in
     '(w2, rc) <- bridge_start w1 false ;;
     if rc <? 0 then Ret (w2, rc)
     else bridge_start w2 true))).

(** core.c 305-313 mctp_bus_destroy *)
Fixpoint free_packets (q : list pktbuf) : prog unit :=
  match q with
  | [] => Ret tt
  | p :: t => _ <- pktbuf_free p ;; free_packets t
  end.

(** core.c 319-325: release of the reassembly buffers *)
Fixpoint free_ctx_bufs (l : list mctx) : prog (list mctx) :=
  match l with
  | [] => Ret []
  | c :: t =>
      c' <- (match c_buf c with
             | PNull => Ret c
             | PLive => Ret (ctx_set_buf c PFreed (c_alloc c))
             | PFreed => Flt DoubleFree
             end) ;;
      t' <- free_ctx_bufs t ;;
      Ret (c' :: t')
  end.

(** core.c 327-328: while (n_busses--) mctp_bus_destroy(&busses[n_busses]) *)
Fixpoint destroy_busses (m : mctp) (n : nat) : prog unit :=
  match n with
  | O => Ret tt
  | S n' =>
      match m_busses m with
      | BNull => Flt NullDeref
      | BFreed => Flt UseAfterFree
      | BLive l =>
          b <- deref OutOfBounds (nth_error l n') ;;
          _ <- free_packets (bus_q b) ;;
          destroy_busses m n'
      end
  end.

(** core.c 315-332 mctp_destroy *)
Definition destroy (w : world) : prog world :=
  let m := w_m w in
  cs <- free_ctx_bufs (m_ctxs m) ;;
  _ <- destroy_busses m (Z.to_nat (m_nb m)) ;;
  match m_busses m with
  | BFreed => Flt DoubleFree
  | p =>
      let p' := match p with BLive _ => BFreed | x => x end in
      Ret (set_m w (set_dead (set_busses (set_ctxs m cs) 0 p')))
  end.

(** ** Histories *)

Inductive op :=
| OpSetMax (n : Z)
| OpSetCapture (b : bool)
| OpSetRx (b : bool)
| OpRegister (eid : Z)
| OpUnregister
| OpBridge
| OpDestroy
(* the binding hands over a packet buffer (its identity is assigned when the
   operation runs) *)
| OpRx (i : bool) (pkt : pktbuf)
| OpTx (eid : Z) (to : bool) (tag : Z) (msg : list Z)
(* the binding calls mctp_binding_set_tx_enabled *)
| OpSetTx (i : bool) (enable : bool)
(* the binding changes its private state or its packet size *)
| OpPriv (i : bool) (b : B)
| OpPktSize (i : bool) (n : Z).

Definition set_id (p : pktbuf) (n : Z) : pktbuf :=
  mkPkt n (pk_start p) (pk_end p) (pk_size p) (pk_hdr p) (pk_data p).

Definition exec_op (w : world) (o : op) : prog world :=
  if m_dead (w_m w) then Flt UseAfterFree else
  match o with
  | OpSetMax n => Ret (set_m w (mctp_set_max_message_size (w_m w) n))
  | OpSetCapture b => Ret (set_m w (mctp_set_capture_handler (w_m w) b))
  | OpSetRx b => Ret (set_m w (mctp_set_rx_all (w_m w) b))
  | OpRegister eid => '(w', rc) <- register_bus w eid ;; Emit (EvRet rc) (Ret w')
  | OpUnregister => unregister_bus w
  | OpBridge => '(w', rc) <- bridge_busses w ;; Emit (EvRet rc) (Ret w')
  | OpDestroy => destroy w
  | OpRx i pkt =>
      let n := m_next (w_m w) in
      let w1 := set_m w (set_next (w_m w) (n + 1)) in
      Emit (EvAlloc n) (bus_rx w1 i (set_id pkt n))
  | OpTx eid to tag msg => '(w', rc) <- message_tx w eid to tag msg ;; Emit (EvRet rc) (Ret w')
  | OpSetTx i en => set_tx_enabled w i en
  | OpPriv i b => Ret (set_bnd w i (set_priv (bnd w i) b))
  | OpPktSize i n => Ret (set_bnd w i (set_pkt_size (bnd w i) n))
  end.

Fixpoint exec (w : world) (l : list op) : prog world :=
  match l with
  | [] => Ret w
  | o :: t => w' <- exec_op w o ;; exec w' t
  end.

End Core.
