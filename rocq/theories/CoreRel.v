(** CoreRel: the input/output relation of every core operation (no faults, no
    failing allocation), as used by the property proofs. *)
From Verif Require Import Base Lists Prog PktBuf Core WP Walk.

(** ** Reassembly as a function of the packet bytes *)

(** core.c 235-276 without allocation failure *)
Definition add_pure (c : mctx) (payload : list Z) (max : Z) : mctx * bool :=
  let len := zlen payload in
  let bufsz := zlen (c_data c) in
  if 2 ^ 64 <=? len + bufsz then (c, false)
  else if c_alloc c <? bufsz + len then
    let nsz := new_alloc_size (c_alloc c) bufsz len in
    if max <? nsz then (c, false)
    else (ctx_set_data (ctx_set_buf c PLive nsz) (c_data c ++ payload), true)
  else (ctx_set_data c (c_data c ++ payload), true).

Definition p_dest (bytes : list Z) : Z := nth 1 bytes 0.
Definition p_src (bytes : list Z) : Z := nth 2 bytes 0.
Definition p_flags (bytes : list Z) : Z := Z.land (nth 3 bytes 0) (Z.lor FLAG_SOM FLAG_EOM).
Definition p_tag (bytes : list Z) : Z := Z.land (Z.shiftr (nth 3 bytes 0) 0) 7.
Definition p_seq (bytes : list Z) : Z := Z.land (Z.shiftr (nth 3 bytes 0) 4) 3.
Definition p_to (bytes : list Z) : bool := negb (Z.land (Z.shiftr (nth 3 bytes 0) 3) 1 =? 0).
Definition p_payload (bytes : list Z) : list Z := skipn 4 bytes.

Definition start_pure (cs : list mctx) (n : nat) (c : mctx) (max : Z) (bytes : list Z) : list mctx :=
  let '(c2, ok) := add_pure (ctx_set_frag c (zlen bytes)) (p_payload bytes) max in
  upd_nth cs n (if ok then ctx_set_seq c2 (p_seq bytes) else ctx_drop c2).

(** core.c 571-679: new contexts, and the (source, destination, message) that is
    passed on, if any *)
Definition rx_pure (cs : list mctx) (max : Z) (bytes : list Z)
  : list mctx * option (Z * Z * list Z) :=
  let src := p_src bytes in
  let dest := p_dest bytes in
  let tag := p_tag bytes in
  let found := ctx_lookup cs src dest tag in
  if p_flags bytes =? Z.lor FLAG_SOM FLAG_EOM then (cs, Some (src, dest, p_payload bytes))
  else if p_flags bytes =? FLAG_SOM then
    match found with
    | Some n => (start_pure cs n (ctx_reset (nth n cs ctx0)) max bytes, None)
    | None =>
        match ctx_free_slot cs with
        | None => (cs, None)
        | Some n => (start_pure cs n (ctx_create (nth n cs ctx0) src dest tag) max bytes, None)
        end
    end
  else
    match found with
    | None => (cs, None)
    | Some n =>
        let c := nth n cs ctx0 in
        if negb ((c_seq c + 1) mod 4 =? p_seq bytes) then (upd_nth cs n (ctx_drop c), None)
        else if p_flags bytes =? FLAG_EOM then
          if c_frag c <? zlen bytes then (upd_nth cs n (ctx_drop c), None)
          else let '(c', ok) := add_pure c (p_payload bytes) max in
               (upd_nth cs n (ctx_drop c'),
                if ok then Some (c_src c', c_dest c', c_data c') else None)
        else
          if negb (zlen bytes =? c_frag c) then (upd_nth cs n (ctx_drop c), None)
          else let '(c', ok) := add_pure c (p_payload bytes) max in
               (upd_nth cs n (if ok then ctx_set_seq c' (p_seq bytes) else ctx_drop c'), None)
    end.

(** ** Packetisation as a function *)

Fixpoint frags (fuel : nat) (ver src dest : Z) (to : bool) (tag mtu k : Z) (msg : list Z)
  : list (list Z) :=
  match msg with
  | [] => []
  | _ :: _ =>
  match fuel with
  | O => []
  | S fuel' =>
      let plen := if mtu <? zlen msg then mtu else zlen msg in
      (tx_hdr ver dest src to tag k (zlen msg <=? plen) ++ firstn (Z.to_nat plen) msg)
      :: frags fuel' ver src dest to tag mtu (k + 1) (skipn (Z.to_nat plen) msg)
  end end.

Definition setc {B} (w : world B) (cs : list mctx) : world B := set_m w (set_ctxs (w_m w) cs).

(** Events of the transmit side. *)
Definition tx_ev (e : event) : Prop :=
  match e with
  | EvRx _ _ _ _ | EvCtrl _ _ _ _ _ | EvMsg _ _ _ _ _ _ | EvBusRx _ _ _ _ | EvRet _
  | EvAttach _ _ | EvDetach => False
  | EvCapture out _ => out = true
  | _ => True
  end.

Section Rel.
Context {B : Type} (strict : strictness).
Notation world := (world B).
Notation enqs := (enqs strict).
Notation txs := (txs strict).
Notation steps := (steps strict).

Definition mtu_of (w : world) (i : bool) : Z := MCTP_BODY_SIZE (bd_pkt_size (bnd w i)).

(** A message is queued on bus [i] and the queue is then worked off. *)
Inductive msg_rel (w : world) (i : bool) (src dest : Z) (to : bool) (tag : Z) (msg : list Z)
  : list event -> world -> Prop :=
| MsgRel b t1 w1 t2 w' :
    bget w i = Some b -> bus_st b <> Constructed -> Z.land tag 7 = tag ->
    enqs i w (frags (length msg) (bd_version (bnd w i)) src dest to tag (mtu_of w i) 0 msg) t1 w1 ->
    txs i w1 t2 w' ->
    msg_rel w i src dest to tag msg (t1 ++ t2) w'.

Inductive on_bus_rel (w : world) (i : bool) (src dest : Z) (to : bool) (tag : Z) (msg : list Z)
  : Z -> list event -> world -> Prop :=
| OnBusDown b : bget w i = Some b -> bus_st b = Constructed ->
    on_bus_rel w i src dest to tag msg (- ENXIO) [] w
| OnBusTag b : bget w i = Some b -> bus_st b <> Constructed -> Z.land tag 7 <> tag ->
    on_bus_rel w i src dest to tag msg (- EINVAL) [] w
| OnBusOk t w' : msg_rel w i src dest to tag msg t w' ->
    on_bus_rel w i src dest to tag msg 0 t w'.

Inductive message_rel (w : world) (eid : Z) (to : bool) (tag : Z) (msg : list Z)
  : Z -> list event -> world -> Prop :=
| MessageTag : Z.land tag 7 <> tag -> message_rel w eid to tag msg (- EINVAL) [] w
| MessageBus b rc t w' : Z.land tag 7 = tag -> bget w false = Some b ->
    on_bus_rel w false (bus_eid b) eid to tag msg rc t w' ->
    message_rel w eid to tag msg rc t w'.

Inductive set_rel (w : world) (i : bool) : bool -> list event -> world -> Prop :=
| SetSame b en : bget w i = Some b ->
    (bus_st b = Constructed /\ (en = false \/ bd_pkt_size (bnd w i) < 68))
    \/ (bus_st b = TxEnabled /\ en = true) \/ (bus_st b = TxDisabled /\ en = false) ->
    set_rel w i en [EvSetTx i en] w
| SetFirst b : bget w i = Some b -> bus_st b = Constructed -> 68 <= bd_pkt_size (bnd w i) ->
    upto strict (bd_pkt_size (bnd w i)) ->
    set_rel w i true [EvSetTx i true] (set_bus w i (set_st b TxEnabled))
| SetOff b : bget w i = Some b -> bus_st b = TxEnabled ->
    set_rel w i false [EvSetTx i false] (set_bus w i (set_st b TxDisabled))
| SetOn b t w' : bget w i = Some b -> bus_st b = TxDisabled ->
    txs i (set_bus w i (set_st b TxEnabled)) t w' ->
    set_rel w i true (EvSetTx i true :: t) w'.

(** A sequence of mctp_message_tx calls, results ignored. *)
Inductive msgs_rel : world -> list txreq -> list event -> world -> Prop :=
| MsgsNil w : msgs_rel w [] [] w
| MsgsCons w r rs rc t1 w1 t2 w2 :
    message_rel w (r_eid r) (r_to r) (r_tag r) (r_msg r) rc t1 w1 -> msgs_rel w1 rs t2 w2 ->
    msgs_rel w (r :: rs) (t1 ++ t2) w2.

(** The application's reaction to a callback. *)
Context (appl : event -> list txreq).

Definition local_event (w : world) (i : bool) (src : Z) (to : bool) (tag : Z) (msg : list Z)
  : option event :=
  if (4 <=? zlen msg) && ctrl_is_request msg && ctrl_is_transport msg && bd_ctrl (bnd w i)
  then Some (EvCtrl i src (negb (tag =? 0)) (if to then 1 else 0) msg)
  else if m_rx (w_m w) then Some (EvRx src to tag msg) else None.

Inductive route_rel (w : world) (i : bool) (src dest : Z) (to : bool) (tag : Z) (msg : list Z)
  : list event -> world -> Prop :=
| RtDrop b : bget w i = Some b -> m_policy (w_m w) = RouteEndpoint ->
    dest_is_local b dest = false \/ local_event w i src to tag msg = None ->
    route_rel w i src dest to tag msg [EvMsg i src dest to tag msg] w
| RtLocal b e t w' : bget w i = Some b -> m_policy (w_m w) = RouteEndpoint ->
    dest_is_local b dest = true -> local_event w i src to tag msg = Some e ->
    msgs_rel w (appl e) t w' ->
    route_rel w i src dest to tag msg (EvMsg i src dest to tag msg :: e :: t) w'
| RtBridge rc t w' : m_policy (w_m w) = RouteBridge ->
    on_bus_rel w (negb i) src dest to tag msg rc t w' ->
    route_rel w i src dest to tag msg (EvMsg i src dest to tag msg :: t) w'.

(** The part of packet reception after the size check and capture. *)
Inductive rx_body_rel (w : world) (i : bool) (bytes : list Z) : list event -> world -> Prop :=
| RxForeign b : bget w i = Some b -> m_policy (w_m w) = RouteEndpoint ->
    dest_is_local b (p_dest bytes) = false ->
    rx_body_rel w i bytes [] w
| RxHeld b cs : bget w i = Some b ->
    m_policy (w_m w) = RouteBridge \/ dest_is_local b (p_dest bytes) = true ->
    rx_pure (m_ctxs (w_m w)) (m_max (w_m w)) bytes = (cs, None) ->
    rx_body_rel w i bytes [] (setc w cs)
| RxDone b cs s d m t w' : bget w i = Some b ->
    m_policy (w_m w) = RouteBridge \/ dest_is_local b (p_dest bytes) = true ->
    rx_pure (m_ctxs (w_m w)) (m_max (w_m w)) bytes = (cs, Some (s, d, m)) ->
    route_rel (setc w cs) i s d (p_to bytes) (p_tag bytes) m t w' ->
    rx_body_rel w i bytes t w'.

Definition busrx_local (w : world) (b : bus) : option Z :=
  match m_policy (w_m w) with RouteEndpoint => Some (bus_eid b) | RouteBridge => None end.

Inductive rx_rel (w : world) (i : bool) (id : Z) (bytes : list Z) : list event -> world -> Prop :=
| RxShort b : bget w i = Some b -> zlen bytes <= 4 ->
    rx_rel w i id bytes [EvBusRx i (busrx_local w b) id bytes; EvFree id] w
| RxPkt b t w' : bget w i = Some b -> 4 < zlen bytes ->
    rx_body_rel w i bytes t w' ->
    rx_rel w i id bytes
      (EvBusRx i (busrx_local w b) id bytes :: capev w false bytes ++ t ++ [EvFree id]) w'.

(** ** The contexts do not influence the steps *)

Lemma bget_setc (w : world) cs i : bget (setc w cs) i = bget w i.
Proof. reflexivity. Qed.
Lemma set_bus_setc (w : world) cs i b : set_bus (setc w cs) i b = setc (set_bus w i b) cs.
Proof. unfold set_bus, setc; cbn. destruct (m_busses (w_m w)); reflexivity. Qed.
Lemma set_bnd_setc (w : world) cs i b : set_bnd (setc w cs) i b = setc (set_bnd w i b) cs.
Proof. destruct i; reflexivity. Qed.

Lemma enq_setc i (w : world) bs t w' cs :
  enq_step strict i w bs t w' -> enq_step strict i (setc w cs) bs t (setc w' cs).
Proof.
  destruct 1 as [b p Hb Hst Hid Hby Hq]. rewrite <- set_bus_setc.
  exact (EnqStep strict i (setc w cs) bs b p Hb Hst Hid Hby Hq).
Qed.

Lemma tx_setc i (w : world) rc t w' cs :
  tx_step strict i w rc t w' -> tx_step strict i (setc w cs) rc t (setc w' cs).
Proof.
  destruct 1 as [b p q p' b' rc dis bytes io Hb Hst Hqu Hby Hio Hid Hq].
  rewrite <- set_bus_setc, <- set_bnd_setc.
  exact (TxStep strict i (setc w cs) b p q p' b' rc dis bytes io Hb Hst Hqu Hby Hio Hid Hq).
Qed.

Lemma enqs_setc i (w : world) l t w' cs : enqs i w l t w' -> enqs i (setc w cs) l t (setc w' cs).
Proof. induction 1; econstructor; eauto using enq_setc. Qed.
Lemma txs_setc i (w : world) t w' cs : txs i w t w' -> txs i (setc w cs) t (setc w' cs).
Proof.
  induction 1; [eapply TxsStop; eauto|eapply TxsRefused; eauto using tx_setc
               |eapply TxsMore; eauto using tx_setc].
Qed.
Lemma steps_setc (w : world) t w' cs : steps w t w' -> steps (setc w cs) t (setc w' cs).
Proof.
  induction 1; [constructor|constructor; assumption|eapply StEnq; eauto using enq_setc
               |eapply StTx; eauto using tx_setc].
Qed.
Lemma msg_rel_setc (w : world) i s d to tag m t w' cs :
  msg_rel w i s d to tag m t w' -> msg_rel (setc w cs) i s d to tag m t (setc w' cs).
Proof.
  destruct 1. eapply MsgRel; [eassumption|eassumption|assumption| |eapply txs_setc; eassumption].
  eapply enqs_setc; eassumption.
Qed.
Lemma on_bus_rel_setc (w : world) i s d to tag m rc t w' cs :
  on_bus_rel w i s d to tag m rc t w' -> on_bus_rel (setc w cs) i s d to tag m rc t (setc w' cs).
Proof.
  destruct 1; [eapply OnBusDown; eassumption|eapply OnBusTag; eassumption|].
  apply OnBusOk. now apply msg_rel_setc.
Qed.
Lemma message_rel_setc (w : world) e to tag m rc t w' cs :
  message_rel w e to tag m rc t w' -> message_rel (setc w cs) e to tag m rc t (setc w' cs).
Proof.
  destruct 1; [now apply MessageTag|]. eapply MessageBus; [assumption|eassumption|].
  now apply on_bus_rel_setc.
Qed.
Lemma msgs_rel_setc (w : world) l t w' cs :
  msgs_rel w l t w' -> msgs_rel (setc w cs) l t (setc w' cs).
Proof. induction 1; econstructor; eauto using message_rel_setc. Qed.
Lemma route_rel_setc (w : world) i s d to tag m t w' cs :
  route_rel w i s d to tag m t w' -> route_rel (setc w cs) i s d to tag m t (setc w' cs).
Proof.
  destruct 1.
  - eapply RtDrop; eassumption.
  - eapply RtLocal; try eassumption. now apply msgs_rel_setc.
  - eapply RtBridge; [eassumption|]. eapply on_bus_rel_setc; eassumption.
Qed.

Lemma setc_setc (w : world) a b : setc (setc w a) b = setc w b.
Proof. reflexivity. Qed.
Lemma setc_id (w : world) : setc w (m_ctxs (w_m w)) = w.
Proof. destruct w as [m ? ?]; destruct m; reflexivity. Qed.

(** Transmission causes transmit events only. *)
Lemma tx_step_ev i (w : world) rc t w' : tx_step strict i w rc t w' -> Forall tx_ev t.
Proof.
  destruct 1 as [b p q p' b' rc dis bytes io Hb Hst Hqu Hby Hio Hid Hq].
  repeat (apply Forall_app; split); unfold capev.
  - destruct (m_cap (w_m w)); repeat constructor.
  - constructor; [exact I|]. apply Forall_app; split.
    + eapply Forall_impl; [|exact Hio]. intros e; destruct e; cbn; tauto.
    + apply Forall_app; split; [destruct dis; repeat constructor|].
      constructor; [exact I|]. destruct (final rc); repeat constructor.
Qed.
Lemma enqs_ev i (w : world) l t w' : enqs i w l t w' -> Forall tx_ev t.
Proof.
  induction 1 as [|w bs t1 w1 l t2 w2 H1 H2 IH]; [constructor|]. apply Forall_app. split; [|exact IH].
  destruct H1. repeat constructor.
Qed.
Lemma txs_ev i (w : world) t w' : txs i w t w' -> Forall tx_ev t.
Proof.
  induction 1; [constructor|eapply tx_step_ev; eassumption|]. apply Forall_app.
  split; [eapply tx_step_ev; eassumption|assumption].
Qed.
Lemma on_bus_ev (w : world) i s d to tag m rc t w' :
  on_bus_rel w i s d to tag m rc t w' -> Forall tx_ev t.
Proof.
  destruct 1 as [| |t w' H]; [constructor|constructor|]. destruct H. apply Forall_app.
  split; [eapply enqs_ev; eassumption|eapply txs_ev; eassumption].
Qed.
Lemma message_ev (w : world) e to tag m rc t w' : message_rel w e to tag m rc t w' -> Forall tx_ev t.
Proof. destruct 1; [constructor|]. eapply on_bus_ev; eassumption. Qed.

(** Everything is made of steps. *)
Lemma msg_rel_steps (w : world) i s d to tag m t w' : msg_rel w i s d to tag m t w' -> steps w t w'.
Proof.
  destruct 1. eapply steps_app; [eapply enqs_steps; eassumption|eapply txs_steps; eassumption].
Qed.
Lemma on_bus_rel_steps (w : world) i s d to tag m rc t w' :
  on_bus_rel w i s d to tag m rc t w' -> steps w t w'.
Proof. destruct 1; [constructor|constructor|]. eapply msg_rel_steps; eassumption. Qed.
Lemma message_rel_steps (w : world) e to tag m rc t w' : message_rel w e to tag m rc t w' -> steps w t w'.
Proof. destruct 1; [constructor|]. eapply on_bus_rel_steps; eassumption. Qed.
Lemma msgs_rel_steps (w : world) l t w' : msgs_rel w l t w' -> steps w t w'.
Proof.
  induction 1; [constructor|]. eapply steps_app; [eapply message_rel_steps; eassumption|assumption].
Qed.
Lemma msgs_ev (w : world) l t w' : msgs_rel w l t w' -> Forall tx_ev t.
Proof.
  induction 1; [constructor|]. apply Forall_app. split; [eapply message_ev; eassumption|assumption].
Qed.
Lemma local_event_note (w : world) i s to tag m e : local_event w i s to tag m = Some e -> note_ev e.
Proof.
  unfold local_event. destruct (_ && _); [|destruct (m_rx _)]; intros [= <-]; exact I.
Qed.
Lemma route_rel_steps (w : world) i s d to tag m t w' : route_rel w i s d to tag m t w' -> steps w t w'.
Proof.
  destruct 1.
  - apply StNote; [exact I|constructor].
  - apply StNote; [exact I|]. apply StNote; [eapply local_event_note; eassumption|eapply msgs_rel_steps; eassumption].
  - apply StNote; [exact I|]. eapply on_bus_rel_steps; eassumption.
Qed.
Lemma capev_steps (w : world) out bytes t w' : steps w t w' -> steps w (capev w out bytes ++ t) w'.
Proof.
  unfold capev. destruct (m_cap (w_m w)); [|exact (fun x => x)].
  intros. apply StNote; [exact I|assumption].
Qed.
(** A reception consists of a change of the contexts and steps. *)
Lemma rx_body_steps (w : world) i bytes t w' : rx_body_rel w i bytes t w' ->
  exists cs, steps (setc w cs) t w'.
Proof.
  destruct 1.
  - exists (m_ctxs (w_m w)). rewrite setc_id. constructor.
  - eexists. constructor.
  - eexists. eapply route_rel_steps; eassumption.
Qed.

End Rel.
