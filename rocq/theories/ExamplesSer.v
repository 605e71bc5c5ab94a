(** ExamplesSer: concrete cases that meet the hypotheses of the serial theorems
    (C22-C30) and exercise their conclusions. *)
From Verif Require Import Base Lists Prog PktBuf Core WP Walk CoreRel WalkCore CoreHist Spec SpecRx
  Trace PropTx PropMsg Reasm PropRx PropRound Crc Serial SpecSer SerRx SerWalk PropSer PropSerTx PropSerRound Concrete.

Ltac bytes := repeat (apply Forall_cons; [unfold is_byte; lia|]); apply Forall_nil.
Ltac ser_ops := repeat (apply Forall_cons; [exact I || (split; [discriminate|bytes]) || discriminate|]); apply Forall_nil.

(** A packet whose body needs escaping. *)
Definition tricky : list Z := packet 8 9 true true 0 true 3 [126; 125; 5; 94; 93].
Definition fd (bs : list Z) : sop := SRx false bs.

(** C22, C23, C24: an idle receiver is fed a frame in three chunks, after noise, with an
    operation of the application in between. *)
Definition tricky_wire : list Z := Eval vm_compute in wire tricky.
Definition framed : list sop := Eval cbv in
  [fd [1; 2; 3]; fd [126; 126]; SCore (OpTx 9 true 1 [5]); fd (skipn 1 tricky_wire)].
Example C22_case :
  clean (fed false framed) [tricky] /\ Forall (ser_traffic (Endpoint 8)) framed /\
  can_finish no_oom (ser_history 256 no_app (Endpoint 8) framed) (fun w tr => handed false tr = [tricky] /\ idle w false).
Proof.
  split; [|split].
  - replace (fed false framed) with ([1; 2; 3] ++ repeat 126 1 ++ wire tricky ++ []) by (vm_compute; reflexivity).
    apply ClFrame.
    + cbn. intuition discriminate.
    + exists (flat_map esc tricky), (fcs tricky / 256), (fcs tricky mod 256). split; [reflexivity|].
      split; [|split; [vm_compute; split; discriminate|rewrite Z.mul_comm; symmetry; apply Z.div_mod; discriminate]].
      apply unescaped_esc.
    + constructor. intros [].
  - unfold framed, fd. ser_ops.
  - apply (by_run _ calm); [apply calm_no_oom|]. vm_compute. auto.
Qed.

(** A reachable state, by computation. *)
Lemma ser_reach_by_run m l (Q : world serial -> list event -> Prop) :
  Forall (ser_traffic m) l -> run_sat calm (ser_history 256 no_app m l) Q ->
  exists w tr, ser_reaches 256 no_app m w tr /\ Q w tr.
Proof.
  intros Hl H. destruct (by_run_ex _ _ _ H) as (w & n & tr & E & HQ). exists w, tr. split; [|exact HQ].
  exists l, calm, n. split; [exact Hl|]. split; [apply calm_no_oom|exact E].
Qed.

(** The reachable state in which frames are received next. *)
Example C22_reachable : exists w tr, ser_reaches 256 no_app (Endpoint 8) w tr /\ idle w false.
Proof.
  apply (ser_reach_by_run _ framed); [unfold framed, fd; ser_ops|]. vm_compute. reflexivity.
Qed.

(** [Q] after one more step, by computation. *)
Definition step_sat (l : list sop) (Q : world serial -> list event -> Prop) (w : world serial) : Prop :=
  run_sat calm (sexec 256 no_app w l) Q.

(** C25: the bound 141 is sharp: after 140 bytes without 7E the receiver may still be
    in the middle of a frame. *)
Definition start68 : list sop := [fd [126]].
Definition noise140 : list Z := Eval cbv in [1; 68] ++ flat_map (fun _ => [125; 5]) (repeat tt 68) ++ [0; 0].
Theorem C25_sharp : exists w tr, ser_reaches 256 no_app (Endpoint 8) w tr /\
  zlen noise140 = 140 /\ ~ In 126 noise140 /\
  can_finish no_oom (sexec 256 no_app w [fd noise140]) (fun w' _ => ~ idle w' false).
Proof.
  destruct (ser_reach_by_run (Endpoint 8) start68 (fun w _ => step_sat [fd noise140] (fun w' _ => ~ idle w' false) w))
    as (w & tr & H1 & H2).
  - unfold start68, fd; ser_ops.
  - vm_compute. discriminate.
  - exists w, tr. split; [exact H1|]. split; [reflexivity|]. split; [vm_compute; intuition discriminate|].
    apply (by_run _ calm); [apply calm_no_oom|exact H2].
Qed.

(** C25_resync_then_frames: junk, then a frame. *)
Example C25_case : exists w tr, ser_reaches 256 no_app (Endpoint 8) w tr /\ ~ idle w false /\
  can_finish no_oom (sexec 256 no_app w [fd (noise140 ++ [1] ++ tricky_wire)]) (fun w' t =>
    handed false t = [tricky] /\ idle w' false).
Proof.
  destruct (ser_reach_by_run (Endpoint 8) start68 (fun w _ => ~ idle w false /\
     step_sat [fd (noise140 ++ [1] ++ tricky_wire)] (fun w' t => handed false t = [tricky] /\ idle w' false) w))
    as (w & tr & H1 & H2 & H3).
  - unfold start68, fd; ser_ops.
  - vm_compute. split; [discriminate|auto].
  - exists w, tr. split; [exact H1|]. split; [exact H2|].
    apply (by_run _ calm); [apply calm_no_oom|exact H3].
Qed.

(** C26: a frame whose check value is wrong. *)
Example C26_case : exists w tr, ser_reaches 256 no_app (Endpoint 8) w tr /\ idle w false /\
  Forall is_byte ([126; 1; 5] ++ [125; 94; 2; 3; 4; 5] ++ [0; 0; 126]) /\
  unescaped [125; 94; 2; 3; 4; 5] [126; 2; 3; 4; 5] /\ 0 * 256 + 0 <> fcs [126; 2; 3; 4; 5] /\
  can_finish no_oom (sexec 256 no_app w [fd ([126; 1; 5] ++ [125; 94; 2; 3; 4; 5] ++ [0; 0; 126])])
    (fun w' t => allocs t = [0] /\ frees t = [] /\ idle w' false).
Proof.
  destruct (ser_reach_by_run (Endpoint 8) [SCore (OpSetRx true)] (fun w _ => idle w false /\
     step_sat [fd ([126; 1; 5] ++ [125; 94; 2; 3; 4; 5] ++ [0; 0; 126])] (fun w' t => allocs t = [0] /\ frees t = [] /\ idle w' false) w))
    as (w & tr & H1 & H2 & H3).
  - ser_ops.
  - vm_compute. auto.
  - exists w, tr. split; [exact H1|]. split; [exact H2|]. split; [bytes|]. split; [apply (unescaped_esc [126; 2; 3; 4; 5])|].
    split; [vm_compute; discriminate|]. apply (by_run _ calm); [apply calm_no_oom|exact H3].
Qed.

(** C27: a packet, a write function that takes one byte at a time. *)
Example C27_case :
  wf_pkt (pkt tricky) /\ pktbuf_bytes (pkt tricky) = Some tricky /\ zlen tricky <= 68 /\
  can_finish no_oom (serial_tx 256 (mkSerial WaitSyncStart None 0 0 0) (pkt tricky)) (fun x tr =>
    snd (fst x) = 0 /\ length tr = 17%nat /\ sent tr = wire tricky).
Proof.
  split; [apply pkt_wf; vm_compute; reflexivity|]. split; [apply pkt_pkt_is; vm_compute; reflexivity|].
  split; [vm_compute; discriminate|]. apply (by_run _ calm); [apply calm_no_oom|]. vm_compute. auto.
Qed.

(** C28: 150 bytes over the wire, the receiver fed byte by byte with traffic of its own
    in between. *)
Definition sender_ops : list sop := [SCore (OpTx 9 true 1 [5])].
Definition recv_past : list sop := Eval cbv in [SCore (OpSetRx true); fd tricky_wire].
Definition big : list Z := Eval vm_compute in map Z.of_nat (seq 0 150).
Definition big_wire : list Z := Eval vm_compute in flat_map wire (frags 150 1 7 8 true 5 64 0 big).
Definition recv_now : list sop := Eval cbv in
  [SCore (OpTx 9 true 1 [5])] ++ map (fun c => fd [c]) (firstn 40 big_wire) ++ [SCore (OpTx 9 true 1 [6])] ++
  map (fun c => fd [c]) (skipn 40 big_wire).

Lemma ser_reach_by_run_by m (P : list sop -> Prop) l (Q : world serial -> list event -> Prop) :
  Forall (ser_traffic m) l -> P l -> run_sat calm (ser_history 256 no_app m l) Q ->
  exists w tr, ser_reaches_by P 256 no_app m w tr /\ Q w tr.
Proof.
  intros Hl HP H. destruct (by_run_ex _ _ _ H) as (w & n & tr & E & HQ). exists w, tr. split; [|exact HQ].
  exists l, calm, n. split; [exact Hl|]. split; [exact HP|]. split; [apply calm_no_oom|exact E].
Qed.
Lemma ser_writes_ok t : forallb (fun e => match e with EvSWrite _ r => 0 <? r | _ => true end) t = true -> writes_ok t.
Proof.
  intros H. apply Forall_forall. intros e He. rewrite forallb_forall in H. specialize (H e He).
  destruct e; try exact I. lia.
Qed.

Example C28_hypotheses : exists ws trs x n ts w tr,
  ser_reaches 256 no_app (Endpoint 7) ws trs /\
  bus_state_of ws false = Some TxEnabled /\ queued ws false = [] /\
  run calm 0 [] (message_tx (serial_tx 256) ws 8 true 5 big) = Done x n ts /\ writes_ok ts /\
  ser_reaches_by (fun past => ser_limited 65536 65536 (past ++ recv_now)) 256 no_app (Endpoint 8) w tr /\
  idle w false /\ m_rx (w_m w) = true /\ room w (7, 8, 5) /\
  Forall (ser_traffic (Endpoint 8)) recv_now /\ ser_no_config recv_now /\ fed false recv_now = sent ts.
Proof.
  destruct (ser_reach_by_run (Endpoint 7) sender_ops (fun w _ => bus_state_of w false = Some TxEnabled /\ queued w false = [] /\
     run_sat calm (message_tx (serial_tx 256) w 8 true 5 big) (fun _ ts =>
        forallb (fun e => match e with EvSWrite _ r => 0 <? r | _ => true end) ts = true /\ sent ts = big_wire)))
    as (ws & trs & R1 & E1 & E2 & R2).
  { unfold sender_ops. ser_ops. }
  { vm_compute. auto. }
  destruct (by_run_ex _ _ _ R2) as (x & n & ts & E3 & W & S).
  destruct (ser_reach_by_run_by (Endpoint 8) (fun past => ser_limited 65536 65536 (past ++ recv_now)) recv_past
     (fun w _ => idle w false /\ m_rx (w_m w) = true /\ (length (partials w) < 16)%nat))
    as (w & tr & R3 & E4 & E5 & E6).
  { unfold recv_past, fd. ser_ops. }
  { cbv -[Z.eq]. repeat match goal with |- _ /\ _ => split end; exact I || reflexivity. }
  { vm_compute. repeat split; lia. }
  exists ws, trs, x, n, ts, w, tr.
  repeat match goal with |- _ /\ _ => split end; auto using ser_writes_ok.
  - right. exact E6.
  - unfold recv_now, fd. ser_ops.
  - unfold recv_now, fd, ser_no_config. repeat (apply Forall_cons; [exact I|]); apply Forall_nil.
Qed.
