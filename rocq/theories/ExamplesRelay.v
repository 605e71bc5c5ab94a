(** ExamplesRelay: concrete cases that meet the hypotheses of C88. *)
From Verif Require Import Base Lists Prog PktBuf Core WP Walk CoreRel WalkCore CoreHist Spec SpecRx
  Trace PropTx PropMsg Reasm PropRx PropRound Crc Serial SpecSer SerRx SerWalk PropSer PropSerTx PropSerRound SpecDuo
  Concrete ExamplesSer PropSerStream Pipe PropPipe ExamplesStream Relay PropRelay.

(** The bytes endpoint 9 writes ([three_wire]) reach line 0 of a bridge, all but the last ten of them;
    what that bridge writes reaches line 1 of another. *)
Definition cut : nat := (length three_wire - 10)%nat.
Definition leg1 : list sop := Eval cbv in
  [SRx false (firstn 100 three_wire); SRx false (skipn 100 (firstn cut three_wire))].
Definition mid_wire : list Z := Eval vm_compute in
  match run calm 0 [] (sexec 256 no_app (ser_booted Bridge) leg1) with Done _ _ t => sent t | _ => [] end.
Definition leg2 : list sop := Eval cbv in [SRx true (firstn 60 mid_wire); SRx true (skipn 60 mid_wire)].
Definition far_wire : list Z := Eval vm_compute in
  match run calm 0 [] (sexec 256 no_app (ser_booted Bridge) leg2) with Done _ _ t => sent t | _ => [] end.
Definition leg3 : list sop := Eval cbv in [SCore (OpTx 9 true 1 [5]); SRx false far_wire].

Definition written (t : list event) (bytes : list Z) : Prop :=
  forallb (fun e => match e with EvSWrite _ r => 0 <? r | _ => true end) t = true /\ sent t = bytes.

Example C88_hypotheses : exists whole w tr,
  conveyed 256 65536 9 three far_wire whole /\
  ser_reaches_by (fun past => ser_limited 65536 65536 (past ++ leg3)) 256 no_app (Endpoint 8) w tr /\
  idle w false /\ m_rx (w_m w) = true /\ partials w = [] /\
  Forall (ser_traffic (Endpoint 8)) leg3 /\ ser_no_config leg3 /\ fed false leg3 ++ [] = far_wire /\
  (150 < length far_wire)%nat /\
  run_sat calm (sexec 256 no_app w leg3) (fun _ t => heard t = map (as_heard 9) (firstn 1 three)).
Proof.
  destruct (ser_reach_by_run (Endpoint 9) [] (fun w _ => bus_state_of w false = Some TxEnabled /\ queued w false = [] /\
     run_sat calm (sexec 256 no_app w (map say three)) (fun _ ts => written ts three_wire)))
    as (ws & trs & R1 & E1 & E2 & R2).
  { constructor. }
  { vm_compute. auto. }
  destruct (by_run_ex _ _ _ R2) as (x & n & ts & E3 & W & S).
  assert (conveyed 256 65536 9 three three_wire True) as C1.
  { rewrite <- S. eapply ConvSent; [exact R1|exact E1|exact E2| |exact E3|now apply ser_writes_ok]. apply calm_no_oom. }
  destruct (ser_reach_by_run_by Bridge (fun past => ser_limited 65536 65536 (past ++ leg1)) []
     (fun w _ => idle w false /\ partials w = [] /\ bus_state_of w true = Some TxEnabled /\ queued w true = [] /\
       run_sat calm (sexec 256 no_app w leg1) (fun _ ts => written ts mid_wire)))
    as (wa & tra & A1 & A2 & A3 & A4 & A5 & A6).
  { constructor. }
  { cbv -[Z.eq]. repeat match goal with |- _ /\ _ => split end; exact I || reflexivity. }
  { vm_compute. repeat split; lia. }
  destruct (by_run_ex _ _ _ A6) as (xa & na & ta & A7 & Wa & Sa).
  assert (exists whole2, conveyed 256 65536 9 three mid_wire whole2) as (wh2 & C2).
  { eexists. rewrite <- Sa. eapply (ConvBridged _ _ _ _ _ _ _ false wa _ leg1 (skipn cut three_wire)).
    - exact C1.
    - exact A1.
    - exact A2.
    - exact A3.
    - exact A4.
    - exact A5.
    - unfold leg1. repeat (apply Forall_cons; [split; [discriminate|apply all_bytes; vm_compute; reflexivity]|]). apply Forall_nil.
    - intros o [<-|[<-|[]]]; eauto.
    - vm_compute. reflexivity.
    - apply calm_no_oom.
    - exact A7.
    - now apply ser_writes_ok. }
  destruct (ser_reach_by_run_by Bridge (fun past => ser_limited 65536 65536 (past ++ leg2)) []
     (fun w _ => idle w true /\ partials w = [] /\ bus_state_of w false = Some TxEnabled /\ queued w false = [] /\
       run_sat calm (sexec 256 no_app w leg2) (fun _ ts => written ts far_wire)))
    as (wb & trb & B1 & B2 & B3 & B4 & B5 & B6).
  { constructor. }
  { cbv -[Z.eq]. repeat match goal with |- _ /\ _ => split end; exact I || reflexivity. }
  { vm_compute. repeat split; lia. }
  destruct (by_run_ex _ _ _ B6) as (xb & nb & tb & B7 & Wb & Sb).
  assert (exists whole3, conveyed 256 65536 9 three far_wire whole3) as (wh3 & C3).
  { eexists. rewrite <- Sb. eapply (ConvBridged _ _ _ _ _ _ _ true wb _ leg2 []).
    - exact C2.
    - exact B1.
    - exact B2.
    - exact B3.
    - exact B4.
    - exact B5.
    - unfold leg2. repeat (apply Forall_cons; [split; [intros _; reflexivity|apply all_bytes; vm_compute; reflexivity]|]). apply Forall_nil.
    - intros o [<-|[<-|[]]]; eauto.
    - vm_compute. reflexivity.
    - apply calm_no_oom.
    - exact B7.
    - now apply ser_writes_ok. }
  destruct (ser_reach_by_run_by (Endpoint 8) (fun past => ser_limited 65536 65536 (past ++ leg3)) [SCore (OpSetRx true)]
     (fun w _ => idle w false /\ m_rx (w_m w) = true /\ partials w = [] /\
       run_sat calm (sexec 256 no_app w leg3) (fun _ t => heard t = map (as_heard 9) (firstn 1 three))))
    as (w & tr & R3 & E4 & E5 & E6 & E7).
  { ser_ops. }
  { cbv -[Z.eq]. repeat match goal with |- _ /\ _ => split end; exact I || reflexivity. }
  { vm_compute. repeat split; lia. }
  exists wh3, w, tr.
  repeat match goal with |- _ /\ _ => split end; auto.
  - unfold leg3. repeat (apply Forall_cons; [exact I || (split; [discriminate|apply all_bytes; vm_compute; reflexivity])|]). apply Forall_nil.
  - unfold leg3, ser_no_config. repeat (apply Forall_cons; [exact I|]); apply Forall_nil.
  - vm_compute. lia.
Qed.
