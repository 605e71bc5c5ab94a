(** ExamplesStream: concrete cases that meet the hypotheses of C65 and C66. *)
From Verif Require Import Base Lists Prog PktBuf Core WP Walk CoreRel WalkCore CoreHist Spec SpecRx
  Trace PropTx PropMsg Reasm PropRx PropRound Crc Serial SpecSer SerRx SerWalk PropSer PropSerTx PropSerRound SpecDuo
  Concrete ExamplesSer PropSerStream Pipe PropPipe.

(** Endpoint 9 sends a message of three packets to 8, one to 20 and one to everyone. *)
Definition three : list txreq :=
  [mkReq 8 true 3 (flat_map (fun _ => [126; 1; 125]) (repeat tt 50)); mkReq 20 false 1 [7]; mkReq 255 true 0 [1; 2]].
Definition three_wire : list Z := Eval vm_compute in
  match run calm 0 [] (sexec 256 no_app (ser_booted (Endpoint 9)) (map say three)) with Done _ _ t => sent t | _ => [] end.

(** Endpoint 8 gets the bytes in three chunks and sends something itself in between. *)
Definition hearing : list sop := Eval cbv in
  [fd (firstn 100 three_wire); SCore (OpTx 9 true 1 [5]); fd (firstn 77 (skipn 100 three_wire)); fd (skipn 177 three_wire)].

Lemma all_bytes l : forallb (fun c => (0 <=? c) && (c <? 256)) l = true -> Forall is_byte l.
Proof.
  intros H. apply Forall_forall. intros c Hc. rewrite forallb_forall in H. specialize (H c Hc). unfold is_byte. lia.
Qed.

Example C65_hypotheses : exists ws trs x n ts w tr,
  Forall (fun r => 0 <= r_tag r <= 7 /\ zlen (r_msg r) <= 65536) three /\
  ser_reaches 256 no_app (Endpoint 9) ws trs /\ bus_state_of ws false = Some TxEnabled /\ queued ws false = [] /\
  run calm 0 [] (sexec 256 no_app ws (map say three)) = Done x n ts /\ writes_ok ts /\
  ser_reaches_by (fun past => ser_limited 65536 65536 (past ++ hearing)) 256 no_app (Endpoint 8) w tr /\
  idle w false /\ m_rx (w_m w) = true /\ partials w = [] /\
  Forall (ser_traffic (Endpoint 8)) hearing /\ ser_no_config hearing /\ fed false hearing ++ [] = sent ts /\
  Forall (Forall is_byte) [three_wire] /\ concat [three_wire] ++ [] = sent ts /\
  filter (meant_for 8) three = [mkReq 8 true 3 (flat_map (fun _ => [126; 1; 125]) (repeat tt 50)); mkReq 255 true 0 [1; 2]].
Proof.
  destruct (ser_reach_by_run (Endpoint 9) [] (fun w _ => bus_state_of w false = Some TxEnabled /\ queued w false = [] /\
     run_sat calm (sexec 256 no_app w (map say three)) (fun _ ts =>
        forallb (fun e => match e with EvSWrite _ r => 0 <? r | _ => true end) ts = true /\ sent ts = three_wire)))
    as (ws & trs & R1 & E1 & E2 & R2).
  { constructor. }
  { vm_compute. auto. }
  destruct (by_run_ex _ _ _ R2) as (x & n & ts & E3 & W & S).
  destruct (ser_reach_by_run_by (Endpoint 8) (fun past => ser_limited 65536 65536 (past ++ hearing)) [SCore (OpSetRx true)]
     (fun w _ => idle w false /\ m_rx (w_m w) = true /\ partials w = []))
    as (w & tr & R3 & E4 & E5 & E6).
  { ser_ops. }
  { cbv -[Z.eq]. repeat match goal with |- _ /\ _ => split end; exact I || reflexivity. }
  { vm_compute. repeat split; lia. }
  exists ws, trs, x, n, ts, w, tr.
  repeat match goal with |- _ /\ _ => split end; auto using ser_writes_ok.
  - unfold three. repeat (apply Forall_cons; [vm_compute; intuition discriminate|]). apply Forall_nil.
  - unfold hearing, fd. repeat (apply Forall_cons; [exact I || (split; [discriminate|apply all_bytes; vm_compute; reflexivity])|]). apply Forall_nil.
  - unfold hearing, fd, ser_no_config. repeat (apply Forall_cons; [exact I|]); apply Forall_nil.
  - apply Forall_cons; [|apply Forall_nil]. apply all_bytes. vm_compute. reflexivity.
Qed.
