(** ExamplesCore: concrete cases that meet the hypotheses of the core theorems
    (C01-C20) and exercise their conclusions. *)
From Coq Require Import Permutation.
From Verif Require Import Base Lists Prog PktBuf Core WP Walk CoreRel WalkCore CoreHist Spec SpecRx
  Trace PropTx PropMsg Reasm PropRx PropRound PropBridge PropLife Concrete Refute.

(** A node whose binding is busy twice, an application that answers every message. *)
Definition busy_node (l : list (@op nat)) : prog (world nat) :=
  history busy_first ok_start echo (Endpoint 8) (plain_binding 2%nat) (plain_binding 0%nat) l.
Definition busy_history : list (@op nat) :=
  [OpSetRx true; OpSetCapture true; OpSetTx false true;
   OpTx 9 true 3 (repeat 7 200);                       (* 4 packets; the binding is busy *)
   OpSetTx false true;                                 (* retry: busy again *)
   rx (packet 8 9 true true 0 true 5 [126; 1; 2]);     (* answered by the application *)
   OpSetTx false true;                                 (* the queue drains *)
   OpTx 9 false 1 [1; 2; 3]; OpSetTx false false; OpTx 9 false 1 [4]].

(** C02, C03, C05, C09, C11, C13, C14, C20: the histories they quantify over include this one. *)
Example busy_history_legal :
  legal busy_first ok_start (Endpoint 8) (plain_binding 2%nat) (plain_binding 0%nat) busy_history.
Proof.
  apply legal_intro; [apply busy_first_polite|apply ok_start_starts|apply plain_dims|apply plain_dims|].
  repeat (apply Forall_cons; [cbn; try exact I; try discriminate; try (split; [discriminate|apply pkt_wf; vm_compute; reflexivity])|]).
  constructor.
Qed.

(** ... and in it packets are retried, settled in order and left queued, and a message is delivered
    and answered. *)
Example busy_history_run : can_finish no_oom (busy_node busy_history) (fun w tr =>
  map fst (enqueued false tr) = [0; 1; 2; 3; 5; 6; 7] /\ map fst (settled false tr) = [0; 1; 2; 3; 5; 6] /\
  map fst (queued w false) = [7] /\ In (EvRx 9 true 5 [126; 1; 2]) tr /\
  length (filter (fun e => match e with EvTxRet _ 0 _ rc => rc =? - EBUSY | _ => false end) tr) = 2%nat).
Proof.
  exists calm. do 3 eexists. split; [apply calm_no_oom|]. split; [vm_compute; reflexivity|].
  vm_compute. intuition.
Qed.

(** C01, C04, C19: a reachable state with an enabled bus and something queued; and one never enabled. *)
Example enabled_reachable : exists w tr,
  reaches accept ok_start no_app (Endpoint 8) (plain_binding tt) (plain_binding tt) w tr /\
  bus_state_of w false = Some TxDisabled /\ length (queued w false) = 4%nat.
Proof.
  do 2 eexists. split; [exists [OpSetTx false true; OpSetTx false false; OpTx 9 true 3 (repeat 7 200)], calm; eexists|].
  - split; [apply legal_node_intro; traffics|]. split; [apply calm_no_oom|]. vm_compute. reflexivity.
  - vm_compute. auto.
Qed.
Example constructed_reachable : exists w tr,
  reaches accept ok_start no_app (Endpoint 8) (plain_binding tt) (plain_binding tt) w tr /\
  bus_state_of w false = Some Constructed.
Proof.
  do 2 eexists. split; [exists [], calm; eexists|].
  - split; [apply legal_node_intro; constructor|]. split; [apply calm_no_oom|]. vm_compute. reflexivity.
  - reflexivity.
Qed.

(** C07: two partial messages at once. *)
Example partials_reachable : exists w tr,
  reaches accept ok_start no_app (Endpoint 8) (plain_binding tt) (plain_binding tt) w tr /\
  partials w = [((9, 8, 0), [1; 2]); ((10, 8, 0), [3; 4; 5; 6])].
Proof.
  do 2 eexists. split; [exists
    [rx (packet 8 9 true false 0 true 0 [1; 2]); rx (packet 8 10 true false 2 true 0 [3; 4]);
     rx (packet 8 10 false false 3 true 0 [5; 6])], calm; eexists|].
  - split; [apply legal_node_intro; repeat (apply Forall_cons; [apply traffic_rx; vm_compute; reflexivity|]); constructor|].
    split; [apply calm_no_oom|]. vm_compute. reflexivity.
  - vm_compute. reflexivity.
Qed.

(** C08: a packet that is not for us. *)
Example foreign_packet : let bs := packet 77 9 true true 0 true 0 [1; 2] in
  taken (Some 8) bs = false /\ wf_pkt (pkt bs) /\ pkt_is (pkt bs) bs.
Proof. split; [reflexivity|]. split; [apply pkt_wf|apply pkt_pkt_is]; vm_compute; reflexivity. Qed.

(** C09: both handlers occur. *)
Example dispatch_both : can_finish no_oom
  (node [OpSetRx true; rx control_request; rx (packet 8 9 true true 0 true 3 [0; 0; 240; 1])])
  (fun w tr => filter is_callback tr = [EvCtrl false 9 true 1 [0; 128; 240; 1]; EvRx 9 true 3 [0; 0; 240; 1]]).
Proof.
  exists calm. do 3 eexists. split; [apply calm_no_oom|]. split; vm_compute; reflexivity.
Qed.

(** C06, C12: 130 bytes in three packets of 64, interleaved with a packet of another message. *)
Definition three : list (list Z) := frags 130 1 9 8 true 5 64 0 (repeat 11 130).
Definition interleaved : list (@op unit) :=
  [rx (nth 0 three []); rx (packet 8 10 true false 2 true 5 [3; 4]); rx (nth 1 three []);
   OpTx 9 false 0 [1]; rx (nth 2 three [])].
Example C06_hypotheses : exists w tr,
  packetised 1 9 8 true 5 64 (repeat 11 130) three /\
  reaches_by (fun past => limited (fun n bs => n = 4096 * 2 ^ 4 /\ zlen bs <= 4100) 65536 (past ++ interleaved))
    accept ok_start no_app (Endpoint 8) (plain_binding tt) (plain_binding tt) w tr /\
  Forall (traffic (Endpoint 8)) interleaved /\ no_config interleaved /\
  packets_for (Some 8) (9, 8, 5) interleaved = three /\ length three = 3%nat /\
  room w (9, 8, 5) /\ m_rx (w_m w) = true /\
  (forall j, bd_ctrl (bnd w j) && transport_request (repeat 11 130) = false).
Proof.
  do 2 eexists. split; [apply (frags_packetised 1 9 8 true 5 64 (repeat 11 130)); lia|].
  split; [exists [OpSetRx true; rx (packet 8 9 true true 0 true 3 [1; 2; 3])], calm; eexists|].
  - split; [apply legal_node_intro; repeat (apply Forall_cons; [exact I || (apply traffic_rx; vm_compute; reflexivity)|]); constructor|].
    split; [|split; [apply calm_no_oom|vm_compute; reflexivity]].
    unfold interleaved, rx. cbn [app limited].
    repeat match goal with
    | |- _ /\ _ => split
    | |- True => exact I
    | |- forall bs, pkt_is _ _ -> _ => let Hb := fresh in intros bs Hb; revert Hb; vm_compute; intros [= <-]; split; [reflexivity|discriminate]
    end.
  - split; [unfold interleaved; repeat (apply Forall_cons; [exact I || (apply traffic_rx; vm_compute; reflexivity)|]); constructor|].
    split; [repeat constructor|]. split; [vm_compute; reflexivity|]. split; [reflexivity|].
    split; [right; vm_compute; lia|]. split; [vm_compute; reflexivity|]. intros [|]; vm_compute; reflexivity.
Qed.

(** C11: a history with a configured limit. *)
Example C11_hypotheses : @limited unit (fun n _ => n <= 8192) 65536
  [OpSetMax 8192; rx (packet 8 9 true false 0 true 0 [1; 2])] /\
  @limited unit (fun n _ => n < 4096) 65536 [OpSetMax 100; rx (packet 8 9 true false 0 true 0 [1; 2])].
Proof. cbn. split; (split; [intros; lia|exact I]). Qed.

(** C18: a bridge with both busses up forwards a two-packet message. *)
Definition bridge_history : list (@op unit) :=
  [OpSetTx false true; OpSetTx true true; rx (packet 99 9 true false 0 true 4 [1; 2])].
Example C18_hypotheses : exists w tr,
  reaches accept ok_start no_app Bridge (plain_binding tt) (plain_binding tt) w tr /\
  bus_state_of w true = Some TxEnabled /\
  can_finish no_oom (xop accept ok_start no_app w (rx (packet 99 9 false true 1 true 4 [3]))) (fun _ t =>
    map snd (enqueued true t) = [packet 99 9 true true 0 true 4 [1; 2; 3]]).
Proof.
  do 2 eexists. split; [exists bridge_history, calm; eexists|].
  - split.
    + apply legal_intro; [apply accept_polite|apply ok_start_starts|apply plain_dims|apply plain_dims|].
      apply Forall_cons; [discriminate|]. apply Forall_cons; [intros _; reflexivity|]. apply Forall_cons; [|constructor].
      split; [discriminate|]. apply pkt_wf. vm_compute. reflexivity.
    + split; [apply calm_no_oom|]. vm_compute. reflexivity.
  - split; [vm_compute; reflexivity|]. exists calm. do 3 eexists. split; [apply calm_no_oom|].
    split; vm_compute; reflexivity.
Qed.

(** C20: a binding whose start fails, then works. *)
Definition flaky_start : startfun nat := fun n => match n with O => (O, 0, true) | S n' => (n', -5, false) end.
Definition started {B} (x : B) : binding B := mkBinding 1 68 0 0 false true false x.
Example C20_failed_start_case :
  can_finish no_oom (xops busy_first flaky_start no_app (fresh (started 1%nat) (started 0%nat))
     [OpRegister 8; OpRegister 8; OpTx 9 true 0 [1]]) (fun w tr =>
     In (EvRet (-5)) tr /\ bus_state_of w false = Some TxEnabled /\ length (settled false tr) = 1%nat).
Proof.
  exists calm. do 3 eexists. split; [apply calm_no_oom|]. split; [vm_compute; reflexivity|]. vm_compute. auto 10.
Qed.
