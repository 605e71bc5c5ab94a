(** ExamplesDuo: concrete schedules of the two sides; C54. *)
From Verif Require Import Base Lists Prog PktBuf Core WP Walk CoreRel WalkCore CoreHist Crc Astlpc SpecAst AstBasic
  CrcSpan AstWalk PropAst AstDown Concrete TwoParty DuoInv DuoWalk PropDuo Spec SpecDuo PropDuoMsg.

(** The step of side [s], if it has one left. *)
Definition turn (s : bool) (d : duo) : duo :=
  match advance s (d_sh d) (d_prog d s) with
  | Some (sh, p, t) => mkDuo sh (upd (d_prog d) s p) (upd (d_tr d) s (d_tr d s ++ t))
  | None => d
  end.
Fixpoint play (l : list bool) (d : duo) : duo :=
  match l with [] => d | s :: t => play t (turn s d) end.
Definition many (n : nat) (s : bool) : list bool := repeat s n.

Lemma runs_trans d1 d2 d3 : runs d1 d2 -> runs d2 d3 -> runs d1 d3.
Proof. intros H H'. induction H' as [d|s d a b H1 IH H2]; [exact H|]. eapply RunStep; [exact (IH H)|exact H2]. Qed.

Lemma turn_runs s d : runs d (turn s d).
Proof.
  unfold turn. destruct (advance s (d_sh d) (d_prog d s)) as [[[sh p] t]|] eqn:E; [|apply RunRefl].
  eapply RunStep; [apply RunRefl|]. exists sh, p, t. split; [exact E|reflexivity].
Qed.
Lemma play_runs l : forall d, runs d (play l d).
Proof. induction l as [|s l IH]; intros d; [apply RunRefl|]. eapply runs_trans; [apply turn_runs|apply IH]. Qed.

(** One call of side [s], from beginning to end. *)
Definition returns (tr : list event) : nat :=
  length (filter (fun e => match e with EvRet _ => true | _ => false end) tr).
Fixpoint until (fuel : nat) (s : bool) (n : nat) (d : duo) : duo :=
  match fuel with
  | O => d
  | S f => if Nat.leb n (returns (d_tr d s)) then d else until f s n (turn s d)
  end.
Definition call (s : bool) (d : duo) : duo := until (40 * 50) s (S (returns (d_tr d s))) d.
Fixpoint calls (l : list bool) (d : duo) : duo :=
  match l with [] => d | s :: t => calls t (call s d) end.

Lemma until_runs f s n : forall d, runs d (until f s n d).
Proof.
  induction f as [|f IH]; intros d; cbn [until]; [apply RunRefl|].
  destruct (Nat.leb n (returns (d_tr d s))); [apply RunRefl|]. eapply runs_trans; [apply turn_runs|apply IH].
Qed.
Lemma calls_runs l : forall d, runs d (calls l d).
Proof. induction l as [|s l IH]; intros d; [apply RunRefl|]. eapply runs_trans; [apply until_runs|apply IH]. Qed.

Definition poll1 : aop := APoll false.
Definition tx1 (eid : Z) (msg : list Z) : aop := ACore (OpTx eid true 1 msg).

(** Both sides poll; the host sends a message of two packets, the BMC's application echoes. *)
Definition pair (b h : party) (s : bool) : party := if s then b else h.
Definition d0 (p : bool -> party) : duo := duo_start p 0 0 (fun _ => 0).

Definition msg66 : list Z := map Z.of_nat (seq 1 66).
Definition two : bool -> party :=
  pair (mkParty echo 200 8 [ACore (OpSetRx true); poll1; poll1; poll1; poll1; poll1; poll1])
       (mkParty no_app 64 9 [ACore (OpSetRx true); poll1; tx1 8 msg66; poll1; poll1; poll1; poll1]).
Definition d1 : duo :=
  calls [true; false; true; false; false; true; false; true; false; true; false; true; false; true] (d0 two).

Lemma two_ok : (forall s, Forall ast_traffic (p_calls (two s))) /\ usable_mtu (p_mtu (two true)) /\ compatible two.
Proof.
  split; [|split].
  - intros [|]; cbn; repeat constructor; cbn; lia.
  - right. cbn. lia.
  - unfold compatible. cbn. lia.
Qed.

Lemma calls_reach p l : (forall s, Forall ast_traffic (p_calls (p s))) -> usable_mtu (p_mtu (p true)) ->
  duo_reach p (calls l (d0 p)).
Proof. intros H1 H2. split; [exact H1|]. split; [exact H2|]. exists 0, 0, (fun _ => 0). apply calls_runs. Qed.

Definition messages (tr : list event) : list (list Z) :=
  flat_map (fun e => match e with EvRx _ _ _ m => [m] | _ => [] end) tr.

(** A message of 66 bytes goes to the BMC in two packets and comes back; at the end both
    sides have returned from all calls. *)
Example C38_example : duo_reach two d1 /\ compatible two /\
  messages (d_tr d1 true) = [msg66] /\ messages (d_tr d1 false) = [msg66] /\
  zlen (offered (d_tr d1 false)) = 2 /\ zlen (received (d_tr d1 true)) = 2 /\
  (exists w b, d_prog d1 true = Ret w /\ bget w false = Some b /\ bus_st b = TxEnabled) /\
  (exists w b, d_prog d1 false = Ret w /\ bget w false = Some b /\ bus_st b = TxEnabled).
Proof.
  destruct two_ok as (H1 & H2 & H3). split; [exact (calls_reach two _ H1 H2)|]. split; [exact H3|].
  split; [vm_compute; reflexivity|]. split; [vm_compute; reflexivity|].
  split; [vm_compute; reflexivity|]. split; [vm_compute; reflexivity|]. split; vm_compute; eauto.
Qed.

(** In the middle of a hand-over the packet is in the buffer and not yet received. *)
Definition d2 : duo := calls [true; false; true; false; false] (d0 two).
Example C38_in_flight : duo_reach two d2 /\ compatible two /\
  zlen (offered (d_tr d2 false)) = 1 /\ received (d_tr d2 true) = [] /\
  unread false (s_kcs (d_sh d2)) = Some 1.
Proof.
  destruct two_ok as (H1 & H2 & H3). split; [exact (calls_reach two _ H1 H2)|]. split; [exact H3|].
  repeat split; vm_compute; reflexivity.
Qed.

(** The hypotheses of C56 hold of the exchange above, in both directions; in [d2] the
    message has been sent and not yet heard. *)
Example C56_example : (forall s, listening (p_calls (two s))) /\ p_mtu (two false) <= 4096 /\ (forall s, p_eid (two s) <> 0) /\
  (forall s, Forall (fun r => zlen (r_msg r) <= 65536) (said_by two d1 s)) /\
  due two d1 false = [(9, true, 1, msg66)] /\ heard (d_tr d1 true) = [(9, true, 1, msg66)] /\
  due two d1 true = heard (d_tr d1 false) /\ zlen (heard (d_tr d1 false)) = 1 /\
  (exists w, d_prog d1 true = Ret w /\ queued w false = []) /\ (exists w, d_prog d1 false = Ret w /\ queued w false = []) /\
  (forall s, offered (d_tr d1 s) = received (d_tr d1 (negb s))) /\
  due two d2 false = [(9, true, 1, msg66)] /\ heard (d_tr d2 true) = [].
Proof.
  split; [intros [|]; eexists; (split; [reflexivity|]); repeat constructor|].
  split; [cbn; lia|]. split; [intros [|]; cbn; lia|].
  split.
  { intros s. assert (forallb (fun r => zlen (r_msg r) <=? 65536) (said_by two d1 s) = true) as H
      by (destruct s; vm_compute; reflexivity).
    rewrite forallb_forall in H. apply Forall_forall. intros r Hr. specialize (H r Hr). lia. }
  split; [vm_compute; reflexivity|]. split; [vm_compute; reflexivity|]. split; [vm_compute; reflexivity|].
  split; [vm_compute; reflexivity|].
  assert (forall pr : prog (world astlpc),
    match pr with Ret w => match queued w false with [] => true | _ => false end | _ => false end = true ->
    exists w, pr = Ret w /\ queued w false = []) as Hq.
  { intros [w| | | | | | | |] H; try discriminate. exists w. split; [reflexivity|]. now destruct (queued w false). }
  split; [apply Hq; vm_compute; reflexivity|]. split; [apply Hq; vm_compute; reflexivity|].
  split; [intros [|]; vm_compute; reflexivity|]. split; vm_compute; reflexivity.
Qed.
