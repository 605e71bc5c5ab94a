(** ExamplesServe: concrete requests and answers; C67 does not hold with the sides swapped. *)
From Verif Require Import Base Lists Prog PktBuf Core CoreHist Spec Crc Astlpc SpecAst AstBasic PropAst Concrete TwoParty PropDuo
  SpecDuo PropDuoMsg ExamplesDuo SpecLive DuoLive PropLive ExamplesLive PropServe.

(** ** A host that serves *)

(** The host is the server, the BMC asks it twice. *)
Definition ph : bool -> party :=
  pair (mkParty no_app 64 8 [ACore (OpSetRx true); poll1; ACore (OpTx 9 true 5 [1; 2; 3]); ACore (OpTx 9 true 6 [1; 4]); poll1; poll1; poll1; poll1; poll1])
       (mkParty (server echo_daemon) 64 9 [ACore (OpSetRx true); poll1; poll1; poll1; poll1; poll1; poll1]).
(** The host's first poll has read the status when the BMC's brings the channel up (C54). *)
Definition dh : duo := calls [true; true; false; true; false; true; false; true; false; true]
   (call false (call true (turn false (call false (call true (d0 ph)))))).

Lemma ph_ok : (forall s, Forall ast_traffic (p_calls (ph s))) /\ usable_mtu (p_mtu (ph true)) /\ compatible ph.
Proof.
  split; [|split].
  - intros [|]; cbn; repeat constructor; cbn; lia.
  - right. cbn. lia.
  - unfold compatible. cbn. lia.
Qed.
Lemma dh_reach : duo_reach ph dh.
Proof.
  destruct ph_ok as (H1 & H2 & _). split; [exact H1|]. split; [exact H2|]. exists 0, 0, (fun _ => 0). unfold dh.
  eapply runs_trans; [|apply calls_runs]. do 2 (eapply runs_trans; [|apply until_runs]).
  eapply runs_trans; [|apply turn_runs]. do 2 (eapply runs_trans; [|apply until_runs]). apply RunRefl.
Qed.
Lemma echo_tags m : Forall (fun r => 0 <= r_tag r <= 7) (echo_daemon m).
Proof.
  destruct m as [[[src to] tag] [|[|[p|p|]|p] rest]]; cbn [echo_daemon]; repeat constructor; cbn [r_tag]; lia.
Qed.

(** With the host as the server the claim is false: the host's application hears both
    requests, but the answer to the first is refused (mctp_message_tx in the handler finds
    the bus not yet up: the poll enables it only after the packet has been handled,
    astlpc.c:1164-1250), and the BMC hears only the second answer. *)
Theorem C67_host_refuted : ~ serves_in_order false.
Proof.
  intros H. destruct ph_ok as (_ & _ & Hc).
  destruct (H echo_daemon ph dh) as (u & a & _ & E).
  - exact echo_tags.
  - exact dh_reach.
  - exact Hc.
  - cbn. lia.
  - intros [|]; cbn; lia.
  - reflexivity.
  - eexists. split; [reflexivity|]. repeat constructor.
  - eexists. split; [reflexivity|]. repeat constructor.
  - assert (forallb (fun r => zlen (r_msg r) <=? 65536) (said_by ph dh (negb false)) = true) as Hf by (vm_compute; reflexivity).
    rewrite forallb_forall in Hf. apply Forall_forall. intros r Hr. specialize (Hf r Hr). lia.
  - assert (heard (d_tr dh false) = [(8, true, 5, [1; 2; 3]); (8, true, 6, [1; 4])]) as -> by (vm_compute; reflexivity).
    repeat constructor; cbn; lia.
  - assert (heard (d_tr dh false) = [(8, true, 5, [1; 2; 3]); (8, true, 6, [1; 4])]) as E1 by (vm_compute; reflexivity).
    assert (heard (d_tr dh (negb false)) = [(9, false, 1, [2; 4])]) as E2 by (vm_compute; reflexivity).
    rewrite E1, E2 in E. vm_compute in E. discriminate E.
Qed.

(** ** A BMC that serves *)

(** utils/mctp-astlpc-daemon.c and a host that sends an echo request of two packets and
    another message, before and after the periods of C67. *)
Definition req66 : list Z := msg66.
Definition ps : bool -> party := pair (mkParty (server echo_daemon) 64 8 []) (mkParty no_app 64 9 []).
Definition s0 : sess := (ps, fin 2000 false (fin 2000 true (d0 ps))).
Definition s1 : sess :=
  make false (tx1 8 [5; 6]) (make false (tx1 8 req66)
    (round (round (make false (ACore (OpSetRx true)) (make true (ACore (OpSetRx true)) s0))))).
Definition s2 : sess := many_rounds 60 s1.
Definition s3 : sess := many_rounds 60 s2.

Lemma s1_session : session (fst s1) (snd s1).
Proof.
  exists ps, 0, 0, (fun _ => 0). split; [intros [|]; reflexivity|]. split; [right; cbn; lia|].
  unfold s1. eapply moves_trans; [|apply make_moves; exact I]. eapply moves_trans; [|apply make_moves; exact I].
  eapply moves_trans; [|apply round_moves]. eapply moves_trans; [|apply round_moves].
  eapply moves_trans; [|apply make_moves; exact I]. eapply moves_trans; [|apply make_moves; exact I].
  eapply moves_trans; apply fin_moves.
Qed.

Definition polls_after_setrx (l : list aop) : bool :=
  match l with
  | ACore (OpSetRx true) :: c => forallb (fun o => match o with APoll _ => true | _ => false end) c
  | _ => false
  end.
Lemma polls_serving l : polls_after_setrx l = true -> serving l.
Proof.
  destruct l as [|[o|] c]; try discriminate. destruct o as [| |[|]| | | | | | | | |]; try discriminate. cbn [polls_after_setrx]. intros H. exists c. split; [reflexivity|].
  rewrite forallb_forall in H. apply Forall_forall. intros o Ho. specialize (H o Ho). now destruct o.
Qed.
Definition quiet_calls (l : list aop) : bool :=
  match l with
  | ACore (OpSetRx true) :: c => forallb (fun o => match o with ACore (OpSetRx _) | ACore (OpSetMax _) => false | _ => true end) c
  | _ => false
  end.
Lemma quiet_listening l : quiet_calls l = true -> listening l.
Proof.
  destruct l as [|[o|] c]; try discriminate. destruct o as [| |[|]| | | | | | | | |]; try discriminate. cbn [quiet_calls]. intros H. exists c. split; [reflexivity|].
  rewrite forallb_forall in H. apply Forall_forall. intros o Ho. specialize (H o Ho). now destruct o as [[]|].
Qed.
Definition small_reqs (l : list txreq) : bool := forallb (fun r => zlen (r_msg r) <=? 65536) l.
Lemma small_reqs_ok l : small_reqs l = true -> Forall (fun r => zlen (r_msg r) <= 65536) l.
Proof. unfold small_reqs. rewrite forallb_forall. intros H. apply Forall_forall. intros r Hr. specialize (H r Hr). lia. Qed.

Lemma C67_hypotheses :
  session (fst s1) (snd s1) /\ compatible (fst s1) /\ (forall i, enabled (snd s1) i) /\
  p_app (fst s1 true) = server echo_daemon /\ serving (p_calls (fst s2 true)) /\ listening (p_calls (fst s3 false)) /\
  Forall (fun r => zlen (r_msg r) <= 65536) (said_by (fst s1) (snd s1) false) /\
  (exists w1 w2 w3, d_prog (snd s1) false = Ret w1 /\ d_prog (snd s2) true = Ret w2 /\ d_prog (snd s3) false = Ret w3) /\
  rounds (fst s1) (snd s1) 60 (fst s2) (snd s2) /\ 5 * (passed (snd s2) - passed (snd s1)) + 32 < Z.of_nat 60 /\
  rounds (fst s2) (snd s2) 60 (fst s3) (snd s3) /\ 5 * (passed (snd s3) - passed (snd s2)) + 32 < Z.of_nat 60 /\
  due (fst s1) (snd s1) false = [(9, true, 1, req66); (9, true, 1, [5; 6])] /\
  heard (d_tr (snd s1) true) = [] /\ heard (d_tr (snd s2) true) = [(9, true, 1, req66); (9, true, 1, [5; 6])] /\
  heard (d_tr (snd s3) false) = [(8, false, 1, 2 :: tl req66)] /\
  answers echo_daemon 8 9 (due (fst s1) (snd s1) false) = [(8, false, 1, 2 :: tl req66)].
Proof.
  split; [exact s1_session|].
  split; [assert (p_mtu (fst s1 false) = 64 /\ bmc_mtu (p_mtu (fst s1 true)) = 64) as [E1 E2] by (split; vm_compute; reflexivity);
          unfold compatible; rewrite E1, E2; lia|].
  split; [intros [|]; apply in_set; vm_compute; reflexivity|].
  split; [destruct (moves_setup ps (d0 ps) (fst s1) (snd s1)) with (s := true) as (E & _)|].
  1:{ unfold s1. eapply moves_trans; [|apply make_moves; exact I]. eapply moves_trans; [|apply make_moves; exact I].
      eapply moves_trans; [|apply round_moves]. eapply moves_trans; [|apply round_moves].
      eapply moves_trans; [|apply make_moves; exact I]. eapply moves_trans; [|apply make_moves; exact I].
      eapply moves_trans; apply fin_moves. }
  1:{ rewrite E. reflexivity. }
  split; [apply polls_serving; vm_compute; reflexivity|]. split; [apply quiet_listening; vm_compute; reflexivity|].
  split; [apply small_reqs_ok; vm_compute; reflexivity|].
  split.
  { assert (forall pr : prog (world astlpc), match pr with Ret _ => true | _ => false end = true -> exists w, pr = Ret w) as Hq
      by (intros [w| | | | | | | |] H; try discriminate; eauto).
    destruct (Hq (d_prog (snd s1) false)) as (w1 & E1); [vm_compute; reflexivity|].
    destruct (Hq (d_prog (snd s2) true)) as (w2 & E2); [vm_compute; reflexivity|].
    destruct (Hq (d_prog (snd s3) false)) as (w3 & E3); [vm_compute; reflexivity|].
    exists w1, w2, w3. split; [exact E1|]. split; [exact E2|exact E3]. }
  split; [apply (many_rounds_ok 60 0); [apply Rounds0; apply MvRefl|vm_compute; reflexivity]|].
  split; [vm_compute; reflexivity|].
  split; [apply (many_rounds_ok 60 0); [apply Rounds0; apply MvRefl|vm_compute; reflexivity]|].
  do 5 (split; [vm_compute; reflexivity|]). vm_compute. reflexivity.
Qed.
