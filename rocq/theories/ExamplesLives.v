(** ExamplesLives: concrete runs with crashes and restarts (C70, C71). *)
From Verif Require Import Base Lists Prog PktBuf Core WP Walk CoreHist Crc Astlpc SpecAst AstBasic AstWalk PropAst AstDown Concrete
  TwoParty DuoInv PropDuo SpecLive ExamplesDuo LostWakeup Lives PropLives.

(** A script: accesses of a side, calls, restarts, and taking a side down. *)
Inductive act :=
| Steps (s : bool) (n : nat)
| Rest (s : bool)                     (* to the end of the current call *)
| Poll (s : bool) | Send (s : bool) (eid : Z) (msg : list Z)
| Kill (s : bool) (q : party)
| Bye (s : bool).

Definition step1 (s : bool) (d : duo) : duo :=
  match advance s (d_sh d) (d_prog d s) with
  | Some (sh, p, t) => bytewise (mkDuo sh (upd (d_prog d) s p) (upd (d_tr d) s (d_tr d s ++ t)))
  | None => d
  end.
Fixpoint stepn (n : nat) (s : bool) (d : duo) : duo :=
  match n with O => d | S n' => stepn n' s (step1 s d) end.
Definition start_call (s : bool) (o : aop) (c : (bool -> party) * duo) : (bool -> party) * duo :=
  match d_prog (snd c) s with
  | Ret w => if bd_bus (bnd w false) then (fst c, begin_call s w o (fst c) (snd c)) else c
  | _ => c
  end.
Definition do (a : act) (c : (bool -> party) * duo) : (bool -> party) * duo :=
  match a with
  | Steps s n => (fst c, stepn n s (snd c))
  | Rest s => (fst c, stepn 400 s (snd c))
  | Poll s => start_call s (APoll false) c
  | Send s eid msg => start_call s (ACore (OpTx eid true 1 msg)) c
  | Kill s q => (upd (fst c) s q, reborn s q (snd c))
  | Bye s => match d_prog (snd c) s with Ret w => (fst c, leave s w (fst c) (snd c)) | _ => c end
  end.
Fixpoint script (l : list act) (c : (bool -> party) * duo) : (bool -> party) * duo :=
  match l with [] => c | a :: t => script t (do a c) end.
(** The MTUs the script starts sides with. *)
Definition starts (allowed : bool -> Z -> Prop) (l : list act) : Prop :=
  Forall (fun a => match a with Kill s q => allowed s (p_mtu q) | _ => True end) l.

Lemma goes_steps (allowed : bool -> Z -> Prop) p d q e s n : goes allowed p d q e -> goes allowed p d q (stepn n s e).
Proof.
  revert e. induction n as [|n IH]; intros e H; cbn [stepn]; [exact H|]. apply IH. unfold step1.
  destruct (advance s (d_sh e) (d_prog e s)) as [[[sh p'] t]|] eqn:E; [|exact H].
  eapply GoStep; [exact H|]. exists sh, p', t. split; [exact E|reflexivity].
Qed.
Lemma goes_call (allowed : bool -> Z -> Prop) p d s o c : ast_traffic o -> goes allowed p d (fst c) (snd c) ->
  goes allowed p d (fst (start_call s o c)) (snd (start_call s o c)).
Proof.
  intros Ho H. unfold start_call. destruct (d_prog (snd c) s) as [w| | | | | | | |] eqn:E; try exact H.
  destruct (bd_bus (bnd w false)) eqn:Eb; [|exact H]. cbn [fst snd]. eapply GoCall; eassumption.
Qed.
Lemma goes_script (allowed : bool -> Z -> Prop) p d l : forall c, goes allowed p d (fst c) (snd c) -> starts allowed l ->
  goes allowed p d (fst (script l c)) (snd (script l c)).
Proof.
  induction l as [|a l IH]; intros c H Hs; cbn [script]; [exact H|]. inversion_clear Hs as [|? ? Ha Hl]. apply IH; [|exact Hl].
  destruct a as [s n|s|s|s eid msg|s q|s]; cbn [do].
  - now apply goes_steps.
  - now apply goes_steps.
  - now apply goes_call.
  - now apply goes_call.
  - now apply GoRestart.
  - destruct (d_prog (snd c) s) as [w| | | | | | | |] eqn:E; try exact H. cbn [fst snd]. now apply GoLeave.
Qed.
Definition begin (p : bool -> party) : (bool -> party) * duo := (p, power_on p 0 0 (fun _ => 0)).
Lemma script_lives (allowed : bool -> Z -> Prop) p l : (forall s, allowed s (p_mtu (p s))) -> starts allowed l ->
  lives allowed (fst (script l (begin p))) (snd (script l (begin p))).
Proof.
  intros Hp Hl. exists p, 0, 0, (fun _ => 0). split; [exact Hp|]. split; [split; lia|]. split; [split; lia|].
  split; [intros x; split; lia|]. apply goes_script; [apply GoRefl|exact Hl].
Qed.

Definition conf (mtu eid : Z) : party := mkParty no_app mtu eid [].
Definition host64 := conf 64 9.
Definition host128 := conf 128 9.
Definition bmc200 := conf 200 8.

Definition enabledb (d : duo) (s : bool) : bool :=
  match d_prog d s with
  | Ret w => match bget w false with Some b => match bus_st b with TxEnabled => true | _ => false end | None => false end
  | _ => false
  end.
(** Both sides start; the BMC answers the host's Initialise. *)
Definition come_up : list act := [Rest true; Rest false; Poll true; Rest true; Poll false; Rest false].
Definition up1 := script come_up (begin (pair bmc200 host64)).
(** The host is killed in the middle of sending a message and started again. *)
Definition again : list act := come_up ++ [Send false 8 [1;2;3;4]; Steps false 6; Kill false host64; Rest false; Poll true; Rest true; Poll false; Rest false].
Definition up2 := script again (begin (pair bmc200 host64)).

(** C70 is not vacuous: there are such histories in which the channel comes up, the host is
    killed in the middle of a transmission, and the channel comes up again. *)
Definition small (s : bool) (m : Z) : Prop := if s then m = 200 else 0 <= m <= 128.
Example C70_case : lives small (fst up2) (snd up2) /\ enabledb (snd up2) true = true /\ enabledb (snd up2) false = true /\
  usable_mtu 200 /\ (forall s m, small s m -> ast_mtu s m) /\
  existsb (fun e => match e with EvKRead KData (Some 0) => true | _ => false end) (skipn 12 (d_tr (snd up2) true)) = true.
Proof.
  split.
  { apply script_lives; [intros [|]; cbn; lia|]. repeat constructor; cbn; lia. }
  split; [vm_compute; reflexivity|]. split; [vm_compute; reflexivity|].
  split; [right; split; vm_compute; congruence|]. split.
  { intros [|] m H; cbn in H |- *; [subst m; right; split; vm_compute; congruence|lia]. }
  vm_compute; reflexivity.
Qed.

(** ** C71: what a restart of the host breaks *)

(** The BMC answers the first host, which takes the 0xff of the BMC's start for the answer;
    the real answer stays unread. *)
Definition early : list act := [Rest true; Rest false; Poll true; Steps true 7; Poll false; Rest false; Rest true].

(** The host is killed after sending a message and started again; it takes the unread 0xff
    for the answer to its Initialise, which the BMC has not seen yet, and sends. *)
Definition race : list act := [Rest true; Rest false; Poll true; Steps true 7; Poll false; Rest false;
  Send false 8 [1;2;3;4]; Rest false; Kill false host64; Rest true; Poll true; Steps true 5;
  Rest false; Poll false; Rest false; Send false 8 [5;6;7;8]; Steps false 5].
Definition raced := script race (begin (pair bmc200 host64)).

Definition reads_at (p : prog (world astlpc)) (x : Z) : bool :=
  match p with LRead off len _ => (off <=? x) && (x <? off + len) | _ => false end.
Definition writes_at (p : prog (world astlpc)) (x : Z) : bool :=
  match p with LWrite off bs _ => (off <=? x) && (x <? off + zlen bs) | _ => false end.
Lemma reads_at_spec p x : reads_at p x = true -> touches p false x.
Proof. destruct p; cbn; try discriminate. intros H. split; [reflexivity|lia]. Qed.
Lemma writes_at_spec p x : writes_at p x = true -> touches p true x.
Proof. destruct p; cbn -[zlen]; try discriminate. intros H. split; [reflexivity|lia]. Qed.

(** Exclusive access (C37) is lost: one side reads a byte of the packet area that the other is
    writing. *)
Theorem C71_exclusive_refuted : exists p d x, lives (fun s m => m = if s then 200 else 64) p d /\
  256 <= x /\ touches (d_prog d true) false x /\ touches (d_prog d false) true x.
Proof.
  exists (fst raced), (snd raced), 480. split.
  { apply script_lives; [intros [|]; reflexivity|]. repeat constructor. }
  split; [lia|]. split; [apply reads_at_spec|apply writes_at_spec]; vm_compute; reflexivity.
Qed.

(** *** Disagreement about the packet size *)

(** From now on the sides only call mctp_astlpc_poll. *)
Inductive polling (p : bool -> party) (d : duo) : duo -> Prop :=
| PoRefl : polling p d d
| PoStep s d1 d2 : polling p d d1 -> dstep s d1 d2 -> polling p d (bytewise d2)
| PoPoll s w d1 : polling p d d1 -> d_prog d1 s = Ret w -> polling p d (begin_call s w (APoll false) p d1).

Definition still (d0 : duo) (w : bool -> world astlpc) (p : bool -> party) (d : duo) : Prop :=
  s_kcs (d_sh d) = s_kcs (d_sh d0) /\
  forall s, (d_prog d s = Ret (w s) \/ d_prog d s = aexec_op (p_app (p s)) (w s) (APoll false) \/ d_prog d s = Emit (EvRet 0) (Ret (w s))) /\
    received (d_tr d s) = received (d_tr d0 s).

Lemma idle_first ap s sh w : idle s sh w -> exists k, aexec_op ap w (APoll false) = KRead KStatus k /\
  k (Some (kstatus (s_kcs sh))) = Emit (EvRet 0) (Ret w).
Proof.
  intros (H1 & H2 & H3 & H4). unfold aexec_op. rewrite H4. unfold poll, poll_release_rx, poll_release_tx.
  assert (forall a : astlpc, ab_st (a_rx a) <> Prepared ->
    match ab_st (a_rx a) with Prepared => (rc <- kcs_send a cmd_rx_complete ;; Ret (if rc =? 0 then a_set_rx_st a Released else a)) | _ => Ret a end = Ret a) as E1
    by (intros a; destruct (ab_st (a_rx a)); congruence).
  assert (forall a : astlpc, ab_st (a_tx a) <> Prepared ->
    match ab_st (a_tx a) with Prepared => (rc <- kcs_send a cmd_tx_begin ;; Ret (if rc =? 0 then a_set_tx_st a Released else a)) | _ => Ret a end = Ret a) as E2
    by (intros a; destruct (ab_st (a_tx a)); congruence).
  rewrite (E1 _ H1). cbn [bind]. rewrite (E2 _ H2). cbn [bind]. eexists. split; [reflexivity|]. cbn beta iota. rewrite H3. cbn [negb bind].
  destruct w as [m [] b1]; reflexivity.
Qed.
Lemma idle_kcs s sh sh' w : s_kcs sh = s_kcs sh' -> idle s sh w -> idle s sh' w.
Proof. intros E. unfold idle. now rewrite E. Qed.
Lemma received_app a b : received (a ++ b) = received a ++ received b.
Proof. apply flat_map_app. Qed.

Lemma polling_still p d w : (forall s, d_prog d s = Ret (w s)) -> (forall s, idle s (d_sh d) (w s)) ->
  forall d', polling p d d' -> still d w p d'.
Proof.
  intros Hp Hi d'. induction 1 as [|s d1 d2 _ IH (sh & r & t & Ea & ->)|s w' d1 _ IH E].
  - split; [reflexivity|]. intros s. split; [left; apply Hp|reflexivity].
  - destruct IH as [Ik Is]. pose proof (Is s) as [Is0 Im].
    assert (s_kcs sh = s_kcs (d_sh d1) /\ (r = Ret (w s) \/ r = Emit (EvRet 0) (Ret (w s))) /\ received t = []) as (K1 & K2 & K3).
    { destruct Is0 as [E|[E|E]]; rewrite E in Ea.
      - discriminate Ea.
      - destruct (idle_first (p_app (p s)) s (d_sh d1) (w s)) as (k & Ek & Er); [apply (idle_kcs s (d_sh d)); [now symmetry|apply Hi]|].
        rewrite Ek in Ea. cbn [advance kread] in Ea. injection Ea as <- <- <-. cbn [s_kcs]. rewrite Er. auto.
      - cbn [advance] in Ea. injection Ea as <- <- <-. auto. }
    split; [cbn [bytewise d_sh narrow s_kcs]; congruence|]. intros s'. cbn [bytewise d_prog d_tr]. unfold upd.
    destruct (Bool.eqb s s') eqn:Es; [|apply Is]. apply Bool.eqb_prop in Es as <-. rewrite received_app, K3, app_nil_r.
    split; [tauto|exact Im].
  - destruct IH as [Ik Is]. split; [exact Ik|]. intros s'. unfold begin_call. cbn [d_prog d_tr]. unfold upd.
    destruct (Bool.eqb s s') eqn:Es; [|apply Is]. apply Bool.eqb_prop in Es as <-. destruct (Is s) as [Is0 Im]. split; [|exact Im].
    assert (w' = w s) as ->; [|auto]. rewrite E in Is0. destruct Is0 as [[= ->]|[N|N]]; [reflexivity| |discriminate N].
    destruct (idle_first (p_app (p s)) s (d_sh d1) (w s)) as (k & Ek & _); [apply (idle_kcs s (d_sh d)); [now symmetry|apply Hi]|].
    rewrite Ek in N. discriminate N.
Qed.

(** The first host asks for an MTU of 128, the next one for 64. *)
Definition shrunk := script (early ++ [Kill false host64; Rest false; Poll false; Rest false; Poll true; Rest true; Poll false; Rest false])
  (begin (pair bmc200 host128)).
Definition big : list Z := map Z.of_nat (seq 1 100).
Definition stalled := script [Send false 8 big; Rest false; Poll true; Rest true] shrunk.
Definition at_rest (d : duo) (s : bool) : option (world astlpc) := match d_prog d s with Ret w => Some w | _ => None end.
Lemma at_rest_spec d s w : at_rest d s = Some w -> d_prog d s = Ret w.
Proof. unfold at_rest. destruct (d_prog d s); congruence. Qed.
Definition txst (w : world astlpc) : option bus_state := option_map bus_st (bget w false).
Definition in_packets (o : option (world astlpc)) (st : bus_state) (n : Z) (sh : shared) : bool :=
  match o with
  | Some w => match txst w, st with Some TxEnabled, TxEnabled | Some TxDisabled, TxDisabled => true | _, _ => false end &&
      (bd_pkt_size (bnd w false) =? n) && idleb sh w
  | None => false
  end.
Lemma in_packets_spec d s st n : in_packets (at_rest d s) st n (d_sh d) = true -> exists w,
  d_prog d s = Ret w /\ txst w = Some st /\ bd_pkt_size (bnd w false) = n /\ idle s (d_sh d) w.
Proof.
  destruct (at_rest d s) as [w|] eqn:E; cbn [in_packets]; [|discriminate]. intros H.
  apply andb_prop in H as [H I]. apply andb_prop in H as [H N]. exists w. split; [now apply at_rest_spec|].
  split; [destruct (txst w) as [[]|], st; (reflexivity || discriminate H)|].
  split; [now apply Z.eqb_eq|now apply idleb_idle].
Qed.
Definition sent (msg : list Z) (tr : list event) : bool :=
  existsb (fun e => match e with EvTxRet false _ bs 0 => if list_eq_dec Z.eq_dec (skipn 4 bs) msg then true else false | _ => false end) tr.
Lemma sent_spec msg tr : sent msg tr = true -> exists i bs, In (EvTxRet false i bs 0) tr /\ skipn 4 bs = msg.
Proof.
  intros H. apply existsb_exists in H as (e & Hin & He). destruct e; try discriminate He.
  all: repeat match type of He with context [match ?x with _ => _ end] => destruct x eqn:?; try discriminate He end; subst; eauto.
Qed.

(** Agreement (C34) is lost: both sides are up, between calls, and every command has been
    read, but the host sends packets larger than the BMC accepts.  A message it then sends in
    one packet has left its binding without error, and is never handed to the BMC's core, and the host's
    transmitter stays off, however often the two sides poll after that. *)
Theorem C71_agreement_refuted : exists p d wb wh, lives ast_mtu p d /\
  d_prog d true = Ret wb /\ d_prog d false = Ret wh /\ txst wb = Some TxEnabled /\ txst wh = Some TxEnabled /\
  unread true (s_kcs (d_sh d)) = None /\ unread false (s_kcs (d_sh d)) = None /\
  bd_pkt_size (bnd wb false) = 68 /\ bd_pkt_size (bnd wh false) = 132 /\
  exists d', goes ast_mtu p d p d' /\ (exists i bs, In (EvTxRet false i bs 0) (d_tr d' false) /\ skipn 4 bs = big) /\
    forall d'', polling p d' d'' -> received (d_tr d'' true) = [] /\
      forall w, d_prog d'' false = Ret w -> txst w = Some TxDisabled.
Proof.
  assert (forall s, ast_mtu s (p_mtu (pair bmc200 host128 s))) as H0.
  { intros [|]; cbn; [right; split; vm_compute; congruence|lia]. }
  assert (lives ast_mtu (fst shrunk) (snd shrunk)) as HL.
  { apply script_lives; [exact H0|]. repeat constructor; cbn; lia. }
  destruct (in_packets_spec (snd shrunk) true TxEnabled 68) as (wb & B1 & B2 & B3 & _); [vm_compute; reflexivity|].
  destruct (in_packets_spec (snd shrunk) false TxEnabled 132) as (wh & A1 & A2 & A3 & _); [vm_compute; reflexivity|].
  exists (fst shrunk), (snd shrunk), wb, wh. repeat (split; [assumption|]).
  split; [vm_compute; reflexivity|]. split; [vm_compute; reflexivity|]. split; [assumption|]. split; [assumption|].
  exists (snd stalled). split.
  { assert (fst stalled = fst shrunk) as E by (vm_compute; reflexivity). rewrite <- E at 2.
    apply goes_script; [apply GoRefl|]. repeat constructor. }
  split; [apply sent_spec; vm_compute; reflexivity|].
  destruct (in_packets_spec (snd stalled) true TxEnabled 68) as (wb' & B1' & B2' & B3' & Ib); [vm_compute; reflexivity|].
  destruct (in_packets_spec (snd stalled) false TxDisabled 132) as (wh' & A1' & A2' & A3' & Ia); [vm_compute; reflexivity|].
  intros d'' Hq.
  assert (still (snd stalled) (fun s => if s then wb' else wh') (fst shrunk) d'') as [_ Hs].
  { revert Hq. apply polling_still; intros [|]; assumption. }
  split; [rewrite (proj2 (Hs true)); vm_compute; reflexivity|]. intros w Ew. destruct (Hs false) as [[E|[E|E]] _]; rewrite Ew in E.
  - injection E as ->. exact A2'.
  - destruct (idle_first (p_app (fst shrunk false)) false _ _ Ia) as (k & Ek & _). rewrite Ek in E. discriminate E.
  - discriminate E.
Qed.
