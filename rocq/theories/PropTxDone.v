(** PropTxDone: C87: what the answer of mctp_astlpc_tx_done tells.
    The two sides are those of TwoParty.v and SpecLive.v (host and BMC at one shared
    window and one KCS device, in any interleaving of their accesses and calls);
    [tx_done] is Astlpc.v's model of astlpc.c 1159-1162. *)
From Verif Require Import Base Lists Prog PktBuf Core WP Walk CoreRel WalkCore CoreHist Spec SpecRx Crc Astlpc SpecAst AstBasic
  Trace AstWalk PropAst TwoParty DuoInv DuoPast DuoWalk PropDuo SpecDuo DuoMsg PropDuoMsg SpecLive DuoLive PropLive ExamplesDuo ExamplesLive.

Local Notation world := (world astlpc).

(** Side [s] is not in a call, its binding is on the bus, and mctp_astlpc_tx_done of it
    answers [b]. *)
Definition answers (d : duo) (s b : bool) : Prop :=
  exists w, d_prog d s = Ret w /\ bd_bus (bnd w false) = true /\ tx_done (ast w false) = b.

(** The packets waiting in the core of side [s], which is not in a call. *)
Definition nothing_queued (d : duo) (s : bool) : Prop := forall w, d_prog d s = Ret w -> queued w false = [].

(** Side [s] is not in a call and its binding is on the bus. *)
Definition resting (d : duo) (s : bool) : Prop := exists w, d_prog d s = Ret w /\ bd_bus (bnd w false) = true.

(** How many Rx Complete commands (2) a side has taken from the data register so far. *)
Definition completes (tr : list event) : Z :=
  zlen (filter (fun e => match e with EvKRead KData (Some 2) => true | _ => false end) tr).
Lemma completes_cnt tr : completes tr = cnt (is_r 2) tr.
Proof.
  unfold completes, cnt. assert (forall l : list event, filter (fun e => match e with EvKRead KData (Some 2) => true | _ => false end) l = filter (is_r 2) l) as ->; [|reflexivity].
  apply filter_ext. intros [| | | | | | | | | | | | | |r o| | | |]; try reflexivity.
  all: destruct r, o as [v|]; try reflexivity; cbn [is_r]; destruct v as [|[p|[p|p|]|]|p]; reflexivity.
Qed.

Lemma rest_in p d gb gh s (w : world) : sized p -> sys (Ssz p) (Nsz p) (Fin_ok p (Ssz p) (Nsz p)) d gb gh ->
  d_prog d s = Ret w -> bd_bus (bnd w false) = true ->
  68 <= Nsz p /\ past s (p_app (p s)) (Nsz p) (p_eid (p s)) false (p_calls (p s)) w (d_tr d s) /\
  g_dl (gpick gb gh s) = None /\
  (enabled d s -> txrel (bd_priv (w_b0 w)) (gpick gb gh s) /\
     (ost w false = Some TxEnabled <-> ab_st (a_tx (bd_priv (w_b0 w))) = Acquired)).
Proof.
  intros Hs (W & L & T) E Eb.
  destruct (sized_range p Hs) as [HN HS]. specialize (W s). rewrite E in W. cbn [wp] in W.
  unfold Fin_ok in W. rewrite Eb in W. destruct W as (Hpa & Hw & J1 & J2 & J3). rewrite (T s) in Hpa.
  split; [exact HN|]. split; [exact Hpa|]. split; [exact (co_dl _ _ _ _ J2)|]. intros He.
  pose proof (past_up _ _ _ _ HN _ _ _ _ Hpa He) as Hu. unfold up in Hu.
  destruct J3 as [A0 A1|A0 A1|A1 A2 A3 A4 A5 A6 A7]; try (rewrite A1 in Hu; discriminate).
  split; [exact A5|]. destruct A7 as [B1 [B2 _]]. split; [exact B1|]. intros H. destruct (B2 H) as [B|[]]. exact B.
Qed.

Lemma done_free x g : txrel x g -> (tx_done x = true <-> g_tx g = TFree).
Proof.
  unfold txrel, tx_done. destruct (ab_st (a_tx x)); intros H.
  - destruct H.
  - split; auto.
  - destruct H as (q & H). rewrite H. split; discriminate.
  - rewrite H. split; discriminate.
Qed.
Lemma done_acq x : tx_done x = true <-> ab_st (a_tx x) = Acquired.
Proof. unfold tx_done. destruct (ab_st (a_tx x)); split; congruence || discriminate. Qed.

(** The answer is yes exactly when the side has taken an Rx Complete for every packet its
    core has given to the binding; and exactly when the core may give the binding another
    (its queue is not held back). *)
Theorem C87_exact p d s (w : world) : session p d -> compatible p -> enabled d s ->
  d_prog d s = Ret w -> bd_bus (bnd w false) = true ->
  (tx_done (ast w false) = true <-> completes (d_tr d s) = zlen (offered (d_tr d s))) /\
  (tx_done (ast w false) = true <-> ost w false = Some TxEnabled).
Proof.
  intros Hse Hc He E Eb. destruct (kept_session _ _ Hse Hc) as [Hs (gb & gh & HY & HT)].
  destruct (rest_in _ _ _ _ _ _ Hs HY E Eb) as (HN & Hpa & Hd & Ht). destruct (Ht He) as [Ht1 Ht2]. split.
  - assert (tally (gpick gb gh s)) as Ta by (destruct HT; destruct s; assumption).
    destruct HY as (_ & _ & T). pose proof (T s) as Ts.
    change (bd_priv (w_b0 w)) with (ast w false) in *. rewrite (done_free _ _ Ht1).
    rewrite completes_cnt, offered_cnt, <- Ts. destruct Ta as (Ta & _). clear -Ta.
    destruct (g_tx (gpick gb gh s)); split; intros H; try reflexivity; try discriminate H; try (exfalso; lia); lia.
  - rewrite Ht2. apply done_acq.
Qed.

(** When the answer is yes, the binding has been given every packet queued so far, none
    waits in the core, and all but at most one, which the other side is handing to its
    core in a call of mctp_astlpc_poll, have reached the core of the other side: all of
    them if that side is not in a call. *)
Theorem C87_done p d s : session p d -> compatible p -> enabled d s -> answers d s true ->
  nothing_queued d s /\ offered (d_tr d s) = accepted d s /\
  (exists rest, accepted d s = received (d_tr d (negb s)) ++ rest /\ zlen rest <= 1) /\
  (resting d (negb s) -> received (d_tr d (negb s)) = accepted d s).
Proof.
  intros Hse Hc He (w & E & Eb & Hd). destruct (kept_session _ _ Hse Hc) as [Hs (gb & gh & HY & HT)].
  destruct (rest_in _ _ _ _ _ _ Hs HY E Eb) as (HN & Hpa & Hdl & Ht). destruct (Ht He) as [Ht1 Ht2].
  pose proof (past_clear _ _ _ _ HN _ _ _ _ Hpa) as Hcl.
  destruct (past_Sinv _ HN _ _ _ _ _ _ _ Hpa) as [_ _ _ [_ Hf] _].
  change (bd_priv (w_b0 w)) with (ast w false) in *. pose proof (proj1 (done_free _ _ Ht1) Hd) as Hfree.
  assert (ost w false = Some TxEnabled) as Hen by (apply Ht2, done_acq, Hd).
  assert (held w = [] /\ queued w false = []) as [Hh Hq].
  { unfold ost in Hen. destruct (bget w false) as [b|] eqn:Ebg; [|discriminate]. injection Hen as Hen.
    assert (bus_q b = []) as Hb by (apply (Hcl b Ebg); rewrite Hen; discriminate).
    rewrite (held_bget w b Ebg), Hb. split; [reflexivity|]. rewrite queued_bget, Ebg, Hb. reflexivity. }
  rewrite Hh, app_nil_r in Hf.
  assert (offered (d_tr d s) = received (d_tr d (negb s)) ++ out (g_dl (gpick gb gh (negb s)))) as Hdir.
  { destruct HY as (_ & (L1 & L2 & _) & T). pose proof (T true) as T1. pose proof (T false) as T2. cbn [gpick] in T1, T2.
    destruct s; cbn [negb gpick] in *; rewrite <- T1, <- T2.
    - unfold dir in L1. rewrite Hfree in L1. tauto.
    - unfold dir in L2. rewrite Hfree in L2. tauto. }
  assert (offered (d_tr d s) = accepted d s) as Hoa by (symmetry; exact Hf).
  split; [|split; [exact Hoa|split]].
  - intros w' E'. rewrite E in E'. injection E' as <-. exact Hq.
  - exists (out (g_dl (gpick gb gh (negb s)))). rewrite <- Hoa. split; [exact Hdir|].
    destruct (g_dl (gpick gb gh (negb s))); unfold zlen; cbn; lia.
  - intros (v & Ev & Ebv). destruct (rest_in _ _ _ _ _ _ Hs HY Ev Ebv) as (_ & _ & Hdv & _).
    rewrite Hdv in Hdir. cbn [out] in Hdir. rewrite app_nil_r in Hdir. congruence.
Qed.

(** Then the application of the other side has been given every message this side has been
    asked to transmit to it, and nothing else. *)
Theorem C87_heard p d s : session p d -> compatible p -> (forall i, enabled d i) -> answers d s true -> resting d (negb s) ->
  p_mtu (p false) <= 4096 -> p_eid (p s) <> 0 -> Forall (fun r => zlen (r_msg r) <= 65536) (said_by p d s) ->
  listening (p_calls (p (negb s))) ->
  heard (d_tr d (negb s)) = due p d s.
Proof.
  intros Hse Hc Hen Ha (wr & Er & Ebr) Hmtu Heid Hsz Hl.
  destruct (C87_done p d s Hse Hc (Hen s) Ha) as (_ & _ & _ & Hdel).
  specialize (Hdel (ex_intro _ wr (conj Er Ebr))).
  destruct Ha as (ws & Es & Ebs & _). destruct (kept_session _ _ Hse Hc) as [Hs (gb & gh & HY & HT)].
  destruct (rest_in _ _ _ _ _ _ Hs HY Es Ebs) as (HN & Ps & _). destruct (rest_in _ _ _ _ _ _ Hs HY Er Ebr) as (_ & Pr & _).
  destruct (past_Sinv _ HN _ _ _ _ _ _ _ Ps) as [_ _ _ _ (acc & Hp & Hsp)].
  destruct (Hsp [] ltac:(discriminate)) as [Ht _]. rewrite app_nil_r in Ht.
  assert (packs (p_mtu (p false) + 4) (p_eid (p s)) (said_by p d s) (accepted d s)) as Hpk.
  { unfold said_by, said. rewrite Ht. cbn [t_said requests flat_map pend]. rewrite app_nil_r. exact Hp. }
  destruct (past_Rinv _ HN _ _ _ _ _ _ _ Pr) as [_ Hh].
  destruct (Hh [] ltac:(discriminate)) as [_ [_ _ Hhe _]]; [rewrite app_nil_r; exact Hl|].
  rewrite Hhe. rewrite <- (due_outs p d s Hmtu Heid Hsz _ Hpk), Hdel. reflexivity.
Qed.

(** The answer is yes again in the end: among [n] periods with a poll of each side, [n] more
    than 32 and five for each packet passed to the bindings in the meantime, there is for
    each side a moment between two of its calls at which it is. *)
Theorem C87_again p1 d1 n p2 d2 : session p1 d1 -> compatible p1 -> (forall s, enabled d1 s) ->
  rounds p1 d1 n p2 d2 -> 5 * (passed d2 - passed d1) + 32 < Z.of_nat n ->
  forall s, exists p d, moves p1 d1 p d /\ moves p d p2 d2 /\ answers d s true.
Proof.
  intros Hse Hc Hen Hr Hn.
  assert (activity d1 + Z.of_nat n <= activity d2 \/
          forall s, exists p d, moves p1 d1 p d /\ moves p d p2 d2 /\ answers d s true) as [Ha|Ha]; [clear Hn| |exact Ha].
  { induction Hr as [p2 d2 M|n p2 d2 p3 d3 H IH Hw].
    - left. pose proof (moves_acts _ _ _ _ M true). pose proof (moves_acts _ _ _ _ M false). unfold activity. lia.
    - pose proof (rounds_moves _ _ _ _ _ H) as M. pose proof (whole_moves _ _ _ _ _ (Hw true)) as M'.
      destruct IH as [IH|IH].
      + pose proof (session_moves _ _ _ _ Hse M) as Hse2. pose proof (compatible_moves _ _ _ _ Hc M) as Hc2.
        pose proof (fun s => enabled_more _ _ _ _ s M (Hen s)) as Hen2.
        pose proof (moves_acts _ _ _ _ (whole_both _ _ _ _ Hw)) as A12.
        destruct (Z.lt_ge_cases (activity d2) (activity d3)) as [Hlt|Hge]; [left; lia|right].
        assert (still d2 d3) as Hst.
        { unfold activity in Hge. pose proof (A12 true). pose proof (A12 false). intros []; lia. }
        destruct (quiet_period _ _ _ _ Hse2 Hc2 Hen2 Hw Hst) as (Hidle & gb2 & gh2 & HY2 & HT2 & Hfree).
        intros s. destruct (Hidle s) as (pa & da & wa & M1 & M4 & Ea & Ba & Hi & Ho).
        exists pa, da. split; [eapply moves_trans; eassumption|]. split; [exact M4|]. exists wa. split; [exact Ea|]. split; [exact Ba|].
        destruct (kept_session _ _ Hse2 Hc2) as [Hs2 K2].
        destruct (at_rest pa da s wa) as (gb & gh & HY & HT & _ & _ & G1 & G2 & G3).
        * exact (sized_setup _ _ (moves_setup _ _ _ _ M1) Hs2).
        * exact (kept_moves _ _ _ _ M1 Hs2 K2).
        * exact Ea.
        * exact Ba.
        * exact (enabled_more _ _ _ _ _ M1 (Hen2 s)).
        * destruct (moves_tr _ _ _ _ M4 s) as (t & Et).
          pose proof (moves_acts _ _ _ _ M1 s) as Q1. pose proof (moves_acts _ _ _ _ M4 s) as Q4. pose proof (Hst s) as Q5.
          assert (acts t = 0) as Ht by (rewrite Et, acts_app in Q4, Q5; pose proof (acts_pos t); lia).
          assert (tally (gpick gb gh s)) as Ta by (destruct HT; destruct s; assumption).
          assert (tally (gpick gb2 gh2 s)) as T2 by (destruct HT2; destruct s; assumption).
          assert (g_tr (gpick gb2 gh2 s) = g_tr (gpick gb gh s) ++ t) as Etr.
          { destruct HY as (_ & _ & HYt), HY2 as (_ & _ & HYt2). rewrite HYt, HYt2. exact Et. }
          assert (g_tx (gpick gb gh s) = TFree) as Hf.
          { destruct (G3 Ho) as [G4|[G4 _]]; [|exact G4].
            destruct (tally_still _ _ _ Ta T2 Etr Ht G1 (G2 Hi) (or_introl G4)) as (_ & _ & R3 & _).
            rewrite (proj1 (Hfree s)) in R3. congruence. }
          pose proof (sized_setup _ _ (moves_setup _ _ _ _ M1) Hs2) as Hsa.
          destruct (rest_in _ _ _ _ _ _ Hsa HY Ea Ba) as (_ & _ & _ & Hx).
          destruct (Hx (enabled_more _ _ _ _ _ M1 (Hen2 s))) as [Hx1 _]. exact (proj2 (done_free _ _ Hx1) Hf).
      + right. intros s. destruct (IH s) as (p & d & X1 & X2 & X3). exists p, d. split; [exact X1|]. split; [|exact X3].
        eapply moves_trans; eassumption. }
  exfalso. pose proof (rounds_moves _ _ _ _ _ Hr) as M.
  pose proof (activity_bounds _ _ Hse Hc) as B1.
  pose proof (activity_bounds _ _ (session_moves _ _ _ _ Hse M) (compatible_moves _ _ _ _ Hc M)) as B2. lia.
Qed.

(** ** Concrete cases *)
Definition yes (c : sess) (s : bool) : option bool :=
  match at_ret s (snd c) with Some w => if bd_bus (bnd w false) then Some (tx_done (ast w false)) else None | None => None end.
Definition waiting (c : sess) (s : bool) : Z := match at_ret s (snd c) with Some w => zlen (queued w false) | None => -1 end.
Lemma yes_answers c s b : yes c s = Some b -> answers (snd c) s b.
Proof.
  unfold yes, at_ret. destruct (d_prog (snd c) s) as [w| | | | | | | |] eqn:E; try discriminate.
  destruct (bd_bus (bnd w false)) eqn:Eb; [|discriminate]. intros [= <-]. exists w. auto.
Qed.

Lemma c12_moves : moves (fst c1) (snd c1) (fst c2) (snd c2).
Proof.
  apply (rounds_moves _ _ 48). apply (many_rounds_ok 48 0); [apply Rounds0; apply MvRefl|vm_compute; reflexivity].
Qed.

(** At [c1] the host has asked to transmit a message of two packets and one of them waits:
    the answer is no. 48 rounds later it is yes, for both sides, and C87_heard applies. *)
Example C87_example : session (fst c1) (snd c1) /\ compatible (fst c1) /\ (forall s, enabled (snd c1) s) /\
  answers (snd c1) false false /\ waiting c1 false = 1 /\
  completes (d_tr (snd c1) false) = 0 /\ offered (d_tr (snd c1) false) <> [] /\
  session (fst c2) (snd c2) /\ compatible (fst c2) /\ (forall s, enabled (snd c2) s) /\
  answers (snd c2) false true /\ answers (snd c2) true true /\
  completes (d_tr (snd c2) false) = 2 /\ zlen (accepted (snd c2) false) = 2 /\
  heard (d_tr (snd c2) true) = due (fst c2) (snd c2) false /\ zlen (due (fst c2) (snd c2) false) = 1.
Proof.
  pose proof c12_moves as M. pose proof (session_moves _ _ _ _ c1_session M) as S2.
  pose proof (compatible_moves _ _ _ _ c1_compatible M) as C2.
  pose proof (fun s => enabled_more _ _ _ _ s M (c1_enabled s)) as E2.
  assert (answers (snd c2) false true) as A1 by (apply yes_answers; vm_compute; reflexivity).
  assert (answers (snd c2) true true) as A2 by (apply yes_answers; vm_compute; reflexivity).
  split; [exact c1_session|]. split; [exact c1_compatible|]. split; [exact c1_enabled|].
  split; [apply yes_answers; vm_compute; reflexivity|]. split; [vm_compute; reflexivity|]. split; [vm_compute; reflexivity|].
  split; [intros H; vm_compute in H; discriminate H|]. split; [exact S2|]. split; [exact C2|]. split; [exact E2|].
  split; [exact A1|]. split; [exact A2|]. split; [vm_compute; reflexivity|]. split; [vm_compute; reflexivity|].
  split; [|vm_compute; reflexivity].
  apply (C87_heard _ _ false S2 C2 E2 A1).
  - destruct A2 as (w & H1 & H2 & _). exists w. auto.
  - vm_compute. discriminate.
  - vm_compute. discriminate.
  - assert (forallb (fun r => zlen (r_msg r) <=? 65536) (said_by (fst c2) (snd c2) false) = true) as H by (vm_compute; reflexivity).
    rewrite forallb_forall in H. apply Forall_forall. intros r Hr. apply Z.leb_le. exact (H r Hr).
  - exact c2_listening.
Qed.

(** ** Before the channel is up
    The hypothesis [enabled] is needed: the host polls while the BMC is in the middle of
    its own poll, after it has stored the negotiated version and before it sets the status
    bit that says the channel is active. From then on mctp_astlpc_tx_done says yes although
    mctp_message_tx refuses every message with -ENXIO. *)
Definition begun (s : bool) (o : aop) (c : sess) : sess :=
  match at_ret s (snd c) with
  | Some w => if bd_bus (bnd w false) then (upd (fst c) s (more (fst c s) o), begin_call s w o (fst c) (snd c)) else c
  | None => c
  end.
Definition steps (s : bool) (k : nat) (c : sess) : sess := (fst c, Nat.iter k (turn s) (snd c)).
Lemma begun_moves s o c : ast_traffic o -> moves (fst c) (snd c) (fst (begun s o c)) (snd (begun s o c)).
Proof.
  intros Ho. unfold begun, at_ret. destruct (d_prog (snd c) s) as [w| | | | | | | |] eqn:E; try apply MvRefl.
  destruct (bd_bus (bnd w false)) eqn:Eb; [|apply MvRefl]. cbn [fst snd].
  eapply (MvCall _ _ s o w); [apply MvRefl|exact E|exact Eb|exact Ho].
Qed.
Lemma steps_moves s k c : moves (fst c) (snd c) (fst (steps s k c)) (snd (steps s k c)).
Proof.
  unfold steps. cbn [fst snd]. induction k as [|k IH]; [apply MvRefl|]. cbn [Nat.iter]. eapply moves_trans; [exact IH|apply turn_moves].
Qed.
Definition early0 : sess := make false poll1 (steps true 6 (begun true poll1 c0)).
Definition early1 : sess := make false (tx1 8 msg66) early0.

Theorem C87_early_refuted : exists p d p' d' w, session p d /\ compatible p /\ moves p d p' d' /\
  answers d false true /\ answers d' false true /\
  (* between the two moments only one call, which returns -ENXIO *)
  p_calls (p' false) = p_calls (p false) ++ [tx1 8 msg66] /\ d_prog d' false = Ret w /\
  d_tr d' false = d_tr d false ++ [EvRet (- ENXIO)] /\ accepted d' false = [].
Proof.
  exists (fst early0), (snd early0), (fst early1), (snd early1).
  assert (exists w, at_ret false (snd early1) = Some w) as (w & Ew) by (eexists; vm_compute; reflexivity).
  exists w. split; [|split; [|split; [|split; [|split; [|split; [|split; [|split]]]]]]].
  - exists pz, 0, 0, (fun _ => 0). split; [intros [|]; reflexivity|]. split; [right; cbn; lia|].
    unfold early0. eapply moves_trans; [|apply make_moves; exact eq_refl]. eapply moves_trans; [|apply steps_moves].
    eapply moves_trans; [|apply begun_moves; exact eq_refl]. eapply moves_trans; apply fin_moves.
  - assert (p_mtu (fst early0 false) = 64) as E1 by (vm_compute; reflexivity).
    assert (bmc_mtu (p_mtu (fst early0 true)) = 200) as E2 by (vm_compute; reflexivity).
    unfold compatible. rewrite E1, E2. lia.
  - apply make_moves. exact I.
  - apply yes_answers; vm_compute; reflexivity.
  - apply yes_answers; vm_compute; reflexivity.
  - vm_compute; reflexivity.
  - unfold at_ret in Ew. destruct (d_prog (snd early1) false); congruence.
  - vm_compute; reflexivity.
  - vm_compute; reflexivity.
Qed.
