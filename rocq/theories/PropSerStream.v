(** PropSerStream: a stream of messages over a serial line (C65). *)
From Verif Require Import Base Lists Prog PktBuf Core WP Walk CoreRel WalkCore CoreHist Spec SpecRx Trace PropTx PropMsg
  Reasm PropRx PropRound Crc Serial SpecSer SerRx SerWalk PropSer PropSerTx PropSerRound SpecDuo DuoMsg PropDuoMsg.

Local Notation world := (world serial).

(** The call that sends a request. *)
Definition say (r : txreq) : sop := SCore (OpTx (r_eid r) (r_to r) (r_tag r) (r_msg r)).

(** ** What is heard *)
Definition told (d : delivery) : list (Z * bool * Z * list Z) :=
  match d_cb d with Some (EvRx s to tag msg) => [(s, to, tag, msg)] | _ => [] end.

Lemma heard_quiet t : Forall quiet_ev t -> heard t = [].
Proof.
  unfold heard. induction 1 as [|e t He Ht IH]; [reflexivity|]. cbn [flat_map]. rewrite IH.
  destruct e; try reflexivity; contradiction.
Qed.

Lemma rx_case_heard {B} m (w : Core.world B) i bs w' t1 n : rx_case m w i bs w' t1 ->
  heard (t1 ++ [EvFree n]) = flat_map told (deliveries (t1 ++ [EvFree n])).
Proof.
  intros [Hl Hw'|Hl Hf Hw'|cs Ht Hp Hw'|cs msg t2 Ht Hp Hw' Hm].
  - reflexivity.
  - rewrite heard_app, heard_quiet, deliveries_quiet by apply capev_quiet. reflexivity.
  - rewrite heard_app, heard_quiet, deliveries_quiet by apply capev_quiet. reflexivity.
  - rewrite <- app_assoc, heard_app, heard_quiet, deliveries_quiet by apply capev_quiet. cbn [app deliveries flat_map].
    assert (forall t, Forall tx_ev t -> deliveries (t ++ [EvFree n]) = [] /\ callback_of (t ++ [EvFree n]) = None /\
      heard (t ++ [EvFree n]) = []) as Hq.
    { intros t H. rewrite deliveries_quiet, heard_app, heard_quiet by now apply tx_ev_quiet. split; [reflexivity|].
      split; [|reflexivity]. destruct H as [|e t He _]; [reflexivity|]. destruct e; cbn in *; tauto. }
    change (heard (EvMsg i (h_src bs) (h_dest bs) (h_to bs) (h_tag bs) msg :: t2 ++ [EvFree n])) with (heard (t2 ++ [EvFree n])).
    destruct m as [eid|].
    + destruct (local_event w i (h_src bs) (h_to bs) (h_tag bs) msg) as [e|] eqn:Ee.
      * destruct Hm as (t3 & -> & H3 & _). destruct (Hq _ H3) as (Hd & _ & Hh).
        unfold heard in *.
        destruct (local_event_shape _ _ _ _ _ _ _ Ee) as [-> | ->]; cbn [app deliveries callback_of flat_map];
          rewrite Hd, Hh; reflexivity.
      * destruct Hm as [-> _]. reflexivity.
    + destruct Hm as (rc & Hm). destruct (Hq t2) as (-> & -> & ->); [eapply on_bus_ev; exact Hm|]. reflexivity.
Qed.

Lemma rx_rel_heard {ap} m (w : world) i id bs p t w' : WF Strict w -> mode_ok m w -> pktbuf_bytes p = Some bs ->
  rx_rel Strict ap w i id bs t w' -> heard t = flat_map told (deliveries t).
Proof.
  intros Hw Hm Hp Hr. destruct (rx_rel_id _ _ _ _ _ _ Hr) as (b & t1 & -> & Hid).
  set (n := m_next (w_m (prevw w))).
  assert (op_rel (prevw w) (OpRx i p) (EvAlloc n :: EvBusRx i (busrx_local w b) n bs :: t1 ++ [EvFree n]) w') as Ho.
  { eapply ORRx; [exact Hp|]. rewrite next_prev. apply Hid. }
  assert (WF Strict (prevw w)) as Hwp by (destruct Hw; constructor; assumption).
  destruct (rx_cases _ _ _ _ _ _ _ Hwp Hm Hp Ho) as (t2 & Et2 & Hc).
  injection Et2 as _ Et2. apply app_inj_tail in Et2. destruct Et2 as [<- _].
  apply (rx_case_heard _ _ _ _ _ _ id) in Hc. exact Hc.
Qed.

Lemma mrel_heard m (w : world) o t w' : SI m w -> mtraffic m o -> mrel w o t w' ->
  heard t = flat_map told (deliveries t).
Proof.
  intros [Hw Hm Hd Hs] Ht Hr. destruct Hr as [o t w' Hr Hpr|i c t w' Hr].
  - assert (forall i p, o <> OpRx i p) as Ho by (intros i p ->; exact Ht).
    destruct (op_other _ _ _ _ Hr Ho) as (_ & Hq & _). rewrite heard_quiet by exact Hq.
    rewrite <- (app_nil_r t), deliveries_quiet by exact Hq. reflexivity.
  - destruct Hr as [s' s S1 S2 S3 S4|s' s S1 S2 S3 S4 S5|p bs ap t w1 s' s Ep Hpk Hr Hsp S1 S2 S3 S4]; try reflexivity.
    eapply rx_rel_heard; [exact Hw|exact Hm|exact (po_bytes _ _ Hpk)|exact Hr].
Qed.

Lemma mhist_heard m (w : world) l t w' : mhist m w l t w' -> heard t = flat_map told (deliveries t).
Proof.
  induction 1 as [w|w o t1 w1 l t2 w2 Hw Ho Hr Hw1 Hh IH]; [reflexivity|].
  destruct (mrel_eff _ _ _ _ _ Hw Ho Hr) as ([_ _ E3 _] & _).
  rewrite heard_app, deliveries_app, flat_map_app by exact E3. rewrite IH, (mrel_heard _ _ _ _ _ Hw Ho Hr). reflexivity.
Qed.

(** ** The receiver *)
Lemma packs_small N src l pk : 68 <= N -> packs 68 src l pk -> Forall (fun p => 4 < zlen p <= 68) pk.
Proof.
  intros HN (pkl & Hp & ->). induction Hp as [|r ps l pkl (Htag & ver & mtu & Hmtu & Hp) Hpk IH]; [constructor|].
  cbn [concat]. apply Forall_app. split; [|exact IH]. apply Forall_forall. intros p Hin.
  apply In_nth_error in Hin. destruct Hin as (n & Hn).
  destruct (packetised_no _ _ _ _ _ _ _ _ Htag Hp n p Hn) as [_ _ _ _ _ N2].
  destruct (Nat.eqb (S n) (length ps)); lia.
Qed.

Section Hear.
Context (J : Z) (HJ : 0 <= J) (L : Z) (HL : L = 4096 * 2 ^ J) (HL64 : L < 2 ^ 64).

Lemma ser_hear eid src (w : world) l t w' msgs pk more :
  mhist (Endpoint eid) w l t w' -> Forall mconst l -> rst w false = Idle ->
  okctx J (m_ctxs (w_m w)) -> allfree (m_ctxs (w_m w)) -> (mfed false l <> [] -> m_max (w_m w) = L) -> m_rx (w_m w) = true ->
  (forall j, bd_ctrl (bnd w j) = false) -> src <> 0 -> packs 68 src msgs pk ->
  Forall (fun r => zlen (r_msg r) <= L) msgs -> mfed false l ++ more = flat_map wire pk ->
  exists rest, map (as_heard src) (filter (meant_for eid) msgs) = heard t ++ rest /\ (more = [] -> rest = []).
Proof.
  intros Hh Hc Hi Hok Hfree Hmax Hrx Hct Hsrc Hpk Hsz Hfed.
  assert (routs Idle (flat_map wire pk) = pk) as Epk.
  { apply (rrun_clean _ pk). apply clean_wires. eapply Forall_impl; [|exact (packs_small 68 _ _ _ ltac:(lia) Hpk)]. cbn. lia. }
  destruct (mhist_rst _ _ _ _ _ false Hh) as [_ Eh]. rewrite Hi in Eh.
  rewrite <- Hfed, routs_app, <- Eh in Epk. set (pk2 := routs (rrun Idle (mfed false l)) more) in *.
  destruct (mhist_eff _ _ _ _ _ Hh Hc) as ([E1 E2 E3 E4] & E5 & E6 & E7).
  assert (heard t = map out_of (snd (rx_run (m_ctxs (w_m w)) L (filter (taken (Some eid)) (handed false t))))) as Eheard.
  { rewrite (mhist_heard _ _ _ _ _ Hh), E2, (mhist_log _ _ _ _ _ Hh).
    replace (rx_run (m_ctxs (w_m w)) (m_max (w_m w)) (filter (taken (Some eid)) (handed false t)))
       with (rx_run (m_ctxs (w_m w)) L (filter (taken (Some eid)) (handed false t))).
    2:{ destruct (mfed false l) as [|c0 bs0] eqn:Em; [rewrite Eh; reflexivity|]. rewrite Hmax by discriminate. reflexivity. }
    generalize (snd (rx_run (m_ctxs (w_m w)) L (filter (taken (Some eid)) (handed false t)))).
    intros os. induction os as [|[bs ms] os IH]; [reflexivity|]. cbn [map flat_map]. rewrite IH.
    unfold told at 1, deliver. cbn [d_cb]. unfold cb_of, local_event. rewrite Hct, andb_false_r, Hrx. reflexivity. }
  pose proof (run_packs J HJ L HL HL64 68 src eid msgs pk (m_ctxs (w_m w)) Hsrc ltac:(lia) Hsz Hpk Hok Hfree) as Hrun.
  rewrite <- Epk, filter_app, rx_run_app in Hrun. cbn [snd] in Hrun. rewrite map_app, <- Eheard in Hrun.
  eexists. split; [symmetry; exact Hrun|]. intros ->. reflexivity.
Qed.
End Hear.

(** ** The sender *)
Section Say.
Context (fuel : nat) (app : event -> list txreq) (Hfuel : (256 <= fuel)%nat).
Context (src : Z).

(** Ready to send at once. *)
Definition eager (w : world) : Prop :=
  exists b, bget w false = Some b /\ bus_st b = TxEnabled /\ bus_q b = [].

Lemma eager_of w : bus_state_of w false = Some TxEnabled -> queued w false = [] -> eager w.
Proof.
  intros Ho Hq. rewrite bus_state_ost in Ho. unfold ost in Ho. rewrite queued_bget in Hq. unfold eager.
  destruct (bget w false) as [b|]; [|discriminate]. exists b. cbn in Ho. split; [reflexivity|]. split; [congruence|].
  now apply map_eq_nil in Hq.
Qed.

Lemma adv_and a A (p : prog A) : forall g (Q1 Q2 : A -> list event -> Prop),
  wp (adv a) p g Q1 -> wp (adv a) p g Q2 -> wp (adv a) p g (fun x g' => Q1 x g' /\ Q2 x g').
Proof.
  induction p as [x|f|r k IH|r v k IH|o n k IH|o bs k IH|bs k IH|k IH|e k IH]; cbn [wp adv h_kread h_kwrite h_lread h_lwrite h_swrite h_alloc h_emit]; intros g Q1 Q2 H1 H2.
  - auto.
  - exact H1.
  - destruct H1 as [A1 B1], H2 as [A2 B2]. split; auto.
  - destruct H1 as [A1 B1], H2 as [A2 B2]. split; auto.
  - destruct H1 as [A1 B1], H2 as [A2 B2]. split; auto.
  - destruct H1 as [A1 B1], H2 as [A2 B2]. split; auto.
  - intros r Hr Hs. auto.
  - destruct H1 as [A1 B1], H2 as [A2 B2]. split; auto.
  - auto.
Qed.

Lemma adv_frame a A (p : prog A) g0 : forall g (Q : A -> list event -> Prop),
  wp (adv a) p g Q -> wp (adv a) p (g0 ++ g) (fun x g' => exists t, g' = g0 ++ t /\ Q x t).
Proof.
  induction p as [x|f|r k IH|r v k IH|o n k IH|o bs k IH|bs k IH|k IH|e k IH]; cbn [wp adv h_kread h_kwrite h_lread h_lwrite h_swrite h_alloc h_emit]; intros g Q H1.
  - eauto.
  - exact H1.
  - destruct H1 as [A1 B1]. split; intros; rewrite <- app_assoc; auto.
  - destruct H1 as [A1 B1]. split; intros; rewrite <- app_assoc; auto.
  - destruct H1 as [A1 B1]. split; intros; rewrite <- ?app_assoc; auto.
  - destruct H1 as [A1 B1]. split; intros; rewrite <- ?app_assoc; auto.
  - intros r Hr Hs. rewrite <- app_assoc. auto.
  - destruct H1 as [A1 B1]. split; intros; auto.
  - rewrite <- app_assoc. auto.
Qed.

Lemma eager_dec w : eager w \/ ~ eager w.
Proof.
  destruct (bget w false) as [b|] eqn:E0; [|right; intros (b & H & _); congruence].
  destruct (bus_st b) eqn:E1; try (right; intros (b' & H1 & H & _); congruence).
  destruct (bus_q b) eqn:E2; [left; exists b; auto|right; intros (b' & H1 & _ & H); congruence].
Qed.

Lemma wp_says : forall msgs w g, SI (Endpoint src) w -> Forall (fun r => 0 <= r_tag r <= 7) msgs ->
  wp (adv no_oom) (sexec fuel app w (map say msgs)) g (fun w' g' => exists t, g' = g ++ t /\
     (eager w -> writes_ok t -> exists pk, packs 68 src msgs pk /\ sent t = flat_map wire pk /\ eager w')).
Proof.
  induction msgs as [|r msgs IH]; intros w g Hs Ht; cbn [map sexec].
  { cbn [wp]. exists []. rewrite app_nil_r. split; [reflexivity|]. intros He _. exists []. split; [apply packs_nil|]. split; [reflexivity|exact He]. }
  inversion Ht as [|? ? Hr Ht']; subst. unfold say at 1.
  eapply wp_call with (P := fun w1 g1 => (exists t, g1 = g ++ t /\ SI (Endpoint src) w1) /\
    (exists t, g1 = g ++ t /\ (eager w -> writes_ok t -> exists pk, packs 68 src [r] pk /\ sent t = flat_map wire pk /\ eager w1)));
    [apply adv_mono|apply adv_and|].
  - eapply wp_mono; [apply adv_mono| |eapply (wp_ser_op fuel app no_oom eq_refl eq_refl Hfuel (Endpoint src));
        [exact (si_wf _ _ Hs)|exact (si_mode _ _ Hs)|exact I]].
    intros w1 g1 (t1 & -> & Hrl & Hw1 & Hp). exists t1. split; [reflexivity|].
    eapply (mrel_SI (Endpoint src) w (MOp _)); [exact Hs| |apply MROp; [exact Hrl|exact Hp]|exact Hw1]. exact I.
  - destruct (eager_dec w) as [(b & Hb & Hst & Hq)|Hn].
    2:{ eapply wp_mono; [apply adv_mono| |eapply (wp_ser_op fuel app no_oom eq_refl eq_refl Hfuel (Endpoint src));
        [exact (si_wf _ _ Hs)|exact (si_mode _ _ Hs)|exact I]].
        intros w1 g1 (t1 & -> & _). exists t1. split; [reflexivity|]. intros H. contradiction. }
    unfold exec_op. rewrite (wf_dead _ _ (si_wf _ _ Hs)).
    eapply wp_call; [apply adv_mono| |].
    { pose proof (wp_ser_message fuel no_oom eq_refl eq_refl Hfuel w (r_eid r) (r_to r) (r_tag r) (r_msg r) src
        (si_wf _ _ Hs) (si_mode _ _ Hs) (si_dims _ _ Hs)) as Hm.
      rewrite bus_state_ost in Hm. unfold ost in Hm. rewrite queued_bget, Hb in Hm. cbn [option_map] in Hm.
      rewrite Hst, Hq in Hm. apply (adv_frame _ _ _ g) in Hm; [|reflexivity|reflexivity|exact Hr].
      rewrite app_nil_r in Hm. exact Hm. }
    intros [w1 rc] g1 (t & -> & pk & Hp & Hw). cbn [fst snd wp h_emit adv] in *. exists (t ++ [EvRet rc]).
    rewrite app_assoc. split; [reflexivity|]. intros _ Hk. apply writes_ok_app in Hk. destruct Hk as [Hk _].
    destruct (Hw Hk) as (Hsn & _ & Hb'). exists pk. split; [|split; [rewrite sent_app, Hsn; cbn; apply app_nil_r|exact Hb']].
    exists [pk]. split; [constructor; [|constructor]|cbn [concat]; now rewrite app_nil_r].
    split; [exact Hr|]. eexists _, 64. split; [lia|exact Hp].
  - intros w1 g1 [(t & -> & Hs1) (t' & Et & H1)]. apply app_inv_head in Et. subst t'.
    eapply wp_mono; [apply adv_mono| |apply (IH w1); assumption].
    intros w2 g2 (t2 & -> & H2). exists (t ++ t2). rewrite app_assoc. split; [reflexivity|].
    intros He Hk. apply writes_ok_app in Hk. destruct Hk as [K1 K2]. destruct (H1 He K1) as (p1 & P1 & S1 & He1).
    destruct (H2 He1 K2) as (p2 & P2 & S2 & He2). exists (p1 ++ p2). split; [exact (packs_app _ _ [r] p1 msgs p2 P1 P2)|].
    split; [|exact He2]. rewrite sent_app, flat_map_app. congruence.
Qed.
End Say.

(** *** C65.  A serial endpoint [src] that has nothing queued sends messages (up to [L] bytes
    each), and all its writes succeed.  A serial endpoint [eid] with no half-received
    message is fed the bytes so sent, in any chunks, while it does anything else; [more]
    is what has not arrived yet.  Its handler has then been called for the messages meant for it that have
    arrived: in order, each once, intact, and no others; when all has arrived, for all. *)
Theorem C65_stream fuel appS appR J L src eid msgs ws trs e x n ts w tr l more :
  (256 <= fuel)%nat -> 0 <= J -> L = 4096 * 2 ^ J -> L < 2 ^ 64 ->
  Forall (fun r => 0 <= r_tag r <= 7 /\ zlen (r_msg r) <= L) msgs ->
  ser_reaches fuel appS (Endpoint src) ws trs -> src <> 0 ->
  bus_state_of ws false = Some TxEnabled -> queued ws false = [] ->
  env_ok no_oom e -> run e 0 [] (sexec fuel appS ws (map say msgs)) = Done x n ts -> writes_ok ts ->
  ser_reaches_by (fun past => ser_limited L 65536 (past ++ l)) fuel appR (Endpoint eid) w tr ->
  idle w false -> m_rx (w_m w) = true -> partials w = [] ->
  Forall (ser_traffic (Endpoint eid)) l -> ser_no_config l -> fed false l ++ more = sent ts ->
  always no_oom (sexec fuel appR w l) (fun w' t =>
    exists rest, map (as_heard src) (filter (meant_for eid) msgs) = heard t ++ rest /\ (more = [] -> rest = [])).
Proof.
  intros Hfuel HJ HL HL64 Hsz Hs Hsrc Hst Hq He Hrun Hwr Hr Hid Hrx Hpart Hl Hcf Hfed.
  destruct (ser_reaches_spec fuel appS (Endpoint src) Hfuel ws trs Hs) as [HSI _].
  pose proof (wp_says fuel appS Hfuel src msgs ws [] HSI) as Hsay. apply adv_always in Hsay.
  2:{ eapply Forall_impl; [|exact Hsz]. cbn. tauto. }
  specialize (Hsay e He). rewrite Hrun in Hsay. destruct Hsay as (t0 & -> & Hpk). cbn [Datatypes.app] in *.
  destruct (Hpk (eager_of _ Hst Hq) Hwr) as (pk & Hpacks & Hsent & _). rewrite Hsent in Hfed.
  destruct Hr as (past & e1 & n1 & Hlp & Hlim & He1 & Hrun1).
  assert (ser_reaches fuel appR (Endpoint eid) w tr) as Hr by (exists past, e1, n1; auto).
  pose proof (ser_history_spec fuel appR (Endpoint eid) Hfuel past Hlp e1 He1) as Hh0. rewrite Hrun1 in Hh0.
  destruct Hh0 as (tp & _ & Hh0 & _).
  pose proof (mlimited_micro L _ _ Hlim) as Hml. rewrite micro_app in Hml.
  destruct (mhist_ok J HJ L HL HL64 _ _ _ _ _ Hh0) with (l' := micro l) as (Hok & Hml' & Hct).
  { constructor.
    - exists []. apply CI_fresh.
    - repeat constructor; cbn; lia.
    - repeat constructor; left; reflexivity. }
  { exact Hml. }
  assert (forall j, bd_ctrl (bnd w j) = false) as Hct0 by (intros j; rewrite Hct; destruct j; reflexivity).
  assert (forall ml, Forall mconst ml -> mfed false ml <> [] -> mlimited L (m_max (w_m w)) ml -> m_max (w_m w) = L) as Hgen.
  { induction ml as [|o ml IHm]; intros Hc Hnf Hm; [contradiction|]. inversion Hc as [|? ? Hc1 Hc2]; subst.
    destruct o as [[]|]; cbn [mlimited] in Hm; try (apply IHm; [exact Hc2|exact Hnf|exact Hm]); try contradiction.
    exact (proj1 Hm). }
  intros e' He'. pose proof (ser_continue fuel appR (Endpoint eid) Hfuel w tr l Hr Hl e' He') as Hco.
  destruct (run e' 0 [] (sexec fuel appR w l)) as [w' n' t|]; [|exact Hco]. destruct Hco as [Hh _].
  eapply (ser_hear J HJ L HL HL64 eid src w (micro l) t w' msgs pk more); try eassumption.
  - now apply mconst_micro.
  - now apply idle_rst.
  - apply Forall_forall. intros c Hc. apply In_nth_error in Hc. destruct Hc as (k & Hk).
    destruct (Z.eq_dec (c_src c) 0) as [E|E]; [exact E|exfalso].
    assert (In (c_key c, c_data c) (partials w)) as Hin by (apply partials_in; eauto 6).
    rewrite Hpart in Hin. destruct Hin.
  - intros Hf. apply (Hgen (micro l)); [now apply mconst_micro|exact Hf|exact Hml'].
  - eapply Forall_impl; [|exact Hsz]. cbn. tauto.
  - rewrite mfed_micro. exact Hfed.
Qed.
