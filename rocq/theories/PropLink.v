(** PropLink: C80, from a client of one demultiplexing daemon to the clients of another, across a serial line. *)
From Verif Require Import Base Lists Prog PktBuf Core WP Walk CoreRel WalkCore CoreHist Spec SpecRx Trace PropTx PropMsg
  Reasm PropRx PropRound Crc Serial SpecSer SerRx SerWalk PropSer PropSerTx PropSerRound SpecDuo DuoMsg PropDuoMsg PropSerStream.
From Verif Require Daemon PropDaemon DaemonRun DaemonBugs PropClients.

Local Notation world := (world serial).

(** ** Reception by an application that does not answer *)
Section Mute.
Context (fuel : nat) (app : event -> list txreq) (Hfuel : (256 <= fuel)%nat) (Happ : forall e, app e = []).

Lemma sent_capev (w : world) b bs : sent (capev w b bs) = [].
Proof. unfold capev. destruct (m_cap (w_m w)); reflexivity. Qed.

Lemma rx_rel_mute (w : world) i id bs t w' : rx_rel Strict app w i id bs t w' -> m_policy (w_m w) = RouteEndpoint ->
  sent t = [] /\ forall j, bget w' j = bget w j.
Proof.
  intros Hr Hp. destruct Hr as [b Hb Hl|b t w' Hb Hl Hr]; [split; reflexivity|].
  change (EvBusRx i (busrx_local w b) id bs :: capev w false bs ++ t ++ [EvFree id])
    with ([EvBusRx i (busrx_local w b) id bs] ++ capev w false bs ++ t ++ [EvFree id]).
  rewrite !sent_app, sent_capev. change (sent [EvFree id]) with (@nil Z).
  change (sent [EvBusRx i (busrx_local w b) id bs]) with (@nil Z). rewrite app_nil_r. cbn [Datatypes.app].
  destruct Hr as [b0 Hb0 Hp0 Hd|b0 cs Hb0 Hd Hx|b0 cs s d m t w' Hb0 Hd Hx Hr]; [split; reflexivity|split; [reflexivity|intros; apply bget_setc]|].
  destruct Hr as [b1 H1 H2 H3|b1 e t w' H1 H2 H3 H4 H5|rc t w' H1 H2].
  - split; [reflexivity|intros; apply bget_setc].
  - rewrite Happ in H5. inversion H5; subst. split; [|intros; apply bget_setc].
    destruct (local_event_shape _ _ _ _ _ _ _ H4) as [-> | ->]; reflexivity.
  - cbn in H1. congruence.
Qed.

Lemma bget_put (w : world) i s j : bget (put_ser w i s) j = bget w j.
Proof. unfold put_ser. destruct i; reflexivity. Qed.

Lemma wp_consume_mute (w : world) i b c g :
  WF Strict w -> bget w i = Some b -> ser_dims (bnd w i) -> swf (bd_priv (bnd w i)) -> is_byte c ->
  m_policy (w_m w) = RouteEndpoint ->
  wp (adv no_oom) (consume_one fuel app w i c) g
     (fun w' g' => exists t, g' = g ++ t /\ sent t = [] /\ forall j, bget w' j = bget w j).
Proof.
  intros Hw Hb (Hd1 & Hd2 & Hd3) Hs Hc Hpol. unfold consume_one.
  set (s := bd_priv (bnd w i)) in *.
  assert (Hq : forall s', exists t, g = g ++ t /\ sent t = [] /\ forall j, bget (put_ser w i s') j = bget w j).
  { intros s'. exists []. rewrite app_nil_r. split; [reflexivity|]. split; [reflexivity|]. intros j. apply bget_put. }
  assert (Hself : exists t, g = g ++ t /\ sent t = [] /\ forall j, bget w j = bget w j).
  { exists []. rewrite app_nil_r. auto. }
  assert (Hdata : forall p bs x, pkt_ok p bs -> zlen bs < 68 -> wp (adv no_oom) (data_byte w i s p x) g
     (fun w' g' => exists t, g' = g ++ t /\ sent t = [] /\ forall j, bget w' j = bget w j)).
  { intros p bs x Hp Hz. unfold data_byte. destruct (push_ok p bs x Hp ltac:(lia)) as (p' & E & Hp' & Hid). rewrite E.
    cbn [bind wp]. apply Hq. }
  unfold swf in Hs. destruct (s_st s) eqn:Est.
  - rewrite Hs. cbn [Bool.eqb assert_ bind]. destruct (c =? SER_FLAG); cbn [wp]; auto.
  - rewrite Hs. cbn [Bool.eqb assert_ bind]. destruct (c =? SER_REV); [|destruct (c =? SER_FLAG)]; cbn [wp]; auto.
  - destruct Hs as [Hs Hcalc]. rewrite Hs. cbn [Bool.eqb assert_ bind]. rewrite Hd1.
    destruct ((68 <? c) || (c <? 4)); [cbn [wp]; auto|].
    unfold start_packet. rewrite Hd1, Hd2, Hd3. unfold pktbuf_alloc.
    change (w64 (68 + 0 + 0) <? 0) with false. cbv iota. cbn [bind wp h_alloc adv].
    split; [|discriminate]. cbn [bind wp h_emit adv].
    exists [EvAlloc (m_next (w_m w))]. split; [reflexivity|]. split; [reflexivity|]. intros j. rewrite bget_put. reflexivity.
  - destruct Hs as (p & bs & Ep & Hp & Hz & Hcalc). rewrite Ep. cbn [Bool.eqb assert_ bind].
    destruct (c =? SER_ESC); [cbn [wp]; auto|]. cbn [deref bind]. apply (Hdata p bs); [exact Hp|lia].
  - destruct Hs as (p & bs & Ep & Hp & Hz & Hcalc). rewrite Ep. cbn [Bool.eqb assert_ bind].
    cbn [deref bind]. apply (Hdata p bs); [exact Hp|lia].
  - destruct Hs as (p & bs & Ep & Hp & Hcalc). rewrite Ep. cbn [Bool.eqb assert_ bind wp]. auto.
  - destruct Hs as [(p & bs & Ep & Hp & Hcalc) _]. rewrite Ep. cbn [Bool.eqb assert_ bind wp]. auto.
  - destruct Hs as (p & bs & Ep & Hp & Hcalc). rewrite Ep. cbn [Bool.eqb assert_ bind].
    unfold finish_packet. fold s. rewrite Ep.
    destruct ((s_fcs s =? s_calc s) && (c =? SER_FLAG)) eqn:Ev.
    + apply wp_bind; [apply adv_mono|]. apply wp_bind; [apply adv_mono|].
      set (s0 := bd_priv (w_b0 w)). set (s1 := bd_priv (w_b1 w)).
      pose proof (Js_emit no_oom s0 s1) as He. pose proof (Js_alloc no_oom eq_refl s0 s1) as Hal.
      pose proof (Js_btx fuel no_oom eq_refl eq_refl Hfuel s0 s1) as Hbt.
      eapply wp_mono; [apply adv_mono| |
        eapply (wp_bus_rx (serial_tx fuel) app (adv no_oom) (adv_mono no_oom) id Strict (Js s0 s1) He Hal Hbt w i b p bs);
        [exact Hw|exact Hb|exact (po_wf _ _ Hp)|exact (po_bytes _ _ Hp)|
         intros lo Q HQ; apply HQ; [apply Js_self|reflexivity]]].
      intros w1 g1 (t & Et & Hr & HJ). unfold id in Et. cbn [wp].
      exists t. split; [exact Et|]. destruct (rx_rel_mute _ _ _ _ _ _ Hr Hpol) as [H1 H2]. split; [exact H1|].
      intros j. rewrite !bget_put. apply H2.
    + cbn [bind wp]. exists []. rewrite app_nil_r. split; [reflexivity|]. split; [reflexivity|]. intros j. rewrite !bget_put. reflexivity.
Qed.

Context (src : Z).
Let m := Endpoint src.

Lemma wp_rx_mute : forall bs (w : world) g, SI m w -> Forall is_byte bs ->
  wp (adv no_oom) (serial_rx fuel app w false bs) g
     (fun w' g' => exists t, g' = g ++ t /\ SI m w' /\ sent t = [] /\ forall j, bget w' j = bget w j).
Proof.
  assert (mode_bus m false) as Hi by (intros H; discriminate).
  induction bs as [|c bs IH]; intros w g Hw Hb; cbn [serial_rx].
  - cbn [wp]. exists []. rewrite app_nil_r. auto.
  - inversion Hb as [|? ? Hc Hb']; subst.
    destruct (mode_bget m w false (si_wf _ _ Hw) (si_mode _ _ Hw) Hi) as (b & Hbg).
    assert (m_policy (w_m w) = RouteEndpoint) as Hpol by (destruct (si_mode _ _ Hw) as [H _]; exact H).
    eapply wp_call; [apply adv_mono|apply adv_and;
      [eapply (wp_consume fuel app no_oom eq_refl eq_refl Hfuel)|eapply wp_consume_mute];
      first [exact (si_wf _ _ Hw)|exact Hbg|apply (si_dims _ _ Hw)|apply (si_swf _ _ Hw)|exact Hc|exact Hpol]|].
    intros w1 g1 [(t1 & -> & Hr & Hw1) (t1' & E1 & Hs1 & Hg1)]. apply app_inv_head in E1. subst t1'.
    assert (mtraffic m (MByte false c)) as Htr by (split; assumption).
    assert (SI m w1) as Hsi by (eapply mrel_SI; [exact Hw|exact Htr|apply MRByte; exact Hr|exact Hw1]).
    eapply wp_mono; [apply adv_mono| |apply (IH w1); assumption].
    intros w2 g2 (t2 & -> & Hw2 & Hs2 & Hg2). exists (t1 ++ t2). rewrite app_assoc, sent_app, Hs1, Hs2.
    split; [reflexivity|]. split; [exact Hw2|]. split; [reflexivity|]. intros j. rewrite Hg2. apply Hg1.
Qed.

(** *** Sending while receiving *)
(** What the application of these operations sends. *)
Definition said (l : list sop) : list txreq :=
  flat_map (fun o => match o with SCore (OpTx eid to tag msg) => [mkReq eid to tag msg] | _ => [] end) l.
Definition chat (o : sop) : Prop :=
  match o with
  | SCore (OpSetCapture _) | SCore (OpSetRx _) => True
  | SCore (OpTx _ _ tag _) => 0 <= tag <= 7
  | SRx false bs => Forall is_byte bs
  | _ => False
  end.

Lemma eager_same (w w' : world) : (forall j, bget w' j = bget w j) -> eager w -> eager w'.
Proof. intros E (b & H). exists b. rewrite E. exact H. Qed.

Lemma wp_chat : forall l w g, SI m w -> Forall chat l ->
  wp (adv no_oom) (sexec fuel app w l) g (fun w' g' => exists t, g' = g ++ t /\
     (eager w -> writes_ok t -> exists pk, packs 68 src (said l) pk /\ sent t = flat_map wire pk /\ eager w')).
Proof.
  induction l as [|o l IH]; intros w g Hs Ht; cbn [sexec].
  { cbn [wp]. exists []. rewrite app_nil_r. split; [reflexivity|]. intros He _. exists []. split; [apply packs_nil|]. split; [reflexivity|exact He]. }
  inversion Ht as [|? ? Hr Ht']; subst.
  assert (forall p : Prog.prog world, wp (adv no_oom) p g (fun w1 g1 => exists t, g1 = g ++ t /\ SI m w1 /\
    (eager w -> writes_ok t -> exists pk, packs 68 src (said [o]) pk /\ sent t = flat_map wire pk /\ eager w1)) ->
    wp (adv no_oom) (Prog.bind p (fun w' => sexec fuel app w' l)) g (fun w' g' => exists t, g' = g ++ t /\
     (eager w -> writes_ok t -> exists pk, packs 68 src (said (o :: l)) pk /\ sent t = flat_map wire pk /\ eager w'))) as K.
  { intros p Hp. eapply wp_call; [apply adv_mono|exact Hp|]. intros w1 g1 (t & -> & Hs1 & H1).
    eapply wp_mono; [apply adv_mono| |apply (IH w1); assumption].
    intros w2 g2 (t2 & -> & H2). exists (t ++ t2). rewrite app_assoc. split; [reflexivity|].
    intros He Hk. apply writes_ok_app in Hk. destruct Hk as [K1 K2]. destruct (H1 He K1) as (p1 & P1 & S1 & He1).
    destruct (H2 He1 K2) as (p2 & P2 & S2 & He2). exists (p1 ++ p2). split.
    { replace (said (o :: l)) with (said [o] ++ said l) by (unfold said; cbn [flat_map]; now rewrite app_nil_r).
      exact (packs_app _ _ (said [o]) p1 (said l) p2 P1 P2). }
    split; [|exact He2]. rewrite sent_app, flat_map_app. congruence. }
  destruct o as [o|i bs].
  2:{ destruct i; [destruct Hr|]. apply K. rewrite (wf_dead _ _ (si_wf _ _ Hs)).
      eapply wp_mono; [apply adv_mono| |apply wp_rx_mute; [exact Hs|exact Hr]].
      intros w1 g1 (t & -> & Hs1 & Hse & Hg). exists t. split; [reflexivity|]. split; [exact Hs1|]. intros He _.
      exists []. split; [apply packs_nil|]. split; [exact Hse|]. eapply eager_same; eassumption. }
  assert (ser_traffic m (SCore o)) as Htr by (destruct o; try destruct Hr; exact I).
  apply K. eapply wp_mono; [apply adv_mono| |apply adv_and].
  2:{ eapply (wp_ser_op fuel app no_oom eq_refl eq_refl Hfuel m); [exact (si_wf _ _ Hs)|exact (si_mode _ _ Hs)|exact Htr]. }
  2:{ instantiate (1 := fun w1 g1 => exists t, g1 = g ++ t /\ 
    (eager w -> writes_ok t -> exists pk, packs 68 src (said [SCore o]) pk /\ sent t = flat_map wire pk /\ eager w1)).
    unfold exec_op. rewrite (wf_dead _ _ (si_wf _ _ Hs)). destruct o as [n|b|b|eid| | | |i p|eid to tag msg|i en|i b|i n]; try (destruct Hr; fail).
    - cbn [wp]. exists []. rewrite app_nil_r. split; [reflexivity|]. intros He _. exists []. split; [apply packs_nil|]. split; [reflexivity|].
      eapply eager_same; [|exact He]. intros j. reflexivity.
    - cbn [wp]. exists []. rewrite app_nil_r. split; [reflexivity|]. intros He _. exists []. split; [apply packs_nil|]. split; [reflexivity|].
      eapply eager_same; [|exact He]. intros j. reflexivity.
    - destruct (eager_dec w) as [(b & Hb & Hst & Hq)|Hn].
      2:{ pose proof (wp_ser_op fuel app no_oom eq_refl eq_refl Hfuel m w (OpTx eid to tag msg) g (si_wf _ _ Hs) (si_mode _ _ Hs) Htr) as Hop.
        unfold exec_op in Hop. rewrite (wf_dead _ _ (si_wf _ _ Hs)) in Hop.
        eapply wp_mono; [apply adv_mono| |exact Hop].
        intros w1 g1 (t1 & -> & _). exists t1. split; [reflexivity|]. intros H. contradiction. }
      eapply wp_call; [apply adv_mono| |].
      { pose proof (wp_ser_message fuel no_oom eq_refl eq_refl Hfuel w eid to tag msg src
          (si_wf _ _ Hs) (si_mode _ _ Hs) (si_dims _ _ Hs)) as Hm.
        rewrite bus_state_ost in Hm. unfold ost in Hm. rewrite queued_bget, Hb in Hm. cbn [option_map] in Hm.
        rewrite Hst, Hq in Hm. apply (adv_frame _ _ _ g) in Hm; [|reflexivity|reflexivity|exact Hr].
        rewrite app_nil_r in Hm. exact Hm. }
      intros [w1 rc] g1 (t & -> & pk & Hp & Hw). cbn [fst snd wp h_emit adv] in *. exists (t ++ [EvRet rc]).
      rewrite app_assoc. split; [reflexivity|]. intros _ Hk. apply writes_ok_app in Hk. destruct Hk as [Hk _].
      destruct (Hw Hk) as (Hsn & _ & Hb'). exists pk. split; [|split; [rewrite sent_app, Hsn; cbn; apply app_nil_r|exact Hb']].
      exists [pk]. split; [constructor; [|constructor]|cbn [concat]; now rewrite app_nil_r].
      split; [exact Hr|]. eexists _, 64. split; [lia|exact Hp]. }
  intros w1 g1 [(t1 & -> & Hrl & Hw1 & Hp) (t & Et & H)]. apply app_inv_head in Et. subst t. exists t1. split; [reflexivity|].
  split; [|exact H]. eapply (mrel_SI m w (MOp _)); [exact Hs|exact Htr|apply MROp; [exact Hrl|exact Hp]|exact Hw1].
Qed.
End Mute.

(** ** Specification *)
Import Daemon.

(** The operations of the MCTP stack that the calls of the daemon are: mctp_message_tx, and
    binding->process, which reads some bytes from the serial line and hands them to the
    receiver (mctp-demux-daemon.c:82-88, 204-207, serial.c mctp_serial_read). *)
Inductive calls : list ev -> list sop -> Prop :=
| calls_none : calls [] []
| calls_tx d o tag msg rc tr l : calls tr l ->
    calls (Ev (CTx d o tag msg) rc :: tr) (SCore (OpTx d o tag msg) :: l)
| calls_process bs a tr l : Forall is_byte bs -> calls tr l ->
    calls (Ev CProcess a :: tr) (SRx false bs :: l)
| calls_other c a tr l : match c with CTx _ _ _ _ | CProcess => False | _ => True end -> calls tr l ->
    calls (Ev c a :: tr) l.
(** The messages the stack handed to the daemon's rx_message. *)
Definition processed (tr : list ev) : list mctp_msg :=
  flat_map (fun e => match e with
    | Ev c a => match c return answer c -> list mctp_msg with CProcess => fun a => fst a | _ => fun _ => [] end a
    end) tr.
(** The daemon's rx_message sends nothing through the stack. *)
Definition mute : event -> list txreq := fun _ => [].
(** A demultiplexing daemon of EID [eid] on a serial line: [tr] is what it did, [ops] what it
    asked of the stack, [ts] what the stack did.  The stack is set up as main and run_daemon do
    (mctp-demux-daemon.c:644-695, 486), with or without a capture handler, and what it delivers is
    what the daemon is given. *)
Record serving (eid : Z) (tr : list ev) (ops : list sop) (ts : list event) : Prop := Serving {
  sv_daemon : exists n cap r, exec (run_daemon n (start eid cap) false) tr r;
  sv_calls : calls tr ops;
  sv_stack : exists fuel e w k cb, (256 <= fuel)%nat /\ env_ok no_oom e /\
    Prog.run e 0 [] (ser_history fuel mute (Endpoint eid) (SCore (OpSetCapture cb) :: SCore (OpSetRx true) :: ops)) = Prog.Done w k ts;
  sv_given : processed tr = map (fun h => match h with (s, _, _, msg) => Msg s msg end) (heard ts) }.

(** What a client sends: the destination, then the message.  Those that daemon [a] puts on the line and that
    daemon [b] takes from it: not for [a] itself, not empty, for [b] or the null EID or everyone. *)
Definition crosses (a b : Z) (bs : list Z) : bool :=
  match bs with
  | [] => false
  | d :: msg => negb (d =? a) && (0 <? zlen msg) && ((d =? b) || (d =? 0) || (d =? 255))
  end.
(** What a client gets: the source, then the message. *)
Definition came_from (a : Z) (bs : list Z) : list Z := a :: tl bs.
Definition given (tr : list ev) : list (list Z) := map (fun m => m_src m :: m_bytes m) (processed tr).

(** ** Proof *)
Lemma calls_said tr l : calls tr l ->
  said l = map (fun x => match x with (d, o, tag, msg) => mkReq d o tag msg end) (PropDaemon.txs tr).
Proof.
  induction 1 as [|d o tag msg rc tr l H IH|bs a tr l Hb H IH|c a tr l Hc H IH]; [reflexivity| |exact IH|].
  - change (said (SCore (OpTx d o tag msg) :: l)) with (mkReq d o tag msg :: said l). rewrite IH. reflexivity.
  - change (PropDaemon.txs (Ev c a :: tr)) with (PropDaemon.txd (Ev c a) ++ PropDaemon.txs tr).
    destruct c; try destruct Hc; exact IH.
Qed.
Lemma calls_traffic eid tr l : calls tr l -> Forall (ser_traffic (Endpoint eid)) l /\ ser_no_config l.
Proof.
  unfold ser_no_config.
  induction 1 as [|d o tag msg rc tr l H [I1 I2]|bs a tr l Hb H [I1 I2]|c a tr l Hc H IH]; [auto| | |exact IH].
  - split; constructor; auto; exact I.
  - split; constructor; auto. split; [intros E; discriminate|exact Hb].
Qed.
Lemma calls_limited tr l : calls tr l -> ser_limited 65536 65536 l.
Proof. induction 1; cbn [ser_limited]; auto. Qed.
Lemma calls_chat tr l : calls tr l -> Forall (fun x => match x with (_, _, tag, _) => tag = 0 end) (PropDaemon.txs tr) -> Forall chat l.
Proof.
  induction 1 as [|d o tag msg rc tr l H IH|bs a tr l Hb H IH|c a tr l Hc H IH]; intros Ht; auto.
  - cbn [PropDaemon.txs flat_map PropDaemon.txd Datatypes.app] in Ht. inversion Ht as [|? ? H1 H2]; subst.
    constructor; [cbn; lia|]. now apply IH.
  - apply IH. change (PropDaemon.txs (Ev c a :: tr)) with (PropDaemon.txd (Ev c a) ++ PropDaemon.txs tr) in Ht.
    apply Forall_app in Ht. tauto.
Qed.
Lemma crossing a b l :
  map (fun h => match h with (s, _, _, msg) => s :: msg end)
    (map (as_heard a) (filter (meant_for b)
      (map (fun x => match x with (d, o, tag, msg) => mkReq d o tag msg end) (flat_map (DaemonRun.outgoing a) l)))) =
  map (came_from a) (filter (crosses a b) l).
Proof.
  induction l as [|[|d msg] l IH]; [reflexivity|exact IH|].
  cbn [flat_map filter DaemonRun.outgoing crosses]. destruct (d =? a); cbn [negb andb map Datatypes.app]; [exact IH|].
  cbn [filter]. change (meant_for b (mkReq d true 0 msg)) with ((0 <? zlen msg) && ((d =? b) || (d =? 0) || (d =? 255))).
  destruct ((0 <? zlen msg) && ((d =? b) || (d =? 0) || (d =? 255))); cbn [map]; rewrite IH; reflexivity.
Qed.

(** *** C80.  Two daemons on a line, each serving clients, transmitting and receiving as it
    happens.  No write of the first fails and its clients send at most 65536 bytes each
    time; the second has read a part of the bytes the first wrote, in any chunks.  Then
    what the stack of the second gave to its daemon is what the clients of the first sent
    across, in order, each once, whole, behind the EID of the first, up to what has not arrived. *)
Theorem C80_daemons : forall a b trA trB opsA opsB tsA tsB more,
  serving a trA opsA tsA -> serving b trB opsB tsB -> a <> 0 ->
  writes_ok tsA -> Forall (fun bs => zlen bs <= 65537) (PropDaemon.received trA) ->
  fed false opsB ++ more = sent tsA ->
  exists rest, map (came_from a) (filter (crosses a b) (PropDaemon.received trA)) = given trB ++ rest /\
    (more = [] -> rest = []).
Proof.
  intros a b trA trB opsA opsB tsA tsB more [(nA & capA & rA & DA) CA (fA & eA & wA & kA & cbA & FA & EA & RA) GA]
    [_ CB (fB & eB & wB & kB & cbB & FB & EB & RB) GB] Ha Hwr Hsz Hfed.
  apply DaemonRun.C52_transmits in DA.
  (* the sender *)
  assert (Forall chat opsA) as HchatA.
  { eapply calls_chat; [exact CA|]. rewrite DA. apply Forall_forall. intros x Hx. apply in_flat_map in Hx.
    destruct Hx as ([|d msg] & _ & Hx); [destruct Hx|]. cbn in Hx. destruct (d =? a); [destruct Hx|]. destruct Hx as [<-|[]]. reflexivity. }
  assert (exists pk, packs 68 a (said opsA) pk /\ sent tsA = flat_map wire pk) as (pk & Hpk & Hsent).
  { assert (always no_oom (ser_history fA mute (Endpoint a) (SCore (OpSetCapture cbA) :: SCore (OpSetRx true) :: opsA))
      (fun _ t => writes_ok t -> exists pk, packs 68 a (said opsA) pk /\ sent t = flat_map wire pk)) as Hal.
    { apply adv_always. unfold ser_history. cbn [sexec].
      eapply wp_call; [apply adv_mono|apply (wp_ser_boot fA mute no_oom eq_refl (Endpoint a))|].
      intros w0 g0 [-> ->]. cbn [Datatypes.app].
      assert (SI (Endpoint a) (ser_booted (Endpoint a))) as HSI.
      { assert (ser_reaches 256 mute (Endpoint a) (ser_booted (Endpoint a)) (ser_boot_ev (Endpoint a))) as Hre.
        { exists [], (mkEnv (fun _ => true) (fun _ _ => Some 0) (fun _ => true) (fun _ _ => 0) (fun _ => 1)).
          eexists. split; [constructor|]. split; [repeat split; try discriminate; reflexivity|reflexivity]. }
        exact (proj1 (ser_reaches_spec 256 mute (Endpoint a) ltac:(lia) _ _ Hre)). }
      pose proof (wp_chat fA mute FA (fun _ => eq_refl) a (SCore (OpSetCapture cbA) :: SCore (OpSetRx true) :: opsA)
        (ser_booted (Endpoint a)) (ser_boot_ev (Endpoint a)) HSI
        ltac:(constructor; [exact I|constructor; [exact I|exact HchatA]])) as Hc.
      eapply wp_mono; [apply adv_mono| |exact Hc].
      intros w1 g1 (t & -> & Ht) Hw. apply writes_ok_app in Hw. destruct Hw as [_ Hw].
      destruct Ht as (pk & P1 & P2 & _); [eexists; split; [reflexivity|split; reflexivity]|exact Hw|].
      exists pk. split; [exact P1|]. rewrite sent_app, P2. reflexivity. }
    specialize (Hal eA EA). rewrite RA in Hal. exact (Hal Hwr). }
  rewrite Hsent in Hfed.
  (* the receiver *)
  destruct (calls_traffic b _ _ CB) as [TB NB].
  assert (Forall (ser_traffic (Endpoint b)) (SCore (OpSetCapture cbB) :: SCore (OpSetRx true) :: opsB)) as TB'.
  { constructor; [exact I|]. constructor; [exact I|exact TB]. }
  pose proof (ser_history_spec fB mute (Endpoint b) FB _ TB' eB EB) as HB. rewrite RB in HB.
  destruct HB as (tB & -> & HB & _). cbn [micro flat_map Datatypes.app] in HB. fold (micro opsB) in HB.
  inversion HB as [|? ? t1 w1 ? t2 w2 S1 T1 R1 S1' HB1]; subst. clear HB. inversion R1 as [? ? ? O1 P1|]; subst. inversion O1; subst. clear O1 R1.
  inversion HB1 as [|? ? t1 w1 ? t3 w2 S2 T2 R2 S2' HB2]; subst. clear HB1. inversion R2 as [? ? ? O2 P2|]; subst. inversion O2; subst. clear O2 R2.
  cbn [Datatypes.app] in *.
  destruct okctx_fresh as [F1 F2].
  destruct (ser_hear 4 ltac:(lia) 65536 eq_refl ltac:(lia) b a _ (micro opsB) t3 wB (said opsA) pk more HB2) as (rest & Hr & Hm); try assumption; try reflexivity.
  - now apply mconst_micro.
  - intros [|]; reflexivity.
  - rewrite (calls_said _ _ CA), DA. apply Forall_forall. intros r Hr. apply in_map_iff in Hr. destruct Hr as ([[[d o] tag] msg] & <- & Hx).
    apply in_flat_map in Hx. destruct Hx as ([|d' msg'] & Hin & Hx); [destruct Hx|]. cbn in Hx. destruct (d' =? a); [destruct Hx|].
    destruct Hx as [[= -> <- <- ->]|[]]. cbn [r_msg]. rewrite Forall_forall in Hsz. specialize (Hsz _ Hin). rewrite zlen_cons in Hsz. lia.
  - rewrite mfed_micro. exact Hfed.
  - exists (map (fun h => match h with (s, _, _, msg) => s :: msg end) rest). split; [|intros E; rewrite (Hm E); reflexivity].
    rewrite <- crossing, <- DA, <- (calls_said _ _ CA), Hr, map_app. f_equal. unfold given. rewrite GB, map_map.
    replace (heard (ser_boot_ev (Endpoint b) ++ t3)) with (heard t3) by reflexivity.
    apply map_ext. intros [[[s o] tag] msg]. reflexivity.
Qed.

(** What is for the clients of the announced type, of what comes from one peer. *)
Lemma from_peer a b t t2 : a <> b -> Forall (fun bs => hd 0 bs = a) (given t2) ->
  filter (fun bs => hd 0 bs =? a) (filter (fun bs => (3 <=? zlen bs) && (nth 1 bs 0 =? t)) (PropClients.incoming b t2)) =
  filter (fun bs => (3 <=? zlen bs) && (nth 1 bs 0 =? t)) (given t2).
Proof.
  intros Hab Hall. induction t2 as [|[c ans] t2 IH]; [reflexivity|].
  assert (given (Ev c ans :: t2) = given [Ev c ans] ++ given t2) as E.
  { unfold given, processed. cbn [flat_map]. rewrite app_nil_r, map_app. reflexivity. }
  rewrite E in *. apply Forall_app in Hall. destruct Hall as [H1 H2]. specialize (IH H2).
  replace (PropClients.incoming b (Ev c ans :: t2)) with (PropClients.incoming b [Ev c ans] ++ PropClients.incoming b t2)
    by (unfold PropClients.incoming; cbn [flat_map]; now rewrite app_nil_r).
  rewrite !filter_app, IH. f_equal. clear IH H2 E.
  destruct c; try reflexivity.
  - unfold PropClients.incoming, given, processed. cbn [flat_map map filter Datatypes.app]. rewrite app_nil_r.
    destruct ans as [[|d msg]|]; try reflexivity. destruct (d =? b) eqn:Ed; [|reflexivity]. cbn [filter].
    destruct ((3 <=? zlen (d :: msg)) && (nth 1 (d :: msg) 0 =? t)); [|reflexivity]. cbn [filter hd].
    apply Z.eqb_eq in Ed. replace (d =? a) with false by lia. reflexivity.
  - unfold PropClients.incoming, given, processed in *. cbn [flat_map map filter Datatypes.app] in *. rewrite app_nil_r in *.
    destruct ans as [ms rc]. cbn [fst] in *. rewrite ?app_nil_r in *. induction ms as [|x ms IH]; [reflexivity|]. cbn [map filter] in *.
    inversion H1 as [|? ? Hx H1']; subst. specialize (IH H1').
    destruct ((3 <=? zlen (m_src x :: m_bytes x)) && (nth 1 (m_src x :: m_bytes x) 0 =? t)); [|exact IH].
    cbn [filter]. rewrite Z.eqb_refl. f_equal. exact IH.
Qed.

(** A client of the second daemon that announced type [t] and behaves (C79) is sent, of the
    messages that then arrive from the first, exactly those of type [t]. *)
Theorem C80_client : forall a b trA t1 fd t t2 opsA opsB tsA tsB more,
  serving a trA opsA tsA -> serving b (t1 ++ Ev (CRead1 fd) (inl t) :: t2) opsB tsB -> a <> 0 -> a <> b ->
  writes_ok tsA -> Forall (fun bs => zlen bs <= 65537) (PropDaemon.received trA) ->
  fed false opsB ++ more = sent tsA ->
  0 <= fd -> PropClients.behaves fd PropClients.Absent (t1 ++ Ev (CRead1 fd) (inl t) :: t2) ->
  exists late rest,
    map (came_from a) (filter (crosses a b) (PropDaemon.received trA)) = given t1 ++ late ++ rest /\
    (more = [] -> rest = []) /\
    filter (fun bs => hd 0 bs =? a) (PropClients.to fd t2) = filter (fun bs => (3 <=? zlen bs) && (nth 1 bs 0 =? t)) late.
Proof.
  intros a b trA t1 fd t t2 opsA opsB tsA tsB more SA SB Ha Hab Hwr Hsz Hfed Hfd Hbe.
  destruct (C80_daemons _ _ _ _ _ _ _ _ _ SA SB Ha Hwr Hsz Hfed) as (rest & E & Hm).
  destruct SB as [(n & cap & r & DB) _ _ _].
  pose proof (PropClients.C79_type b cap n t1 t t2 r fd DB Hfd Hbe) as Ht.
  assert (forall x y, given (x ++ y) = given x ++ given y) as Ga.
  { intros x y. unfold given, processed. now rewrite flat_map_app, map_app. }
  rewrite Ga in E. change (given (Ev (CRead1 fd) (inl t) :: t2)) with (given t2) in E. rewrite <- app_assoc in E.
  exists (given t2), rest. split; [exact E|]. split; [exact Hm|]. rewrite Ht.
  assert (Forall (fun bs => hd 0 bs = a) (given t2)) as Hall.
  { apply Forall_forall. intros x Hx. assert (In x (given t1 ++ given t2 ++ rest)) as Hin.
    { apply in_or_app. right. apply in_or_app. now left. }
    rewrite <- E in Hin. apply in_map_iff in Hin. destruct Hin as (y & <- & _). reflexivity. }
  now apply from_peer.
Qed.

(** *** A case *)
(** Daemon 8: a client announces type 5, then sends 5,1 and 6,2 to EID 9, and 5,3 to EID 8. *)
Definition asks : DaemonBugs.oracle := fun n c =>
  match c return answer c with
  | CClose _ => tt | CSend _ bs => zlen bs | CRead1 _ => inl 5 | CPeek _ => 3 | CGrow _ => true
  | CRecv _ k => if 3 <=? k then Some (if Nat.ltb n 8 then [9; 5; 1] else if Nat.ltb n 12 then [9; 6; 2] else [8; 5; 3]) else None
  | CCapture _ _ => tt | CTx _ _ _ _ => 0 | CAccept => 4
  | CPoll fds => Some (Ready false false (Nat.eqb n 0) (map (fun _ => true) fds))
  | CProcess => ([], 0)
  | CUninit => false
  end.
(** Daemon 9: a client announces type 5, then the binding has something. *)
Definition gets : DaemonBugs.oracle := fun n c =>
  match c return answer c with
  | CClose _ => tt | CSend _ bs => zlen bs | CRead1 _ => inl 5 | CPeek _ => 3 | CGrow _ => true
  | CRecv _ k => None | CCapture _ _ => tt | CTx _ _ _ _ => 0 | CAccept => 7
  | CPoll fds => Some (Ready false (Nat.leb 4 n) (Nat.eqb n 0) (map (fun _ => Nat.ltb n 4) fds))
  | CProcess => ([Msg 8 [5; 1]; Msg 8 [6; 2]], 0)
  | CUninit => false
  end.
Definition calmly : env := mkEnv (fun _ => true) (fun _ _ => Some 0) (fun _ => true) (fun _ _ => 0) (fun _ => 1).
Definition stack (eid : Z) (ops : list sop) : list event :=
  match Prog.run calmly 0 [] (ser_history 256 mute (Endpoint eid) (SCore (OpSetCapture false) :: SCore (OpSetRx true) :: ops)) with
  | Prog.Done _ _ t => t | _ => [] end.
Definition opsA : list sop := [SCore (OpTx 9 true 0 [5; 1]); SCore (OpTx 9 true 0 [6; 2])].
Definition opsB : list sop := Eval vm_compute in [SRx false (sent (stack 8 opsA))].

Lemma asks_ok : forall n c, allowed c (asks n c).
Proof.
  intros n []; cbn; try exact I; try lia.
  - unfold is_byte. lia.
  - destruct (3 <=? n0) eqn:E; [|exact I]. repeat match goal with |- context [if ?b then _ else _] => destruct b end; (split; [cbn; lia|repeat constructor; unfold is_byte; lia]).
  - rewrite map_length. reflexivity.
  - constructor.
Qed.
Lemma gets_ok : forall n c, allowed c (gets n c).
Proof.
  intros n []; cbn; try exact I; try lia.
  - unfold is_byte. lia.
  - rewrite map_length. reflexivity.
  - repeat constructor; cbn; unfold is_byte; lia.
Qed.
Lemma stack_run eid ops : (match Prog.run calmly 0 [] (ser_history 256 mute (Endpoint eid)
    (SCore (OpSetCapture false) :: SCore (OpSetRx true) :: ops)) with Prog.Done _ _ _ => true | _ => false end) = true ->
  exists fuel e w k cb, (256 <= fuel)%nat /\ env_ok no_oom e /\
    Prog.run e 0 [] (ser_history fuel mute (Endpoint eid) (SCore (OpSetCapture cb) :: SCore (OpSetRx true) :: ops)) =
    Prog.Done w k (stack eid ops).
Proof.
  intros H. exists 256%nat, calmly. unfold stack in *.
  destruct (Prog.run calmly 0 [] (ser_history 256 mute (Endpoint eid) (SCore (OpSetCapture false) :: SCore (OpSetRx true) :: ops)))
    as [w k t|] eqn:E; [|discriminate].
  exists w, k, false. split; [lia|]. split; [repeat split; try discriminate; reflexivity|exact E].
Qed.
Example C80_case : exists trA t1 t2,
  serving 8 trA opsA (stack 8 opsA) /\ serving 9 (t1 ++ Ev (CRead1 7) (inl 5) :: t2) opsB (stack 9 opsB) /\
  writes_ok (stack 8 opsA) /\ Forall (fun bs => zlen bs <= 65537) (PropDaemon.received trA) /\
  fed false opsB ++ [] = sent (stack 8 opsA) /\
  PropClients.behaves 7 PropClients.Absent (t1 ++ Ev (CRead1 7) (inl 5) :: t2) /\
  PropDaemon.received trA = [[9; 5; 1]; [9; 6; 2]; [8; 5; 3]] /\ PropClients.to 7 t2 = [[8; 5; 1]].
Proof.
  destruct (DaemonBugs.play asks 0 (run_daemon 5 (start 8 false) false)) as [[trA rA]|] eqn:EA; [|vm_compute in EA; discriminate].
  pose proof (DaemonBugs.play_exec _ asks asks_ok _ _ _ _ EA) as XA. vm_compute in EA. injection EA as <- <-.
  destruct (DaemonBugs.play gets 0 (run_daemon 3 (start 9 false) false)) as [[trB rB]|] eqn:EB; [|vm_compute in EB; discriminate].
  pose proof (DaemonBugs.play_exec _ gets gets_ok _ _ _ _ EB) as XB. vm_compute in EB. injection EB as <- <-.
  match type of XA with exec _ ?tA _ => exists tA end.
  match type of XB with exec _ (?e1 :: ?e2 :: ?e3 :: ?e4 :: ?t) _ => exists [e1; e2; e3], t end.
  cbn [Datatypes.app].
  split; [|split; [|split; [|split; [|split; [|split]]]]].
  - constructor; [eexists _, _, _; exact XA| |apply stack_run; vm_compute; reflexivity|vm_compute; reflexivity].
    unfold opsA. repeat first [apply calls_tx|apply calls_none|apply calls_other; [exact I|]].
  - constructor; [eexists _, _, _; exact XB| |apply stack_run; vm_compute; reflexivity|vm_compute; reflexivity].
    unfold opsB. repeat first [apply calls_process; [repeat constructor; unfold is_byte; lia|]|apply calls_none|apply calls_other; [exact I|]].
  - vm_compute. repeat constructor.
  - match goal with |- Forall _ ?l => change l with [[9; 5; 1]; [9; 6; 2]; [8; 5; 3]] end.
    repeat (apply Forall_cons; [cbn; lia|]). apply Forall_nil.
  - vm_compute. reflexivity.
  - cbn. repeat split; auto; try lia; try discriminate; eauto. exists 5. split; [reflexivity|lia].
  - split; vm_compute; reflexivity.
Qed.
