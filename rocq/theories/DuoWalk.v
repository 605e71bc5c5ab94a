(** DuoWalk: the program of each side of the astlpc channel obeys the rules of DuoInv. *)
From Verif Require Import Base Lists Prog PktBuf Core WP Walk CoreRel WalkCore CoreHist Crc Astlpc SpecAst AstBasic
  CrcSpan AstWalk PropAst AstDown TwoParty DuoInv DuoPast.

Local Notation world := (world astlpc).

Ltac proj := cbn [g_tr g_tx g_rx g_dl g_oe g_if g_ph g_rdy g_act g_fin g_neg g_sent
                  log sx sr sph soe sif sfin sneg ssent sst] in *.

Lemma orbt a b : a = true -> a || b = true.
Proof. intros ->. reflexivity. Qed.

Lemma eqb_same : forall l, list_eqb l l = true.
Proof. induction l as [|x l IH]; cbn [list_eqb]; [reflexivity|]. now rewrite Z.eqb_refl, IH. Qed.

Section Side.
Variable app : event -> list txreq.
Variable S N : Z.
Hypothesis HN : 68 <= N.
Hypothesis HS : N + 8 <= S <= 524156.
Variable bmc : bool.
Variable mtu : Z.
Hypothesis Hmtu : if bmc then usable_mtu mtu /\ S = bmc_mtu mtu + 12 else mtu = N - 4.
Local Notation H := (duo_h S N bmc).
Local Notation Hm := (duo_mono S N bmc).

(** ** Sending a command *)
Definition canw (g : gst) : Prop :=
  if bmc then g_ph g = 8 else g_ph g = 4 /\ g_act g || g_fin g = true.
(** The ghost after a read of the status register. *)
Definition seen (g : gst) (st : Z) : gst :=
  log (sst g (g_oe g || negb (oflag bmc st)) (g_if g || iflag bmc st)
             (g_rdy g || tst st ST_BMC_READY) (g_act g || tst st ST_ACTIVE))
      [EvKRead KStatus (Some st)].

Lemma write_ready x st : a_bmc x = bmc -> kcs_write_ready x st = negb (oflag bmc st).
Proof.
  intros E. unfold kcs_write_ready, kcs_ready, oflag. rewrite E. destruct (bmc); cbn [xorb negb].
  - now destruct (tst st ST_OBF).
  - now destruct (tst st ST_IBF).
Qed.
Lemma read_ready x st : a_bmc x = bmc -> kcs_read_ready x st = iflag bmc st.
Proof.
  intros E. unfold kcs_read_ready, kcs_ready, iflag, oflag. rewrite E. destruct (bmc); cbn [xorb negb].
  - now destruct (tst st ST_IBF).
  - now destruct (tst st ST_OBF).
Qed.

Lemma canw_seen g st : canw g -> canw (seen g st).
Proof.
  unfold canw, seen. proj. destruct (bmc); [auto|]. intros [A B]. split; [exact A|].
  apply orb_prop in B. destruct B as [-> | ->]; [reflexivity|]. now rewrite orb_true_r.
Qed.

Definition quiet_host (g : gst) : Prop := bmc = false /\ g_fin g = true /\ g_sent g = false.

Lemma wp_begin x g p (Q : Z -> gst -> Prop) : a_bmc x = bmc -> canw g -> g_tx g = TFull p ->
  (forall st, Q (- EBUSY) (seen g st)) ->
  (forall st, Q 0 (log (sx (ssent (soe (seen g st) false)) TNo) [EvKWrite KData 1 true])) ->
  wp H (kcs_send x cmd_tx_begin) g Q.
Proof.
  intros Ex Hc Ht Q1 Q2. unfold kcs_send. cbn [wp duo_h h_kread]. intros st _ _ _ _.
  change (log _ [EvKRead KStatus (Some st)]) with (seen g st). rewrite (write_ready x st Ex).
  destruct (oflag bmc st) eqn:Eo; cbn [negb wp]; [apply Q1|]. cbn [duo_h h_kwrite]. right. right.
  split; [unfold seen; proj; rewrite Eo; apply orb_true_r|].
  split; [exact (canw_seen g st Hc)|]. left. split; [reflexivity|]. split; [exists p; exact Ht|apply Q2].
Qed.

Lemma wp_complete x g (Q : Z -> gst -> Prop) : a_bmc x = bmc -> canw g -> g_rx g = RHeld ->
  (forall st, ~ quiet_host g -> Q (- EBUSY) (seen g st)) ->
  (forall st, Q 0 (log (sr (ssent (soe (seen g st) false)) RNo (g_dl g)) [EvKWrite KData 2 true])) ->
  wp H (kcs_send x cmd_rx_complete) g Q.
Proof.
  intros Ex Hc Ht Q1 Q2. unfold kcs_send. cbn [wp duo_h h_kread]. intros st _ _ _ Hh.
  change (log _ [EvKRead KStatus (Some st)]) with (seen g st). rewrite (write_ready x st Ex).
  destruct (oflag bmc st) eqn:Eo; cbn [negb wp].
  { apply Q1. intros (Eb & Ef & Es). destruct (Hh Eb) as (_ & _ & _ & _ & Hq). specialize (Hq Ef Es). congruence. }
  cbn [duo_h h_kwrite]. right. right.
  split; [unfold seen; proj; rewrite Eo; apply orb_true_r|].
  split; [exact (canw_seen g st Hc)|]. right. split; [reflexivity|]. split; [exact Ht|apply Q2].
Qed.

(** ** The state of a side *)
Definition laid (x : astlpc) (sz : Z) : Prop :=
  ab_off (a_tx x) = txo S bmc /\ ab_size (a_tx x) = sz /\ ab_off (a_rx x) = rxo S bmc /\ ab_size (a_rx x) = sz.
Definition txrel (x : astlpc) (g : gst) : Prop :=
  match ab_st (a_tx x) with
  | Idle => False
  | Acquired => g_tx g = TFree
  | Prepared => exists p, g_tx g = TFull p
  | Released => g_tx g = TNo
  end.
Definition rxrel (x : astlpc) (g : gst) : Prop :=
  match ab_st (a_rx x) with
  | Prepared => g_rx g = RHeld
  | Released => g_rx g = RNo
  | _ => False
  end.

Record common (b : binding astlpc) (g : gst) : Prop := mkCommon {
  co_ver : bd_version b = 1;
  co_hdr : bd_header b = 4;
  co_trl : bd_trailer b = 4;
  co_psz : 68 <= bd_pkt_size b < 2 ^ 33;
  co_mode : a_bmc (bd_priv b) = bmc;
  co_mtu : a_mtu (bd_priv b) = mtu;
  co_dl : g_dl g = None;
  co_rdy : bmc = false -> g_rdy g = true /\ g_ph g = 4 /\ tst (a_kcs (bd_priv b)) ST_BMC_READY = true }.

(** Where in a call we are: at its boundary; in a poll that saw the channel
    active, after a command; active for certain, and
    (false) between the end of the handshake and the record of the new status
    (astlpc.c 1147-1154). *)
Inductive mode := Out | Rx | Fin (k : bool) (n : Z).
Definition kact (md : mode) (x : astlpc) : Prop :=
  match md with Fin false _ => True | _ => tst (a_kcs x) ST_ACTIVE = true end.

(** The bus transmits when the transmit buffer is ours and empty; in mode [Fin _ n] it
    may still have to be enabled, as long as only [n] packets have been transmitted. *)
Definition loose (md : mode) (g : gst) : Prop :=
  match md with Fin _ n => zlen (offered (g_tr g)) = n | _ => False end.
Definition tied (md : mode) (s0 : option bus_state) (x : astlpc) (g : gst) : Prop :=
  (s0 = Some TxEnabled -> ab_st (a_tx x) = Acquired) /\
  (ab_st (a_tx x) = Acquired -> s0 = Some TxEnabled \/ loose md g) /\
  (s0 = Some Constructed -> ab_st (a_tx x) = Acquired /\ loose md g).

(** Registered; host only: negotiated but not active; active. *)
Inductive phase (sn : mode) (b : binding astlpc) (s0 : option bus_state) (g : gst) : Prop :=
| PhA : sn = Out -> s0 = Some Constructed -> ab_st (a_tx (bd_priv b)) = Idle -> ab_st (a_rx (bd_priv b)) = Idle ->
    g_tx g = TFree -> g_rx g = RNo ->
    (if bmc then g_ph g = 3 /\ a_proto (bd_priv b) = Some 3 /\ laid (bd_priv b) S
     else a_proto (bd_priv b) = Some 0 /\ g_fin g = false /\ g_sent g = false /\
          tst (a_kcs (bd_priv b)) ST_ACTIVE = false) -> phase sn b s0 g
| PhB : bmc = false -> s0 = Some Constructed -> a_proto (bd_priv b) = Some 3 -> laid (bd_priv b) (N + 8) ->
    bd_pkt_size b = N -> ab_st (a_tx (bd_priv b)) = Acquired -> ab_st (a_rx (bd_priv b)) = Released ->
    g_tx g = TFree -> g_rx g = RNo -> tst (a_kcs (bd_priv b)) ST_ACTIVE = false ->
    match sn with Out => g_sent g = false | Rx => g_sent g = true /\ g_act g = true | Fin _ _ => False end ->
    phase sn b s0 g
| PhC : (if bmc then g_ph g = 8 else g_act g = true /\ kact sn (bd_priv b)) ->
    a_proto (bd_priv b) = Some 3 -> laid (bd_priv b) (N + 8) -> bd_pkt_size b = N ->
    txrel (bd_priv b) g -> rxrel (bd_priv b) g ->
    tied sn s0 (bd_priv b) g -> phase sn b s0 g.

Section Call.
Variable eid : Z.
Variable dn : list aop.
Notation past := (past bmc app N eid true dn).

Section Core.
Variable sn : mode.
Definition J : binding astlpc -> binding astlpc -> option bus_state -> option bus_state -> gst -> Prop :=
  fun b0 _ s0 s1 g => s1 = None /\ common b0 g /\ phase sn b0 s0 g.
Notation Jw := (Jw J).

Lemma phase_log b s0 g e : offered [e] = [] -> phase sn b s0 g -> phase sn b s0 (log g [e]).
Proof.
  intros He [A0 A1 A2 A3 A4 A5 A6|A1 A2 A3 A4 A5 A6 A7 A8 A9 A10 A11|A1 A2 A3 A4 A5 A6 A7].
  - apply PhA; assumption.
  - apply PhB; assumption.
  - apply PhC; try assumption. unfold tied, loose in *. destruct (sn); try exact A7.
    proj. unfold offered in *. rewrite flat_map_app, He, app_nil_r. exact A7.
Qed.
Lemma common_log b g e : common b g -> common b (log g [e]).
Proof. intros []; constructor; assumption. Qed.

Lemma J_emit e (w : world) g (Q : gst -> Prop) : core_ev e -> Jw w g ->
  (forall g', Jw w g' -> g_tr g' = g_tr g ++ [e] -> Q g') -> h_emit H e g Q.
Proof.
  intros He (J1 & J2 & J3) HQ.
  assert (Q (log g [e])) as Hq.
  { apply HQ; [|reflexivity]. split; [exact J1|]. split; [now apply common_log|]. apply phase_log; [|exact J3].
    destruct e; cbn in He; try contradiction; reflexivity. }
  destruct e; cbn in He; try contradiction; exact Hq.
Qed.
Lemma J_alloc (w : world) g (Q : bool -> gst -> Prop) : Jw w g ->
  (forall g', Jw w g' -> g_tr g' = g_tr g -> Q true g') -> h_alloc H g Q.
Proof. intros HJ HQ. cbn [duo_h h_alloc]. apply HQ; [exact HJ|reflexivity]. Qed.

Lemma J_btx (w : world) i b p bytes g
  (Q : astlpc * pktbuf * Z * bool -> gst -> Prop) :
  WF (Upto N) w -> Jw w g -> bget w i = Some b -> bus_st b = TxEnabled ->
  qwf (Upto N) (bnd w i) p -> pktbuf_bytes p = Some bytes ->
  (forall b' p' rc (dis : bool) g' io,
     Jw (set_bus (set_bnd w i (set_priv (bnd w i) b')) i (if dis then disable_bus b else b)) g' ->
     g_tr g' = g_tr g ++ EvTxCall i (pk_id p) bytes :: io -> Forall io_ev io ->
     pk_id p' = pk_id p ->
     (final rc = false -> qwf (Upto N) (bnd w i) p' /\ kept (Upto N) p p') ->
     Q (b', p', rc, dis) g') ->
  h_emit H (EvTxCall i (pk_id p) bytes) g
         (fun g1 => wp H (astlpc_tx (bd_priv (bnd w i)) p) g1 Q).
Proof.
  intros Hw (J1 & Co & Ph) Hb Hs (Q1 & Q2 & Q3 & Q4 & Q5) Hby HQ. cbn [upto] in Q4.
  destruct (Q5 eq_refl) as (Qt & Qv). clear Q5.
  destruct i; [unfold ost in J1; rewrite Hb in J1; discriminate|].
  assert (ost w false = Some TxEnabled) as Eo by (unfold ost; rewrite Hb; cbn; congruence).
  rewrite Eo in Ph. cbn [bnd] in *. set (x := bd_priv (w_b0 w)) in *.
  destruct Ph as [_ A1|? A1|A1 A2 A3 A4 A5 A6 A7]; [discriminate|discriminate|]. fold x in A1, A2, A3, A5, A6, A7.
  apply proj1 in A7. specialize (A7 eq_refl). unfold txrel in A5. rewrite A7 in A5.
  assert (zlen bytes = pktbuf_size p) as Hz.
  { destruct (pktbuf_bytes_wf p Q1) as (by' & E & E'). congruence. }
  assert (good N bytes) as Hg.
  { split; [lia|]. rewrite <- (ver_of_bytes p bytes Hby) by lia. rewrite Qv, (co_ver _ _ Co). reflexivity. }
  cbn [duo_h h_emit]. split; [exact A5|]. split; [exact Hg|].
  destruct A3 as (L1 & L2 & L3 & L4). unfold astlpc_tx. rewrite A2, L1, L2.
  rewrite body_size_ok by (change (extra 3) with 8; lia). change (extra 3) with 8. cbn [bind].
  rewrite (w32_id (pktbuf_size p)) by lia. rewrite <- Hz.
  replace (N + 8 - 8 <? zlen bytes) with false by lia.
  cbn [wp duo_h h_lwrite]. left. exists bytes. split; [reflexivity|]. split; [reflexivity|]. split; [reflexivity|].
  (* the checksum is appended *)
  unfold pktbuf_protect. change ((3 =? 1) || (3 =? 2)) with false. change (3 =? 3) with true. cbv iota.
  fold (pktbuf_bytes p). rewrite Hby. cbn [deref bind].
  unfold pktbuf_push, pktbuf_push_len. change (zlen (be32 (crc32 bytes))) with 4.
  pose proof Q1 as [W1 W2 W3 W4 W5 W6]. pose proof (pktbuf_size_wf p Q1) as Hps.
  rewrite (co_trl _ _ Co) in Qt. rewrite w64_id by lia. replace (pk_size p <? pk_end p + 4) with false by lia.
  change (rd (be32 (crc32 bytes)) 0 4) with (Some (be32 (crc32 bytes))). cbn [deref bind].
  destruct (wr_some (pk_data p) (pk_end p) (be32 (crc32 bytes))) as (d & Hd); [lia|change (zlen (be32 (crc32 bytes))) with 4; lia|].
  rewrite Hd. cbn [deref bind wp]. pose proof (wr_zlen _ _ _ _ Hd) as Hz'.
  set (p' := mkPkt (pk_id p) (pk_start p) (pk_end p + 4) (pk_size p) (pk_hdr p) d).
  assert (wf_pkt p') as Hw' by (constructor; cbn; lia).
  pose proof (pktbuf_size_wf p' Hw') as Hps'. change (pk_end p' - pk_start p') with (pk_end p + 4 - pk_start p) in Hps'.
  assert (w32 (pktbuf_size p') = zlen bytes + 4) as Ew by (rewrite Hps', w32_id; lia). rewrite Ew.
  change (pk_data p') with d. change (pk_hdr p') with (pk_hdr p).
  assert (rd d (pk_hdr p) (zlen bytes + 4) = Some (enc bytes)) as Hrd.
  { unfold enc. apply rd_app.
    - rewrite (rd_wr_before _ _ _ _ _ _ Hd) by lia. unfold pktbuf_bytes in Hby. rewrite Hz. exact Hby.
    - replace (pk_hdr p + zlen bytes) with (pk_end p) by lia. exact (rd_wr_same _ _ _ _ Hd). }
  rewrite Hrd. cbn [deref bind wp duo_h h_lwrite]. right. left. exists bytes.
  split; [reflexivity|]. split; [apply w32_id; unfold txo; destruct (bmc); lia|]. split; [reflexivity|].
  (* the command *)
  match goal with |- context [log (sx ?g0 (TFull bytes)) ?l] => set (g1 := log (sx g0 (TFull bytes)) l) end.
  assert (canw g1) as Hc.
  { unfold canw, g1. proj. destruct Co as [_ _ _ _ _ _ _ Co]. destruct (bmc); [exact A1|].
    destruct (Co eq_refl) as (_ & C2 & _). split; [exact C2|]. destruct A1 as [-> _]. reflexivity. }
  assert (a_bmc (a_set_tx_st x Prepared) = bmc) as Em by exact (co_mode _ _ Co).
  assert (forall s (gg : gst), s <> Idle -> s <> Acquired ->
     g_dl gg = None -> (bmc = false -> g_rdy gg = true /\ g_ph gg = 4) ->
     (if bmc then g_ph gg = 8 else g_act gg = true) -> g_rx gg = g_rx g ->
     match s with Prepared => exists p, g_tx gg = TFull p | _ => g_tx gg = TNo end ->
     Jw (set_bus (set_bnd w false (set_priv (w_b0 w) (a_set_tx_st x s))) false (disable_bus b)) gg) as HJn.
  { intros s gg N1 N2 D1 D2 D3 D4 D5. unfold WalkCore.Jw, J. rewrite b0_set_bus.
    assert (bget (set_bnd w false (set_priv (w_b0 w) (a_set_tx_st x s))) false = Some b) as Hb' by exact Hb.
    unfold ost. rewrite !(bget_set_bus _ _ _ _ _ _ Hb'). cbn [eqb option_map]. split; [exact J1|].
    cbn [set_bnd w_b0]. unfold disable_bus. rewrite Hs. cbn [bus_st set_st]. destruct Co as [C1 C2 C3 C4 C5 C6 C7 C8].
    fold x in C5, C6, C8. split.
    - constructor; try assumption. intros Eb. destruct (D2 Eb), (C8 Eb) as (_ & _ & ?). auto.
    - apply PhC; try assumption.
      + cbn [set_priv bd_priv a_kcs]. destruct (bmc); [exact D3|split; [exact D3|apply A1]].
      + exact (conj L1 (conj L2 (conj L3 L4))).
      + unfold txrel. cbn. destruct s; try contradiction; assumption.
      + unfold rxrel in *. cbn. rewrite D4. exact A6.
      + split; [discriminate|]. split; [cbn; congruence|discriminate]. }
  assert (forall st, g_tr (seen g1 st) = g_tr g ++ EvTxCall false (pk_id p) bytes ::
     [EvLWrite (txo S bmc) (be32 (zlen bytes)); EvLWrite (w32 (txo S bmc + 4)) (enc bytes); EvKRead KStatus (Some st)]) as Htr.
  { intros st. unfold seen, g1. proj. rewrite <- !app_assoc. reflexivity. }
  apply wp_bind; [apply Hm|]. eapply wp_begin; [exact Em|exact Hc|reflexivity| |]; intros st; cbn [wp].
  - change (- EBUSY =? 0) with false. change (- EBUSY =? - EBUSY) with true. cbv iota.
    eapply (HQ _ p' 0 true); [|apply Htr| |reflexivity|discriminate].
    + apply (HJn Prepared); try discriminate; unfold seen, g1; proj.
      * exact (co_dl _ _ Co).
      * intros Eb. destruct (co_rdy _ _ Co Eb) as (-> & -> & _). auto.
      * destruct (bmc); [exact A1|]. destruct A1 as [-> _]. reflexivity.
      * reflexivity.
      * eexists; reflexivity.
    + repeat constructor.
  - change (0 =? 0) with true. change (0 =? - EBUSY) with false. cbv iota.
    eapply (HQ _ p' 0 true); [| | |reflexivity|discriminate].
    + apply (HJn Released); try discriminate; unfold seen, g1; proj.
      * exact (co_dl _ _ Co).
      * intros Eb. destruct (co_rdy _ _ Co Eb) as (-> & -> & _). auto.
      * destruct (bmc); [exact A1|]. destruct A1 as [-> _]. reflexivity.
      * reflexivity.
      * reflexivity.
    + change (g_tr (log ?a ?l)) with (g_tr (seen g1 st) ++ l). rewrite Htr, <- app_assoc. reflexivity.
    + repeat constructor.
Qed.


Definition Good (w : world) (g : gst) : Prop := past w (g_tr g) /\ WF (Upto N) w /\ Jw w g.

Lemma bgetN (w : world) : WF (Upto N) w -> exists b, bget w false = Some b.
Proof. intros Hw. destruct (bget w false) eqn:E; [eauto|]. destruct (wf_b0 _ _ Hw E). Qed.

(** Enabling transmission once active: the bus then transmits if the buffer is still free. *)
Lemma on_tied (w : world) en t w' : set_rel (Upto N) w false en t w' -> en = true -> 68 <= bd_pkt_size (w_b0 w) ->
  ost w' false = Some TxEnabled \/ offered t <> [].
Proof.
  intros Hr En Hp. destruct Hr as [b en Hb Hc|b Hb Hs _ _|b|b t w' Hb Hs Ht]; [| |discriminate|].
  - left. unfold ost. rewrite Hb. cbn. destruct Hc as [(_ & [Hc|Hc])|[[Hc _]|[_ Hc]]]; try congruence. cbn [bnd] in Hc. lia.
  - left. unfold ost. rewrite (bget_set_bus _ _ _ _ _ _ Hb). reflexivity.
  - inversion Ht as [w0 b0 Hb0 Hq0|w0 rc t0 w0' H1 H2|w0 rc t1 w1 t2 w2 H1 H2 H3]; subst.
    + left. unfold ost. rewrite (bget_set_bus _ _ _ _ _ _ Hb). reflexivity.
    + destruct H1 as [b1 p1 q1 p1' b1' rc dis bytes io Hb1 Hst Hqu Hby Hio Hid Hq]. destruct (Hq H2) as [_ []].
    + right. destruct H1 as [b1 p1 q1 p1' b1' rc dis bytes io Hb1 Hst Hqu Hby Hio Hid Hq].
      unfold offered. cbn [flat_map Datatypes.app]. rewrite !flat_map_app. intros E. apply app_eq_nil in E. destruct E as [E _].
      apply app_eq_nil in E. destruct E as [_ E]. discriminate.
Qed.

Lemma wp_on (w : world) g k : Good w g -> bd_pkt_size (w_b0 w) = N -> ab_st (a_tx (bd_priv (w_b0 w))) = Acquired ->
  sn = Fin k (zlen (offered (g_tr g))) ->
  wp H (set_tx_enabled astlpc_tx w false true) g
     (fun w' g' => Good w' g' /\ (ab_st (a_tx (bd_priv (w_b0 w'))) = Acquired -> ost w' false = Some TxEnabled)).
Proof.
  intros (Hpa & Hw & HJ) Hp Ht Hs. destruct (bgetN w Hw) as (b & Hb).
  eapply wp_mono; [apply Hm| |
    eapply (wp_set_tx_enabled astlpc_tx H Hm g_tr (Upto N) J J_emit J_btx); [exact Hw|exact HJ|exact Hb| |]].
  - intros w' g' (t & Etr & Hr & HJ'). split.
    + split; [rewrite Etr; eapply PastSet; try eassumption; intros _; exact Hp|]. split; [eapply set_rel_WF; eassumption|exact HJ'].
    + intros Ha. destruct HJ' as (_ & _ & Ph).
      destruct Ph as [A0 A1 A2|A0 A1 A2 A3 A4 A5 A6 A7 A8 A9 A10|A1 A2 A3 A4 A5 A6 [_ [A7 _]]]; [congruence| |].
      * rewrite Hs in A10. destruct A10.
      * destruct (A7 Ha) as [E|E]; [exact E|]. unfold loose in E. rewrite Hs, Etr in E. unfold offered in E.
        rewrite flat_map_app, zlen_app in E. fold (offered (g_tr g)) in E. fold (offered t) in E.
        destruct (on_tied w true t w' Hr eq_refl ltac:(rewrite Hp; exact HN)) as [E'|E']; [exact E'|]. exfalso. apply E'.
        destruct (offered t) as [|? ?]; [reflexivity|]. unfold zlen in E. cbn [length] in E. clear -E. lia.
  - intros _. cbn [upto bnd]. lia.
  - intros g' s (K1 & K2 & K3) Etr Hs1 Hs2 Hs3 Hs4. unfold WalkCore.Jw, J. rewrite b0_set_bus.
    unfold ost. rewrite !(bget_set_bus _ _ _ _ _ _ Hb). cbn [eqb option_map set_st bus_st].
    split; [exact K1|]. split; [exact K2|].
    destruct K3 as [_ A1 A2|A0 A1 A2 A3 A4 A5 A6 A7 A8 A9 A10|A1 A2 A3 A4 A5 A6 A7]; [congruence| |].
    + rewrite Hs in A10. destruct A10.
    + apply PhC; try assumption. split; [intros _; exact Ht|].
      assert (s = TxEnabled) as ->; [|split; [auto|discriminate]]. destruct s; [congruence|reflexivity|].
      specialize (Hs2 eq_refl). discriminate.
Qed.

(** Disabling it on a bus that was never enabled does nothing. *)
Lemma wp_off (w : world) g : Good w g -> ost w false = Some Constructed ->
  wp H (set_tx_enabled astlpc_tx w false false) g
    (fun w' g' => w' = w /\ g' = log g [EvSetTx false false]).
Proof.
  intros (_ & Hw & HJ) Ho. destruct (bgetN w Hw) as (b & Hb). unfold set_tx_enabled. cbn [wp duo_h h_emit].
  rewrite (wf_bd _ _ Hw _ _ Hb). cbn [negb]. eapply get_bus_bget; [exact Hb|].
  unfold ost in Ho. rewrite Hb in Ho. cbn in Ho. injection Ho as ->. cbn [negb wp]. auto.
Qed.

Lemma past_off (w : world) tr : past w tr -> WF (Upto N) w -> ost w false = Some Constructed ->
  past w (tr ++ [EvSetTx false false]).
Proof.
  intros Hp Hw Ho. destruct (bgetN w Hw) as (b & Hb). eapply (PastSet _ _ _ _ _ _ _ false); [exact Hp|exact Hw|discriminate|].
  eapply SetSame; [exact Hb|]. left. unfold ost in Ho. rewrite Hb in Ho. injection Ho as Ho. auto.
Qed.

End Core.

Lemma Fin_any md n (w : world) g : Good (Fin true n) w g ->
  (ab_st (a_tx (bd_priv (w_b0 w))) = Acquired -> ost w false = Some TxEnabled) -> Good md w g.
Proof.
  intros (HP & HW & J1 & J2 & J3) Ht. split; [exact HP|]. split; [exact HW|]. split; [exact J1|]. split; [exact J2|].
  destruct J3 as [A0|? ? ? ? ? ? ? ? ? ? []|A1 A2 A3 A4 A5 A6 A7]; [discriminate|].
  apply PhC; try assumption.
  - destruct (bmc); [exact A1|]. destruct A1 as [A1 A1']. split; [exact A1|].
    cbn [kact] in A1'. destruct md as [| |[]]; cbn [kact]; auto.
  - split; [apply A7|]. split; [auto|]. intros E. destruct A7 as (_ & _ & A7). destruct (A7 E) as [A8 _].
    specialize (Ht A8). congruence.
Qed.

(** ** Changes of the binding's state *)
Lemma WF_putN (w : world) x n : WF (Upto N) w -> 68 <= n < 2 ^ 33 -> n <= N \/ n = bd_pkt_size (w_b0 w) ->
  WF (Upto N) (putb w x n).
Proof.
  intros Hw Hn Hc. unfold putb. apply WF_bnd; try reflexivity; try exact Hw.
  - destruct (wf_dims _ _ Hw false) as (D1 & D2 & D3). split; [cbn; lia|]. split; assumption.
  - destruct Hc as [Hc | ->]; [right; split; [cbn; lia|exact Hc]|left; reflexivity].
Qed.

(** ** The header *)
Lemma hdr_fields hm hc neg rxs txs : 0 <= rxs < 2 ^ 32 -> 0 <= txs < 2 ^ 32 ->
  0 <= hm < 256 -> 0 <= hc < 256 -> 0 <= neg < 256 ->
  let h := hdr S hm hc neg rxs txs in
  fld16 h 4 = 1 /\ fld16 h 6 = 3 /\ fld16 h 8 = hm /\ fld16 h 10 = hc /\ fld16 h 12 = neg /\
  fld32 h 16 = 256 /\ fld32 h 20 = rxs /\ fld32 h 24 = 256 + S /\ fld32 h 28 = txs.
Proof.
  intros H1 H2 H3 H4 H5. cbn zeta.
  assert (forall x, 0 <= x < 256 -> unbe16 (be16 x) = x) as Hb.
  { intros x Hx. unfold unbe16, be16. rewrite Z.div_small by lia. rewrite (Z.mod_small x 256) by lia. rewrite Z.mod_0_l by lia. lia. }
  repeat apply conj; try reflexivity.
  - exact (Hb hm H3).
  - exact (Hb hc H4).
  - exact (Hb neg H5).
  - exact (unbe32_be32 rxs H1).
  - apply (unbe32_be32 (256 + S)). lia.
  - exact (unbe32_be32 txs H2).
Qed.

Lemma validate_side o1 o2 s1 s2 t1 t2 :
  76 <= s1 <= S -> 76 <= s2 <= S -> (o1 = 256 /\ o2 = 256 + S \/ o1 = 256 + S /\ o2 = 256) ->
  layout_validate (Some 3) (mkLayout (mkBuf o1 s1 t1) (mkBuf o2 s2 t2)) = Ret true.
Proof.
  intros H1 H2 Ho. apply validate_true; [lia| |].
  - unfold layout_u32, u32. cbn [ly_rx ly_tx ab_off ab_size]. lia.
  - unfold valid_layout, fits, inside. cbn [ly_rx ly_tx ab_off ab_size]. change (extra 3) with 8.
    repeat split; try lia.
Qed.

(** ** The BMC's side of the handshake *)
Definition bmcA (w : world) (g : gst) : Prop :=
  past w (g_tr g) /\ WF (Upto N) w /\ ost w true = None /\ common (w_b0 w) g /\ ost w false = Some Constructed /\
  a_proto (bd_priv (w_b0 w)) = Some 3 /\ laid (bd_priv (w_b0 w)) S /\ g_tx g = TFree /\ g_rx g = RNo.

Lemma wp_init_channel (w : world) g : bmc = true -> bmcA w g -> g_ph g = 4 ->
  wp H (init_channel w false) g (Good Out).
Proof.
  intros Eb (Hpa & Hw & H1 & Co & Ho & Ep & (L1 & L2 & L3 & L4) & Gt & Gr) Eph.
  pose proof Hmtu as Hmt. rewrite Eb in Hmt. destruct Hmt as [Hus HS'].
  unfold txo, rxo, txo in L1, L3. rewrite Eb in L1, L3. cbn [negb] in L3.
  destruct (hdr_fields 1 3 0 (N + 8) S) as (F1 & F2 & F3 & F4 & F5 & F6 & F7 & F8 & F9); try lia.
  change (hdr S 1 3 0 (N + 8) S) with (hdr_of S N 4 4) in *.
  unfold init_channel. cbn [wp duo_h h_lread]. right. right. left.
  split; [exact Eb|]. split; [reflexivity|]. split; [reflexivity|]. split; [exact Eph|].
  unfold OFF_host_ver_min, OFF_host_ver_cur. rewrite F3, F4.
  change (negotiate_version ASTLPC_VER_MIN ASTLPC_VER_CUR 1 3) with 3.
  apply wp_assert_bind; [reflexivity|].
  unfold negotiate_layout_bmc, ast. cbn [bnd put_ast set_bnd w_b0 set_priv bd_priv]. set (x := bd_priv (w_b0 w)) in *.
  change (a_proto (a_set_proto x 3)) with (Some 3). cbn [deref bind]. change (3 =? 0) with false. cbv iota.
  unfold layout_read. cbn [bind wp duo_h h_lread]. right. right. left.
  split; [exact Eb|]. split; [reflexivity|]. split; [reflexivity|]. split; [exact Eph|].
  change (a_bmc (a_set_proto x 3)) with (a_bmc x).
  assert (a_bmc x = true) as Em by (rewrite <- Eb; exact (co_mode _ _ Co)). rewrite Em. rewrite F6, F7, F8, F9.
  rewrite validate_side by lia. cbn [bind negb].
  unfold calculate_mtu. change (a_rx (a_set_proto x 3)) with (a_rx x). change (a_tx (a_set_proto x 3)) with (a_tx x).
  change (a_mtu (a_set_proto x 3)) with (a_mtu x). pose proof (co_mtu _ _ Co) as Emt. fold x in Emt. rewrite L1, L3, Emt.
  replace (Z.max (256 + S) 256 - Z.min (256 + S) 256) with S by lia.
  assert ((if mtu =? 0 then Ret S
      else rpkt <- packet_size (Some 3) (w32 (MCTP_PACKET_SIZE mtu)) ;; Ret (Z.min S rpkt)) = Ret S) as E1.
  { unfold usable_mtu, bmc_mtu in *. destruct (mtu =? 0) eqn:E0; [reflexivity|]. unfold MCTP_PACKET_SIZE.
    rewrite w32_id by lia. rewrite packet_size_ok by (change (extra 3) with 8; lia). cbn [bind].
    change (extra 3) with 8. f_equal. lia. }
  change (a_proto (a_set_proto x 3)) with (Some 3). rewrite E1. cbn [bind ly_tx ab_size].
  rewrite Z.min_r by lia. rewrite body_size_ok by (change (extra 3) with 8; lia). change (extra 3) with 8. cbn [bind].
  unfold MCTP_BODY_SIZE, MCTP_PACKET_SIZE. replace (N + 8 - 8) with N by lia. rewrite w64_id by lia.
  rewrite (w32_id (N - 4)) by lia. replace (N - 4 + 4) with N by lia. rewrite (w32_id N) by lia.
  rewrite packet_size_ok by (change (extra 3) with 8; lia). change (extra 3) with 8. cbn [bind].
  unfold ab_set_size. rewrite L1, L3. rewrite validate_side by lia. cbn [bind negb].
  unfold layout_write. change (a_bmc (a_set_layout _ _)) with (a_bmc x). rewrite Em.
  cbn [ly_rx ly_tx ab_off ab_size bind wp duo_h h_lwrite].
  right. right. right. left. split; [exact Eb|]. split; [reflexivity|]. split; [reflexivity|]. split; [exact Eph|].
  change (2 <=? 3) with true. change (0 <? 0) with false. cbv iota. cbn [wp duo_h h_lwrite].
  right. right. right. right. left. split; [exact Eb|]. split; [reflexivity|]. split; [reflexivity|]. split; [reflexivity|].
  change (0 <? 3) with true. cbv iota. change (Z.lor (Z.lor ST_BMC_READY ST_OBF) ST_ACTIVE) with 193.
  unfold kcs_set_status. cbn [bind wp duo_h h_kwrite]. split; [exact Eb|]. right.
  split; [reflexivity|]. split; [reflexivity|]. cbn [negb bind wp duo_h h_kwrite]. left.
  split; [reflexivity|]. split; [exact Eb|]. right. split; [reflexivity|].
  cbn [bind]. change (tst 193 ST_ACTIVE) with true.
  match goal with |- wp _ (set_tx_enabled _ ?ww _ _) ?gg _ => set (w' := ww); set (g' := gg) end.
  assert (w' = putb w (bd_priv (w_b0 w')) N) as Ew' by reflexivity.
  assert (Good (Fin true (zlen (offered (g_tr g')))) w' g') as HG.
  { assert (WF (Upto N) w') as Hw' by (rewrite Ew'; apply WF_putN; [exact Hw|lia|left; lia]).
    split; [|split].
    - rewrite Ew'. unfold g'. proj. repeat (apply past1; [|exact I]). apply PastPut; [exact Hpa|]. rewrite <- Ew'. exact Hw'.
    - exact Hw'.
    - split; [rewrite Ew', ost_putb; exact H1|]. destruct Co as [C1 C2 C3 C4 C5 C6 C7 C8]. split.
      + constructor; try assumption; [cbn; lia|]. intros N0. congruence.
      + rewrite Ew', ost_putb, Ho. apply PhC.
        * rewrite Eb. reflexivity.
        * reflexivity.
        * unfold laid, txo, rxo, txo. rewrite Eb. cbn. auto.
        * reflexivity.
        * exact Gt.
        * exact Gr.
        * split; [discriminate|]. split; [intros _; right; reflexivity|]. intros _. split; reflexivity. }
  eapply wp_mono; [apply Hm| |eapply wp_on; [exact HG|reflexivity|reflexivity|reflexivity]].
  intros w2 g2 [H2 H3]. exact (Fin_any _ _ _ _ H2 H3).
Qed.

Lemma Rx_Out (w : world) g : bmc = true -> Good Rx w g -> Good Out w g.
Proof.
  intros Eb (HP & HW & J1 & J2 & J3). split; [exact HP|]. split; [exact HW|]. split; [exact J1|]. split; [exact J2|].
  destruct J3 as [A0|A0|A1 A2 A3 A4 A5 A6 A7]; [discriminate|congruence|].
  apply PhC; try assumption.
Qed.

(** ** Reception *)
Definition rxpre (w : world) (g : gst) (p : list Z) : Prop :=
  let x := bd_priv (w_b0 w) in
  past w (g_tr g) /\ WF (Upto N) w /\ ost w true = None /\ common (w_b0 w) g /\ a_proto x = Some 3 /\ laid x (N + 8) /\
  bd_pkt_size (w_b0 w) = N /\ ab_st (a_rx x) = Released /\ g_rx g = RGot p /\ good N p /\ canw g /\
  ((bmc = false -> g_act g = true)) /\
  ((txrel x g /\ tied Rx (ost w false) x g /\
    (bmc = false -> tst (a_kcs x) ST_ACTIVE = true)) \/
   (quiet_host g /\ ost w false = Some Constructed /\ ab_st (a_tx x) = Acquired /\ g_tx g = TFree /\
    tst (a_kcs x) ST_ACTIVE = false)).

Lemma wp_rx_start (w : world) g p : rxpre w g p -> wp H (rx_start app w false) g (Good Rx).
Proof.
  intros (Hpa & Hw & H1 & Co & Ep & (L1 & L2 & L3 & L4) & Hps & Hst & Gr & Hg & Hc & Ha & Hcase).
  assert (bmc = true -> up w = true) as Hup.
  { intros Eb. destruct Hcase as [(_ & (_ & _ & T) & _)|((Q1 & _) & _)]; [|congruence].
    unfold up. destruct (ost w false) as [[]|]; try reflexivity. destruct (T eq_refl) as [_ []]. }
  unfold rx_start, ast. cbn [bnd]. set (x := bd_priv (w_b0 w)) in *.
  pose proof Hg as [Hz Hv]. rewrite L3. cbn [wp duo_h h_lread]. left. exists p.
  split; [exact Gr|]. split; [reflexivity|]. split; [reflexivity|].
  rewrite unbe32_be32 by lia. rewrite Ep, L4. rewrite body_size_ok by (change (extra 3) with 8; lia).
  change (extra 3) with 8. cbn [bind]. replace (N + 8 - 8 <? zlen p) with false by lia. rewrite Hps.
  replace (N <? zlen p) with false by lia. rewrite packet_size_ok by (change (extra 3) with 8; lia).
  change (extra 3) with 8. cbn [bind]. rewrite (w32_id (zlen p + 8 - 4)) by lia.
  replace (zlen p + 8 - 4) with (zlen p + 4) by lia.
  unfold pktbuf_alloc. rewrite (co_hdr _ _ Co), (co_trl _ _ Co). rewrite w64_id by lia.
  replace (N + 4 + 4 <? zlen p + 4) with false by lia. cbn [bind wp duo_h h_alloc h_emit h_lread].
  assert (rxo S bmc = 256 \/ rxo S bmc = 256 + S) as Hro by (unfold rxo, txo; destruct (negb bmc); auto).
  rewrite (w32_id (rxo S bmc + 4)) by lia. right. left. exists p.
  split; [exact Gr|]. split; [reflexivity|].
  assert (zlen (enc p) = zlen p + 4) as Hze by (unfold enc; rewrite zlen_app; reflexivity).
  split; [symmetry; exact Hze|]. split; [exact (co_dl _ _ Co)|].
  unfold pktbuf_mk. rewrite !w64_id by lia. set (sz := N + 4 + 4). cbn [pk_hdr]. unfold pktbuf_store.
  destruct (wr_some (repeat poison (Z.to_nat sz)) 4 (enc p)) as (d & Hd); [lia|rewrite zlen_repeat; lia|].
  cbn [pk_data pk_id pk_start pk_end pk_size pk_hdr]. rewrite Hd. cbn [deref bind].
  pose proof (wr_zlen _ _ _ _ Hd) as Hzd. rewrite zlen_repeat in Hzd.
  pose proof (rd_wr_same _ _ _ _ Hd) as Hrs. rewrite Hze in Hrs.
  set (nid := m_next (w_m w)). set (pkt := mkPkt nid 4 (4 + (zlen p + 4)) sz 4 d).
  assert (wf_pkt pkt) as Hpk by (constructor; cbn [pkt pk_hdr pk_start pk_end pk_size pk_data]; lia).
  set (w' := set_m w (set_next (w_m w) (nid + 1))).
  match goal with |- wp _ _ ?gg _ => set (g1 := gg) end.
  assert (canw g1) as Hc1 by exact Hc.
  assert (a_bmc (a_set_rx_st x Prepared) = bmc) as Em by exact (co_mode _ _ Co).
  (* the state with which the packet is handed to the core *)
  assert (forall s gg, g_dl gg = Some p ->
     (s = Prepared /\ g_rx gg = RHeld /\ ~ quiet_host g \/ s = Released /\ g_rx gg = RNo /\ g_sent gg = true) ->
     g_tx gg = g_tx g -> g_ph gg = g_ph g -> (bmc = false -> g_act gg = true /\ g_rdy gg = true) ->
     (exists e io, g_tr gg = (g_tr g ++ [e]) ++ EvAlloc nid :: io /\ wire_ev e /\ Forall wire_ev io) ->
     wp H (_ <- Ret tt ;;
           h <- deref OutOfBounds (rd (pk_data pkt) (pk_hdr pkt) 1) ;;
           if negb (nth 0 h 0 =? 1)
           then _ <- pktbuf_free pkt ;; Ret (put_ast w' false (a_set_rx_st x s))
           else
             '(pkt', ok) <- pktbuf_validate (a_proto (a_set_rx_st x s)) pkt ;;
             if (ok : bool) then bus_rx astlpc_tx app (put_ast w' false (a_set_rx_st x s)) false pkt'
             else _ <- pktbuf_free pkt' ;; Ret (put_ast w' false (a_set_rx_st x s))) gg (Good Rx)) as Hfin.
  { intros s gg Dl Hs Et Eph Eact (e & io & Eio & He & Hio). cbn [bind]. rewrite put_as_putb.
    change (bd_pkt_size (bnd w' false)) with (bd_pkt_size (w_b0 w)). rewrite Hps.
    set (w2 := putb w' (a_set_rx_st x s) N).
    assert (WF (Upto N) w2) as Hw2.
    { apply WF_putN; [now apply WF_next|lia|left; lia]. }
    assert (WalkCore.Jw (J Rx) w2 (sr gg (g_rx gg) None)) as HJ2.
    { split; [unfold w2; rewrite ost_putb; exact H1|]. destruct Co as [C1 C2 C3 C4 C5 C6 C7 C8]. split.
      - constructor; try assumption; try reflexivity; [clear -HN HS; cbn; lia|]. intros Eb. destruct (C8 Eb) as (D1 & D2 & D3). proj.
        destruct (Eact Eb). rewrite Eph. auto.
      - unfold w2. rewrite ost_putb. change (ost w' false) with (ost w false).
        destruct Hcase as [(T1 & T2 & T3)|(Tq & T2 & T3 & T4 & T5)].
        + apply PhC.
          * cbn [putb set_bnd w_b0 set_priv set_pkt_size bd_priv bnd a_set_rx_st a_kcs]. proj.
            unfold canw in Hc. destruct (bmc); [congruence|]. split; [now apply Eact|]. now apply T3.
          * exact Ep.
          * exact (conj L1 (conj L2 (conj L3 L4))).
          * reflexivity.
          * unfold txrel in *. proj. rewrite Et. exact T1.
          * unfold rxrel. cbn. destruct Hs as [(-> & -> & _)|(-> & -> & _)]; reflexivity.
          * exact T2.
        + destruct Hs as [(_ & _ & Hs)|(-> & Hr & Hse)]; [contradiction|]. destruct Tq as (Eb & _ & _).
          apply PhB; try assumption; try reflexivity.
          * exact (conj L1 (conj L2 (conj L3 L4))).
          * proj. congruence.
          * proj. split; [exact Hse|]. now apply Eact. }
    replace (zlen p + 4) with (1 + (zlen p + 3)) in Hrs by lia.
    pose proof Hrs as Hrs1. apply rd_split in Hrs1; [|lia|lia]. destruct Hrs1 as [Hh _].
    change (pk_data pkt) with d. change (pk_hdr pkt) with 4. rewrite Hh. cbn [deref bind].
    assert (nth 0 (firstn (Z.to_nat 1) (enc p)) 0 = 1) as ->.
    { unfold enc. destruct p as [|p0 p']; [unfold zlen in Hz; cbn in Hz; lia|]. exact Hv. }
    change (negb (1 =? 1)) with false. cbv iota.
    change (a_proto (a_set_rx_st x s)) with (a_proto x). rewrite Ep. unfold pktbuf_validate.
    change ((3 =? 1) || (3 =? 2)) with false. change (3 =? 3) with true. cbv iota.
    pose proof (pktbuf_size_wf pkt Hpk) as Hpz. change (pk_end pkt - pk_start pkt) with (4 + (zlen p + 4) - 4) in Hpz.
    rewrite Hpz. replace (4 + (zlen p + 4) - 4) with (zlen p + 4) by lia. rewrite w64_id by lia.
    replace (1 + (zlen p + 3)) with (zlen p + 4) in Hrs by lia.
    apply rd_split in Hrs; [|lia|lia]. destruct Hrs as [Hcb Hck].
    replace (zlen p + 4 - 4) with (zlen p) by lia.
    assert (firstn (Z.to_nat (zlen p)) (enc p) = p) as Ef.
    { unfold enc, zlen. rewrite Nat2Z.id, firstn_app, firstn_all, Nat.sub_diag. cbn [firstn]. apply app_nil_r. }
    assert (skipn (Z.to_nat (zlen p)) (enc p) = be32 (crc32 p)) as Es.
    { unfold enc, zlen. rewrite Nat2Z.id, skipn_app, skipn_all, Nat.sub_diag. reflexivity. }
    rewrite Ef in Hcb. rewrite Es in Hck.
    change (pk_data pkt) with d. change (pk_hdr pkt) with 4. rewrite Hcb. cbn [deref bind].
    unfold pktbuf_pop. rewrite Hpz. replace (4 + (zlen p + 4) - 4 <? 4) with false by lia.
    change (pk_end pkt) with (4 + (zlen p + 4)). rewrite w64_id by lia. cbn [pk_data].
    change (pk_data pkt) with d. replace (4 + (zlen p + 4) - 4) with (4 + zlen p) by lia.
    rewrite Hck. cbn [deref bind]. rewrite (eqb_same (be32 (crc32 p))).
    cbv iota. cbn [pkt pk_id pk_start pk_size pk_hdr pk_data].
    set (p2 := mkPkt nid 4 (4 + zlen p) sz 4 d).
    assert (wf_pkt p2) as Hp2 by (clear -HN HS Hz Hzd; constructor; cbn [p2 pk_hdr pk_start pk_end pk_size pk_data]; lia).
    assert (pktbuf_bytes p2 = Some p) as Hby.
    { unfold pktbuf_bytes. rewrite (pktbuf_size_wf p2 Hp2). cbn [p2 pk_hdr pk_start pk_end pk_size pk_data].
      replace (4 + zlen p - 4) with (zlen p) by lia. exact Hcb. }
    destruct (bgetN w2 Hw2) as (b2 & Hb2).
    eapply wp_mono; [apply Hm| |
      eapply (wp_bus_rx astlpc_tx app H Hm g_tr (Upto N) (J Rx) (J_emit Rx) (J_alloc Rx) (J_btx Rx));
        [exact Hw2|exact Hb2|exact Hp2|exact Hby|]].
    - intros w4 g4 (t & Etr & Hr & HJ). split.
      { rewrite Etr, Eio, <- app_assoc. cbn [Datatypes.app].
        eapply PastRx; [apply past1; [exact Hpa|exact He]|exact Hw2|exact Hio|exact Hg|exact Hup|exact Hr]. }
      split; [eapply rx_rel_WF; [exact Hw2|exact Hr]|exact HJ].
    - intros lo Q HQ. cbn [duo_h h_emit]. split; [exact Dl|]. apply HQ; [|reflexivity].
      destruct HJ2 as (K1 & K2 & K3). split; [exact K1|]. split; [now apply common_log|now apply phase_log]. }
  apply wp_bind; [apply Hm|]. eapply wp_complete; [exact Em|exact Hc1|reflexivity| |].
  - intros st Hnq. change (- EBUSY =? 0) with false. cbv iota.
    apply (Hfin Prepared); try reflexivity.
    + left. split; [reflexivity|]. split; [reflexivity|]. exact Hnq.
    + intros Eb. unfold seen, g1. proj. rewrite (Ha Eb). destruct (co_rdy _ _ Co Eb) as (-> & _). auto.
    + eexists _, _. unfold seen, g1. proj. rewrite <- !app_assoc. cbn [Datatypes.app]. split; [reflexivity|]. split; [exact I|]. repeat constructor.
  - intros st. change (0 =? 0) with true. cbv iota. apply (Hfin Released); try reflexivity.
    + right. split; [reflexivity|]. split; reflexivity.
    + intros Eb. unfold seen, g1. proj. rewrite (Ha Eb). destruct (co_rdy _ _ Co Eb) as (-> & _). auto.
    + eexists _, _. unfold seen, g1. proj. rewrite <- !app_assoc. cbn [Datatypes.app]. split; [reflexivity|]. split; [exact I|]. repeat constructor.
Qed.

(** ** The peer has returned the transmit buffer *)
Lemma wp_tx_complete (w : world) g :
  let x := bd_priv (w_b0 w) in
  past w (g_tr g) -> WF (Upto N) w -> ost w true = None -> common (w_b0 w) g -> a_proto x = Some 3 -> laid x (N + 8) ->
  bd_pkt_size (w_b0 w) = N -> rxrel x g -> g_tx g = TFree ->
  (if bmc then g_ph g = 8 else g_act g = true /\ tst (a_kcs x) ST_ACTIVE = true) ->
  wp H (tx_complete w false) g
     (fun w' g' => Good (Fin true (zlen (offered (g_tr g)))) w' g' /\
        (ab_st (a_tx (bd_priv (w_b0 w'))) = Acquired -> ost w' false = Some TxEnabled)).
Proof.
  intros x Hpa Hw H1 [C1 C2 C3 C4 C5 C6 C7 C8] Ep Hl Hps Hr Ht Hph. unfold tx_complete, ast. cbn [bnd]. fold x.
  rewrite put_as_putb. cbn [bnd]. rewrite Hps. eapply wp_on; [|reflexivity|reflexivity|reflexivity].
  match goal with |- Good _ ?ww _ => assert (WF (Upto N) ww) as Hw' by (apply WF_putN; [exact Hw|clear -HN HS; lia|left; clear; lia]) end.
  split; [apply PastPut; [exact Hpa|exact Hw']|]. split; [exact Hw'|].
  split; [rewrite ost_putb; exact H1|]. split.
  - constructor; try assumption. clear -HN HS; cbn; lia.
  - rewrite ost_putb. apply PhC; try assumption; try reflexivity. split; [reflexivity|]. split; [intros _; right; reflexivity|]. intros _. split; reflexivity.
Qed.

(** ** The host's side of the handshake *)
Definition host_final (x : astlpc) : astlpc :=
  a_set_layout (a_set_proto x 3) (mkLayout (mkBuf 256 (N + 8) Released) (mkBuf (256 + S) (N + 8) Acquired)).

Lemma wp_fin (w : world) g (Q : world * Z -> gst -> Prop) : bmc = false -> a_bmc (bd_priv (w_b0 w)) = false ->
  g_ph g = 4 ->
  (g_act g || g_fin g || g_neg g = false -> Q (w, - EINVAL) (log g [EvLRead 12 (be16 0)])) ->
  (forall t, Forall wire_ev t -> Q (putb w (host_final (bd_priv (w_b0 w))) N, 0) (log (sneg g true) t)) ->
  wp H (finalise_channel w false) g Q.
Proof.
  intros Eb Em Eph Q0 Q1. unfold finalise_channel, ast. cbn [bnd wp duo_h h_lread].
  right. right. right. right. right. split; [exact Eb|]. split; [reflexivity|]. split; [reflexivity|].
  split; [exact Eph|]. split.
  { intros E. cbn [wp]. change (unbe16 (be16 0)) with 0. cbn [Z.eqb orb]. cbn [wp]. now apply Q0. }
  change (unbe16 (be16 3)) with 3.
  change ((3 =? ASTLPC_VER_BAD) || (3 <? ASTLPC_VER_MIN) || (ASTLPC_VER_CUR <? 3)) with false. cbv iota.
  apply wp_assert_bind; [reflexivity|]. set (x := bd_priv (w_b0 w)) in *.
  unfold layout_read. cbn [bind wp duo_h h_lread]. right. right. right. right. left.
  split; [exact Eb|]. split; [reflexivity|]. split; [reflexivity|]. split; [reflexivity|].
  destruct (hdr_fields 1 3 3 (N + 8) (N + 8)) as (F1 & F2 & F3 & F4 & F5 & F6 & F7 & F8 & F9); try lia.
  change (hdr S 1 3 3 (N + 8) (N + 8)) with (hdr_of S N 4 8) in *.
  change (a_bmc (a_set_proto x 3)) with (a_bmc x). rewrite Em, F6, F7, F8, F9.
  change (a_proto (a_set_proto x 3)) with (Some 3). rewrite validate_side by lia. cbn [bind negb].
  change (2 <=? 3) with true. cbv iota. cbn [ly_tx ab_size]. rewrite body_size_ok by (change (extra 3) with 8; lia).
  change (extra 3) with 8. replace (N + 8 - 8) with N by lia. cbn [bind wp ly_rx ab_set_st ab_off ab_size].
  match goal with |- Q (?ww, 0) ?gg => change (Q (putb w (host_final x) N, 0) gg) end.
  match goal with |- Q _ (log (log ?a ?b) ?c) =>
    replace (log (log a b) c) with (log a (b ++ c)) by (unfold log; proj; now rewrite app_assoc) end.
  apply Q1. repeat constructor.
Qed.

Lemma put_kcs (w : world) g st : bmc = false -> Good Out w g -> tst st ST_BMC_READY = true ->
  tst st ST_ACTIVE = tst (a_kcs (bd_priv (w_b0 w))) ST_ACTIVE ->
  Good Out (put_ast w false (a_set_kcs (ast w false) st)) g.
Proof.
  intros Eb (Hpa & Hw & J1 & [C1 C2 C3 C4 C5 C6 C7 C8] & J3) Hr Ha. rewrite put_as_putb. cbn [bnd].
  match goal with |- Good _ ?ww _ => assert (WF (Upto N) ww) as Hw' by (apply WF_putN; [exact Hw|exact C4|now right]) end.
  split; [apply PastPut; [exact Hpa|exact Hw']|]. split; [exact Hw'|]. split; [rewrite ost_putb; exact J1|]. split.
  - constructor; try assumption. intros _. destruct (C8 Eb) as (D1 & D2 & _). auto.
  - rewrite ost_putb. unfold ast. cbn [bnd].
    destruct J3 as [A0 A1 A2 A3 A4 A5 A6|A1 A2 A3 A4 A5 A6 A7 A8 A9 A10 A11|A1 A2 A3 A4 A5 A6 A7].
    + apply PhA; try assumption. rewrite Eb in *. destruct A6 as (B1 & B2 & B3 & B4).
      split; [exact B1|]. split; [exact B2|]. split; [exact B3|]. exact (eq_trans Ha B4).
    + apply PhB; try assumption. exact (eq_trans Ha A10).
    + apply PhC; try assumption. rewrite Eb in *. destruct A1 as [B1 B2]. split; [exact B1|]. exact (eq_trans Ha B2).
Qed.

Lemma wp_update md (w : world) st g f0 : bmc = false -> Good md w (sfin g f0) -> tst st ST_BMC_READY = true ->
  (md = Out /\ g_act g = tst st ST_ACTIVE \/ md = Rx /\ tst st ST_ACTIVE = true) ->
  wp H (update_channel w false st) g (fun r g' => Good Out (fst r) g').
Proof.
  intros Eb (Hpa & Hw & J1 & [C1 C2 C3 C4 C5 C6 C7 C8] & J3) Hr Hmd. proj.
  assert (common (w_b0 w) g) as Co by (constructor; assumption).
  destruct (C8 Eb) as (D1 & D2 & D3). rewrite Eb in C5.
  unfold update_channel, ast. cbn [bnd]. set (x := bd_priv (w_b0 w)) in *.
  apply wp_assert_bind; [rewrite C5; reflexivity|].
  rewrite tst_xor_ready, tst_xor_active. rewrite D3, Hr. cbn [xorb andb bind].
  (* the end of the handshake with the channel active *)
  assert (forall y n, 68 <= n < 2 ^ 33 -> n <= N \/ n = bd_pkt_size (w_b0 w) ->
     WF (Upto N) (putb w y n) /\ past (putb w y n) (g_tr g)) as Hput.
  { intros y n H1 H2. pose proof (WF_putN w y n Hw H1 H2) as HW. split; [exact HW|]. now apply PastPut. }
  assert (forall gg t, g_tr gg = g_tr g -> Forall wire_ev t -> g_ph gg = 4 -> g_rdy gg = true -> g_dl gg = None -> g_act gg = true ->
     g_tx gg = TFree -> g_rx gg = RNo -> tst st ST_ACTIVE = true ->
     wp H (set_tx_enabled astlpc_tx (putb w (host_final x) N) false true) (log (sneg gg true) t)
       (fun w2 g2 => Good Out (put_ast w2 false (a_set_kcs (ast w2 false) st)) g2)) as Hon.
  { intros gg t G0 Gt G1 G2 G3 G4 G5 G6 Hact.
    eapply wp_mono; [apply Hm| |apply (wp_on (Fin false (zlen (offered (g_tr (log (sneg gg true) t))))) _ _ false); [|reflexivity|reflexivity|reflexivity]].
    - intros w2 g2 [(Hpa2 & Hw2 & K1 & [B1 B2 B3 B4 B5 B6 B7 B8] & K3) Hti]. rewrite put_as_putb. cbn [bnd].
      match goal with |- Good _ ?ww _ => assert (WF (Upto N) ww) as Hw' by (apply WF_putN; [exact Hw2|exact B4|now right]) end.
      split; [apply PastPut; [exact Hpa2|exact Hw']|]. split; [exact Hw'|]. split; [rewrite ost_putb; exact K1|]. split.
      + constructor; try assumption. intros _. destruct (B8 Eb) as (E1 & E2 & _). auto.
      + rewrite ost_putb. destruct K3 as [A0|? ? ? ? ? ? ? ? ? ? []|A1 A2 A3 A4 A5 A6 A7]; [discriminate|].
        apply PhC; try assumption.
        * rewrite Eb in *. destruct A1 as [A1 _]. split; [exact A1|exact Hact].
        * split; [exact (proj1 A7)|]. split; [intros Ha; left; exact (Hti Ha)|]. intros E. destruct A7 as (_ & _ & A7).
          specialize (Hti (proj1 (A7 E))). congruence.
    - destruct (Hput (host_final x) N ltac:(clear -HN HS; lia) ltac:(left; clear; lia)) as [Hw' Hp'].
      split; [proj; rewrite G0; apply PastIo; [exact Hp'|exact Gt]|]. split; [exact Hw'|].
      split; [rewrite ost_putb; exact J1|]. split.
      + constructor; try assumption; try exact (eq_trans C5 (eq_sym Eb)); [clear -HN HS; cbn; lia|]. intros _. auto.
      + rewrite ost_putb. apply PhC; try reflexivity.
        * rewrite Eb. split; [exact G4|exact I].
        * unfold laid, txo, rxo, txo. rewrite Eb. cbn. auto.
        * exact G5.
        * exact G6.
        * split; [reflexivity|]. split; [intros _; right; reflexivity|]. intros _. split; reflexivity. }
  destruct J3 as [A0 A1 A2 A3 A4 A5 A6|A1 A2 A3 A4 A5 A6 A7 A8 A9 A10 A11|A1 A2 A3 A4 A5 A6 A7].
  - (* nothing negotiated yet *)
    destruct Hmd as [[_ Hmd]|[E _]]; [|congruence]. rewrite Eb in A6. destruct A6 as (B1 & B2 & B3 & B4).
    fold x in B1, B4, A2, A3. eapply wp_deref_bind; [exact B1|]. change (0 =? 0) with true. cbn [orb].
    rewrite put_as_putb. cbn [bnd]. set (n := bd_pkt_size (w_b0 w)). set (xi := a_set_rx_st (a_set_tx_st x Idle) Idle).
    apply wp_bind; [apply Hm|]. apply wp_bind; [apply Hm|].
    apply wp_fin; [exact Eb|exact C5|exact D2| |].
    + intros E. assert (tst st ST_ACTIVE = false) as Ea.
      { rewrite <- Hmd. destruct (g_act g); [discriminate|reflexivity]. }
      rewrite Ea. cbn [andb].
      assert (Good Out (putb w xi n) (log g [EvLRead 12 (be16 0)])) as HG.
      { destruct (Hput xi n C4 ltac:(now right)) as [Hw' Hp'].
        split; [proj; apply past1; [exact Hp'|exact I]|]. split; [exact Hw'|]. split; [rewrite ost_putb; exact J1|]. split.
        - constructor; try assumption. exact (eq_trans C5 (eq_sym Eb)).
        - rewrite ost_putb. apply PhA; try assumption; try reflexivity. rewrite Eb. proj.
          apply orb_false_elim in E. destruct E as [E _]. apply orb_false_elim in E. destruct E as [_ E]. auto. }
      eapply wp_call; [apply Hm|apply (wp_off Out); [exact HG|rewrite ost_putb; exact A1]|].
      intros w2 g2 [-> ->]. cbn [wp fst]. apply put_kcs; [exact Eb| |exact Hr|exact (eq_trans Ea (eq_sym B4))].
      destruct HG as (Kp & K0 & K1 & K2 & K3). split; [apply past_off; [exact Kp|exact K0|rewrite ost_putb; exact A1]|].
      split; [exact K0|]. split; [exact K1|].
      split; [now apply common_log|now apply phase_log].
    + intros t Ht. rewrite putb_putb. change (bd_priv (w_b0 (putb w xi n))) with xi.
      change (host_final xi) with (host_final x). change (0 =? 0) with true. rewrite andb_true_r.
      destruct (tst st ST_ACTIVE) eqn:Ea.
      * eapply wp_call; [apply Hm|apply Hon; auto|]. intros w2 g2 HG. exact HG.
      * assert (Good Out (putb w (host_final x) N) (log (sneg g true) t)) as HG.
        { destruct (Hput (host_final x) N ltac:(clear -HN HS; lia) ltac:(left; clear; lia)) as [Hw' Hp'].
          split; [proj; apply PastIo; [exact Hp'|exact Ht]|]. split; [exact Hw'|]. split; [rewrite ost_putb; exact J1|]. split.
          - constructor; try assumption; try exact (eq_trans C5 (eq_sym Eb)). clear -HN HS; cbn; lia.
          - rewrite ost_putb. apply PhB; try assumption; try reflexivity. unfold laid, txo, rxo, txo. rewrite Eb. cbn. auto. }
        eapply wp_call; [apply Hm|apply (wp_off Out); [exact HG|rewrite ost_putb; exact A1]|].
        intros w2 g2 [-> ->]. cbn [wp fst]. apply put_kcs; [exact Eb| |exact Hr|exact (eq_trans Ea (eq_sym B4))].
        destruct HG as (Kp & K0 & K1 & K2 & K3). split; [apply past_off; [exact Kp|exact K0|rewrite ost_putb; exact A1]|].
        split; [exact K0|]. split; [exact K1|].
        split; [now apply common_log|now apply phase_log].
  - (* negotiated, not active *)
    fold x in A3, A4, A6, A7, A10. eapply wp_deref_bind; [exact A3|]. change (3 =? 0) with false. cbn [orb].
    rewrite A10. cbn [xorb]. destruct (tst st ST_ACTIVE) eqn:Ea.
    + assert (g_act g = true) as Ga.
      { destruct Hmd as [[-> E]|[-> _]]; [exact E|apply A11]. }
      rewrite put_as_putb. cbn [bnd]. set (n := bd_pkt_size (w_b0 w)). set (xi := a_set_rx_st (a_set_tx_st x Idle) Idle).
      apply wp_bind; [apply Hm|]. apply wp_bind; [apply Hm|].
      apply wp_fin; [exact Eb|exact C5|exact D2| |].
      * intros E. rewrite Ga in E. discriminate.
      * intros t Ht. rewrite putb_putb. change (bd_priv (w_b0 (putb w xi n))) with xi.
        change (host_final xi) with (host_final x). change (true && (0 =? 0)) with true.
        eapply wp_call; [apply Hm|apply Hon; auto|]. intros w2 g2 HG. exact HG.
    + destruct Hmd as [[Emd Hmd]|[_ E]]; [|discriminate]. subst md. cbn [bind wp fst].
      apply put_kcs; [exact Eb| |exact Hr|exact (eq_trans Ea (eq_sym A10))].
      split; [exact Hpa|]. split; [exact Hw|]. split; [exact J1|]. split; [exact Co|]. now apply PhB.
  - (* active *)
    rewrite Eb in A1. destruct A1 as [Ga Gk]. proj. fold x in A2, A3, A5, A6, A7, Gk.
    assert (tst st ST_ACTIVE = true) as Ea by (destruct Hmd as [[-> E]|[-> E]]; congruence).
    assert (tst (a_kcs x) ST_ACTIVE = true) as Ek by (destruct Hmd as [[-> _]|[-> _]]; exact Gk).
    eapply wp_deref_bind; [exact A2|]. change (3 =? 0) with false. rewrite Ek, Ea. cbn [orb xorb bind wp fst].
    apply put_kcs; [exact Eb| |exact Hr|exact (eq_trans Ea (eq_sym Ek))].
    split; [exact Hpa|]. split; [exact Hw|]. split; [exact J1|]. split; [exact Co|]. apply PhC; try assumption; [rewrite Eb; split; [exact Ga|exact Ek]|].
    destruct Hmd as [[-> _]|[-> _]]; exact A7.
Qed.

(** ** Polling *)
Lemma Good_seen md (w : world) g st : Good md w g -> Good md w (seen g st).
Proof.
  intros (Hpa & Hw & J1 & [C1 C2 C3 C4 C5 C6 C7 C8] & J3). split; [apply past1; [exact Hpa|exact I]|]. split; [exact Hw|]. split; [exact J1|]. split.
  - constructor; try assumption. intros Eb. destruct (C8 Eb) as (D1 & D2 & D3). unfold seen. proj. rewrite D1. auto.
  - destruct J3 as [A0 A1 A2 A3 A4 A5 A6|A1 A2 A3 A4 A5 A6 A7 A8 A9 A10 A11|A1 A2 A3 A4 A5 A6 A7].
    + now apply PhA.
    + apply PhB; try assumption. destruct md; try assumption. destruct A11 as [B1 B2]. split; [exact B1|].
      unfold seen. proj. now rewrite B2.
    + apply PhC; try assumption.
      * destruct (bmc); [exact A1|]. destruct A1 as [B1 B2]. split; [|exact B2]. unfold seen. proj. now rewrite B1.
      * assert (loose md g -> loose md (seen g st)) as Hlo.
        { intros E. unfold loose, seen in *. destruct md; try exact E.
          proj. unfold offered in *. rewrite flat_map_app. cbn [flat_map Datatypes.app]. rewrite app_nil_r. exact E. }
        destruct A7 as (B1 & B2 & B3). split; [exact B1|]. split.
        -- intros Ha. destruct (B2 Ha) as [E|E]; [now left|right; now apply Hlo].
        -- intros E. destruct (B3 E) as [E1 E2]. split; [exact E1|now apply Hlo].
Qed.

Lemma wp_tail_bmc (w : world) st data rc g : bmc = true -> Good Out w g ->
  wp H (poll_tail w false st data rc) g (fun r g' => Good Out (fst r) g').
Proof.
  intros Eb HG. unfold poll_tail, ast. cbn [bnd]. pose proof HG as (_ & Hw & J1 & Co & J3).
  pose proof (eq_trans (co_mode _ _ Co) Eb) as Em. rewrite Em. cbn [negb andb]. cbn [wp fst]. exact HG.
Qed.

Lemma wp_tail_host (w : world) st data rc g : bmc = false -> Good Rx w g -> tst st ST_BMC_READY = true ->
  tst st ST_ACTIVE = true -> data <> 255 ->
  wp H (poll_tail w false st data rc) g (fun r g' => Good Out (fst r) g').
Proof.
  intros Eb HG Hr Ha Hd. unfold poll_tail, ast. cbn [bnd]. pose proof HG as (_ & Hw & J1 & Co & J3).
  pose proof (eq_trans (co_mode _ _ Co) Eb) as Em. rewrite Em. cbn [negb andb]. unfold cmd_dummy_value.
  replace (data =? 255) with false by (clear -Hd; lia). rewrite andb_false_r. cbn [negb].
  apply (wp_update Rx w st g (g_fin g)); auto. destruct g; exact HG.
Qed.

Lemma data_bmc g (Q : option Z -> gst -> Prop) : bmc = true -> g_if g = true -> g_ph g = 3 \/ g_ph g = 8 ->
  (g_ph g = 3 -> Q (Some 0) (log (sph (sif g false) 4) [EvKRead KData (Some 0)])) ->
  (g_ph g = 8 -> g_rx g = RNo -> forall p, good N p ->
     Q (Some 1) (log (sr (sif g false) (RGot p) (g_dl g)) [EvKRead KData (Some 1)])) ->
  (g_ph g = 8 -> g_tx g = TNo -> Q (Some 2) (log (sx (sif g false) TFree) [EvKRead KData (Some 2)])) ->
  h_kread H KData g Q.
Proof. intros Eb Hi Hp Q0 Q1 Q2. cbn [duo_h h_kread]. rewrite Eb. cbn zeta. auto 10. Qed.
Lemma data_host g (Q : option Z -> gst -> Prop) : bmc = false -> g_if g = true ->
  (forall f, (f = true \/ f = g_fin g) -> Q (Some 255) (log (sfin (sif g false) f) [EvKRead KData (Some 255)])) ->
  (g_fin g = true -> g_rx g = RNo -> forall p, good N p ->
     Q (Some 1) (log (sr (sif g false) (RGot p) (g_dl g)) [EvKRead KData (Some 1)])) ->
  (g_fin g = true -> g_tx g = TNo -> Q (Some 2) (log (sx (sif g false) TFree) [EvKRead KData (Some 2)])) ->
  h_kread H KData g Q.
Proof.
  intros Eb Hi Q0 Q1 Q2. cbn [duo_h h_kread]. rewrite Eb. cbn zeta. split; [exact Hi|].
  split; [|split; [apply Q0; now left|auto 10]].
  specialize (Q0 (g_fin g) (or_intror eq_refl)). destruct g; exact Q0.
Qed.

Lemma wp_poll (w : world) g : Good Out w g -> wp H (poll app w false) g (fun r g' => Good Out (fst r) g').
Proof.
  intros HI. unfold poll.
  eapply wp_call with (P := fun x g' => Good Out (put_ast w false x) g'); [apply Hm| |].
  { unfold poll_release_rx. destruct (ab_st (a_rx (ast w false))) eqn:Es;
      try (cbn [wp]; rewrite Inv_same; exact HI).
    pose proof HI as (Hpa & Hw & J1 & Co & J3). pose proof Co as [C1 C2 C3 C4 C5 C6 C7 C8].
    unfold ast in *. cbn [bnd] in *. set (x := bd_priv (w_b0 w)) in *.
    destruct J3 as [A0 A1 A2 A3|A1 A2 A3 A4 A5 A6 A7|A1 A2 A3 A4 A5 A6 A7]; [fold x in A3; congruence|fold x in A7; congruence|].
    assert (canw g) as Hc.
    { unfold canw. destruct (bmc); [exact A1|]. destruct (C8 eq_refl) as (_ & D & _). destruct A1 as [-> _]. auto. }
    assert (g_rx g = RHeld) as Hx by (unfold rxrel in A6; fold x in A6; rewrite Es in A6; exact A6).
    apply wp_bind; [apply Hm|]. eapply wp_complete; [exact C5|exact Hc|exact Hx| |].
    - intros st _. cbn [wp]. change (- EBUSY =? 0) with false. cbv iota. change x with (ast w false). rewrite Inv_same.
      now apply Good_seen.
    - intros st. cbn [wp]. change (0 =? 0) with true. cbv iota.
      rewrite put_as_putb. cbn [bnd]. destruct (Good_seen Out w g st HI) as (Hpa' & _ & _ & [E1 E2 E3 E4 E5 E6 E7 E8] & K3).
      match goal with |- Good _ ?ww _ => assert (WF (Upto N) ww) as Hw' by (apply WF_putN; [exact Hw|exact C4|now right]) end.
      split; [apply PastPut; [apply past1; [exact Hpa'|exact I]|exact Hw']|]. split; [exact Hw'|]. split; [rewrite ost_putb; exact J1|]. split.
      + constructor; assumption.
      + rewrite ost_putb. destruct K3 as [B0 B1 B2 B3|B1 B2 B3 B4 B5 B6 B7|B1 B2 B3 B4 B5 B6 B7];
          [fold x in B3; congruence|fold x in B7; congruence|].
        apply PhC; try assumption. reflexivity. }
  intros x1 g1 HI1. set (w1 := put_ast w false x1) in *.
  eapply wp_call with (P := fun x g' => Good Out (put_ast w1 false x) g'); [apply Hm| |].
  { change x1 with (ast w1 false). unfold poll_release_tx. destruct (ab_st (a_tx (ast w1 false))) eqn:Es;
      try (cbn [wp]; rewrite Inv_same; exact HI1).
    pose proof HI1 as (Hpa & Hw & J1 & Co & J3). pose proof Co as [C1 C2 C3 C4 C5 C6 C7 C8].
    unfold ast in *. change (bnd w1 false) with (w_b0 w1) in *. set (x := bd_priv (w_b0 w1)) in *.
    destruct J3 as [A0 A1 A2 A3|A1 A2 A3 A4 A5 A6 A7|A1 A2 A3 A4 A5 A6 A7]; [fold x in A2; congruence|fold x in A6; congruence|].
    assert (canw g1) as Hc.
    { unfold canw. destruct (bmc); [exact A1|]. destruct (C8 eq_refl) as (_ & D & _). destruct A1 as [-> _]. auto. }
    assert (exists p, g_tx g1 = TFull p) as (p & Hx) by (unfold txrel in A5; fold x in A5; rewrite Es in A5; exact A5).
    apply wp_bind; [apply Hm|]. eapply wp_begin; [exact C5|exact Hc|exact Hx| |].
    - intros st. cbn [wp]. change (- EBUSY =? 0) with false. cbv iota. change x with (ast w1 false). rewrite Inv_same.
      now apply Good_seen.
    - intros st. cbn [wp]. change (0 =? 0) with true. cbv iota.
      rewrite put_as_putb. change (bnd w1 false) with (w_b0 w1).
      destruct (Good_seen Out w1 g1 st HI1) as (Hpa' & _ & _ & [E1 E2 E3 E4 E5 E6 E7 E8] & K3).
      match goal with |- Good _ ?ww _ => assert (WF (Upto N) ww) as Hw' by (apply WF_putN; [exact Hw|exact C4|now right]) end.
      split; [apply PastPut; [apply past1; [exact Hpa'|exact I]|exact Hw']|]. split; [exact Hw'|]. split; [rewrite ost_putb; exact J1|]. split.
      + constructor; assumption.
      + rewrite ost_putb. destruct K3 as [B0 B1 B2 B3|B1 B2 B3 B4 B5 B6 B7|B1 B2 B3 B4 B5 B6 B7];
          [fold x in B2; congruence|fold x in B6; congruence|].
        apply PhC; try assumption; [reflexivity|].
        destruct B7 as (B7 & _ & B8). split; [intros E; apply B7 in E; fold x in E; congruence|]. split; [discriminate|].
        intros E. apply B8 in E. fold x in E. destruct E as [E _]. congruence. }
  intros x2 g2 HI2'. change (put_ast w1 false x2) with (put_ast w false x2) in HI2'. set (w2 := put_ast w false x2) in *.
  clear HI HI1. cbn [wp duo_h h_kread]. intros st _ Hoe Hif Hhost.
  change (log _ [EvKRead KStatus (Some st)]) with (seen g2 st).
  pose proof (Good_seen Out w2 g2 st HI2') as HI3. set (g3 := seen g2 st) in *.
  pose proof HI3 as (Hpa & Hw & J1 & Co & J3). pose proof Co as [C1 C2 C3 C4 C5 C6 C7 C8].
  change (w_b0 w2) with (set_priv (w_b0 w) x2) in C5. cbn [set_priv bd_priv] in C5.
  rewrite (read_ready x2 st C5). destruct (iflag bmc st) eqn:Ei; cbn [negb]; [|cbn [wp fst]; exact HI3].
  assert (g_if g3 = true) as Hif3 by (unfold g3, seen; proj; rewrite Ei; apply orb_true_r).
  set (x := bd_priv (w_b0 w2)) in *.
  assert (forall v d gg (Q : world * Z -> gst -> Prop), a_proto x = Some v ->
     (v <> 0 \/ d = 0 \/ d = 255) ->
     wp H (if d =? 0 then w' <- init_channel w2 false ;; poll_tail w' false st d 0
           else if d =? 1 then
             match ab_st (a_rx x) with
             | Released => w' <- rx_start app w2 false ;; poll_tail w' false st d 0
             | _ => Ret (w2, 0)
             end
           else if d =? 2 then
             match ab_st (a_tx x) with
             | Released => w' <- tx_complete w2 false ;; poll_tail w' false st d 0
             | _ => Ret (w2, 0)
             end
           else if d =? 255 then
             if a_bmc x then poll_tail w2 false st d 0
             else '(w', rc) <- update_channel w2 false st ;;
                  if rc <? 0 then Ret (w', rc) else poll_tail w' false st d rc
           else poll_tail w2 false st d 0) gg Q ->
     wp H (poll_dispatch app w2 false st d) gg Q) as Hdisp.
  { intros v d gg Q Ev Hd Hwp. unfold poll_dispatch. change (ast w2 false) with x.
    eapply wp_deref_bind; [exact Ev|].
    replace ((v =? 0) && negb ((d =? cmd_initialise) || (d =? cmd_dummy_value))) with false; [exact Hwp|].
    unfold cmd_initialise, cmd_dummy_value. destruct Hd as [Hd|[-> | ->]].
    - replace (v =? 0) with false by (clear -Hd; lia). reflexivity.
    - symmetry. apply andb_false_r.
    - symmetry. apply andb_false_r. }
  assert (bmc = true \/ bmc = false) as [Eb|Eb] by (destruct (bmc); auto).
  - (* the BMC *)
    cbn [wp]. apply data_bmc; [exact Eb|exact Hif3| | | |].
    + destruct J3 as [A0 A1 A2 A3 A4 A5 A6|A1|A1]; [rewrite Eb in A6; left; apply A6|congruence|rewrite Eb in A1; now right].
    + intros Hph. destruct J3 as [A0 A1 A2 A3 A4 A5 A6|A1|A1]; [|congruence|rewrite Eb in A1; congruence].
      rewrite Eb in A6. destruct A6 as (_ & B2 & B3). fold x in B2, B3. apply (Hdisp 3 0); [exact B2|auto|].
      change (0 =? 0) with true. cbv iota. eapply wp_call; [apply Hm|apply wp_init_channel; [exact Eb| |reflexivity]|].
      * split; [apply past1; [exact Hpa|exact I]|]. split; [exact Hw|]. split; [exact J1|]. split; [|split; [exact A1|]; split; [exact B2|]; split; [exact B3|]; split; assumption].
        constructor; try assumption. intros N0. congruence.
      * intros w3 g4 HG. now apply wp_tail_bmc.
    + intros Hph Hr p Hp. destruct J3 as [A0 A1 A2 A3 A4 A5 A6|A1|A1 A2 A3 A4 A5 A6 A7]; [rewrite Eb in A6; destruct A6; congruence|congruence|].
      fold x in A2, A3, A5, A6, A7. apply (Hdisp 3 1); [exact A2|left; discriminate|].
      change (1 =? 0) with false. change (1 =? 1) with true. cbv iota.
      unfold rxrel in A6. destruct (ab_st (a_rx x)) eqn:Es; try (cbn [wp fst]; exfalso; first [exact A6|congruence]).
      eapply wp_call; [apply Hm|apply (wp_rx_start w2 _ p)|].
      * split; [apply past1; [exact Hpa|exact I]|]. split; [exact Hw|]. split; [exact J1|]. split; [constructor; assumption|]. split; [exact A2|]. split; [exact A3|].
        split; [exact A4|]. split; [exact Es|]. split; [reflexivity|]. split; [exact Hp|].
        split; [unfold canw; rewrite Eb; exact Hph|]. split; [congruence|]. left. split; [exact A5|]. split; [exact A7|congruence].
      * intros w3 g4 HG. apply wp_tail_bmc; [exact Eb|]. now apply Rx_Out.
    + intros Hph Ht. destruct J3 as [A0 A1 A2 A3 A4 A5 A6|A1|A1 A2 A3 A4 A5 A6 A7]; [rewrite Eb in A6; destruct A6; congruence|congruence|].
      fold x in A2, A3, A5, A6, A7. apply (Hdisp 3 2); [exact A2|left; discriminate|].
      change (2 =? 0) with false. change (2 =? 1) with false. change (2 =? 2) with true. cbv iota.
      unfold txrel in A5. destruct (ab_st (a_tx x)) eqn:Es; try (exfalso; first [exact A5|congruence|destruct A5; congruence]).
      eapply wp_call; [apply Hm|apply (wp_tx_complete w2)|]; try assumption; try reflexivity; try (apply past1; [exact Hpa|exact I]).
      * constructor; assumption.
      * intros w3 g4 [HG HG']. apply wp_tail_bmc; [exact Eb|]. exact (Fin_any _ _ _ _ HG HG').
  - (* the host *)
    destruct (Hhost Eb) as (R1 & R2 & R3 & R4 & R5). destruct (C8 Eb) as (D1 & D2 & D3).
    destruct HI2' as (_ & _ & _ & Co2 & _). destruct (co_rdy _ _ Co2 Eb) as (D1' & D2' & _). clear Co2.
    specialize (R1 D1').
    assert (g_act g3 = tst st ST_ACTIVE) as Ga.
    { unfold g3, seen. proj. destruct (g_act g2); [|reflexivity]. symmetry. now apply R2. }
    assert (a_bmc x = false) as Em by exact (eq_trans C5 Eb).
    cbn [wp]. apply data_host; [exact Eb|exact Hif3| | |].
    + intros f Hf. assert (exists v, a_proto x = Some v) as (v & Ev).
      { destruct J3 as [A0 A1 A2 A3 A4 A5 A6|A1 A2 A3|A1 A2]; [rewrite Eb in A6; destruct A6; eauto|eauto|eauto]. }
      apply (Hdisp v 255); [exact Ev|auto|].
      change (255 =? 0) with false. change (255 =? 1) with false. change (255 =? 2) with false. change (255 =? 255) with true. cbv iota.
      rewrite Em. eapply wp_call; [apply Hm|apply (wp_update Out w2 st _ (g_fin g3)); [exact Eb| |exact R1|left; split; [reflexivity|exact Ga]]|].
      * split; [apply past1; [exact Hpa|exact I]|]. split; [exact Hw|]. split; [exact J1|]. split; [constructor; assumption|].
        destruct J3 as [A0 A1 A2 A3 A4 A5 A6|A1 A2 A3 A4 A5 A6 A7 A8 A9 A10 A11|A1 A2 A3 A4 A5 A6 A7];
          [now apply PhA|now apply PhB|now apply PhC].
      * intros [w3 rc] g4 HG. cbn [fst] in HG. destruct (rc <? 0); [exact HG|].
        unfold poll_tail. rewrite R1. change (255 =? cmd_dummy_value) with true. cbn [andb negb]. rewrite andb_false_r. exact HG.
    + intros Hfin Hr p Hp.
      assert (tst st ST_ACTIVE = true) as Ea by (apply R2; change (g_fin g2) with (g_fin g3); rewrite Hfin; apply orb_true_r).
      rewrite Ea in Ga.
      assert (canw (log (sr (sif g3 false) (RGot p) (g_dl g3)) [EvKRead KData (Some 1)])) as Hcw.
      { unfold canw. rewrite Eb. proj. rewrite Ga. auto. }
      destruct J3 as [A0 A1 A2 A3 A4 A5 A6|A1 A2 A3 A4 A5 A6 A7 A8 A9 A10 A11|A1 A2 A3 A4 A5 A6 A7].
      * rewrite Eb in A6. destruct A6 as (_ & B2 & _). congruence.
      * fold x in A3, A4, A6, A7, A10. apply (Hdisp 3 1); [exact A3|left; discriminate|].
        change (1 =? 0) with false. change (1 =? 1) with true. cbv iota. rewrite A7.
        eapply wp_call; [apply Hm|apply (wp_rx_start w2 _ p)|].
        -- split; [apply past1; [exact Hpa|exact I]|]. split; [exact Hw|]. split; [exact J1|]. split; [constructor; assumption|]. split; [exact A3|]. split; [exact A4|].
           split; [exact A5|]. split; [exact A7|]. split; [reflexivity|]. split; [exact Hp|].
           split; [exact Hcw|]. split; [intros _; exact Ga|]. right. split; [split; [exact Eb|]; split; [exact Hfin|exact A11]|].
           split; [exact A2|]. split; [exact A6|]. split; [exact A8|exact A10].
        -- intros w3 g4 HG. apply wp_tail_host; auto. discriminate.
      * fold x in A2, A3, A5, A6, A7. rewrite Eb in A1. destruct A1 as [A1 A1']. apply (Hdisp 3 1); [exact A2|left; discriminate|].
        change (1 =? 0) with false. change (1 =? 1) with true. cbv iota.
        unfold rxrel in A6. destruct (ab_st (a_rx x)) eqn:Es; try (exfalso; first [exact A6|congruence]).
        eapply wp_call; [apply Hm|apply (wp_rx_start w2 _ p)|].
        -- split; [apply past1; [exact Hpa|exact I]|]. split; [exact Hw|]. split; [exact J1|]. split; [constructor; assumption|]. split; [exact A2|]. split; [exact A3|].
           split; [exact A4|]. split; [exact Es|]. split; [reflexivity|]. split; [exact Hp|].
           split; [exact Hcw|]. split; [intros _; exact Ga|]. left. split; [exact A5|]. split; [exact A7|intros _; exact A1'].
        -- intros w3 g4 HG. apply wp_tail_host; auto. discriminate.
    + intros Hfin Ht.
      assert (tst st ST_ACTIVE = true) as Ea by (apply R2; change (g_fin g2) with (g_fin g3); rewrite Hfin; apply orb_true_r).
      rewrite Ea in Ga.
      destruct J3 as [A0 A1 A2 A3 A4 A5 A6|A1 A2 A3 A4 A5 A6 A7 A8 A9 A10 A11|A1 A2 A3 A4 A5 A6 A7]; [congruence|congruence|].
      fold x in A2, A3, A5, A6, A7. rewrite Eb in A1. destruct A1 as [A1 A1']. apply (Hdisp 3 2); [exact A2|left; discriminate|].
      change (2 =? 0) with false. change (2 =? 1) with false. change (2 =? 2) with true. cbv iota.
      unfold txrel in A5. destruct (ab_st (a_tx x)) eqn:Es; try (exfalso; first [exact A5|congruence|destruct A5; congruence]).
      eapply wp_call; [apply Hm|apply (wp_tx_complete w2)|]; try assumption; try reflexivity; try (apply past1; [exact Hpa|exact I]).
      * constructor; assumption.
      * rewrite Eb. split; [exact Ga|exact A1'].
      * intros w3 g4 [HG HG']. apply wp_tail_host; auto; [exact (Fin_any _ _ _ _ HG HG')|discriminate].
Qed.

End Call.

(** ** Histories *)
Definition Rest (eid : Z) (dn : list aop) (w : world) (g : gst) : Prop :=
  past bmc app N eid false dn w (g_tr g) /\ WF (Upto N) w /\ WalkCore.Jw (J Out) w g.
Lemma Rest_Good eid dn w g : Rest eid dn w g -> Good eid dn Out w g.
Proof. intros (Hp & HW). split; [now apply PastStart|exact HW]. Qed.

Lemma wp_aop eid dn (w : world) o g : Rest eid dn w g -> ast_traffic o ->
  wp H (aexec_op app w o) g (Rest eid (dn ++ [o])).
Proof.
  intros HI Ht. pose proof HI as (Hpa & Hw & HJ). unfold aexec_op. destruct o as [o|i].
  - unfold exec_op. rewrite (wf_dead _ _ Hw).
    destruct o as [n|b|b|eid'| | | |i p|eid' to tag msg|i en|i b|i n]; cbn [ast_traffic] in Ht; try contradiction.
    + cbn [wp]. split; [eapply PastCfg; [exact Hpa|reflexivity]|]. split; [destruct Hw; constructor; assumption|]. exact HJ.
    + cbn [wp]. split; [eapply PastCfg; [exact Hpa|reflexivity]|]. split; [destruct Hw; constructor; assumption|]. exact HJ.
    + cbn [wp]. split; [eapply PastCfg; [exact Hpa|reflexivity]|]. split; [destruct Hw; constructor; assumption|]. exact HJ.
    + eapply wp_call; [apply Hm|
        eapply (wp_message_tx astlpc_tx H Hm g_tr (Upto N) (J Out) (J_emit Out) (J_alloc Out) (J_btx Out));
        [exact Hw|exact HJ]|].
      intros [w' rc] g' (t & Etr & Hr & J1 & J2 & J3). cbn [fst snd wp h_emit duo_h] in *.
      split; [proj; rewrite Etr, <- app_assoc; eapply PastTx; eassumption|].
      split; [eapply steps_WF; [exact Hw|eapply message_rel_steps; exact Hr]|].
      split; [exact J1|]. split; [now apply common_log|now apply phase_log].
  - cbn in Ht. subst i. rewrite (wf_dead _ _ Hw).
    eapply wp_call; [apply Hm|apply (wp_poll eid dn); exact (Rest_Good _ _ _ _ HI)|].
    intros [w' rc] g' (Hpa' & Hw' & J1 & J2 & J3). cbn [wp h_emit duo_h fst] in *.
    split; [proj; now apply PastPoll|]. split; [exact Hw'|].
    split; [exact J1|]. split; [now apply common_log|now apply phase_log].
Qed.

Lemma wp_aexec eid : forall l dn (w : world) g, Rest eid dn w g -> Forall ast_traffic l ->
  wp H (aexec app w l) g (Rest eid (dn ++ l)).
Proof.
  induction l as [|o l IH]; intros dn w g HI Hl; cbn [aexec]; [rewrite app_nil_r; exact HI|].
  inversion_clear Hl as [|? ? Ho Hl']. eapply wp_call; [apply Hm|apply (wp_aop eid dn); assumption|].
  intros w' g' HI'. replace (dn ++ o :: l) with ((dn ++ [o]) ++ l) by (rewrite <- app_assoc; reflexivity). apply IH; assumption.
Qed.

Lemma WF_regN eid x : WF (Upto N) (registered bmc mtu eid x).
Proof.
  assert (u32 mtu) as Hu. { pose proof Hmtu as Hmt. unfold u32, usable_mtu in *. destruct (bmc); lia. }
  destruct (WF_registered bmc mtu eid x Hu) as [W1 W2 W3 W4 W5 W6 W7 W8 W9 W10 W11].
  constructor; try assumption.
  - intros i b. destruct i; [discriminate|]. intros [= <-]. constructor.
  - intros i b. destruct i; [discriminate|]. intros [= <-] E. now destruct E.
Qed.

Lemma wp_init_host x g (Q : astlpc * Z -> gst -> Prop) : bmc = false -> a_bmc x = false -> a_mtu x = N - 4 ->
  g_ph g = 0 ->
  (forall st, Q (a_set_kcs x st, - EHOSTDOWN) (seen g st)) ->
  (forall st gg, tst st ST_BMC_READY = true -> tst st ST_ACTIVE = false ->
     g_tx gg = g_tx g -> g_rx gg = g_rx g -> g_dl gg = g_dl g -> g_ph gg = 4 -> g_rdy gg = true ->
     g_fin gg = g_fin g -> g_sent gg = g_sent g -> (exists t, g_tr gg = g_tr g ++ t /\ Forall wire_ev t) -> Q (a_set_proto (a_set_kcs x st) 0, 0) gg) ->
  wp H (init_host x) g Q.
Proof.
  intros Eb Em Emt Eph Q1 Q2.
  unfold init_host. cbn [wp duo_h h_kread]. intros st _ _ _ Hst. destruct (Hst Eb) as (_ & _ & _ & R4 & _). clear Hst.
  change (log _ [EvKRead KStatus (Some st)]) with (seen g st).
  assert (tst st ST_ACTIVE = false) as Ra by (apply R4; clear -Eph; lia). clear R4.
  destruct (tst st ST_BMC_READY) eqn:Er; cbn [negb]; [|cbn [wp]; apply Q1].
  destruct (hdr_fields 0 0 0 S S) as (F1 & F2 & F3 & F4 & F5 & F6 & F7 & F8 & F9); try (clear -HN HS; lia).
  change (hdr S 0 0 0 S S) with (hdr_of S N 0 1) in *.
  cbn [wp duo_h h_lread]. right. right. right. left. split; [exact Eb|]. split; [reflexivity|]. split; [reflexivity|].
  split; [unfold seen; proj; rewrite Er; apply orb_true_r|]. split; [exact Eph|].
  unfold OFF_bmc_ver_min, OFF_bmc_ver_cur. rewrite F1, F2.
  change (negotiate_version 1 3 ASTLPC_VER_MIN ASTLPC_VER_CUR) with 3. change (3 =? 0) with false. cbv iota.
  apply wp_assert_bind; [reflexivity|]. change (2 <=? 3) with true. cbv iota.
  unfold negotiate_layout_host, layout_read. cbn [bind wp duo_h h_lread].
  right. right. right. left. split; [exact Eb|]. split; [reflexivity|]. split; [reflexivity|].
  split; [unfold seen; proj; rewrite Er; apply orb_true_r|]. split; [exact Eph|].
  change (a_bmc (a_set_proto (a_set_kcs x st) 3)) with (a_bmc x). rewrite Em, F6, F7, F8, F9.
  change (a_proto (a_set_proto (a_set_kcs x st) 3)) with (Some 3).
  change (a_mtu (a_set_proto (a_set_kcs x st) 3)) with (a_mtu x). rewrite Emt.
  rewrite validate_side by (clear -HN HS; lia). cbn [bind negb].
  unfold MCTP_PACKET_SIZE. replace (N - 4 + 4) with N by (clear; lia). rewrite w32_id by (clear -HN HS; lia).
  rewrite packet_size_ok by (change (extra 3) with 8; clear -HN HS; lia).
  change (extra 3) with 8. cbn [bind ly_rx ly_tx]. unfold ab_set_size. cbn [ab_off ab_size ab_st].
  rewrite validate_side by (clear -HN HS; lia). cbn [bind negb].
  unfold layout_write. change (a_bmc (a_set_proto (a_set_kcs x st) 3)) with (a_bmc x). rewrite Em.
  cbn [bind wp duo_h h_lwrite ly_rx ab_size].
  do 5 right. left. split; [exact Eb|]. split; [reflexivity|]. split; [reflexivity|]. split; [exact Eph|].
  split; [unfold seen; proj; rewrite Er; apply orb_true_r|]. cbn [bind]. change (0 <? 0) with false. cbv iota.
  cbn [wp duo_h h_lwrite]. do 6 right. left. split; [exact Eb|]. split; [reflexivity|]. split; [reflexivity|]. split; [reflexivity|].
  do 7 right. split; [exact Eb|]. split; [reflexivity|]. split; [reflexivity|]. split; [reflexivity|].
  cbn [wp duo_h h_kwrite]. right. left. split; [reflexivity|]. split; [exact Eb|]. split; [reflexivity|].
  apply Q2; try assumption; try reflexivity.
  - unfold seen. proj. rewrite Er. apply orb_true_r.
  - eexists. unfold seen. proj. rewrite <- !app_assoc. split; [reflexivity|]. cbn [Datatypes.app]. repeat constructor.
Qed.

Lemma wp_reg eid (Q : world -> gst -> Prop) :
  wp H (if bmc then start_bmc (init_ast bmc mtu) else init_host (init_ast bmc mtu)) (log g0 [EvAttach false eid])
     (fun r g => if snd r <? 0 then forall w, bd_bus (bnd w false) = false ->
                        Q w (log (log g [EvDetach]) [EvRet (snd r)])
                 else Q (registered bmc mtu eid (fst r)) (log g [EvRet (snd r)])) ->
  wp H (ast_register app bmc mtu eid) g0 Q.
Proof.
  intros Hs. unfold ast_register, aexec_op, exec_op, astlpc_world, register_bus.
  cbn [w_m mctp_init m_dead m_nb Z.eqb assert_ bind wp h_alloc duo_h negb].
  cbn [negb bind wp h_emit duo_h Datatypes.app].
  set (w1 := set_bnd _ false _). change (bd_has_start (bnd w1 false)) with true. cbv iota.
  change (bd_priv (bnd w1 false)) with (init_ast bmc mtu). unfold astlpc_start.
  change (a_bmc (init_ast bmc mtu)) with bmc.
  apply wp_bind; [apply Hm|]. apply wp_bind; [apply Hm|]. apply wp_bind; [apply Hm|].
  eapply wp_mono; [apply Hm| |exact Hs].
  intros [x rc] g Hr. cbn [wp fst snd bind] in *. destruct (rc <? 0); cbn [wp h_emit duo_h].
  - apply Hr. reflexivity.
  - exact Hr.
Qed.

Theorem wp_history eid l : Forall ast_traffic l ->
  wp H (ast_history app bmc mtu eid l) g0 (fun w g => if bd_bus (bnd w false) then Rest eid l w g else Forall mute_ev (g_tr g)).
Proof.
  intros Hl. unfold ast_history. apply wp_bind; [apply Hm|]. apply wp_reg.
  assert (forall x g, Rest eid [] (registered bmc mtu eid x) g ->
     wp H (if bd_bus (bnd (registered bmc mtu eid x) false)
           then aexec app (registered bmc mtu eid x) l else Ret (registered bmc mtu eid x)) g
       (fun w g => if bd_bus (bnd w false) then Rest eid l w g else Forall mute_ev (g_tr g))) as Hgo.
  { intros x g HG. change (bd_bus (bnd (registered bmc mtu eid x) false)) with true. cbv iota.
    eapply wp_mono; [apply Hm| |apply (wp_aexec eid l []); [exact HG|exact Hl]].
    intros w' g' HR. destruct HR as (HR1 & HR2 & HR3). destruct (bget w' false) eqn:Eb'; [|destruct (wf_b0 _ _ HR2 Eb')].
    rewrite (wf_bd _ _ HR2 _ _ Eb'). split; [exact HR1|]. split; [exact HR2|exact HR3]. }
  assert (68 <= bd_pkt_size (w_b0 (registered bmc mtu eid (init_ast bmc mtu))) < 2 ^ 33) as Hps.
  { cbn. unfold MCTP_PACKET_SIZE, MCTP_BTU. pose proof Hmtu as Hmt. unfold usable_mtu in Hmt.
    destruct (64 <? mtu) eqn:E; destruct (bmc); lia. }
  assert (bmc = true \/ bmc = false) as [Eb|Eb] by (destruct (bmc); auto).
  - pose proof Hmtu as Hmt. rewrite Eb in Hmt. destruct Hmt as [Hus HS'].
    assert (u32 mtu) as Hu by (unfold u32, usable_mtu in *; lia).
    destruct (init_bmc_usable (init_ast bmc mtu) mtu Eb eq_refl Hu Hus) as [E V]. cbn zeta in E, V.
    replace (if bmc then start_bmc (init_ast bmc mtu) else init_host (init_ast bmc mtu)) with (start_bmc (init_ast bmc mtu))
      by (rewrite Eb; reflexivity).
    rewrite E, <- HS'. cbn [wp duo_h h_lwrite]. right. right. left. split; [exact Eb|]. split; [reflexivity|].
    split; [reflexivity|]. split; [reflexivity|]. unfold kcs_set_status. cbn [bind wp duo_h h_kwrite].
    split; [exact Eb|]. left. split; [reflexivity|]. split; [reflexivity|]. cbn [negb bind wp duo_h h_kwrite].
    left. split; [reflexivity|]. split; [exact Eb|]. left. split; [reflexivity|]. cbn [bind wp fst snd].
    change (0 <? 0) with false. cbv iota. apply Hgo.
    split; [proj; apply PastReg; repeat constructor|]. split; [apply WF_regN|]. split; [reflexivity|]. split.
    + constructor; try reflexivity; [exact Hps|]. intros N0. congruence.
    + apply PhA; try reflexivity. rewrite Eb. split; [reflexivity|]. split; [reflexivity|].
      unfold laid, txo, rxo, txo. rewrite Eb. cbn. auto.
  - pose proof Hmtu as Hmt. rewrite Eb in Hmt.
    replace (if bmc then start_bmc (init_ast bmc mtu) else init_host (init_ast bmc mtu)) with (init_host (init_ast bmc mtu))
      by (rewrite Eb; reflexivity).
    apply wp_init_host; [exact Eb|exact Eb|exact Hmt|reflexivity| |].
    + intros st. cbn [fst snd]. change (- EHOSTDOWN <? 0) with true. cbv iota. intros w Hb. rewrite Hb. cbn [wp]. rewrite Hb.
      unfold seen. proj. repeat constructor.
    + intros st gg Er Ea G1 G2 G3 G4 G5 G6 G7 (t & Et & Ht). cbn [fst snd]. change (0 <? 0) with false. cbv iota. apply Hgo.
      split.
      { proj. rewrite Et. apply PastReg. constructor; [exact I|]. eapply Forall_impl; [|exact Ht]. intros []; exact (fun x => x) || exact (fun _ => I). }
      split; [apply WF_regN|]. split; [reflexivity|]. split.
      * constructor; try reflexivity; [exact Hps|exact G3|]. intros _. split; [exact G5|split; [exact G4|exact Er]].
      * apply PhA; try reflexivity; [exact G1|exact G2|]. rewrite Eb. split; [reflexivity|]. split; [exact G6|]. split; [exact G7|exact Ea].
Qed.

(** ** A host whose request cannot be met *)
Lemma wp_refused eid l : bmc = false -> 0 <= mtu <= 2 ^ 32 - 13 -> mtu < 64 \/ S < mtu + 12 ->
  wp H (ast_history app bmc mtu eid l) g0 (fun w g => bd_bus (bnd w false) = false /\ exists st,
     g_tr g = [EvAttach false eid; EvKRead KStatus (Some st); EvDetach; EvRet (- EHOSTDOWN)] \/
     exists h, g_tr g = [EvAttach false eid; EvKRead KStatus (Some st); EvLRead 0 h; EvLRead 0 h; EvDetach; EvRet (- EINVAL)]).
Proof.
  intros Eb Hmt Hbad. unfold ast_history. apply wp_bind; [apply Hm|]. apply wp_reg.
  replace (if bmc then start_bmc (init_ast bmc mtu) else init_host (init_ast bmc mtu)) with (init_host (init_ast bmc mtu))
    by (rewrite Eb; reflexivity).
  assert (a_bmc (init_ast bmc mtu) = false) as Em by exact Eb.
  assert (a_mtu (init_ast bmc mtu) = mtu) as Emt by reflexivity.
  set (x := init_ast bmc mtu) in *. clearbody x.
  unfold init_host. cbn [wp duo_h h_kread]. intros st _ _ _ _.
  destruct (tst st ST_BMC_READY) eqn:Er; cbn [negb].
  2:{ cbn [wp fst snd]. change (- EHOSTDOWN <? 0) with true. cbv iota. intros w Hb. rewrite Hb. cbn [wp].
      split; [exact Hb|]. exists st. left. reflexivity. }
  destruct (hdr_fields 0 0 0 S S) as (F1 & F2 & F3 & F4 & F5 & F6 & F7 & F8 & F9); try (clear -HN HS; lia).
  change (hdr S 0 0 0 S S) with (hdr_of S N 0 1) in *.
  cbn [wp duo_h h_lread]. right. right. right. left. split; [exact Eb|]. split; [reflexivity|]. split; [reflexivity|].
  split; [apply orb_true_r|]. split; [reflexivity|].
  unfold OFF_bmc_ver_min, OFF_bmc_ver_cur. rewrite F1, F2.
  change (negotiate_version 1 3 ASTLPC_VER_MIN ASTLPC_VER_CUR) with 3. change (3 =? 0) with false. cbv iota.
  apply wp_assert_bind; [reflexivity|]. change (2 <=? 3) with true. cbv iota.
  unfold negotiate_layout_host, layout_read. cbn [bind wp duo_h h_lread].
  right. right. right. left. split; [exact Eb|]. split; [reflexivity|]. split; [reflexivity|].
  split; [apply orb_true_r|]. split; [reflexivity|].
  change (a_bmc (a_set_proto (a_set_kcs x st) 3)) with (a_bmc x). rewrite Em, F6, F7, F8, F9.
  change (a_proto (a_set_proto (a_set_kcs x st) 3)) with (Some 3).
  change (a_mtu (a_set_proto (a_set_kcs x st) 3)) with (a_mtu x). rewrite Emt.
  rewrite validate_side by (clear -HN HS; lia). cbn [bind negb].
  unfold MCTP_PACKET_SIZE. rewrite w32_id by (clear -Hmt; lia).
  rewrite packet_size_ok by (change (extra 3) with 8; clear -Hmt; lia).
  change (extra 3) with 8. cbn [bind ly_rx ly_tx]. unfold ab_set_size. cbn [ab_off ab_size ab_st].
  match goal with |- context [layout_validate (Some 3) ?ll] => set (l2 := ll) end.
  assert (1 <= 3 <= 3) as H13 by (clear; lia).
  destruct (C32_validate 3 l2 H13) as (r & -> & Hr).
  { unfold layout_u32, u32, l2. cbn [ly_rx ly_tx ab_off ab_size]. clear -HN HS Hmt. lia. }
  assert (r = false) as ->.
  { destruct r; [|reflexivity]. exfalso. destruct Hr as [Hr _]. destruct (Hr eq_refl) as ((V1 & V2 & V3) & _ & V4).
    unfold l2, inside in *. cbn [ly_rx ly_tx ab_off ab_size] in *. change (extra 3) with 8 in V3.
    specialize (V4 (256 + S)). clear -HN HS Hbad V3 V4. lia. }
  cbn [bind negb wp]. change (- EINVAL <? 0) with true. cbv iota. cbn [wp fst snd]. change (- EINVAL <? 0) with true. cbv iota.
  intros w Hb. rewrite Hb. cbn [wp]. split; [exact Hb|]. exists st. right. exists (hdr_of S N 0 1). reflexivity.
Qed.
End Side.
