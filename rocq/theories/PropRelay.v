(** PropRelay: a stream of messages carried over any number of bridges (C88). *)
From Verif Require Import Base Lists Prog PktBuf Core WP Walk CoreRel WalkCore CoreHist Spec SpecRx Trace PropTx PropMsg
  Reasm PropRx PropRound PropBridge Crc Serial SpecSer SerRx SerWalk PropSer PropSerTx PropSerRound SpecDuo DuoMsg PropDuoMsg PropSerStream Relay.

Local Notation world := (world serial).

(** ** The queue of the other bus *)
Definition short (p : pktbuf) : Prop := exists bs, pktbuf_bytes p = Some bs /\ zlen bs <= 68.

Lemma called_step (w : world) i n bytes io (dis : bool) rc (fin : bool) : Forall io_ev io ->
  called (capev w true bytes ++ EvTxCall i n bytes :: io ++ (if dis then [EvSetTx i false] else [])
          ++ EvTxRet i n bytes rc :: (if fin then [EvFree n] else [])) = [bytes].
Proof.
  intros Hio. rewrite called_app. change (called (EvTxCall i n bytes :: ?x)) with (bytes :: called x).
  rewrite !called_app, (proj1 (called_io _ Hio)).
  replace (called (capev w true bytes)) with (@nil (list Z)) by (unfold capev; destruct (m_cap (w_m w)); reflexivity).
  destruct dis, fin; reflexivity.
Qed.

Lemma txs_fits i (w : world) t w' : txs Strict i w t w' -> forall b, bget w i = Some b -> Forall short (bus_q b) -> fits t.
Proof.
  induction 1 as [w b0 Hb0 Hq|w rc t w' Hs Hf|w rc t1 w1 t2 w2 Hs Hf Ht IH]; intros b Hb Hall.
  - constructor.
  - destruct Hs as [b0 p q p' b' rc dis bytes io Hb0 Hst Hq Hby Hio Hid Hfin].
    rewrite Hb in Hb0. injection Hb0 as <-. rewrite Hq in Hall. inversion Hall as [|? ? (bs & E & Hz) _]; subst.
    unfold fits. rewrite called_step by exact Hio. constructor; [congruence|constructor].
  - apply fits_app. destruct Hs as [b0 p q p' b' rc dis bytes io Hb0 Hst Hq Hby Hio Hid Hfin].
    rewrite Hb in Hb0. injection Hb0 as <-. rewrite Hq in Hall. inversion Hall as [|? ? (bs & E & Hz) Hall']; subst. split.
    + unfold fits. rewrite called_step by exact Hio. constructor; [congruence|constructor].
    + eapply IH.
      * rewrite (bget_set_bus _ _ _ _ b) by (rewrite bget_set_bnd; exact Hb). rewrite Bool.eqb_reflx. reflexivity.
      * cbn. rewrite Hf. exact Hall'.
Qed.

Lemma txs_all i (w : world) t w' : txs Strict i w t w' -> forall b bodies, bget w i = Some b -> bus_st b = TxEnabled ->
  ost w' i = Some TxEnabled -> Forall ret0 t -> Forall2 (fun p bs => pktbuf_bytes p = Some bs) (bus_q b) bodies ->
  called t = bodies /\ exists b', bget w' i = Some b' /\ bus_q b' = [].
Proof.
  induction 1 as [w b0 Hb0 Hq|w rc t w' Hs Hf|w rc t1 w1 t2 w2 Hs Hf Ht IH]; intros b bodies Hb Hst Hos Hr Hall.
  - rewrite Hb in Hb0. injection Hb0 as <-. destruct Hq as [Hq|Hq]; [|contradiction]. rewrite Hq in Hall. inversion Hall; subst.
    split; [reflexivity|eauto].
  - exfalso. destruct Hs as [b0 p q p' b' rc dis bytes io Hb0 Hst0 Hq Hby Hio Hid Hfin].
    assert (ret0 (EvTxRet i (pk_id p) bytes rc)) as H0.
    { rewrite Forall_forall in Hr. apply Hr. apply in_or_app. right. right. apply in_or_app. right. apply in_or_app. right. left. reflexivity. }
    cbn in H0. subst rc. discriminate.
  - apply Forall_app in Hr. destruct Hs as [b0 p q p' b' rc dis bytes io Hb0 Hst0 Hq Hby Hio Hid Hfin].
    rewrite Hb in Hb0. injection Hb0 as <-. rewrite Hq in Hall. inversion Hall as [|? bs ? bodies' E Hall']; subst.
    assert (bget (set_bnd w i (set_priv (bnd w i) b')) i = Some b) as Hbb by (rewrite bget_set_bnd; exact Hb).
    assert (bget (set_bus (set_bnd w i (set_priv (bnd w i) b')) i (mkBus (bus_eid b) (if dis then TxDisabled else TxEnabled)
              (if final rc then q else p' :: q))) i
            = Some (mkBus (bus_eid b) (if dis then TxDisabled else TxEnabled) q)) as Hb1.
    { rewrite (bget_set_bus _ _ _ _ b) by exact Hbb. rewrite Bool.eqb_reflx, Hf. reflexivity. }
    assert (dis = false) as ->.
    { destruct dis; [exfalso|reflexivity]. destruct Ht as [w1 b1 Hb1' _|w1 rc1 t w' Hs1 _|w1 rc1 t w3 t3 w4 Hs1 _ _].
      - unfold ost in Hos. rewrite Hb1 in Hos. discriminate.
      - destruct Hs1 as [b2 ? ? ? ? ? ? ? ? Hb2 Hst2 _ _ _ _ _]. rewrite Hb1 in Hb2. injection Hb2 as <-. discriminate.
      - destruct Hs1 as [b2 ? ? ? ? ? ? ? ? Hb2 Hst2 _ _ _ _ _]. rewrite Hb1 in Hb2. injection Hb2 as <-. discriminate. }
    destruct (IH _ bodies' Hb1 eq_refl Hos (proj2 Hr) Hall') as [I1 I2].
    rewrite called_app. pose proof (called_step w i (pk_id p) bytes io false rc (final rc) Hio) as Ecs. cbv iota in Ecs. rewrite Ecs. split; [|exact I2]. cbn [Datatypes.app]. congruence.
Qed.

Lemma called_enqs i (w : world) l t w' : enqs Strict i w l t w' -> called t = [].
Proof.
  induction 1 as [w|w bs t1 w1 l t2 w2 H1 H2 IH]; [reflexivity|]. rewrite called_app, IH.
  destruct H1. reflexivity.
Qed.

(** ** What the bridge makes of the packets *)
Definition relays (os : list (list Z * list Z)) (pk : list (list Z)) : Prop :=
  exists pkl, Forall2 (fun o ps => exists ver,
    packetised ver (h_src (fst o)) (h_dest (fst o)) (h_to (fst o)) (h_tag (fst o)) 64 (snd o) ps) os pkl /\ pk = concat pkl.
Lemma relays_nil : relays [] [].
Proof. exists []. split; [constructor|reflexivity]. Qed.
Lemma relays_app o1 p1 o2 p2 : relays o1 p1 -> relays o2 p2 -> relays (o1 ++ o2) (p1 ++ p2).
Proof.
  intros (a & A & ->) (b & Bb & ->). exists (a ++ b). split; [now apply Forall2_app|now rewrite concat_app].
Qed.

(** The other bus may transmit and has nothing queued. *)
Definition open (w : world) (j : bool) : Prop := exists b, bget w j = Some b /\ bus_st b = TxEnabled /\ bus_q b = [].

Lemma open_put (w : world) i s j : open w j -> open (put_ser w i s) j.
Proof. unfold open, put_ser. destruct i; exact (fun x => x). Qed.

Lemma relay_step i (w : world) c t w' : SI Bridge w -> byte_rel w i c t w' -> faithful t -> same_state w w' ->
  open w (negb i) -> writes_ok t ->
  open w' (negb i) /\ rx_log t = filter (taken None) (handed i t) /\
  exists pk, sent t = flat_map wire pk /\ relays (snd (rx_run (m_ctxs (w_m w)) (m_max (w_m w)) (rx_log t))) pk.
Proof.
  intros [Hw Hm Hd Hs] Hr Hf Hss Ho Hwr.
  destruct Hr as [s' s S1 S2 S3 S4|s' s S1 S2 S3 S4 S5|p bs ap t w1 s' s Ep Hpk Hr Hsp S1 S2 S3 S4].
  - split; [now apply open_put|]. split; [reflexivity|]. exists []. split; [reflexivity|apply relays_nil].
  - split; [apply open_put; exact Ho|]. split; [reflexivity|]. exists []. split; [reflexivity|apply relays_nil].
  - assert (mode_bus Bridge i) as Hi by (intros _; reflexivity).
    destruct (rx_eff Bridge w i (pk_id p) bs p t w1 Hw Hm Hi (po_bytes _ _ Hpk) Hr) as (_ & _ & _ & E7).
    pose proof (rx_handed _ _ _ _ _ _ i Hr) as Eh. rewrite Bool.eqb_reflx in Eh.
    assert (ost w1 (negb i) = ost w (negb i)) as Hos.
    { rewrite <- (Hss (negb i)). symmetry. apply ost_put. }
    cbn [mode_local] in E7.
    assert (open w1 (negb i) /\ exists pk, sent t = flat_map wire pk /\
      relays (snd (rx_run (m_ctxs (w_m w)) (m_max (w_m w)) (rx_log t))) pk) as [H1 H2].
    2:{ split; [now apply open_put|]. split; [rewrite E7, Eh; cbn [filter]; reflexivity|exact H2]. }
    destruct (rx_rel_id _ _ _ _ _ _ Hr) as (b & t1 & -> & Hid).
    set (n := m_next (w_m (prevw w))).
    assert (op_rel (prevw w) (OpRx i p) (EvAlloc n :: EvBusRx i (busrx_local w b) n bs :: t1 ++ [EvFree n]) w1) as Hop.
    { eapply ORRx; [exact (po_bytes _ _ Hpk)|]. rewrite next_prev. apply Hid. }
    assert (WF Strict (prevw w)) as Hwp by (destruct Hw; constructor; assumption).
    assert (mode_ok Bridge (prevw w)) as Hmp by exact Hm.
    destruct (rx_cases _ _ _ _ _ _ _ Hwp Hmp (po_bytes _ _ Hpk) Hop) as (t2 & Et2 & Hc).
    injection Et2 as _ Et2. apply app_inj_tail in Et2. destruct Et2 as [<- _].
    change (EvBusRx i (busrx_local w b) (pk_id p) bs :: t1 ++ [EvFree (pk_id p)])
      with ([EvBusRx i (busrx_local w b) (pk_id p) bs] ++ t1 ++ [EvFree (pk_id p)]) in *.
    rewrite E7. rewrite !sent_app. cbn [sent flat_map Datatypes.app]. rewrite app_nil_r. fold (sent t1).
    assert (forall x y, called ([EvBusRx i (busrx_local w b) x bs] ++ t1 ++ [EvFree y]) = called t1) as Ecl.
    { intros x y. rewrite !called_app. cbn. now rewrite app_nil_r. }
    destruct Ho as (b1 & Hb1 & Hst1 & Hq1).
    destruct Hc as [Hl Hw'|Hl Hfo Hw'|cs Ht Hpu Hw'|cs msg t2 Ht Hpu Hw' Hmsg].
    + subst w1. split; [exists b1; auto|]. exists []. split; [reflexivity|].
      unfold taken. replace (4 <? zlen bs) with false by lia. apply relays_nil.
    + discriminate.
    + cbn [mode_local] in Ht. subst w1. split; [exists b1; auto|]. exists []. split; [unfold capev; destruct (m_cap _); reflexivity|].
      rewrite Ht. cbn [rx_run]. change (m_ctxs (w_m (prevw w))) with (m_ctxs (w_m w)) in Hpu.
      change (m_max (w_m (prevw w))) with (m_max (w_m w)) in Hpu. rewrite Hpu. apply relays_nil.
    + cbn [mode_local] in Ht. rewrite Ht. cbn [rx_run]. change (m_ctxs (w_m (prevw w))) with (m_ctxs (w_m w)) in Hpu.
      change (m_max (w_m (prevw w))) with (m_max (w_m w)) in Hpu. rewrite Hpu. cbn [snd].
      destruct Hmsg as (rc & Hob).
      set (w0 := setc (PropRx.nextw (prevw w)) cs) in *.
      assert (bget w0 (negb i) = Some b1) as Hb0 by exact Hb1.
      assert (bnd w0 (negb i) = bnd w (negb i)) as Ebnd by (destruct i; reflexivity).
      destruct Hob as [b2 Hb2 Hs2|b2 Hb2 Hs2 Htag|t2 w1 Hmr].
      * rewrite Hb0 in Hb2. injection Hb2 as <-. congruence.
      * exfalso. apply Htag, tag_range, key_tag.
      * destruct Hmr as [b2 te we tx w1 Hb2 Hs2 Htag He Hx].
        rewrite Hb0 in Hb2. injection Hb2 as <-.
        destruct (Hd (negb i)) as (D1 & _ & _).
        assert (mtu_of w0 (negb i) = 64) as Emtu by (unfold mtu_of; rewrite Ebnd, D1; reflexivity).
        rewrite Emtu, Ebnd in He. set (ver := bd_version (bnd w (negb i))) in *.
        set (pkts := frags (length msg) ver (h_src bs) (h_dest bs) (h_to bs) (h_tag bs) 64 0 msg) in *.
        assert (packetised ver (h_src bs) (h_dest bs) (h_to bs) (h_tag bs) 64 msg pkts) as Hpks.
        { apply frags_packetised; [apply key_tag|lia]. }
        destruct (enqs_queue _ _ _ _ _ _ He Hb0) as (b3 & q & Hb3 & Hs3 & Hq3 & Hall & _).
        rewrite Hq1 in Hq3. cbn [Datatypes.app] in Hq3.
        assert (Forall (fun x => zlen x <= 68) pkts) as Hlen.
        { apply Forall_forall. intros x Hin. apply In_nth_error in Hin. destruct Hin as (k & Hk).
          pose proof (packetised_no _ _ _ _ _ _ _ _ (key_tag bs) Hpks k x Hk) as [_ _ _ _ _ Hl].
          destruct (Nat.eqb (S k) (length pkts)); lia. }
        assert (Forall short (bus_q b3)) as Hsh.
        { rewrite Hq3. clear - Hall Hlen. induction Hall as [|x y q l [_ Hx] Hall IH]; [constructor|].
          inversion Hlen; subst. constructor; [exists y; auto|auto]. }
        assert (called (capev (prevw w) false bs ++ EvMsg i (h_src bs) (h_dest bs) (h_to bs) (h_tag bs) msg :: te ++ tx) = called tx) as Ec.
        { rewrite called_app. replace (called (capev (prevw w) false bs)) with (@nil (list Z)) by (unfold capev; destruct (m_cap _); reflexivity).
          change (called (EvMsg i (h_src bs) (h_dest bs) (h_to bs) (h_tag bs) msg :: te ++ tx)) with (called (te ++ tx)).
          rewrite called_app, (called_enqs _ _ _ _ _ He). reflexivity. }
        destruct Hf as [F1 F2]; [exact Hwr| |].
        { unfold fits. rewrite Ecl, Ec. exact (txs_fits _ _ _ _ Hx _ Hb3 Hsh). }
        assert (ost w1 (negb i) = Some TxEnabled) as Hos1.
        { rewrite Hos. unfold ost. rewrite Hb1. cbn. congruence. }
        destruct (txs_all _ _ _ _ Hx b3 pkts Hb3) as (Hcl & b4 & Hb4 & Hq4).
        { congruence. }
        { exact Hos1. }
        { rewrite !Forall_app in F2. destruct F2 as (_ & (_ & F2) & _). inversion F2 as [|? ? _ F3]; subst.
          apply Forall_app in F3. exact (proj2 F3). }
        { rewrite Hq3. clear - Hall. induction Hall as [|x y q l [_ Hx] Hall IH]; constructor; auto. }
        split.
        { exists b4. split; [exact Hb4|]. split; [|exact Hq4]. unfold ost in Hos1. rewrite Hb4 in Hos1. cbn in Hos1. congruence. }
        exists pkts. split.
        -- rewrite Ecl, Ec, Hcl in F1. rewrite <- F1. rewrite !(sent_app [_]), !(sent_app (capev _ _ _ ++ _)). cbn [sent flat_map Datatypes.app]. now rewrite app_nil_r.
        -- exists [pkts]. split; [|cbn; now rewrite app_nil_r]. constructor; [|constructor]. exists ver. exact Hpks.
Qed.

Lemma bhist_mhist i (w : world) l t w' : bhist i w l t w' -> mhist Bridge w (map (MByte i) l) t w'.
Proof.
  induction 1 as [w|w c t1 w1 l t2 w2 Hw Hc Hr Hf Hss Hw1 Hh IH]; [constructor|]. cbn [map].
  eapply MHCons; [exact Hw|split; [intros _; reflexivity|exact Hc]|apply MRByte; exact Hr|exact Hw1|exact IH].
Qed.

Lemma relay_hist i (w : world) l t w' : bhist i w l t w' -> open w (negb i) -> writes_ok t ->
  exists pk, sent t = flat_map wire pk /\
    relays (snd (rx_run (m_ctxs (w_m w)) (m_max (w_m w)) (filter (taken None) (handed i t)))) pk.
Proof.
  induction 1 as [w|w c t1 w1 l t2 w2 Hw Hc Hr Hf Hss Hw1 Hh IH]; intros Ho Hwr.
  - exists []. split; [reflexivity|apply relays_nil].
  - apply writes_ok_app in Hwr. destruct (relay_step i w c t1 w1 Hw Hr Hf Hss Ho (proj1 Hwr)) as (Ho1 & El & p1 & S1 & R1).
    destruct (IH Ho1 (proj2 Hwr)) as (p2 & S2 & R2).
    destruct (mrel_eff Bridge w (MByte i c) t1 w1 Hw) as ([E1 _ _ _] & E5 & _).
    { split; [intros _; reflexivity|exact Hc]. }
    { apply MRByte. exact Hr. }
    exists (p1 ++ p2). rewrite sent_app, flat_map_app, S1, S2. split; [reflexivity|].
    rewrite handed_app, filter_app, rx_run_app. cbn [snd]. apply relays_app.
    + rewrite <- El. exact R1.
    + rewrite <- El, <- E1. rewrite E5 in R2. exact R2.
Qed.

(** ** A stream of packets through reassembly, everything taken *)
Definition solid (r : txreq) : bool := 0 <? zlen (r_msg r).
Definition full (o : list Z * list Z) : (Z * bool * Z * list Z) * Z := (out_of o, h_dest (fst o)).
Definition req (src : Z) (r : txreq) : (Z * bool * Z * list Z) * Z := (as_heard src r, r_eid r).

Lemma run_in max ps : forall cs, Forall (fun o => In (fst o) ps) (snd (rx_run cs max ps)).
Proof.
  induction ps as [|p ps IH]; intros cs; cbn [rx_run]; [constructor|].
  destruct (rx_pure cs max p) as [cs1 out]. specialize (IH cs1). destruct (rx_run cs1 max ps) as [cs2 os]. cbn [snd] in *.
  assert (Forall (fun o => In (fst o) (p :: ps)) os) as H by (eapply Forall_impl; [|exact IH]; cbn; auto).
  destruct out as [[[? ?] msg]|]; [|exact H]. constructor; [left; reflexivity|exact H].
Qed.

Lemma app_inj_len {A} (a : list A) : forall c b d, length a = length c -> a ++ b = c ++ d -> a = c /\ b = d.
Proof.
  induction a as [|x a IH]; intros [|y c] b d Hl He; try discriminate; [auto|]. cbn in *. injection He as -> He.
  destruct (IH c b d ltac:(lia) He) as [-> ->]. auto.
Qed.

Lemma filter_sub {A} (f g : A -> bool) l : (forall x, f x = true -> g x = true) -> filter f l = filter f (filter g l).
Proof.
  intros H. induction l as [|x l IH]; [reflexivity|]. cbn. destruct (g x) eqn:E; cbn; rewrite IH; [reflexivity|].
  destruct (f x) eqn:E2; [apply H in E2; congruence|reflexivity].
Qed.
Lemma filter_forall {A} (f : A -> bool) (P : A -> Prop) l : Forall P l -> Forall P (filter f l).
Proof. induction 1 as [|x l H1 H2 IH]; [constructor|]. cbn. destruct (f x); auto. Qed.
Lemma solid_forall (P : txreq -> Prop) l : (forall r, solid r = false -> P r) -> Forall P (filter solid l) -> Forall P l.
Proof.
  intros He. induction l as [|r l IH]; intros H; [constructor|]. cbn [filter] in H. destruct (solid r) eqn:E.
  - inversion H; subst. constructor; auto.
  - constructor; auto.
Qed.

Lemma packs_tags src l pk : packs 68 src l pk -> Forall (fun r => 0 <= r_tag r <= 7) l.
Proof. intros (pkl & H & _). induction H as [|r ps l pkl [H1 _] H IH]; constructor; auto. Qed.

Section Run.
Context (J : Z) (HJ : 0 <= J) (L : Z) (HL : L = 4096 * 2 ^ J) (HL64 : L < 2 ^ 64).

Lemma run_solid src l pk : forall cs, src <> 0 -> Forall (fun r => zlen (r_msg r) <= L) l -> packs 68 src l pk ->
  okctx J cs -> allfree cs -> map full (snd (rx_run cs L pk)) = map (req src) (filter solid l).
Proof.
  intros cs Hsrc Hsz (pkl & Hpk & ->). revert cs Hsz.
  induction Hpk as [|r ps l pkl (Htag & ver & mtu & Hmtu & Hp) Hpk IH]; intros cs Hsz Hok Hfree; [reflexivity|].
  inversion Hsz as [|? ? Hs1 Hs2]; subst x l0. cbn [concat].
  destruct (run_message J HJ L HL HL64 ver src (r_eid r) (r_to r) (r_tag r) mtu (r_msg r) ps cs Hsrc Htag ltac:(lia) Hs1 Hp Hok Hfree) as (R1 & R2 & R3).
  rewrite rx_run_app. cbn [snd]. rewrite map_app, (IH _ Hs2 R1 R2).
  assert (map full (snd (rx_run cs L ps)) = if 0 <? zlen (r_msg r) then [req src r] else []) as ->.
  { pose proof (run_in L ps cs) as Hin. destruct (snd (rx_run cs L ps)) as [|o os].
    - destruct (0 <? zlen (r_msg r)); [discriminate|reflexivity].
    - destruct (0 <? zlen (r_msg r)); [|discriminate]. cbn [map] in R3. destruct os; [|discriminate].
      injection R3 as R31 R32 R33 R34. inversion Hin as [|? ? Hi _]; subst. cbn [map]. unfold full, req, as_heard, out_of.
      apply In_nth_error in Hi. destruct Hi as (k & Hk).
      destruct (packetised_no _ _ _ _ _ _ _ _ Htag Hp k _ Hk) as [N1 _ _ _ _ _]. unfold h_key in N1. injection N1; intros; congruence. }
  cbn [filter]. unfold solid at 2. destruct (0 <? zlen (r_msg r)); reflexivity.
Qed.

Lemma relays_packs src os done pk : relays os pk -> map full os = map (req src) done ->
  Forall (fun r => 0 <= r_tag r <= 7) done -> packs 68 src done pk.
Proof.
  intros (pkl & Hf & ->). revert done. induction Hf as [|o ps os pkl (ver & Hp) Hf IH]; intros done He Ht.
  - destruct done; [|discriminate]. exists []. split; [constructor|reflexivity].
  - destruct done as [|r done]; [discriminate|]. injection He as E1 E2 E3 E4 E5 He. inversion Ht as [|? ? T1 T2]; subst.
    destruct (IH done He T2) as (pkl' & Hf' & Ec). exists (ps :: pkl'). split; [|cbn [concat]; now rewrite Ec].
    constructor; [|exact Hf']. split; [exact T1|]. exists ver, 64. split; [lia|]. unfold out_of in *. cbn in *. congruence.
Qed.

Definition carried (src : Z) (msgs : list txreq) (bytes : list Z) (whole : Prop) : Prop :=
  exists done rest pk, filter solid msgs = filter solid done ++ rest /\ (whole -> rest = []) /\ packs 68 src done pk /\
    bytes = flat_map wire pk.

Lemma relay_hop i src (w : world) bs more t w' msgs bytes whole :
  bhist i w bs t w' -> open w (negb i) -> writes_ok t -> rst w i = Idle -> okctx J (m_ctxs (w_m w)) -> allfree (m_ctxs (w_m w)) ->
  (bs <> [] -> m_max (w_m w) = L) -> src <> 0 -> Forall (fun r => zlen (r_msg r) <= L) msgs ->
  carried src msgs bytes whole -> bs ++ more = bytes -> carried src msgs (sent t) (whole /\ more = []).
Proof.
  intros Hh Ho Hwr Hi Hok Hfree Hmax Hsrc Hsz (dn & rest & pk & Em & Hwh & Hpk & ->) Hfed.
  assert (0 <= L) as HL0 by (pose proof (Z.pow_pos_nonneg 2 J); lia).
  assert (Forall (fun r => zlen (r_msg r) <= L) dn) as Hszd.
  { apply solid_forall; [intros r Hr; unfold solid in Hr; lia|].
    apply (filter_forall solid) in Hsz. rewrite Em in Hsz. apply Forall_app in Hsz. exact (proj1 Hsz). }
  destruct (relay_hist i w bs t w' Hh Ho Hwr) as (pk' & Hs & Hrel).
  pose proof (packs_small 68 _ _ _ ltac:(lia) Hpk) as Hsm.
  assert (routs Idle (flat_map wire pk) = pk) as Epk.
  { apply (rrun_clean _ pk). apply clean_wires. eapply Forall_impl; [|exact Hsm]. cbn. lia. }
  destruct (mhist_rst _ _ _ _ _ i (bhist_mhist _ _ _ _ _ Hh)) as [_ Eh].
  rewrite mfed_bytes, Bool.eqb_reflx, Hi in Eh.
  rewrite <- Hfed, routs_app, <- Eh in Epk. set (pk2 := routs (rrun Idle bs) more) in *.
  assert (Forall (fun p => taken None p = true) pk) as Htk.
  { eapply Forall_impl; [|exact Hsm]. intros p Hp. unfold taken. cbn beta in Hp. replace (4 <? zlen p) with true by lia. reflexivity. }
  assert (filter (taken None) (handed i t) = handed i t) as Ef.
  { rewrite <- Epk in Htk. apply Forall_app in Htk. destruct Htk as [Htk _]. clear - Htk.
    induction Htk as [|p l Hp Hl IH]; [reflexivity|]. cbn [filter]. rewrite Hp, IH. reflexivity. }
  pose proof (run_solid src dn pk (m_ctxs (w_m w)) Hsrc Hszd Hpk Hok Hfree) as Hrun.
  assert (snd (rx_run (m_ctxs (w_m w)) (m_max (w_m w)) (filter (taken None) (handed i t))) = snd (rx_run (m_ctxs (w_m w)) L (handed i t))) as Eo.
  { rewrite Ef. destruct bs as [|c0 bs0]; [rewrite Eh; reflexivity|]. rewrite Hmax by discriminate. reflexivity. }
  rewrite Eo in Hrel. rewrite <- Epk, rx_run_app in Hrun. cbn [snd] in Hrun. rewrite map_app in Hrun.
  set (os := snd (rx_run (m_ctxs (w_m w)) L (handed i t))) in *.
  set (os2 := snd (rx_run (fst (rx_run (m_ctxs (w_m w)) L (handed i t))) L pk2)) in *.
  set (ms := filter solid dn) in *.
  assert (map full os = map (req src) (firstn (length os) ms) /\ map full os2 = map (req src) (skipn (length os) ms)) as [H1 H2].
  { rewrite <- (firstn_skipn (length os) ms), map_app in Hrun.
    assert (length (firstn (length os) ms) = length os) as El.
    { apply (f_equal (@length _)) in Hrun. rewrite !app_length, !map_length, skipn_length, firstn_length in Hrun. rewrite firstn_length. lia. }
    apply app_inj_len in Hrun; [exact Hrun|]. now rewrite !map_length. }
  assert (filter solid (firstn (length os) ms) = firstn (length os) ms) as Es.
  { assert (Forall (fun r => solid r = true) ms) as Hall.
    { unfold ms. clear. induction dn as [|r l IH]; [constructor|]. cbn. destruct (solid r) eqn:E; auto. }
    rewrite <- (firstn_skipn (length os) ms) in Hall. apply Forall_app in Hall. destruct Hall as [Hall _]. clear - Hall.
    induction Hall as [|r l Hr Hl IH]; [reflexivity|]. cbn. rewrite Hr, IH. reflexivity. }
  exists (firstn (length os) ms), (skipn (length os) ms ++ rest), pk'.
  split; [rewrite Es, Em, app_assoc, firstn_skipn; reflexivity|]. split; [|split; [|exact Hs]].
  - intros [Hw0 ->]. rewrite (Hwh Hw0), app_nil_r. unfold pk2 in os2. cbn in os2. unfold os2 in H2. cbn in H2.
    destruct (skipn (length os) ms); [reflexivity|discriminate].
  - eapply relays_packs; [exact Hrel|exact H1|]. pose proof (packs_tags _ _ _ Hpk) as Ht.
    apply (filter_forall solid) in Ht. fold ms in Ht. rewrite <- (firstn_skipn (length os) ms) in Ht. apply Forall_app in Ht. exact (proj1 Ht).
Qed.
End Run.

(** ** Along a chain of bridges *)
(** [bytes] have been written, for the [msgs] that endpoint [src] was asked to send: by [src] itself, or by
    a bridge fed with such bytes on one of its lines.  [whole] says that every bridge on the way has
    received all that was written to it. *)
Inductive conveyed (fuel : nat) (L src : Z) (msgs : list txreq) : list Z -> Prop -> Prop :=
| ConvSent app ws trs e x n ts :
    ser_reaches fuel app (Endpoint src) ws trs -> bus_state_of ws false = Some TxEnabled -> queued ws false = [] ->
    env_ok no_oom e -> run e 0 [] (sexec fuel app ws (map say msgs)) = Done x n ts -> writes_ok ts ->
    conveyed fuel L src msgs (sent ts) True
| ConvBridged bytes whole app i w tr l more e x n t :
    conveyed fuel L src msgs bytes whole ->
    ser_reaches_by (fun past => ser_limited L 65536 (past ++ l)) fuel app Bridge w tr ->
    idle w i -> partials w = [] -> bus_state_of w (negb i) = Some TxEnabled -> queued w (negb i) = [] ->
    Forall (ser_traffic Bridge) l -> (forall o, In o l -> exists bs, o = SRx i bs) -> fed i l ++ more = bytes ->
    env_ok no_oom e -> run e 0 [] (sexec fuel app w l) = Done x n t -> writes_ok t ->
    conveyed fuel L src msgs (sent t) (whole /\ more = []).

Section Chain.
Context (fuel : nat) (Hfuel : (256 <= fuel)%nat).
Context (J : Z) (HJ : 0 <= J) (L : Z) (HL : L = 4096 * 2 ^ J) (HL64 : L < 2 ^ 64).

Lemma no_partials (w : world) : partials w = [] -> allfree (m_ctxs (w_m w)).
Proof.
  intros Hpart. apply Forall_forall. intros c Hc. apply In_nth_error in Hc. destruct Hc as (k & Hk).
  destruct (Z.eq_dec (c_src c) 0) as [E|E]; [exact E|exfalso].
  assert (In (c_key c, c_data c) (partials w)) as Hin by (apply partials_in; eauto 6).
  rewrite Hpart in Hin. destruct Hin.
Qed.

Lemma receptive app m (w : world) tr l : ser_reaches_by (fun past => ser_limited L 65536 (past ++ l)) fuel app m w tr ->
  Forall (ser_traffic m) l -> ser_no_config l ->
  ser_reaches fuel app m w tr /\ okctx J (m_ctxs (w_m w)) /\ (forall j, bd_ctrl (bnd w j) = false) /\ forall i, fed i l <> [] -> m_max (w_m w) = L.
Proof.
  intros (past & e1 & n1 & Hlp & Hlim & He1 & Hrun1) Hl Hcf.
  split; [exists past, e1, n1; auto|].
  pose proof (ser_history_spec fuel app m Hfuel past Hlp e1 He1) as Hh0. rewrite Hrun1 in Hh0.
  destruct Hh0 as (tp & _ & Hh0 & _).
  pose proof (mlimited_micro L _ _ Hlim) as Hml. rewrite micro_app in Hml.
  destruct (mhist_ok J HJ L HL HL64 _ _ _ _ _ Hh0) with (l' := micro l) as (Hok & Hml' & Hct).
  { destruct m; (constructor;
    [exists []; apply CI_fresh|repeat constructor; cbn; lia|repeat constructor; left; reflexivity]). }
  { destruct m; exact Hml. }
  split; [exact Hok|]. split; [intros j; rewrite Hct; destruct m, j; reflexivity|].
  assert (forall i ml, Forall mconst ml -> mfed i ml <> [] -> mlimited L (m_max (w_m w)) ml -> m_max (w_m w) = L) as Hgen.
  { intros i. induction ml as [|o ml IHm]; intros Hc Hnf Hm; [contradiction|]. inversion Hc as [|? ? Hc1 Hc2]; subst.
    destruct o as [[]|]; cbn [mlimited] in Hm; try (apply IHm; [exact Hc2|exact Hnf|exact Hm]); try contradiction.
    exact (proj1 Hm). }
  intros i Hf. apply (Hgen i (micro l)); [now apply mconst_micro|rewrite mfed_micro; exact Hf|exact Hml'].
Qed.

Lemma conveyed_carried src msgs bytes whole : src <> 0 ->
  Forall (fun r => 0 <= r_tag r <= 7 /\ zlen (r_msg r) <= L) msgs ->
  conveyed fuel L src msgs bytes whole -> carried src msgs bytes whole.
Proof.
  intros Hsrc Hsz. induction 1 as [app ws trs e x n ts Hs Hst Hq He Hrun Hwr
    |bytes whole app i w tr l more e x n t Hc IH Hr Hid Hpart Hst Hq Hl Ho Hfed He Hrun Hwr].
  - destruct (ser_reaches_spec fuel app (Endpoint src) Hfuel ws trs Hs) as [HSI _].
    pose proof (wp_says fuel app Hfuel src msgs ws [] HSI) as Hsay. apply adv_always in Hsay.
    2:{ eapply Forall_impl; [|exact Hsz]. cbn. tauto. }
    specialize (Hsay e He). rewrite Hrun in Hsay. destruct Hsay as (t0 & -> & Hpk). cbn [Datatypes.app] in *.
    destruct (Hpk (eager_of _ Hst Hq) Hwr) as (pk & Hpacks & Hsent & _).
    exists msgs, [], pk. rewrite app_nil_r. auto.
  - assert (only_line i l) as Hol by (apply Forall_forall; exact Ho).
    assert (ser_no_config l) as Hcf.
    { eapply Forall_impl; [|exact Hol]. intros o (bs & ->). exact I. }
    destruct (receptive app Bridge w tr l Hr Hl Hcf) as (Hr0 & Hok & _ & Hmax).
    destruct (ser_reaches_spec fuel app Bridge Hfuel w tr Hr0) as [HSI _].
    pose proof (wp_relay fuel app no_oom eq_refl eq_refl Hfuel i l w [] HSI Hl Hol) as Hw. apply adv_always in Hw.
    specialize (Hw e He). rewrite Hrun in Hw. destruct Hw as (t0 & -> & Hh & _). cbn [Datatypes.app] in *.
    eapply (relay_hop J HJ L HL HL64 i src w (fed i l) more t0 x msgs bytes whole); try eassumption.
    + rewrite bus_state_ost in Hst. unfold ost in Hst. rewrite Trace.queued_bget in Hq. unfold open.
      destruct (bget w (negb i)) as [b|]; [|discriminate]. exists b. cbn in Hst. split; [reflexivity|]. split; [congruence|].
      now apply map_eq_nil in Hq.
    + now apply idle_rst.
    + now apply no_partials.
    + exact (Hmax i).
    + eapply Forall_impl; [|exact Hsz]. cbn. tauto.
Qed.
End Chain.

(** *** C88.  Messages (up to [L] bytes each) sent by endpoint [src] pass through any number of
    serial bridges, each with nothing half-received and nothing queued, fed on one line only, and with
    no failing write.  The bytes the last one has written reach endpoint [eid], in any
    chunks, while it does anything else.  Its handler has then been called for the messages meant
    for it that have arrived: in order, each once, intact, from [src], and no others; when all has
    arrived everywhere, for all. *)
Theorem C88_relayed fuel J L src eid msgs bytes whole appR w tr l more :
  (256 <= fuel)%nat -> 0 <= J -> L = 4096 * 2 ^ J -> L < 2 ^ 64 ->
  Forall (fun r => 0 <= r_tag r <= 7 /\ zlen (r_msg r) <= L) msgs -> src <> 0 ->
  conveyed fuel L src msgs bytes whole ->
  ser_reaches_by (fun past => ser_limited L 65536 (past ++ l)) fuel appR (Endpoint eid) w tr ->
  idle w false -> m_rx (w_m w) = true -> partials w = [] ->
  Forall (ser_traffic (Endpoint eid)) l -> ser_no_config l -> fed false l ++ more = bytes ->
  always no_oom (sexec fuel appR w l) (fun w' t =>
    exists rest, map (as_heard src) (filter (meant_for eid) msgs) = heard t ++ rest /\ (whole -> more = [] -> rest = [])).
Proof.
  intros Hfuel HJ HL HL64 Hsz Hsrc Hc Hr Hid Hrx Hpart Hl Hcf Hfed.
  destruct (conveyed_carried fuel Hfuel J HJ L HL HL64 src msgs bytes whole Hsrc Hsz Hc) as (dn & rest & pk & Em & Hwh & Hpk & ->).
  assert (0 <= L) as HL0 by (pose proof (Z.pow_pos_nonneg 2 J); lia).
  assert (Forall (fun r => zlen (r_msg r) <= L) dn) as Hszd.
  { assert (Forall (fun r => zlen (r_msg r) <= L) msgs) as Hsz' by (eapply Forall_impl; [|exact Hsz]; cbn; tauto).
    apply solid_forall; [intros r Hr0; unfold solid in Hr0; lia|].
    apply (filter_forall solid) in Hsz'. rewrite Em in Hsz'. apply Forall_app in Hsz'. exact (proj1 Hsz'). }
  assert (forall l, filter (meant_for eid) l = filter (meant_for eid) (filter solid l)) as Efm.
  { intros l0. apply filter_sub. intros r Hm. unfold meant_for in Hm. unfold solid.
    destruct (0 <? zlen (r_msg r)); [reflexivity|]. discriminate Hm. }
  destruct (receptive fuel Hfuel J HJ L HL HL64 appR (Endpoint eid) w tr l Hr Hl Hcf) as (Hr0 & Hok & Hct & Hmax).
  intros e' He'. pose proof (ser_continue fuel appR (Endpoint eid) Hfuel w tr l Hr0 Hl e' He') as Hco.
  destruct (run e' 0 [] (sexec fuel appR w l)) as [w' n' t|]; [|exact Hco]. destruct Hco as [Hh _].
  destruct (ser_hear J HJ L HL HL64 eid src w (micro l) t w' dn pk more) as (rest' & E & Hn); try eassumption.
  - now apply mconst_micro.
  - now apply idle_rst.
  - now apply no_partials.
  - rewrite mfed_micro. exact (Hmax false).
  - rewrite mfed_micro. exact Hfed.
  - exists (rest' ++ map (as_heard src) (filter (meant_for eid) rest)).
    rewrite (Efm msgs), Em, filter_app, <- Efm, map_app, E, <- app_assoc. split; [reflexivity|].
    intros H1 H2. rewrite (Hn H2), (Hwh H1). reflexivity.
Qed.
