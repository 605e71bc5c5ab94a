(** WalkCore: every core operation, run against any handler, satisfies its
    relation of CoreRel and keeps the invariant [J]. *)
From Verif Require Import Base Lists Prog PktBuf Core WP Walk CoreRel.

(** ** Packet buffers *)

Lemma pktbuf_size_wf p : wf_pkt p -> pktbuf_size p = pk_end p - pk_start p.
Proof. intros [? ? ? ? ? ?]. unfold pktbuf_size. apply w64_id. lia. Qed.

Lemma pktbuf_bytes_wf p : wf_pkt p ->
  exists bytes, pktbuf_bytes p = Some bytes /\ zlen bytes = pktbuf_size p.
Proof.
  intros Hw. pose proof (pktbuf_size_wf p Hw) as Hs. destruct Hw. unfold pktbuf_bytes.
  apply rd_some; lia.
Qed.

Lemma ver_of_bytes p bytes : pktbuf_bytes p = Some bytes -> 0 < zlen bytes -> ver_of p = nth 0 bytes 0.
Proof.
  unfold pktbuf_bytes, ver_of, rd. intros E Hz. destruct (_ && _ && _) eqn:C; [|discriminate]. injection E as <-.
  rewrite zlen_firstn in Hz. destruct (Z.to_nat (pktbuf_size p)) eqn:En; [lia|].
  rewrite <- (firstn_skipn (Z.to_nat (pk_hdr p)) (pk_data p)) at 1.
  rewrite app_nth2 by (rewrite firstn_length; lia).
  rewrite firstn_length. replace (_ - _)%nat with O by (unfold zlen in *; lia).
  destruct (skipn _ _); reflexivity.
Qed.

(** The packet built by the packetisation loop. *)
Lemma mk_packet id psz phd ptr len hdr pl :
  0 <= phd < 2 ^ 32 -> 0 <= ptr < 2 ^ 32 -> 0 <= psz < 2 ^ 63 ->
  len = zlen pl + 4 -> zlen hdr = 4 -> len <= psz ->
  exists d1 d2,
    let p0 := pktbuf_mk id psz phd ptr len in
    let p1 := mkPkt (pk_id p0) (pk_start p0) (pk_end p0) (pk_size p0) (pk_hdr p0) d1 in
    let p2 := mkPkt (pk_id p0) (pk_start p0) (pk_end p0) (pk_size p0) (pk_hdr p0) d2 in
    (w64 (psz + phd + ptr) <? len) = false /\
    wr (pk_data p0) (pk_hdr p0) hdr = Some d1 /\
    wr (pk_data p1) (pk_hdr p1 + 4) pl = Some d2 /\
    pktbuf_bytes p2 = Some (hdr ++ pl) /\
    wf_pkt p2 /\ pktbuf_size p2 = len /\ pk_end p2 + ptr <= pk_size p2.
Proof.
  intros Hh Ht Hp -> Hhdr Hle. pose proof (zlen_pos _ pl) as Hpl.
  assert (w64 (psz + phd + ptr) = psz + phd + ptr) as Hw by (apply w64_id; lia).
  assert (w64 (phd + (zlen pl + 4)) = phd + (zlen pl + 4)) as Hw2 by (apply w64_id; lia).
  unfold pktbuf_mk. rewrite Hw, Hw2. cbn [pk_data pk_id pk_start pk_end pk_size pk_hdr].
  set (d0 := repeat poison (Z.to_nat (psz + phd + ptr))).
  assert (zlen d0 = psz + phd + ptr) as Hd0 by (unfold d0; rewrite zlen_repeat; lia).
  destruct (wr_some d0 phd hdr) as [d1 Hd1]; [lia|lia|].
  pose proof (wr_zlen _ _ _ _ Hd1) as Hl1.
  destruct (wr_some d1 (phd + 4) pl) as [d2 Hd2]; [lia|lia|].
  pose proof (wr_zlen _ _ _ _ Hd2) as Hl2.
  exists d1, d2. cbn zeta. cbn [pk_data pk_id pk_start pk_end pk_size pk_hdr].
  split; [lia|]. split; [exact Hd1|]. split; [exact Hd2|].
  assert (wf_pkt (mkPkt id phd (phd + (zlen pl + 4)) (psz + phd + ptr) phd d2)) as Hwf
    by (constructor; cbn; lia).
  split.
  - unfold pktbuf_bytes. rewrite (pktbuf_size_wf _ Hwf). cbn [pk_data pk_id pk_start pk_end pk_size pk_hdr].
    replace (phd + (zlen pl + 4) - phd) with (4 + zlen pl) by lia.
    apply rd_app.
    + rewrite (rd_wr_before _ _ _ _ _ _ Hd2) by lia. rewrite <- Hhdr. eapply rd_wr_same; exact Hd1.
    + eapply rd_wr_same; exact Hd2.
  - split; [exact Hwf|]. split; [rewrite (pktbuf_size_wf _ Hwf); cbn; lia|lia].
Qed.

Lemma tx_hdr_len ver dest src to tag k last : zlen (tx_hdr ver dest src to tag k last) = 4.
Proof. reflexivity. Qed.

(** [rcok]: what is known, from the events so far, of the return code of the call of
    binding->tx under way. *)
Section WalkRet.
Context {B G : Type}.
Variable btx : B -> pktbuf -> prog (B * pktbuf * Z * bool).
Variable apl : event -> list txreq.
Variable H : handler G.
Hypothesis Hm : hmono H.
Variable tr_of : G -> list event.
Variable strict : strictness.
Variable J : binding B -> binding B -> option bus_state -> option bus_state -> G -> Prop.
Notation world := (world B).
Definition Jw (w : world) (g : G) : Prop := J (w_b0 w) (w_b1 w) (ost w false) (ost w true) g.

Variable rcok : list event -> Z -> Prop.
Hypothesis Hrc : forall t i rc, rcok t rc -> rcok (t ++ [EvSetTx i false]) rc.
Definition retok (g : G) (e : event) : Prop :=
  match e with EvTxRet _ _ _ rc => rcok (tr_of g) rc | _ => True end.
Hypothesis Hemit : forall e w g (Q : G -> Prop), core_ev e -> retok g e -> Jw w g ->
  (forall g', Jw w g' -> tr_of g' = tr_of g ++ [e] -> Q g') -> h_emit H e g Q.
Hypothesis Halloc : forall w g (Q : bool -> G -> Prop), Jw w g ->
  (forall g', Jw w g' -> tr_of g' = tr_of g -> Q true g') -> h_alloc H g Q.
Hypothesis Hbtx : forall (w : world) i b p bytes g (Q : B * pktbuf * Z * bool -> G -> Prop),
  WF strict w -> Jw w g -> bget w i = Some b -> bus_st b = TxEnabled ->
  qwf strict (bnd w i) p -> pktbuf_bytes p = Some bytes ->
  (forall b' p' rc (dis : bool) g' io,
     Jw (set_bus (set_bnd w i (set_priv (bnd w i) b')) i (if dis then disable_bus b else b)) g' ->
     tr_of g' = tr_of g ++ EvTxCall i (pk_id p) bytes :: io -> rcok (tr_of g') rc -> Forall io_ev io ->
     pk_id p' = pk_id p ->
     (final rc = false -> qwf strict (bnd w i) p' /\ kept strict p p') ->
     Q (b', p', rc, dis) g') ->
  h_emit H (EvTxCall i (pk_id p) bytes) g (fun g1 => wp H (btx (bd_priv (bnd w i)) p) g1 Q).

Definition post (g : G) (R : world -> list event -> Prop) (w' : world) (g' : G) : Prop :=
  exists t, tr_of g' = tr_of g ++ t /\ R w' t /\ Jw w' g'.

(** [J] only sees the bindings and the bus states. *)
Lemma Jw_ext (w w' : world) g :
  w_b0 w' = w_b0 w -> w_b1 w' = w_b1 w -> (forall i, ost w' i = ost w i) -> Jw w g -> Jw w' g.
Proof. unfold Jw. intros -> -> E. now rewrite !E. Qed.

Lemma Jw_set_bus (w : world) i b b' g : bget w i = Some b -> bus_st b' = bus_st b ->
  Jw w g -> Jw (set_bus w i b') g.
Proof.
  intros Hb Hst. apply Jw_ext; [apply b0_set_bus|apply b1_set_bus|].
  intros j. unfold ost. rewrite (bget_set_bus _ _ _ _ _ _ Hb).
  destruct (Bool.eqb_spec i j); [subst; rewrite Hb; cbn; congruence|reflexivity].
Qed.

Lemma wp_cap A (k : prog A) (w : world) out bytes g (Q : A -> G -> Prop) :
  Jw w g ->
  (forall g', Jw w g' -> tr_of g' = tr_of g ++ capev w out bytes -> wp H k g' Q) ->
  wp H (bind (if m_cap (w_m w) then Emit (EvCapture out bytes) (Ret tt) else Ret tt)
             (fun _ => k)) g Q.
Proof.
  intros HJ Hk. unfold capev in Hk. destruct (m_cap (w_m w)); cbn [bind wp].
  - eapply Hemit; [cbn; tauto|exact I|exact HJ|exact Hk].
  - apply Hk; [exact HJ|now rewrite app_nil_r].
Qed.

Lemma set_q_same b : set_q b (bus_q b) = b.
Proof. destruct b; reflexivity. Qed.

Lemma wp_send_loop i : forall n (w : world) g b,
  WF strict w -> Jw w g -> bget w i = Some b -> (length (bus_q b) <= n)%nat ->
  wp H (send_loop btx n w i) g (post g (fun w' t => txs strict i w t w')).
Proof.
  induction n as [|n IH]; intros w g b Hw HJ Hb Hn; cbn [send_loop].
  - eapply get_bus_bget; [exact Hb|]. destruct (bus_q b) eqn:Eq; [|cbn in Hn; lia].
    cbn [wp]. exists []. rewrite app_nil_r. split; [reflexivity|]. split; [|exact HJ].
    eapply TxsStop; [exact Hb|auto].
  - eapply get_bus_bget; [exact Hb|]. destruct (bus_q b) as [|p q] eqn:Eq.
    + cbn [wp]. exists []. rewrite app_nil_r. split; [reflexivity|]. split; [|exact HJ].
      eapply TxsStop; [exact Hb|auto].
    + pose proof (wf_q _ _ Hw _ _ Hb) as Hq. rewrite Eq in Hq. inversion Hq as [|? ? Hp Hq']; subst.
      apply wp_bind; [exact Hm|]. unfold packet_tx. eapply get_bus_bget; [exact Hb|].
      destruct (bus_st b) eqn:Est.
      { cbn [wp]. eapply get_bus_bget; [exact Hb|]. cbn. rewrite <- Eq, set_q_same, (set_bus_same _ _ _ _ Hb).
        exists []. rewrite app_nil_r. split; [reflexivity|]. split; [|exact HJ].
        eapply TxsStop; [exact Hb|right; congruence]. }
      2:{ cbn [wp]. eapply get_bus_bget; [exact Hb|]. cbn. rewrite <- Eq, set_q_same, (set_bus_same _ _ _ _ Hb).
        exists []. rewrite app_nil_r. split; [reflexivity|]. split; [|exact HJ].
        eapply TxsStop; [exact Hb|right; congruence]. }
      destruct (pktbuf_bytes_wf p (proj1 Hp)) as (bytes & Hby & _).
      eapply wp_deref_bind; [exact Hby|].
      apply wp_cap; [exact HJ|]. intros g1 HJ1 Htr1.
      cbn [wp]. eapply (m_emit H Hm).
      { intros g2 Hg2. apply wp_bind; [exact Hm|]. exact Hg2. }
      eapply Hbtx; [exact Hw|exact HJ1|exact Hb|exact Est|exact Hp|exact Hby|].
      intros b' p' rc dis g2 io HJ2 Htr2 Hrok Hio Hid Hfin.
      (* the world after the call *)
      set (w1 := set_bnd w i (set_priv (bnd w i) b')) in *.
      assert (bget w1 i = Some b) as Hb1 by (unfold w1; rewrite bget_set_bnd; exact Hb).
      set (b2 := if dis then disable_bus b else b) in *.
      set (w2 := set_bus w1 i b2) in *.
      assert (bget w2 i = Some b2) as Hb2.
      { unfold w2. rewrite (bget_set_bus _ _ _ _ _ _ Hb1). now rewrite Bool.eqb_reflx. }
      assert (b2 = mkBus (bus_eid b) (if dis then TxDisabled else TxEnabled) (p :: q)) as Eb2.
      { unfold b2, disable_bus. rewrite Est, Eq. destruct dis; [reflexivity|].
        destruct b; cbn in *; congruence. }
      assert (forall A (k : world -> prog A) Q,
                (forall g3, Jw w2 g3 ->
                   tr_of g3 = tr_of g2 ++ (if dis then [EvSetTx i false] else []) ->
                   wp H (k w2) g3 Q) ->
                wp H (bind (if dis then Emit (EvSetTx i false) (Ret (set_bus w1 i (disable_bus b)))
                            else Ret w1) k) g2 Q) as Hdis.
      { intros A k Q Hk. destruct dis; cbn [bind wp].
        - eapply Hemit; [cbn; tauto|exact I|exact HJ2|]. exact Hk.
        - assert (w1 = w2) as E12 by (unfold w2, b2; symmetry; apply set_bus_same; exact Hb1).
          rewrite E12. apply Hk; [exact HJ2|now rewrite app_nil_r]. }
      apply Hdis. intros g3 HJ3 Htr3. cbn [wp].
      eapply Hemit; [cbn; tauto|cbn; rewrite Htr3; destruct dis; [now apply Hrc|now rewrite app_nil_r]|exact HJ3|]. intros g4 HJ4 Htr4.
      eapply get_bus_bget; [exact Hb2|].
      assert (forall q', set_bus w2 i (set_q b2 q')
                = set_bus w1 i (mkBus (bus_eid b) (if dis then TxDisabled else TxEnabled) q')) as Ew.
      { intros q'. unfold w2. rewrite set_bus_twice, Eb2. reflexivity. }
      assert (tr_of g4 = tr_of g ++ capev w true bytes ++ EvTxCall i (pk_id p) bytes :: io
               ++ (if dis then [EvSetTx i false] else []) ++ [EvTxRet i (pk_id p) bytes rc]) as Htr.
      { rewrite Htr4, Htr3, Htr2, Htr1. repeat rewrite <- ?app_assoc; cbn [app];
        repeat rewrite <- ?app_assoc; reflexivity. }
      pose proof (TxStep strict i w b p q p' b' rc dis bytes io Hb Est Eq Hby Hio Hid Hfin) as Hst.
      change (set_bnd w i (set_priv (bnd w i) b')) with w1 in Hst.
      unfold final in *. destruct ((rc =? 0) || (rc =? - EMSGSIZE)) eqn:Ef.
      * unfold pktbuf_free. cbn [bind wp]. rewrite Hid, Ew.
        set (w5 := set_bus w1 i _) in Hst |- *.
        assert (Jw w5 g4) as HJ5.
        { unfold w5. rewrite <- Ew. eapply Jw_set_bus; [exact Hb2|reflexivity|exact HJ4]. }
        eapply Hemit; [cbn; tauto|exact I|exact HJ5|]. intros g6 HJ6 Htr6.
        eapply wp_mono; [exact Hm| |eapply IH; [eapply tx_WF; [exact Hw|exact Hst]|exact HJ6| |]].
        -- intros w' g' (t & Ht & Htx & HJ'). exists
             ((capev w true bytes ++ EvTxCall i (pk_id p) bytes :: io
               ++ (if dis then [EvSetTx i false] else [])
               ++ [EvTxRet i (pk_id p) bytes rc; EvFree (pk_id p)]) ++ t).
           split; [|split; [|exact HJ']].
           ++ rewrite Ht, Htr6, Htr. repeat rewrite <- ?app_assoc; cbn [app];
              repeat rewrite <- ?app_assoc; reflexivity.
           ++ eapply TxsMore; [exact Hst|exact Ef|exact Htx].
        -- unfold w5. rewrite (bget_set_bus _ _ _ _ _ _ Hb1), Bool.eqb_reflx. reflexivity.
        -- cbn. cbn in Hn. lia.
      * cbn [wp]. rewrite Ew. exists (capev w true bytes ++ EvTxCall i (pk_id p) bytes :: io
               ++ (if dis then [EvSetTx i false] else []) ++ [EvTxRet i (pk_id p) bytes rc]).
        split; [exact Htr|]. split.
        -- eapply TxsRefused; [exact Hst|exact Ef].
        -- rewrite <- Ew. eapply Jw_set_bus; [exact Hb2|reflexivity|exact HJ4].
Qed.

Lemma wp_send_tx_queue (w : world) i g b : WF strict w -> Jw w g -> bget w i = Some b ->
  wp H (send_tx_queue btx w i) g (post g (fun w' t => txs strict i w t w')).
Proof.
  intros Hw HJ Hb. unfold send_tx_queue. eapply get_bus_bget; [exact Hb|].
  eapply wp_send_loop; eauto.
Qed.

Lemma WF_set_st (w : world) i b s : WF strict w -> bget w i = Some b ->
  (s = Constructed \/ (68 <= bd_pkt_size (bnd w i) /\ upto strict (bd_pkt_size (bnd w i)))) ->
  WF strict (set_bus w i (set_st b s)).
Proof.
  intros [Hd Hn H0 H1 Hbd Hq Hs Hdm Hc Hmx Hcap] Hb Hsz.
  assert (rest (set_bus w i (set_st b s)) = rest w) as E by apply rest_set_bus.
  unfold rest in E. injection E as E11 E12 E13 E14 E15 E16 E17.
  assert (forall j, bget (set_bus w i (set_st b s)) j <> None <-> bget w j <> None) as Hn'.
  { intros j. rewrite (bget_set_bus _ _ _ _ _ _ Hb). destruct (Bool.eqb_spec i j); [subst|tauto].
    rewrite Hb. split; congruence. }
  constructor.
  - congruence.
  - rewrite E11, Hn, E15. reflexivity.
  - now apply Hn'.
  - rewrite Hn', H1. now rewrite E15.
  - intros j c. rewrite (bget_set_bus _ _ _ _ _ _ Hb), bnd_set_bus.
    destruct (Bool.eqb_spec i j); [subst|apply Hbd]. intros _. eapply Hbd; exact Hb.
  - intros j c. rewrite (bget_set_bus _ _ _ _ _ _ Hb), bnd_set_bus.
    destruct (Bool.eqb_spec i j); [subst|apply Hq]. intros [= <-]. exact (Hq _ _ Hb).
  - intros j c. rewrite (bget_set_bus _ _ _ _ _ _ Hb), bnd_set_bus.
    destruct (Bool.eqb_spec i j); [subst|apply Hs]. intros [= <-]. cbn. intuition.
  - intros j. rewrite bnd_set_bus. apply Hdm.
  - congruence.
  - congruence.
  - intros j c. rewrite (bget_set_bus _ _ _ _ _ _ Hb), bnd_set_bus.
    destruct (Bool.eqb_spec i j); [subst|apply Hcap]. intros [= <-]. cbn. intuition.
Qed.

(** The hypothesis on [J] for a change of the bus state from outside. *)
Lemma wpr_set_tx_enabled (w : world) i en g b :
  WF strict w -> Jw w g -> bget w i = Some b -> (en = true -> upto strict (bd_pkt_size (bnd w i))) ->
  (forall g' s, Jw w g' -> tr_of g' = tr_of g ++ [EvSetTx i en] ->
             (s = TxEnabled -> en = true /\ 68 <= bd_pkt_size (bnd w i)) ->
             (s = TxDisabled -> en = false) -> s <> Constructed -> s <> bus_st b ->
             Jw (set_bus w i (set_st b s)) g') ->
  wp H (set_tx_enabled btx w i en) g (post g (fun w' t => set_rel strict w i en t w')).
Proof.
  intros Hw HJ Hb Hup HJs. unfold set_tx_enabled. cbn [wp].
  eapply Hemit; [cbn; tauto|exact I|exact HJ|]. intros g1 HJ1 Htr1.
  rewrite (wf_bd _ _ Hw _ _ Hb). cbn [negb].
  eapply get_bus_bget; [exact Hb|].
  assert (forall w', Jw w' g1 -> set_rel strict w i en [EvSetTx i en] w' ->
            post g (fun w' t => set_rel strict w i en t w') w' g1) as Hone.
  { intros w' HJ' Hr. exists [EvSetTx i en]. auto. }
  unfold MCTP_PACKET_SIZE, MCTP_BTU. change (64 + 4) with 68.
  destruct (bus_st b) eqn:Est; destruct en; cbn [negb wp].
  - destruct (bd_pkt_size (bnd w i) <? 68) eqn:Esz; cbn [wp].
    + apply Hone; [exact HJ1|]. eapply SetSame; [exact Hb|]. left. split; [exact Est|right; lia].
    + apply Hone.
      * apply (HJs g1 _ HJ1 Htr1); try congruence. split; [reflexivity|lia].
      * eapply SetFirst; [exact Hb|exact Est|lia|auto].
  - apply Hone; [exact HJ1|]. eapply SetSame; [exact Hb|]. auto.
  - apply Hone; [exact HJ1|]. eapply SetSame; [exact Hb|]. auto.
  - apply Hone; [|eapply SetOff; eassumption].
    apply (HJs g1 _ HJ1 Htr1); congruence.
  - set (w1 := set_bus w i (set_st b TxEnabled)).
    assert (Jw w1 g1) as HJw1.
    { apply (HJs g1 _ HJ1 Htr1); try congruence. split; [reflexivity|].
      apply (wf_size _ _ Hw _ _ Hb). congruence. }
    assert (WF strict w1) as Hw1.
    { apply WF_set_st; [exact Hw|exact Hb|right]. split; [apply (wf_size _ _ Hw _ _ Hb); congruence|auto]. }
    assert (bget w1 i = Some (set_st b TxEnabled)) as Hb1.
    { unfold w1. rewrite (bget_set_bus _ _ _ _ _ _ Hb). now rewrite Bool.eqb_reflx. }
    eapply wp_mono; [exact Hm| |eapply wp_send_tx_queue; [exact Hw1|exact HJw1|exact Hb1]].
    intros w' g' (t & Ht & Htx & HJ'). exists (EvSetTx i true :: t).
    split; [rewrite Ht, Htr1, <- app_assoc; reflexivity|]. split; [|exact HJ'].
    eapply SetOn; eassumption.
  - apply Hone; [exact HJ1|]. eapply SetSame; [exact Hb|]. auto.
Qed.

Lemma wpr_packetise i src dest to tag mtu ver : forall fuel (w : world) g b k msg,
  WF strict w -> Jw w g -> bget w i = Some b -> bus_st b <> Constructed ->
  bd_version (bnd w i) = ver -> mtu = mtu_of w i ->
  (length msg <= fuel)%nat ->
  wp H (packetise fuel w i src dest to tag mtu k msg) g
     (post g (fun w' t => enqs strict i w (frags fuel ver src dest to tag mtu k msg) t w')).
Proof.
  induction fuel as [|fuel IH]; intros w g b k msg Hw HJ Hb Hst Hver Hmtu Hlen;
    cbn [packetise frags].
  - destruct msg; [|cbn in Hlen; lia]. cbn [wp]. exists []. rewrite app_nil_r.
    split; [reflexivity|]. split; [constructor|exact HJ].
  - destruct msg as [|m0 msg']; [cbn [wp]; exists []; rewrite app_nil_r; split; [reflexivity|];
      split; [constructor|exact HJ]|].
    set (msg := m0 :: msg') in *.
    assert (0 < zlen msg) as Hz.
    { unfold msg. rewrite zlen_cons. pose proof (zlen_pos _ msg'). lia. }
    set (plen := if mtu <? zlen msg then mtu else zlen msg).
    pose proof (wf_size _ _ Hw _ _ Hb Hst) as Hsz.
    destruct (wf_dims _ _ Hw i) as (Hd1 & Hd2 & Hd3).
    assert (mtu = bd_pkt_size (bnd w i) - 4) as Emtu.
    { rewrite Hmtu. unfold mtu_of, MCTP_BODY_SIZE. apply w64_id. lia. }
    assert (0 < plen <= zlen msg /\ plen <= mtu) as Hpl.
    { unfold plen. destruct (mtu <? zlen msg) eqn:E; lia. }
    assert (zlen (firstn (Z.to_nat plen) msg) = plen) as Hfl by (rewrite zlen_firstn; lia).
    set (hdr := tx_hdr (bd_version (bnd w i)) dest src to tag k (zlen msg <=? plen)).
    destruct (mk_packet (m_next (w_m w)) (bd_pkt_size (bnd w i)) (bd_header (bnd w i))
                (bd_trailer (bnd w i)) (plen + 4) hdr (firstn (Z.to_nat plen) msg))
      as (d1 & d2 & Hmk); try lia; [reflexivity|].
    cbn zeta in Hmk. destruct Hmk as (Hfit & Hw1 & Hw2 & Hby & Hwf & Hps & Htrail).
    unfold pktbuf_alloc. rewrite Hfit. cbn [bind wp].
    eapply Halloc; [exact HJ|]. intros g1 HJ1 Htr1. cbn [bind wp].
    eapply Hemit; [cbn; tauto|exact I|exact HJ1|]. intros g2 HJ2 Htr2. cbn [bind wp deref].
    unfold pktbuf_store. rewrite Hw1. cbn [bind wp deref pk_data pk_hdr pk_id pk_start pk_end pk_size].
    cbn [pk_data pk_hdr] in Hw2. rewrite Hw2.
    cbn [bind wp deref pk_data pk_hdr pk_id pk_start pk_end pk_size].
    set (w1 := set_m w (set_next (w_m w) (m_next (w_m w) + 1))).
    assert (bget w1 i = Some b) as Hb1 by exact Hb.
    eapply get_bus_bget; [exact Hb1|].
    set (pk := mkPkt _ _ _ _ _ d2) in *.
    rewrite Hby. cbn [bind wp deref].
    eapply Hemit; [cbn; tauto|exact I|exact HJ2|]. intros g3 HJ3 Htr3.
    set (w2 := set_bus w1 i (set_q b (bus_q b ++ [pk]))).
    assert (qwf strict (bnd w i) pk) as Hqw.
    { split; [exact Hwf|]. split; [lia|]. split; [|split; [|intros _; split; [exact Htrail|]]].
      { unfold pk. cbn [pk_size pktbuf_mk]. rewrite w64_id by lia. lia. }
      { eapply upto_le; [|exact (wf_cap _ _ Hw _ _ Hb Hst)]. lia. }
      rewrite (ver_of_bytes _ _ Hby); [reflexivity|]. rewrite zlen_app. unfold hdr at 1. rewrite tx_hdr_len. pose proof (zlen_pos _ (firstn (Z.to_nat plen) msg)). lia. }
    pose proof (EnqStep strict i w _ b pk Hb Hst eq_refl Hby Hqw) as Henq.
    fold w1 in Henq. fold w2 in Henq.
    assert (Jw w2 g3) as HJw2.
    { apply (Jw_set_bus w1 i b); [exact Hb1|reflexivity|exact HJ3]. }
    assert (bget w2 i = Some (set_q b (bus_q b ++ [pk]))) as Hb2.
    { unfold w2. rewrite (bget_set_bus _ _ _ _ _ _ Hb1). now rewrite Bool.eqb_reflx. }
    assert (bnd w2 i = bnd w i) as Hbnd.
    { unfold w2. rewrite bnd_set_bus. reflexivity. }
    eapply wp_mono; [exact Hm| |eapply IH; [eapply enq_WF; eassumption|exact HJw2|exact Hb2|exact Hst
      |rewrite Hbnd; exact Hver|unfold mtu_of; rewrite Hbnd; exact Hmtu|]].
    + intros w' g' (t & Ht & He & HJ'). exists ([EvAlloc (pk_id pk); EvEnq i (pk_id pk)
         (hdr ++ firstn (Z.to_nat plen) msg)] ++ t).
      split; [|split; [|exact HJ']].
      * rewrite Ht, Htr3, Htr2, Htr1. rewrite <- !app_assoc. reflexivity.
      * eapply EnqsCons; [|exact He]. rewrite <- Hver. exact Henq.
    + rewrite skipn_length. unfold msg in *. cbn [length] in *. lia.
Qed.

Lemma enqs_bget i (w : world) l t w' b : enqs strict i w l t w' -> bget w i = Some b ->
  exists b' : bus, bget w' i = Some b' /\ bus_st b' = bus_st b /\ bus_eid b' = bus_eid b.
Proof.
  intros He. revert b. induction He as [w|w bs t1 w1 l t2 w2 H1 H2 IH]; intros b Hb; [eauto|].
  destruct H1 as [b0 p Hb0 Hst Hid Hby Hq].
  assert (bget (set_m w (set_next (w_m w) (m_next (w_m w) + 1))) i = Some b0) as Hb' by exact Hb0.
  edestruct IH as (b' & ? & ? & ?).
  { rewrite (bget_set_bus _ _ _ _ _ _ Hb'), Bool.eqb_reflx. reflexivity. }
  exists b'. cbn in *. split; [assumption|]. split; congruence.
Qed.

Lemma wp_message_tx_on_bus (w : world) i src dest to tag msg g b :
  WF strict w -> Jw w g -> bget w i = Some b ->
  wp H (message_tx_on_bus btx w i src dest to tag msg) g
     (fun x => post g (fun w' t => on_bus_rel strict w i src dest to tag msg (snd x) t w') (fst x)).
Proof.
  intros Hw HJ Hb. unfold message_tx_on_bus. eapply get_bus_bget; [exact Hb|].
  assert (forall b0, bus_st b0 <> Constructed -> b0 = b ->
    wp H (if negb (Z.land tag 7 =? tag) then Ret (w, - EINVAL)
          else let mtu := MCTP_BODY_SIZE (bd_pkt_size (bnd w i)) in
               _ <- assert_ (MCTP_BTU <=? mtu) ;;
               w' <- packetise (length msg) w i src dest to tag mtu 0 msg ;;
               w'' <- send_tx_queue btx w' i ;; Ret (w'', 0)) g
       (fun x => post g (fun w' t => on_bus_rel strict w i src dest to tag msg (snd x) t w') (fst x)))
    as Hgo.
  2:{ destruct (bus_st b) eqn:Est.
      - cbn [wp]. exists []. rewrite app_nil_r. cbn. split; [reflexivity|]. split; [|exact HJ].
        eapply OnBusDown; eassumption.
      - apply (Hgo b); congruence.
      - apply (Hgo b); congruence. }
  intros b0 Hst ->. destruct (Z.land tag 7 =? tag) eqn:Et; cbn [negb].
  2:{ cbn [wp]. exists []. rewrite app_nil_r. cbn. split; [reflexivity|]. split; [|exact HJ].
      eapply OnBusTag; [exact Hb|exact Hst|lia]. }
  cbn zeta.
  pose proof (wf_size _ _ Hw _ _ Hb Hst) as Hsz.
  destruct (wf_dims _ _ Hw i) as (Hd1 & Hd2 & Hd3).
  assert (MCTP_BODY_SIZE (bd_pkt_size (bnd w i)) = bd_pkt_size (bnd w i) - 4) as Emtu.
  { unfold MCTP_BODY_SIZE. apply w64_id. lia. }
  apply wp_assert_bind; [unfold MCTP_BTU; lia|].
  eapply wp_call; [exact Hm| |].
  { eapply wpr_packetise; [exact Hw|exact HJ|exact Hb|exact Hst|reflexivity|reflexivity|lia]. }
  cbn beta. intros w1 g1 (t1 & Ht1 & Henq & HJ1).
  pose proof (steps_WF _ _ _ _ Hw (enqs_steps _ _ _ _ _ _ Henq)) as Hw1.
  destruct (enqs_bget _ _ _ _ _ _ Henq Hb) as (b1 & Hb1 & _).
  eapply wp_call; [exact Hm|eapply wp_send_tx_queue; [exact Hw1|exact HJ1|exact Hb1]|].
  intros w2 g2 (t2 & Ht2 & Htx & HJ2). cbn [wp]. exists (t1 ++ t2).
  split; [rewrite Ht2, Ht1, app_assoc; reflexivity|]. split; [|exact HJ2].
  cbn. apply OnBusOk. eapply MsgRel; try eassumption. lia.
Qed.

Lemma wpr_message_tx (w : world) eid to tag msg g :
  WF strict w -> Jw w g ->
  wp H (message_tx btx w eid to tag msg) g
     (fun x => post g (fun w' t => message_rel strict w eid to tag msg (snd x) t w') (fst x)).
Proof.
  intros Hw HJ. unfold message_tx. destruct (Z.land tag 7 =? tag) eqn:Et; cbn [negb].
  2:{ cbn [wp]. exists []. rewrite app_nil_r. cbn. split; [reflexivity|]. split; [|exact HJ].
      apply MessageTag. lia. }
  replace (m_nb (w_m w) =? 0) with false by (rewrite (wf_nb _ _ Hw); destruct (m_policy (w_m w)); reflexivity).
  destruct (bget w false) as [b|] eqn:Hb; [|exfalso; exact (wf_b0 _ _ Hw Hb)].
  eapply get_bus_bget; [exact Hb|].
  eapply wp_mono; [exact Hm| |eapply wp_message_tx_on_bus; eassumption].
  intros [w' rc] g' (t & Ht & Hr & HJ'). exists t. split; [exact Ht|]. split; [|exact HJ'].
  cbn in *. eapply MessageBus; [lia|exact Hb|exact Hr].
Qed.

Lemma wp_app_react l : forall (w : world) g, WF strict w -> Jw w g ->
  wp H (app_react btx w l) g (post g (fun w' t => msgs_rel strict w l t w')).
Proof.
  induction l as [|r l IH]; intros w g Hw HJ; cbn [app_react].
  - cbn [wp]. exists []. rewrite app_nil_r. split; [reflexivity|].
    split; [constructor|exact HJ].
  - eapply wp_call; [exact Hm|eapply wpr_message_tx; eassumption|].
    intros [w1 rc] g1 (t1 & Ht1 & Hr & HJ1). cbn in *.
    pose proof (message_rel_steps _ _ _ _ _ _ _ _ _ Hr) as Hs1.
    eapply wp_mono; [exact Hm| |eapply IH; [eapply steps_WF; eassumption|exact HJ1]].
    intros w2 g2 (t2 & Ht2 & Hs2 & HJ2). exists (t1 ++ t2).
    split; [rewrite Ht2, Ht1, app_assoc; reflexivity|]. split; [|exact HJ2].
    eapply MsgsCons; eassumption.
Qed.

Lemma wp_callback (w : world) e g : core_ev e -> retok g e -> WF strict w -> Jw w g ->
  wp H (callback btx apl w e) g (post g (fun w' t => exists t', t = e :: t' /\ msgs_rel strict w (apl e) t' w')).
Proof.
  intros He Hre Hw HJ. unfold callback. cbn [wp]. eapply Hemit; [exact He|exact Hre|exact HJ|].
  intros g1 HJ1 Ht1. eapply wp_mono; [exact Hm| |eapply wp_app_react; eassumption].
  intros w2 g2 (t2 & Ht2 & Hs2 & HJ2). exists (e :: t2).
  split; [rewrite Ht2, Ht1, <- app_assoc; reflexivity|]. split; [eauto|exact HJ2].
Qed.

Lemma wp_mctp_rx (w : world) i src dest to tag buf msg g b :
  WF strict w -> Jw w g -> bget w i = Some b -> buf = PLive -> Z.land tag 7 = tag ->
  wp H (mctp_rx btx apl w i src dest to tag buf msg) g
     (post g (fun w' t => route_rel strict apl w i src dest to tag msg t w')).
Proof.
  intros Hw HJ Hb -> Htag. unfold mctp_rx. apply wp_assert_bind; [reflexivity|].
  cbn [wp]. eapply Hemit; [cbn; tauto|exact I|exact HJ|]. intros g1 HJ1 Ht1.
  destruct (m_policy (w_m w)) eqn:Epol.
  - eapply get_bus_bget; [exact Hb|].
    destruct (dest_is_local b dest) eqn:Eloc.
    2:{ cbn [wp]. eexists. split; [exact Ht1|]. split; [|exact HJ1].
        eapply RtDrop; [exact Hb|exact Epol|auto]. }
    assert (forall e, local_event w i src to tag msg = Some e -> core_ev e -> retok g1 e ->
              wp H (callback btx apl w e) g1
                 (post g (fun w' t => route_rel strict apl w i src dest to tag msg t w'))) as Hcb.
    { intros e He Hce Hre. eapply wp_mono; [exact Hm| |eapply wp_callback; eassumption].
      intros w2 g2 (t2 & Ht2 & (t' & -> & Hs) & HJ2). eexists. split.
      { rewrite Ht2, Ht1, <- app_assoc. cbn [app]. reflexivity. }
      split; [|exact HJ2]. eapply RtLocal; eassumption. }
    unfold rx_local. unfold local_event in Hcb.
    assert (wp H (if m_rx (w_m w) then callback btx apl w (EvRx src to tag msg) else Ret w) g1
               (post g (fun w' t => route_rel strict apl w i src dest to tag msg t w'))
            \/ (4 <=? zlen msg) && ctrl_is_request msg && ctrl_is_transport msg && bd_ctrl (bnd w i) = true)
      as Hrx.
    { destruct ((4 <=? zlen msg) && ctrl_is_request msg && ctrl_is_transport msg && bd_ctrl (bnd w i)) eqn:Ec;
        [right; reflexivity|left].
      destruct (m_rx (w_m w)) eqn:Em.
      - apply Hcb; [reflexivity|cbn; tauto|exact I].
      - cbn [wp]. eexists. split; [exact Ht1|]. split; [|exact HJ1].
        eapply RtDrop; [exact Hb|exact Epol|right]. unfold local_event. rewrite Ec, Em. reflexivity. }
    destruct ((4 <=? zlen msg) && ctrl_is_request msg) eqn:Er; cbn [andb] in *.
    + unfold ctrl_handle. destruct (ctrl_is_transport msg && bd_ctrl (bnd w i)) eqn:Ec.
      * apply wp_bind; [exact Hm|]. apply wp_bind; [exact Hm|].
        eapply wp_mono; [exact Hm| |apply Hcb; [reflexivity|cbn; tauto|exact I]].
        intros w2 g2 Hp. cbn [wp]. exact Hp.
      * cbn [bind]. destruct Hrx as [Hrx|?]; [exact Hrx|congruence].
    + cbn [bind]. destruct Hrx as [Hrx|?]; [exact Hrx|congruence].
  - unfold rx_bridge. rewrite (wf_nb _ _ Hw), Epol. change (2 =? 2) with true.
    assert (exists b', bget w (negb i) = Some b') as (b' & Hb').
    { destruct (bget w (negb i)) eqn:E; [eauto|exfalso]. destruct i.
      - exact (wf_b0 _ _ Hw E).
      - apply (proj2 (wf_b1 _ _ Hw) Epol). exact E. }
    cbn match. eapply wp_call; [exact Hm|eapply wp_message_tx_on_bus; eassumption|].
    intros [w2 rc] g2 (t2 & Ht2 & Hr & HJ2). cbn in *. eexists.
    split; [rewrite Ht2, Ht1, <- app_assoc; reflexivity|]. split; [|exact HJ2].
    eapply RtBridge; eassumption.
Qed.

(** ** Reception *)

Lemma ctx_lookup_nth cs src dest tag n : ctx_lookup cs src dest tag = Some n ->
  exists c, nth_error cs n = Some c /\ nth n cs ctx0 = c /\
            c_src c = src /\ c_dest c = dest /\ c_tag c = tag.
Proof.
  revert n. induction cs as [|c cs IH]; intros n; cbn [ctx_lookup]; [discriminate|].
  destruct ((c_src c =? src) && (c_dest c =? dest) && (c_tag c =? tag)) eqn:E.
  - intros [= <-]. exists c. cbn. repeat split; lia.
  - destruct (ctx_lookup cs src dest tag) as [m|]; [|discriminate]. cbn. intros [= <-].
    destruct (IH m eq_refl) as (c' & ? & ? & ?). exists c'. auto.
Qed.

Lemma ctx_free_nth cs n : ctx_free_slot cs = Some n ->
  exists c, nth_error cs n = Some c /\ nth n cs ctx0 = c /\ c_src c = 0.
Proof.
  revert n. induction cs as [|c cs IH]; intros n; cbn [ctx_free_slot]; [discriminate|].
  destruct (c_src c =? 0) eqn:E.
  - intros [= <-]. exists c. cbn. repeat split; lia.
  - destruct (ctx_free_slot cs) as [m|]; [|discriminate]. cbn. intros [= <-].
    destruct (IH m eq_refl) as (c' & ? & ? & ?). exists c'. auto.
Qed.

Lemma nth_error_Forall A (P : A -> Prop) l n x : Forall P l -> nth_error l n = Some x -> P x.
Proof. intros Hl Hn. apply nth_error_In in Hn. rewrite Forall_forall in Hl. auto. Qed.

Lemma upd_nth_Forall A (P : A -> Prop) l n x : Forall P l -> P x -> Forall P (upd_nth l n x).
Proof.
  intros Hl Hx. revert n. induction Hl; intros [|n]; cbn; constructor; auto.
Qed.

Lemma new_alloc_range a bufsz len : 0 <= a -> 0 <= bufsz <= a -> 0 < len -> len + bufsz < 2 ^ 64 ->
  bufsz + len <= new_alloc_size a bufsz len.
Proof.
  intros. unfold new_alloc_size. destruct (a =? 0) eqn:E; [lia|].
  rewrite (w64_id (len + bufsz)) by lia. lia.
Qed.

Lemma wf_ctx_alloc_pos c : wf_ctx c -> 0 <= c_alloc c.
Proof. intros [Hb Hd Ha]. pose proof (zlen_pos _ (c_data c)). lia. Qed.

Lemma add_pure_wf c payload max : wf_ctx c -> 0 < zlen payload -> 0 <= max < 2 ^ 64 ->
  wf_ctx (fst (add_pure c payload max)).
Proof.
  intros Hc Hp Hmx. pose proof (wf_ctx_alloc_pos c Hc) as Ha0. pose proof (zlen_pos _ (c_data c)).
  pose proof Hc as [Hb Hd Ha].
  unfold add_pure. destruct (2 ^ 64 <=? zlen payload + zlen (c_data c)) eqn:E1; [exact Hc|].
  destruct (c_alloc c <? zlen (c_data c) + zlen payload) eqn:E2.
  - pose proof (new_alloc_range (c_alloc c) (zlen (c_data c)) (zlen payload)) as Hn.
    destruct (max <? new_alloc_size _ _ _) eqn:E3; [exact Hc|].
    assert (4096 <= new_alloc_size (c_alloc c) (zlen (c_data c)) (zlen payload)).
    { destruct (c_buf c); [|lia|contradiction]. destruct Hb as [Hb _]. rewrite Hb in *.
      unfold new_alloc_size. rewrite Z.eqb_refl. lia. }
    constructor; cbn; rewrite ?zlen_app; lia.
  - constructor; cbn; rewrite ?zlen_app; try lia.
    destruct (c_buf c); [|lia|exact Hb]. lia.
Qed.

Lemma wf_ctx_frag c n : wf_ctx c -> wf_ctx (ctx_set_frag c n).
Proof. intros [? ? ?]; constructor; assumption. Qed.
Lemma wf_ctx_seq c n : wf_ctx c -> wf_ctx (ctx_set_seq c n).
Proof. intros [? ? ?]; constructor; assumption. Qed.
Lemma wf_ctx_drop c : wf_ctx c -> wf_ctx (ctx_drop c).
Proof. intros [? ? ?]; constructor; assumption. Qed.
Lemma wf_ctx_nodata src dest tag seq c fr : wf_ctx c ->
  wf_ctx (mkCtx src dest tag seq (c_buf c) [] (c_alloc c) fr).
Proof.
  intros Hc. pose proof (wf_ctx_alloc_pos c Hc). destruct Hc as [Hb Hd Ha].
  constructor; cbn; [|lia|exact Ha]. destruct (c_buf c); tauto.
Qed.

Lemma payload_zlen bytes : 4 <= zlen bytes -> zlen (p_payload bytes) = zlen bytes - 4.
Proof. intros. unfold p_payload. rewrite zlen_skipn. lia. Qed.

Lemma rx_pure_wf cs max bytes : Forall wf_ctx cs -> 4 < zlen bytes -> 0 <= max < 2 ^ 64 ->
  Forall wf_ctx (fst (rx_pure cs max bytes)).
Proof.
  intros Hcs Hl Hmx. pose proof (payload_zlen bytes ltac:(lia)) as Hp.
  assert (forall n c, wf_ctx c -> Forall wf_ctx (start_pure cs n c max bytes)) as Hstart.
  { intros n c Hc. unfold start_pure.
    pose proof (add_pure_wf (ctx_set_frag c (zlen bytes)) (p_payload bytes) max
                  (wf_ctx_frag _ _ Hc) ltac:(lia) Hmx) as Ha.
    destruct (add_pure _ _ _) as [c2 ok]. cbn in Ha. apply upd_nth_Forall; [exact Hcs|].
    destruct ok; [now apply wf_ctx_seq|now apply wf_ctx_drop]. }
  unfold rx_pure.
  destruct (p_flags bytes =? Z.lor FLAG_SOM FLAG_EOM); [exact Hcs|].
  destruct (p_flags bytes =? FLAG_SOM).
  { destruct (ctx_lookup cs _ _ _) as [n|] eqn:El.
    - destruct (ctx_lookup_nth _ _ _ _ _ El) as (c & Hn & -> & _). apply Hstart.
      apply wf_ctx_nodata. eapply nth_error_Forall; eassumption.
    - destruct (ctx_free_slot cs) as [n|] eqn:Ef; [|exact Hcs].
      destruct (ctx_free_nth _ _ Ef) as (c & Hn & -> & _). apply Hstart.
      apply wf_ctx_nodata. eapply nth_error_Forall; eassumption. }
  destruct (ctx_lookup cs _ _ _) as [n|] eqn:El; [|exact Hcs].
  destruct (ctx_lookup_nth _ _ _ _ _ El) as (c & Hn & -> & _).
  assert (wf_ctx c) as Hc by (eapply nth_error_Forall; eassumption).
  pose proof (add_pure_wf c (p_payload bytes) max Hc ltac:(lia) Hmx) as Ha.
  destruct (negb _); [cbn; apply upd_nth_Forall; [exact Hcs|now apply wf_ctx_drop]|].
  destruct (p_flags bytes =? FLAG_EOM).
  - destruct (_ <? _); [cbn; apply upd_nth_Forall; [exact Hcs|now apply wf_ctx_drop]|].
    destruct (add_pure c _ _) as [c' ok]. cbn in *. apply upd_nth_Forall; [exact Hcs|].
    now apply wf_ctx_drop.
  - destruct (negb _); [cbn; apply upd_nth_Forall; [exact Hcs|now apply wf_ctx_drop]|].
    destruct (add_pure c _ _) as [c' ok]. cbn in *. apply upd_nth_Forall; [exact Hcs|].
    destruct ok; [now apply wf_ctx_seq|now apply wf_ctx_drop].
Qed.

Lemma WF_setc (w : world) cs : WF strict w -> Forall wf_ctx cs -> WF strict (setc w cs).
Proof. intros [? ? ? ? ? ? ? ? ? ?] Hc. constructor; assumption. Qed.
Lemma Jw_setc (w : world) cs g : Jw w g -> Jw (setc w cs) g.
Proof. exact (fun x => x). Qed.

Lemma payload_rd p bytes : wf_pkt p -> pktbuf_bytes p = Some bytes -> 4 < zlen bytes ->
  pktbuf_size p = zlen bytes /\
  rd (pk_data p) (w64 (pk_hdr p + 4)) (zlen bytes - 4) = Some (p_payload bytes) /\
  pktbuf_hdr_bytes p = Some (firstn 4 bytes).
Proof.
  intros Hw Hby Hl. pose proof (pktbuf_size_wf p Hw) as Hs.
  destruct (pktbuf_bytes_wf p Hw) as (b' & Hb' & Hz). rewrite Hby in Hb'. injection Hb' as <-.
  unfold pktbuf_bytes in Hby. destruct Hw.
  replace (pktbuf_size p) with (4 + (zlen bytes - 4)) in Hby by lia.
  apply rd_split in Hby; [|lia|lia]. destruct Hby as [H1 H2].
  split; [lia|]. rewrite w64_id by lia. split; [exact H2|exact H1].
Qed.

Lemma wp_add_pkt A (K : mctx * Z -> prog A) (w : world) c p bytes max g Q :
  wf_ctx c -> wf_pkt p -> pktbuf_bytes p = Some bytes -> 4 < zlen bytes ->
  0 <= max < 2 ^ 64 -> Jw w g ->
  (forall g', Jw w g' -> tr_of g' = tr_of g ->
     wp H (K (fst (add_pure c (p_payload bytes) max),
              if snd (add_pure c (p_payload bytes) max) then 0 else -1)) g' Q) ->
  wp H (bind (ctx_add_pkt c p max) K) g Q.
Proof.
  intros Hc Hw Hby Hl Hmx HJ HK. pose proof (payload_zlen bytes ltac:(lia)) as Hp.
  destruct (payload_rd p bytes Hw Hby Hl) as (Hsz & Hrd & _).
  pose proof (wf_ctx_alloc_pos c Hc) as Ha0. pose proof (zlen_pos _ (c_data c)) as Hd0.
  pose proof Hc as [Hb Hd Ha].
  assert (zlen bytes < 2 ^ 64) as Hmax.
  { rewrite <- Hsz. rewrite (pktbuf_size_wf p Hw). destruct Hw. lia. }
  unfold ctx_add_pkt. cbn zeta. rewrite Hsz. rewrite (w64_id (zlen bytes - 4)) by lia.
  unfold add_pure in HK. rewrite Hp in HK.
  destruct (2 ^ 64 <=? zlen bytes - 4 + zlen (c_data c)) eqn:E1.
  - assert (w64 (zlen bytes - 4 + zlen (c_data c)) <? zlen (c_data c) = true) as ->.
    { unfold w64. rewrite <- (Z.mod_add _ (-1)) by lia. rewrite Z.mod_small by lia. lia. }
    cbn [bind]. apply HK; auto.
  - rewrite (w64_id (zlen bytes - 4 + zlen (c_data c))) by lia.
    rewrite (w64_id (zlen (c_data c) + (zlen bytes - 4))) by lia.
    replace (zlen bytes - 4 + zlen (c_data c) <? zlen (c_data c)) with false by lia.
    destruct (c_alloc c <? zlen (c_data c) + (zlen bytes - 4)) eqn:E2.
    + destruct (max <? new_alloc_size (c_alloc c) (zlen (c_data c)) (zlen bytes - 4)) eqn:E3.
      { cbn [bind]. apply HK; auto. }
      set (nsz := new_alloc_size _ _ _) in *.
      assert (zlen (c_data c) + (zlen bytes - 4) <= nsz) as Hn by (apply new_alloc_range; lia).
      assert (forall g', Jw w g' -> tr_of g' = tr_of g ->
         wp H (bind (bind (ctx_append (ctx_set_buf c PLive nsz) p (zlen bytes - 4))
                          (fun c'' => Ret (c'', 0))) K) g' Q) as Happ.
      { intros g' HJ' Htr'. unfold ctx_append. cbn [ctx_set_buf c_buf]. rewrite Hrd.
        cbn [deref bind ctx_set_buf c_data c_alloc].
        replace (zlen (c_data c) + (zlen bytes - 4) <=? nsz) with true by lia.
        cbn [bind wp]. exact (HK g' HJ' Htr'). }
      unfold ctx_grow. destruct (c_buf c) eqn:Eb; [| |contradiction];
        cbn [bind wp]; (eapply Halloc; [exact HJ|]; intros g' HJ' Htr'; cbn [bind wp];
                        exact (Happ g' HJ' Htr')).
    + unfold ctx_append. destruct (c_buf c) eqn:Eb; [lia| |contradiction].
      rewrite Hrd. cbn [deref bind].
      replace (zlen (c_data c) + (zlen bytes - 4) <=? c_alloc c) with true by lia.
      cbn [bind]. apply HK; auto.
Qed.

Lemma nth_upd_nth A (l : list A) n x y : nth_error l n = Some y -> nth_error (upd_nth l n x) n = Some x.
Proof. revert n. induction l; intros [|n]; cbn; try discriminate; auto. Qed.
Lemma upd_nth_twice A (l : list A) n x y : upd_nth (upd_nth l n x) n y = upd_nth l n y.
Proof. revert n. induction l; intros [|n]; cbn; congruence. Qed.

Lemma hdr_fields bytes : 4 <= zlen bytes ->
  nth 1 (firstn 4 bytes) 0 = p_dest bytes /\ nth 2 (firstn 4 bytes) 0 = p_src bytes /\
  nth 3 (firstn 4 bytes) 0 = nth 3 bytes 0.
Proof.
  intros Hl. destruct bytes as [|a [|b [|c [|d t]]]]; try (cbv in Hl; congruence).
  repeat split.
Qed.

Lemma p_tag_ok bytes : Z.land (p_tag bytes) 7 = p_tag bytes.
Proof. unfold p_tag. rewrite <- Z.land_assoc. reflexivity. Qed.

Lemma wp_bus_rx_body (w : world) i b p bytes g :
  WF strict w -> Jw w g -> bget w i = Some b -> wf_pkt p -> pktbuf_bytes p = Some bytes ->
  4 < zlen bytes ->
  wp H (bus_rx_body btx apl w i b p) g
     (post g (fun w' t => exists t', t = capev w false bytes ++ t' /\
                                     rx_body_rel strict apl w i bytes t' w')).
Proof.
  intros Hw HJ Hb Hp Hby Hl. unfold bus_rx_body. rewrite Hby. cbn [deref bind].
  apply wp_cap; [exact HJ|]. intros g1 HJ1 Ht1.
  destruct (payload_rd p bytes Hp Hby Hl) as (Hsz & Hrd & Hh).
  rewrite Hh. cbn [deref bind].
  destruct (hdr_fields bytes ltac:(lia)) as (-> & -> & ->).
  pose proof (wf_max _ _ Hw) as Hmx. pose proof (wf_ctxs _ _ Hw) as Hcs.
  assert (forall t' w' g', tr_of g' = tr_of g1 ++ t' -> Jw w' g' ->
            rx_body_rel strict apl w i bytes t' w' ->
            post g (fun w' t => exists t', t = capev w false bytes ++ t' /\
                                     rx_body_rel strict apl w i bytes t' w') w' g') as Hpost.
  { intros t' w' g' Ht HJ' Hr. exists (capev w false bytes ++ t').
    split; [rewrite Ht, Ht1, app_assoc; reflexivity|]. split; [eauto|exact HJ']. }
  destruct ((match m_policy (w_m w) with RouteEndpoint => true | RouteBridge => false end)
            && negb (dest_is_local b (p_dest bytes))) eqn:Eloc.
  { cbn [wp]. apply (Hpost []); [now rewrite app_nil_r|exact HJ1|].
    destruct (m_policy (w_m w)) eqn:Ep; [|discriminate].
    eapply RxForeign; [exact Hb|exact Ep|]. destruct (dest_is_local b (p_dest bytes)); [discriminate|reflexivity]. }
  assert (m_policy (w_m w) = RouteBridge \/ dest_is_local b (p_dest bytes) = true) as Hok.
  { destruct (m_policy (w_m w)); [|auto]. destruct (dest_is_local b (p_dest bytes)); [auto|discriminate]. }
  clear Eloc.
  assert (forall cs, rx_pure (m_ctxs (w_m w)) (m_max (w_m w)) bytes = (cs, None) ->
    forall g', Jw w g' -> tr_of g' = tr_of g1 ->
     post g (fun w' t => exists t', t = capev w false bytes ++ t' /\
                                     rx_body_rel strict apl w i bytes t' w') (setc w cs) g') as Hheld.
  { intros cs Hcs' g' HJ' Ht'. apply (Hpost []); [now rewrite app_nil_r|exact HJ'|].
    eapply RxHeld; eassumption. }
  pose proof (Hheld (m_ctxs (w_m w))) as Hheld0. rewrite setc_id in Hheld0.
  fold (p_tag bytes). fold (p_seq bytes). fold (p_to bytes). fold (p_flags bytes).
  pose proof (rx_pure_wf (m_ctxs (w_m w)) (m_max (w_m w)) bytes Hcs Hl Hmx) as Hwf'.
  destruct (p_flags bytes =? Z.lor FLAG_SOM FLAG_EOM) eqn:F1.
  { assert (w64 (pk_end p - pk_hdr p - 4) = zlen bytes - 4) as ->.
    { rewrite (pktbuf_size_wf p Hp) in Hsz. destruct Hp. rewrite w64_id by lia. lia. }
    rewrite Hrd. cbn [deref bind].
    eapply wp_mono; [exact Hm| |eapply wp_mctp_rx; [exact Hw|exact HJ1|exact Hb|reflexivity|apply p_tag_ok]].
    intros w' g' (t & Ht & Hr & HJ'). apply (Hpost t); [exact Ht|exact HJ'|].
    eapply RxDone; [exact Hb|exact Hok| |rewrite setc_id; exact Hr].
    unfold rx_pure. rewrite F1. reflexivity. }
  destruct (p_flags bytes =? FLAG_SOM) eqn:F2.
  { unfold rx_som.
    assert (forall n c, wf_ctx c ->
      rx_pure (m_ctxs (w_m w)) (m_max (w_m w)) bytes
        = (start_pure (m_ctxs (w_m w)) n c (m_max (w_m w)) bytes, None) ->
      wp H (x <- ctx_add_pkt (ctx_set_frag c (pktbuf_size p)) p (m_max (w_m w)) ;;
            let (c2, rc) := x in
            Ret (put_ctx w n (if rc =? 0 then ctx_set_seq c2 (p_seq bytes) else ctx_drop c2))) g1
         (post g (fun w' t => exists t', t = capev w false bytes ++ t' /\
                                     rx_body_rel strict apl w i bytes t' w'))) as Hstart.
    { intros n c Hc Heq. eapply wp_add_pkt; [apply wf_ctx_frag; exact Hc|exact Hp|exact Hby|exact Hl|exact Hmx|exact HJ1|].
      intros g2 HJ2 Ht2. rewrite Hsz. unfold start_pure in Heq.
      destruct (add_pure (ctx_set_frag c (zlen bytes)) (p_payload bytes) (m_max (w_m w))) as [c2 ok].
      cbn [fst snd wp]. replace ((if ok then 0 else -1) =? 0) with ok by (destruct ok; reflexivity).
      exact (Hheld _ Heq g2 HJ2 Ht2). }
    destruct (ctx_lookup (m_ctxs (w_m w)) (p_src bytes) (p_dest bytes) (p_tag bytes)) as [n|] eqn:El.
    - destruct (ctx_lookup_nth _ _ _ _ _ El) as (c & Hn & Hnth & _). unfold get_ctx. rewrite Hn.
      cbn [deref bind]. apply Hstart.
      + apply wf_ctx_nodata. exact (nth_error_Forall _ _ _ _ _ Hcs Hn).
      + unfold rx_pure. rewrite F1, F2, El, Hnth. reflexivity.
    - destruct (ctx_free_slot (m_ctxs (w_m w))) as [n|] eqn:Ef.
      + destruct (ctx_free_nth _ _ Ef) as (c & Hn & Hnth & _). unfold get_ctx. rewrite Hn.
        cbn [deref bind]. apply Hstart.
        * apply wf_ctx_nodata. exact (nth_error_Forall _ _ _ _ _ Hcs Hn).
        * unfold rx_pure. rewrite F1, F2, El, Ef, Hnth. reflexivity.
      + cbn [wp]. apply Hheld0; auto.
        unfold rx_pure. rewrite F1, F2, El, Ef. reflexivity. }
  unfold rx_eom, rx_mid.
  destruct (ctx_lookup (m_ctxs (w_m w)) (p_src bytes) (p_dest bytes) (p_tag bytes)) as [n|] eqn:El.
  2:{ destruct (p_flags bytes =? FLAG_EOM) eqn:F3; cbn [wp];
      apply Hheld0; auto; unfold rx_pure; rewrite F1, F2, El; reflexivity. }
  destruct (ctx_lookup_nth _ _ _ _ _ El) as (c & Hn & Hnth & Hsrc & Hdst & Htg).
  assert (wf_ctx c) as Hc by exact (nth_error_Forall _ _ _ _ _ Hcs Hn).
  unfold get_ctx at 1 3. rewrite Hn. cbn [deref bind].
  destruct (negb ((c_seq c + 1) mod 4 =? p_seq bytes)) eqn:F4.
  { destruct (p_flags bytes =? FLAG_EOM) eqn:F3; cbn [wp];
      apply (Hheld (upd_nth (m_ctxs (w_m w)) n (ctx_drop c))); auto; unfold rx_pure;
      rewrite F1, F2, El, Hnth, F4; reflexivity. }
  rewrite Hsz.
  destruct (p_flags bytes =? FLAG_EOM) eqn:F3.
  - destruct (c_frag c <? zlen bytes) eqn:F5.
    { cbn [wp]. apply (Hheld (upd_nth (m_ctxs (w_m w)) n (ctx_drop c))); auto; unfold rx_pure.
      rewrite F1, F2, El, Hnth, F4, F3, F5. reflexivity. }
    eapply wp_add_pkt; [exact Hc|exact Hp|exact Hby|exact Hl|exact Hmx|exact HJ1|].
    intros g2 HJ2 Ht2.
    assert (rx_pure (m_ctxs (w_m w)) (m_max (w_m w)) bytes =
            (upd_nth (m_ctxs (w_m w)) n (ctx_drop (fst (add_pure c (p_payload bytes) (m_max (w_m w))))),
             if snd (add_pure c (p_payload bytes) (m_max (w_m w)))
             then Some (c_src (fst (add_pure c (p_payload bytes) (m_max (w_m w)))),
                        c_dest (fst (add_pure c (p_payload bytes) (m_max (w_m w)))),
                        c_data (fst (add_pure c (p_payload bytes) (m_max (w_m w)))))
             else None)) as Hpure.
    { unfold rx_pure. rewrite F1, F2, El, Hnth, F4, F3, F5. destruct (add_pure _ _ _); reflexivity. }
    pose proof (add_pure_wf c (p_payload bytes) (m_max (w_m w)) Hc) as Hwc.
    rewrite payload_zlen in Hwc by lia. specialize (Hwc ltac:(lia) Hmx).
    assert (snd (add_pure c (p_payload bytes) (m_max (w_m w))) = true ->
            c_buf (fst (add_pure c (p_payload bytes) (m_max (w_m w)))) = PLive) as Hlive.
    { clear - Hc Hl. unfold add_pure. destruct (_ <=? _); [discriminate|].
      destruct (c_alloc c <? _) eqn:E2; [destruct (_ <? new_alloc_size _ _ _); [discriminate|reflexivity]|].
      intros _. cbn. destruct Hc as [Hb Hd Ha]. destruct (c_buf c); [|reflexivity|contradiction].
      rewrite payload_zlen in E2 by lia. pose proof (zlen_pos _ (c_data c)). lia. }
    destruct (add_pure c (p_payload bytes) (m_max (w_m w))) as [c' ok]. cbn [fst snd] in *.
    set (w1 := put_ctx w n c').
    assert (WF strict w1) as Hw1.
    { apply WF_setc; [exact Hw|]. apply upd_nth_Forall; [exact Hcs|exact Hwc]. }
    destruct ok; cbn [Z.eqb].
    + rewrite (Hlive eq_refl). apply wp_bind; [exact Hm|].
      eapply wp_mono; [exact Hm| |eapply wp_mctp_rx; [exact Hw1|exact HJ2|exact Hb|reflexivity|apply p_tag_ok]].
      intros w2 g3 (t & Ht & Hr & HJ3).
      pose proof (steps_stable _ _ _ _ (route_rel_steps _ _ _ _ _ _ _ _ _ _ _ Hr)) as (Hrest & _).
      assert (m_ctxs (w_m w2) = upd_nth (m_ctxs (w_m w)) n c') as Ecs.
      { unfold rest in Hrest. injection Hrest as _ _ _ E _ _ _. rewrite E. reflexivity. }
      unfold get_ctx. rewrite Ecs, (nth_upd_nth _ _ _ _ _ Hn). cbn [deref bind wp].
      unfold put_ctx. rewrite Ecs, upd_nth_twice.
      apply (Hpost t); [rewrite Ht, Ht2; reflexivity|exact HJ3|].
      eapply RxDone; [exact Hb|exact Hok|exact Hpure|].
      apply (route_rel_setc _ _ _ _ _ _ _ _ _ _ _ (upd_nth (m_ctxs (w_m w)) n (ctx_drop c'))) in Hr.
      exact Hr.
    + cbn [bind]. unfold w1, put_ctx, get_ctx. cbn. rewrite (nth_upd_nth _ _ _ _ _ Hn).
      cbn [deref bind wp]. rewrite upd_nth_twice. exact (Hheld _ Hpure g2 HJ2 Ht2).
  - destruct (negb (zlen bytes =? c_frag c)) eqn:F5.
    { cbn [wp]. apply (Hheld (upd_nth (m_ctxs (w_m w)) n (ctx_drop c))); auto; unfold rx_pure.
      rewrite F1, F2, El, Hnth, F4, F3, F5. reflexivity. }
    eapply wp_add_pkt; [exact Hc|exact Hp|exact Hby|exact Hl|exact Hmx|exact HJ1|].
    intros g2 HJ2 Ht2.
    destruct (add_pure c (p_payload bytes) (m_max (w_m w))) as [c' ok] eqn:Ea. cbn [fst snd wp].
    replace ((if ok then 0 else -1) =? 0) with ok by (destruct ok; reflexivity).
    apply (Hheld (upd_nth (m_ctxs (w_m w)) n (if ok then ctx_set_seq c' (p_seq bytes) else ctx_drop c'))); auto.
    unfold rx_pure. rewrite F1, F2, El, Hnth, F4, F3, F5, Ea. reflexivity.
Qed.

Lemma pktbuf_start_bytes p : wf_pkt p ->
  rd (pk_data p) (pk_start p) (pktbuf_size p) = pktbuf_bytes p.
Proof. intros [? E ? ? ? ?]. unfold pktbuf_bytes. now rewrite E. Qed.

Lemma wpr_bus_rx (w : world) i b p bytes g :
  WF strict w -> bget w i = Some b -> wf_pkt p -> pktbuf_bytes p = Some bytes ->
  (forall lo (Q : G -> Prop),
     (forall g', Jw w g' -> tr_of g' = tr_of g ++ [EvBusRx i lo (pk_id p) bytes] -> Q g') ->
     h_emit H (EvBusRx i lo (pk_id p) bytes) g Q) ->
  wp H (bus_rx btx apl w i p) g (post g (fun w' t => rx_rel strict apl w i (pk_id p) bytes t w')).
Proof.
  intros Hw Hb Hp Hby Hrx. unfold bus_rx.
  apply wp_assert_bind; [exact (wf_bd _ _ Hw _ _ Hb)|].
  eapply get_bus_bget; [exact Hb|]. rewrite (pktbuf_start_bytes p Hp), Hby. cbn [deref bind wp].
  apply Hrx. intros g1 HJ1 Ht1.
  destruct (pktbuf_bytes_wf p Hp) as (b' & Hb' & Hz). rewrite Hby in Hb'. injection Hb' as <-.
  rewrite <- Hz. destruct (zlen bytes <=? 4) eqn:El.
  - unfold pktbuf_free. cbn [bind wp]. eapply Hemit; [cbn; tauto|exact I|exact HJ1|]. intros g2 HJ2 Ht2.
    eexists. split; [rewrite Ht2, Ht1, <- app_assoc; reflexivity|]. split; [|exact HJ2].
    apply (RxShort strict apl w i (pk_id p) bytes b Hb). lia.
  - eapply wp_call; [exact Hm|eapply wp_bus_rx_body; try eassumption; lia|].
    intros w2 g2 (t & Ht & (t' & -> & Hr) & HJ2). unfold pktbuf_free. cbn [bind wp].
    eapply Hemit; [cbn; tauto|exact I|exact HJ2|]. intros g3 HJ3 Ht3.
    eexists. split; [|split; [|exact HJ3]].
    2:{ eapply (RxPkt strict apl w i (pk_id p) bytes b t'); [exact Hb|lia|exact Hr]. }
    rewrite Ht3, Ht, Ht1. rewrite <- !app_assoc. cbn [app]. unfold busrx_local. reflexivity.
Qed.

End WalkRet.

(** The same with nothing said about the return code. *)
Section WalkCore.
Context {B G : Type}.
Variable btx : B -> pktbuf -> prog (B * pktbuf * Z * bool).
Variable apl : event -> list txreq.
Variable H : handler G.
Hypothesis Hm : hmono H.
Variable tr_of : G -> list event.
Variable strict : strictness.
Variable J : binding B -> binding B -> option bus_state -> option bus_state -> G -> Prop.
Notation world := (world B).
Local Notation Jw := (Jw J).
Local Notation post := (post tr_of J).

Hypothesis Hemit : forall e w g (Q : G -> Prop), core_ev e -> Jw w g ->
  (forall g', Jw w g' -> tr_of g' = tr_of g ++ [e] -> Q g') -> h_emit H e g Q.
Hypothesis Halloc : forall w g (Q : bool -> G -> Prop), Jw w g ->
  (forall g', Jw w g' -> tr_of g' = tr_of g -> Q true g') -> h_alloc H g Q.
Hypothesis Hbtx : forall (w : world) i b p bytes g (Q : B * pktbuf * Z * bool -> G -> Prop),
  WF strict w -> Jw w g -> bget w i = Some b -> bus_st b = TxEnabled ->
  qwf strict (bnd w i) p -> pktbuf_bytes p = Some bytes ->
  (forall b' p' rc (dis : bool) g' io,
     Jw (set_bus (set_bnd w i (set_priv (bnd w i) b')) i (if dis then disable_bus b else b)) g' ->
     tr_of g' = tr_of g ++ EvTxCall i (pk_id p) bytes :: io -> Forall io_ev io ->
     pk_id p' = pk_id p ->
     (final rc = false -> qwf strict (bnd w i) p' /\ kept strict p p') ->
     Q (b', p', rc, dis) g') ->
  h_emit H (EvTxCall i (pk_id p) bytes) g (fun g1 => wp H (btx (bd_priv (bnd w i)) p) g1 Q).

Lemma Hemit_any e (w : world) g (Q : G -> Prop) : core_ev e -> retok tr_of (fun _ _ => True) g e -> Jw w g ->
  (forall g', Jw w g' -> tr_of g' = tr_of g ++ [e] -> Q g') -> h_emit H e g Q.
Proof. intros He _. now apply Hemit. Qed.
Lemma Hbtx_any (w : world) i b p bytes g (Q : B * pktbuf * Z * bool -> G -> Prop) :
  WF strict w -> Jw w g -> bget w i = Some b -> bus_st b = TxEnabled ->
  qwf strict (bnd w i) p -> pktbuf_bytes p = Some bytes ->
  (forall b' p' rc (dis : bool) g' io,
     Jw (set_bus (set_bnd w i (set_priv (bnd w i) b')) i (if dis then disable_bus b else b)) g' ->
     tr_of g' = tr_of g ++ EvTxCall i (pk_id p) bytes :: io -> True -> Forall io_ev io ->
     pk_id p' = pk_id p ->
     (final rc = false -> qwf strict (bnd w i) p' /\ kept strict p p') ->
     Q (b', p', rc, dis) g') ->
  h_emit H (EvTxCall i (pk_id p) bytes) g (fun g1 => wp H (btx (bd_priv (bnd w i)) p) g1 Q).
Proof. intros. eapply Hbtx; eauto. Qed.

Lemma wp_set_tx_enabled (w : world) i en g b :
  WF strict w -> Jw w g -> bget w i = Some b -> (en = true -> upto strict (bd_pkt_size (bnd w i))) ->
  (forall g' s, Jw w g' -> tr_of g' = tr_of g ++ [EvSetTx i en] ->
             (s = TxEnabled -> en = true /\ 68 <= bd_pkt_size (bnd w i)) ->
             (s = TxDisabled -> en = false) -> s <> Constructed -> s <> bus_st b ->
             Jw (set_bus w i (set_st b s)) g') ->
  wp H (set_tx_enabled btx w i en) g (post g (fun w' t => set_rel strict w i en t w')).
Proof. apply (wpr_set_tx_enabled btx H Hm tr_of strict J (fun _ _ => True) (fun _ _ _ _ => I) Hemit_any Hbtx_any). Qed.

Lemma wp_message_tx (w : world) eid to tag msg g :
  WF strict w -> Jw w g ->
  wp H (message_tx btx w eid to tag msg) g
     (fun x => post g (fun w' t => message_rel strict w eid to tag msg (snd x) t w') (fst x)).
Proof. apply (wpr_message_tx btx H Hm tr_of strict J (fun _ _ => True) (fun _ _ _ _ => I) Hemit_any Halloc Hbtx_any). Qed.

Lemma wp_bus_rx (w : world) i b p bytes g :
  WF strict w -> bget w i = Some b -> wf_pkt p -> pktbuf_bytes p = Some bytes ->
  (forall lo (Q : G -> Prop),
     (forall g', Jw w g' -> tr_of g' = tr_of g ++ [EvBusRx i lo (pk_id p) bytes] -> Q g') ->
     h_emit H (EvBusRx i lo (pk_id p) bytes) g Q) ->
  wp H (bus_rx btx apl w i p) g (post g (fun w' t => rx_rel strict apl w i (pk_id p) bytes t w')).
Proof. apply (wpr_bus_rx btx apl H Hm tr_of strict J (fun _ _ => True) (fun _ _ _ _ => I) Hemit_any Halloc Hbtx_any). Qed.

Lemma wp_packetise i src dest to tag mtu ver : forall fuel (w : world) g b k msg,
  WF strict w -> Jw w g -> bget w i = Some b -> bus_st b <> Constructed ->
  bd_version (bnd w i) = ver -> mtu = mtu_of w i ->
  (length msg <= fuel)%nat ->
  wp H (packetise fuel w i src dest to tag mtu k msg) g
     (post g (fun w' t => enqs strict i w (frags fuel ver src dest to tag mtu k msg) t w')).
Proof. apply (wpr_packetise H Hm tr_of strict J (fun _ _ => True) Hemit_any Halloc). Qed.

End WalkCore.
