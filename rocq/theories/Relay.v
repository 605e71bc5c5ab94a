(** Relay: what a serial bridge writes is the frames of the packets it sends (C88). *)
From Verif Require Import Base Lists Prog PktBuf Core WP Walk CoreRel WalkCore CoreHist Spec SpecRx Trace PropTx PropMsg
  Reasm PropRx PropRound Crc Serial SpecSer SerRx SerWalk PropSer PropSerTx PropSerRound SpecDuo DuoMsg PropDuoMsg PropSerStream.

Local Notation world := (world serial).

(** ** The packets given to binding->tx *)
Definition called (t : list event) : list (list Z) :=
  flat_map (fun e => match e with EvTxCall _ _ bs => [bs] | _ => [] end) t.
Definition ret0 (e : event) : Prop := match e with EvTxRet _ _ _ rc => rc = 0 | _ => True end.
Definition fits (t : list event) : Prop := Forall (fun bs => zlen bs <= 68) (called t).
(** If no write fails, the bytes written are the frames of those packets. *)
Definition faithful (t : list event) : Prop :=
  writes_ok t -> fits t -> sent t = flat_map wire (called t) /\ Forall ret0 t.

Lemma called_app a b : called (a ++ b) = called a ++ called b.
Proof. apply flat_map_app. Qed.
Lemma fits_app a b : fits (a ++ b) <-> fits a /\ fits b.
Proof. unfold fits. rewrite called_app. apply Forall_app. Qed.
Lemma faithful_nil : faithful [].
Proof. intros _ _. split; [reflexivity|constructor]. Qed.
Lemma faithful_app a b : faithful a -> faithful b -> faithful (a ++ b).
Proof.
  intros Fa Fb Hw Hf. apply writes_ok_app in Hw. apply fits_app in Hf.
  destruct (Fa (proj1 Hw) (proj1 Hf)) as [A1 A2]. destruct (Fb (proj2 Hw) (proj2 Hf)) as [B1 B2].
  rewrite sent_app, called_app, flat_map_app, A1, B1. split; [reflexivity|]. now apply Forall_app.
Qed.
Lemma called_io io : Forall io_ev io -> called io = [] /\ Forall ret0 io.
Proof.
  induction 1 as [|e io He Hio [I1 I2]]; [split; [reflexivity|constructor]|]. destruct e; try contradiction; (split; [exact I1|constructor; [exact I|exact I2]]).
Qed.

Section Walk.
Context (fuel : nat) (app : event -> list txreq) (a : assm).
Context (Ha : may_oom a = false) (Hst : may_stall a = false) (Hfuel : (256 <= fuel)%nat).

Definition Jf (g0 : list event) (s0 s1 : serial) (o0 o1 : option bus_state) :
  binding serial -> binding serial -> option bus_state -> option bus_state -> list event -> Prop :=
  fun b0 b1 p0 p1 g => bd_priv b0 = s0 /\ bd_priv b1 = s1 /\ p0 = o0 /\ p1 = o1 /\ exists t, g = g0 ++ t /\ faithful t.
Definition rcf (g0 g : list event) (rc : Z) : Prop :=
  exists t, g = g0 ++ t /\ (writes_ok t -> fits t -> rc = 0).

Lemma rcf_set g0 t i rc : rcf g0 t rc -> rcf g0 (t ++ [EvSetTx i false]) rc.
Proof.
  intros (t' & -> & H). exists (t' ++ [EvSetTx i false]). rewrite app_assoc. split; [reflexivity|].
  intros Hw Hf. apply writes_ok_app in Hw. apply fits_app in Hf. tauto.
Qed.

Lemma Jf_emit g0 s0 s1 o0 o1 e (w : world) g (Q : list event -> Prop) : core_ev e -> retok id (rcf g0) g e ->
  Jw (Jf g0 s0 s1 o0 o1) w g ->
  (forall g', Jw (Jf g0 s0 s1 o0 o1) w g' -> id g' = id g ++ [e] -> Q g') -> h_emit (adv a) e g Q.
Proof.
  intros He Hre (J1 & J2 & J3 & J4 & t & -> & Ft) HQ. apply HQ; [|reflexivity].
  split; [exact J1|]. split; [exact J2|]. split; [exact J3|]. split; [exact J4|].
  exists (t ++ [e]). rewrite app_assoc. split; [reflexivity|].
  intros Hw Hf. apply writes_ok_app in Hw. apply fits_app in Hf. destruct (Ft (proj1 Hw) (proj1 Hf)) as [F1 F2].
  rewrite sent_app, called_app, flat_map_app, F1. split.
  - destruct e; try reflexivity; cbn in He; tauto.
  - apply Forall_app. split; [exact F2|]. constructor; [|constructor].
    destruct e; try exact I. cbn in Hre. destruct Hre as (t' & Et & Hrc). unfold Datatypes.id in Et. apply app_inv_head in Et. subst t'.
    apply Hrc; tauto.
Qed.

Lemma Jf_alloc g0 s0 s1 o0 o1 (w : world) g (Q : bool -> list event -> Prop) : Jw (Jf g0 s0 s1 o0 o1) w g ->
  (forall g', Jw (Jf g0 s0 s1 o0 o1) w g' -> id g' = id g -> Q true g') -> h_alloc (adv a) g Q.
Proof. intros HJ HQ. split; [apply HQ; [exact HJ|reflexivity]|]. rewrite Ha. discriminate. Qed.

Lemma Jf_btx g0 s0 s1 o0 o1 (w : world) i b p bytes g
  (Q : serial * pktbuf * Z * bool -> list event -> Prop) :
  WF Strict w -> Jw (Jf g0 s0 s1 o0 o1) w g -> bget w i = Some b -> bus_st b = TxEnabled ->
  qwf Strict (bnd w i) p -> pktbuf_bytes p = Some bytes ->
  (forall b' p' rc (dis : bool) g' io,
     Jw (Jf g0 s0 s1 o0 o1) (set_bus (set_bnd w i (set_priv (bnd w i) b')) i (if dis then disable_bus b else b)) g' ->
     id g' = id g ++ EvTxCall i (pk_id p) bytes :: io -> rcf g0 (id g') rc -> Forall io_ev io ->
     pk_id p' = pk_id p ->
     (final rc = false -> qwf Strict (bnd w i) p' /\ kept Strict p p') ->
     Q (b', p', rc, dis) g') ->
  h_emit (adv a) (EvTxCall i (pk_id p) bytes) g
         (fun g1 => wp (adv a) (serial_tx fuel (bd_priv (bnd w i)) p) g1 Q).
Proof.
  intros Hw HJ Hb Hs Hq Hby HQ. cbn [h_emit adv].
  assert (forall rc io, Forall io_ev io -> (writes_ok io -> zlen bytes <= 68 -> rc = 0 /\ sent io = wire bytes) ->
    Q (bd_priv (bnd w i), p, rc, false) ((g ++ [EvTxCall i (pk_id p) bytes]) ++ io)) as Hgo.
  { intros rc io Hio Hok. destruct (called_io _ Hio) as [Ec Er].
    destruct HJ as (J1 & J2 & J3 & J4 & t & -> & Ft).
    assert (forall t2, called (t ++ [EvTxCall i (pk_id p) bytes] ++ t2) = called t ++ bytes :: called t2) as Ecall.
    { intros t2. rewrite !called_app. reflexivity. }
    eapply (HQ _ p rc false _ io); [|unfold Datatypes.id; rewrite <- app_assoc; reflexivity| |exact Hio|reflexivity|
      intros _; split; [exact Hq|reflexivity]].
    - assert (set_bus (set_bnd w i (set_priv (bnd w i) (bd_priv (bnd w i)))) i b = w) as Ew.
      { assert (set_bnd w i (set_priv (bnd w i) (bd_priv (bnd w i))) = w) as -> by (destruct w as [m x y], x, y, i; reflexivity).
        apply set_bus_same. exact Hb. }
      cbv iota. rewrite Ew. split; [exact J1|]. split; [exact J2|]. split; [exact J3|]. split; [exact J4|].
      exists (t ++ [EvTxCall i (pk_id p) bytes] ++ io). rewrite <- !app_assoc. split; [reflexivity|].
      intros Hwr Hf. rewrite !writes_ok_app in Hwr. unfold fits in Hf. rewrite Ecall in Hf. apply Forall_app in Hf.
      destruct Hf as [Hf1 Hf2]. inversion Hf2 as [|? ? Hz _]; subst.
      destruct (Ft (proj1 Hwr) Hf1) as [F1 F2]. destruct (Hok (proj2 (proj2 Hwr)) Hz) as [_ Hsn].
      split.
      + rewrite Ecall, !sent_app, F1, Hsn, Ec, flat_map_app. cbn. now rewrite app_nil_r.
      + apply Forall_app. split; [exact F2|]. constructor; [exact I|exact Er].
    - exists (t ++ [EvTxCall i (pk_id p) bytes] ++ io). unfold Datatypes.id. rewrite <- !app_assoc. split; [reflexivity|].
      intros Hwr Hf. rewrite !writes_ok_app in Hwr. unfold fits in Hf. rewrite Ecall in Hf. apply Forall_app in Hf.
      destruct Hf as [Hf1 Hf2]. inversion Hf2 as [|? ? Hz _]; subst.
      exact (proj1 (Hok (proj2 (proj2 Hwr)) Hz)). }
  destruct (Z_le_gt_dec (zlen bytes) 68) as [Hz|Hz].
  - rewrite (serial_tx_wire fuel _ p bytes (proj1 Hq) Hby Hz). apply wp_bind; [apply adv_mono|].
    eapply (wp_write_sent fuel a Hst Ha Hfuel).
    + pose proof (wire_zlen bytes Hz). unfold zlen in *. lia.
    + intros rc io Hio Hok. cbn [wp]. apply Hgo; [exact Hio|]. intros Hwr _. apply Hok. exact Hwr.
  - apply (wp_serial_tx fuel a Ha Hst Hfuel); [exact (proj1 Hq)|]. intros rc io Hio. apply Hgo; [exact Hio|]. lia.
Qed.

(** One byte: the state of no bus changes, and the writes are faithful. *)
Definition same_state (w w' : world) : Prop := forall j, ost w' j = ost w j.

Lemma ost_put (w : world) i s j : ost (put_ser w i s) j = ost w j.
Proof. unfold put_ser. destruct i; reflexivity. Qed.

Lemma wp_consume_f (w : world) i b c g :
  WF Strict w -> bget w i = Some b -> ser_dims (bnd w i) -> swf (bd_priv (bnd w i)) -> is_byte c ->
  wp (adv a) (consume_one fuel app w i c) g
     (fun w' g' => exists t, g' = g ++ t /\ faithful t /\ same_state w w').
Proof.
  intros Hw Hb Hd Hs Hc.
  destruct (rout (rof (bd_priv (bnd w i))) c) as [|bs0 l0] eqn:Ero.
  { eapply wp_mono; [apply adv_mono| |apply (wp_consume fuel app a Ha Hst Hfuel w i b c g Hw Hb Hd Hs Hc)].
    intros w' g' (t & -> & Hr & _). exists t. split; [reflexivity|].
    destruct Hr as [s' s S1 S2 S3 S4|s' s S1 S2 S3 S4 S5|p bs ap t w1 s' s Ep Hpk Hr Hsp S1 S2 S3 S4].
    - split; [apply faithful_nil|]. intros j. apply ost_put.
    - split; [intros _ _; split; [reflexivity|repeat constructor]|]. intros j. rewrite ost_put. reflexivity.
    - fold s in Ero. congruence. }
  unfold consume_one. set (s := bd_priv (bnd w i)) in *.
  assert (s_st s = WaitSyncEnd) as Est.
  { destruct (s_st s) eqn:Est; unfold rof in Ero; rewrite Est in Ero; try discriminate. reflexivity. }
  rewrite Est. unfold swf in Hs. rewrite Est in Hs.
  destruct Hs as (p & bs & Ep & Hp & Hcalc). rewrite Ep. cbn [Bool.eqb assert_ bind].
  unfold finish_packet. fold s. rewrite Ep.
  assert ((s_fcs s =? s_calc s) && (c =? SER_FLAG) = true) as ->.
  { unfold rof in Ero. rewrite Est in Ero. cbn [rout] in Ero. rewrite (body_ok s p bs Ep Hp) in Ero. rewrite Hcalc. unfold SER_FLAG.
    destruct ((s_fcs s =? fcs bs) && (c =? 126)); [reflexivity|discriminate]. }
  apply wp_bind; [apply adv_mono|]. apply wp_bind; [apply adv_mono|].
  set (s0 := bd_priv (w_b0 w)). set (s1 := bd_priv (w_b1 w)). set (o0 := ost w false). set (o1 := ost w true).
  pose proof (Jf_emit g s0 s1 o0 o1) as He. pose proof (Jf_alloc g s0 s1 o0 o1) as Hal. pose proof (Jf_btx g s0 s1 o0 o1) as Hbt.
  eapply wp_mono; [apply adv_mono| |
    eapply (wpr_bus_rx (serial_tx fuel) app (adv a) (adv_mono a) id Strict (Jf g s0 s1 o0 o1) (rcf g) (rcf_set g) He Hal Hbt w i b p bs);
    [exact Hw|exact Hb|exact (po_wf _ _ Hp)|exact (po_bytes _ _ Hp)|]].
  - intros w1 g1 (t & Et & Hr & (_ & _ & J3 & J4 & t' & -> & Ft)). cbn [wp]. exists t'. split; [reflexivity|]. split; [exact Ft|].
    intros j. rewrite !ost_put. destruct j; assumption.
  - intros lo Q HQ. apply HQ; [|reflexivity]. repeat (split; [reflexivity|]).
    exists [EvBusRx i lo (pk_id p) bs]. split; [reflexivity|]. intros _ _. split; [reflexivity|]. repeat constructor.
Qed.

(** ** A bridge fed through one line *)
Inductive bhist (i : bool) : world -> list Z -> list event -> world -> Prop :=
| BHNil w : bhist i w [] [] w
| BHCons w c t1 w1 l t2 w2 : SI Bridge w -> is_byte c -> byte_rel w i c t1 w1 -> faithful t1 -> same_state w w1 -> SI Bridge w1 ->
    bhist i w1 l t2 w2 -> bhist i w (c :: l) (t1 ++ t2) w2.
Lemma bhist_app i w l1 t1 w1 l2 t2 w2 : bhist i w l1 t1 w1 -> bhist i w1 l2 t2 w2 -> bhist i w (l1 ++ l2) (t1 ++ t2) w2.
Proof. induction 1; intros Hq; cbn [Datatypes.app]; [exact Hq|]. rewrite <- app_assoc. eapply BHCons; eauto. Qed.

Lemma wp_relay_rx i : forall bs (w : world) g, SI Bridge w -> Forall is_byte bs ->
  wp (adv a) (serial_rx fuel app w i bs) g (fun w' g' => exists t, g' = g ++ t /\ bhist i w bs t w' /\ SI Bridge w').
Proof.
  induction bs as [|c bs IH]; intros w g Hw Hb; cbn [serial_rx].
  - cbn [wp]. exists []. rewrite app_nil_r. split; [reflexivity|]. split; [constructor|exact Hw].
  - inversion Hb as [|? ? Hc Hb']; subst.
    assert (mode_bus Bridge i) as Hi by (intros _; reflexivity).
    destruct (mode_bget Bridge w i (si_wf _ _ Hw) (si_mode _ _ Hw) Hi) as (b & Hbg).
    eapply wp_call; [apply adv_mono|eapply (adv_and a);
      [eapply (wp_consume fuel app a Ha Hst Hfuel w i b c g)|eapply (wp_consume_f w i b c g)];
      [exact (si_wf _ _ Hw)|exact Hbg|apply (si_dims _ _ Hw)|apply (si_swf _ _ Hw)|exact Hc
      |exact (si_wf _ _ Hw)|exact Hbg|apply (si_dims _ _ Hw)|apply (si_swf _ _ Hw)|exact Hc]|].
    intros w1 g1 [(t1 & -> & Hr & Hw1) (t1' & Et & Ff & Hss)]. apply app_inv_head in Et. subst t1'.
    assert (SI Bridge w1) as Hsi by (eapply (mrel_SI Bridge w (MByte i c)); [exact Hw|split; assumption|apply MRByte; exact Hr|exact Hw1]).
    eapply wp_mono; [apply adv_mono| |apply (IH w1); assumption].
    intros w2 g2 (t2 & -> & Hh & Hw2). exists (t1 ++ t2). rewrite app_assoc. split; [reflexivity|].
    split; [|exact Hw2]. eapply BHCons; eassumption.
Qed.

(** Nothing but bytes on line [i]. *)
Definition only_line (i : bool) (l : list sop) : Prop := Forall (fun o => exists bs, o = SRx i bs) l.

Lemma wp_relay i : forall l (w : world) g, SI Bridge w -> Forall (ser_traffic Bridge) l -> only_line i l ->
  wp (adv a) (sexec fuel app w l) g (fun w' g' => exists t, g' = g ++ t /\ bhist i w (fed i l) t w' /\ SI Bridge w').
Proof.
  induction l as [|o l IH]; intros w g Hw Hl Ho.
  - cbn [sexec wp]. exists []. rewrite app_nil_r. split; [reflexivity|]. split; [constructor|exact Hw].
  - inversion Hl as [|? ? Ht Hl']; subst. inversion Ho as [|? ? Hx Ho']; subst. destruct Hx as (bs & ->). cbn [sexec].
    rewrite (wf_dead _ _ (si_wf _ _ Hw)). cbn in Ht. destruct Ht as [_ Hb].
    eapply wp_call; [apply adv_mono|apply (wp_relay_rx i bs w g Hw Hb)|].
    intros w1 g1 (t1 & -> & Hr & Hw1).
    eapply wp_mono; [apply adv_mono| |apply (IH w1); assumption].
    intros w2 g2 (t2 & -> & Hh & Hw2). exists (t1 ++ t2). rewrite app_assoc. split; [reflexivity|].
    split; [|exact Hw2]. cbn [fed flat_map]. rewrite Bool.eqb_reflx. eapply bhist_app; eassumption.
Qed.
End Walk.
