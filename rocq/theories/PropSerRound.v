(** PropSerRound: a message sent over one serial endpoint is delivered by the other
    (C28). *)
From Verif Require Import Base Lists Prog PktBuf Core WP Walk CoreRel WalkCore CoreHist Spec SpecRx Trace PropTx
  PropMsg Reasm PropRx PropRound Crc Serial SpecSer SerRx SerWalk PropSer PropSerTx.

Local Notation world := (world serial).

(** ** A run of packets through reassembly *)
Fixpoint rx_run (cs : list mctx) (max : Z) (ps : list (list Z)) : list mctx * list (list Z * list Z) :=
  match ps with
  | [] => (cs, [])
  | bs :: ps' =>
      let '(cs1, out) := rx_pure cs max bs in
      let '(cs2, outs) := rx_run cs1 max ps' in
      (cs2, match out with Some (_, _, msg) => (bs, msg) :: outs | None => outs end)
  end.

Lemma rx_run_app cs max a b : rx_run cs max (a ++ b) =
  (fst (rx_run (fst (rx_run cs max a)) max b), snd (rx_run cs max a) ++ snd (rx_run (fst (rx_run cs max a)) max b)).
Proof.
  revert cs. induction a as [|bs a IH]; intros cs; cbn [Datatypes.app rx_run].
  - cbn. now destruct (rx_run cs max b).
  - destruct (rx_pure cs max bs) as [cs1 out]. rewrite IH. destruct (rx_run cs1 max a) as [cs2 outs].
    cbn [fst snd]. destruct out as [[[? ?] ?]|]; reflexivity.
Qed.

Definition forkey (k : key) (ps : list (list Z)) : list (list Z) := filter (fun bs => key_eqb (h_key bs) k) ps.
Definition outkey (k : key) (os : list (list Z * list Z)) := filter (fun o => key_eqb (h_key (fst o)) k) os.

Section Pure.
Context (J : Z) (HJ : 0 <= J) (L : Z) (HL : L = 4096 * 2 ^ J) (HL64 : L < 2 ^ 64).
Definition small (bs : list Z) : Prop := 4 < zlen bs <= 4100.

Record okctx (cs : list mctx) : Prop := mkOk {
  ok_ci : exists log, CI log cs; ok_wf : Forall wf_ctx cs; ok_good : Forall (good J) cs }.

Lemma okctx_step cs bs cs' out : okctx cs -> small bs -> rx_pure cs L bs = (cs', out) -> okctx cs'.
Proof.
  intros [(log & H1) H2 H3] Hs Hr. constructor.
  - exists (log ++ [bs]). exact (proj1 (rx_pure_CI _ _ _ _ _ _ H1 Hr)).
  - pose proof (rx_pure_wf cs L bs H2 (proj1 Hs)) as Hw. rewrite Hr in Hw. apply Hw.
    pose proof (Z.pow_pos_nonneg 2 J). lia.
  - eapply (rx_pure_good J cs L bs); eauto.
Qed.

Lemma okctx_run cs ps : okctx cs -> Forall small ps -> okctx (fst (rx_run cs L ps)).
Proof.
  intros Ho Hp. revert cs Ho. induction Hp as [|bs ps Hb Hp IH]; intros cs Ho; cbn [rx_run]; [exact Ho|].
  destruct (rx_pure cs L bs) as [cs1 out] eqn:E. pose proof (IH _ (okctx_step _ _ _ _ Ho Hb E)) as H.
  destruct (rx_run cs1 L ps). exact H.
Qed.

Lemma run_other k cs ps : forkey k ps = [] -> outkey k (snd (rx_run cs L ps)) = [].
Proof.
  unfold forkey, outkey. revert cs. induction ps as [|bs ps IH]; intros cs Hf; [reflexivity|].
  cbn [filter] in Hf. destruct (key_eqb (h_key bs) k) eqn:E; [discriminate|]. cbn [rx_run].
  destruct (rx_pure cs L bs) as [cs1 out]. specialize (IH cs1 Hf). destruct (rx_run cs1 L ps) as [cs2 outs].
  cbn [snd] in *. destruct out as [[[? ?] ?]|]; [|exact IH]. cbn [filter fst]. now rewrite E.
Qed.

Context (src dest tag : Z) (Hsrc : src <> 0) (to : bool) (mtu : Z) (Hmtu : mtu <= 4096).
Notation k := (src, dest, tag).
Context (ver : Z) (msg : list Z) (pkts : list (list Z)).
Context (Hpk : packetised ver src dest to tag mtu msg pkts) (Htag : 0 <= tag <= 7) (Hsz : zlen msg <= L).

Lemma run_rest : forall ps cs donep rest, okctx cs -> Forall small ps ->
  pkts = donep ++ rest -> donep <> [] -> rest <> [] -> forkey k ps = rest ->
  holds src dest tag cs (concat (map payload donep)) (mtu + 4) (Z.of_nat (length donep - 1) mod 4) ->
  exists lst, outkey k (snd (rx_run cs L ps)) = [(lst, msg)] /\ h_to lst = to /\ h_key lst = k.
Proof.
  induction ps as [|bs ps IH]; intros cs donep rest Hok Hps Epk Hd Hr Hpf Hho.
  { exfalso. apply Hr. rewrite <- Hpf. reflexivity. }
  inversion Hps as [|? ? Hb Hps']; subst x l. cbn [rx_run].
  destruct (rx_pure cs L bs) as [cs1 out] eqn:Hpure.
  pose proof (okctx_step _ _ _ _ Hok Hb Hpure) as Hok1.
  unfold forkey in Hpf. cbn [filter] in Hpf.
  destruct (key_eqb (h_key bs) k) eqn:Ek.
  2:{ assert (holds src dest tag cs1 (concat (map payload donep)) (mtu + 4) (Z.of_nat (length donep - 1) mod 4)) as Hho1.
      { destruct Hho as (n & c & Hc1 & Hc2 & Hc3 & Hc4 & Hc5). exists n, c. split; [|auto].
        assert (h_key bs <> k) as Hne by (intros E; apply key_eqb_spec in E; congruence).
        eapply rx_pure_other; [exact Hpure|exact Hc1| |congruence]. unfold c_key in Hc2. congruence. }
      destruct (IH cs1 donep rest Hok1 Hps' Epk Hd Hr Hpf Hho1) as (lst & H1 & H2).
      exists lst. destruct (rx_run cs1 L ps) as [cs2 outs]. cbn [snd] in *. split; [|exact H2].
      destruct out as [[[? ?] ?]|]; [|exact H1]. unfold outkey. cbn [filter fst]. rewrite Ek. exact H1. }
  apply key_eqb_spec in Ek.
  destruct rest as [|bs' rest]; [discriminate|]. injection Hpf as <- Hpf.
  assert (nth_error pkts (length donep) = Some bs) as Hnth.
  { rewrite Epk, nth_error_app2, Nat.sub_diag by lia. reflexivity. }
  pose proof (packetised_no _ _ _ _ _ _ _ _ Htag Hpk _ _ Hnth) as Hno.
  destruct (length donep) as [|no] eqn:El; [destruct donep; [contradiction|discriminate]|].
  replace (S no - 1)%nat with no in Hho by lia.
  assert (concat (map payload pkts) = msg) as Hmsg by (exact (proj1 Hpk)).
  assert (zlen (concat (map payload donep)) + zlen (payload bs) <= L) as Hfit.
  { rewrite <- Hmsg in Hsz. rewrite Epk, map_app, concat_app, zlen_app in Hsz. cbn [map concat] in Hsz.
    rewrite zlen_app in Hsz. pose proof (zlen_pos _ (concat (map payload rest))). lia. }
  destruct (ok_ci _ Hok) as (log & Hci).
  destruct (step_next J HJ L HL HL64 src dest tag Hsrc to mtu Hmtu _ _ bs no
              (Nat.eqb (S (S no)) (length pkts)) _ Hci (ok_wf _ Hok) (ok_good _ Hok) Hno (proj1 Hb) Hho Hfit)
    as (cs' & Hpure' & Hnext).
  rewrite Hpure in Hpure'. apply pair_equal_spec in Hpure'. destruct Hpure' as [<- ->].
  destruct (Nat.eqb_spec (S (S no)) (length pkts)) as [Elast|Enl].
  - assert (rest = []) as ->.
    { rewrite Epk, app_length in Elast. cbn in Elast. rewrite El in Elast. destruct rest; [reflexivity|cbn in Elast; lia]. }
    exists bs. pose proof (run_other k cs1 ps Hpf) as Hq. destruct (rx_run cs1 L ps) as [cs2 outs]. cbn [snd] in *.
    unfold outkey in *. cbn [filter fst]. rewrite Ek, key_eqb_refl, Hq.
    split; [|split; [exact (pn_to _ _ _ _ _ _ _ _ Hno)|reflexivity]].
    do 2 f_equal. rewrite <- Hmsg, Epk, map_app, concat_app. cbn [map concat]. now rewrite app_nil_r.
  - destruct (IH cs1 (donep ++ [bs]) rest Hok1 Hps') as (lst & H1 & H2).
    + rewrite <- app_assoc. exact Epk.
    + destruct donep; discriminate.
    + intros ->. apply Enl. rewrite Epk, app_length. cbn. lia.
    + exact Hpf.
    + rewrite map_app, concat_app, app_length. cbn [map concat length].
      rewrite app_nil_r, El. replace (S no + 1 - 1)%nat with (S no) by lia. apply Hnext. reflexivity.
    + exists lst. destruct (rx_run cs1 L ps) as [cs2 outs]. cbn [snd] in *. auto.
Qed.

Lemma run_whole ps cs first : okctx cs -> Forall small (first :: ps) -> forkey k (first :: ps) = pkts ->
  h_key first = k ->
  (length pkts = 1%nat \/ exists n c, nth_error cs n = Some c /\ (c_src c = 0 \/ c_key c = k)) ->
  exists lst, outkey k (snd (rx_run cs L (first :: ps))) = [(lst, msg)] /\ h_to lst = to /\ h_key lst = k.
Proof.
  intros Hok Hps Hpf Hk Hslot. inversion Hps as [|? ? Hb Hps']; subst x l.
  unfold forkey in Hpf. cbn [filter] in Hpf. rewrite Hk, key_eqb_refl in Hpf.
  fold (forkey k ps) in Hpf. cbn [rx_run]. destruct (rx_pure cs L first) as [cs1 out] eqn:Hpure.
  pose proof (okctx_step _ _ _ _ Hok Hb Hpure) as Hok1.
  assert (nth_error pkts 0 = Some first) as Hnth by (rewrite <- Hpf; reflexivity).
  pose proof (packetised_no _ _ _ _ _ _ _ _ Htag Hpk _ _ Hnth) as Hno.
  assert (concat (map payload pkts) = msg) as Hmsg by (exact (proj1 Hpk)).
  destruct (forkey k ps) as [|nxt rest] eqn:Erest.
  - exists first. pose proof (run_other k cs1 ps Erest) as Hq. destruct (rx_run cs1 L ps) as [cs2 outs]. cbn [snd] in *.
    rewrite <- Hpf in Hno. cbn [length Nat.eqb] in Hno. destruct Hno as [_ Nto Nsom Neom _ _].
    revert Hpure. unfold rx_pure. rewrite p_flags_spec, Nsom, Neom.
    change (_ =? Z.lor FLAG_SOM FLAG_EOM) with true. cbv iota. intros Hpure. apply pair_equal_spec in Hpure.
    destruct Hpure as [_ <-]. unfold outkey in *. cbn [filter fst]. rewrite Hk, key_eqb_refl, Hq.
    split; [|auto]. do 2 f_equal. rewrite <- Hmsg, <- Hpf. cbn [map concat]. now rewrite app_nil_r.
  - assert (Nat.eqb 1 (length pkts) = false) as El by (rewrite <- Hpf; reflexivity).
    rewrite El in Hno. destruct (ok_ci _ Hok) as (log & Hci).
    destruct (step_first J HJ L HL HL64 src dest tag to mtu Hmtu _ _ first 0%nat Hci (ok_wf _ Hok) (ok_good _ Hok)
                Hno eq_refl (proj1 Hb)) as (cs' & Hpure' & Hho).
    { destruct Hslot as [Hs|Hs]; [|exact Hs]. exfalso. rewrite <- Hpf in Hs. discriminate. }
    rewrite Hpure in Hpure'. apply pair_equal_spec in Hpure'. destruct Hpure' as [<- ->].
    destruct (run_rest ps cs1 [first] (nxt :: rest) Hok1 Hps') as (lst & H1 & H2).
    + rewrite <- Hpf. reflexivity.
    + discriminate.
    + discriminate.
    + exact Erest.
    + destruct Hno as [_ _ _ _ Nq Nl]. cbn [map concat length]. rewrite app_nil_r, <- Nl. cbn [Nat.sub].
      rewrite <- Nq. exact Hho.
    + exists lst. destruct (rx_run cs1 L ps) as [cs2 outs]. cbn [snd] in *. auto.
Qed.
End Pure.

(** ** One step of a serial history *)

Lemma rx_rel_id {ap} (w : world) i id bs t w' : rx_rel Strict ap w i id bs t w' ->
  exists b t1, t = EvBusRx i (busrx_local w b) id bs :: t1 ++ [EvFree id] /\
    forall id', rx_rel Strict ap w i id' bs (EvBusRx i (busrx_local w b) id' bs :: t1 ++ [EvFree id']) w'.
Proof.
  destruct 1 as [b Hb Hl|b t w' Hb Hl Hr].
  - exists b, []. split; [reflexivity|]. intros id'. now apply RxShort.
  - exists b, (capev w false bs ++ t). split; [now rewrite <- app_assoc|]. intros id'. rewrite <- app_assoc.
    now apply RxPkt.
Qed.

Lemma deliveries_tail t a b : deliveries (t ++ [EvFree a]) = deliveries (t ++ [EvFree b]).
Proof.
  induction t as [|e t IH]; [reflexivity|]. cbn [Datatypes.app deliveries]. destruct e; try exact IH.
  rewrite IH. f_equal. f_equal. destruct t as [|e t]; [reflexivity|]. reflexivity.
Qed.

Lemma rx_log_none t : (forall j lo n bs, ~ In (EvBusRx j lo n bs) t) -> rx_log t = [].
Proof.
  unfold rx_log. induction t as [|e t IH]; intros Hn; [reflexivity|]. cbn [flat_map].
  rewrite IH by (intros j lo n bs Hin; apply (Hn j lo n bs); right; exact Hin).
  destruct e; try reflexivity. exfalso. eapply Hn. left. reflexivity.
Qed.

(** The world before the buffer identity in hand was chosen. *)
Definition prevw (w : world) : world := set_m w (set_next (w_m w) (m_next (w_m w) - 1)).
Lemma next_prev (w : world) : set_m (prevw w) (set_next (w_m (prevw w)) (m_next (w_m (prevw w)) + 1)) = w.
Proof.
  destruct w as [mm x y], mm. unfold prevw, set_m, set_next. cbn -[Z.add Z.sub]. rewrite Z.sub_add. reflexivity.
Qed.

Definition deliver (m : mode) (w : world) (o : list Z * list Z) : delivery :=
  let '(bs, msg) := o in mkDel (h_src bs) (h_dest bs) (h_to bs) (h_tag bs) msg (cb_of m w false bs msg).

Record meff (m : mode) (w : world) (t : list event) (w' : world) : Prop := mkMeff {
  me_ctxs : m_ctxs (w_m w') = fst (rx_run (m_ctxs (w_m w)) (m_max (w_m w)) (rx_log t));
  me_del : deliveries t = map (deliver m w) (snd (rx_run (m_ctxs (w_m w)) (m_max (w_m w)) (rx_log t)));
  me_ends : ~ ends_msg t;
  me_ctrl : forall j, bd_ctrl (bnd w' j) = bd_ctrl (bnd w j) }.

Definition mconst (o : mop) : Prop :=
  match o with MOp (OpSetMax _) | MOp (OpSetRx _) => False | _ => True end.

Lemma rx_eff {ap} m (w : world) i id bs p t w' : WF Strict w -> mode_ok m w -> mode_bus m i -> pktbuf_bytes p = Some bs ->
  rx_rel Strict ap w i id bs t w' ->
  meff m w t w' /\ m_max (w_m w') = m_max (w_m w) /\ m_rx (w_m w') = m_rx (w_m w) /\
  rx_log t = (if taken (mode_local m) bs then [bs] else []).
Proof.
  intros Hw Hm Hi Hp Hr.
  pose proof (rx_rel_steps _ _ _ _ _ _ Hr) as (cs0 & b0 & t0 & Hst0 & _ & Et0).
  destruct (rx_rel_id _ _ _ _ _ _ Hr) as (b & t1 & -> & Hid).
  assert (t0 = t1) as ->.
  { injection Et0 as _ Et. apply app_inj_tail in Et. symmetry. exact (proj1 Et). }
  set (n := m_next (w_m (prevw w))).
  assert (op_rel (prevw w) (OpRx i p) (EvAlloc n :: EvBusRx i (busrx_local w b) n bs :: t1 ++ [EvFree n]) w') as Ho.
  { eapply ORRx; [exact Hp|]. rewrite next_prev. apply Hid. }
  assert (WF Strict (prevw w)) as Hwp by (destruct Hw; constructor; assumption).
  assert (mode_ok m (prevw w)) as Hmp by exact Hm.
  destruct (rx_cases _ _ _ _ _ _ _ Hwp Hmp Hp Ho) as (t2 & Et2 & _).
  assert (busrx_local w b = mode_local m) as Elo by congruence. rewrite Elo in *. clear Et2 t2.
  destruct (op_effect (fun _ => []) _ _ _ _ _ Hwp Hmp Ho) as (He & _ & Hmx).
  destruct (op_rx_flag _ _ _ _ Hwp Ho) as [Hrx Hct].
  assert (rx_log (EvBusRx i (mode_local m) id bs :: t1 ++ [EvFree id]) = if taken (mode_local m) bs then [bs] else []) as El.
  { change (EvBusRx i (mode_local m) id bs :: t1 ++ [EvFree id])
      with ([EvBusRx i (mode_local m) id bs] ++ t1 ++ [EvFree id]).
    rewrite !rx_log_app, (rx_log_none t1) by (eapply steps_no_busrx; exact Hst0).
    cbn. now rewrite !app_nil_r. }
  assert (deliveries (EvAlloc n :: EvBusRx i (mode_local m) n bs :: t1 ++ [EvFree n])
          = deliveries (EvBusRx i (mode_local m) id bs :: t1 ++ [EvFree id])) as Ed.
  { cbn [deliveries]. apply deliveries_tail. }
  assert (forall msg, cb_of m w i bs msg = cb_of m w false bs msg) as Ecb.
  { intros msg. unfold mode_bus in Hi. destruct i; [rewrite (Hi eq_refl)|]; reflexivity. }
  split; [|auto]. rewrite Ed in He. constructor; rewrite ?El.
  - destruct (op_eff_inv _ _ _ _ _ He) as [(_ & E & H0)|(i' & p' & bs' & out & E1 & Hp' & Ht & Hpure & _)].
    + rewrite (H0 i p bs eq_refl Hp). exact E.
    + injection E1 as <- <-. unfold pkt_is in Hp'. rewrite Hp in Hp'. injection Hp' as <-. rewrite Ht. cbn [rx_run].
      change (m_ctxs (w_m (prevw w))) with (m_ctxs (w_m w)) in Hpure.
      change (m_max (w_m (prevw w))) with (m_max (w_m w)) in Hpure. rewrite Hpure. reflexivity.
  - destruct (op_eff_inv _ _ _ _ _ He) as [(E & _ & H0)|(i' & p' & bs' & out & E1 & Hp' & Ht & Hpure & E)].
    + rewrite (H0 i p bs eq_refl Hp), E. reflexivity.
    + injection E1 as <- <-. unfold pkt_is in Hp'. rewrite Hp in Hp'. injection Hp' as <-. rewrite Ht, E. cbn [rx_run].
      change (m_ctxs (w_m (prevw w))) with (m_ctxs (w_m w)) in Hpure.
      change (m_max (w_m (prevw w))) with (m_max (w_m w)) in Hpure. rewrite Hpure.
      destruct out as [[[s d] msg]|]; [|reflexivity]. cbn. do 2 f_equal. apply (Ecb msg).
  - apply (free_not_ends (EvBusRx i (mode_local m) id bs :: t1) id).
  - intros j. rewrite Hct. destruct j; reflexivity.
Qed.

Lemma mrel_eff m (w : world) o t w' : SI m w -> mtraffic m o -> mrel w o t w' ->
  meff m w t w' /\
  m_max (w_m w') = match o with MOp (OpSetMax n) => n | _ => m_max (w_m w) end /\
  (mconst o -> m_rx (w_m w') = m_rx (w_m w)) /\
  (forall bs, In bs (rx_log t) -> small bs /\ exists i c, o = MByte i c).
Proof.
  intros [Hw Hm Hd Hs] Ht Hr. destruct Hr as [o t w' Hr Hpr|i c t w' Hr].
  - assert (forall i p, o <> OpRx i p) as Ho by (intros i p ->; exact Ht).
    destruct (op_other _ _ _ _ Hr Ho) as (Hc & Hq & Hmx). destruct (op_rx_flag _ _ _ _ Hw Hr) as [Hrx Hct].
    rewrite (rx_log_quiet _ Hq). split; [|split; [exact Hmx|split]].
    + constructor; rewrite ?(rx_log_quiet _ Hq); cbn [rx_run fst snd map]; auto.
      * rewrite <- (app_nil_r t), deliveries_quiet by exact Hq. reflexivity.
      * now apply quiet_not_ends.
    + destruct o; try tauto; contradiction.
    + contradiction.
  - destruct Ht as [Hi _].
    destruct Hr as [s' s S1 S2 S3 S4|s' s S1 S2 S3 S4 S5|p bs ap t w1 s' s Ep Hpk Hr Hsp S1 S2 S3 S4].
    + split; [|split; [destruct i; reflexivity|split; [destruct i; reflexivity|contradiction]]].
      constructor; cbn; try (destruct i; reflexivity).
      * intros (x & ?). destruct H as (? & ? & ? & ? & ? & ? & E). destruct x; discriminate.
      * intros j. unfold put_ser. destruct i, j; reflexivity.
    + split; [|split; [destruct i; reflexivity|split; [destruct i; reflexivity|contradiction]]].
      constructor; cbn; try (destruct i; reflexivity).
      * intros (x & ?). destruct H as (? & ? & ? & ? & ? & ? & E). destruct x as [|? [|]]; discriminate.
      * intros j. unfold put_ser. destruct i, j; reflexivity.
    + destruct (rx_eff m w i (pk_id p) bs p t w1 Hw Hm Hi (po_bytes _ _ Hpk) Hr) as ([E1 E2 E3 E4] & E5 & E6 & E7).
      assert (w_m (put_ser w1 i s') = w_m w1) as Ew by (destruct i; reflexivity).
      split; [constructor|]; rewrite ?Ew; auto.
      * intros j. rewrite <- E4. unfold put_ser. destruct i, j; reflexivity.
      * split; [exact E5|]. split; [auto|]. intros x Hx. rewrite E7 in Hx.
        destruct (taken (mode_local m) bs) eqn:Etk; [|contradiction]. destruct Hx as [<-|[]].
        split; [|eauto]. unfold small, taken in *. apply andb_true_iff in Etk.
        pose proof (pkt_ok_end _ _ Hpk). destruct (po_wf _ _ Hpk). pose proof (po_size _ _ Hpk). lia.
Qed.

(** A stretch without configuration changes. *)
Lemma mhist_eff m (w : world) l t w' : mhist m w l t w' -> Forall mconst l ->
  meff m w t w' /\ m_max (w_m w') = m_max (w_m w) /\ m_rx (w_m w') = m_rx (w_m w) /\
  Forall small (rx_log t).
Proof.
  induction 1 as [w|w o t1 w1 l t2 w2 Hw Ho Hr Hw1 Hh IH]; intros Hc.
  - split; [|split; [reflexivity|split; [reflexivity|constructor]]]. constructor; try reflexivity.
    intros (x & ?). destruct H as (? & ? & ? & ? & ? & ? & E). destruct x; discriminate.
  - inversion Hc as [|? ? Hc1 Hc2]; subst. destruct (IH Hc2) as ([I1 I2 I3 I4] & I5 & I6 & I7).
    destruct (mrel_eff _ _ _ _ _ Hw Ho Hr) as ([E1 E2 E3 E4] & E5 & E6 & E7).
    assert (m_max (w_m w1) = m_max (w_m w)) as E5' by (destruct o as [[]|]; try exact E5; contradiction).
    specialize (E6 Hc1). rewrite E5' in *.
    split; [|split; [congruence|split; [congruence|]]].
    + constructor; rewrite ?rx_log_app, ?rx_run_app; cbn [fst snd].
      * rewrite I1, E1. reflexivity.
      * rewrite deliveries_app by exact E3. rewrite map_app, E2, I2, E1. f_equal.
        apply map_ext. intros [bs msg]. cbn. f_equal. unfold cb_of. destruct m; [|reflexivity].
        unfold local_event. rewrite E4, E6. reflexivity.
      * intros (x & i & sr & d & to & tag & msg & E).
        destruct t2 as [|e t2] using rev_ind; [rewrite app_nil_r in E; apply E3; do 7 eexists; exact E|].
        rewrite app_assoc in E. apply app_inj_tail in E. destruct E as [_ ->]. apply I3. do 7 eexists. reflexivity.
      * intros j. now rewrite I4, E4.
    + rewrite rx_log_app. apply Forall_app. split; [|exact I7]. apply Forall_forall. intros bs Hb. exact (proj1 (E7 bs Hb)).
Qed.

(** ** The sender *)
Lemma writes_ok_app a b : writes_ok (a ++ b) <-> writes_ok a /\ writes_ok b.
Proof. apply Forall_app. Qed.

Section Send.
Context (fuel : nat) (a : assm) (Hst : may_stall a = false) (Ha : may_oom a = false) (Hfuel : (256 <= fuel)%nat).

Lemma wp_write_sent n : forall bs g (Q : Z -> list event -> Prop), (length bs <= n)%nat ->
  (forall rc io, Forall io_ev io -> (writes_ok io -> rc = 0 /\ sent io = bs) -> Q rc (g ++ io)) ->
  wp (adv a) (write_all n bs) g Q.
Proof.
  induction n as [|n IH]; intros bs g Q Hn HQ.
  - destruct bs; [|cbn in Hn; lia]. cbn [write_all wp]. specialize (HQ 0 []). rewrite app_nil_r in HQ.
    apply HQ; [constructor|]. auto.
  - destruct bs as [|c bs]; cbn [write_all wp].
    + specialize (HQ 0 []). rewrite app_nil_r in HQ. apply HQ; [constructor|]. auto.
    + cbn [h_swrite adv]. intros r Hr Hns. destruct (r <? 0) eqn:E.
      * cbn [wp]. apply HQ; [constructor; [exact I|constructor]|]. intros H. inversion H; subst. lia.
      * apply IH.
        { specialize (Hns Hst ltac:(discriminate)). rewrite skipn_length. lia. }
        intros rc io Hio Hok. rewrite <- app_assoc. apply HQ; [constructor; [exact I|exact Hio]|].
        cbn [Datatypes.app]. intros Hw. inversion Hw as [|? ? Hw1 Hw2]; subst. destruct (Hok Hw2) as [-> Hs].
        split; [reflexivity|]. unfold sent in *. cbn [flat_map]. rewrite Hs. apply firstn_skipn.
Qed.

Definition pkt_of (p : pktbuf) (body : list Z) : Prop := wf_pkt p /\ pktbuf_bytes p = Some body /\ zlen body <= 68.

Lemma sent_cap (w : world) out bs : sent (capev w out bs) = [].
Proof. unfold capev. destruct (m_cap (w_m w)); reflexivity. Qed.

Lemma wp_ser_send i : forall q bodies n (w : world) g b, bget w i = Some b -> bus_st b = TxEnabled -> bus_q b = q ->
  (length q <= n)%nat -> Forall2 pkt_of q bodies ->
  wp (adv a) (send_loop (serial_tx fuel) n w i) g
     (fun w' g' => exists t, g' = g ++ t /\ (writes_ok t -> sent t = flat_map wire bodies /\
        exists b', bget w' i = Some b' /\ bus_st b' = TxEnabled /\ bus_q b' = [])).
Proof.
  induction q as [|p q IH]; intros bodies n w g b Hb Hs Hq Hn Hall; inversion Hall as [|? body ? bodies' Hp Hall']; subst.
  - destruct n; cbn [send_loop]; (eapply get_bus_bget; [exact Hb|]); rewrite Hq; cbn [wp]; exists [];
      rewrite app_nil_r; (split; [reflexivity|]); intros _; (split; [reflexivity|]); eauto.
  - destruct n; [cbn in Hn; lia|]. cbn [send_loop]. eapply get_bus_bget; [exact Hb|]. rewrite Hq.
    apply wp_bind; [apply adv_mono|]. unfold packet_tx. eapply get_bus_bget; [exact Hb|]. rewrite Hs.
    destruct Hp as (Hw & Hby & Hl). eapply wp_deref_bind; [exact Hby|].
    assert (forall (A : Type) (k : prog A) (Q : A -> list event -> Prop), wp (adv a) k (g ++ capev w true body) Q ->
       wp (adv a) (bind (if m_cap (w_m w) then Emit (EvCapture true body) (Ret tt) else Ret tt) (fun _ => k)) g Q) as Hcap.
    { intros A k Q Hk. unfold capev in Hk. destruct (m_cap (w_m w)); cbn [bind wp h_emit adv]; [exact Hk|].
      rewrite app_nil_r in Hk. exact Hk. }
    apply Hcap. cbn [wp h_emit adv]. apply wp_bind; [apply adv_mono|].
    rewrite (serial_tx_wire fuel _ p body Hw Hby Hl).
    apply wp_bind; [apply adv_mono|]. apply wp_write_sent.
    { pose proof (wire_zlen body Hl). unfold zlen in *. lia. }
    intros rc io Hio Hok. cbn [wp bind]. cbv beta. cbn [wp bind h_emit adv].
    set (w1 := set_bnd w i (set_priv (bnd w i) (bd_priv (bnd w i)))).
    assert (bget w1 i = Some b) as Hb1 by (unfold w1; rewrite bget_set_bnd; exact Hb).
    eapply get_bus_bget; [exact Hb1|].
    destruct ((rc =? 0) || (rc =? - EMSGSIZE)) eqn:Ef.
    + unfold pktbuf_free. cbn [bind wp h_emit adv].
      eapply wp_mono; [apply adv_mono| |apply (IH bodies' n _ _ (set_q b q))].
      2:{ rewrite (bget_set_bus _ _ _ _ _ _ Hb1), Bool.eqb_reflx. reflexivity. }
      2:{ exact Hs. } 2:{ reflexivity. } 2:{ cbn in Hn. lia. } 2:{ exact Hall'. }
      intros w' g' (t & -> & Ht). eexists. rewrite <- !app_assoc. split; [reflexivity|].
      intros Hk. rewrite !writes_ok_app in Hk. destruct Hk as (_ & _ & Hk1 & _ & _ & Hk2).
      destruct (Hok Hk1) as [_ E]. destruct (Ht Hk2) as [Ht1 Ht2]. rewrite !sent_app, sent_cap, E, Ht1. split; [reflexivity|exact Ht2].
    + cbn [wp]. eexists. rewrite <- !app_assoc. split; [reflexivity|].
      intros Hk. rewrite !writes_ok_app in Hk. destruct Hk as (_ & _ & Hk1 & _).
      destruct (Hok Hk1) as [-> _]. discriminate.
Qed.

Lemma enqs_queue i (w : world) l t w' b : enqs Strict i w l t w' -> bget w i = Some b ->
  exists b' q, bget w' i = Some b' /\ bus_st b' = bus_st b /\ bus_q b' = bus_q b ++ q /\
    Forall2 (fun p bs => wf_pkt p /\ pktbuf_bytes p = Some bs) q l /\ sent t = [].
Proof.
  intros He. revert b. induction He as [w|w bs t1 w1 l t2 w2 H1 H2 IH]; intros b Hb.
  - exists b, []. rewrite app_nil_r. auto 10.
  - destruct H1 as [b0 p Hb0 Hs0 Hid Hby Hq].
    assert (bget (set_m w (set_next (w_m w) (m_next (w_m w) + 1))) i = Some b0) as Hb' by exact Hb0.
    rewrite Hb in Hb0. injection Hb0 as <-.
    destruct (IH (set_q b (bus_q b ++ [p]))) as (b' & q & E1 & E2 & E3 & E4 & E5).
    { rewrite (bget_set_bus _ _ _ _ _ _ Hb'), Bool.eqb_reflx. reflexivity. }
    exists b', (p :: q). cbn in E2, E3. rewrite <- app_assoc in E3. split; [exact E1|]. split; [exact E2|].
    split; [exact E3|]. split; [constructor; [split; [exact (proj1 Hq)|exact Hby]|exact E4]|].
    rewrite sent_app, E5. reflexivity.
Qed.

Lemma wp_ser_message (w : world) eid to tag msg src : WF Strict w -> mode_ok (Endpoint src) w ->
  (forall i, ser_dims (bnd w i)) -> bus_state_of w false = Some TxEnabled -> queued w false = [] -> 0 <= tag <= 7 ->
  wp (adv a) (message_tx (serial_tx fuel) w eid to tag msg) [] (fun x g =>
    exists pkts, packetised (bd_version (bnd w false)) src eid to tag 64 msg pkts /\
      (writes_ok g -> sent g = flat_map wire pkts /\ snd x = 0 /\
         exists b', bget (fst x) false = Some b' /\ bus_st b' = TxEnabled /\ bus_q b' = [])).
Proof.
  intros Hw Hm Hd Hs Hqu Htag. unfold message_tx.
  assert (Z.land tag 7 = tag) as Et by (rewrite PropMsg.tag_range; lia).
  rewrite Et, Z.eqb_refl. cbn [negb].
  replace (m_nb (w_m w) =? 0) with false by (rewrite (wf_nb _ _ Hw); destruct (m_policy (w_m w)); reflexivity).
  destruct (bget w false) as [b|] eqn:Hb; [|exfalso; exact (wf_b0 _ _ Hw Hb)].
  eapply get_bus_bget; [exact Hb|].
  assert (bus_eid b = src) as ->.
  { destruct Hm as [_ Hm]. rewrite Hb in Hm. cbn in Hm. congruence. }
  unfold message_tx_on_bus. eapply get_bus_bget; [exact Hb|].
  rewrite bus_state_ost in Hs. unfold ost in Hs. rewrite Hb in Hs. injection Hs as Hs. rewrite Hs, Et, Z.eqb_refl.
  cbn [negb]. cbn zeta.
  assert (MCTP_BODY_SIZE (bd_pkt_size (bnd w false)) = 64) as Emtu.
  { destruct (Hd false) as (-> & _). reflexivity. }
  rewrite Emtu. apply wp_assert_bind; [reflexivity|].
  eapply wp_call; [apply adv_mono| |].
  { eapply (wp_packetise (adv a) (adv_mono a) id Strict (fun _ _ _ _ _ => True)).
    - intros e w0 g0 Q _ _ HQ. apply HQ; [exact I|reflexivity].
    - intros w0 g0 Q _ HQ. split; [apply HQ; [exact I|reflexivity]|]. rewrite Ha. discriminate.
    - exact Hw.
    - exact I.
    - exact Hb.
    - rewrite Hs. discriminate.
    - reflexivity.
    - unfold mtu_of. rewrite Emtu. reflexivity.
    - lia. }
  intros w1 g1 (t1 & E1 & Henq & _). unfold id in E1. cbn in E1. subst g1.
  destruct (enqs_queue _ _ _ _ _ _ Henq Hb) as (b1 & q & Hb1 & Hs1 & Hq1 & Hall & Hsent).
  assert (bus_q b = []) as Eq0.
  { rewrite queued_bget, Hb in Hqu. apply map_eq_nil in Hqu. exact Hqu. }
  rewrite Eq0 in Hq1. cbn in Hq1.
  set (pkts := frags (length msg) (bd_version (bnd w false)) src eid to tag 64 0 msg) in *.
  assert (packetised (bd_version (bnd w false)) src eid to tag 64 msg pkts) as Hpk.
  { apply frags_packetised; lia. }
  assert (Forall (fun bs => zlen bs <= 68) pkts) as Hlen.
  { apply Forall_forall. intros bs Hin. apply In_nth_error in Hin. destruct Hin as (k & Hk).
    pose proof (packetised_no _ _ _ _ _ _ _ _ Htag Hpk k bs Hk) as [_ _ _ _ _ Hl].
    destruct (Nat.eqb (S k) (length pkts)); lia. }
  eapply wp_call; [apply adv_mono| |].
  { unfold send_tx_queue. eapply get_bus_bget; [exact Hb1|].
    eapply (wp_ser_send false q pkts _ w1 t1 b1); [exact Hb1|congruence|exact Hq1|rewrite Hq1; lia|].
    clear - Hall Hlen. induction Hall as [|p bs q l [H1 H2] Hall IH]; [constructor|].
    inversion Hlen; subst. constructor; [split; auto|]. now apply IH. }
  intros w2 g2 (t2 & -> & Ht2). cbn [wp]. exists pkts. split; [exact Hpk|].
  intros Hk. rewrite writes_ok_app in Hk. destruct (Ht2 (proj2 Hk)) as [Ht3 Ht4]. rewrite sent_app, Hsent, Ht3.
  split; [reflexivity|]. split; [reflexivity|exact Ht4].
Qed.
End Send.

(** ** The receiver *)
Fixpoint mlimited (L cur : Z) (l : list mop) : Prop :=
  match l with
  | [] => True
  | MOp (OpSetMax n) :: t => mlimited L n t
  | MByte _ _ :: t => cur = L /\ mlimited L cur t
  | _ :: t => mlimited L cur t
  end.

Lemma mlimited_micro L : forall l cur, ser_limited L cur l -> mlimited L cur (micro l).
Proof.
  induction l as [|o l IH]; intros cur Hl; [exact I|]. destruct o as [o|i bs].
  - cbn [micro flat_map Datatypes.app]. destruct o; cbn [ser_limited mlimited] in *; apply IH; exact Hl.
  - cbn [micro flat_map]. cbn [ser_limited] in Hl. destruct Hl as [-> Hl].
    induction bs as [|c bs IHb]; [apply IH; exact Hl|]. cbn [map Datatypes.app mlimited]. auto.
Qed.
Lemma micro_app a b : micro (a ++ b) = micro a ++ micro b.
Proof. apply flat_map_app. Qed.
Lemma mconst_micro l : ser_no_config l -> Forall mconst (micro l).
Proof.
  induction 1 as [|o l Ho Hl IH]; [constructor|]. cbn [micro flat_map]. apply Forall_app. split; [|exact IH].
  destruct o as [o|i bs]; [constructor; [exact Ho|constructor]|]. apply Forall_forall. intros x Hx.
  apply in_map_iff in Hx. destruct Hx as (c & <- & _). exact I.
Qed.

Section Receive.
Context (fuel : nat) (app : event -> list txreq) (Hfuel : (256 <= fuel)%nat).
Context (J : Z) (HJ : 0 <= J) (L : Z) (HL : L = 4096 * 2 ^ J) (HL64 : L < 2 ^ 64).

Lemma mhist_ok m (w : world) l t w' : mhist m w l t w' -> okctx J (m_ctxs (w_m w)) ->
  forall l', mlimited L (m_max (w_m w)) (l ++ l') ->
  okctx J (m_ctxs (w_m w')) /\ mlimited L (m_max (w_m w')) l' /\
  forall j, bd_ctrl (bnd w' j) = bd_ctrl (bnd w j).
Proof.
  induction 1 as [w|w o t1 w1 l t2 w2 Hw Ho Hr Hw1 Hh IH]; intros Hok l' Hl; [auto|].
  destruct (mrel_eff _ _ _ _ _ Hw Ho Hr) as ([E1 E2 E3 E4] & E5 & E6 & E7).
  assert (okctx J (m_ctxs (w_m w1))) as Hok1.
  { rewrite E1. destruct (rx_log t1) as [|bs0 r0] eqn:El; [exact Hok|].
    destruct (E7 bs0 (or_introl eq_refl)) as (_ & i & c & ->). cbn [mlimited Datatypes.app] in Hl.
    rewrite (proj1 Hl). apply (okctx_run J HJ L HL HL64); [exact Hok|]. apply Forall_forall. intros bs Hb. exact (proj1 (E7 bs Hb)). }
  destruct (IH Hok1 l') as (I1 & I2 & I3).
  { rewrite E5. destruct o as [[]|]; cbn [mlimited Datatypes.app] in Hl; tauto. }
  split; [exact I1|]. split; [exact I2|]. intros j. now rewrite I3, E4.
Qed.

Lemma mhist_log eid (w : world) l t w' : mhist (Endpoint eid) w l t w' ->
  rx_log t = filter (taken (Some eid)) (handed false t).
Proof.
  induction 1 as [w|w o t1 w1 l t2 w2 Hw Ho Hr Hw1 Hh IH]; [reflexivity|].
  rewrite rx_log_app, handed_app, filter_app, IH. f_equal. clear IH Hh.
  destruct Hr as [o t w' Hr Hpr|i c t w' Hr].
  - rewrite (op_handed _ _ _ _ _ false Hr Ho). cbn.
    assert (forall i p, o <> OpRx i p) as Hno by (intros i p ->; exact Ho).
    destruct (op_other _ _ _ _ Hr Hno) as (_ & Hq & _). now apply rx_log_quiet.
  - destruct Ho as [Hi _]. assert (i = false) as -> by (destruct i; [specialize (Hi eq_refl); discriminate|reflexivity]).
    destruct Hr as [s' s S1 S2 S3 S4|s' s S1 S2 S3 S4 S5|p bs ap t w2' s' s Ep Hpk Hr Hsp S1 S2 S3 S4]; try reflexivity.
    rewrite (rx_handed _ _ _ _ _ _ false Hr). cbn [Bool.eqb filter].
    exact (proj2 (proj2 (proj2 (rx_eff _ w false (pk_id p) bs p t w2' (si_wf _ _ Hw) (si_mode _ _ Hw) Hi (po_bytes _ _ Hpk) Hr)))).
Qed.

(** A serial endpoint that is idle and has room delivers a message whose packets
    arrive framed, in any chunks, anything else in between; exactly once. *)
Theorem C28_receive eid ver src dest to tag mtu msg pkts w tr l first others :
  mtu <= 4096 -> zlen msg <= L -> packetised ver src dest to tag mtu msg pkts -> 0 <= tag <= 7 -> src <> 0 ->
  ser_reaches_by (fun past => ser_limited L 65536 (past ++ l)) fuel app (Endpoint eid) w tr ->
  idle w false -> m_rx (w_m w) = true ->
  Forall (ser_traffic (Endpoint eid)) l -> ser_no_config l ->
  clean (fed false l) (first :: others) -> nth_error pkts 0 = Some first ->
  filter (fun bs => taken (Some eid) bs && key_eqb (h_key bs) (src, dest, tag)) (first :: others) = pkts ->
  (length pkts = 1%nat \/ room w (src, dest, tag)) ->
  always no_oom (sexec fuel app w l) (fun w' t =>
    deliveries_for (src, dest, tag) t = [mkDel src dest to tag msg (Some (EvRx src to tag msg))] /\
    (others = tl pkts -> deliveries t = [mkDel src dest to tag msg (Some (EvRx src to tag msg))])).
Proof.
  intros Hmtu Hsz Hpk Htag Hsrc (past & e & n0 & Hlp & Hlim & He & Hrun) Hid Hrx Hl Hcf Hcl Hfst Hf Hroom.
  set (m := Endpoint eid) in *. set (k := (src, dest, tag)) in *.
  assert (ser_reaches fuel app m w tr) as Hr by (exists past, e, n0; auto).
  pose proof (ser_history_spec fuel app m Hfuel past Hlp e He) as Hh0. rewrite Hrun in Hh0.
  destruct Hh0 as (tp & _ & Hh0 & HSI).
  pose proof (mlimited_micro L _ _ Hlim) as Hml. rewrite micro_app in Hml.
  destruct (mhist_ok _ _ _ _ _ Hh0) with (l' := micro l) as (Hok & Hml' & Hct).
  { constructor.
    - exists []. destruct m; apply CI_fresh.
    - destruct m; repeat constructor; cbn; lia.
    - destruct m; repeat constructor; left; reflexivity. }
  { destruct m; exact Hml. }
  assert (forall j, bd_ctrl (bnd w j) = false) as Hct0.
  { intros j. rewrite Hct. destruct m, j; reflexivity. }
  assert (m_max (w_m w) = L) as Hmax.
  { assert (micro l <> []) as Hne.
    { intros E0. assert (fed false l = []) as Ef by (rewrite <- mfed_micro, E0; reflexivity).
      rewrite Ef in Hcl. inversion Hcl as [|gap kk f body rest ps Hgap Hfr Hc2 Eg]; subst.
      destruct Hfr as (raw & hi & lo & -> & _). destruct gap; [|discriminate]. destruct kk; discriminate. }
    assert (forall ml, Forall mconst ml -> mfed false ml <> [] -> mlimited L (m_max (w_m w)) ml -> m_max (w_m w) = L) as Hgen.
    { induction ml as [|o ml IHm]; intros Hc Hnf Hm; [contradiction|]. inversion Hc as [|? ? Hc1 Hc2]; subst.
      destruct o as [[]|]; cbn [mlimited] in Hm; try (apply IHm; [exact Hc2|exact Hnf|exact Hm]); try contradiction.
      exact (proj1 Hm). }
    apply (Hgen (micro l)); [now apply mconst_micro| |exact Hml'].
    rewrite mfed_micro. intros Ef. rewrite Ef in Hcl.
    inversion Hcl as [|gap kk f body rest ps Hgap Hfr Hc2 Eg]; subst.
    destruct Hfr as (raw & hi & lo & -> & _). destruct gap; [|discriminate]. destruct kk; discriminate. }
  intros e' He'. pose proof (C22_framing fuel app m Hfuel w tr l false (first :: others) Hr Hid Hl Hcl e' He') as Hha.
  pose proof (ser_continue fuel app m Hfuel w tr l Hr Hl e' He') as Hco.
  destruct (run e' 0 [] (sexec fuel app w l)) as [w' n' t|]; [|exact Hco].
  destruct Hha as [Hha _]. destruct Hco as [Hh _].
  destruct (mhist_eff _ _ _ _ _ Hh (mconst_micro _ Hcf)) as ([E1 E2 E3 E4] & E5 & E6 & E7).
  pose proof (mhist_log _ _ _ _ _ Hh) as Elog. rewrite Hha in Elog.
  assert (taken (Some eid) first = true /\ h_key first = k) as [Htk Hky].
  { assert (In first pkts) as Hin by (eapply nth_error_In; exact Hfst). rewrite <- Hf in Hin.
    apply filter_In in Hin. destruct Hin as [_ Hin]. apply andb_true_iff in Hin. destruct Hin as [H1 H2].
    apply key_eqb_spec in H2. auto. }
  assert (forkey k (rx_log t) = pkts) as Hfk.
  { rewrite Elog, <- Hf. unfold forkey. clear. induction (first :: others) as [|x r IH]; [reflexivity|].
    cbn [filter]. destruct (taken (Some eid) x); cbn [andb filter]; [|exact IH].
    destruct (key_eqb (h_key x) k); rewrite IH; reflexivity. }
  assert (rx_log t = first :: filter (taken (Some eid)) others) as Elog'.
  { rewrite Elog. cbn [filter]. rewrite Htk. reflexivity. }
  rewrite Elog' in Hfk, E7. rewrite Elog', Hmax in E2.
  destruct (run_whole J HJ L HL HL64 src dest tag Hsrc to mtu Hmtu ver msg pkts Hpk Htag Hsz
              (filter (taken (Some eid)) others) (m_ctxs (w_m w)) first Hok E7 Hfk Hky) as (lst & Ho & Hto & Hkl).
  { destruct Hroom as [?|[Hs|Hs]]; [left; assumption|right|right].
    - apply in_map_iff in Hs. destruct Hs as ((k0 & data) & E & Hin). cbn [fst] in E. subst k0.
      apply partials_in in Hin. destruct Hin as (n & c & Hn & _ & Hkey & _). exists n, c. auto.
    - destruct (few_partials (m_ctxs (w_m w))) as (n & c & Hn & Hc).
      + destruct (ok_ci _ _ Hok) as (log & Hci). rewrite (ci_len _ _ Hci). exact Hs.
      + exists n, c. auto. }
  assert (deliver m w (lst, msg) = mkDel src dest to tag msg (Some (EvRx src to tag msg))) as Ed.
  { unfold deliver. unfold h_key in Hkl. injection Hkl as K1 K2 K3. rewrite K1, K2, K3, Hto. f_equal.
    unfold cb_of, m, local_event. rewrite Hct0, andb_false_r, Hrx, K1, K3, Hto. reflexivity. }
  assert (deliveries_for k t = [mkDel src dest to tag msg (Some (EvRx src to tag msg))]) as Hdel.
  { unfold deliveries_for. rewrite E2, <- Ed. change [deliver m w (lst, msg)] with (map (deliver m w) [(lst, msg)]).
    rewrite <- Ho. unfold outkey. fold k. generalize (snd (rx_run (m_ctxs (w_m w)) L (first :: filter (taken (Some eid)) others))).
    clear. induction l as [|[bs ms] r IH]; [reflexivity|]. cbn [map filter deliver fst].
    unfold d_key at 1. cbn [d_src d_dest d_tag]. change (h_src bs, h_dest bs, h_tag bs) with (h_key bs).
    destruct (key_eqb (h_key bs) k); cbn [map]; rewrite IH; reflexivity. }
  split; [exact Hdel|]. intros Eo. rewrite <- Hdel. unfold deliveries_for. rewrite E2.
  assert (Forall (fun bs => key_eqb (h_key bs) k = true) (first :: filter (taken (Some eid)) others)) as Hall.
  { apply Forall_forall. intros x Hx.
    assert (In x pkts) as Hin.
    { destruct Hx as [<-|Hx]; [eapply nth_error_In; exact Hfst|]. apply filter_In in Hx. destruct Hx as [Hx _].
      rewrite Eo in Hx. destruct pkts; [contradiction|right; exact Hx]. }
    rewrite <- Hf in Hin. apply filter_In in Hin. destruct Hin as [_ Hin]. apply andb_true_iff in Hin. tauto. }
  revert Hall. generalize (first :: filter (taken (Some eid)) others) (m_ctxs (w_m w)). clear. intros ps cs Hall. revert cs.
  induction Hall as [|x r Hx Hr IH]; intros cs; [reflexivity|]. cbn [rx_run].
  destruct (rx_pure cs L x) as [cs1 out]. specialize (IH cs1). destruct (rx_run cs1 L r) as [cs2 outs]. cbn [snd] in *.
  destruct out as [[[? ?] ms]|]; [|exact IH]. cbn [map filter deliver]. unfold d_key at 1. cbn [d_src d_dest d_tag].
  change (h_src x, h_dest x, h_tag x) with (h_key x). rewrite Hx, <- IH. reflexivity.
Qed.
End Receive.

(** *** C28: sender and receiver together.  A message of 1 to [L] bytes sent by an idle
    serial endpoint [src] whose writes all succeed, its bytes fed to a serial endpoint
    in any chunks while anything else happens there: delivered exactly once, and
    nothing else is. *)
Theorem C28_end_to_end fuel appS appR J L src dest eid to tag msg ws trs e x n ts w tr l :
  (256 <= fuel)%nat -> 0 <= J -> L = 4096 * 2 ^ J -> L < 2 ^ 64 -> 1 <= zlen msg <= L ->
  ser_reaches fuel appS (Endpoint src) ws trs -> src <> 0 -> 0 <= tag <= 7 ->
  bus_state_of ws false = Some TxEnabled -> queued ws false = [] ->
  env_ok no_oom e -> run e 0 [] (message_tx (serial_tx fuel) ws dest to tag msg) = Done x n ts -> writes_ok ts ->
  for_us (Some eid) dest = true ->
  ser_reaches_by (fun past => ser_limited L 65536 (past ++ l)) fuel appR (Endpoint eid) w tr ->
  idle w false -> m_rx (w_m w) = true -> room w (src, dest, tag) ->
  Forall (ser_traffic (Endpoint eid)) l -> ser_no_config l -> fed false l = sent ts ->
  always no_oom (sexec fuel appR w l) (fun w' t =>
    deliveries t = [mkDel src dest to tag msg (Some (EvRx src to tag msg))]).
Proof.
  intros Hfuel HJ HL HL64 Hsz Hs Hsrc Htag Hst Hq He Hrun Hwr Hus Hr Hid Hrx Hroom Hl Hcf Hfed.
  destruct (ser_reaches_spec fuel appS (Endpoint src) Hfuel ws trs Hs) as [HSI _].
  assert (always no_oom (message_tx (serial_tx fuel) ws dest to tag msg) (fun x g =>
    exists pkts, packetised (bd_version (bnd ws false)) src dest to tag 64 msg pkts /\
      (writes_ok g -> sent g = flat_map wire pkts))) as Hm.
  { apply adv_always. eapply wp_mono; [apply adv_mono| |
      apply (wp_ser_message fuel no_oom eq_refl eq_refl Hfuel ws dest to tag msg src); auto].
    - intros y g (pk & H1 & H2). exists pk. split; [exact H1|]. intros H3. exact (proj1 (H2 H3)).
    - exact (si_wf _ _ HSI).
    - exact (si_mode _ _ HSI).
    - exact (si_dims _ _ HSI). }
  specialize (Hm e He). rewrite Hrun in Hm. destruct Hm as (pkts & Hpk & Hsent). specialize (Hsent Hwr).
  assert (forall k p, nth_error pkts k = Some p ->
            4 < zlen p <= 68 /\ taken (Some eid) p = true /\ h_key p = (src, dest, tag)) as Hall.
  { intros k p Hk. pose proof (packetised_no _ _ _ _ _ _ _ _ Htag Hpk k p Hk) as [N1 _ _ _ _ N2].
    assert (4 < zlen p <= 68) as Hz by (destruct (Nat.eqb (S k) (length pkts)); lia).
    split; [exact Hz|]. split; [|exact N1]. unfold taken. replace (4 <? zlen p) with true by lia.
    unfold h_key in N1. injection N1 as _ -> _. exact Hus. }
  assert (Forall (fun p => 4 < zlen p <= 68 /\ taken (Some eid) p = true /\ h_key p = (src, dest, tag)) pkts) as Hfa.
  { apply Forall_forall. intros p Hp. apply In_nth_error in Hp. destruct Hp as (k & Hk). eauto. }
  destruct pkts as [|first others].
  { exfalso. destruct Hpk as [Hc _]. cbn in Hc. subst msg. cbn in Hsz. lia. }
  assert (clean (fed false l) (first :: others)) as Hcl.
  { rewrite Hfed, Hsent. apply clean_wires. eapply Forall_impl; [|exact Hfa]. cbn. intros p Hp. lia. }
  eapply always_mono; [|eapply (C28_receive fuel appR Hfuel J HJ L HL HL64 eid _ src dest to tag 64 msg
    (first :: others) w tr l first others ltac:(lia) (proj2 Hsz) Hpk Htag Hsrc Hr Hid Hrx Hl Hcf Hcl eq_refl); auto].
  - cbn beta. intros w' t [_ H]. apply H. reflexivity.
  - clear - Hfa. induction Hfa as [|p ps (H1 & H2 & H3) Hfa IH]; [reflexivity|]. cbn [filter].
    rewrite H2, H3, key_eqb_refl. cbn [andb]. now rewrite IH.
Qed.
