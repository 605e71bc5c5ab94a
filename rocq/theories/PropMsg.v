(** PropMsg: theorems about mctp_message_tx and mctp_binding_set_tx_enabled
    (C01, C04, C19). *)
From Verif Require Import Base Lists Prog PktBuf Core WP Walk CoreRel WalkCore CoreHist Spec Trace PropTx.

(** ** Packetisation *)

Lemma land_ones_mod x n : 0 <= n -> Z.land x (2 ^ n - 1) = x mod 2 ^ n.
Proof. intros Hn. rewrite <- Z.land_ones by exact Hn. rewrite Z.ones_equiv. reflexivity. Qed.
Lemma land3 x : Z.land x 3 = x mod 4.
Proof. exact (land_ones_mod x 2 ltac:(lia)). Qed.
Lemma land7 x : Z.land x 7 = x mod 8.
Proof. exact (land_ones_mod x 3 ltac:(lia)). Qed.
Lemma land15 x : Z.land x 15 = x mod 16.
Proof. exact (land_ones_mod x 4 ltac:(lia)). Qed.

Lemma tag_range tag : Z.land tag 7 = tag <-> 0 <= tag <= 7.
Proof.
  rewrite land7. split; intros Ht.
  - pose proof (Z.mod_pos_bound tag 8). lia.
  - apply Z.mod_small. lia.
Qed.

Lemma tx_hdr_spec ver dest src to tag k last : 0 <= tag <= 7 ->
  tx_hdr ver dest src to tag k last
  = [ver mod 16; dest; src; flags_byte (k =? 0) last (k mod 4) to tag].
Proof.
  intros Ht. unfold tx_hdr. rewrite land15, land3.
  assert (0 <= k mod 4 < 4) as Hk by (apply Z.mod_pos_bound; lia).
  assert (tag = 0 \/ tag = 1 \/ tag = 2 \/ tag = 3 \/ tag = 4 \/ tag = 5 \/ tag = 6 \/ tag = 7)
    as Ht' by lia.
  assert (k mod 4 = 0 \/ k mod 4 = 1 \/ k mod 4 = 2 \/ k mod 4 = 3) as Hk' by lia.
  do 3 f_equal. f_equal. destruct (k =? 0), last, to;
  destruct Hk' as [->|[->|[->| ->]]];
  repeat (destruct Ht' as [->|Ht']; [reflexivity|]); subst; reflexivity.
Qed.

Lemma frags_spec ver src dest to tag mtu : 0 <= tag <= 7 -> 1 <= mtu -> forall fuel k msg,
  (length msg <= fuel)%nat -> 0 <= k ->
  let pkts := frags fuel ver src dest to tag mtu k msg in
  concat (map (skipn 4) pkts) = msg /\
  forall n p, nth_error pkts n = Some p ->
    let last := Nat.eqb (S n) (length pkts) in
    firstn 4 p = [ver mod 16; dest; src;
                  flags_byte (k + Z.of_nat n =? 0) last ((k + Z.of_nat n) mod 4) to tag] /\
    (if last then 1 <= zlen p - 4 <= mtu else zlen p - 4 = mtu).
Proof.
  intros Ht Hmtu. induction fuel as [|fuel IH]; intros k msg Hl Hk.
  - destruct msg; [|cbn in Hl; lia]. cbn. split; [reflexivity|]. intros [|n] p; discriminate.
  - destruct msg as [|x msg]; [cbn; split; [reflexivity|]; intros [|n] p; discriminate|].
    cbn zeta. cbn [frags]. remember (x :: msg) as M eqn:EM.
    assert (0 < zlen M) as HM by (subst; unfold zlen; cbn [length]; lia).
    set (plen := if mtu <? zlen M then mtu else zlen M).
    assert (1 <= plen <= zlen M /\ plen <= mtu) as Hp by (unfold plen; destruct (mtu <? zlen M) eqn:E; lia).
    assert (length (skipn (Z.to_nat plen) M) <= fuel)%nat as Hl'.
    { rewrite skipn_length. unfold zlen in *. lia. }
    specialize (IH (k + 1) (skipn (Z.to_nat plen) M) Hl' ltac:(lia)). cbn zeta in IH.
    set (rest := frags fuel ver src dest to tag mtu (k + 1) (skipn (Z.to_nat plen) M)) in *.
    destruct IH as [IH1 IH2].
    assert (zlen M <= plen <-> rest = []) as Hrest.
    { split; intros H.
      - unfold rest. replace (skipn (Z.to_nat plen) M) with (@nil Z).
        + destruct fuel; reflexivity.
        + symmetry. apply length_zero_iff_nil. rewrite skipn_length. unfold zlen in *. lia.
      - rewrite H in IH1. cbn in IH1. symmetry in IH1. apply (f_equal (@length Z)) in IH1.
        rewrite skipn_length in IH1. cbn in IH1. unfold zlen in *. lia. }
    split.
    + cbn [map concat]. rewrite IH1.
      change (skipn 4 (tx_hdr ver dest src to tag k (zlen M <=? plen) ++ firstn (Z.to_nat plen) M))
        with (firstn (Z.to_nat plen) M). apply firstn_skipn.
    + intros [|n] p; cbn [nth_error length].
      * intros Ep.
        assert (p = tx_hdr ver dest src to tag k (zlen M <=? plen) ++ firstn (Z.to_nat plen) M) as ->
          by congruence. clear Ep. rewrite Z.add_0_r. rewrite tx_hdr_spec by exact Ht.
        assert (Nat.eqb 1 (S (length rest)) = (zlen M <=? plen)) as ->.
        { destruct (Nat.eqb_spec 1 (S (length rest))) as [E|E], (zlen M <=? plen) eqn:El; try reflexivity.
          - assert (rest = []) as Er by (apply length_zero_iff_nil; lia). apply Hrest in Er. lia.
          - assert (rest = []) as Er by (apply Hrest; lia). rewrite Er in E. cbn in E. lia. }
        split; [reflexivity|].
        assert (zlen ([ver mod 16; dest; src; flags_byte (k =? 0) (zlen M <=? plen) (k mod 4) to tag]
                      ++ firstn (Z.to_nat plen) M) - 4 = plen) as ->.
        { unfold zlen in *. rewrite app_length, firstn_length. cbn [length]. lia. }
        destruct (zlen M <=? plen) eqn:E; [lia|]. unfold plen in *. destruct (mtu <? zlen M) eqn:E2; lia.
      * intros Hn. specialize (IH2 n p Hn). cbn zeta in IH2.
        change (Nat.eqb (S (S n)) (S (length rest))) with (Nat.eqb (S n) (length rest)).
        replace (k + Z.of_nat (S n)) with (k + 1 + Z.of_nat n) by lia. exact IH2.
Qed.

Lemma frags_packetised ver src dest to tag mtu msg : 0 <= tag <= 7 -> 1 <= mtu ->
  packetised ver src dest to tag mtu msg (frags (length msg) ver src dest to tag mtu 0 msg).
Proof.
  intros Ht Hmtu.
  destruct (frags_spec ver src dest to tag mtu Ht Hmtu (length msg) 0 msg (le_n _) (Z.le_refl _)) as [H1 H2].
  split; [exact H1|]. intros k p Hk. specialize (H2 k p Hk). cbn zeta in *.
  replace (0 + Z.of_nat k =? 0) with (Nat.eqb k 0) in H2 by (destruct k; reflexivity).
  exact H2.
Qed.

Section Msg.
Context {B : Type} (f : txfun B) (s : startfun B) (appl : event -> list txreq).
Context (m : mode) (b0 b1 : binding B).
Notation world := (world B).

Lemma enqs_enqueued i (w : world) l t w' : enqs Strict i w l t w' ->
  map snd (enqueued i t) = l /\ enqueued (negb i) t = [] /\ forall j, settled j t = [].
Proof.
  induction 1 as [w|w bs t1 w1 l t2 w2 H1 H2 (IH1 & IH2 & IH3)]; [auto|].
  rewrite !enqueued_app, map_app, IH1, IH2. destruct H1.
  cbn. rewrite eqb_reflx. destruct i; cbn; auto.
Qed.

Lemma txs_enqueued i (w : world) t w' j : txs Strict i w t w' -> enqueued j t = [].
Proof.
  assert (forall (w : world) rc t w', tx_step Strict i w rc t w' -> enqueued j t = []) as Hs.
  { intros w1 rc t1 w1' H. destruct H. apply enqueued_tx. assumption. }
  induction 1; [reflexivity|eauto|]. rewrite enqueued_app, (Hs _ _ _ _ H), IHtxs. reflexivity.
Qed.

Lemma msg_rel_enqueued (w : world) i src dest to tag msg t w' :
  WF Strict w -> msg_rel Strict w i src dest to tag msg t w' ->
  packetised (bd_version (bnd w i)) src dest to tag (bd_pkt_size (bnd w i) - 4) msg
             (map snd (enqueued i t)) /\ enqueued (negb i) t = [].
Proof.
  intros Hw Hr. destruct Hr as [b t1 w1 t2 w' Hb Hst Htag He Ht].
  destruct (enqs_enqueued _ _ _ _ _ He) as (E1 & E2 & _).
  rewrite !enqueued_app, (txs_enqueued _ _ _ _ _ Ht), (txs_enqueued _ _ _ _ _ Ht), !app_nil_r, E1, E2.
  split; [|reflexivity]. pose proof (wf_size _ _ Hw _ _ Hb Hst) as Hsz.
  destruct (wf_dims _ _ Hw i) as (Hd & _ & _).
  unfold mtu_of, MCTP_BODY_SIZE. rewrite w64_id by lia.
  apply frags_packetised; [now apply tag_range|lia].
Qed.

Lemma wf_bus0 (w : world) : WF Strict w -> mode_ok m w ->
  exists b, bget w false = Some b /\ bus_eid b = mode_eid m.
Proof.
  intros Hw Hm. destruct (bget w false) as [b|] eqn:E; [|destruct (wf_b0 _ _ Hw E)].
  exists b. split; [reflexivity|]. destruct m as [e|]; cbn in Hm; rewrite ?E in Hm; cbn in Hm.
  - destruct Hm as (_ & H). injection H as H. exact H.
  - destruct Hm as (_ & H & _). injection H as H. exact H.
Qed.

Lemma bus_state_ost (w : world) i : bus_state_of w i = ost w i.
Proof. unfold bus_state_of, ost, bget. destruct (m_busses (w_m w)); reflexivity. Qed.

Lemma wp_msg (w : world) tr eid to tag msg : reaches f s appl m b0 b1 w tr ->
  always no_oom (message_tx (scripted f) w eid to tag msg)
    (fun r t => message_rel Strict w eid to tag msg (snd r) t (fst r)).
Proof.
  intros Hr. destruct (reaches_spec _ _ _ _ _ _ _ _ Hr) as (Hw & Hm & Hf & _).
  apply adv_always. eapply wp_mono; [apply adv_mono| |
    eapply (wp_message_tx (scripted f) (adv no_oom) (adv_mono no_oom) id Strict Jt
              (fun e w g Q => Jt_emit no_oom e w g Q) (Jt_alloc no_oom eq_refl) (Jt_btx f no_oom Hf));
    [exact Hw|exact I]].
  intros [w' rc] g (t & Ht & Hrel & _). unfold id in Ht. cbn in *. subst. exact Hrel.
Qed.

(** ** C01 *)

Theorem C01_packetisation w tr eid to tag msg :
  reaches f s appl m b0 b1 w tr ->
  bus_state_of w false <> Some Constructed -> 0 <= tag <= 7 ->
  always no_oom (message_tx (scripted f) w eid to tag msg) (fun r t =>
    snd r = 0 /\
    packetised (bd_version (bnd w false)) (mode_eid m) eid to tag
               (bd_pkt_size (bnd w false) - 4) msg (map snd (enqueued false t)) /\
    enqueued true t = [] /\ 64 <= bd_pkt_size (bnd w false) - 4).
Proof.
  intros Hr Hst Htag. eapply always_mono; [|eapply wp_msg; exact Hr].
  destruct (reaches_spec _ _ _ _ _ _ _ _ Hr) as (Hw & Hm & Hf & _).
  destruct (wf_bus0 w Hw Hm) as (b & Hb & He). rewrite bus_state_ost in Hst. unfold ost in Hst.
  rewrite Hb in Hst. cbn in Hst.
  intros [w' rc] t Hrel. cbn [fst snd] in *. destruct Hrel as [Ht|b' rc t w' Ht Hb' Hrel].
  { exfalso. apply Ht. now apply tag_range. }
  rewrite Hb in Hb'. injection Hb' as <-.
  destruct Hrel as [b' Hb' Hst'|b' Hb' Hst' Htag'|t w' Hrel].
  - exfalso. rewrite Hb in Hb'. injection Hb' as <-. congruence.
  - exfalso. apply Htag'. now apply tag_range.
  - split; [reflexivity|]. rewrite He in Hrel.
    destruct (msg_rel_enqueued _ _ _ _ _ _ _ _ _ Hw Hrel) as [H1 H2]. cbn in H2.
    split; [exact H1|]. split; [exact H2|].
    assert (bus_st b <> Constructed) as Hnc by congruence.
    pose proof (wf_size _ _ Hw _ _ Hb Hnc). lia.
Qed.

(** ** C04 *)

Theorem C04_checks w tr eid to tag msg :
  reaches f s appl m b0 b1 w tr ->
  always no_oom (message_tx (scripted f) w eid to tag msg) (fun r t =>
    (7 < tag -> r = (w, - EINVAL) /\ t = []) /\
    (0 <= tag <= 7 -> bus_state_of w false = Some Constructed -> r = (w, - ENXIO) /\ t = []) /\
    (0 <= tag <= 7 -> bus_state_of w false <> Some Constructed -> snd r = 0) /\
    (msg = [] -> enqueued false t = [] /\ enqueued true t = [])).
Proof.
  intros Hr. eapply always_mono; [|eapply wp_msg; exact Hr].
  intros [w' rc] t Hrel. cbn [fst snd] in *. rewrite bus_state_ost. unfold ost.
  destruct Hrel as [Ht|b rc t w' Ht Hb Hrel].
  - rewrite tag_range in Ht. repeat split; try lia; intros; lia.
  - rewrite tag_range in Ht. rewrite Hb. cbn [option_map].
    destruct Hrel as [b' Hb' Hst'|b' Hb' Hst' Htag'|t w' Hrel].
    + rewrite Hb in Hb'. injection Hb' as <-. rewrite Hst'.
      repeat split; intros; try lia; congruence.
    + exfalso. apply Htag'. now apply tag_range.
    + destruct Hrel as [b' t1 w1 t2 w' Hb' Hst Htag He Htx]. rewrite Hb in Hb'. injection Hb' as <-.
      repeat split; intros; try lia; try congruence; subst;
        rewrite enqueued_app, (txs_enqueued _ _ _ _ _ Htx), app_nil_r;
        cbn in He; inversion He; reflexivity.
Qed.

(** With no bus registered the call returns 0 and does nothing. *)
Theorem C04_no_bus eid to tag msg : 0 <= tag <= 7 ->
  always no_oom (message_tx (scripted f) (fresh b0 b1) eid to tag msg) (fun r t =>
    r = (fresh b0 b1, 0) /\ t = []).
Proof.
  intros Ht. apply adv_always. unfold message_tx. apply tag_range in Ht. rewrite Ht, Z.eqb_refl. cbn. auto.
Qed.

(** ** C19 *)

(** What a re-enabled bus does with its queue: it is worked off until it is
    empty, the binding disables transmission, or the binding refuses a packet. *)
Definition flushed (w' : world) (i : bool) (t : list event) : Prop :=
  queued w' i = [] \/ bus_state_of w' i = Some TxDisabled \/
  exists before n bs rc, t = before ++ [EvTxRet i n bs rc] /\ rc <> 0 /\ rc <> - EMSGSIZE.

Lemma txs_flushed i (w : world) t w' : txs Strict i w t w' -> ost w i = Some TxEnabled ->
  flushed w' i t /\ ost w' i <> Some Constructed.
Proof.
  unfold flushed. rewrite bus_state_ost. induction 1 as [w b Hb Hc|w rc t w' Hs Hf|w rc t1 w1 t2 w2 Hs Hf Ht IH].
  - unfold ost. rewrite Hb. cbn. intros [= Hst]. split; [|congruence].
    destruct Hc as [Hq|Hc]; [|congruence]. left. rewrite queued_bget, Hb, Hq. reflexivity.
  - intros _. destruct Hs as [b p q p' b' rc dis bytes io Hb Hst Hqu Hby Hio Hid Hq]. split.
    + right. right. rewrite Hf.
      exists (capev w true bytes ++ EvTxCall i (pk_id p) bytes :: io ++ (if dis then [EvSetTx i false] else [])),
        (pk_id p), bytes, rc.
      split; [rewrite <- !app_assoc; cbn [app]; rewrite <- !app_assoc; reflexivity|].
      unfold final in Hf. apply orb_false_iff in Hf. rewrite !Z.eqb_neq in Hf. exact Hf.
    + unfold ost. rewrite (bget_set_bus _ _ _ _ b) by (rewrite bget_set_bnd; exact Hb).
      rewrite eqb_reflx. cbn. destruct dis; congruence.
  - intros _.
    assert (ost w1 i = Some TxEnabled \/ ost w1 i = Some TxDisabled) as [E|E].
    { destruct Hs as [b p q p' b' rc dis bytes io Hb Hst Hqu Hby Hio Hid Hq].
      unfold ost. rewrite (bget_set_bus _ _ _ _ b) by (rewrite bget_set_bnd; exact Hb).
      rewrite eqb_reflx. cbn. destruct dis; auto. }
    + destruct (IH E) as [[H1|[H1|(bf & n & bs & rc' & -> & H1)]] H2]; split; auto.
      right; right. exists (t1 ++ bf), n, bs, rc'. rewrite app_assoc. auto.
    + inversion Ht as [w' b Hb Hc|w' rc' t w'' Hs' Hf'|w' rc' t1' w1' t2' w2' Hs' Hf' Ht']; subst.
      * rewrite E. split; [auto|discriminate].
      * exfalso. destruct Hs' as [b p q p' b' rc' dis bytes io Hb Hst]. unfold ost in E.
        rewrite Hb in E. cbn in E. congruence.
      * exfalso. destruct Hs' as [b p q p' b' rc' dis bytes io Hb Hst]. unfold ost in E.
        rewrite Hb in E. cbn in E. congruence.
Qed.

Theorem C19_set_tx_enabled w tr i st en :
  reaches f s appl m b0 b1 w tr -> mode_bus m i -> bus_state_of w i = Some st ->
  always no_oom (set_tx_enabled (scripted f) w i en) (fun w' t =>
    match st, en with
    | Constructed, true =>
        t = [EvSetTx i true] /\
        (bd_pkt_size (bnd w i) < 68 -> w' = w) /\
        (68 <= bd_pkt_size (bnd w i) ->
           bus_state_of w' i = Some TxEnabled /\ forall j, queued w' j = queued w j)
    | TxEnabled, false =>
        t = [EvSetTx i false] /\ bus_state_of w' i = Some TxDisabled /\
        forall j, queued w' j = queued w j
    | TxDisabled, true =>
        exists t', t = EvSetTx i true :: t' /\ flushed w' i t' /\
        bus_state_of w' i <> Some Constructed
    | _, _ => w' = w /\ t = [EvSetTx i en]
    end).
Proof.
  intros Hr Hi Hst. destruct (reaches_spec _ _ _ _ _ _ _ _ Hr) as (Hw & Hm & Hf & _).
  destruct (mode_bget m w i Hw Hm Hi) as (b & Hb).
  rewrite bus_state_ost in Hst. unfold ost in Hst. rewrite Hb in Hst. injection Hst as Hst.
  assert (always no_oom (set_tx_enabled (scripted f) w i en) (fun w' t => set_rel Strict w i en t w')) as Hrel.
  { apply adv_always. eapply wp_mono; [apply adv_mono| |
      eapply (wp_set_tx_enabled (scripted f) (adv no_oom) (adv_mono no_oom) id Strict Jt
              (fun e w g Q => Jt_emit no_oom e w g Q) (Jt_btx f no_oom Hf));
      [exact Hw|exact I|exact Hb|intros; exact I|intros; exact I]].
    intros w' g (t & Ht & Hrel & _). unfold id in Ht. cbn in *. subst. exact Hrel. }
  assert (forall x j, queued (set_bus w i (set_st b x)) j = queued w j) as Hqs.
  { intros x j. rewrite (queued_set_bus _ _ _ b _ Hb). destruct (Bool.eqb_spec i j); [|reflexivity].
    subst. rewrite queued_bget, Hb. reflexivity. }
  assert (forall x, bus_state_of (set_bus w i (set_st b x)) i = Some x) as Hss.
  { intros x. rewrite bus_state_ost. unfold ost. rewrite (bget_set_bus _ _ _ _ _ _ Hb), eqb_reflx.
    reflexivity. }
  eapply always_mono; [|exact Hrel]. clear Hrel. intros w' t Hrel.
  destruct Hrel as [b' en Hb' Hc|b' Hb' Hst' Hsz|b' Hb' Hst'|b' t w' Hb' Hst' Ht];
    rewrite Hb in Hb'; injection Hb' as <-.
  - destruct Hc as [[Hc1 [Hc2|Hc2]]|[[Hc1 Hc2]|[Hc1 Hc2]]]; rewrite <- Hst, Hc1; try (rewrite Hc2); auto.
    destruct en; [|auto]. split; [reflexivity|]. split; [auto|lia].
  - rewrite <- Hst, Hst'. split; [reflexivity|]. split; [lia|]. auto.
  - rewrite <- Hst, Hst'. auto.
  - rewrite <- Hst, Hst'. exists t. split; [reflexivity|]. rewrite bus_state_ost.
    apply (txs_flushed _ _ _ _ Ht). rewrite <- bus_state_ost. apply Hss.
Qed.

(** No operation brings a bus back to the constructed state. *)
Theorem C19_never_constructed w tr o i :
  reaches f s appl m b0 b1 w tr -> traffic m o -> bus_state_of w i <> Some Constructed ->
  always no_oom (xop f s appl w o) (fun w' _ => bus_state_of w' i <> Some Constructed).
Proof.
  intros Hr Ho Hst. destruct (reaches_spec _ _ _ _ _ _ _ _ Hr) as (Hw & Hm & Hf & _).
  apply adv_always. eapply wp_mono; [apply adv_mono| |
    eapply (wp_exec_op f s appl no_oom eq_refl Hf m w o [] Hw Hm Ho)].
  intros w' g (t & -> & Hrel & _). rewrite bus_state_ost in *.
  assert (forall w1 w2 : world, stable w1 w2 -> ost w1 i <> Some Constructed -> ost w2 i <> Some Constructed)
    as Hstab. { intros w1 w2 (_ & _ & _ & H & _). rewrite (H i). auto. }
  destruct Hrel as [n|b|b|j b|j n|eid to tag msg rc t w' Hrel|j en t w' Hrel|j p bytes ap t w' Hby Hrel].
  1-3: exact Hst.
  - unfold ost. rewrite bget_set_bnd. exact Hst.
  - unfold ost. rewrite bget_set_bnd. exact Hst.
  - eapply Hstab; [|exact Hst]. eapply steps_stable, message_rel_steps; exact Hrel.
  - assert (forall b x, bget w j = Some b -> x <> Constructed ->
              ost (set_bus w j (set_st b x)) i <> Some Constructed) as Hset.
    { intros b x Hb Hx. unfold ost. rewrite (bget_set_bus _ _ _ _ _ _ Hb).
      destruct (Bool.eqb_spec j i); [cbn; congruence|exact Hst]. }
    destruct Hrel as [b en Hb Hc|b Hb Hst' Hsz|b Hb Hst'|b t w' Hb Hst' Ht]; try (apply Hset; congruence).
    + exact Hst.
    + eapply Hstab; [eapply steps_stable, txs_steps; exact Ht|]. apply Hset; congruence.
  - destruct (rx_rel_steps _ _ _ _ _ _ Hrel) as (cs & b & t1 & Hs & _).
    eapply Hstab; [eapply steps_stable; exact Hs|]. exact Hst.
Qed.
End Msg.
