(** PropSer: theorems about the serial binding (C22-C27). *)
From Coq Require Import Permutation.
From Verif Require Import Base Lists Prog PktBuf Core WP Walk CoreRel WalkCore CoreHist Spec Trace PropTx
  Crc Serial SpecSer SerRx SerWalk.

Local Notation world := (world serial).

(** ** Histories drive the byte machine *)

Definition mfed (i : bool) (l : list mop) : list Z :=
  flat_map (fun o => match o with MByte j c => if Bool.eqb i j then [c] else [] | _ => [] end) l.

Lemma mfed_bytes i j bs : mfed i (map (MByte j) bs) = if Bool.eqb i j then bs else [].
Proof.
  unfold mfed. induction bs as [|c bs IH]; cbn; [destruct (Bool.eqb i j); reflexivity|].
  rewrite IH. destruct (Bool.eqb i j); reflexivity.
Qed.
Lemma mfed_micro i l : mfed i (micro l) = fed i l.
Proof.
  unfold mfed, micro, fed. induction l as [|o l IH]; [reflexivity|]. cbn [flat_map]. rewrite flat_map_app, IH.
  f_equal. destruct o as [o|j bs]; [reflexivity|]. apply mfed_bytes.
Qed.

Lemma handed_app i a b : handed i (a ++ b) = handed i a ++ handed i b.
Proof. apply flat_map_app. Qed.
Lemma handed_none i t : (forall j lo n bs, ~ In (EvBusRx j lo n bs) t) -> handed i t = [].
Proof.
  unfold handed. induction t as [|e t IH]; intros Hn; [reflexivity|]. cbn [flat_map].
  rewrite IH by (intros j lo n bs Hin; apply (Hn j lo n bs); right; exact Hin).
  destruct e; try reflexivity. exfalso. eapply Hn. left. reflexivity.
Qed.
Lemma steps_no_busrx (w : world) t w' : steps Strict w t w' -> forall j lo n bs, ~ In (EvBusRx j lo n bs) t.
Proof.
  induction 1 as [w|w e t w' He Hs IH|i w bs t1 w1 t2 w2 H1 Hs IH|i w rc t1 w1 t2 w2 H1 Hs IH];
    intros j lo n b Hin.
  - exact Hin.
  - destruct Hin as [->|Hin]; [exact He|eapply IH; exact Hin].
  - apply in_app_or in Hin. destruct Hin as [Hin|Hin]; [|eapply IH; exact Hin].
    destruct H1. cbn in Hin. intuition discriminate.
  - apply in_app_or in Hin. destruct Hin as [Hin|Hin]; [|eapply IH; exact Hin].
    pose proof (tx_step_ev _ _ _ _ _ _ H1) as Hev. rewrite Forall_forall in Hev. exact (Hev _ Hin).
Qed.

Lemma op_handed m (w : world) o t w' i : op_rel w o t w' -> ser_traffic m (SCore o) -> handed i t = [].
Proof.
  intros Hr Ht.
  destruct Hr as [n|b|b|j b|j n|eid to tag msg rc t w' Hr|j en t w' Hr|j p bytes ap t w' Hby Hr];
    cbn in Ht; try contradiction; try reflexivity.
  - rewrite handed_app. rewrite handed_none; [reflexivity|].
    eapply steps_no_busrx, message_rel_steps; exact Hr.
  - destruct Hr as [b en Hb Hc|b Hb Hs Hsz|b Hb Hs|b t w' Hb Hs Htx]; try reflexivity.
    cbn [handed flat_map app]. apply handed_none. eapply steps_no_busrx, txs_steps; exact Htx.
Qed.

Lemma rx_handed {ap} (w : world) i id bs t w' j : rx_rel Strict ap w i id bs t w' ->
  handed j t = if Bool.eqb j i then [bs] else [].
Proof.
  intros Hr. destruct (rx_rel_steps _ _ _ _ _ _ Hr) as (cs & b & t1 & Hs & _ & ->).
  change (EvBusRx i (busrx_local w b) id bs :: t1 ++ [EvFree id])
    with ([EvBusRx i (busrx_local w b) id bs] ++ t1 ++ [EvFree id]).
  rewrite !handed_app, (handed_none j t1) by (eapply steps_no_busrx; exact Hs).
  cbn. destruct (Bool.eqb j i); reflexivity.
Qed.

Definition rst (w : world) (i : bool) : rcv := rof (bd_priv (bnd w i)).

Lemma bnd_nextw (w : world) i : bnd (nextw w) i = bnd w i.
Proof. destruct i; reflexivity. Qed.

Lemma mrel_rst m (w : world) o t w' i : mtraffic m o -> mrel w o t w' ->
  rst w' i = rrun (rst w i) (mfed i [o]) /\ handed i t = routs (rst w i) (mfed i [o]).
Proof.
  intros Ht Hr. destruct Hr as [o t w' Hr Hp|j c t w' Hr].
  - unfold rst. rewrite Hp. split; [reflexivity|]. cbn. eapply op_handed; [exact Hr|exact Ht].
  - unfold mfed. cbn [flat_map]. rewrite app_nil_r. unfold rst.
    destruct Hr as [s' s S1 S2 S3 S4|s' s S1 S2 S3 S4 S5|p bs ap t w1 s' s Ep Hp Hr Hsp S1 S2 S3 S4].
    + rewrite priv_put. destruct (Bool.eqb_spec j i) as [->|Hn].
      * rewrite Bool.eqb_reflx. cbn [rrun fold_left routs]. fold s. rewrite S3. auto.
      * replace (Bool.eqb i j) with false by (symmetry; apply Bool.eqb_false_iff; congruence). auto.
    + rewrite priv_put. destruct (Bool.eqb_spec j i) as [->|Hn].
      * rewrite Bool.eqb_reflx. cbn [rrun fold_left routs]. fold s. rewrite S3. auto.
      * replace (Bool.eqb i j) with false by (symmetry; apply Bool.eqb_false_iff; congruence).
        rewrite bnd_nextw. auto.
    + rewrite priv_put, (rx_handed _ _ _ _ _ _ i Hr). destruct (Bool.eqb_spec j i) as [->|Hn].
      * rewrite Bool.eqb_reflx. cbn [rrun fold_left routs]. fold s. rewrite S3. auto.
      * replace (Bool.eqb i j) with false by (symmetry; apply Bool.eqb_false_iff; congruence).
        rewrite Hsp. auto.
Qed.

Lemma mhist_rst m (w : world) l t w' i : mhist m w l t w' ->
  rst w' i = rrun (rst w i) (mfed i l) /\ handed i t = routs (rst w i) (mfed i l).
Proof.
  induction 1 as [w|w o t1 w1 l t2 w2 Hw Ho Hr Hw1 Hh [IH1 IH2]]; [auto|].
  destruct (mrel_rst _ _ _ _ _ i Ho Hr) as [E1 E2].
  change (o :: l) with ([o] ++ l). unfold mfed in *. rewrite flat_map_app, rrun_app, routs_app, handed_app.
  rewrite <- E1, IH1, E2, IH2. auto.
Qed.

Lemma swf_rwf s : swf s -> rwf (rof s) /\ measure (rof s) <= 141.
Proof.
  unfold swf, rof. destruct (s_st s) eqn:E; cbn [rwf measure]; try (intros _; split; [exact I|lia]).
  - intros (p & bs & Ep & Hp & Hz & _). rewrite (body_ok s p bs Ep Hp). pose proof (zlen_pos _ bs). lia.
  - intros (p & bs & Ep & Hp & Hz & _). rewrite (body_ok s p bs Ep Hp). pose proof (zlen_pos _ bs). lia.
Qed.

Lemma idle_rst (w : world) i : idle w i <-> rst w i = Idle.
Proof. unfold idle, rst, rof. destruct (s_st (bd_priv (bnd w i))); split; congruence. Qed.

Lemma ser_boot_rst m i : rst (ser_booted m) i = Idle.
Proof. destruct m, i; reflexivity. Qed.
Lemma ser_boot_handed m i : handed i (ser_boot_ev m) = [].
Proof. destruct m; reflexivity. Qed.

Section Ser.
Context (fuel : nat) (app : event -> list txreq) (m : mode).
(** The write loop gets at least as many iterations as a frame has bytes. *)
Hypothesis Hfuel : (256 <= fuel)%nat.

Lemma ser_history_spec l : Forall (ser_traffic m) l ->
  always no_oom (ser_history fuel app m l) (fun w tr =>
    exists t, tr = ser_boot_ev m ++ t /\ mhist m (ser_booted m) (micro l) t w /\ SI m w).
Proof. intros Hl. apply adv_always. apply wp_ser_history; auto. Qed.

Lemma ser_reaches_spec w tr : ser_reaches fuel app m w tr ->
  SI m w /\ exists l t, Forall (ser_traffic m) l /\ tr = ser_boot_ev m ++ t /\ mhist m (ser_booted m) (micro l) t w.
Proof.
  intros (l & e & n & Hl & He & Hr). pose proof (ser_history_spec l Hl e He) as Hh. rewrite Hr in Hh.
  destruct Hh as (t & -> & Hh & Hw). eauto 8.
Qed.

Lemma ser_continue w tr l : ser_reaches fuel app m w tr -> Forall (ser_traffic m) l ->
  always no_oom (sexec fuel app w l) (fun w' t => mhist m w (micro l) t w' /\ SI m w').
Proof.
  intros Hr Hl. destruct (ser_reaches_spec w tr Hr) as [Hw _]. apply adv_always.
  eapply wp_mono; [apply adv_mono| |apply (wp_sexec fuel app no_oom eq_refl eq_refl Hfuel m l w []); assumption].
  cbn. intros w' g (t & -> & H). exact H.
Qed.

(** *** C24: no byte stream, in any chunking and interleaved with any traffic, makes
    the receiver fault *)
Theorem C24_no_fault l : Forall (ser_traffic m) l ->
  always no_oom (ser_history fuel app m l) (fun _ _ => True).
Proof. intros Hl. eapply always_mono; [|exact (ser_history_spec l Hl)]. auto. Qed.

(** *** C23: only intact frames are handed to the core *)
Theorem C23_only_frames l i : Forall (ser_traffic m) l ->
  always no_oom (ser_history fuel app m l) (fun w tr => contains (fed i l) (handed i tr)).
Proof.
  intros Hl. eapply always_mono; [|exact (ser_history_spec l Hl)].
  intros w tr (t & -> & Hh & _). rewrite handed_app, ser_boot_handed. cbn [Datatypes.app].
  destruct (mhist_rst _ _ _ _ _ i Hh) as [_ ->]. rewrite mfed_micro, ser_boot_rst. apply stream_contains.
Qed.

(** *** C22: an idle receiver recovers every sequence of frames *)
Theorem C22_framing w tr l i ps : ser_reaches fuel app m w tr -> idle w i ->
  Forall (ser_traffic m) l -> clean (fed i l) ps ->
  always no_oom (sexec fuel app w l) (fun w' t => handed i t = ps /\ idle w' i).
Proof.
  intros Hr Hi Hl Hc. eapply always_mono; [|exact (ser_continue w tr l Hr Hl)].
  intros w' t [Hh _]. destruct (mhist_rst _ _ _ _ _ i Hh) as [E1 E2]. rewrite mfed_micro in *.
  apply idle_rst in Hi. rewrite Hi in *. destruct (rrun_clean _ _ Hc) as [F1 F2].
  split; [congruence|]. apply idle_rst. congruence.
Qed.

(** In particular what the binding writes (C27) for any packets, back to back. *)
Theorem C22_round_trip w tr l i ps : ser_reaches fuel app m w tr -> idle w i ->
  Forall (ser_traffic m) l -> Forall (fun p => 4 <= zlen p <= 68) ps -> fed i l = flat_map wire ps ->
  always no_oom (sexec fuel app w l) (fun w' t => handed i t = ps /\ idle w' i).
Proof.
  intros Hr Hi Hl Hp Ef. apply (C22_framing w tr); auto. rewrite Ef. now apply clean_wires.
Qed.

(** *** C25: 141 bytes other than 7E bring the receiver back to idle, and nothing is
    handed to the core meanwhile; frames after them are received *)
Theorem C25_resync w tr l i : ser_reaches fuel app m w tr -> Forall (ser_traffic m) l ->
  141 <= zlen (fed i l) -> ~ In 126 (fed i l) ->
  always no_oom (sexec fuel app w l) (fun w' t => handed i t = [] /\ idle w' i).
Proof.
  intros Hr Hl Hz Hn. eapply always_mono; [|exact (ser_continue w tr l Hr Hl)].
  intros w' t [Hh _]. destruct (mhist_rst _ _ _ _ _ i Hh) as [E1 E2]. rewrite mfed_micro in *.
  destruct (ser_reaches_spec w tr Hr) as [Hw _].
  destruct (swf_rwf _ (si_swf _ _ Hw i)) as [H1 H2].
  destruct (rrun_resync _ _ H1 H2 Hn Hz) as [F1 F2]. unfold rst in *. split; [congruence|]. apply idle_rst. unfold rst. congruence.
Qed.

Theorem C25_resync_then_frames w tr l i junk stream ps :
  ser_reaches fuel app m w tr -> Forall (ser_traffic m) l -> fed i l = junk ++ stream ->
  141 <= zlen junk -> ~ In 126 junk -> clean stream ps ->
  always no_oom (sexec fuel app w l) (fun w' t => handed i t = ps /\ idle w' i).
Proof.
  intros Hr Hl Ef Hz Hn Hc. eapply always_mono; [|exact (ser_continue w tr l Hr Hl)].
  intros w' t [Hh _]. destruct (mhist_rst _ _ _ _ _ i Hh) as [E1 E2]. rewrite mfed_micro, Ef in *.
  destruct (ser_reaches_spec w tr Hr) as [Hw _].
  destruct (swf_rwf _ (si_swf _ _ Hw i)) as [H1 H2].
  destruct (rrun_resync _ _ H1 H2 Hn Hz) as [F1 F2]. destruct (rrun_clean _ _ Hc) as [F3 F4].
  rewrite rrun_app in E1. rewrite routs_app in E2. unfold rst in *.
  rewrite F1 in *. rewrite F2, F4 in E2. split; [exact E2|]. apply idle_rst. unfold rst. congruence.
Qed.

(** *** C26: what happens to the buffers *)
Definition opt_ids (o : option Z) : list Z := match o with Some n => [n] | None => [] end.
Definition rx_ids (w : world) : list Z :=
  opt_ids (pid (bd_priv (bnd w false))) ++ opt_ids (pid (bd_priv (bnd w true))).

Lemma I13_perm L L' h tr (w : world) : Permutation L L' -> I13 L h tr w -> I13 L' h tr w.
Proof.
  intros Hp [H1 H2 H3 H4]. constructor; auto. rewrite H1. unfold held. rewrite Hp. reflexivity.
Qed.

Lemma I13_next L tr (w : world) : I13 L None tr w ->
  ~ In (m_next (w_m w)) (allocs tr) /\
  I13 (m_next (w_m w) :: L) None (tr ++ [EvAlloc (m_next (w_m w))]) (nextw w).
Proof.
  intros [Hp Hlt Hn Hr].
  assert (~ In (m_next (w_m w)) (allocs tr)) as Hfresh by (intros Hin; apply Hlt in Hin; lia).
  split; [exact Hfresh|]. constructor; rewrite ?allocs_app, ?frees_app; cbn [allocs frees flat_map Datatypes.app].
  - rewrite app_nil_r, Hp. change (queued_ids (nextw w)) with (queued_ids w).
    unfold held. cbn [held_ids]. rewrite !app_nil_r. cbn [Datatypes.app].
    rewrite <- Permutation_cons_append. apply Permutation_middle.
  - cbn. intros n Hin. apply in_app_or in Hin. destruct Hin as [Hin|[<-|[]]]; [apply Hlt in Hin; lia|lia].
  - apply Permutation_NoDup with (l := m_next (w_m w) :: allocs tr);
      [apply Permutation_cons_append|constructor; assumption].
  - intros i lo n bs. rewrite in_app_iff. intros [Hin|[Hin|[]]]; [|discriminate].
    rewrite app_nil_r. eauto.
Qed.

Lemma I13_free L n tr (w : world) : I13 L (Some n) tr w -> (exists i lo bs, In (EvBusRx i lo n bs) tr) ->
  buffer_use tr (EvFree n) /\ I13 L None (tr ++ [EvFree n]) w.
Proof.
  intros HI Hrx. pose proof (I13_live _ _ _ _ n HI) as Hlive. destruct HI as [Hp Hlt Hn Hr]. split.
  - split; [apply Hlive; unfold held; rewrite !in_app_iff; cbn; auto|left; exact Hrx].
  - constructor; rewrite ?allocs_app, ?frees_app; cbn [allocs frees flat_map Datatypes.app]; rewrite ?app_nil_r.
    + rewrite Hp. unfold held. cbn. rewrite app_nil_r, <- !app_assoc. apply Permutation_app_head.
      cbn. symmetry. apply Permutation_middle.
    + exact Hlt.
    + exact Hn.
    + intros i lo k bs. rewrite in_app_iff. intros [Hin|[Hin|[]]]; [|discriminate].
      destruct (Hr _ _ _ _ Hin) as [?|E]; [left; apply in_or_app; auto|].
      injection E as ->. left. apply in_or_app. cbn. auto.
Qed.

Lemma I13_note L h tr (w : world) e : plain_ev e -> I13 L h tr w ->
  buffer_use tr e /\ I13 L h (tr ++ [e]) w.
Proof.
  intros He Hi. split; [destruct e; cbn in *; tauto|].
  eapply I13_quiet; [exact Hi| | | | |]; destruct e; cbn in *; tauto || reflexivity || congruence.
Qed.

Lemma I13_cfg L h tr (w : world) mm (x0 x1 : binding serial) : I13 L h tr w ->
  m_busses mm = m_busses (w_m w) -> m_next mm = m_next (w_m w) -> I13 L h tr (mkWorld mm x0 x1).
Proof.
  intros [Hp Hlt Hn Hr] Hm Hx. constructor; auto.
  - unfold queued_ids, queued in *. cbn. rewrite Hm. exact Hp.
  - cbn. rewrite Hx. exact Hlt.
Qed.

Lemma I13_setst L tr (w : world) i en b st : I13 L None tr w -> bget w i = Some b ->
  I13 L None (tr ++ [EvSetTx i en]) (set_bus w i (set_st b st)).
Proof.
  intros Hi Hb. eapply I13_quiet; [exact Hi|reflexivity|reflexivity| | |discriminate].
  - intros j. rewrite (queued_set_bus _ _ _ b _ Hb). destruct (Bool.eqb_spec i j); [|reflexivity].
    subst. rewrite queued_bget, Hb. reflexivity.
  - apply next_set_bus.
Qed.

Lemma I13_op L (w : world) o t w' : op_rel w o t w' -> ser_traffic m (SCore o) -> forall tr,
  I13 L None tr w -> each buffer_use tr t /\ I13 L None (tr ++ t) w'.
Proof.
  intros Hr Ht tr Hi.
  destruct Hr as [n|b|b|j b|j n|eid to tag msg rc t w' Hr|j en t w' Hr|j p bytes ap t w' Hby Hr];
    cbn in Ht; try contradiction.
  1-3: rewrite app_nil_r; split; [exact I|]; eapply I13_cfg; [exact Hi|reflexivity|reflexivity].
  - apply message_rel_steps in Hr.
    destruct (inv_steps _ _ (I13_note L None) (I13_enq L None) (I13_tx L None) _ _ _ Hr _ Hi) as [P1 I1].
    destruct (I13_note L None (tr ++ t) w' (EvRet rc) Logic.I I1) as [P2 I2].
    rewrite app_assoc. split; [apply each_app; cbn; auto|exact I2].
  - eapply (inv_set (I13 L None) buffer_use); [apply I13_note|apply I13_enq|apply I13_tx| |exact Hr|exact Hi].
    intros tr0 w0 i0 en0 b st H0 Hb _ _. split; [exact I|now apply I13_setst].
Qed.

Lemma I13_put L h tr (w : world) i s : I13 L h tr w -> I13 L h tr (put_ser w i s).
Proof. intros Hi. unfold put_ser. destruct i; eapply I13_cfg; try exact Hi; reflexivity. Qed.

Lemma rx_ids_put (w : world) i s :
  Permutation (rx_ids (put_ser w i s)) (opt_ids (pid s) ++ opt_ids (pid (bd_priv (bnd w (negb i))))).
Proof.
  unfold rx_ids. rewrite !priv_put. destruct i; cbn [Bool.eqb negb]; [apply Permutation_app_comm|reflexivity].
Qed.
Lemma rx_ids_get (w : world) i :
  Permutation (rx_ids w) (opt_ids (pid (bd_priv (bnd w i))) ++ opt_ids (pid (bd_priv (bnd w (negb i))))).
Proof. unfold rx_ids. destruct i; cbn [negb]; [apply Permutation_app_comm|reflexivity]. Qed.
Lemma rx_ids_same (w w' : world) : same_priv w w' -> rx_ids w' = rx_ids w.
Proof. intros H. unfold rx_ids. now rewrite !H. Qed.

(** The books: [L] has been lost. *)
Definition I26 (L : list Z) (tr : list event) (w : world) : Prop := I13 (L ++ rx_ids w) None tr w.

Lemma I26_mrel (w : world) o t w' : mtraffic m o -> mrel w o t w' -> forall L tr, I26 L tr w ->
  each buffer_use tr t /\ exists L', I26 (L' ++ L) (tr ++ t) w' /\
    (forall i c, o = MByte i c -> rout (rst w i) c = [] -> forall n,
       pid (bd_priv (bnd w i)) = Some n -> pid (bd_priv (bnd w' i)) = Some n \/ In n L').
Proof.
  intros Ht Hr L tr Hi. destruct Hr as [o t w' Hr Hp|i c t w' Hr].
  - destruct (I13_op _ _ _ _ _ Hr Ht tr Hi) as [P1 I1]. split; [exact P1|]. exists []. split; [|discriminate].
    unfold I26. rewrite (rx_ids_same _ _ Hp). exact I1.
  - destruct Hr as [s' s S1 S2 S3 S4|s' s S1 S2 S3 S4 S5|p bs ap t w1 s' s Ep Hp Hr Hsp S1 S2 S3 S4].
    + rewrite app_nil_r. split; [exact I|]. destruct S4 as [S4|S4].
      * exists []. split.
        -- unfold I26. cbn [Datatypes.app]. apply I13_put. eapply I13_perm; [|exact Hi].
           apply Permutation_app_head. rewrite rx_ids_put, (rx_ids_get w i). fold s. rewrite S4. reflexivity.
        -- intros j c' [= <- <-] _ n Hn. left. rewrite priv_put, Bool.eqb_reflx. fold s in Hn. congruence.
      * exists (opt_ids (pid s)). split.
        -- unfold I26. apply I13_put. eapply I13_perm; [|exact Hi].
           rewrite rx_ids_put, (rx_ids_get w i). fold s. rewrite S4. cbn [opt_ids Datatypes.app].
           rewrite <- !app_assoc. rewrite Permutation_app_swap_app. reflexivity.
        -- intros j c' [= <- <-] _ n Hn. right. fold s in Hn. rewrite Hn. left. reflexivity.
    + destruct (I13_next _ _ _ Hi) as [Hf I1]. split; [split; [exact Hf|exact I]|]. exists []. split.
      * unfold I26. cbn [Datatypes.app]. apply I13_put. eapply I13_perm; [|exact I1].
        rewrite rx_ids_put, (rx_ids_get w i). fold s. rewrite S4, S5. cbn [opt_ids Datatypes.app].
        rewrite bnd_nextw. apply Permutation_middle.
      * intros j c' [= <- <-] _ n Hn. fold s in Hn. congruence.
    + destruct (rx_rel_steps _ _ _ _ _ _ Hr) as (cs & b & t1 & Hs & Hb & ->).
      set (L0 := L ++ opt_ids (pid (bd_priv (bnd w (negb i))))).
      assert (I13 L0 (Some (pk_id p)) tr w) as I1.
      { destruct Hi as [H1 H2 H3 H4]. constructor; auto.
        - rewrite H1. apply Permutation_app_head. apply Permutation_app_tail. unfold held, L0. cbn [held_ids].
          rewrite app_nil_r, <- app_assoc. apply Permutation_app_head. rewrite (rx_ids_get w i). fold s.
          unfold pid at 1. rewrite Ep. cbn [option_map opt_ids Datatypes.app]. apply Permutation_cons_append.
        - intros j lo n b0 Hin. destruct (H4 _ _ _ _ Hin) as [?|?]; [auto|discriminate]. }
      set (e1 := EvBusRx i (busrx_local w b) (pk_id p) bs).
      assert (buffer_use tr e1 /\ I13 L0 (Some (pk_id p)) (tr ++ [e1]) w) as [P2 I2].
      { split; [eapply I13_live; [exact I1|]; unfold held; rewrite !in_app_iff; cbn; auto|].
        eapply I13_quiet; [exact I1| | | | |]; try reflexivity. unfold e1. congruence. }
      assert (I13 L0 (Some (pk_id p)) (tr ++ [e1]) (setc w cs)) as I3.
      { eapply I13_cfg; [exact I2|reflexivity|reflexivity]. }
      destruct (inv_steps _ _ (I13_note L0 _) (I13_enq L0 _) (I13_tx L0 _) _ _ _ Hs _ I3) as [P4 I4].
      destruct (I13_free _ _ _ _ I4) as [P5 I5].
      { exists i, (busrx_local w b), bs. rewrite !in_app_iff. cbn. auto. }
      split.
      { cbn [each]. split; [exact P2|]. apply each_app. split; [exact P4|]. cbn [each]. auto. }
      exists []. split.
      * unfold I26. cbn [Datatypes.app]. apply I13_put. rewrite <- !app_assoc in I5. cbn [Datatypes.app] in I5.
        eapply I13_perm; [|exact I5]. unfold L0. apply Permutation_app_head. rewrite rx_ids_put, S4.
        rewrite Hsp. reflexivity.
      * intros j c' [= <- <-] Hro. unfold rst in Hro. fold s in Hro. congruence.
Qed.

Lemma I26_mhist (w : world) l t w' : mhist m w l t w' -> forall L tr, I26 L tr w ->
  each buffer_use tr t /\ exists L', I26 (L' ++ L) (tr ++ t) w'.
Proof.
  induction 1 as [w|w o t1 w1 l t2 w2 Hw Ho Hr Hw1 Hh IH]; intros L tr Hi.
  - split; [exact I|]. exists []. rewrite app_nil_r. exact Hi.
  - destruct (I26_mrel _ _ _ _ Ho Hr _ _ Hi) as (P1 & L1 & I1 & _).
    destruct (IH _ _ I1) as (P2 & L2 & I2). split; [apply each_app; auto|].
    exists (L2 ++ L1). rewrite <- app_assoc, app_assoc with (l := tr). exact I2.
Qed.

Lemma I26_boot : I26 [] (ser_boot_ev m) (ser_booted m).
Proof.
  unfold I26. assert (rx_ids (ser_booted m) = []) as -> by (destruct m; reflexivity).
  destruct m as [eid|]; constructor; cbn; try constructor; try tauto; intros; intuition discriminate.
Qed.

Lemma boot_use : each buffer_use [] (ser_boot_ev m).
Proof. destruct m; cbn; tauto. Qed.

Theorem C26_buffers l : Forall (ser_traffic m) l ->
  always no_oom (ser_history fuel app m l) (fun w tr =>
    at_each buffer_use tr /\ NoDup (allocs tr) /\ NoDup (frees tr) /\
    (forall i lo n bs, In (EvBusRx i lo n bs) tr -> In n (frees tr)) /\
    exists lost, Permutation (allocs tr)
      (frees tr ++ lost ++ rx_ids w ++ map fst (queued w false) ++ map fst (queued w true))).
Proof.
  intros Hl. eapply always_mono; [|exact (ser_history_spec l Hl)].
  intros w tr (t & -> & Hh & _). destruct (I26_mhist _ _ _ _ Hh [] _ I26_boot) as (P1 & L & [Hp Hlt Hn Hr]).
  split; [apply each_at_each; apply each_app; split; [apply boot_use|exact P1]|]. split; [exact Hn|]. split.
  { apply (Permutation_NoDup Hp) in Hn. clear - Hn. induction (frees (ser_boot_ev m ++ t)); [constructor|].
    cbn in Hn. inversion Hn; subst. constructor; [|auto]. intros Hin. apply H1. apply in_or_app; auto. }
  split; [intros i lo n bs Hin; destruct (Hr _ _ _ _ Hin); [assumption|discriminate]|].
  exists L. rewrite Hp. unfold held, queued_ids. cbn [held_ids]. rewrite !app_nil_r, <- !app_assoc. reflexivity.
Qed.

(** The buffer of a frame that is rejected at its end is never freed, whatever
    happens afterwards. *)
Lemma I26_quiet i bs : forall (w : world) t w', mhist m w (map (MByte i) bs) t w' ->
  routs (rst w i) bs = [] -> forall L tr n, I26 L tr w ->
  pid (bd_priv (bnd w i)) = Some n \/ In n L ->
  exists L', I26 L' (tr ++ t) w' /\ (pid (bd_priv (bnd w' i)) = Some n \/ In n L').
Proof.
  induction bs as [|c bs IH]; intros w t w' Hh Ho L tr n Hi Hn; inversion Hh as [|? ? t1 w1 ? t2 ? Hw Ht Hr Hw1 Hh']; subst.
  - exists L. rewrite app_nil_r. auto.
  - cbn [routs] in Ho. apply app_eq_nil in Ho. destruct Ho as [Ho Ho'].
    destruct (I26_mrel _ _ _ _ Ht Hr _ _ Hi) as (_ & L1 & I1 & K).
    destruct (mrel_rst _ _ _ _ _ i Ht Hr) as [E _]. unfold mfed in E. cbn in E. rewrite Bool.eqb_reflx in E. cbn in E.
    rewrite app_assoc.
    apply (IH _ _ _ Hh' ltac:(rewrite E; exact Ho') _ _ n I1).
    destruct Hn as [Hn|Hn]; [|right; apply in_or_app; auto].
    destruct (K i c eq_refl Ho n Hn) as [?|?]; [auto|right; apply in_or_app; auto].
Qed.

Lemma mhist_split (w : world) l1 l2 t w' : mhist m w (l1 ++ l2) t w' ->
  exists t1 w1 t2, t = t1 ++ t2 /\ mhist m w l1 t1 w1 /\ mhist m w1 l2 t2 w'.
Proof.
  revert w t. induction l1 as [|o l1 IH]; intros w t Hh; cbn [Datatypes.app] in Hh.
  - exists [], w, t. split; [reflexivity|]. split; [constructor|exact Hh].
  - inversion Hh as [|? ? t1 w1 ? t2 ? Hw Ht Hr Hw1 Hh']; subst.
    destruct (IH _ _ Hh') as (t3 & w3 & t4 & -> & H1 & H2).
    exists (t1 ++ t3), w3, t4. rewrite app_assoc. split; [reflexivity|]. split; [|exact H2].
    eapply MHCons; eassumption.
Qed.

Lemma mhist_last (w : world) l t w' : mhist m w l t w' -> l = [] \/ SI m w'.
Proof.
  induction 1 as [w|w o t1 w1 l t2 w2 Hw Ho Hr Hw1 Hh IH]; [auto|]. right.
  destruct IH as [->|IH]; [|exact IH]. inversion Hh; subst. exact Hw1.
Qed.

Lemma rof_pid s : swf s ->
  match rof s with Idle | Rev | Len => pid s = None | _ => exists n, pid s = Some n end.
Proof.
  unfold swf, rof, pid. destruct (s_st s); cbn.
  1-2: now intros ->.
  - now intros [-> _].
  - intros (p & bs & -> & _). cbn. eauto.
  - intros (p & bs & -> & _). cbn. eauto.
  - intros (p & bs & -> & _). cbn. eauto.
  - intros [(p & bs & -> & _) _]. cbn. eauto.
  - intros (p & bs & -> & _). cbn. eauto.
Qed.

(** The buffer of a frame that is rejected at its end is never freed, whatever
    happens afterwards. *)
Theorem C26_refuted w tr i raw body hi lo c l' :
  ser_reaches fuel app m w tr -> idle w i -> mode_bus m i ->
  Forall is_byte ([126; 1; zlen body] ++ raw ++ [hi; lo; c]) ->
  unescaped raw body -> 4 <= zlen body <= 68 -> hi * 256 + lo <> fcs body \/ c <> 126 ->
  Forall (ser_traffic m) l' ->
  exists n, always no_oom (sexec fuel app w (SRx i ([126; 1; zlen body] ++ raw ++ [hi; lo; c]) :: l'))
    (fun w' t => In n (allocs t) /\ ~ In n (frees t)).
Proof.
  intros Hr Hi Hm Hb Hu Hl Hbad Hl'. exists (m_next (w_m w)).
  assert (Forall (ser_traffic m) (SRx i ([126; 1; zlen body] ++ raw ++ [hi; lo; c]) :: l')) as Hops
    by (constructor; [split; assumption|assumption]).
  eapply always_mono; [|exact (ser_continue w tr _ Hr Hops)].
  intros w' t [Hh _]. destruct (ser_reaches_spec w tr Hr) as [Hw (l0 & t0 & Hl0 & Etr & Hh0)].
  destruct (I26_mhist _ _ _ _ Hh0 [] _ I26_boot) as (_ & L0 & I0). rewrite <- Etr in I0.
  cbn [micro flat_map] in Hh. fold (micro l') in Hh. rewrite map_app, <- app_assoc in Hh.
  apply mhist_split in Hh. destruct Hh as (t1 & w1 & tr2 & -> & Hh1 & Hh).
  apply mhist_split in Hh. destruct Hh as (t2 & w2 & t3 & -> & Hh2 & Hh3).
  cbn [map] in Hh1. apply idle_rst in Hi.
  (* the three header bytes *)
  inversion Hh1 as [|? ? a1 x1 ? b1 ? _ _ R1 V1 H1]; subst.
  inversion H1 as [|? ? a2 x2 ? b2 ? _ _ R2 V2 H2]; subst.
  inversion H2 as [|? ? a3 x3 ? b3 ? _ _ R3 V3 H3]; subst. inversion H3; subst.
  clear Hh1 H1 H2 H3.
  inversion R1 as [|? ? ? ? B1]; subst. inversion R2 as [|? ? ? ? B2]; subst. inversion R3 as [|? ? ? ? B3]; subst.
  clear R1 R2 R3.
  assert (Hq : forall (w : world) c t w' r, SI m w -> SI m w' -> rst w i = r -> rout r c = [] ->
     rnext r c = Rev \/ rnext r c = Len -> byte_rel w i c t w' ->
     t = [] /\ m_next (w_m w') = m_next (w_m w) /\ rst w' i = rnext r c).
  { clear. intros w c t w' r Hw Hw' Er Ho Hn Hr. unfold rst in *.
    destruct Hr as [s' s S1 S2 S3 S4|s' s S1 S2 S3 S4 S5|p bs ap t w1 s' s Ep Hp Hr Hsp S1 S2 S3 S4].
    - rewrite priv_put, Bool.eqb_reflx. fold s in Er. rewrite S2, Er.
      split; [reflexivity|]. split; [unfold put_ser; destruct i; reflexivity|reflexivity].
    - exfalso. pose proof (rof_pid s' S1) as Hpid. rewrite S2 in Hpid. fold s in Er. rewrite Er in Hpid.
      rewrite S5 in Hpid. destruct Hn as [Hn|Hn]; rewrite Hn in Hpid; discriminate.
    - fold s in Er. congruence. }
  destruct (Hq w 126 a1 x1 Idle Hw V1 Hi eq_refl (or_introl eq_refl) B1) as (-> & N1 & E1).
  destruct (Hq x1 1 a2 x2 Rev V1 V2 E1 eq_refl (or_intror eq_refl) B2) as (-> & N2 & E2).
  change (rnext Rev 1) with Len in E2. clear Hq.
  cbn [Datatypes.app] in *. set (n := m_next (w_m w)) in *.
  assert (mtraffic m (MByte i 126) /\ mtraffic m (MByte i 1) /\ mtraffic m (MByte i (zlen body))) as (T1 & T2 & T3).
  { inversion Hb as [|? ? F1 Hb1]; subst. inversion Hb1 as [|? ? F2 Hb2]; subst. inversion Hb2 as [|? ? F3 Hb3]; subst.
    repeat split; auto; apply F1 || apply F2 || apply F3. }
  destruct (I26_mrel _ _ _ _ T1 (MRByte _ _ _ _ _ B1) _ _ I0) as (_ & L1 & I1 & _).
  destruct (I26_mrel _ _ _ _ T2 (MRByte _ _ _ _ _ B2) _ _ I1) as (_ & L2 & I2 & _).
  destruct (I26_mrel _ _ _ _ T3 (MRByte _ _ _ _ _ B3) _ _ I2) as (_ & L3 & I3 & _).
  rewrite !app_nil_r in I3.
  assert (rnext Len (zlen body) = Data (zlen body) [] false) as Erd.
  { cbn [rnext]. replace ((68 <? zlen body) || (zlen body <? 4)) with false by lia. reflexivity. }
  assert (In n (allocs a3) /\ pid (bd_priv (bnd w1 i)) = Some n /\ rst w1 i = Data (zlen body) [] false) as (Hal & Hpid & Ed).
  { clear - B3 E2 V2 N1 N2 Erd. pose proof (rof_pid _ (si_swf _ _ V2 i)) as Hp. unfold rst in *. rewrite E2 in Hp.
    destruct B3 as [s' s S1 S2 S3 S4|s' s S1 S2 S3 S4 S5|p bs ap t w1 s' s Ep Hpk Hr Hsp S1 S2 S3 S4].
    - exfalso. pose proof (rof_pid s' S1) as Hp'. rewrite S2 in Hp'. fold s in E2, Hp. rewrite E2, Erd in Hp'.
      destruct Hp' as (k & Hp'). destruct S4; congruence.
    - rewrite priv_put, Bool.eqb_reflx. split; [left; cbn; congruence|]. split; [cbn in *; congruence|].
      rewrite S2. fold s in E2. rewrite E2. exact Erd.
    - fold s in E2. rewrite E2 in S3. discriminate. }
  destruct (rrun_rest raw body hi lo c Hu Hl) as [F1 F2].
  replace ((hi * 256 + lo =? fcs body) && (c =? 126)) with false in F2 by lia.
  destruct (I26_quiet i _ _ _ _ Hh2 ltac:(rewrite Ed; exact F2) _ _ n I3 (or_introl Hpid)) as (L4 & I4 & Hn).
  assert (In n L4) as Hin.
  { destruct Hn as [Hn|Hn]; [exfalso|exact Hn].
    destruct (mhist_rst _ _ _ _ _ i Hh2) as [G _]. rewrite mfed_bytes, Bool.eqb_reflx, Ed, F1 in G.
    assert (SI m w2) as V4 by (inversion Hh3; subst; [|assumption]; destruct (mhist_last _ _ _ _ Hh2) as [E|E]; [|exact E]; destruct raw; discriminate E).
    pose proof (rof_pid _ (si_swf _ _ V4 i)) as Hp. unfold rst in G. rewrite G in Hp. congruence. }
  destruct (I26_mhist _ _ _ _ Hh3 _ _ I4) as (_ & L5 & I5).
  destruct (I13_live _ _ _ _ n I5) as [_ Hfree].
  { unfold held. rewrite !in_app_iff. auto. }
  split; [rewrite !allocs_app, !in_app_iff; auto|].
  intros Hf. apply Hfree. rewrite !frees_app, !in_app_iff in Hf. rewrite !frees_app, !in_app_iff.
  cbn [frees flat_map In] in Hf. tauto.
Qed.
End Ser.
