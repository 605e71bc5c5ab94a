(** PropPollfd: C68: sides that sleep in poll(2) as mctp_astlpc_init_pollfd tells them
    (astlpc.c 1448-1462) never sleep with work left, and are woken a bounded number of
    times. *)
From Verif Require Import Base Lists Prog PktBuf Core WP Walk CoreRel WalkCore CoreHist Spec SpecRx Crc Astlpc SpecAst AstBasic
  AstWalk PropAst TwoParty DuoInv DuoPast DuoWalk PropDuo SpecDuo DuoMsg PropDuoMsg SpecLive DuoLive PropLive.

Local Notation world := (world astlpc).

(** ** Vocabulary *)

(** The descriptor of side [s] is ready for what it asks for: for POLLOUT when the other
    side has read what [s] wrote last, for POLLIN when there is something that [s] has
    not read. *)
Definition ready (s : bool) (x : astlpc) (k : kcs) : Prop :=
  if pollfd_out x then unread s k = None else unread (negb s) k <> None.

(** Side [s] is not in a call, and poll(2) does not wake it. *)
Definition sleeps (d : duo) (s : bool) : Prop :=
  exists w, d_prog d s = Ret w /\ bd_bus (bnd w false) = true /\ ~ ready s (ast w false) (s_kcs (d_sh d)).

(** [moves] in which mctp_astlpc_poll is only called by a side whose descriptor is ready;
    [n s] is the number of these calls of side [s]. *)
Inductive driven (p : bool -> party) (d : duo) : (bool -> nat) -> (bool -> party) -> duo -> Prop :=
| DvRefl : driven p d (fun _ => O) p d
| DvStep s n p1 d1 d2 : driven p d n p1 d1 -> dstep s d1 d2 -> driven p d n p1 d2
| DvCall s o w n p1 d1 : driven p d n p1 d1 -> d_prog d1 s = Ret w -> bd_bus (bnd w false) = true ->
    ast_traffic o -> o <> APoll false ->
    driven p d n (upd p1 s (more (p1 s) o)) (begin_call s w o p1 d1)
| DvPoll s w n p1 d1 : driven p d n p1 d1 -> d_prog d1 s = Ret w -> bd_bus (bnd w false) = true ->
    ready s (ast w false) (s_kcs (d_sh d1)) ->
    driven p d (upd n s (S (n s))) (upd p1 s (more (p1 s) (APoll false))) (begin_call s w (APoll false) p1 d1).

Lemma driven_moves p d n q e : driven p d n q e -> moves p d q e.
Proof. induction 1; [apply MvRefl|eapply MvStep|eapply MvCall|eapply MvCall]; try eassumption. reflexivity. Qed.

(** ** A poll begun when ready *)
Definition woken (s c : bool) (st : Z) : Prop := if c then oflag s st = false else iflag s st = true.
Definition awake_h (s c : bool) : handler unit := mkH
  (fun r g Q => match r with KStatus => forall st, woken s c st -> Q (Some st) g | KData => True end)
  (fun _ _ _ _ => True)
  (fun _ _ _ _ => False)
  (fun _ _ _ _ => False)
  (fun _ _ _ => False)
  (fun _ _ => False)
  (fun _ _ _ => False).
Lemma awake_mono s c : hmono (awake_h s c).
Proof. constructor; cbn; auto. intros []; auto. Qed.

Lemma wp_awake_poll app s (w : world) : m_dead (w_m w) = false -> a_bmc (ast w false) = s ->
  wp (awake_h s (pollfd_out (ast w false))) (aexec_op app w (APoll false)) tt (fun _ _ => False).
Proof.
  intros Hd Hs. cbn [aexec_op]. rewrite Hd. unfold poll. set (x := ast w false) in *.
  set (c := pollfd_out x). apply wp_bind; [apply awake_mono|].
  eapply wp_mono with (Q := fun _ _ => False); [apply awake_mono|intros [w' rc] g []|].
  assert (forall m (k : Z -> prog astlpc) Q, c = true -> wp (awake_h s c) (bind (kcs_send x m) k) tt Q) as Hsend.
  { intros m k Q Hc. rewrite Hc. unfold kcs_send. cbn [bind wp awake_h h_kread woken]. intros st Ho.
    rewrite (write_ready' s x st Hs), Ho. cbn [negb bind wp awake_h h_kwrite]. exact I. }
  apply wp_bind; [apply awake_mono|].
  eapply wp_mono with (Q := fun a _ => a = x /\ ab_st (a_rx x) <> Prepared); [apply awake_mono| |].
  2:{ unfold poll_release_rx. destruct (ab_st (a_rx x)) eqn:E; try (cbn [wp]; split; [reflexivity|discriminate]).
      apply Hsend. unfold c, pollfd_out. now rewrite E. }
  intros a [] [-> Hr]. apply wp_bind; [apply awake_mono|].
  eapply wp_mono with (Q := fun a _ => a = x /\ ab_st (a_tx x) <> Prepared); [apply awake_mono| |].
  2:{ unfold poll_release_tx. destruct (ab_st (a_tx x)) eqn:E; try (cbn [wp]; split; [reflexivity|discriminate]).
      apply Hsend. unfold c, pollfd_out. rewrite E. now destruct (ab_st (a_rx x)). }
  intros a [] [-> Ht]. cbv zeta.
  assert (c = false) as Ec by (unfold c, pollfd_out; destruct (ab_st (a_rx x)), (ab_st (a_tx x)); congruence).
  rewrite Ec. cbn [wp awake_h h_kread woken]. intros st Hi. rewrite (read_ready' s x st Hs), Hi. cbn [negb wp awake_h h_kread]. exact I.
Qed.

(** Readiness lasts until the side does something about it. *)
Definition lasts (s c : bool) (k : kcs) : Prop := if c then unread s k = None else unread (negb s) k <> None.

Lemma step_lasts p d s c s' e : kept_inv p d -> dstep s' d e -> acts (d_tr e s) = acts (d_tr d s) ->
  lasts s c (s_kcs (d_sh d)) -> lasts s c (s_kcs (d_sh e)).
Proof.
  intros (gb & gh & (W & (_ & _ & _ & _ & HSt) & _) & _) (sh & pr & t & Ha & ->) Hac HL. cbn [d_sh d_tr] in *.
  unfold upd in Hac. destruct (Bool.eqb s' s) eqn:Es.
  - apply eqb_prop in Es. subst s'. assert (acts t = 0) as Ht by (rewrite acts_app in Hac; lia).
    replace (s_kcs sh) with (s_kcs (d_sh d)); [exact HL|].
    destruct (d_prog d s) as [x|f|r k|r v k|off len k|off bs k|bs k|k|ev k]; cbn [advance] in Ha; try discriminate.
    + destruct r; cbn [kread] in Ha; [|injection Ha as <- <- <-; reflexivity].
      destruct s; injection Ha as <- <- <-; discriminate Ht.
    + injection Ha as <- <- <-. discriminate Ht.
    + destruct (in_window _ _); injection Ha as <- <- <-; reflexivity.
    + destruct (in_window _ _); injection Ha as <- <- <-; reflexivity.
    + injection Ha as <- <- <-. reflexivity.
    + injection Ha as <- <- <-. reflexivity.
    + injection Ha as <- <- <-. reflexivity.
  - clear Hac. assert (s' = negb s) by (destruct s, s'; reflexivity || discriminate Es). subst s'. clear Es. specialize (W (negb s)).
    destruct (d_prog d (negb s)) as [x|f|r k|r v k|off len k|off bs k|bs k|k|ev k]; cbn [advance] in Ha; try discriminate.
    + destruct r; cbn [kread] in Ha; [|injection Ha as <- <- <-; exact HL].
      destruct s, c; cbn [negb] in Ha; injection Ha as <- <- <-; cbn [s_kcs lasts negb unread k_obf k_ibf k_odr k_idr] in *; auto.
    + cbn [wp duo_h h_kwrite] in W. injection Ha as <- <- <-. destruct r.
      * destruct s, c; cbn [s_kcs kwrite lasts negb unread k_obf k_ibf k_odr k_idr] in *; auto; discriminate.
      * destruct W as [Hb W]. destruct s; [discriminate Hb|]. cbn [negb] in *.
        destruct c; cbn [s_kcs kwrite lasts negb unread k_obf k_ibf k_odr k_idr] in *; [exact HL|].
        destruct W as [(-> & Hph & _)|(-> & _)].
        -- exfalso. apply HL. pose proof (st_bout _ _ _ _ _ HSt) as Hb1. pose proof (st_fin _ _ _ _ _ HSt) as Hf.
           cbn [gpick] in Hph. destruct (g_fin gh); [specialize (Hf eq_refl); lia|]. rewrite Hph in Hb1. exact Hb1.
        -- cbn. now rewrite Bool.andb_true_r.
    + destruct (in_window _ _); injection Ha as <- <- <-; exact HL.
    + destruct (in_window _ _); injection Ha as <- <- <-; exact HL.
    + injection Ha as <- <- <-. exact HL.
    + injection Ha as <- <- <-. exact HL.
    + injection Ha as <- <- <-. exact HL.
Qed.

Lemma lasts_woken p d s c : kept_inv p d -> lasts s c (s_kcs (d_sh d)) -> woken s c (kstatus (s_kcs (d_sh d))).
Proof.
  intros (gb & gh & (_ & (_ & _ & _ & _ & HSt) & _) & _) HL. destruct (kstatus_bits _ (up_cases _ _ _ _ _ HSt)) as (_ & _ & _ & B4).
  unfold woken, lasts, iflag in *. destruct c; rewrite B4; [now rewrite HL|]. now destruct (unread (negb s) _).
Qed.

Lemma step_awake p d s c e : kept_inv p d -> dstep s d e -> acts (d_tr e s) = acts (d_tr d s) ->
  lasts s c (s_kcs (d_sh d)) ->
  wp (awake_h s c) (d_prog d s) tt (fun _ _ => False) -> wp (awake_h s c) (d_prog e s) tt (fun _ _ => False).
Proof.
  intros HK (sh & pr & t & Ha & ->) Hs HL W. pose proof (lasts_woken _ _ _ _ HK HL) as Hw.
  cbn [d_tr d_sh d_prog] in *. unfold upd in *. rewrite eqb_reflx in *.
  rewrite acts_app in Hs. assert (acts t = 0) as Ht by lia. clear Hs.
  destruct (d_prog d s) as [x|f|r k|r v k|off len k|off bs k|bs k|k|ev k]; cbn [advance] in Ha; try discriminate; try (destruct W; fail).
  - destruct r; cbn [kread] in Ha; [destruct s; injection Ha as <- <- <-; discriminate Ht|].
    injection Ha as <- <- <-. cbn [wp awake_h h_kread] in W. exact (W _ Hw).
  - injection Ha as <- <- <-. discriminate Ht.
Qed.

(** Each poll of a side makes it exchange something; [d] is where the count begins. *)
Definition counted (d e : duo) (n : bool -> nat) (s : bool) : Prop :=
  Z.of_nat (n s) <= acts (d_tr e s) - acts (d_tr d s) \/
  (Z.of_nat (n s) <= acts (d_tr e s) - acts (d_tr d s) + 1 /\
   exists c, lasts s c (s_kcs (d_sh e)) /\ wp (awake_h s c) (d_prog e s) tt (fun _ _ => False)).

Lemma driven_counted p d n q e : driven p d n q e -> sized p -> kept_inv p d -> forall s, counted d e n s.
Proof.
  intros D Hs K. induction D as [|s' n q d1 d2 D IH Hd|s' o w n q d1 D IH E Eb Ho Hn|s' w n q d1 D IH E Eb Hr]; intros s.
  - left. lia.
  - pose proof (kept_moves _ _ _ _ (driven_moves _ _ _ _ _ D) Hs K) as K1. specialize (IH s).
    pose proof (moves_acts _ _ _ _ (MvStep q d1 s' q d1 d2 (MvRefl _ _) Hd) s) as Ha.
    destruct (Z.eq_dec (acts (d_tr d2 s)) (acts (d_tr d1 s))) as [Ea|Ea].
    + destruct IH as [IH|(IH & c & HL & W)]; [left; lia|]. right. split; [lia|]. exists c.
      split; [exact (step_lasts _ _ _ _ _ _ K1 Hd Ea HL)|].
      destruct (Bool.eqb s' s) eqn:Es.
      * apply eqb_prop in Es. subst s'. exact (step_awake _ _ _ _ _ K1 Hd Ea HL W).
      * destruct Hd as (sh & pr & t & _ & ->). cbn [d_prog]. unfold upd. rewrite Es. exact W.
    + left. destruct IH as [IH|(IH & _)]; lia.
  - specialize (IH s). unfold counted in *. cbn [begin_call d_tr d_sh d_prog]. unfold upd. destruct (Bool.eqb s' s) eqn:Es; [|exact IH].
    apply eqb_prop in Es. subst s'. destruct IH as [IH|(_ & c & _ & W)]; [left; exact IH|]. rewrite E in W. destruct W.
  - specialize (IH s). unfold counted in *. cbn [begin_call d_tr d_sh d_prog]. unfold upd. destruct (Bool.eqb s' s) eqn:Es; [|exact IH].
    apply eqb_prop in Es. subst s'. destruct IH as [IH|(_ & c & _ & W)]; [|rewrite E in W; destruct W].
    right. split; [lia|]. exists (pollfd_out (ast w false)). split; [exact Hr|].
    destruct (kept_moves _ _ _ _ (driven_moves _ _ _ _ _ D) Hs K) as (gb & gh & (W & _) & _). specialize (W s). rewrite E in W.
    cbn [wp] in W. unfold Fin_ok in W. rewrite Eb in W. destruct W as (_ & Hw & _ & J2 & _).
    apply wp_awake_poll; [exact (wf_dead _ _ Hw)|exact (co_mode _ _ _ _ J2)].
Qed.

(** ** C68 *)

(** No lost wake-up and no deadlock: when both sides sleep in poll(2), every packet that
    either has queued has reached the core of the other. *)
Theorem C68_asleep p d : session p d -> compatible p -> (forall s, enabled d s) -> (forall s, sleeps d s) ->
  forall s, received (d_tr d (negb s)) = accepted d s /\ offered (d_tr d s) = accepted d s /\ unread s (s_kcs (d_sh d)) = None.
Proof.
  intros Hse Hc Hen Hsl. destruct (kept_session _ _ Hse Hc) as [Hs K].
  destruct K as (gb & gh & HY & HT).
  destruct HY as (W & (D1 & D2 & DL1 & DL2 & HSt) & T).
  (* the owners of the buffers *)
  assert (forall w, d_prog d false = Ret w -> bd_bus (bnd w false) = true -> g_act gh = true) as Hact.
  { intros w E Eb. specialize (W false). rewrite E in W. cbn [wp] in W. destruct (sized_range p Hs) as [HN _].
    unfold Fin_ok in W. rewrite Eb in W. destruct W as (Hpa & _ & _ & _ & J3). rewrite (T false) in Hpa.
    pose proof (past_up _ _ _ _ HN _ _ _ _ Hpa (Hen false)) as Hu. unfold up in Hu.
    destruct J3 as [A0 A1|A0 A1|A1 A2 A3 A4 A5 A6 A7]; try (rewrite A1 in Hu; discriminate). apply A1. }
  assert (forall s w, d_prog d s = Ret w -> bd_bus (bnd w false) = true ->
    (ab_st (a_rx (ast w false)) = Prepared -> g_rx (gpick gb gh s) = RHeld) /\
    (ab_st (a_tx (ast w false)) = Prepared -> exists q, g_tx (gpick gb gh s) = TFull q)) as Hown.
  { intros s w E Eb. specialize (W s). rewrite E in W. cbn [wp] in W.
    destruct (sized_range p Hs) as [HN _].
    unfold Fin_ok in W. rewrite Eb in W. destruct W as (Hpa & _ & _ & _ & J3). rewrite (T s) in Hpa.
    pose proof (past_up _ _ _ _ HN _ _ _ _ Hpa (Hen s)) as Hu. unfold up in Hu.
    destruct J3 as [A0 A1|A0 A1|A1 A2 A3 A4 A5 A6 A7]; try (rewrite A1 in Hu; discriminate).
    unfold ast. cbn [bnd]. unfold rxrel, txrel in *.
    split; intros H; rewrite H in *; assumption. }
  set (k := s_kcs (d_sh d)) in *.
  assert (forall s, exists m o, dir (Nsz p) (unread s k) (unread (negb s) k) (gpick gb gh s) (gpick gb gh (negb s)) m o) as Hdir.
  { intros []; cbn [negb gpick]; eauto. }
  (* not both sides wait for their register *)
  assert (forall s w, d_prog d s = Ret w -> pollfd_out (ast w false) = false) as Hin.
  { intros s w E. destruct (pollfd_out (ast w false)) eqn:Ep; [exfalso|reflexivity].
    destruct (Hsl s) as (w' & E' & Eb & Hn). rewrite E in E'. injection E' as <-.
    destruct (Hsl (negb s)) as (v & Ev & Ebv & Hnv).
    unfold ready in Hn, Hnv. rewrite Ep in Hn. rewrite negb_involutive in Hnv. fold k in Hn, Hnv.
    destruct (pollfd_out (ast v false)) eqn:Epv; [|tauto].
    destruct (Hown _ _ E Eb) as [A1 A2]. destruct (Hown _ _ Ev Ebv) as [B1 B2].
    unfold pollfd_out in Ep, Epv.
    assert (g_rx (gpick gb gh s) = RHeld \/ exists q, g_tx (gpick gb gh s) = TFull q) as HA.
    { destruct (ab_st (a_rx (ast w false))), (ab_st (a_tx (ast w false))); try discriminate; auto. }
    assert (g_rx (gpick gb gh (negb s)) = RHeld \/ exists q, g_tx (gpick gb gh (negb s)) = TFull q) as HB.
    { destruct (ab_st (a_rx (ast v false))), (ab_st (a_tx (ast v false))); try discriminate; auto. }
    assert (7 <= g_ph gb) as Hph.
    { assert (g_act gh = true) as Ha; [|exact (st_act _ _ _ _ _ HSt Ha)].
      destruct s; [exact (Hact _ Ev Ebv)|exact (Hact _ E Eb)]. }
    assert (unread false k = Some 1 \/ unread false k = Some 2) as Hv.
    { pose proof (st_hout _ _ _ _ _ HSt) as Ho. replace (g_ph gb <? 4) with false in Ho by (symmetry; apply Z.ltb_ge; clear -Hph; lia).
      fold k in Ho. destruct Ho as [Ho|[_ Ho]]; [|exact Ho]. destruct s; tauto. }
    assert ((g_rx gh = RHeld \/ exists q, g_tx gh = TFull q) /\ (g_rx gb = RHeld \/ exists q, g_tx gb = TFull q)) as [HH HBm].
    { destruct s; split; assumption. }
    destruct (Hdir false) as (m & o & Dh). destruct (Hdir true) as (m' & o' & Db). cbn [negb gpick] in Dh, Db.
    unfold dir in Dh, Db. cbn zeta in Dh, Db. clear -Hv HH HBm Dh Db.
    destruct Hv as [Hv|Hv]; rewrite Hv in Dh, Db.
    - destruct HH as [HH|[q HH]]; rewrite HH in *; [|destruct Dh as (_ & Dh & _); congruence].
      destruct HBm as [HB|[q HB]]; rewrite HB in *.
      + destruct (g_tx gh); try (destruct Dh as (? & _); discriminate). destruct Dh as (Dh & _). congruence.
      + destruct Db as (? & _); discriminate.
    - destruct HBm as [HB|[q HB]]; rewrite HB in *; [|destruct Db as (_ & _ & Db & _); congruence].
      destruct HH as [HH|[q HH]]; rewrite HH in *.
      + destruct (g_tx gb); try (destruct Db as (? & _); discriminate). destruct Db as (_ & Db & _). congruence.
      + destruct Dh as (? & _); discriminate. }
  assert (forall s, unread s k = None) as Hun.
  { intros s. destruct (Hsl (negb s)) as (v & Ev & Ebv & Hnv). unfold ready in Hnv. rewrite (Hin _ _ Ev), negb_involutive in Hnv.
    fold k in Hnv. destruct (unread s k); [exfalso; apply Hnv; discriminate|reflexivity]. }
  assert (forall s, exists pa da wa, moves p d pa da /\ moves pa da p d /\ d_prog da s = Ret wa /\ bd_bus (bnd wa false) = true /\
    ab_st (a_rx (ast wa false)) <> Prepared /\ ab_st (a_tx (ast wa false)) <> Prepared) as Hidle.
  { intros s. destruct (Hsl s) as (w & E & Eb & _). exists p, d, w. pose proof (Hin _ _ E) as Hp.
    repeat (split; [solve [apply MvRefl|assumption]|]). unfold pollfd_out in Hp.
    destruct (ab_st (a_rx (ast w false))), (ab_st (a_tx (ast w false))); try discriminate; split; discriminate. }
  intros s. cut ((received (d_tr d (negb s)) = accepted d s /\ offered (d_tr d s) = accepted d s) /\ unread s k = None); [tauto|]. split; [|apply Hun]. assert (still d d) as Hst by (intros i; reflexivity).
  destruct (both_idle p d p d Hse Hc Hen (MvRefl _ _) Hst Hun Hidle s) as [Ho [r Hr]].
  destruct (Hsl s) as (w & E & Eb & _).
  assert (exists h, accepted d s = offered (d_tr d s) ++ h) as (h & Hh).
  { specialize (W s). rewrite E in W. cbn [wp] in W. destruct (sized_range p Hs) as [HN _].
    unfold Fin_ok in W. rewrite Eb in W. destruct W as (Hpa & _). rewrite (T s) in Hpa.
    destruct (past_Sinv _ HN _ _ _ _ _ _ _ Hpa) as [_ _ _ [_ Hf] _]. eexists. exact Hf. }
  rewrite <- Ho, Hr. rewrite Ho, Hh in Hr. rewrite <- app_assoc in Hr.
  assert (h ++ r = []) as Hn.
  { apply (f_equal (@length _)) in Hr. rewrite app_length in Hr. apply length_zero_iff_nil. lia. }
  apply app_eq_nil in Hn as [_ ->]. rewrite app_nil_r. auto.
Qed.

(** Hence the application of each side has been given all messages the other has asked to
    transmit to it, and nothing else. *)
Theorem C68_heard p d s : session p d -> compatible p -> (forall i, enabled d i) -> (forall i, sleeps d i) ->
  p_mtu (p false) <= 4096 -> p_eid (p s) <> 0 -> Forall (fun r => zlen (r_msg r) <= 65536) (said_by p d s) ->
  listening (p_calls (p (negb s))) ->
  heard (d_tr d (negb s)) = due p d s.
Proof.
  intros Hse Hc Hen Hsl Hmtu Heid Hsz Hl.
  destruct (C68_asleep p d Hse Hc Hen Hsl s) as (Hdel & _).
  assert (forall i, exists w, past i (p_app (p i)) (p_mtu (p false) + 4) (p_eid (p i)) false (p_calls (p i)) w (d_tr d i)) as Hpast.
  { intros i. destruct (Hsl i) as (w & E & Eb & _). exists w.
    destruct (kept_session _ _ Hse Hc) as [_ (gb & gh & (W & _ & T) & _)].
    specialize (W i). rewrite E in W. cbn [wp] in W. unfold Fin_ok in W. rewrite Eb in W.
    destruct W as (W & _). rewrite (T i) in W. exact W. }
  assert (68 <= p_mtu (p false) + 4) as HN by (unfold compatible in Hc; lia).
  destruct (Hpast s) as (ws & Ps). destruct (Hpast (negb s)) as (wr & Pr).
  destruct (past_Sinv _ HN _ _ _ _ _ _ _ Ps) as [_ _ _ _ (acc & Hp & Hsp)].
  destruct (Hsp [] ltac:(discriminate)) as [Ht _]. rewrite app_nil_r in Ht.
  assert (packs (p_mtu (p false) + 4) (p_eid (p s)) (said_by p d s) (accepted d s)) as Hpk.
  { unfold said_by, said. rewrite Ht. cbn [t_said requests flat_map pend]. rewrite app_nil_r. exact Hp. }
  destruct (past_Rinv _ HN _ _ _ _ _ _ _ Pr) as [_ Hh].
  destruct (Hh [] ltac:(discriminate)) as [_ [_ _ Hhe _]]; [rewrite app_nil_r; exact Hl|].
  rewrite Hhe. rewrite <- (due_outs p d s Hmtu Heid Hsz _ Hpk), Hdel. reflexivity.
Qed.

(** The same when some side sleeps and the other polls by itself: as long as nothing is
    exchanged, there was nothing left to do when the period began. *)
Theorem C68_progress p1 d1 p2 d2 : session p1 d1 -> compatible p1 -> (forall s, enabled d1 s) -> moves p1 d1 p2 d2 ->
  (forall s, whole_poll s p1 d1 p2 d2 \/ sleeps d2 s) -> activity d1 < activity d2 \/
  forall s, received (d_tr d2 (negb s)) = offered (d_tr d2 s) /\
            exists rest, received (d_tr d2 (negb s)) = accepted d1 s ++ rest.
Proof.
  intros Hse Hc Hen M12 Hws.
  assert (forall s, whole_poll s p1 d1 p2 d2 -> sleeps d2 (negb s) -> activity d1 < activity d2 \/
    forall s, received (d_tr d2 (negb s)) = offered (d_tr d2 s) /\
            exists rest, received (d_tr d2 (negb s)) = accepted d1 s ++ rest) as Hmix.
  { clear Hws. intros s Hw Hsl. pose proof (moves_acts _ _ _ _ M12) as A12.
    destruct (Z.lt_ge_cases (activity d1) (activity d2)) as [Hlt|Hge]; [left; exact Hlt|right].
    assert (still d1 d2) as Hst.
    { unfold activity in Hge. pose proof (A12 true). pose proof (A12 false). intros []; lia. }
    destruct (whole_settled _ _ _ _ _ Hse Hc Hen Hw Hst) as (pa & da & wa & M1 & M4 & Ea & Ba & Hi & Ho).
    destruct (kept_session _ _ Hse Hc) as [Hs1 K1].
    destruct K1 as (gb1 & gh1 & (_ & (_ & _ & _ & _ & HSt) & _) & _). destruct (kstatus_bits _ (up_cases _ _ _ _ _ HSt)) as (_ & _ & _ & B4).
    unfold iflag in Hi. rewrite B4 in Hi, Ho. pose proof (moves_still _ _ _ _ M12 Hst) as Ek. rewrite <- Ek in Hi, Ho.
    destruct Hsl as (v & Ev & Ebv & Hnv). unfold ready in Hnv. rewrite negb_involutive in Hnv.
    destruct (unread (negb s) (s_kcs (d_sh d2))) eqn:E1; [discriminate|].
    destruct (pollfd_out (ast v false)) eqn:Ep; [tauto|].
    destruct (unread s (s_kcs (d_sh d2))) eqn:E2; [exfalso; apply Hnv; discriminate|].
    refine (both_idle p1 d1 p2 d2 Hse Hc Hen M12 Hst _ _).
    - intros i. destruct i, s; assumption.
    - intros i. destruct (Bool.eqb i s) eqn:Ei.
      + apply eqb_prop in Ei. subst i. exists pa, da, wa. repeat (split; [assumption|]). split; intros H; discriminate Ho; auto.
      + assert (i = negb s) by (destruct i, s; reflexivity || discriminate Ei). subst i. exists p2, d2, v.
        repeat (split; [solve [assumption|apply MvRefl]|]). unfold pollfd_out in Ep.
        destruct (ab_st (a_rx (ast v false))), (ab_st (a_tx (ast v false))); try discriminate; split; discriminate. }
  destruct (Hws true) as [H1|H1], (Hws false) as [H2|H2].
  - apply (C57_progress p1 d1 p2 d2 Hse Hc Hen). intros []; assumption.
  - exact (Hmix true H1 H2).
  - exact (Hmix false H2 H1).
  - right. assert (session p2 d2) as Hse2 by exact (session_moves _ _ _ _ Hse M12).
    assert (compatible p2) as Hc2 by exact (compatible_moves _ _ _ _ Hc M12).
    intros s. destruct (C68_asleep p2 d2 Hse2 Hc2 (fun i => enabled_more _ _ _ _ i M12 (Hen i)) ltac:(intros []; assumption) s) as (Hr & Ho & _).
    split; [congruence|]. rewrite Hr. unfold accepted. destruct (moves_tr _ _ _ _ M12 s) as (t1 & ->).
    fold (enq (d_tr d1 s)). fold (enq (d_tr d1 s ++ t1)). rewrite enq_app. eexists. reflexivity.
Qed.

(** No busy waiting: the number of times a side is woken is at most 34 and five for each
    packet passed to the bindings in the meantime. *)
Theorem C68_wakeups p d n q e : session p d -> compatible p -> driven p d n q e ->
  Z.of_nat (n true) + Z.of_nat (n false) <= 5 * (passed e - passed d) + 34.
Proof.
  intros Hse Hc D. destruct (kept_session _ _ Hse Hc) as [Hs K]. pose proof (driven_counted _ _ _ _ _ D Hs K) as Hn.
  pose proof (driven_moves _ _ _ _ _ D) as M. pose proof (activity_bounds _ _ Hse Hc) as B1.
  pose proof (activity_bounds _ _ (session_moves _ _ _ _ Hse M) (compatible_moves _ _ _ _ Hc M)) as B2.
  unfold activity in *. assert (forall s, Z.of_nat (n s) <= acts (d_tr e s) - acts (d_tr d s) + 1) as Hb.
  { intros s. destruct (Hn s) as [H|[H _]]; lia. }
  pose proof (Hb true). pose proof (Hb false). lia.
Qed.
