(** PropLive: C57: the two sides of the astlpc channel never wait for each other. *)
From Verif Require Import Base Lists Prog PktBuf Core WP Walk CoreRel WalkCore CoreHist Spec SpecRx Crc Astlpc SpecAst AstBasic
  AstWalk PropAst TwoParty DuoInv DuoPast DuoWalk PropDuo SpecDuo DuoMsg PropDuoMsg SpecLive DuoLive.

Local Notation world := (world astlpc).

(** ** What a period without an exchange tells about the ghost state *)
Lemma cnt_still f t : (forall e, f e = true -> stirs e = true) -> acts t = 0 -> cnt f t = 0.
Proof.
  intros Hf. unfold acts, cnt. induction t as [|e t IH]; [reflexivity|]. cbn [filter]. specialize (Hf e).
  destruct (f e), (stirs e); intros H; try (specialize (Hf eq_refl); discriminate); unfold zlen in *; cbn [length] in *; try lia.
Qed.

Lemma tally_still g1 g2 t : tally g1 -> tally g2 -> g_tr g2 = g_tr g1 ++ t -> acts t = 0 ->
  g_dl g1 = None -> g_rx g1 = RNo -> g_tx g1 = TNo \/ g_tx g1 = TFree ->
  g_dl g2 = None /\ g_rx g2 = RNo /\ g_tx g2 = g_tx g1 /\ offered (g_tr g2) = offered (g_tr g1).
Proof.
  intros T1 T2 Et Ha E1 E2 E3. unfold tally in *. cbn zeta in *. rewrite Et, !cnt_app in T2. rewrite E1, E2 in T1. cbn [out] in T1.
  assert (cnt is_call t = 0) as C1 by (apply cnt_still; [intros []; cbn; discriminate || reflexivity|exact Ha]).
  assert (cnt (is_w 1) t = 0) as C2 by (apply cnt_still; [intros []; cbn; discriminate || reflexivity|exact Ha]).
  assert (cnt (is_w 2) t = 0) as C3 by (apply cnt_still; [intros []; cbn; discriminate || reflexivity|exact Ha]).
  assert (cnt (is_r 1) t = 0) as C4 by (apply cnt_still; [intros []; cbn; try discriminate; destruct r; discriminate || reflexivity|exact Ha]).
  assert (cnt (is_r 2) t = 0) as C5 by (apply cnt_still; [intros []; cbn; try discriminate; destruct r; discriminate || reflexivity|exact Ha]).
  pose proof (cnt_pos is_rx t) as C6. rewrite C1, C2, C3, C4, C5 in T2. change (zlen (@nil (list Z))) with 0 in T1.
  assert (offered t = []) as Eo.
  { pose proof (offered_cnt t) as H. rewrite C1 in H. destruct (offered t); [reflexivity|]. unfold zlen in H. cbn [length] in H. lia. }
  assert (forall x, match g_dl g2 with Some p => zlen (out (Some p)) = x -> x = 1 | None => True end) as Hd.
  { destruct (g_dl g2); [|auto]. intros x H. rewrite <- H. reflexivity. }
  rewrite Et, offered_app, Eo, app_nil_r.
  destruct (g_dl g2) as [p|]; [exfalso; specialize (Hd _ eq_refl)|clear Hd]; destruct E3 as [E3|E3]; rewrite E3 in T1; try rewrite E3;
    cbn [out] in *; change (zlen (@nil (list Z))) with 0 in *; clear -T1 T2 C6 Hd || clear -T1 T2 C6;
    destruct (g_tx g2), (g_rx g2); try (exfalso; lia); auto.
Qed.

Lemma enabled_more p d q e s : moves p d q e -> enabled d s -> enabled e s.
Proof. intros M H. unfold enabled in *. destruct (moves_tr _ _ _ _ M s) as (t & ->). apply in_or_app. auto. Qed.

(** A side that has returned with its bus enabled and no command pending. *)
Lemma at_rest p d s w : sized p -> kept_inv p d -> d_prog d s = Ret w -> bd_bus (bnd w false) = true -> enabled d s ->
  exists gb gh, sys (Ssz p) (Nsz p) (Fin_ok p (Ssz p) (Nsz p)) d gb gh /\ tallied gb gh /\
   m_dead (w_m w) = false /\ a_bmc (ast w false) = s /\
   let g := gpick gb gh s in
   g_dl g = None /\ (ab_st (a_rx (ast w false)) <> Prepared -> g_rx g = RNo) /\
   (ab_st (a_tx (ast w false)) <> Prepared -> g_tx g = TNo \/ (g_tx g = TFree /\ accepted d s = offered (d_tr d s))).
Proof.
  intros Hs (gb & gh & HY & HT) E Eb He. exists gb, gh. split; [exact HY|]. split; [exact HT|].
  destruct (sized_range p Hs) as [HN HS]. destruct HY as (W & L & T). specialize (W s). rewrite E in W. cbn [wp] in W.
  unfold Fin_ok in W. rewrite Eb in W. destruct W as (Hpa & Hw & J1 & J2 & J3). rewrite (T s) in Hpa.
  pose proof (past_up _ _ _ _ HN _ _ _ _ Hpa He) as Hu. pose proof (past_clear _ _ _ _ HN _ _ _ _ Hpa) as Hcl.
  destruct (past_Sinv _ HN _ _ _ _ _ _ _ Hpa) as [_ _ _ [_ Hf] _].
  split; [exact (wf_dead _ _ Hw)|]. split; [exact (co_mode _ _ _ _ J2)|]. cbn zeta. split; [exact (co_dl _ _ _ _ J2)|].
  unfold up in Hu. destruct J3 as [A0 A1|A0 A1|A1 A2 A3 A4 A5 A6 A7]; try (rewrite A1 in Hu; discriminate).
  unfold ast. cbn [bnd]. split.
  - intros Hp. unfold rxrel in A6. destruct (ab_st (a_rx (bd_priv (w_b0 w)))); congruence || contradiction || exact A6.
  - intros Hp. unfold txrel in A5. destruct (ab_st (a_tx (bd_priv (w_b0 w)))) eqn:Es; try (congruence || contradiction); [|left; exact A5].
    right. split; [exact A5|]. destruct A7 as [_ [A7 _]]. destruct (A7 Es) as [A8|[]].
    unfold ost in A8. destruct (bget w false) as [b|] eqn:Ebg; [|discriminate]. injection A8 as A8.
    assert (held w = []) as Hh.
    { rewrite (held_bget w b Ebg). rewrite (Hcl b Ebg); [reflexivity|]. rewrite A8. discriminate. }
    rewrite Hh, app_nil_r in Hf. exact Hf.
Qed.

(** Two sides that are idle, each at some moment of a period without an exchange. *)
Lemma both_idle_g p1 d1 p2 d2 : session p1 d1 -> compatible p1 -> (forall s, enabled d1 s) -> moves p1 d1 p2 d2 -> still d1 d2 ->
  (forall s, unread s (s_kcs (d_sh d2)) = None) ->
  (forall s, exists pa da wa, moves p1 d1 pa da /\ moves pa da p2 d2 /\ d_prog da s = Ret wa /\ bd_bus (bnd wa false) = true /\
    ab_st (a_rx (ast wa false)) <> Prepared /\ ab_st (a_tx (ast wa false)) <> Prepared) ->
  exists gb gh, sys (Ssz p2) (Nsz p2) (Fin_ok p2 (Ssz p2) (Nsz p2)) d2 gb gh /\ tallied gb gh /\
  forall s, g_tx (gpick gb gh s) = TFree /\ received (d_tr d2 (negb s)) = offered (d_tr d2 s) /\
            exists rest, received (d_tr d2 (negb s)) = accepted d1 s ++ rest.
Proof.
  intros Hse Hc Hen M12 Hst Hun Hpoll. destruct (kept_session _ _ Hse Hc) as [Hs1 K1].
  (* the ghost state at the end *)
  assert (kept_inv p2 d2) as (gb2 & gh2 & HY2 & HT2).
  { apply (kept_moves _ _ _ _ M12 Hs1). destruct (kept_session _ _ Hse Hc) as [_ K]. exact K. }
  assert (forall s, let g2 := gpick gb2 gh2 s in g_dl g2 = None /\ g_rx g2 = RNo /\ (g_tx g2 = TNo \/
      (g_tx g2 = TFree /\ prefix (accepted d1 s) (offered (g_tr g2))))) as Hg2.
  { intros s. destruct (Hpoll s) as (pa & da & wa & M1 & M4 & Ea & Ba & Hi & Ho).
    destruct (at_rest pa da s wa) as (gb & gh & HY & HT & _ & _ & G1 & G2 & G3).
    - exact (sized_setup _ _ (moves_setup _ _ _ _ M1) Hs1).
    - apply (kept_moves _ _ _ _ M1 Hs1). destruct (kept_session _ _ Hse Hc) as [_ K]. exact K.
    - exact Ea.
    - exact Ba.
    - exact (enabled_more _ _ _ _ _ M1 (Hen s)).
    - pose proof (G2 Hi) as G2'.
      destruct (moves_tr _ _ _ _ M4 s) as (t & Et).
      pose proof (moves_acts _ _ _ _ M1 s) as Q1. pose proof (moves_acts _ _ _ _ M4 s) as Q4. pose proof (Hst s) as Q5.
      assert (acts t = 0) as Ht by (rewrite Et, acts_app in Q4, Q5; pose proof (acts_pos t); lia).
      assert (tally (gpick gb gh s)) as Ta by (destruct HT; destruct s; assumption).
      assert (tally (gpick gb2 gh2 s)) as T2 by (destruct HT2; destruct s; assumption).
      assert (g_tr (gpick gb2 gh2 s) = g_tr (gpick gb gh s) ++ t) as Etr.
      { destruct HY as (_ & _ & HYt), HY2 as (_ & _ & HYt2). rewrite HYt, HYt2. exact Et. }
      cbn zeta. destruct (G3 Ho) as [G4|[G4 G5]].
      + destruct (tally_still _ _ _ Ta T2 Etr Ht G1 G2' (or_introl G4)) as (R1 & R2 & R3 & R4).
        split; [exact R1|]. split; [exact R2|]. left. congruence.
      + destruct (tally_still _ _ _ Ta T2 Etr Ht G1 G2' (or_intror G4)) as (R1 & R2 & R3 & R4).
        split; [exact R1|]. split; [exact R2|]. right. split; [congruence|]. rewrite R4.
        destruct HY as (_ & _ & HYt). rewrite HYt, <- G5. unfold accepted. destruct (moves_tr _ _ _ _ M1 s) as (t1 & ->).
        fold (enq (d_tr d1 s)). fold (enq (d_tr d1 s ++ t1)). rewrite enq_app. eexists. reflexivity. }
  exists gb2, gh2. split; [exact HY2|]. split; [exact HT2|].
  destruct HY2 as (_ & (D1 & D2 & _) & T2).
  assert (forall s, received (g_tr (gpick gb2 gh2 (negb s))) = offered (g_tr (gpick gb2 gh2 s)) /\ g_tx (gpick gb2 gh2 s) = TFree) as Hend.
  { intros s. destruct (Hg2 s) as (_ & _ & X1). destruct (Hg2 (negb s)) as (Y1 & Y2 & _). cbn zeta in *.
    assert (exists m o, dir (Nsz p2) None None (gpick gb2 gh2 s) (gpick gb2 gh2 (negb s)) m o) as (m & o & D).
    { rewrite !Hun in D1, D2. destruct s; cbn [negb gpick]; eauto. }
    unfold dir in D. cbn zeta in D. rewrite Y1, Y2 in D. cbn [out] in D. rewrite app_nil_r in D. destruct X1 as [X1|[X1 _]]; rewrite X1 in D.
    - exfalso. destruct D as [(D & _)|(_ & D & _)]; discriminate.
    - split; [symmetry; tauto|exact X1]. }
  intros s. destruct (Hend s) as [E1 E2]. destruct (Hg2 s) as (_ & _ & [X|[_ [r X]]]); [congruence|].
  rewrite <- (T2 (negb s)), <- (T2 s). split; [exact E2|]. split; [exact E1|]. exists r. rewrite E1. exact X.
Qed.

Lemma both_idle p1 d1 p2 d2 : session p1 d1 -> compatible p1 -> (forall s, enabled d1 s) -> moves p1 d1 p2 d2 -> still d1 d2 ->
  (forall s, unread s (s_kcs (d_sh d2)) = None) ->
  (forall s, exists pa da wa, moves p1 d1 pa da /\ moves pa da p2 d2 /\ d_prog da s = Ret wa /\ bd_bus (bnd wa false) = true /\
    ab_st (a_rx (ast wa false)) <> Prepared /\ ab_st (a_tx (ast wa false)) <> Prepared) ->
  forall s, received (d_tr d2 (negb s)) = offered (d_tr d2 s) /\
            exists rest, received (d_tr d2 (negb s)) = accepted d1 s ++ rest.
Proof.
  intros Hse Hc Hen M12 Hst Hun Hpoll.
  destruct (both_idle_g p1 d1 p2 d2 Hse Hc Hen M12 Hst Hun Hpoll) as (gb & gh & _ & _ & H). intros s. exact (proj2 (H s)).
Qed.

(** What a whole poll in a period without an exchange has seen. *)
Lemma whole_settled s p1 d1 p2 d2 : session p1 d1 -> compatible p1 -> (forall s, enabled d1 s) ->
  whole_poll s p1 d1 p2 d2 -> still d1 d2 ->
  exists pa da wa, moves p1 d1 pa da /\ moves pa da p2 d2 /\ d_prog da s = Ret wa /\ bd_bus (bnd wa false) = true /\
    settled_poll s (kstatus (s_kcs (d_sh d1))) (ast wa false).
Proof.
  intros Hse Hc Hen Hwh Hst. destruct (kept_session _ _ Hse Hc) as [Hs1 K1]. set (st := kstatus (s_kcs (d_sh d1))).
  destruct Hwh as (pa & da & wa & pb & db & wb & M1 & Ea & Ba & M2 & Eb & Ecl & M3).
    assert (moves pa da p2 d2) as M4.
    { eapply moves_trans; [eapply (MvCall _ _ s (APoll false)); [apply MvRefl|exact Ea|exact Ba|exact eq_refl]|]. eapply moves_trans; eassumption. }
    exists pa, da, wa. split; [exact M1|]. split; [exact M4|]. split; [exact Ea|]. split; [exact Ba|].
    pose proof (moves_acts _ _ _ _ M1) as Q1. pose proof (moves_acts _ _ _ _ M2) as Q2. pose proof (moves_acts _ _ _ _ M3) as Q3.
    change (forall s0, acts (d_tr da s0) <= acts (d_tr db s0)) in Q2.
    assert (still d1 da) as S1 by (intros s0; specialize (Q1 s0); specialize (Q2 s0); specialize (Q3 s0); specialize (Hst s0); lia).
    assert (still da db) as S2 by (intros s0; specialize (Q1 s0); specialize (Q2 s0); specialize (Q3 s0); specialize (Hst s0); lia).
    pose proof (moves_still _ _ _ _ M1 S1) as Ek.
    destruct (at_rest pa da s wa) as (gb & gh & _ & _ & Hd & Hb & _).
    - exact (sized_setup _ _ (moves_setup _ _ _ _ M1) Hs1).
    - exact (kept_moves _ _ _ _ M1 Hs1 K1).
    - exact Ea.
    - exact Ba.
    - exact (enabled_more _ _ _ _ _ M1 (Hen s)).
    - pose proof (wp_quiet_poll (p_app (pa s)) s st wa Hd Hb) as Wq.
      pose proof (fun Q => moves_quiet _ _ _ _ s st Q M2 S2) as Hmq. cbn [begin_call d_sh d_prog] in Hmq.
      rewrite !upd_same in Hmq. cbn [more p_calls] in Hmq. rewrite Ek in Hmq. specialize (Hmq _ eq_refl Ecl Wq).
     
      rewrite Eb in Hmq. exact Hmq.
Qed.

(** A period without an exchange in which both sides have polled. *)
Lemma whole_both p1 d1 p2 d2 : (forall s, whole_poll s p1 d1 p2 d2) -> moves p1 d1 p2 d2.
Proof.
  intros Hwh. destruct (Hwh true) as (pa & da & wa & pb & db & wb & M1 & Ea & Ba & M2 & Eb & Ecl & M3).
  eapply moves_trans; [eapply (MvCall _ _ true (APoll false)); [exact M1|exact Ea|exact Ba|exact eq_refl]|].
  eapply moves_trans; eassumption.
Qed.
Lemma quiet_period p1 d1 p2 d2 : session p1 d1 -> compatible p1 -> (forall s, enabled d1 s) ->
  (forall s, whole_poll s p1 d1 p2 d2) -> still d1 d2 ->
  (forall s, exists pa da wa, moves p1 d1 pa da /\ moves pa da p2 d2 /\ d_prog da s = Ret wa /\ bd_bus (bnd wa false) = true /\
    ab_st (a_rx (ast wa false)) <> Prepared /\ ab_st (a_tx (ast wa false)) <> Prepared) /\
  exists gb gh, sys (Ssz p2) (Nsz p2) (Fin_ok p2 (Ssz p2) (Nsz p2)) d2 gb gh /\ tallied gb gh /\
  forall s, g_tx (gpick gb gh s) = TFree /\ received (d_tr d2 (negb s)) = offered (d_tr d2 s) /\
            exists rest, received (d_tr d2 (negb s)) = accepted d1 s ++ rest.
Proof.
  intros Hse Hc Hen Hwh Hst. destruct (kept_session _ _ Hse Hc) as [Hs1 K1].
  pose proof (whole_both _ _ _ _ Hwh) as M12. set (st := kstatus (s_kcs (d_sh d1))).
  (* what each poll saw *)
  assert (forall s, exists pa da wa, moves p1 d1 pa da /\ moves pa da p2 d2 /\ d_prog da s = Ret wa /\ bd_bus (bnd wa false) = true /\
    settled_poll s st (ast wa false)) as Hpoll.
  { intros s. exact (whole_settled _ _ _ _ _ Hse Hc Hen (Hwh s) Hst). }
  (* nothing in the registers *)
  destruct K1 as (gb1 & gh1 & HY1 & _).
  assert (forall s, unread s (s_kcs (d_sh d2)) = None) as Hun.
  { rewrite (moves_still _ _ _ _ M12 Hst).
    destruct HY1 as (_ & (_ & _ & _ & _ & HSt) & _). destruct (kstatus_bits _ (up_cases _ _ _ _ _ HSt)) as (_ & _ & _ & B4).
    intros s. destruct (Hpoll (negb s)) as (_ & _ & wa & _ & _ & _ & _ & Hi & _). unfold iflag in Hi. rewrite negb_involutive in Hi.
    unfold st in Hi. rewrite B4 in Hi. destruct (unread s (s_kcs (d_sh d1))); [discriminate|reflexivity]. }
  assert (forall s, oflag s st = false) as Hof.
  { intros s. destruct (Hpoll (negb s)) as (_ & _ & wa & _ & _ & _ & _ & Hi & _). unfold iflag in Hi. now rewrite negb_involutive in Hi. }
  assert (forall s, exists pa da wa, moves p1 d1 pa da /\ moves pa da p2 d2 /\ d_prog da s = Ret wa /\ bd_bus (bnd wa false) = true /\
    ab_st (a_rx (ast wa false)) <> Prepared /\ ab_st (a_tx (ast wa false)) <> Prepared) as Hidle.
  { intros s. destruct (Hpoll s) as (pa & da & wa & M1 & M4 & Ea & Ba & Hi & Ho). exists pa, da, wa. rewrite Hof in Ho.
    repeat (split; [assumption|]). split; intros H; discriminate Ho; auto. }
  split; [exact Hidle|]. exact (both_idle_g p1 d1 p2 d2 Hse Hc Hen M12 Hst Hun Hidle).
Qed.

(** ** C57 *)

(** When, within some period, both sides have made a whole call of mctp_astlpc_poll, then
    either something was exchanged over the channel in that period, or every packet a side
    had queued before has reached the core of the other side. *)
Theorem C57_progress p1 d1 p2 d2 : session p1 d1 -> compatible p1 -> (forall s, enabled d1 s) ->
  (forall s, whole_poll s p1 d1 p2 d2) -> activity d1 < activity d2 \/
  forall s, received (d_tr d2 (negb s)) = offered (d_tr d2 s) /\
            exists rest, received (d_tr d2 (negb s)) = accepted d1 s ++ rest.
Proof.
  intros Hse Hc Hen Hwh. pose proof (moves_acts _ _ _ _ (whole_both _ _ _ _ Hwh)) as A12.
  destruct (Z.lt_ge_cases (activity d1) (activity d2)) as [Hlt|Hge]; [left; exact Hlt|right].
  assert (still d1 d2) as Hst.
  { unfold activity in Hge. pose proof (A12 true). pose proof (A12 false). intros []; lia. }
  destruct (quiet_period _ _ _ _ Hse Hc Hen Hwh Hst) as (_ & gb & gh & _ & _ & H). intros s. exact (proj2 (H s)).
Qed.

(** ** How much is exchanged for a number of packets *)
Definition is_k (e : event) : bool := match e with EvKWrite _ _ _ => true | _ => false end.

Lemma acts_split t : acts t = cnt is_call t + cnt is_k t + cnt is_rd t.
Proof.
  induction t as [|e t IH]; [reflexivity|]. unfold acts, cnt in *. cbn [filter].
  destruct e as [| | | | | | | | | | | | | |r v|r v ok| | |]; cbn [stirs is_call is_k is_rd]; try destruct r;
    unfold zlen in *; cbn [length] in *; lia.
Qed.
Lemma k_split t : cnt is_k t = cnt (is_w 1) t + cnt (is_w 2) t + cnt is_hs t.
Proof.
  induction t as [|e t IH]; [reflexivity|]. unfold cnt in *. cbn [filter].
  destruct e as [| | | | | | | | | | | | | |r v|r v ok| | |]; cbn [is_k is_w is_hs]; try destruct r;
    try (unfold zlen in *; cbn [length] in *; lia).
  destruct (v =? 1) eqn:E1, (v =? 2) eqn:E2; cbn [negb orb]; unfold zlen in *; cbn [length] in *; lia.
Qed.
Lemma wd_split t : cnt is_wd t <= cnt is_k t.
Proof.
  induction t as [|e t IH]; [cbn; lia|]. unfold cnt in *. cbn [filter].
  destruct e as [| | | | | | | | | | | | | |r v|r v ok| | |]; cbn [is_k is_wd]; try destruct r;
    unfold zlen in *; cbn [length] in *; lia.
Qed.
Lemma rd_split t : cnt (is_r 1) t + cnt (is_r 2) t <= cnt is_rd t.
Proof.
  induction t as [|e t IH]; [cbn; lia|]. unfold cnt in *. cbn [filter].
  destruct e as [| | | | | | | | | | | | | |r v|r v ok| | |]; cbn [is_r is_rd]; try destruct r;
    try (unfold zlen in *; cbn [length] in *; lia).
  destruct v as [v|]; [destruct (v =? 1) eqn:E1, (v =? 2) eqn:E2|]; unfold zlen in *; cbn [length] in *; lia.
Qed.

(** A data register is read at most as often as it is written. *)
Definition paired (d : duo) : Prop := forall s,
  cnt is_rd (d_tr d s) + match unread (negb s) (s_kcs (d_sh d)) with Some _ => 1 | None => 0 end <= cnt is_wd (d_tr d (negb s)).

Lemma paired_step p d e s : kept_inv p d -> dstep s d e -> paired d -> paired e.
Proof.
  intros (gb & gh & (W & (_ & _ & Kb & Kh & _) & _) & _) (sh & pr & t & Ha & ->) HP. specialize (W s).
  (* what the step does to the counts *)
  assert (cnt is_rd t + cnt is_wd t <= 1 /\
    (forall s', match unread s' (s_kcs sh) with Some _ => 1 | None => 0 end <=
       match unread s' (s_kcs (d_sh d)) with Some _ => 1 | None => 0 end
       + (if eqb s s' then cnt is_wd t else 0) - (if eqb s s' then 0 else cnt is_rd t))) as [H1 H2].
  { destruct (d_prog d s) as [x|f|r k|r v k|off len k|off bs k|bs k|k|ev k]; cbn [advance] in Ha; try discriminate.
    - destruct r.
      + cbn [kread] in Ha. assert (unread (negb s) (s_kcs (d_sh d)) <> None) as Hu.
        { destruct s; cbn [gpick wp duo_h h_kread negb] in *; destruct W as [W _].
          - apply Kb. exact W.
          - apply Kh. exact W. }
        destruct s; injection Ha as <- <- <-; cbn [negb s_kcs] in *; split; try (rewrite !cnt1; cbn; lia);
          intros [|]; rewrite !cnt1; cbn [eqb is_wd is_rd unread k_obf k_ibf k_odr k_idr] in *;
          destruct (k_ibf (s_kcs (d_sh d))), (k_obf (s_kcs (d_sh d))); try congruence; lia.
      + cbn [kread] in Ha. injection Ha as <- <- <-. cbn [s_kcs]. rewrite !cnt1. cbn [is_rd is_wd]. split; [lia|].
        intros s'. destruct (eqb s s'), (unread s' _); lia.
    - injection Ha as <- <- <-. cbn [s_kcs]. rewrite !cnt1. destruct r; cbn [is_rd is_wd]; (split; [lia|]); intros s'.
      + destruct s, s'; cbn [kwrite unread eqb k_obf k_ibf]; destruct (k_ibf (s_kcs (d_sh d))), (k_obf (s_kcs (d_sh d))); lia.
      + destruct s, s'; cbn [kwrite unread eqb k_obf k_ibf]; destruct (k_ibf (s_kcs (d_sh d))), (k_obf (s_kcs (d_sh d))); cbn [andb]; try destruct (Z.odd v); lia.
    - destruct (in_window _ _); injection Ha as <- <- <-; rewrite ?cnt1; cbn [is_rd is_wd]; (split; [cbn; lia|]);
        intros s'; change (cnt is_wd []) with 0; change (cnt is_rd []) with 0; destruct (eqb s s'), (unread s' _); lia.
    - destruct (in_window _ _); injection Ha as <- <- <-; rewrite ?cnt1; cbn [is_rd is_wd s_kcs]; (split; [cbn; lia|]);
        intros s'; change (cnt is_wd []) with 0; change (cnt is_rd []) with 0; destruct (eqb s s'), (unread s' _); lia.
    - destruct s; cbn [wp duo_h h_swrite] in W; destruct W.
    - injection Ha as <- <- <-; (split; [cbn; lia|]);
        intros s'; change (cnt is_wd []) with 0; change (cnt is_rd []) with 0; destruct (eqb s s'), (unread s' _); lia.
    - assert (is_rd ev = false /\ is_wd ev = false) as [E1 E2].
      { destruct s; cbn [wp duo_h h_emit] in W; destruct ev; try contradiction; auto. }
      injection Ha as <- <- <-. rewrite !cnt1, E1, E2. split; [lia|]. intros s'. destruct (eqb s s'), (unread s' _); lia. }
  intros s'. specialize (HP s'). specialize (H2 (negb s')). cbn [d_sh d_tr].
  pose proof (cnt_pos is_rd t) as P1. pose proof (cnt_pos is_wd t) as P2. unfold upd.
  assert (eqb s s' = negb (eqb s (negb s'))) as En by (destruct s, s'; reflexivity).
  destruct (eqb s (negb s')) eqn:E2; rewrite En; cbn [negb].
  - apply eqb_prop in E2. subst s. rewrite cnt_app. lia.
  - assert (s = s') by (destruct s, s'; cbn in *; congruence). subst s'. rewrite cnt_app. lia.
Qed.

Lemma paired_moves p d q e : moves p d q e -> sized p -> kept_inv p d -> paired d -> paired e.
Proof.
  intros M. induction M as [|s q d1 d2 M IH Hd|s o w q d1 M IH E Eb Ho]; intros Hs HK HP; [exact HP| |exact (IH Hs HK HP)].
  eapply paired_step; [exact (kept_moves _ _ _ _ M Hs HK)|exact Hd|auto].
Qed.
Lemma paired_session p d : session p d -> compatible p -> paired d.
Proof.
  intros (p0 & idr & odr & mem & Hc & Hu & M) Hcp. pose proof (moves_setup _ _ _ _ M) as Hst.
  assert (compatible p0) as Hc0.
  { destruct (Hst true) as (_ & A & _), (Hst false) as (_ & B & _). unfold compatible in *. now rewrite <- A, <- B. }
  destruct (kept_session p0 (duo_start p0 idr odr mem)) as [Hs HK]; [|exact Hc0|].
  { exists p0, idr, odr, mem. split; [exact Hc|]. split; [exact Hu|apply MvRefl]. }
  apply (paired_moves _ _ _ _ M Hs HK). intros s. cbn. destruct s; cbn; lia.
Qed.

Lemma zlen1 (x : list Z) : zlen [x] = 1.
Proof. reflexivity. Qed.

Definition passed (d : duo) : Z := zlen (offered (d_tr d true)) + zlen (offered (d_tr d false)).

(** Five exchanges for a packet, up to those in flight, and the handshake. *)
Lemma activity_bounds p d : session p d -> compatible p -> 5 * passed d - 8 <= activity d <= 5 * passed d + 24.
Proof.
  intros Hse Hc. destruct (kept_session _ _ Hse Hc) as [Hs (gb & gh & (_ & (D1 & D2 & _ & _ & HSt) & T) & (Tb & Th))].
  pose proof (paired_session _ _ Hse Hc) as HP.
  assert (forall gs gr us ur m o, tally gs -> tally gr -> dir (Nsz p) us ur gs gr m o ->
    let ts := g_tr gs in let tr := g_tr gr in
    zlen (offered ts) = cnt is_call ts /\ cnt (is_w 1) ts <= cnt is_call ts /\ cnt (is_w 2) tr <= cnt is_call ts /\
    5 * cnt is_call ts - 4 <= cnt is_call ts + cnt (is_w 1) ts + cnt (is_r 2) ts + cnt (is_r 1) tr + cnt (is_w 2) tr) as Hdir.
  { clear. intros gs gr us ur m o Ts Tr D. cbn zeta. split; [apply offered_cnt|].
    unfold tally in Ts, Tr. cbn zeta in *. unfold dir in D. cbn zeta in D.
    pose proof (offered_cnt (g_tr gs)) as O1. pose proof (received_cnt (g_tr gr)) as O2.
    destruct Ts as (Ts & _). destruct Tr as (_ & Tr1 & Tr2 & _).
    assert (forall l, offered (g_tr gs) = (received (g_tr gr) ++ out (g_dl gr)) ++ l ->
       cnt is_call (g_tr gs) = cnt is_rx (g_tr gr) + zlen (out (g_dl gr)) + zlen l) as Hl.
    { intros l E. rewrite <- O1, E, !zlen_app. lia. }
    assert (offered (g_tr gs) = received (g_tr gr) ++ out (g_dl gr) -> 
       cnt is_call (g_tr gs) = cnt is_rx (g_tr gr) + zlen (out (g_dl gr))) as Hn.
    { intros E. rewrite <- O1, E, !zlen_app. lia. }
    destruct (g_tx gs).
    - destruct (g_rx gr).
      + destruct D as [(_ & _ & q & _ & _ & E)|(_ & _ & E)].
        * specialize (Hl _ E). rewrite zlen1 in Hl. clear -Ts Tr1 Tr2 Hl. lia.
        * specialize (Hn E). clear -Ts Tr1 Tr2 Hn. lia.
      + destruct D as (_ & _ & _ & _ & E). specialize (Hl _ E). rewrite zlen1 in Hl. clear -Ts Tr1 Tr2 Hl. lia.
      + destruct D as (_ & _ & E). specialize (Hn E). clear -Ts Tr1 Tr2 Hn. lia.
    - destruct D as (E0 & _ & _ & E). rewrite E0 in *. specialize (Hn E). clear -Ts Tr1 Tr2 Hn. lia.
    - destruct D as (E0 & _ & _ & E & _). rewrite E0 in *. specialize (Hl _ E). rewrite zlen1 in Hl. clear -Ts Tr1 Tr2 Hl. lia.
    - destruct D as (E0 & _ & _ & E & _). rewrite E0 in *. specialize (Hl _ E). rewrite zlen1 in Hl. clear -Ts Tr1 Tr2 Hl. lia.
    - destruct D as (E0 & _ & _ & E & _). rewrite E0 in *. specialize (Hl _ E). rewrite zlen1 in Hl. clear -Ts Tr1 Tr2 Hl. lia. }
  destruct (Hdir _ _ _ _ _ _ Tb Th D1) as (A1 & A2 & A3 & A4). destruct (Hdir _ _ _ _ _ _ Th Tb D2) as (B1 & B2 & B3 & B4). clear Hdir.
  pose proof (T true) as Et. pose proof (T false) as Ef. cbn [gpick] in Et, Ef. rewrite Et in *. rewrite Ef in *.
  pose proof (HP true) as P1. pose proof (HP false) as P2. cbn [negb] in P1, P2. clear HP.
  assert (cnt is_hs (d_tr d true) <= 8) as H1.
  { destruct Tb as (_ & _ & _ & Tb). rewrite Et in Tb. pose proof (st_bp _ _ _ _ _ HSt). lia. }
  assert (cnt is_hs (d_tr d false) <= 4) as H2.
  { destruct Th as (_ & _ & _ & Th). rewrite Ef in Th. pose proof (st_hp _ _ _ _ _ HSt). lia. }
  unfold activity, passed. rewrite !acts_split, !k_split.
  pose proof (wd_split (d_tr d true)) as W1. pose proof (wd_split (d_tr d false)) as W2. rewrite k_split in W1, W2.
  pose proof (rd_split (d_tr d true)) as R1. pose proof (rd_split (d_tr d false)) as R2.
  pose proof (cnt_pos is_hs (d_tr d true)) as Z1. pose proof (cnt_pos is_hs (d_tr d false)) as Z2.
  destruct (unread false (s_kcs (d_sh d))), (unread true (s_kcs (d_sh d))); clear -A1 A2 A3 A4 B1 B2 B3 B4 P1 P2 H1 H2 W1 W2 R1 R2 Z1 Z2; lia.
Qed.

Lemma whole_moves s p1 d1 p2 d2 : whole_poll s p1 d1 p2 d2 -> moves p1 d1 p2 d2.
Proof.
  intros (pa & da & wa & pb & db & wb & M1 & Ea & Ba & M2 & Eb & Ecl & M3).
  eapply moves_trans; [eapply (MvCall _ _ s (APoll false)); [exact M1|exact Ea|exact Ba|exact eq_refl]|]. eapply moves_trans; eassumption.
Qed.
Lemma rounds_moves p1 d1 n p2 d2 : rounds p1 d1 n p2 d2 -> moves p1 d1 p2 d2.
Proof.
  induction 1 as [p2 d2 M|n p2 d2 p3 d3 H IH Hw]; [exact M|]. eapply moves_trans; [exact IH|exact (whole_moves _ _ _ _ _ (Hw true))].
Qed.
Lemma session_moves p d q e : session p d -> moves p d q e -> session q e.
Proof. intros (p0 & i & o & m & H1 & H2 & H3) M. exists p0, i, o, m. split; [exact H1|]. split; [exact H2|]. eapply moves_trans; eassumption. Qed.
Lemma compatible_moves p d q e : compatible p -> moves p d q e -> compatible q.
Proof.
  intros Hc M. destruct (moves_setup _ _ _ _ M true) as (_ & A & _), (moves_setup _ _ _ _ M false) as (_ & B & _).
  unfold compatible in *. now rewrite A, B.
Qed.

(** Every packet that is queued when [n] periods with a poll of each side begin has
    reached the core of the other side when they are over, if [n] is more than 32 and
    five for each packet passed to the bindings in the meantime. *)
Theorem C57_delivered p1 d1 n p2 d2 : session p1 d1 -> compatible p1 -> (forall s, enabled d1 s) ->
  rounds p1 d1 n p2 d2 -> 5 * (passed d2 - passed d1) + 32 < Z.of_nat n ->
  forall s, exists rest, received (d_tr d2 (negb s)) = accepted d1 s ++ rest.
Proof.
  intros Hse Hc Hen Hr Hn.
  assert (activity d1 + Z.of_nat n <= activity d2 \/
          forall s, prefix (accepted d1 s) (received (d_tr d2 (negb s)))) as [Ha|Ha]; [clear Hn| |exact Ha].
  { induction Hr as [p2 d2 M|n p2 d2 p3 d3 H IH Hw].
    - left. pose proof (moves_acts _ _ _ _ M true). pose proof (moves_acts _ _ _ _ M false). unfold activity. lia.
    - pose proof (rounds_moves _ _ _ _ _ H) as M. pose proof (whole_moves _ _ _ _ _ (Hw true)) as M'.
      assert (forall s, exists t, received (d_tr d3 s) = received (d_tr d2 s) ++ received t) as Hext.
      { intros s. destruct (moves_tr _ _ _ _ M' s) as (t & ->). exists t. apply received_app. }
      destruct IH as [IH|IH].
      + destruct (C57_progress p2 d2 p3 d3 (session_moves _ _ _ _ Hse M) (compatible_moves _ _ _ _ Hc M)
          (fun s => enabled_more _ _ _ _ s M (Hen s)) Hw) as [Hlt|Hall]; [left; lia|right].
        intros s. destruct (Hall s) as (_ & r & ->). destruct (moves_tr _ _ _ _ M s) as (t & Et).
        unfold accepted. rewrite Et. fold (enq (d_tr d1 s ++ t)). rewrite enq_app, <- app_assoc. eexists. reflexivity.
      + right. intros s. destruct (Hext (negb s)) as (t & ->). destruct (IH s) as (r & ->). rewrite <- app_assoc. eexists. reflexivity. }
  exfalso. pose proof (rounds_moves _ _ _ _ _ Hr) as M.
  pose proof (activity_bounds _ _ Hse Hc) as B1.
  pose proof (activity_bounds _ _ (session_moves _ _ _ _ Hse M) (compatible_moves _ _ _ _ Hc M)) as B2. lia.
Qed.

(** Hence every message that side [s] had asked to transmit, and that is meant for the
    application of the other side, has been given to it when the periods are over. *)
Theorem C57_heard p1 d1 n p2 d2 s ws wr : session p1 d1 -> compatible p1 -> (forall i, enabled d1 i) ->
  p_mtu (p1 false) <= 4096 -> p_eid (p1 s) <> 0 -> Forall (fun r => zlen (r_msg r) <= 65536) (said_by p1 d1 s) ->
  d_prog d1 s = Ret ws -> rounds p1 d1 n p2 d2 -> 5 * (passed d2 - passed d1) + 32 < Z.of_nat n ->
  d_prog d2 (negb s) = Ret wr -> listening (p_calls (p2 (negb s))) ->
  exists rest, heard (d_tr d2 (negb s)) = due p1 d1 s ++ rest.
Proof.
  intros Hse Hc Hen Hmtu Heid Hsz Es Hr Hn Er Hl. pose proof (rounds_moves _ _ _ _ _ Hr) as M.
  pose proof (C57_delivered _ _ _ _ _ Hse Hc Hen Hr Hn s) as Hdel.
  assert (forall p d i w, session p d -> compatible p -> enabled d i -> d_prog d i = Ret w ->
    past i (p_app (p i)) (p_mtu (p false) + 4) (p_eid (p i)) false (p_calls (p i)) w (d_tr d i)) as Hpast.
  { clear. intros p d i w Hse Hc He E. destruct (kept_session _ _ Hse Hc) as [_ (gb & gh & (W & _ & T) & _)].
    specialize (W i). rewrite E in W. cbn [wp] in W. unfold Fin_ok in W. rewrite (T i) in W. destruct (bd_bus (bnd w false)).
    - destruct W as (W & _). rewrite (T i) in W. exact W.
    - exfalso. unfold enabled in He. rewrite Forall_forall in W. exact (W _ He). }
  assert (68 <= p_mtu (p1 false) + 4) as HN by (unfold compatible in Hc; lia).
  pose proof (Hpast _ _ _ _ Hse Hc (Hen s) Es) as Ps.
  pose proof (Hpast _ _ _ _ (session_moves _ _ _ _ Hse M) (compatible_moves _ _ _ _ Hc M) (enabled_more _ _ _ _ _ M (Hen (negb s))) Er) as Pr.
  destruct (moves_setup _ _ _ _ M false) as (_ & Em & _). destruct (moves_setup _ _ _ _ M (negb s)) as (_ & _ & Ee).
  rewrite Em, Ee in Pr.
  destruct (past_Sinv _ HN _ _ _ _ _ _ _ Ps) as [_ _ _ _ (acc & Hp & Hsp)].
  destruct (Hsp [] ltac:(discriminate)) as [Ht _]. rewrite app_nil_r in Ht.
  assert (packs (p_mtu (p1 false) + 4) (p_eid (p1 s)) (said_by p1 d1 s) (accepted d1 s)) as Hpk.
  { unfold said_by, said. rewrite Ht. cbn [t_said requests flat_map pend]. rewrite app_nil_r. exact Hp. }
  destruct (past_Rinv _ HN _ _ _ _ _ _ _ Pr) as [_ Hh].
  destruct (Hh [] ltac:(discriminate)) as [_ [_ _ Hhe _]]; [rewrite app_nil_r; exact Hl|].
  rewrite Hhe. rewrite <- (due_outs p1 d1 s Hmtu Heid Hsz _ Hpk).
  pose proof (outs_prefix (p_eid (p1 (negb s))) _ _ Hdel) as [r Hr']. exists r. exact Hr'.
Qed.

(** ** Calls return *)
Definition follows (q p : prog world) : Prop := exists s sh sh' t, advance s sh p = Some (sh', q, t).
Lemma follows_wf : well_founded follows.
Proof.
  assert (forall f, Acc follows (Flt f)) as Hf.
  { intros f. constructor. intros q (s & sh & sh' & t & H). discriminate. }
  intros p. induction p as [x|f|r k IH|r v k IH|off len k IH|off bs k IH|bs k IH|k IH|e k IH]; [|apply Hf|..];
    constructor; intros q (s & sh & sh' & t & Ha); cbn [advance] in Ha.
  - discriminate.
  - destruct (kread s r (s_kcs sh)). injection Ha as <- <- <-. apply IH.
  - injection Ha as <- <- <-. apply IH.
  - destruct (in_window _ _); injection Ha as <- <- <-; [apply IH|apply Hf].
  - destruct (in_window _ _); injection Ha as <- <- <-; [exact IH|apply Hf].
  - injection Ha as <- <- <-. apply IH.
  - injection Ha as <- <- <-. apply IH.
  - injection Ha as <- <- <-. exact IH.
Qed.
Lemma steps_wf d : Acc (fun b a => exists s, dstep s a b) d.
Proof.
  remember (d_prog d true) as pt eqn:Et. revert d Et. induction (follows_wf pt) as [pt _ IHt]. intros d Et.
  remember (d_prog d false) as pf eqn:Ef. revert d Et Ef. induction (follows_wf pf) as [pf _ IHf]. intros d Et Ef.
  constructor. intros e (s & sh & q & t & Ha & ->). destruct s.
  - apply (IHt q); [|reflexivity]. rewrite Et. exists true, (d_sh d), sh, t. exact Ha.
  - apply (IHf q); [rewrite Ef; exists false, (d_sh d), sh, t; exact Ha|exact Et|reflexivity].
Qed.

(** No call waits for the other side: without new calls, every interleaving comes to an
    end after finitely many steps, and a side that cannot go on has returned. *)
Theorem C57_returns p d : session p d -> compatible p ->
  Acc (fun b a => exists s, dstep s a b) d /\
  forall s, (forall e, ~ dstep s d e) -> exists w, d_prog d s = Ret w.
Proof.
  intros Hse Hc. split; [apply steps_wf|]. intros s Hn.
  destruct (kept_session _ _ Hse Hc) as [_ (gb & gh & (W & _) & _)]. specialize (W s).
  assert (advance s (d_sh d) (d_prog d s) = None) as Ha.
  { destruct (advance s (d_sh d) (d_prog d s)) as [[[sh q] t]|] eqn:E; [|reflexivity]. exfalso.
    apply (Hn (mkDuo sh (upd (d_prog d) s q) (upd (d_tr d) s (d_tr d s ++ t)))). exists sh, q, t. auto. }
  destruct (d_prog d s) as [x|f|r k|r v k|off len k|off bs k|bs k|k|ev k]; cbn [advance] in Ha; try discriminate.
  - eexists. reflexivity.
  - destruct W.
  - destruct (kread s r (s_kcs (d_sh d))). discriminate.
  - destruct (in_window _ _); discriminate.
  - destruct (in_window _ _); discriminate.
Qed.
