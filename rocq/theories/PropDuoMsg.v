(** PropDuoMsg: C56: messages over the astlpc channel, end to end. *)
From Verif Require Import Base Lists Prog PktBuf Core WP Walk CoreRel WalkCore CoreHist Spec SpecRx Trace PropTx PropMsg
  Reasm PropRx PropRound PropSerRound Crc Astlpc SpecAst AstBasic
  AstWalk PropAst TwoParty DuoInv DuoPast DuoWalk PropDuo SpecDuo DuoMsg.

(** ** Reassembly of whole messages, one after the other *)
Definition allfree (cs : list mctx) : Prop := Forall (fun c => c_src c = 0) cs.
Definition onlyk (k : key) (cs : list mctx) : Prop := Forall (fun c => c_src c = 0 \/ c_key c = k) cs.

Lemma onlyk_step k cs max bs cs' out : onlyk k cs -> h_key bs = k -> rx_pure cs max bs = (cs', out) -> onlyk k cs'.
Proof.
  intros Ho Hk Hr.
  assert (forall n c, c_src c = 0 \/ c_key c = k -> onlyk k (start_pure cs n c max bs)) as Hst.
  { intros n c Hc. unfold start_pure.
    destruct (add_pure (ctx_set_frag c (zlen bs)) (p_payload bs) max) as [c2 ok] eqn:E.
    destruct (add_pure_fields _ _ _ _ _ E) as (E1 & E2 & E3 & _). cbn [ctx_set_frag c_src c_dest c_tag] in *.
    apply upd_nth_Forall; [exact Ho|]. destruct ok; [|left; reflexivity].
    unfold c_key in *. cbn [ctx_set_seq c_src c_dest c_tag]. rewrite E1, E2, E3. exact Hc. }
  assert (p_src bs = h_src bs /\ p_dest bs = h_dest bs) as [Ps Pd] by (split; reflexivity).
  revert Hr. unfold rx_pure. rewrite Ps, Pd, p_tag_spec.
  destruct (p_flags bs =? _); [intros [= <- _]; exact Ho|].
  destruct (ctx_lookup cs (h_src bs) (h_dest bs) (h_tag bs)) as [n|] eqn:El.
  - destruct (lookup_some _ _ _ _ _ El) as (Hn1 & Hn2 & Hn3). set (c := nth n cs ctx0) in *.
    assert (c_key c = k) as Hck by (unfold h_key in Hk; congruence).
    destruct (p_flags bs =? FLAG_SOM); [intros [= <- _]; apply Hst; right; exact Hck|].
    assert (forall x, c_src x = 0 \/ c_key x = k -> onlyk k (upd_nth cs n x)) as Hu.
    { intros x Hx. apply upd_nth_Forall; assumption. }
    destruct (negb _); [intros [= <- _]; apply Hu; left; reflexivity|].
    destruct (p_flags bs =? FLAG_EOM).
    + destruct (_ <? _); [intros [= <- _]; apply Hu; left; reflexivity|].
      destruct (add_pure c _ _) as [c2 ok]. intros [= <- _]; apply Hu; left; reflexivity.
    + destruct (negb _); [intros [= <- _]; apply Hu; left; reflexivity|].
      destruct (add_pure c _ _) as [c2 ok] eqn:E. destruct (add_pure_fields _ _ _ _ _ E) as (E1 & E2 & E3 & _).
      intros [= <- _]; apply Hu. destruct ok; [|left; reflexivity]. right.
      unfold c_key in *. cbn [ctx_set_seq c_src c_dest c_tag]. congruence.
  - destruct (p_flags bs =? FLAG_SOM); [|intros [= <- _]; exact Ho].
    destruct (ctx_free_slot cs) as [n|]; [|intros [= <- _]; exact Ho].
    intros [= <- _]. apply Hst. right. exact Hk.
Qed.

Lemma last_step log k cs max bs cs' out : CI log cs -> onlyk k cs -> h_key bs = k -> h_som bs = false -> h_eom bs = true ->
  rx_pure cs max bs = (cs', out) -> allfree cs'.
Proof.
  intros Hci Ho Hk Hs He Hr.
  assert (p_src bs = h_src bs /\ p_dest bs = h_dest bs) as [Ps Pd] by (split; reflexivity).
  revert Hr. unfold rx_pure. rewrite Ps, Pd, p_tag_spec, p_flags_spec, Hs, He.
  change (0 + 64 =? Z.lor FLAG_SOM FLAG_EOM) with false. change (0 + 64 =? FLAG_SOM) with false.
  change (0 + 64 =? FLAG_EOM) with true. cbv iota.
  unfold h_key in Hk.
  destruct (ctx_lookup cs (h_src bs) (h_dest bs) (h_tag bs)) as [n|] eqn:El.
  - destruct (lookup_some _ _ _ _ _ El) as (Hn1 & Hn2 & Hn3). set (c := nth n cs ctx0) in *.
    assert (forall x, c_src x = 0 -> allfree (upd_nth cs n x)) as Hu.
    { intros x Hx. apply Forall_forall. intros y Hy. apply In_nth_error in Hy. destruct Hy as (j & Hj).
      rewrite nth_error_upd in Hj by exact Hn1. destruct (Nat.eqb_spec j n) as [Hjn|Hne]; [injection Hj as Hj; rewrite <- Hj; exact Hx|].
      destruct (nth_error_Forall _ _ _ _ _ Ho Hj) as [H|H]; [exact H|].
      destruct (Z.eq_dec (c_src y) 0) as [H0|H0]; [exact H0|]. exfalso. apply Hne.
      eapply (ci_uniq _ _ Hci); [exact Hj|exact Hn2|exact H0|congruence]. }
    destruct (negb _); [intros [= <- _]; apply Hu; reflexivity|].
    destruct (_ <? _); [intros [= <- _]; apply Hu; reflexivity|].
    destruct (add_pure c _ _) as [c2 ok]. intros [= <- _]; apply Hu; reflexivity.
  - intros [= <- _]. apply Forall_forall. intros y Hy. apply In_nth_error in Hy. destruct Hy as (j & Hj).
    destruct (nth_error_Forall _ _ _ _ _ Ho Hj) as [H|H]; [exact H|]. exfalso. apply (lookup_none _ _ _ _ El _ _ Hj). congruence.
Qed.

Lemma onlyk_run k max ps : forall cs, onlyk k cs -> Forall (fun bs => h_key bs = k) ps -> onlyk k (fst (rx_run cs max ps)).
Proof.
  induction ps as [|bs ps IH]; intros cs Ho Hk; [exact Ho|]. inversion Hk as [|? ? H1 H2]; subst x l. cbn [rx_run].
  destruct (rx_pure cs max bs) as [cs1 out] eqn:E. pose proof (IH _ (onlyk_step _ _ _ _ _ _ Ho H1 E) H2) as H.
  destruct (rx_run cs1 max ps). exact H.
Qed.

Section Receiver.
Context (J : Z) (HJ : 0 <= J) (L : Z) (HL : L = 4096 * 2 ^ J) (HL64 : L < 2 ^ 64).

Lemma run_message ver src dest to tag mtu msg pkts cs :
  src <> 0 -> 0 <= tag <= 7 -> mtu <= 4096 -> zlen msg <= L ->
  packetised ver src dest to tag mtu msg pkts -> okctx J cs -> allfree cs ->
  okctx J (fst (rx_run cs L pkts)) /\ allfree (fst (rx_run cs L pkts)) /\
  map out_of (snd (rx_run cs L pkts)) = if 0 <? zlen msg then [(src, to, tag, msg)] else [].
Proof.
  intros Hsrc Htag Hmtu Hsz Hpk Hok Hfree. set (k := (src, dest, tag)).
  assert (Forall (fun bs => small bs /\ h_key bs = k) pkts) as Hall.
  { apply Forall_forall. intros p Hp. apply In_nth_error in Hp. destruct Hp as (n & Hn).
    destruct (packetised_no _ _ _ _ _ _ _ _ Htag Hpk n p Hn) as [N1 _ _ _ _ N2]. split; [|exact N1].
    destruct Hpk as [_ Hpk]. destruct (Hpk n p Hn) as [_ Hl]. unfold small.
    destruct (Nat.eqb (S n) (length pkts)); [lia|].
    assert (1 <= mtu); [|lia]. destruct (nth_error pkts (length pkts - 1)) as [q|] eqn:Eq.
    - destruct (Hpk _ q Eq) as [_ Hq]. replace (Nat.eqb (S (length pkts - 1)) (length pkts)) with true in Hq; [lia|].
      symmetry. apply Nat.eqb_eq. assert (n < length pkts)%nat by (apply nth_error_Some; congruence). lia.
    - apply nth_error_None in Eq. assert (n < length pkts)%nat by (apply nth_error_Some; congruence). lia. }
  assert (Forall small pkts) as Hsm by (eapply Forall_impl; [|exact Hall]; cbn; tauto).
  assert (Forall (fun bs => h_key bs = k) pkts) as Hky by (eapply Forall_impl; [|exact Hall]; cbn; tauto).
  split; [now apply (okctx_run J HJ L HL HL64)|].
  destruct pkts as [|first others].
  { destruct Hpk as [Hc _]. cbn in Hc. subst msg. cbn. auto. }
  split.
  - destruct (exists_last (l := first :: others)) as (front & lst & Ef); [discriminate|]. rewrite Ef in *.
    assert (nth_error (front ++ [lst]) (length front) = Some lst) as Hn by (rewrite nth_error_app2, Nat.sub_diag by lia; reflexivity).
    destruct (packetised_no _ _ _ _ _ _ _ _ Htag Hpk _ _ Hn) as [N1 _ N3 N4 _ _].
    rewrite app_length in N4. cbn [length] in N4. replace (Nat.eqb (S (length front)) (length front + 1)) with true in N4
      by (symmetry; apply Nat.eqb_eq; lia).
    rewrite rx_run_app. cbn [fst]. apply Forall_app in Hsm, Hky.
    assert (onlyk k cs) as Hok0 by (eapply Forall_impl; [|exact Hfree]; cbn; auto).
    pose proof (onlyk_run k L front cs Hok0 (proj1 Hky)) as Ho1.
    pose proof (okctx_run J HJ L HL HL64 cs front Hok (proj1 Hsm)) as Hok1.
    cbn [rx_run]. destruct (rx_pure (fst (rx_run cs L front)) L lst) as [cs2 out] eqn:E. cbn [fst].
    destruct front as [|f0 fr].
    + cbn [rx_run fst length] in *. cbn [Nat.eqb] in N3. revert E. unfold rx_pure. rewrite p_flags_spec, N3, N4.
      change (128 + 64 =? Z.lor FLAG_SOM FLAG_EOM) with true. cbv iota. intros [= <- _]. exact Hfree.
    + destruct (ok_ci _ _ Hok1) as (log & Hci). cbn [length Nat.eqb] in N3. eapply last_step; [exact Hci|exact Ho1|exact N1|exact N3|exact N4|exact E].
  - assert (0 < zlen msg) as Hpos.
    { destruct Hpk as [Hc _]. inversion Hsm as [|? ? H1 _]; subst x l. rewrite <- Hc. cbn [map concat]. rewrite zlen_app.
      pose proof (payload_zlen first ltac:(unfold small in H1; lia)) as Hp. unfold p_payload in Hp.
      pose proof (zlen_pos _ (concat (map (skipn 4) others))). unfold small in H1. lia. }
    replace (0 <? zlen msg) with true by lia.
    inversion Hky as [|? ? Hk1 _]; subst x l.
    assert (forkey k (first :: others) = first :: others) as Hfk.
    { clear - Hky. unfold forkey. induction Hky as [|x l Hx Hl IH]; [reflexivity|]. cbn [filter]. rewrite Hx, key_eqb_refl, IH. reflexivity. }
    destruct (run_whole J HJ L HL HL64 src dest tag Hsrc to mtu Hmtu ver msg (first :: others) Hpk Htag Hsz
      others cs first Hok Hsm Hfk Hk1) as (lst & Ho & Hto & Hkl).
    { right. destruct (ok_ci _ _ Hok) as (log & Hci). destruct cs as [|c0 cs0]; [pose proof (ci_len _ _ Hci); discriminate|].
      exists 0%nat, c0. split; [reflexivity|]. left. inversion Hfree; assumption. }
    assert (outkey k (snd (rx_run cs L (first :: others))) = snd (rx_run cs L (first :: others))) as Eo.
    { clear - Hky. revert cs. induction Hky as [|x l Hx Hl IH]; intros cs; [reflexivity|]. cbn [rx_run].
      destruct (rx_pure cs L x) as [cs1 out]. specialize (IH cs1). destruct (rx_run cs1 L l) as [cs2 os]. cbn [snd] in *.
      destruct out as [[[? ?] ms]|]; [|exact IH]. unfold outkey in *. cbn [filter fst]. rewrite Hx, key_eqb_refl, IH. reflexivity. }
    unfold k in Eo. rewrite Eo in Ho. rewrite Ho. cbn [map]. unfold out_of. cbn [fst snd]. unfold h_key in Hkl. injection Hkl as K1 _ K3. rewrite K1, K3, Hto. reflexivity.
Qed.

Lemma run_packs N src eid l pk : forall cs, src <> 0 -> N - 4 <= 4096 ->
  Forall (fun r => zlen (r_msg r) <= L) l -> packs N src l pk -> okctx J cs -> allfree cs ->
  map out_of (snd (rx_run cs L (filter (taken (Some eid)) pk))) = map (as_heard src) (filter (meant_for eid) l).
Proof.
  intros cs Hsrc HN Hsz (pkl & Hpk & ->). revert cs Hsz.
  induction Hpk as [|r ps l pkl (Htag & ver & mtu & Hmtu & Hp) Hpk IH]; intros cs Hsz Hok Hfree; [reflexivity|].
  inversion Hsz as [|? ? Hs1 Hs2]; subst x l0. cbn [concat]. rewrite filter_app.
  assert (Forall (fun p => 4 < zlen p /\ h_dest p = r_eid r) ps) as Hall.
  { apply Forall_forall. intros p Hin. apply In_nth_error in Hin. destruct Hin as (n & Hn).
    destruct (packetised_no _ _ _ _ _ _ _ _ Htag Hp n p Hn) as [N1 _ _ _ _ N2]. unfold h_key in N1. injection N1 as _ N1 _.
    split; [|exact N1]. destruct (Nat.eqb (S n) (length ps)); lia. }
  destruct (for_us (Some eid) (r_eid r)) eqn:Eu.
  - assert (filter (taken (Some eid)) ps = ps) as ->.
    { clear - Hall Eu. induction Hall as [|p ps [H1 H2] Hall IH]; [reflexivity|]. cbn [filter]. unfold taken at 1.
      rewrite H2, Eu. replace (4 <? zlen p) with true by lia. cbn [andb]. now rewrite IH. }
    destruct (run_message ver src (r_eid r) (r_to r) (r_tag r) mtu (r_msg r) ps cs Hsrc Htag ltac:(lia) Hs1 Hp Hok Hfree) as (R1 & R2 & R3).
    rewrite rx_run_app. cbn [snd]. rewrite map_app, R3, (IH _ Hs2 R1 R2). cbn [filter]. unfold meant_for at 2. rewrite Eu, andb_true_r.
    destruct (0 <? zlen (r_msg r)); reflexivity.
  - assert (filter (taken (Some eid)) ps = []) as ->.
    { clear - Hall Eu. induction Hall as [|p ps [H1 H2] Hall IH]; [reflexivity|]. cbn [filter]. unfold taken at 1.
      rewrite H2, Eu, andb_false_r. exact IH. }
    cbn [Datatypes.app filter]. unfold meant_for at 1. rewrite Eu, andb_false_r. apply IH; assumption.
Qed.
End Receiver.

(** ** Letting a side finish *)
Lemma runs_app d1 d2 d3 : runs d1 d2 -> runs d2 d3 -> runs d1 d3.
Proof. intros H H'. induction H' as [d|s d a b H1 IH H2]; [exact H|]. eapply RunStep; [exact (IH H)|exact H2]. Qed.

Lemma upd_same {A} (f : bool -> A) s x : upd f s x s = x.
Proof. unfold upd. now rewrite eqb_reflx. Qed.
Lemma upd_other {A} (f : bool -> A) s x : upd f s x (negb s) = f (negb s).
Proof. unfold upd. now destruct s. Qed.

Lemma finish s (pr : prog (world astlpc)) : forall d, d_prog d s = pr ->
  (forall d', runs d d' -> forall f, d_prog d' s <> Flt f) ->
  exists d' w t, runs d d' /\ d_prog d' s = Ret w /\ d_tr d' s = d_tr d s ++ t.
Proof.
  assert (forall (d : duo) (pr : prog (world astlpc)), d_prog d s = pr ->
    (forall d', runs d d' -> forall f, d_prog d' s <> Flt f) ->
    forall sh p t, advance s (d_sh d) pr = Some (sh, p, t) ->
    (forall d', d_prog d' s = p -> (forall d'', runs d' d'' -> forall f, d_prog d'' s <> Flt f) ->
       exists d'' w t, runs d' d'' /\ d_prog d'' s = Ret w /\ d_tr d'' s = d_tr d' s ++ t) ->
    exists d' w t, runs d d' /\ d_prog d' s = Ret w /\ d_tr d' s = d_tr d s ++ t) as Step.
  { intros d p0 Ed Hnf sh p t Ha IH. set (d1 := mkDuo sh (upd (d_prog d) s p) (upd (d_tr d) s (d_tr d s ++ t))).
    assert (runs d d1) as R1.
    { eapply RunStep; [apply RunRefl|]. exists sh, p, t. rewrite Ed. split; [exact Ha|reflexivity]. }
    destruct (IH d1) as (d2 & w & t2 & R2 & E1 & E2).
    - apply upd_same.
    - intros d'' R. apply Hnf. eapply runs_app; eassumption.
    - exists d2, w, (t ++ t2). split; [eapply runs_app; eassumption|]. split; [exact E1|].
      rewrite E2. cbn [d1 d_tr]. rewrite upd_same, app_assoc. reflexivity. }
  induction pr as [w|f|r k IH|r v k IH|off len k IH|off bs k IH|bs k IH|k IH|e k IH]; intros d Ed Hnf.
  - exists d, w, []. split; [apply RunRefl|]. split; [exact Ed|now rewrite app_nil_r].
  - exfalso. exact (Hnf d (RunRefl d) f Ed).
  - cbn [advance] in Step. pose proof (fun sh p t => Step d (KRead r k) Ed Hnf sh p t) as S1. cbn [advance] in S1.
    destruct (kread s r (s_kcs (d_sh d))) as [v k']. eapply S1; [reflexivity|]. apply IH.
  - eapply (Step d (KWrite r v k) Ed Hnf); [reflexivity|]. apply IH.
  - pose proof (fun sh p t => Step d (LRead off len k) Ed Hnf sh p t) as S1. cbn [advance] in S1.
    destruct (in_window off len); eapply S1; try reflexivity; [apply IH|].
    intros d' E F. exfalso. exact (F d' (RunRefl d') _ E).
  - pose proof (fun sh p t => Step d (LWrite off bs k) Ed Hnf sh p t) as S1. cbn [advance] in S1.
    destruct (in_window off (zlen bs)); eapply S1; try reflexivity; [apply IH|].
    intros d' E F. exfalso. exact (F d' (RunRefl d') _ E).
  - eapply (Step d (SWrite bs k) Ed Hnf); [reflexivity|]. apply IH.
  - eapply (Step d (Malloc k) Ed Hnf); [reflexivity|]. apply IH.
  - eapply (Step d (Emit e k) Ed Hnf); [reflexivity|]. apply IH.
Qed.

Lemma ret_past p d s w : duo_reach p d -> compatible p -> d_prog d s = Ret w ->
  past s (p_app (p s)) (p_mtu (p false) + 4) (p_eid (p s)) false (p_calls (p s)) w (d_tr d s) \/ Forall mute_ev (d_tr d s).
Proof.
  intros Hd Hc E. destruct (duo_inv p d Hd Hc) as (gb & gh & W & _ & T). specialize (W s). rewrite E in W. cbn [wp] in W.
  unfold Fin_ok in W. rewrite <- (T s). destruct (bd_bus (bnd w false)); [left; exact (proj1 W)|right; exact W].
Qed.
Lemma side_past p d s : duo_reach p d -> compatible p -> exists w t,
  past s (p_app (p s)) (p_mtu (p false) + 4) (p_eid (p s)) false (p_calls (p s)) w (d_tr d s ++ t) \/ Forall mute_ev (d_tr d s ++ t).
Proof.
  intros Hd Hc.
  assert (forall d', runs d d' -> duo_reach p d') as Hr.
  { intros d' R. destruct Hd as (H1 & H2 & i & o & m & H3). split; [exact H1|]. split; [exact H2|]. exists i, o, m. eapply runs_app; eassumption. }
  destruct (finish s (d_prog d s) d eq_refl) as (d' & w & t & R & E & Et).
  { intros d' R f. apply (C38_no_fault p d' (Hr d' R) Hc). }
  exists w, t. rewrite <- Et. apply ret_past; auto.
Qed.

Lemma mute_none t : Forall mute_ev t -> offered t = [] /\ heard t = [].
Proof.
  unfold offered, heard. induction 1 as [|e t He Ht [I1 I2]]; [auto|]. cbn [flat_map]. rewrite I1, I2.
  destruct e; try contradiction; auto.
Qed.

(** The messages side [s] has asked to transmit up to state [d]. *)
Definition said_by (p : bool -> party) (d : duo) (s : bool) : list txreq :=
  said (p_app (p s)) (p_calls (p s)) (d_tr d s).
(** Those its peer is meant to hear, as it hears them. *)
Definition due (p : bool -> party) (d : duo) (s : bool) : list (Z * bool * Z * list Z) :=
  map (as_heard (p_eid (p s))) (filter (meant_for (p_eid (p (negb s)))) (said_by p d s)).

Lemma okctx_fresh : okctx 4 (repeat ctx0 16) /\ allfree (repeat ctx0 16).
Proof.
  split; [constructor|].
  - exists []. apply CI_fresh.
  - repeat constructor; cbn; lia.
  - repeat constructor; left; reflexivity.
  - repeat constructor.
Qed.

(** The history of a side, if it goes on alone to the end of its calls. *)
Definition has_past (p : bool -> party) (d : duo) (i : bool) : Prop := exists w t,
  past i (p_app (p i)) (p_mtu (p false) + 4) (p_eid (p i)) false (p_calls (p i)) w (d_tr d i ++ t) \/ Forall mute_ev (d_tr d i ++ t).

Section Order.
Context (p : bool -> party) (d : duo) (s : bool).
Context (Hc : compatible p) (Hmtu : p_mtu (p false) <= 4096) (Heid : p_eid (p s) <> 0)
        (Hl : listening (p_calls (p (negb s)))) (Hsz : Forall (fun r => zlen (r_msg r) <= 65536) (said_by p d s)).

Lemma due_outs pk : packs (p_mtu (p false) + 4) (p_eid (p s)) (said_by p d s) pk ->
  outs (p_eid (p (negb s))) pk = due p d s.
Proof.
  intros Hp. unfold outs, due. destruct okctx_fresh as [F1 F2].
  apply (run_packs 4 ltac:(lia) 65536 eq_refl ltac:(lia) (p_mtu (p false) + 4)); try assumption. lia.
Qed.

Lemma in_order rest : (forall i, has_past p d i) -> offered (d_tr d s) = received (d_tr d (negb s)) ++ rest ->
  exists rest, due p d s = heard (d_tr d (negb s)) ++ rest.
Proof.
  intros HP Hdel.
  assert (68 <= p_mtu (p false) + 4) as HN by (unfold compatible in Hc; lia).
  destruct (HP (negb s)) as (wr & tr & [Hr|Hr]).
  2:{ apply Forall_app in Hr. rewrite (proj2 (mute_none _ (proj1 Hr))). eexists. reflexivity. }
  destruct (past_Rinv _ HN _ _ _ _ _ _ _ Hr) as [_ Hh].
  destruct (Hh [] ltac:(discriminate)) as [_ [_ _ _ Ht]]; [rewrite app_nil_r; exact Hl|].
  specialize (Ht (d_tr d (negb s)) (ex_intro _ tr eq_refl)). clear Hr Hh.
  destruct (HP s) as (ws & ts & [Hs|Hs]).
  2:{ apply Forall_app in Hs. rewrite (proj1 (mute_none _ (proj1 Hs))) in Hdel. symmetry in Hdel. apply app_eq_nil in Hdel.
      rewrite (proj1 Hdel) in Ht. apply prefix_nil in Ht. rewrite Ht. eexists. reflexivity. }
  destruct (past_Sinv _ HN _ _ _ _ _ _ _ Hs) as [_ _ _ [Hf _] (acc & _ & Hsp)].
  destruct (Hsp [] ltac:(discriminate)) as [_ Hca]. rewrite app_nil_r in Hca.
  specialize (Hf (d_tr d s) (ex_intro _ ts eq_refl)). specialize (Hca (d_tr d s) (ex_intro _ ts eq_refl)).
  destruct Hca as (pk & Hpk & Hpre). cbn [Datatypes.app] in Hf.
  assert (prefix (received (d_tr d (negb s))) pk) as Hp.
  { eapply prefix_trans; [|exact Hpre]. eapply prefix_trans; [|exact Hf]. exists rest. exact Hdel. }
  pose proof (prefix_trans _ _ _ Ht (outs_prefix (p_eid (p (negb s))) _ _ Hp)) as [r Hr].
  exists r. rewrite <- (due_outs pk Hpk). exact Hr.
Qed.

End Order.

Section C56.
Context (p : bool -> party) (d : duo) (s : bool).
Context (Hd : duo_reach p d) (Hc : compatible p) (Hmtu : p_mtu (p false) <= 4096) (Heid : p_eid (p s) <> 0)
        (Hl : listening (p_calls (p (negb s)))) (Hsz : Forall (fun r => zlen (r_msg r) <= 65536) (said_by p d s)).

(** At every moment of every interleaving, the messages the application of one side has
    been given are the first of those that the other side has asked to transmit and
    that are meant for it: complete, unchanged, in order and without duplicates. *)
Theorem C56_in_order : exists rest, due p d s = heard (d_tr d (negb s)) ++ rest.
Proof.
  destruct (C38_delivery p d Hd Hc s) as (rest & Hdel & _).
  apply (in_order p d s Hc Hmtu Heid Hl Hsz rest); [|exact Hdel]. intros i. exact (side_past p d i Hd Hc).
Qed.

(** Once both sides have returned, the sender's queue is empty and nothing is on its way,
    all of them have been given to the application. *)
Theorem C56_all ws wr : d_prog d s = Ret ws -> d_prog d (negb s) = Ret wr ->
  queued ws false = [] -> offered (d_tr d s) = received (d_tr d (negb s)) ->
  heard (d_tr d (negb s)) = due p d s.
Proof.
  intros Es Er Hq Hof.
  assert (68 <= p_mtu (p false) + 4) as HN by (unfold compatible in Hc; lia).
  assert (packs (p_mtu (p false) + 4) (p_eid (p s)) (said_by p d s) (offered (d_tr d s))) as Hpk.
  { destruct (ret_past p d s ws Hd Hc Es) as [Hs|Hs].
    - destruct (past_Sinv _ HN _ _ _ _ _ _ _ Hs) as [_ _ _ [_ Hf] (acc & Hp & Hsp)].
      destruct (Hsp [] ltac:(discriminate)) as [Ht _]. rewrite app_nil_r in Ht.
      unfold held in Hf. rewrite Hq in Hf. cbn [map Datatypes.app] in Hf. rewrite app_nil_r in Hf. rewrite <- Hf.
      unfold said_by, said. rewrite Ht. cbn [t_said requests flat_map pend]. rewrite app_nil_r. exact Hp.
    - rewrite (proj1 (mute_none _ Hs)).
      assert (forall t k, Forall mute_ev t -> t_up k = false -> t_said k = [] ->
        t_said (fold_left (talk_step (p_app (p s))) t k) = []) as Hm.
      { clear. intros t k Ht. revert k. induction Ht as [|e t He Ht IH]; intros k Hu Hk; [exact Hk|]. cbn [fold_left].
        apply IH; destruct e; try contradiction; cbn [talk_step t_up t_said]; try assumption;
          destruct (t_next k) as [|[r|] l]; cbn [t_up t_said]; rewrite ?Hu, ?Hk; auto. }
      unfold said_by, said, talked. rewrite Hm by (assumption || reflexivity). apply packs_nil. }
  rewrite <- (due_outs p d s Hmtu Heid Hsz _ Hpk), Hof.
  destruct (ret_past p d (negb s) wr Hd Hc Er) as [Hr|Hr].
  - destruct (past_Rinv _ HN _ _ _ _ _ _ _ Hr) as [_ Hh].
    destruct (Hh [] ltac:(discriminate)) as [_ [_ _ Hhe _]]; [rewrite app_nil_r; exact Hl|]. exact Hhe.
  - rewrite (proj2 (mute_none _ Hr)).
    assert (received (d_tr d (negb s)) = []) as ->; [|reflexivity].
    clear - Hr. unfold received. induction Hr as [|e t He Ht IH]; [reflexivity|]. cbn [flat_map]. rewrite IH.
    destruct e; try contradiction; reflexivity.
Qed.
End C56.
