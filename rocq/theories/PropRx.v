(** PropRx: theorems about reception (C05, C07-C12). *)
From Verif Require Import Base Lists Prog PktBuf Core WP Walk CoreRel WalkCore CoreHist Spec SpecRx
  Trace PropTx Reasm.

(** Events that are neither receptions nor deliveries. *)
Definition quiet_ev (e : event) : Prop :=
  match e with
  | EvRx _ _ _ _ | EvCtrl _ _ _ _ _ | EvMsg _ _ _ _ _ _ | EvBusRx _ _ _ _ => False
  | _ => True
  end.
Lemma tx_ev_quiet t : Forall tx_ev t -> Forall quiet_ev t.
Proof. apply Forall_impl. intros []; cbn; tauto. Qed.
Lemma startup_quiet t : Forall startup_ev t -> Forall quiet_ev t.
Proof. apply Forall_impl. intros []; cbn; tauto. Qed.
Lemma rx_log_app a b : rx_log (a ++ b) = rx_log a ++ rx_log b.
Proof. apply flat_map_app. Qed.
Lemma rx_log_quiet t : Forall quiet_ev t -> rx_log t = [].
Proof.
  unfold rx_log. induction 1 as [|e t He Ht IH]; [reflexivity|]. cbn [flat_map]. rewrite IH.
  destruct e; cbn in *; tauto || reflexivity.
Qed.
Lemma deliveries_quiet t : Forall quiet_ev t -> forall t', deliveries (t ++ t') = deliveries t'.
Proof.
  induction 1 as [|e t He Ht IH]; [reflexivity|]. intros t'. cbn [app].
  destruct e; cbn in *; tauto || apply IH.
Qed.
Lemma callbacks_quiet t : Forall quiet_ev t -> filter is_callback t = [].
Proof.
  induction 1 as [|e t He Ht IH]; [reflexivity|]. cbn. rewrite IH.
  destruct e; cbn in *; tauto || reflexivity.
Qed.
Lemma last_rx_quiet a t : Forall quiet_ev t -> last_rx (a ++ t) = last_rx a.
Proof.
  unfold last_rx. rewrite fold_left_app. generalize (fold_left
    (fun acc e => match e with EvBusRx i lo _ bs => Some (i, lo, bs) | _ => acc end) a None).
  induction 1 as [|e t He Ht IH]; [reflexivity|]. cbn. destruct e; cbn in *; tauto || exact IH.
Qed.
Lemma capev_quiet B (w : world B) out bs : Forall quiet_ev (capev w out bs).
Proof. unfold capev. destruct (m_cap (w_m w)); repeat constructor. Qed.

Section Rx.
Context {B : Type} (f : txfun B) (s : startfun B) (appl : event -> list txreq).
Context (b0 b1 : binding B).
Notation world := (world B).

Lemma always_op m (w : world) tr o : reaches f s appl m b0 b1 w tr -> traffic m o ->
  always no_oom (xop f s appl w o) (fun w' t => op_rel w o t w').
Proof.
  intros Hr Ho. destruct (reaches_spec _ _ _ _ _ _ _ _ Hr) as (Hw & Hm & Hf & _).
  apply adv_always. eapply wp_mono; [apply adv_mono| |
    eapply (wp_exec_op f s appl no_oom eq_refl Hf m w o [] Hw Hm Ho)].
  intros w' g (t & -> & Hrel & _). exact Hrel.
Qed.

Lemma steps_ctxs (w : world) t w' : steps Strict w t w' -> m_ctxs (w_m w') = m_ctxs (w_m w).
Proof. intros Hs. apply steps_stable in Hs. destruct Hs as (Hr & _). now injection Hr. Qed.
Lemma steps_max (w : world) t w' : steps Strict w t w' -> m_max (w_m w') = m_max (w_m w).
Proof. intros Hs. apply steps_stable in Hs. destruct Hs as (Hr & _). now injection Hr. Qed.

(** Operations other than the reception of a packet. *)
Lemma op_other (w : world) o t w' : op_rel w o t w' -> (forall i p, o <> OpRx i p) ->
  m_ctxs (w_m w') = m_ctxs (w_m w) /\ Forall quiet_ev t /\
  m_max (w_m w') = match o with OpSetMax n => n | _ => m_max (w_m w) end.
Proof.
  intros Hr Ho.
  assert (forall b st, m_ctxs (w_m (set_bus w b st)) = m_ctxs (w_m w)
                       /\ m_max (w_m (set_bus w b st)) = m_max (w_m w)) as Hb.
  { intros b st. pose proof (rest_set_bus _ w b st) as Hre. unfold rest in Hre. split; congruence. }
  destruct Hr as [n|b|b|i b|i n|eid to tag msg rc t w' Hr|i en t w' Hr|i p bytes ap t w' Hby Hr].
  1-3: split; [reflexivity|]; split; [constructor|reflexivity].
  1-2: rewrite !wm_set_bnd; split; [reflexivity|]; split; [constructor|reflexivity].
  - pose proof (message_rel_steps _ _ _ _ _ _ _ _ _ Hr) as Hs.
    split; [exact (steps_ctxs _ _ _ Hs)|]. split; [|exact (steps_max _ _ _ Hs)]. apply Forall_app.
    split; [apply tx_ev_quiet; eapply message_ev; exact Hr|repeat constructor].
  - destruct Hr as [b en Hb' Hc|b Hb' Hst Hsz|b Hb' Hst|b t w' Hb' Hst Ht].
    + split; [reflexivity|]. split; [repeat constructor|reflexivity].
    + split; [apply Hb|]. split; [repeat constructor|apply Hb].
    + split; [apply Hb|]. split; [repeat constructor|apply Hb].
    + pose proof (txs_steps _ _ _ _ _ Ht) as Hs.
      split; [rewrite (steps_ctxs _ _ _ Hs); apply Hb|].
      split; [|rewrite (steps_max _ _ _ Hs); apply Hb].
      constructor; [exact I|]. apply tx_ev_quiet. eapply txs_ev; exact Ht.
  - exfalso. eapply Ho; reflexivity.
Qed.

Definition nextw (w : world) : world := set_m w (set_next (w_m w) (m_next (w_m w) + 1)).

(** What the reception of a packet does. *)
Inductive rx_case (m : mode) (w : world) (i : bool) (bs : list Z) (w' : world) : list event -> Prop :=
| CaseShort : zlen bs <= 4 -> w' = nextw w -> rx_case m w i bs w' []
| CaseForeign : 4 < zlen bs -> for_us (mode_local m) (h_dest bs) = false ->
    w' = nextw w -> rx_case m w i bs w' (capev w false bs)
| CaseHeld cs : taken (mode_local m) bs = true ->
    rx_pure (m_ctxs (w_m w)) (m_max (w_m w)) bs = (cs, None) ->
    w' = setc (nextw w) cs -> rx_case m w i bs w' (capev w false bs)
| CaseMsg cs msg t2 : taken (mode_local m) bs = true ->
    rx_pure (m_ctxs (w_m w)) (m_max (w_m w)) bs = (cs, Some (h_src bs, h_dest bs, msg)) ->
    m_ctxs (w_m w') = cs ->
    match m with
    | Endpoint _ =>
        match local_event w i (h_src bs) (h_to bs) (h_tag bs) msg with
        | None => t2 = [] /\ w' = setc (nextw w) cs
        | Some e => exists t3, t2 = e :: t3 /\ Forall tx_ev t3 /\ steps Strict (setc (nextw w) cs) t3 w'
        end
    | Bridge => exists rc, on_bus_rel Strict (setc (nextw w) cs) (negb i) (h_src bs) (h_dest bs)
                             (h_to bs) (h_tag bs) msg rc t2 w'
    end ->
    rx_case m w i bs w'
      (capev w false bs ++ EvMsg i (h_src bs) (h_dest bs) (h_to bs) (h_tag bs) msg :: t2).

(** The source and destination passed on are those of the last packet. *)
Lemma rx_pure_out cs max bs cs' sr d msg : rx_pure cs max bs = (cs', Some (sr, d, msg)) ->
  sr = h_src bs /\ d = h_dest bs.
Proof.
  unfold rx_pure. change (p_src bs) with (h_src bs). change (p_dest bs) with (h_dest bs).
  destruct (p_flags bs =? Z.lor FLAG_SOM FLAG_EOM); [intros [= _ <- <- _]; auto|].
  destruct (p_flags bs =? FLAG_SOM).
  { destruct (ctx_lookup _ _ _ _); [discriminate|]. destruct (ctx_free_slot cs); discriminate. }
  destruct (ctx_lookup cs _ _ _) as [k|] eqn:El; [|discriminate].
  destruct (lookup_some _ _ _ _ _ El) as (_ & _ & Hkey). unfold c_key in Hkey. injection Hkey as K1 K2 K3.
  destruct (negb _); [discriminate|]. destruct (p_flags bs =? FLAG_EOM).
  - destruct (_ <? _); [discriminate|]. destruct (add_pure _ _ _) as [c2 ok] eqn:Ea.
    destruct (add_pure_fields _ _ _ _ _ Ea) as (E1 & E2 & _). destruct ok; [|discriminate].
    intros [= _ <- <- _]. split; congruence.
  - destruct (negb _); [discriminate|]. destruct (add_pure _ _ _) as [c2 ok]. discriminate.
Qed.

Lemma rx_cases m (w : world) i p bs t w' : WF Strict w -> mode_ok m w -> pkt_is p bs ->
  op_rel w (OpRx i p) t w' ->
  exists t1, t = EvAlloc (m_next (w_m w)) :: EvBusRx i (mode_local m) (m_next (w_m w)) bs
                 :: t1 ++ [EvFree (m_next (w_m w))] /\ rx_case m w i bs w' t1.
Proof.
  intros Hw Hm Hp Hr. inversion Hr as [| | | | | | |i' p' bytes ap t' w'' Hby Hrx]; subst.
  unfold pkt_is in Hp. rewrite Hp in Hby. injection Hby as <-. fold (nextw w) in Hrx.
  assert (forall b, bget w i = Some b -> busrx_local (nextw w) b = mode_local m /\
     (m_policy (w_m w) = RouteEndpoint -> dest_is_local b (p_dest bs) = for_us (mode_local m) (h_dest bs)) /\
     (m_policy (w_m w) = RouteBridge -> mode_local m = None)) as Hlo.
  { intros b Hb. unfold busrx_local, nextw. cbn [set_m w_m set_next m_policy]. unfold mode_ok in Hm.
    destruct m as [e|].
    - destruct Hm as [Hpo Hm]. rewrite Hpo. assert (bus_eid b = e) as <-.
      { destruct i; [|rewrite Hb in Hm; cbn in Hm; congruence].
        exfalso. assert (bget w true <> None) as Hn by congruence.
        apply (wf_b1 _ _ Hw) in Hn. congruence. }
      split; [reflexivity|]. split; [reflexivity|discriminate].
    - destruct Hm as [Hpo _]. rewrite Hpo. split; [reflexivity|]. split; [discriminate|reflexivity]. }
  assert (forall b, bget w i = Some b ->
     m_policy (w_m w) = RouteBridge \/ dest_is_local b (p_dest bs) = true ->
     4 < zlen bs -> taken (mode_local m) bs = true) as Htk.
  { intros b Hb Hc Hl. destruct (Hlo b Hb) as (_ & H1 & H2). unfold taken.
    replace (4 <? zlen bs) with true by lia. cbn [andb]. destruct Hc as [Hc|Hc].
    - rewrite (H2 Hc). reflexivity.
    - destruct (m_policy (w_m w)); [rewrite <- H1; auto|rewrite H2; auto]. }
  destruct Hrx as [b Hb Hl|b t1 w' Hb Hl Hrx].
  - destruct (Hlo b Hb) as (-> & _). exists []. split; [reflexivity|]. now constructor.
  - destruct (Hlo b Hb) as (El & H1 & H2). rewrite El.
    change (capev (nextw w) false bs) with (capev w false bs).
    destruct Hrx as [b' Hb' Hpo Hloc|b' cs Hb' Hloc Hpure|b' cs s' d msg t w' Hb' Hloc Hpure Hrt].
    + exists (capev w false bs). split; [reflexivity|]. apply CaseForeign; auto.
      rewrite Hb in Hb'. injection Hb' as <-. rewrite <- H1; auto.
    + exists (capev w false bs). split; [reflexivity|]. eapply CaseHeld; eauto.
    + destruct (rx_pure_out _ _ _ _ _ _ _ Hpure) as [-> ->].
      pose proof (Htk b' Hb' Hloc Hl) as Ht.
      pose proof (steps_ctxs _ _ _ (route_rel_steps _ _ _ _ _ _ _ _ _ _ _ Hrt)) as Hcs. cbn in Hcs.
      rewrite p_to_spec, p_tag_spec in Hrt.
      assert (m_policy (w_m w) = match m with Endpoint _ => RouteEndpoint | Bridge => RouteBridge end) as Hpo.
      { unfold mode_ok in Hm. destruct m; tauto. }
      inversion Hrt as [b2 Hb2 Hpol Hno|b2 e t2 w2 Hb2 Hpol Hyes Hev Hst|rc t2 w2 Hpol Hob]; subst.
      * exists (capev w false bs ++ [EvMsg i (h_src bs) (h_dest bs) (h_to bs) (h_tag bs) msg]).
        split; [now rewrite <- !app_assoc|].
        change (m_policy (w_m w) = RouteEndpoint) in Hpol. destruct m as [e|]; [|congruence].
        eapply CaseMsg; eauto. destruct Hno as [Hno|Hno].
        { exfalso. unfold taken in Ht. apply andb_true_iff in Ht. destruct Ht as [_ Ht].
          change (bget w i = Some b2) in Hb2. destruct (Hlo b2 Hb2) as (_ & E & _).
          change (dest_is_local b2 (p_dest bs) = false) in Hno. rewrite E in Hno; auto. congruence. }
        change (local_event w i (h_src bs) (h_to bs) (h_tag bs) msg = None) in Hno. rewrite Hno. auto.
      * exists (capev w false bs ++ EvMsg i (h_src bs) (h_dest bs) (h_to bs) (h_tag bs) msg :: e :: t2).
        split; [now rewrite <- !app_assoc|].
        change (m_policy (w_m w) = RouteEndpoint) in Hpol. destruct m as [eid|] eqn:Em; [|congruence].
        eapply CaseMsg; eauto. change (local_event w i (h_src bs) (h_to bs) (h_tag bs) msg = Some e) in Hev.
        rewrite Hev. exists t2. split; [reflexivity|]. split; [eapply msgs_ev; exact Hst|eapply msgs_rel_steps; exact Hst].
      * exists (capev w false bs ++ EvMsg i (h_src bs) (h_dest bs) (h_to bs) (h_tag bs) msg :: t2).
        split; [now rewrite <- !app_assoc|].
        change (m_policy (w_m w) = RouteBridge) in Hpol. destruct m as [eid|] eqn:Em; [congruence|].
        eapply CaseMsg; eauto.
Qed.

Lemma each_quiet (P : list event -> event -> Prop) t : Forall quiet_ev t ->
  (forall pre e, quiet_ev e -> P pre e) -> forall pre, each P pre t.
Proof.
  intros Ht Hp pre. apply each_trivial. intros p e Hi. apply Hp. rewrite Forall_forall in Ht. auto.
Qed.

(** ** C05: every delivery is accounted for by the packets received *)

Definition accounted (before : list event) (e : event) : Prop :=
  match e with
  | EvMsg i src dest to tag msg => explained before i src dest to tag msg
  | EvRx src to tag msg => exists i dest, explained before i src dest to tag msg
  | EvCtrl i src x y msg => exists dest to tag, explained before i src dest to tag msg /\
      x = negb (tag =? 0) /\ y = (if to then 1 else 0)
  | _ => True
  end.

Lemma local_event_shape (w : world) i sr to tag msg e : local_event w i sr to tag msg = Some e ->
  e = EvRx sr to tag msg \/ e = EvCtrl i sr (negb (tag =? 0)) (if to then 1 else 0) msg.
Proof. unfold local_event. destruct (_ && _); [|destruct (m_rx _)]; intros [= <-]; auto. Qed.

Lemma accounted_quiet pre e : quiet_ev e -> accounted pre e.
Proof. destruct e; cbn; tauto. Qed.

Lemma explained_ext pre t i sr d to tag msg : last_rx (pre ++ t) = last_rx pre -> rx_log t = [] ->
  explained pre i sr d to tag msg -> explained (pre ++ t) i sr d to tag msg.
Proof.
  intros H1 H2 (lo & bs & E1 & E2 & E3 & E4 & E5 & E6 & E7 & E8 & E9). exists lo, bs.
  rewrite H1, rx_log_app, H2, app_nil_r. repeat split; auto.
Qed.

Lemma rx_case_msg m (w : world) i bs w' t1 n : rx_case m w i bs w' t1 ->
  forall log, CI log (m_ctxs (w_m w)) ->
  CI (log ++ considered (EvBusRx i (mode_local m) n bs)) (m_ctxs (w_m w')) /\
  forall pre, log = rx_log pre ->
  each accounted (pre ++ [EvBusRx i (mode_local m) n bs]) t1.
Proof.
  intros Hc log Hci. cbn [considered].
  destruct Hc as [Hl Hw'|Hl Hf Hw'|cs Ht Hp Hw'|cs msg t2 Ht Hp Hw' Hm].
  - unfold taken. replace (4 <? zlen bs) with false by lia. cbn [andb]. rewrite app_nil_r.
    subst w'. split; [exact Hci|]. intros; exact I.
  - unfold taken. rewrite Hf, andb_false_r, app_nil_r. subst w'. split; [exact Hci|].
    intros. apply each_quiet; [apply capev_quiet|apply accounted_quiet].
  - rewrite Ht. destruct (rx_pure_CI _ _ _ _ _ _ Hci Hp) as [Hci' _]. subst w'.
    split; [exact Hci'|]. intros. apply each_quiet; [apply capev_quiet|apply accounted_quiet].
  - rewrite Ht. destruct (rx_pure_CI _ _ _ _ _ _ Hci Hp) as [Hci' Hout]. rewrite Hw'.
    split; [exact Hci'|]. intros pre Epre. apply each_app.
    split; [apply each_quiet; [apply capev_quiet|apply accounted_quiet]|].
    set (pre' := (pre ++ _) ++ _).
    assert (explained pre' i (h_src bs) (h_dest bs) (h_to bs) (h_tag bs) msg) as Hex.
    { exists (mode_local m), bs. unfold pre'. rewrite last_rx_quiet by apply capev_quiet.
      rewrite !rx_log_app, (rx_log_quiet _ (capev_quiet _ _ _ _)). cbn [rx_log flat_map considered].
      rewrite Ht, !app_nil_r, <- Epre.
      split; [unfold last_rx; rewrite fold_left_app; reflexivity|].
      destruct (Hout _ _ _ eq_refl) as (_ & _ & Ho). change (h_src bs, h_dest bs, h_tag bs) with (h_key bs).
      destruct Ho as [(-> & -> & ->)|(-> & -> & Ho)]; repeat split; auto; discriminate. }
    cbn [each]. split; [exact Hex|].
    assert (Forall quiet_ev t2 \/ exists e t3, t2 = e :: t3 /\ Forall quiet_ev t3 /\
              (e = EvRx (h_src bs) (h_to bs) (h_tag bs) msg \/
               e = EvCtrl i (h_src bs) (negb (h_tag bs =? 0)) (if h_to bs then 1 else 0) msg)) as Hsh.
    { destruct m as [eid|].
      - destruct (local_event w i (h_src bs) (h_to bs) (h_tag bs) msg) as [e|] eqn:Ee.
        + destruct Hm as (t3 & -> & H3 & _). right. exists e, t3. split; [reflexivity|].
          split; [now apply tx_ev_quiet|]. now apply local_event_shape with (1 := Ee).
        + destruct Hm as [-> _]. left. constructor.
      - destruct Hm as (rc & Hm). left. apply tx_ev_quiet. eapply on_bus_ev; exact Hm. }
    destruct Hsh as [Hq|(e & t3 & -> & Hq & He)].
    + apply each_quiet; [exact Hq|apply accounted_quiet].
    + cbn [each]. split; [|apply each_quiet; [exact Hq|apply accounted_quiet]].
      assert (explained (pre' ++ [EvMsg i (h_src bs) (h_dest bs) (h_to bs) (h_tag bs) msg])
                i (h_src bs) (h_dest bs) (h_to bs) (h_tag bs) msg) as Hex'.
      { apply explained_ext; [unfold last_rx; rewrite fold_left_app; reflexivity|reflexivity|exact Hex]. }
      destruct He as [-> | ->]; cbn; eauto 10.
Qed.

Lemma op_CI m (w : world) o t w' tr : WF Strict w -> mode_ok m w -> op_rel w o t w' ->
  CI (rx_log tr) (m_ctxs (w_m w)) ->
  each accounted tr t /\ CI (rx_log (tr ++ t)) (m_ctxs (w_m w')).
Proof.
  intros Hw Hm Hr Hci.
  assert ((exists i p, o = OpRx i p) \/ forall i p, o <> OpRx i p) as [(i & p & ->)|Ho].
  { destruct o; eauto; right; discriminate. }
  2:{ destruct (op_other _ _ _ _ Hr Ho) as (Hc & Hq & _). rewrite Hc, rx_log_app, (rx_log_quiet _ Hq), app_nil_r.
      split; [|exact Hci]. apply each_quiet; [exact Hq|apply accounted_quiet]. }
  assert (exists bs, pkt_is p bs) as (bs & Hp).
  { inversion Hr; subst. unfold pkt_is. eauto. }
  destruct (rx_cases _ _ _ _ _ _ _ Hw Hm Hp Hr) as (t1 & -> & Hc).
  set (n := m_next (w_m w)).
  destruct (rx_case_msg _ _ _ _ _ _ n Hc _ Hci) as [Hci' He]. split.
  - cbn [each]. split; [exact I|]. split; [exact I|]. apply each_app. split.
    + apply He. rewrite rx_log_app. cbn. now rewrite app_nil_r.
    + cbn. auto.
  - rewrite rx_log_app. cbn [rx_log flat_map considered app]. fold (rx_log (t1 ++ [EvFree n])).
    assert (rx_log (t1 ++ [EvFree n]) = []) as ->.
    { rewrite rx_log_app. cbn. rewrite app_nil_r. clear - Hc.
      assert (forall a b, Forall quiet_ev a -> rx_log (a ++ b) = rx_log b) as Hqa.
      { intros. rewrite rx_log_app, rx_log_quiet; auto. }
      destruct Hc as [Hl Hw'|Hl Hf Hw'|cs Ht Hp Hw'|cs msg t2 Ht Hp Hw' Hm].
      - reflexivity.
      - apply rx_log_quiet, capev_quiet.
      - apply rx_log_quiet, capev_quiet.
      - rewrite Hqa by apply capev_quiet. cbn. fold (rx_log t2). destruct m as [eid|].
        + destruct (local_event w i (h_src bs) (h_to bs) (h_tag bs) msg) as [e|] eqn:Ee.
          * destruct Hm as (t3 & -> & H3 & _).
            destruct (local_event_shape _ _ _ _ _ _ _ Ee) as [-> | ->]; cbn; apply rx_log_quiet, tx_ev_quiet, H3.
          * destruct Hm as [-> _]. reflexivity.
        + destruct Hm as (rc & Hm). apply rx_log_quiet, tx_ev_quiet. eapply on_bus_ev; exact Hm. }
    rewrite app_nil_r. exact Hci'.
Qed.

Lemma CI_fresh : CI [] (repeat ctx0 16).
Proof.
  constructor.
  - reflexivity.
  - intros n c Hn Hc. apply nth_error_In, repeat_spec in Hn. subst. now destruct Hc.
  - intros n1 n2 c1 c2 Hn _ Hc. apply nth_error_In, repeat_spec in Hn. subst. now destruct Hc.
Qed.

Lemma hist_CI m (w : world) l t w' : hist w l t w' -> forall tr, WF Strict w -> mode_ok m w ->
  CI (rx_log tr) (m_ctxs (w_m w)) -> each accounted tr t /\ CI (rx_log (tr ++ t)) (m_ctxs (w_m w')).
Proof.
  induction 1 as [w|w o t1 w1 l t2 w2 Ho Hw1 Hh IH]; intros tr Hw Hm Hci.
  - rewrite app_nil_r. split; [exact I|exact Hci].
  - destruct (op_CI _ _ _ _ _ _ Hw Hm Ho Hci) as [He Hci'].
    destruct (IH _ Hw1 (op_rel_mode _ _ _ _ _ Hm Ho) Hci') as [He' Hci''].
    rewrite app_assoc. split; [apply each_app; auto|exact Hci''].
Qed.

Theorem C05_reassembly_sound m l : legal f s m b0 b1 l ->
  always no_oom (history f s appl m b0 b1 l) (fun _ tr => at_each accounted tr).
Proof.
  intros Hl. eapply always_mono; [|exact (history_spec f s appl m b0 b1 l Hl)].
  intros w tr (t0 & w0 & t & -> & Hb & Hh & Hw). apply each_at_each.
  pose proof (startup_quiet _ (bt_ev _ _ _ Hb)) as Hq. apply each_app.
  split; [apply each_quiet; [exact Hq|apply accounted_quiet]|].
  refine (proj1 (hist_CI m _ _ _ _ Hh _ (bt_wf _ _ _ Hb) (bt_mode _ _ _ Hb) _)).
  cbn [app]. rewrite (rx_log_quiet _ Hq), (bt_ctx _ _ _ Hb). apply CI_fresh.
Qed.

Lemma reaches_CI m (w : world) tr : reaches f s appl m b0 b1 w tr -> CI (rx_log tr) (m_ctxs (w_m w)).
Proof.
  intros Hr. destruct (reaches_spec _ _ _ _ _ _ _ _ Hr) as (_ & _ & _ & t0 & w0 & l & t & -> & Hb & Hh).
  refine (proj2 (hist_CI m _ _ _ _ Hh _ (bt_wf _ _ _ Hb) (bt_mode _ _ _ Hb) _)).
  rewrite (rx_log_quiet _ (startup_quiet _ (bt_ev _ _ _ Hb))), (bt_ctx _ _ _ Hb). apply CI_fresh.
Qed.

(** ** C07 *)

Lemma partials_in (w : world) k data : In (k, data) (partials w) <->
  exists n c, nth_error (m_ctxs (w_m w)) n = Some c /\ c_src c <> 0 /\ c_key c = k /\ c_data c = data.
Proof.
  unfold partials. rewrite in_flat_map. split.
  - intros (c & Hin & Hc). apply In_nth_error in Hin. destruct Hin as (n & Hn). exists n, c.
    destruct (Z.eqb_spec (c_src c) 0); [destruct Hc|]. destruct Hc as [[= <- <-]|[]]. auto.
  - intros (n & c & Hn & Hs & <- & <-). exists c. split; [eapply nth_error_In; exact Hn|].
    destruct (Z.eqb_spec (c_src c) 0); [contradiction|]. cbn. auto.
Qed.

Lemma partials_nodup cs : (forall n1 n2 c1 c2, nth_error cs n1 = Some c1 -> nth_error cs n2 = Some c2 ->
            c_src c1 <> 0 -> c_key c1 = c_key c2 -> n1 = n2) ->
  NoDup (map fst (flat_map (fun c => if c_src c =? 0 then [] else [((c_src c, c_dest c, c_tag c), c_data c)]) cs))
  /\ le (length (flat_map (fun c => if c_src c =? 0 then [] else [((c_src c, c_dest c, c_tag c), c_data c)]) cs))
      (length cs).
Proof.
  induction cs as [|c cs IH]; intros Hu; [split; [constructor|cbn; lia]|].
  cbn [flat_map map length]. destruct IH as [IH1 IH2].
  { intros n1 n2 c1 c2 H1 H2 H3 H4.
    specialize (Hu (S n1) (S n2) c1 c2 H1 H2 H3 H4). congruence. }
  destruct (Z.eqb_spec (c_src c) 0); [split; [exact IH1|cbn; lia]|].
  cbn [app map fst length]. split; [|lia]. constructor; [|exact IH1].
  rewrite in_map_iff. intros ([k d] & E & Hin). cbn in E. subst k. apply in_flat_map in Hin.
  destruct Hin as (c' & Hin & Hc). destruct (Z.eqb_spec (c_src c') 0); [destruct Hc|].
  destruct Hc as [[= E1 E2 E3 E4]|[]]. apply In_nth_error in Hin. destruct Hin as (k & Hk).
  specialize (Hu 0%nat (S k) c c' eq_refl Hk n). unfold c_key in Hu.
  assert (0%nat = S k) by (apply Hu; congruence). discriminate.
Qed.

Lemma rx_case_ctxs m (w : world) i bs w' t1 : rx_case m w i bs w' t1 ->
  m_ctxs (w_m w') = m_ctxs (w_m w) \/
  (taken (mode_local m) bs = true /\
   exists out, rx_pure (m_ctxs (w_m w)) (m_max (w_m w)) bs = (m_ctxs (w_m w'), out)).
Proof.
  destruct 1 as [Hl Hw'|Hl Hf Hw'|cs Ht Hp Hw'|cs msg t2 Ht Hp Hw' Hm].
  - left. subst. reflexivity.
  - left. subst. reflexivity.
  - right. subst. split; [exact Ht|]. eexists. exact Hp.
  - right. subst. split; [exact Ht|]. eexists. exact Hp.
Qed.

Lemma op_rx_case m (w : world) tr i p bs : reaches f s appl m b0 b1 w tr -> @traffic B m (OpRx i p) ->
  pkt_is p bs ->
  always no_oom (xop f s appl w (OpRx i p)) (fun w' t =>
    exists t1, t = EvAlloc (m_next (w_m w)) :: EvBusRx i (mode_local m) (m_next (w_m w)) bs
                 :: t1 ++ [EvFree (m_next (w_m w))] /\ rx_case m w i bs w' t1).
Proof.
  intros Hr Ho Hp. eapply always_mono; [|eapply always_op; [exact Hr|exact Ho]].
  destruct (reaches_spec _ _ _ _ _ _ _ _ Hr) as (Hw & Hm & _).
  intros w' t Hrel. eapply rx_cases; eassumption.
Qed.

Theorem C07_contexts m w tr : reaches f s appl m b0 b1 w tr ->
  (length (partials w) <= 16)%nat /\ NoDup (map fst (partials w)) /\
  forall i p bs, @traffic B m (OpRx i p) -> pkt_is p bs ->
  always no_oom (xop f s appl w (OpRx i p)) (fun w' _ =>
    forall k data, k <> h_key bs -> (In (k, data) (partials w') <-> In (k, data) (partials w))).
Proof.
  intros Hr. pose proof (reaches_CI _ _ _ Hr) as Hci.
  destruct (partials_nodup (m_ctxs (w_m w)) (ci_uniq _ _ Hci)) as [Hnd Hle].
  rewrite (ci_len _ _ Hci) in Hle. split; [exact Hle|]. split; [exact Hnd|].
  intros i p bs Ho Hp. eapply always_mono; [|eapply op_rx_case; eassumption].
  intros w' t (t1 & _ & Hc) k data Hk. rewrite !partials_in.
  destruct (rx_case_ctxs _ _ _ _ _ _ Hc) as [->|(_ & out & Hpure)]; [reflexivity|]. split.
  - intros (n & c & Hn & Hs & Hkey & Hd).
    destruct (rx_pure_shape _ _ _ _ _ Hpure) as [E|(n0 & c' & Hn0 & E & Hc' & _)].
    + rewrite E in Hn. exists n, c. auto.
    + rewrite E, nth_error_upd in Hn by exact Hn0. destruct (Nat.eqb_spec n n0); [|exists n, c; auto].
      injection Hn as ->. destruct Hc'; [contradiction|congruence].
  - intros (n & c & Hn & Hs & Hkey & Hd). exists n, c.
    split; [|auto]. eapply rx_pure_other; try eassumption. congruence.
Qed.

(** ** C08 *)

Theorem C08_foreign eid w tr i p bs :
  reaches f s appl (Endpoint eid) b0 b1 w tr -> @traffic B (Endpoint eid) (OpRx i p) -> pkt_is p bs ->
  h_dest bs <> eid -> h_dest bs <> 0 -> h_dest bs <> 255 ->
  always no_oom (xop f s appl w (OpRx i p)) (fun w' t =>
    partials w' = partials w /\ m_ctxs (w_m w') = m_ctxs (w_m w) /\
    (forall j, queued w' j = queued w j /\ bus_state_of w' j = bus_state_of w j /\ bnd w' j = bnd w j) /\
    exists n, t = [EvAlloc n; EvBusRx i (Some eid) n bs]
                  ++ (if m_cap (w_m w) && (4 <? zlen bs) then [EvCapture false bs] else []) ++ [EvFree n]).
Proof.
  intros Hr Ho Hp H1 H2 H3. eapply always_mono; [|eapply op_rx_case; eassumption].
  assert (for_us (mode_local (Endpoint eid)) (h_dest bs) = false) as Hf by (cbn; lia).
  intros w' t (t1 & -> & Hc). destruct Hc as [Hl Hw'|Hl _ Hw'|cs Ht _ Hw'|cs msg t2 Ht _ Hw' _].
  3-4: unfold taken in Ht; rewrite Hf, andb_false_r in Ht; discriminate.
  - subst w'. split; [reflexivity|]. split; [reflexivity|]. split; [intros [|]; repeat split|].
    eexists. replace (4 <? zlen bs) with false by lia. rewrite andb_false_r. reflexivity.
  - subst w'. split; [reflexivity|]. split; [reflexivity|]. split; [intros [|]; repeat split|].
    eexists. replace (4 <? zlen bs) with true by lia. rewrite andb_true_r. reflexivity.
Qed.

(** ** C09 *)

Lemma land128 x : negb (Z.land x 128 =? 0) = Z.testbit x 7.
Proof.
  assert (Z.land x 128 = if Z.testbit x 7 then 128 else 0) as ->.
  { apply Z.bits_inj'. intros n Hn. change 128 with (2 ^ 7). rewrite Z.land_spec, Z.pow2_bits_eqb by lia.
    destruct (Z.eqb_spec 7 n) as [<-|].
    - rewrite andb_true_r. destruct (Z.testbit x 7); [reflexivity|now rewrite Z.bits_0].
    - rewrite andb_false_r. destruct (Z.testbit x 7); [|now rewrite Z.bits_0].
      rewrite Z.pow2_bits_eqb by lia. destruct (Z.eqb_spec 7 n); [contradiction|reflexivity]. }
  destruct (Z.testbit x 7); reflexivity.
Qed.

Lemma transport_request_spec msg :
  (4 <=? zlen msg) && ctrl_is_request msg && ctrl_is_transport msg = transport_request msg.
Proof.
  unfold transport_request. destruct msg as [|x0 [|x1 [|x2 r]]]; try reflexivity.
  cbn [ctrl_is_request ctrl_is_transport nth]. rewrite land128, !andb_assoc. reflexivity.
Qed.

(** The handlers that must run for a complete message. *)
Definition handlers (has_ctrl has_rx : bool) (i : bool) (src : Z) (to : bool) (tag : Z) (msg : list Z)
  (cbs : list event) : Prop :=
  if has_ctrl && transport_request msg
  then exists x y, cbs = [EvCtrl i src x y msg]
  else if has_rx then cbs = [EvRx src to tag msg] else cbs = [].

Theorem C09_dispatch eid w tr i p bs :
  reaches f s appl (Endpoint eid) b0 b1 w tr -> @traffic B (Endpoint eid) (OpRx i p) -> pkt_is p bs ->
  always no_oom (xop f s appl w (OpRx i p)) (fun _ t =>
    match deliveries t with
    | [] => filter is_callback t = []
    | [d] => handlers (bd_ctrl (bnd w i)) (m_rx (w_m w)) i (d_src d) (d_to d) (d_tag d) (d_msg d)
               (filter is_callback t) /\
             d_cb d = hd_error (filter is_callback t)
    | _ => False
    end).
Proof.
  intros Hr Ho Hp. eapply always_mono; [|eapply op_rx_case; eassumption].
  intros w' t (t1 & -> & Hc). cbn [deliveries filter is_callback].
  rewrite filter_app. cbn [filter is_callback]. rewrite app_nil_r.
  destruct Hc as [Hl Hw'|Hl _ Hw'|cs Ht _ Hw'|cs msg t2 Ht _ Hw' Hm].
  - reflexivity.
  - rewrite deliveries_quiet by apply capev_quiet. cbn. apply callbacks_quiet, capev_quiet.
  - rewrite deliveries_quiet by apply capev_quiet. cbn. apply callbacks_quiet, capev_quiet.
  - rewrite <- app_assoc, deliveries_quiet by apply capev_quiet. rewrite filter_app.
    rewrite (callbacks_quiet (capev w false bs)) by apply capev_quiet. cbn [app deliveries].
    unfold local_event in Hm.
    rewrite transport_request_spec in Hm. unfold handlers. rewrite (andb_comm (bd_ctrl (bnd w i))).
    cbn [filter is_callback d_src d_to d_tag d_msg d_cb].
    assert (forall e t3, Forall tx_ev t3 -> is_callback e = true ->
              deliveries ((e :: t3) ++ [EvFree (m_next (w_m w))]) = [] /\
              filter is_callback (e :: t3) = [e] /\
              callback_of ((e :: t3) ++ [EvFree (m_next (w_m w))]) = Some e) as Hsh.
    { intros e t3 H3 He. cbn [filter]. rewrite He, callbacks_quiet by now apply tx_ev_quiet.
      split; [|split; [reflexivity|destruct e; try discriminate; reflexivity]].
      transitivity (deliveries (t3 ++ [EvFree (m_next (w_m w))])); [destruct e; try discriminate; reflexivity|].
      rewrite deliveries_quiet by now apply tx_ev_quiet. reflexivity. }
    destruct (transport_request msg && bd_ctrl (bnd w i)).
    + destruct Hm as (t3 & -> & H3 & _).
      destruct (Hsh (EvCtrl i (h_src bs) (negb (h_tag bs =? 0)) (if h_to bs then 1 else 0) msg) _ H3 eq_refl) as (E1 & E2 & E3). rewrite E1, E2, E3. split; [eauto|reflexivity].
    + destruct (m_rx (w_m w)).
      * destruct Hm as (t3 & -> & H3 & _).
        destruct (Hsh (EvRx (h_src bs) (h_to bs) (h_tag bs) msg) _ H3 eq_refl) as (E1 & E2 & E3). rewrite E1, E2, E3. split; reflexivity.
      * destruct Hm as [-> _]. cbn. split; reflexivity.
Qed.

(** ** C10: what control_rx really receives *)

Definition ctrl_args (before : list event) (e : event) : Prop :=
  match e with
  | EvCtrl i src tag_owner_arg tag_arg msg =>
      exists lo bs, last_rx before = Some (i, lo, bs) /\ src = h_src bs /\
        tag_owner_arg = negb (h_tag bs =? 0) /\ tag_arg = (if h_to bs then 1 else 0)
  | _ => True
  end.

Theorem C10_swapped_args m l : legal f s m b0 b1 l ->
  always no_oom (history f s appl m b0 b1 l) (fun _ tr => at_each ctrl_args tr).
Proof.
  intros Hl. eapply always_mono; [|apply (C05_reassembly_sound m l Hl)].
  intros w tr Ha before e after E. specialize (Ha before e after E). destruct e; cbn in *; auto.
  destruct Ha as (d & to & tg & (lo & bs & E1 & E2 & E3 & E4 & E5 & E6 & E7) & -> & ->).
  exists lo, bs. rewrite <- E5, <- E6. auto.
Qed.

(** ** C11 and C12: sizes *)

(** [Q bs msg] for every message [msg] that is handed over because packet [bs]
    arrived. *)
Definition on_msg (Q : list Z -> list Z -> Prop) (before : list event) (e : event) : Prop :=
  match e with
  | EvMsg _ _ _ _ _ msg | EvRx _ _ _ msg | EvCtrl _ _ _ _ msg =>
      exists i lo bs, last_rx before = Some (i, lo, bs) /\ Q bs msg
  | _ => True
  end.
Lemma on_msg_quiet Q pre e : quiet_ev e -> on_msg Q pre e.
Proof. destruct e; cbn; tauto. Qed.

Lemma rx_case_on_msg m (w : world) i bs w' t1 n (Q : list Z -> list Z -> Prop) :
  rx_case m w i bs w' t1 ->
  (forall cs sr d msg, 4 < zlen bs ->
     rx_pure (m_ctxs (w_m w)) (m_max (w_m w)) bs = (cs, Some (sr, d, msg)) -> Q bs msg) ->
  forall pre, each (on_msg Q) (pre ++ [EvBusRx i (mode_local m) n bs]) t1.
Proof.
  intros Hc HQ pre.
  destruct Hc as [Hl Hw'|Hl Hf Hw'|cs Ht Hp Hw'|cs msg t2 Ht Hp Hw' Hm].
  - exact I.
  - apply each_quiet; [apply capev_quiet|apply on_msg_quiet].
  - apply each_quiet; [apply capev_quiet|apply on_msg_quiet].
  - apply each_app. split; [apply each_quiet; [apply capev_quiet|apply on_msg_quiet]|].
    assert (Q bs msg) as Hq.
    { eapply HQ; [|exact Hp]. unfold taken in Ht. apply andb_true_iff in Ht. lia. }
    assert (forall t, Forall (fun e => match e with EvBusRx _ _ _ _ => False | _ => True end) t ->
       last_rx (((pre ++ [EvBusRx i (mode_local m) n bs]) ++ capev w false bs) ++ t)
       = Some (i, mode_local m, bs)) as Hlast.
    { intros t Ht'. unfold last_rx. rewrite fold_left_app.
      fold (last_rx ((pre ++ [EvBusRx i (mode_local m) n bs]) ++ capev w false bs)).
      rewrite last_rx_quiet by apply capev_quiet.
      assert (last_rx (pre ++ [EvBusRx i (mode_local m) n bs]) = Some (i, mode_local m, bs)) as ->
        by (unfold last_rx; rewrite fold_left_app; reflexivity).
      induction Ht' as [|e t He Ht' IH]; [reflexivity|]. cbn. destruct e; tauto || exact IH. }
    cbn [each]. split. { exists i, (mode_local m), bs. split; [|exact Hq].
      specialize (Hlast [] (Forall_nil _)). rewrite app_nil_r in Hlast. exact Hlast. }
    assert (forall t3 pre, Forall tx_ev t3 -> each (on_msg Q) pre t3) as Hq3.
    { intros t3 pre' H3. apply each_quiet; [now apply tx_ev_quiet|apply on_msg_quiet]. }
    destruct m as [eid|].
    + destruct (local_event w i (h_src bs) (h_to bs) (h_tag bs) msg) as [e|] eqn:Ee.
      * destruct Hm as (t3 & -> & H3 & _). cbn [each]. split; [|apply Hq3, H3].
        destruct (local_event_shape _ _ _ _ _ _ _ Ee) as [-> | ->]; cbn [on_msg];
          exists i, (mode_local (Endpoint eid)), bs; (split; [|exact Hq]);
          apply Hlast; repeat constructor.
      * destruct Hm as [-> _]. exact I.
    + destruct Hm as (rc & Hm). apply Hq3. eapply on_bus_ev; exact Hm.
Qed.

(** An invariant [K] of the contexts that holds under the limits given by [P]. *)
Lemma hist_limited m (P : Z -> list Z -> Prop) (K : list mctx -> Prop) (Q : list Z -> list Z -> Prop) :
  (forall cs max bs cs' out, K cs -> Forall wf_ctx cs -> 0 <= max < 2 ^ 64 -> P max bs -> 4 < zlen bs ->
     rx_pure cs max bs = (cs', out) -> K cs') ->
  (forall cs max bs cs' sr d msg, K cs -> Forall wf_ctx cs -> 0 <= max < 2 ^ 64 -> P max bs -> 4 < zlen bs ->
     rx_pure cs max bs = (cs', Some (sr, d, msg)) -> Q bs msg) ->
  forall (w : world) l t w', hist w l t w' -> forall tr, WF Strict w -> mode_ok m w ->
  limited P (m_max (w_m w)) l -> K (m_ctxs (w_m w)) -> each (on_msg Q) tr t /\ K (m_ctxs (w_m w')).
Proof.
  intros HK HQ w l t w'.
  induction 1 as [w|w o t1 w1 l t2 w2 Ho Hw1 Hh IH]; intros tr Hw Hm Hl Hk; [split; [exact I|exact Hk]|].
  assert ((exists i p, o = OpRx i p) \/ forall i p, o <> OpRx i p) as [(i & p & ->)|Hno].
  { destruct o; eauto; right; discriminate. }
  - cbn [limited] in Hl. destruct Hl as [HP Hl].
    assert (exists bs, pkt_is p bs) as (bs & Hp).
    { inversion Ho; subst. unfold pkt_is. eauto. }
    destruct (rx_cases _ _ _ _ _ _ _ Hw Hm Hp Ho) as (t' & -> & Hc).
    assert (K (m_ctxs (w_m w1))) as Hk1.
    { destruct (rx_case_ctxs _ _ _ _ _ _ Hc) as [->|(Ht & out & Hpure)]; [exact Hk|].
      eapply HK; [exact Hk|exact (wf_ctxs _ _ Hw)|exact (wf_max _ _ Hw)|exact (HP bs Hp)| |exact Hpure].
      unfold taken in Ht. apply andb_true_iff in Ht. lia. }
    assert (m_max (w_m w1) = m_max (w_m w)) as Emax.
    { inversion Ho as [| | | | | | |i' p' bytes ap t'' w'' Hby Hrx]; subst.
      destruct (rx_rel_steps _ _ _ _ _ _ Hrx) as (cs & b & t1 & Hs & _ & _).
      rewrite (steps_max _ _ _ Hs). reflexivity. }
    rewrite <- Emax in Hl.
    destruct (IH (tr ++ EvAlloc (m_next (w_m w)) :: EvBusRx i (mode_local m) (m_next (w_m w)) bs
                     :: t' ++ [EvFree (m_next (w_m w))]) Hw1 (op_rel_mode _ _ _ _ _ Hm Ho) Hl Hk1) as [He Hk2].
    split; [|exact Hk2]. apply each_app. split; [|exact He].
    cbn [each]. split; [exact I|]. split; [exact I|]. apply each_app. split; [|cbn; auto].
    eapply rx_case_on_msg; [exact Hc|]. intros cs sr d msg Hlen Hpure.
    eapply HQ; [exact Hk|exact (wf_ctxs _ _ Hw)|exact (wf_max _ _ Hw)|exact (HP bs Hp)|exact Hlen|exact Hpure].
  - destruct (op_other _ _ _ _ Ho Hno) as (Hc & Hq & Hmax).
    assert (limited P (m_max (w_m w1)) l) as Hl1.
    { rewrite Hmax. destruct o; cbn in Hl; auto; try tauto. }
    rewrite <- Hc in Hk.
    destruct (IH (tr ++ t1) Hw1 (op_rel_mode _ _ _ _ _ Hm Ho) Hl1 Hk) as [He Hk2].
    split; [|exact Hk2]. apply each_app. split; [|exact He].
    apply each_quiet; [exact Hq|apply on_msg_quiet].
Qed.

Lemma history_limited m l (P : Z -> list Z -> Prop) (K : list mctx -> Prop) (Q : list Z -> list Z -> Prop) :
  (forall cs max bs cs' out, K cs -> Forall wf_ctx cs -> 0 <= max < 2 ^ 64 -> P max bs -> 4 < zlen bs ->
     rx_pure cs max bs = (cs', out) -> K cs') ->
  (forall cs max bs cs' sr d msg, K cs -> Forall wf_ctx cs -> 0 <= max < 2 ^ 64 -> P max bs -> 4 < zlen bs ->
     rx_pure cs max bs = (cs', Some (sr, d, msg)) -> Q bs msg) ->
  K (repeat ctx0 16) ->
  legal f s m b0 b1 l -> limited P 65536 l ->
  always no_oom (history f s appl m b0 b1 l) (fun w tr => at_each (on_msg Q) tr /\ K (m_ctxs (w_m w))).
Proof.
  intros HK HQ H0 Hl Hlim. eapply always_mono; [|exact (history_spec f s appl m b0 b1 l Hl)].
  intros w tr (t0 & w0 & t & -> & Hb & Hh & Hw).
  destruct (hist_limited m P K Q HK HQ _ _ _ _ Hh t0 (bt_wf _ _ _ Hb) (bt_mode _ _ _ Hb)) as [He Hk].
  - rewrite (bt_max _ _ _ Hb). exact Hlim.
  - rewrite (bt_ctx _ _ _ Hb). exact H0.
  - split; [|exact Hk]. apply each_at_each, each_app. split; [|exact He].
    apply each_quiet; [exact (startup_quiet _ (bt_ev _ _ _ Hb))|apply on_msg_quiet].
Qed.

Definition total (l : list Z) : Z := fold_right Z.add 0 l.

Theorem C11_memory_bound m l L : legal f s m b0 b1 l -> 0 <= L -> limited (fun n _ => n <= L) 65536 l ->
  always no_oom (history f s appl m b0 b1 l) (fun w tr =>
    Forall (fun a => 0 <= a <= L) (buffer_sizes w) /\ total (buffer_sizes w) <= 16 * L /\
    at_each (on_msg (fun bs msg => h_som bs = false -> zlen msg <= L)) tr).
Proof.
  intros Hl HL Hlim. eapply always_mono; [|eapply (history_limited m l (fun n _ => n <= L)
    (fun cs => Forall (fun c => c_alloc c <= L) cs /\ length cs = 16%nat /\ Forall wf_ctx cs)
    (fun bs msg => h_som bs = false -> zlen msg <= L)); [| | |exact Hl|exact Hlim]].
  - intros w tr [He (Hk & Hn & Hwf)]. unfold buffer_sizes.
    assert (Forall (fun a => 0 <= a <= L) (map c_alloc (m_ctxs (w_m w)))) as Ha.
    { apply Forall_map. rewrite Forall_forall in *. intros c Hc. split; [|auto].
      apply wf_ctx_alloc_pos. auto. }
    split; [exact Ha|]. split; [|exact He].
    assert (length (map c_alloc (m_ctxs (w_m w))) = 16%nat) as Hlen by now rewrite map_length.
    clear - Ha Hlen. revert Ha Hlen. generalize (map c_alloc (m_ctxs (w_m w))).
    assert (forall l0, Forall (fun a => 0 <= a <= L) l0 -> total l0 <= Z.of_nat (length l0) * L) as H.
    { induction 1; cbn [total fold_right length]; [lia|]. fold (total l). lia. }
    intros l0 Ha Hlen. specialize (H _ Ha). rewrite Hlen in H. exact H.
  - intros cs max bs cs' out (Hk & Hn & _) Hwf Hm HP Hb Hpure. split; [eapply rx_pure_alloc; eauto|].
    split.
    + destruct (rx_pure_shape _ _ _ _ _ Hpure) as [->|(n0 & c' & Hn0 & -> & _)]; [exact Hn|].
      now rewrite upd_nth_length.
    + pose proof (rx_pure_wf cs max bs Hwf Hb Hm) as Hw. rewrite Hpure in Hw. exact Hw.
  - intros cs max bs cs' sr d msg (Hk & _) Hwf Hm HP Hb Hpure Hs.
    eapply rx_pure_out_alloc; eauto.
  - split; [|split; [reflexivity|]].
    + apply Forall_forall. intros c Hc. apply repeat_spec in Hc. subst. exact HL.
    + apply Forall_forall. intros c Hc. apply repeat_spec in Hc. subst. constructor; cbn; lia || auto.
Qed.

(** With a limit below 4096 nothing is ever reassembled. *)
Theorem C12_small_limit_useless m l : legal f s m b0 b1 l ->
  limited (fun n _ => n < 4096) 65536 l ->
  always no_oom (history f s appl m b0 b1 l) (fun w tr =>
    partials w = [] /\ at_each (on_msg (fun bs msg => h_som bs = true)) tr).
Proof.
  intros Hl Hlim.
  assert (forall c pl max c' ok, c_alloc c = 0 -> max < 4096 -> 0 < zlen pl -> add_pure c pl max = (c', ok) ->
            c' = c /\ ok = false) as Hadd.
  { intros c pl max c' ok Hc Hm Hp. unfold add_pure. rewrite Hc. pose proof (zlen_pos _ (c_data c)).
    destruct (_ <=? _); [intros [= <- <-]; auto|].
    replace (0 <? _) with true by lia. unfold new_alloc_size. cbn [Z.eqb].
    replace (max <? _) with true by lia. intros [= <- <-]; auto. }
  eapply always_mono; [|eapply (history_limited m l (fun n _ => n < 4096)
    (fun cs => Forall (fun c => c_alloc c = 0 /\ c_src c = 0) cs)
    (fun bs msg => h_som bs = true)); [| | |exact Hl|exact Hlim]].
  - intros w tr [He Hk]. split; [|exact He]. unfold partials.
    induction Hk as [|c cs [_ Hc] Hk IH]; [reflexivity|]. cbn. rewrite Hc. exact IH.
  - intros cs max bs cs' out Hk _ _ HP Hb.
    assert (forall n, c_alloc (nth n cs ctx0) = 0 /\ c_src (nth n cs ctx0) = 0) as Hn.
    { intros n. destruct (nth_in_or_default n cs ctx0) as [H| ->]; [|auto].
      rewrite Forall_forall in Hk. auto. }
    pose proof (payload_zlen bs ltac:(lia)) as Hpl.
    assert (forall n c, c_alloc c = 0 ->
              Forall (fun c => c_alloc c = 0 /\ c_src c = 0) (start_pure cs n c max bs)) as Hst.
    { intros n c Hc. unfold start_pure.
      destruct (add_pure (ctx_set_frag c (zlen bs)) (p_payload bs) max) as [c2 ok] eqn:E.
      apply Hadd in E; [|exact Hc|exact HP|lia]. destruct E as [-> ->].
      apply upd_nth_Forall; [exact Hk|]. cbn. auto. }
    unfold rx_pure. destruct (p_flags bs =? _); [congruence|].
    destruct (ctx_lookup cs _ _ _) as [k|].
    + specialize (Hn k). set (c := nth k cs ctx0) in *.
      destruct (p_flags bs =? FLAG_SOM); [intros [= <- <-]; apply Hst; cbn; tauto|].
      destruct (negb _); [intros [= <- <-]; apply upd_nth_Forall; cbn; tauto|].
      destruct (p_flags bs =? FLAG_EOM).
      * destruct (_ <? _); [intros [= <- <-]; apply upd_nth_Forall; cbn; tauto|].
        destruct (add_pure c _ _) as [c2 ok] eqn:E. apply Hadd in E; [|tauto|exact HP|lia].
        destruct E as [-> ->]. intros [= <- <-]; apply upd_nth_Forall; cbn; tauto.
      * destruct (negb _); [intros [= <- <-]; apply upd_nth_Forall; cbn; tauto|].
        destruct (add_pure c _ _) as [c2 ok] eqn:E. apply Hadd in E; [|tauto|exact HP|lia].
        destruct E as [-> ->]. intros [= <- <-]; apply upd_nth_Forall; cbn; tauto.
    + destruct (p_flags bs =? FLAG_SOM); [|congruence].
      destruct (ctx_free_slot cs) as [k|]; [|congruence].
      intros [= <- <-]. apply Hst. cbn. apply Hn.
  - intros cs max bs cs' sr d msg Hk _ _ HP Hb. pose proof (payload_zlen bs ltac:(lia)) as Hpl.
    unfold rx_pure. rewrite p_flags_spec. change (Z.lor FLAG_SOM FLAG_EOM) with 192.
    unfold FLAG_SOM, FLAG_EOM.
    destruct (h_som bs); [reflexivity|]. destruct (h_eom bs); cbn -[add_pure ctx_lookup Z.modulo p_payload].
    2:{ destruct (ctx_lookup cs _ _ _); [|discriminate]. destruct (negb _); [discriminate|].
        destruct (negb _); [discriminate|]. destruct (add_pure _ _ _); discriminate. }
    destruct (ctx_lookup cs _ _ _) as [k|] eqn:El; [|discriminate].
    destruct (negb _); [discriminate|]. destruct (_ <? _); [discriminate|].
    destruct (add_pure _ _ _) as [c2 ok] eqn:E. apply Hadd in E; [|  |exact HP|lia].
    + destruct E as [-> ->]. discriminate.
    + destruct (nth_in_or_default k cs ctx0) as [H| ->]; [|reflexivity].
      rewrite Forall_forall in Hk. now apply Hk.
  - apply Forall_forall. intros c Hc. apply repeat_spec in Hc. subst. auto.
Qed.
End Rx.
