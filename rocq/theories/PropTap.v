(** PropTap: the capture handler sees the traffic (C63). *)
From Verif Require Import Base Lists Prog PktBuf Core WP Walk CoreRel WalkCore CoreHist Spec SpecRx
  Trace PropTx Concrete.

(** ** Specification *)

(** What the capture handler was shown, in order: direction (true: outgoing) and packet. *)
Definition captured (tr : list event) : list (bool * list Z) :=
  flat_map (fun e => match e with EvCapture out bs => [(out, bs)] | _ => [] end) tr.

(** What passed between the core and its bindings, in order: every packet handed to
    binding->tx, and every packet handed to mctp_bus_rx that is longer than the MCTP
    header (shorter ones are not packets and are thrown away at once). *)
Definition passed (tr : list event) : list (bool * list Z) :=
  flat_map (fun e => match e with
                     | EvTxCall _ _ bs => [(true, bs)]
                     | EvBusRx _ _ _ bs => if 4 <? zlen bs then [(false, bs)] else []
                     | _ => [] end) tr.

(** The application does not change the capture handler. *)
Definition leaves_capture {B} (o : @op B) : Prop :=
  match o with OpSetCapture _ => False | _ => True end.

(** ** Proof *)

Lemma captured_app a b : captured (a ++ b) = captured a ++ captured b.
Proof. apply flat_map_app. Qed.
Lemma passed_app a b : passed (a ++ b) = passed a ++ passed b.
Proof. apply flat_map_app. Qed.
Lemma io_captured t : Forall io_ev t -> captured t = [].
Proof. unfold captured. induction 1 as [|e t He Ht IH]; [reflexivity|]. cbn [flat_map]. rewrite IH. destruct e; cbn in *; tauto || reflexivity. Qed.
Lemma io_passed t : Forall io_ev t -> passed t = [].
Proof. unfold passed. induction 1 as [|e t He Ht IH]; [reflexivity|]. cbn [flat_map]. rewrite IH. destruct e; cbn in *; tauto || reflexivity. Qed.

Definition tap (b : bool) (t : list event) : Prop := captured t = if b then passed t else [].
Lemma tap_nil b : tap b [].
Proof. destruct b; reflexivity. Qed.
Lemma tap_app b t1 t2 : tap b t1 -> tap b t2 -> tap b (t1 ++ t2).
Proof. unfold tap. rewrite captured_app, passed_app. intros -> ->. destruct b; reflexivity. Qed.
Lemma tap_cons b e t : captured [e] = [] -> passed [e] = [] -> tap b t -> tap b (e :: t).
Proof.
  intros H1 H2 H. change (e :: t) with ([e] ++ t). apply tap_app; [|exact H].
  unfold tap. rewrite H1, H2. destruct b; reflexivity.
Qed.
Lemma tap_cap {B} (w : world B) out e bytes t :
  captured [e] = [] -> passed [e] = [(out, bytes)] ->
  tap (m_cap (w_m w)) t ->
  tap (m_cap (w_m w)) (capev w out bytes ++ e :: t) /\ tap (m_cap (w_m w)) (e :: capev w out bytes ++ t).
Proof.
  intros H1 H2 H. unfold tap in *. unfold capev.
  change (e :: t) with ([e] ++ t). change (e :: (if m_cap (w_m w) then [EvCapture out bytes] else []) ++ t)
    with ([e] ++ (if m_cap (w_m w) then [EvCapture out bytes] else []) ++ t).
  rewrite !captured_app, !passed_app, H1, H2, H.
  destruct (m_cap (w_m w)); split; reflexivity.
Qed.

Section Tap.
Context {B : Type} {st : strictness}.
Notation world := (world B).

Lemma stable_cap (w w' : world) : stable w w' -> m_cap (w_m w') = m_cap (w_m w).
Proof. intros (Hr & _). unfold rest in Hr. now injection Hr. Qed.

Lemma tap_tx i (w : world) rc t w' : tx_step st i w rc t w' -> tap (m_cap (w_m w)) t.
Proof.
  destruct 1 as [b p q p' b' rc dis bytes io Hb Hst Hqu Hby Hio Hid Hq].
  apply tap_cap; [reflexivity|reflexivity|].
  apply tap_app; [unfold tap; rewrite io_captured, io_passed by exact Hio; destruct (m_cap _); reflexivity|].
  apply tap_app; [destruct dis; [apply tap_cons; try reflexivity|]; apply tap_nil|].
  apply tap_cons; [reflexivity|reflexivity|].
  destruct (final rc); [apply tap_cons; try reflexivity|]; apply tap_nil.
Qed.
Lemma tap_enqs i (w : world) l t w' : enqs st i w l t w' -> tap (m_cap (w_m w)) t.
Proof.
  induction 1 as [|w bs t1 w1 l t2 w2 H1 H2 IH]; [apply tap_nil|].
  rewrite (stable_cap _ _ (enq_stable _ _ _ _ _ _ H1)) in IH. apply tap_app; [|exact IH].
  destruct H1. repeat (apply tap_cons; [reflexivity|reflexivity|]). apply tap_nil.
Qed.
Lemma tap_txs i (w : world) t w' : txs st i w t w' -> tap (m_cap (w_m w)) t.
Proof.
  induction 1 as [w b Hb Hc|w rc t w' Hs Hf|w rc t1 w1 t2 w2 Hs Hf Ht IH];
    [apply tap_nil|eapply tap_tx; eassumption|].
  rewrite (stable_cap _ _ (tx_stable _ _ _ _ _ _ Hs)) in IH.
  apply tap_app; [eapply tap_tx; eassumption|exact IH].
Qed.
Lemma tap_on_bus (w : world) i s d to tag m rc t w' :
  on_bus_rel st w i s d to tag m rc t w' -> tap (m_cap (w_m w)) t.
Proof.
  destruct 1 as [| |t w' H]; [apply tap_nil|apply tap_nil|]. destruct H as [b t1 w1 t2 w' Hb Hst Htg H1 H2].
  apply tap_app; [eapply tap_enqs; exact H1|].
  rewrite <- (stable_cap _ _ (steps_stable _ _ _ _ (enqs_steps _ _ _ _ _ _ H1))).
  eapply tap_txs; exact H2.
Qed.
Lemma tap_message (w : world) e to tag m rc t w' :
  message_rel st w e to tag m rc t w' -> tap (m_cap (w_m w)) t.
Proof. destruct 1; [apply tap_nil|]. eapply tap_on_bus; eassumption. Qed.
Lemma tap_msgs (w : world) l t w' : msgs_rel st w l t w' -> tap (m_cap (w_m w)) t.
Proof.
  induction 1 as [|w r rs rc t1 w1 t2 w2 H1 H2 IH]; [apply tap_nil|].
  rewrite (stable_cap _ _ (steps_stable _ _ _ _ (message_rel_steps _ _ _ _ _ _ _ _ _ H1))) in IH.
  apply tap_app; [eapply tap_message; eassumption|exact IH].
Qed.
Lemma tap_route ap (w : world) i s d to tag m t w' :
  route_rel st ap w i s d to tag m t w' -> tap (m_cap (w_m w)) t.
Proof.
  destruct 1 as [b Hb Hp Hd|b e t w' Hb Hp Hd He Ht|rc t w' Hp Ht];
    (apply tap_cons; [reflexivity|reflexivity|]); [apply tap_nil| |eapply tap_on_bus; exact Ht].
  unfold local_event in He.
  apply tap_cons; [| |eapply tap_msgs; exact Ht];
    destruct (_ && _) in He; [|destruct (m_rx _) in He| |destruct (m_rx _) in He];
    try discriminate He; injection He as <-; reflexivity.
Qed.
Lemma tap_body ap (w : world) i bytes t w' : rx_body_rel st ap w i bytes t w' -> tap (m_cap (w_m w)) t.
Proof.
  destruct 1 as [b Hb Hp Hd|b cs Hb Hl Hp|b cs s d m t w' Hb Hl Hp Ht]; [apply tap_nil|apply tap_nil|].
  exact (tap_route _ _ _ _ _ _ _ _ _ _ Ht).
Qed.
Lemma tap_rx ap (w : world) i n bytes t w' : rx_rel st ap w i n bytes t w' -> tap (m_cap (w_m w)) t.
Proof.
  destruct 1 as [b Hb Hl|b t w' Hb Hl Hr].
  - apply tap_cons; [reflexivity| |apply tap_cons; [reflexivity|reflexivity|apply tap_nil]].
    cbn. replace (4 <? zlen bytes) with false by lia. reflexivity.
  - apply tap_cap; [reflexivity| |].
    { cbn. replace (4 <? zlen bytes) with true by lia. reflexivity. }
    apply tap_app; [eapply tap_body; exact Hr|]. apply tap_cons; [reflexivity|reflexivity|apply tap_nil].
Qed.
Lemma tap_set (w : world) i en t w' : set_rel st w i en t w' -> tap (m_cap (w_m w)) t.
Proof.
  destruct 1 as [b en Hb Hc|b Hb Hst Hsz|b Hb Hst|b t w' Hb Hst Ht];
    (apply tap_cons; [reflexivity|reflexivity|]); try apply tap_nil.
  apply tap_txs in Ht. pose proof (rest_set_bus _ w i (set_st b TxEnabled)) as Hr.
  unfold rest in Hr. assert (m_cap (w_m (set_bus w i (set_st b TxEnabled))) = m_cap (w_m w)) as E by now injection Hr.
  rewrite E in Ht. exact Ht.
Qed.
End Tap.

Section Hist.
Context {B : Type}.
Notation world := (world B).

Lemma set_rel_cap (w : world) i en t w' : set_rel Strict w i en t w' -> m_cap (w_m w') = m_cap (w_m w).
Proof.
  assert (forall b x, m_cap (w_m (set_bus w i (set_st b x))) = m_cap (w_m w)) as H.
  { intros b x. pose proof (rest_set_bus _ w i (set_st b x)) as Hr. unfold rest in Hr. now injection Hr. }
  destruct 1 as [b en Hb Hc|b Hb Hst Hsz|b Hb Hst|b t w' Hb Hst Ht]; [reflexivity|apply H|apply H|].
  rewrite (stable_cap _ _ (steps_stable _ _ _ _ (txs_steps _ _ _ _ _ Ht))). apply H.
Qed.

Lemma tap_op (w : world) o t w' : op_rel w o t w' -> leaves_capture o ->
  tap (m_cap (w_m w)) t /\ m_cap (w_m w') = m_cap (w_m w).
Proof.
  destruct 1 as [n|b|b|j b|j n|eid to tag msg rc t w' Hrel|j en t w' Hrel|j p bytes ap t w' Hby Hrel];
    intros Hl; try (destruct Hl; fail).
  1,2: split; [apply tap_nil|reflexivity].
  1,2: split; [apply tap_nil|destruct j; reflexivity].
  - split.
    + apply tap_app; [eapply tap_message; exact Hrel|].
      apply tap_cons; [reflexivity|reflexivity|apply tap_nil].
    + exact (stable_cap _ _ (steps_stable _ _ _ _ (message_rel_steps _ _ _ _ _ _ _ _ _ Hrel))).
  - split; [eapply tap_set|eapply set_rel_cap]; exact Hrel.
  - split.
    + apply tap_cons; [reflexivity|reflexivity|]. exact (tap_rx _ _ _ _ _ _ _ Hrel).
    + destruct (rx_rel_steps _ _ _ _ _ _ Hrel) as (cs & b & t1 & Hs & _).
      exact (stable_cap _ _ (steps_stable _ _ _ _ Hs)).
Qed.

Lemma tap_hist (w : world) l t w' : hist w l t w' -> Forall leaves_capture l -> tap (m_cap (w_m w)) t.
Proof.
  induction 1 as [w|w o t1 w1 l t2 w2 Hr Hw1 Hh IH]; intros Hl; [apply tap_nil|].
  inversion Hl as [|? ? Ho Hl']; subst. destruct (tap_op _ _ _ _ Hr Ho) as [H1 H2].
  apply tap_app; [exact H1|]. rewrite <- H2. auto.
Qed.
End Hist.

(** C63.  From any reachable state, once the application has set (or cleared) the
    capture handler, and until it changes it again: with a handler, the capture calls
    are, one for one and in order, the packets handed to the bindings and received from
    them, each with its bytes and direction; without one there are none. *)
Theorem C63_capture {B} (f : txfun B) (s : startfun B) appl m b0 b1 w tr on l :
  reaches f s appl m b0 b1 w tr -> Forall (traffic m) l -> Forall leaves_capture l ->
  always no_oom (exec (scripted f) (scripted_start s) appl w (OpSetCapture on :: l)) (fun _ t =>
    captured t = if on then passed t else []).
Proof.
  intros Hr Ht Hl. destruct (reaches_spec _ _ _ _ _ _ _ _ Hr) as (Hw & Hm & Hf & _).
  apply adv_always. eapply wp_mono; [apply adv_mono| |
    eapply (wp_xops f s appl no_oom eq_refl Hf m (OpSetCapture on :: l) w [] Hw Hm); constructor; [exact I|exact Ht]].
  intros w' g (t & -> & Hh & _).
  inversion Hh as [|? ? t1 w1 ? t2 w2 Hr1 Hw1 Hh2]; subst.
  inversion Hr1; subst. exact (tap_hist _ _ _ _ Hh2 Hl).
Qed.

(** A fresh core has no handler. *)
Theorem C63_off_at_start {B} (f : txfun B) (s : startfun B) appl m b0 b1 l :
  legal f s m b0 b1 l -> Forall leaves_capture l ->
  always no_oom (history f s appl m b0 b1 l) (fun _ t => captured t = []).
Proof.
  intros Hl Hc. eapply always_mono; [|exact (history_spec f s appl m b0 b1 l Hl)].
  intros w tr (t0 & w0 & t & -> & Hb & Hh & _).
  pose proof (tap_hist _ _ _ _ Hh Hc) as H. unfold tap in H. rewrite (bt_cap _ _ _ Hb) in H.
  rewrite captured_app, H, app_nil_r. pose proof (bt_ev _ _ _ Hb) as He. clear - He.
  induction He as [|e t He Ht IH]; [reflexivity|]. unfold captured in *. cbn [flat_map]. rewrite IH.
  destruct e; cbn in *; tauto || reflexivity.
Qed.

(** What it does not say: one capture per packet.  A packet the binding could not take
    is shown again at every new attempt.  Here a binding is busy once: the only packet
    is enqueued once and accepted once, and captured twice. *)
Theorem C63_retried_twice :
  let bs := packet 9 8 true true 0 true 3 [1; 2; 3] in
  can_finish no_oom
    (history busy_first ok_start no_app (Endpoint 8) (plain_binding 1%nat) (plain_binding 0%nat)
       [OpSetCapture true; OpSetTx false true; OpTx 9 true 3 [1; 2; 3]; OpSetTx false true])
    (fun _ tr => map snd (enqueued false tr) = [bs] /\ map snd (settled false tr) = [bs] /\
                 captured tr = [(true, bs); (true, bs)]).
Proof.
  cbv zeta. apply (by_run _ calm _ _ calm_no_oom). vm_compute. split; [reflexivity|]. split; reflexivity.
Qed.

(** Traffic in both directions, with the handler set in between: a packet sent and one
    received before it is set are not shown, those after it are; a runt is not. *)
Lemma C63_case :
  legal_node [OpSetRx true; OpSetTx false true; OpTx 9 true 3 [1; 2; 3]; rx (packet 8 9 true true 0 true 1 [5]);
              OpSetCapture true; OpTx 9 true 3 [4; 5; 6]; rx (packet 8 9 true true 0 true 1 [7]);
              rx [1; 2; 3; 4]; rx (packet 77 9 true true 0 true 1 [8]);
              OpSetCapture false; OpTx 9 true 3 [9]] /\
  can_finish no_oom
    (node [OpSetRx true; OpSetTx false true; OpTx 9 true 3 [1; 2; 3]; rx (packet 8 9 true true 0 true 1 [5]);
              OpSetCapture true; OpTx 9 true 3 [4; 5; 6]; rx (packet 8 9 true true 0 true 1 [7]);
              rx [1; 2; 3; 4]; rx (packet 77 9 true true 0 true 1 [8]);
              OpSetCapture false; OpTx 9 true 3 [9]])
    (fun _ tr => captured tr = [(true, packet 9 8 true true 0 true 3 [4; 5; 6]);
                                (false, packet 8 9 true true 0 true 1 [7]);
                                (false, packet 77 9 true true 0 true 1 [8])]).
Proof.
  split.
  - apply legal_intro; [apply accept_polite|apply ok_start_starts|apply plain_dims|apply plain_dims|].
    repeat constructor; cbn; try discriminate; try lia.
  - apply (by_run _ calm _ _ calm_no_oom). vm_compute. reflexivity.
Qed.
