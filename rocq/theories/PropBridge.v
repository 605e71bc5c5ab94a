(** PropBridge: theorem about bridging (C18). *)
From Verif Require Import Base Lists Prog PktBuf Core WP Walk CoreRel WalkCore CoreHist Spec SpecRx
  Trace PropTx PropMsg Reasm PropRx PropRound.

Section Bridge.
Context {B : Type} (f : txfun B) (s : startfun B) (appl : event -> list txreq).
Context (b0 b1 : binding B).
Notation world := (world B).

Lemma enqueued_capev (w : world) o bs j : enqueued j (capev w o bs) = [].
Proof. unfold capev. destruct (m_cap (w_m w)); reflexivity. Qed.
Lemma callbacks_app a b : filter is_callback (a ++ b) = filter is_callback a ++ filter is_callback b.
Proof. apply filter_app. Qed.
Lemma key_tag bs : 0 <= h_tag bs <= 7.
Proof. unfold h_tag. pose proof (Z.mod_pos_bound (nth 3 bs 0) 8). lia. Qed.

(** In bridge mode every complete message goes to the other bus, re-packetised for
    that bus, and nowhere else. *)
Theorem C18_bridge w tr i p bs :
  reaches f s appl Bridge b0 b1 w tr -> wf_pkt p -> pkt_is p bs ->
  always no_oom (xop f s appl w (OpRx i p)) (fun w' t =>
    let there := negb i in
    filter is_callback t = [] /\ enqueued i t = [] /\
    match deliveries t with
    | [] => enqueued there t = []
    | [d] =>
        (bus_state_of w there = Some Constructed -> enqueued there t = []) /\
        (bus_state_of w there <> Some Constructed ->
         packetised (bd_version (bnd w there)) (d_src d) (d_dest d) (d_to d) (d_tag d)
                    (bd_pkt_size (bnd w there) - 4) (d_msg d) (map snd (enqueued there t)))
    | _ => False
    end).
Proof.
  intros Hr Hwp Hp. destruct (reaches_spec _ _ _ _ _ _ _ _ Hr) as (Hw & Hm & _).
  eapply always_mono; [|eapply (op_rx_case f s appl b0 b1 Bridge w tr i p bs Hr); [|exact Hp]].
  2:{ split; [now intros|exact Hwp]. }
  intros w' t (t1 & -> & Hc). cbn zeta.
  pose proof (rx_case_deliveries appl Bridge w i bs w' t1 (EvAlloc (m_next (w_m w)))
    (EvBusRx i (mode_local Bridge) (m_next (w_m w)) bs) (m_next (w_m w)) Hc I I) as Hd.
  rewrite Hd. clear Hd. rewrite bus_state_ost.
  assert (forall j n e e', match e with EvEnq _ _ _ => False | _ => True end ->
            match e' with EvEnq _ _ _ => False | _ => True end ->
            enqueued j (e :: e' :: t1 ++ [EvFree n]) = enqueued j t1) as Henq.
  { intros j n e e' He He'. change (e :: e' :: t1 ++ [EvFree n]) with ([e; e'] ++ t1 ++ [EvFree n]).
    rewrite !enqueued_app, app_nil_r. destruct e; try contradiction; destruct e'; try contradiction; reflexivity. }
  rewrite !Henq by exact I. cbn [filter is_callback]. rewrite callbacks_app. cbn [filter is_callback].
  rewrite app_nil_r.
  destruct Hc as [Hl Hw'|Hl Hf Hw'|cs Ht Hpu Hw'|cs msg t2 Ht Hpu Hw' Hmsg].
  - unfold taken. replace (4 <? zlen bs) with false by lia. cbn. auto.
  - discriminate.
  - rewrite callbacks_quiet by apply capev_quiet. rewrite !enqueued_capev, Ht, Hpu. cbn. auto.
  - destruct Hmsg as (rc & Hob).
    rewrite callbacks_app, !enqueued_app, !enqueued_capev, Ht, Hpu. cbn [snd filter is_callback app].
    rewrite callbacks_quiet by apply capev_quiet.
    change (enqueued i (EvMsg i (h_src bs) (h_dest bs) (h_to bs) (h_tag bs) msg :: t2)) with (enqueued i t2).
    change (enqueued (negb i) (EvMsg i (h_src bs) (h_dest bs) (h_to bs) (h_tag bs) msg :: t2))
      with (enqueued (negb i) t2).
    rewrite callbacks_quiet by (apply tx_ev_quiet; eapply on_bus_ev; exact Hob).
    assert (WF Strict (setc (nextw w) cs)) as Hw2.
    { apply WF_setc; [apply WF_next; exact Hw|].
      pose proof (rx_pure_wf (m_ctxs (w_m w)) (m_max (w_m w)) bs (wf_ctxs _ _ Hw)) as Hc.
      rewrite Hpu in Hc. apply Hc; [|exact (wf_max _ _ Hw)].
      unfold taken in Ht. apply andb_true_iff in Ht. lia. }
    cbn [app d_src d_dest d_to d_tag d_msg].
    assert (forall b, bget (setc (nextw w) cs) (negb i) = Some b -> ost w (negb i) = Some (bus_st b)) as Host.
    { intros b Hb. change (bget w (negb i) = Some b) in Hb. unfold ost. rewrite Hb. reflexivity. }
    assert (bnd (setc (nextw w) cs) (negb i) = bnd w (negb i)) as Eb by (destruct i; reflexivity).
    destruct Hob as [b Hb Hst|b Hb Hst Htag|t w' Hmr].
    + rewrite (Host b Hb), Hst. split; [reflexivity|]. split; [reflexivity|]. split; [reflexivity|]. congruence.
    + exfalso. apply Htag, tag_range, key_tag.
    + pose proof (msg_rel_enqueued _ _ _ _ _ _ _ _ _ Hw2 Hmr) as [H1 H2]. rewrite Eb in H1.
      rewrite negb_involutive in H2. split; [reflexivity|]. split; [exact H2|]. split; [|auto].
      intros Hcon. exfalso. destruct Hmr as [b t1 w1 t2 w' Hb Hst _ _ _].
      rewrite (Host b Hb) in Hcon. congruence.
Qed.
End Bridge.
