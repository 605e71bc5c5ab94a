(** PropTx: theorems about transmission (C01-C04, C13, C14, C19). *)
From Coq Require Import Permutation.
From Verif Require Import Base Lists Prog PktBuf Core WP Walk CoreRel WalkCore CoreHist Spec Trace.

(** ** Reachable states are well formed *)

Lemma hist_mode B (w : world B) l t w' m : hist w l t w' -> mode_ok m w -> mode_ok m w'.
Proof. induction 1; eauto using op_rel_mode. Qed.

Section Tx.
Context {B : Type} (f : txfun B) (s : startfun B) (appl : event -> list txreq).
Context (m : mode) (b0 b1 : binding B).
Notation world := (world B).

Lemma history_spec l : legal f s m b0 b1 l ->
  always no_oom (history f s appl m b0 b1 l) (fun w tr =>
    exists t0 w0 t, tr = t0 ++ t /\ booted m t0 w0 /\ hist w0 l t w /\ WF Strict w).
Proof.
  intros [Hp Hs H0 H1 Ht]. apply adv_always. apply wp_history; auto. reflexivity.
Qed.

Lemma always_mono a A (p : prog A) (Q Q' : A -> list event -> Prop) :
  (forall x tr, Q x tr -> Q' x tr) -> always a p Q -> always a p Q'.
Proof.
  intros HQ Hp e He. specialize (Hp e He). destruct (run e 0 [] p); auto.
Qed.

Lemma reaches_spec w tr : reaches f s appl m b0 b1 w tr ->
  WF Strict w /\ mode_ok m w /\ polite f /\
  exists t0 w0 l t, tr = t0 ++ t /\ booted m t0 w0 /\ hist w0 l t w.
Proof.
  intros (l & e & n & Hl & He & Hr). pose proof (history_spec l Hl e He) as Hh.
  rewrite Hr in Hh. destruct Hh as (t0 & w0 & t & E & Hb & Hh & Hw).
  split; [exact Hw|]. split; [eapply hist_mode; [exact Hh|exact (bt_mode _ _ _ Hb)]|].
  split; [exact (lg_polite _ _ _ _ _ _ Hl)|]. exists t0, w0, l, t. auto.
Qed.

(** Trace invariants of all histories.  [held] is the packet buffer that
    mctp_bus_rx is working on, if any. *)
Lemma history_inv (I : option Z -> list event -> world -> Prop) (P : list event -> event -> Prop) l :
  legal f s m b0 b1 l ->
  (forall h tr w e, plain_ev e -> I h tr w -> P tr e /\ I h (tr ++ [e]) w) ->
  (forall tr w j lo n bs, I (Some n) tr w ->
     P tr (EvBusRx j lo n bs) /\ I (Some n) (tr ++ [EvBusRx j lo n bs]) w) ->
  (forall h tr w i bs t w', I h tr w -> enq_step Strict i w bs t w' -> each P tr t /\ I h (tr ++ t) w') ->
  (forall h tr w i rc t w', I h tr w -> tx_step Strict i w rc t w' -> each P tr t /\ I h (tr ++ t) w') ->
  (forall h tr w m x0 x1, I h tr w ->
     m_busses m = m_busses (w_m w) -> m_next m = m_next (w_m w) -> I h tr (mkWorld m x0 x1)) ->
  (forall tr w, I None tr w ->
     P tr (EvAlloc (m_next (w_m w))) /\
     I (Some (m_next (w_m w))) (tr ++ [EvAlloc (m_next (w_m w))])
       (set_m w (set_next (w_m w) (m_next (w_m w) + 1)))) ->
  (forall n tr w, I (Some n) tr w -> (exists j lo bs, In (EvBusRx j lo n bs) tr) ->
     P tr (EvFree n) /\ I None (tr ++ [EvFree n]) w) ->
  (forall tr w i en b st, I None tr w -> bget w i = Some b ->
     st = bus_st b \/ (st = TxEnabled /\ en = true) \/ (st = TxDisabled /\ en = false) ->
     (st = TxEnabled -> en = true) ->
     P tr (EvSetTx i en) /\ I None (tr ++ [EvSetTx i en]) (set_bus w i (set_st b st))) ->
  (forall t w, booted m t w -> each P [] t /\ I None t w) ->
  always no_oom (history f s appl m b0 b1 l) (fun w tr => at_each P tr /\ I None tr w).
Proof.
  intros Hl H1 H1b H2 H3 H4 H5a H5b H6 H7.
  eapply always_mono; [|exact (history_spec l Hl)].
  intros w tr (t0 & w0 & t & -> & Hb & Hh & Hw).
  destruct (H7 _ _ Hb) as [He Hi].
  assert (forall tr w t w' cs i b bs, I None tr w ->
     let w1 := set_m w (set_next (w_m w) (m_next (w_m w) + 1)) in
     let n := m_next (w_m w) in
     bget w i = Some b -> WF Strict w1 ->
     steps Strict (setc w1 cs) t w' ->
     let t' := EvAlloc n :: EvBusRx i (busrx_local w1 b) n bs :: t ++ [EvFree n] in
     each P tr t' /\ I None (tr ++ t') w') as H5.
  { clear - H1 H1b H2 H3 H4 H5a H5b. intros tr w t w' cs i b bs Hi w1 n Hb Hw1 Hs t'.
    destruct (H5a _ _ Hi) as [P1 I1]. fold n in P1, I1. fold w1 in I1.
    destruct (H1b _ _ i (busrx_local w1 b) n bs I1) as [P2 I2].
    assert (I (Some n) ((tr ++ [EvAlloc n]) ++ [EvBusRx i (busrx_local w1 b) n bs]) (setc w1 cs)) as I3.
    { eapply H4; [exact I2|reflexivity|reflexivity]. }
    destruct (inv_steps (I (Some n)) P (H1 (Some n)) (H2 (Some n)) (H3 (Some n)) _ _ _ Hs _ I3)
      as [P4 I4].
    destruct (H5b n _ _ I4) as [P5 I5].
    { exists i, (busrx_local w1 b), bs. rewrite !in_app_iff. cbn. auto. }
    split.
    - unfold t'. cbn [each]. split; [exact P1|]. split; [exact P2|]. apply each_app.
      split; [exact P4|]. cbn [each]. auto.
    - unfold t'. rewrite <- !app_assoc in I5. exact I5. }
  destruct (inv_hist (I None) P (H1 None) (H2 None) (H3 None) (H4 None) H5 H6
              _ _ _ _ (bt_wf _ _ _ Hb) Hh _ Hi) as [He' Hi'].
  split; [|exact Hi']. apply each_at_each. apply each_app. auto.
Qed.

Lemma startup_no (P : list event -> event -> Prop) t : Forall startup_ev t ->
  (forall pre e, startup_ev e -> P pre e) -> forall pre, each P pre t.
Proof.
  intros Ht Hp pre. apply each_trivial. intros p e Hi. apply Hp. rewrite Forall_forall in Ht. auto.
Qed.

(** ** C14: no legal history faults *)

Theorem C14_no_fault l : legal f s m b0 b1 l ->
  always no_oom (history f s appl m b0 b1 l) (fun _ _ => True).
Proof. intros Hl. eapply always_mono; [|exact (history_spec l Hl)]. auto. Qed.

(** ** The trace of one binding->tx call *)

Definition txtrace (w : world) i n bytes io (dis : bool) rc : list event :=
  capev w true bytes ++ EvTxCall i n bytes :: io
    ++ (if dis then [EvSetTx i false] else [])
    ++ EvTxRet i n bytes rc :: (if final rc then [EvFree n] else []).

Lemma txtrace_split w i n bytes io dis rc : txtrace w i n bytes io dis rc =
  capev w true bytes ++ [EvTxCall i n bytes] ++ io ++ (if dis then [EvSetTx i false] else [])
    ++ [EvTxRet i n bytes rc] ++ (if final rc then [EvFree n] else []).
Proof. reflexivity. Qed.

Lemma enqueued_tx w i n bytes io dis rc j : Forall io_ev io ->
  enqueued j (txtrace w i n bytes io dis rc) = [].
Proof.
  intros Hio. rewrite txtrace_split, !enqueued_app, (io_enqueued _ _ Hio). unfold capev.
  destruct (m_cap (w_m w)), dis, (final rc); reflexivity.
Qed.
Lemma settled_tx w i n bytes io dis rc j : Forall io_ev io ->
  settled j (txtrace w i n bytes io dis rc) = if eqb j i && final rc then [(n, bytes)] else [].
Proof.
  intros Hio. rewrite txtrace_split, !settled_app, (io_settled _ _ Hio). unfold capev.
  change (settled j [EvTxRet i n bytes rc]) with ((if eqb j i && final rc then [(n, bytes)] else []) ++ []).
  destruct (m_cap (w_m w)), dis; cbn; destruct (final rc); cbn; rewrite ?app_nil_r; reflexivity.
Qed.
Lemma allocs_tx w i n bytes io dis rc : Forall io_ev io -> allocs (txtrace w i n bytes io dis rc) = [].
Proof.
  intros Hio. rewrite txtrace_split, !allocs_app, (io_allocs _ Hio). unfold capev.
  destruct (m_cap (w_m w)), dis, (final rc); reflexivity.
Qed.
Lemma frees_tx w i n bytes io dis rc : Forall io_ev io ->
  frees (txtrace w i n bytes io dis rc) = if final rc then [n] else [].
Proof.
  intros Hio. rewrite txtrace_split, !frees_app, (io_frees _ Hio). unfold capev.
  destruct (m_cap (w_m w)), dis, (final rc); reflexivity.
Qed.

Lemma each_tx (P : list event -> event -> Prop) pre w i n bytes io dis rc : Forall io_ev io ->
  (forall pre', P pre' (EvCapture true bytes)) -> (forall pre' e, io_ev e -> P pre' e) ->
  P (pre ++ capev w true bytes) (EvTxCall i n bytes) ->
  (forall pre', P pre' (EvSetTx i false)) ->
  (forall pre', P pre' (EvTxRet i n bytes rc)) ->
  (final rc = true -> forall mid, frees mid = [] -> P (pre ++ mid ++ [EvTxRet i n bytes rc]) (EvFree n)) ->
  each P pre (txtrace w i n bytes io dis rc).
Proof.
  intros Hio P1 P2 P3 P4 P5 P6. rewrite txtrace_split.
  apply each_app. split. { unfold capev. destruct (m_cap (w_m w)); cbn; auto. }
  apply each_app. split. { cbn. auto. }
  apply each_app. split. { apply each_trivial. intros pre' e He. apply P2. rewrite Forall_forall in Hio. auto. }
  apply each_app. split. { destruct dis; cbn; auto. }
  apply each_app. split. { cbn. auto. }
  destruct (final rc) eqn:Ef; [|exact I]. cbn [each]. split; [|exact I].
  rewrite <- !app_assoc.
  specialize (P6 eq_refl (capev w true bytes ++ [EvTxCall i n bytes] ++ io ++
                            (if dis then [EvSetTx i false] else []))).
  rewrite <- !app_assoc in P6. apply P6. rewrite !frees_app, (io_frees _ Hio). unfold capev.
  destruct (m_cap (w_m w)), dis; reflexivity.
Qed.

(** ** C02 *)

(** Each call of binding->tx is for the oldest packet that is not settled yet. *)
Definition next_in_line (before : list event) (e : event) : Prop :=
  match e with
  | EvTxCall i n bs => exists later, enqueued i before = settled i before ++ (n, bs) :: later
  | _ => True
  end.

Definition I02 (tr : list event) (w : world) : Prop :=
  forall i, enqueued i tr = settled i tr ++ queued w i.

Lemma I02_quiet tr w e w' : I02 tr w ->
  (forall i, enqueued i [e] = []) -> (forall i, settled i [e] = []) ->
  (forall i, queued w' i = queued w i) -> I02 (tr ++ [e]) w'.
Proof.
  intros Hi H1 H2 H3 i. rewrite enqueued_app, settled_app, H1, H2, H3, !app_nil_r. apply Hi.
Qed.

Lemma I02_enq tr w i bs t w' : I02 tr w -> enq_step Strict i w bs t w' -> I02 (tr ++ t) w'.
Proof.
  intros Hi Hs. destruct Hs as [b p Hb Hst Hid Hby Hq].
  intros j. rewrite enqueued_app, settled_app, Hi.
  rewrite (queued_set_bus _ _ _ b) by exact Hb. cbn.
  destruct (Bool.eqb_spec i j).
  - subst. rewrite eqb_reflx. cbn. rewrite !app_nil_r, map_app. rewrite queued_bget, Hb. cbn.
    unfold pk at 3. rewrite Hby. now rewrite app_assoc.
  - replace (eqb j i) with false by (destruct i, j; cbn; congruence). cbn.
    rewrite !app_nil_r. reflexivity.
Qed.

Lemma I02_tx tr w i rc t w' : I02 tr w -> tx_step Strict i w rc t w' ->
  each next_in_line tr t /\ I02 (tr ++ t) w'.
Proof.
  intros Hi Hs. destruct Hs as [b p q p' b' rc dis bytes io Hb Hst Hqu Hby Hio Hid Hq].
  change (capev w true bytes ++ _) with (txtrace w i (pk_id p) bytes io dis rc).
  assert (queued w i = (pk_id p, bytes) :: map pk q) as Eq.
  { rewrite queued_bget, Hb, Hqu. cbn. unfold pk at 1. now rewrite Hby. }
  split.
  - apply each_tx; try (intros; exact I); [exact Hio|intros ? [] Hev; cbn in *; tauto|].
    cbn. exists (map pk q). rewrite enqueued_app, settled_app.
    unfold capev. destruct (m_cap (w_m w)); cbn; rewrite !app_nil_r, Hi, Eq; reflexivity.
  - intros j. rewrite enqueued_app, settled_app, Hi, enqueued_tx, settled_tx by exact Hio.
    rewrite (queued_set_bus _ _ _ b) by (rewrite bget_set_bnd; exact Hb).
    rewrite queued_set_bnd. cbn [bus_q]. rewrite app_nil_r.
    destruct (Bool.eqb_spec i j).
    + subst. rewrite eqb_reflx, Eq. destruct (final rc) eqn:Ef; cbn; [now rewrite <- app_assoc|].
      destruct (Hq eq_refl) as [_ Hpp]. cbn in Hpp. rewrite Hpp. unfold pk at 2. rewrite Hby, app_nil_r.
      reflexivity.
    + replace (eqb j i) with false by (destruct i, j; cbn; congruence). cbn.
      rewrite app_nil_r. reflexivity.
Qed.

Lemma startup_enqueued t i : Forall startup_ev t -> enqueued i t = [].
Proof.
  unfold enqueued. induction 1 as [|e t He Ht IH]; [reflexivity|]. cbn [flat_map]. rewrite IH.
  destruct e; cbn in *; tauto || reflexivity.
Qed.
Lemma startup_settled t i : Forall startup_ev t -> settled i t = [].
Proof.
  unfold settled. induction 1 as [|e t He Ht IH]; [reflexivity|]. cbn [flat_map]. rewrite IH.
  destruct e; cbn in *; tauto || reflexivity.
Qed.
Lemma startup_allocs t : Forall startup_ev t -> allocs t = [].
Proof.
  unfold allocs. induction 1 as [|e t He Ht IH]; [reflexivity|]. cbn [flat_map]. rewrite IH.
  destruct e; cbn in *; tauto || reflexivity.
Qed.
Lemma startup_frees t : Forall startup_ev t -> frees t = [].
Proof.
  unfold frees. induction 1 as [|e t He Ht IH]; [reflexivity|]. cbn [flat_map]. rewrite IH.
  destruct e; cbn in *; tauto || reflexivity.
Qed.
Lemma booted_queued t (w : world) i : booted m t w -> queued w i = [].
Proof.
  intros Hb. rewrite queued_bget. destruct (bget w i) eqn:E; [|reflexivity].
  now rewrite (bt_q _ _ _ Hb _ _ E).
Qed.

Theorem C02_fifo l : legal f s m b0 b1 l ->
  always no_oom (history f s appl m b0 b1 l) (fun w tr =>
    at_each next_in_line tr /\
    forall i, enqueued i tr = settled i tr ++ queued w i).
Proof.
  intros Hl. apply (history_inv (fun _ => I02) next_in_line l Hl).
  - intros _ tr w e He Hi. split; [destruct e; cbn in *; tauto|].
    apply (I02_quiet _ _ _ _ Hi); destruct e; cbn in *; tauto || reflexivity.
  - intros tr w j lo n bs Hi. split; [exact I|]. apply (I02_quiet _ _ _ _ Hi); reflexivity.
  - intros _ tr w i bs t w' Hi Hs. split; [|eapply I02_enq; eassumption]. destruct Hs; cbn; auto.
  - intros _ tr w i rc t w'. apply I02_tx.
  - intros _ tr w m' x0 x1 Hi Hm _ i. rewrite Hi. unfold queued. cbn. now rewrite Hm.
  - intros tr w Hi. split; [exact I|]. apply (I02_quiet _ _ _ _ Hi); reflexivity.
  - intros n tr w Hi _. split; [exact I|]. apply (I02_quiet _ _ _ _ Hi); reflexivity.
  - intros tr w i en b st Hi Hb _ _. split; [exact I|].
    apply (I02_quiet _ _ _ _ Hi); try reflexivity. intros j.
    rewrite (queued_set_bus _ _ _ b _ Hb). destruct (Bool.eqb_spec i j); [|reflexivity].
    subst. rewrite queued_bget, Hb. reflexivity.
  - intros t w Hb. pose proof (bt_ev _ _ _ Hb) as Ht. split.
    + apply startup_no; [exact Ht|]. intros pre [] Hs; cbn in *; tauto.
    + intros i. rewrite (startup_enqueued _ _ Ht), (startup_settled _ _ Ht), (booted_queued _ _ _ Hb).
      reflexivity.
Qed.

(** ** C03 *)

Definition only_enabled (before : list event) (e : event) : Prop :=
  match e with
  | EvTxCall i _ _ => last_set i before = Some true
  | _ => True
  end.

Definition I03 (tr : list event) (w : world) : Prop :=
  forall i b, bget w i = Some b -> bus_st b = TxEnabled -> last_set i tr = Some true.

Lemma last_set_quiet i tr e : (forall j b, e <> EvSetTx j b) -> last_set i (tr ++ [e]) = last_set i tr.
Proof. intros He. rewrite last_set_snoc. destruct e; try reflexivity. exfalso. eapply He; reflexivity. Qed.

Lemma I03_tx {st} tr w i rc t w' : I03 tr w -> tx_step st i w rc t w' ->
  each only_enabled tr t /\ I03 (tr ++ t) w'.
Proof.
  intros Hi Hs. destruct Hs as [b p q p' b' rc dis bytes io Hb Hst Hqu Hby Hio Hid Hq].
  change (capev w true bytes ++ _) with (txtrace w i (pk_id p) bytes io dis rc).
  split.
  - apply each_tx; try (intros; exact I); [exact Hio|intros ? [] Hev; cbn in *; tauto|].
    cbn. rewrite last_set_app_other; [eapply Hi; eassumption|].
    unfold capev. destruct (m_cap (w_m w)); cbn; intuition discriminate.
  - intros j c. rewrite (bget_set_bus _ _ _ _ b) by (rewrite bget_set_bnd; exact Hb).
    rewrite bget_set_bnd. destruct (Bool.eqb_spec i j).
    + subst. intros [= <-]. cbn. destruct dis; [discriminate|]. intros _.
      rewrite last_set_app_other; [eapply Hi; eassumption|]. intros k x Hin Ek. subst k.
      rewrite txtrace_split in Hin. rewrite !in_app_iff in Hin.
      destruct Hin as [Hin|[Hin|[Hin|[Hin|[Hin|Hin]]]]].
      * unfold capev in Hin. destruct (m_cap (w_m w)); cbn in Hin; intuition discriminate.
      * cbn in Hin; intuition discriminate.
      * exact (io_noset _ Hio _ _ Hin).
      * destruct Hin.
      * cbn in Hin; intuition discriminate.
      * destruct (final rc); cbn in Hin; intuition discriminate.
    + intros Hc Hcs. rewrite last_set_app_other; [eapply Hi; eassumption|]. intros k x Hin Ek. subst k.
      rewrite txtrace_split in Hin. rewrite !in_app_iff in Hin.
      destruct Hin as [Hin|[Hin|[Hin|[Hin|[Hin|Hin]]]]].
      * unfold capev in Hin. destruct (m_cap (w_m w)); cbn in Hin; intuition discriminate.
      * cbn in Hin; intuition discriminate.
      * exact (io_noset _ Hio _ _ Hin).
      * destruct dis; cbn in Hin; intuition congruence.
      * cbn in Hin; intuition discriminate.
      * destruct (final rc); cbn in Hin; intuition discriminate.
Qed.

Theorem C03_tx_only_enabled l : legal f s m b0 b1 l ->
  always no_oom (history f s appl m b0 b1 l) (fun w tr => at_each only_enabled tr).
Proof.
  intros Hl. eapply always_mono; [|apply (history_inv (fun _ => I03) only_enabled l Hl)].
  { intros x tr [He _]. exact He. }
  - intros _ tr w e He Hi. split; [destruct e; cbn in *; tauto|].
    intros i b Hb Hst. rewrite last_set_quiet; [eapply Hi; eassumption|].
    intros j x ->. exact He.
  - intros tr w j lo n bs Hi. split; [exact I|].
    intros i b Hb Hst. rewrite last_set_quiet; [eapply Hi; eassumption|discriminate].
  - intros _ tr w i bs t w' Hi Hs. destruct Hs as [b p Hb Hst Hid Hby Hq]. split; [cbn; auto|].
    intros j c. rewrite (bget_set_bus _ _ _ _ b) by exact Hb.
    rewrite last_set_app_other by (cbn; intuition discriminate).
    destruct (Bool.eqb_spec i j); [subst; intros [= <-]; cbn; eauto|intros Hc; eapply Hi; exact Hc].
  - intros _ tr w i rc t w'. apply I03_tx.
  - intros _ tr w m' x0 x1 Hi Hm _ i b. unfold bget. cbn. rewrite Hm. apply Hi.
  - intros tr w Hi. split; [exact I|].
    intros i b Hb Hst. rewrite last_set_quiet; [eapply Hi; eassumption|discriminate].
  - intros n tr w Hi _. split; [exact I|].
    intros i b Hb Hst. rewrite last_set_quiet; [eapply Hi; eassumption|discriminate].
  - intros tr w i en b st Hi Hb Hc He. split; [exact I|].
    intros j c. rewrite (bget_set_bus _ _ _ _ _ _ Hb), last_set_snoc.
    destruct (Bool.eqb_spec i j).
    + subst. intros [= <-]. cbn. rewrite eqb_reflx. intros E. now rewrite (He E).
    + replace (eqb j i) with false by (destruct i, j; cbn; congruence). apply Hi.
  - intros t w Hb. pose proof (bt_ev _ _ _ Hb) as Ht. split.
    + apply startup_no; [exact Ht|]. intros pre [] Hs; cbn in *; tauto.
    + intros i b Hbi Hst. pose proof (bt_en _ _ _ Hb _ _ Hbi Hst) as Hin.
      clear - Ht Hin. revert Hin. induction t as [|e t IH] using rev_ind; [intros []|].
      apply Forall_app in Ht. destruct Ht as [Ht He]. inversion He; subst.
      intros Hin. rewrite last_set_snoc. apply in_app_or in Hin. destruct Hin as [Hin|[->|[]]].
      * rewrite (IH Ht Hin). destruct e; try reflexivity. cbn in *. destruct enable; [|tauto].
        destruct (eqb i bus); reflexivity.
      * cbn. now rewrite eqb_reflx.
Qed.

(** ** C13 *)

(** When a buffer is released it is an allocated one that was not released
    before, and it is either the buffer mctp_bus_rx was called with or a packet
    the binding has just accepted or rejected for good.  Whatever is queued,
    given to the binding or received is allocated and not released. *)
Definition live_at (before : list event) (n : Z) : Prop :=
  In n (allocs before) /\ ~ In n (frees before).
Definition buffer_use (before : list event) (e : event) : Prop :=
  match e with
  | EvFree n =>
      live_at before n /\
      ((exists i lo bs, In (EvBusRx i lo n bs) before) \/
       (exists b' i bs rc, before = b' ++ [EvTxRet i n bs rc] /\ (rc = 0 \/ rc = - EMSGSIZE)))
  | EvEnq _ n _ | EvTxCall _ n _ | EvBusRx _ _ n _ => live_at before n
  | EvAlloc n => ~ In n (allocs before)
  | _ => True
  end.

Definition held_ids (h : option Z) : list Z := match h with Some n => [n] | None => [] end.
(** [L]: other buffers in somebody's hands (nobody's, in core histories). *)
Definition held (L : list Z) (h : option Z) : list Z := L ++ held_ids h.
Definition queued_ids (w : world) : list Z := map fst (queued w false) ++ map fst (queued w true).

Record I13 (L : list Z) (h : option Z) (tr : list event) (w : world) : Prop := mkI13 {
  i13_perm : Permutation (allocs tr) (frees tr ++ held L h ++ queued_ids w);
  i13_lt : forall n, In n (allocs tr) -> n < m_next (w_m w);
  i13_nodup : NoDup (allocs tr);
  i13_rx : forall i lo n bs, In (EvBusRx i lo n bs) tr -> In n (frees tr) \/ h = Some n }.

Lemma I13_live L h tr w n : I13 L h tr w -> In n (held L h ++ queued_ids w) -> live_at tr n.
Proof.
  intros [Hp Hl Hn _] Hin. split.
  - eapply Permutation_in; [symmetry; exact Hp|]. apply in_or_app. auto.
  - intros Hf. apply (Permutation_NoDup Hp) in Hn. clear - Hn Hf Hin.
    apply in_split in Hf. destruct Hf as (x & y & E). rewrite E, <- app_assoc in Hn. cbn in Hn.
    apply NoDup_remove_2 in Hn. apply Hn. apply in_or_app. right. apply in_or_app. auto.
Qed.

Lemma I13_quiet L h tr w e w' : I13 L h tr w ->
  allocs [e] = [] -> frees [e] = [] -> (forall i, queued w' i = queued w i) ->
  m_next (w_m w') = m_next (w_m w) -> (forall i lo n bs, e = EvBusRx i lo n bs -> h = Some n) ->
  I13 L h (tr ++ [e]) w'.
Proof.
  intros [Hp Hl Hn Hr] Ha Hf Hq Hx He. constructor.
  - rewrite allocs_app, frees_app, Ha, Hf, !app_nil_r. unfold queued_ids. rewrite !Hq. exact Hp.
  - rewrite allocs_app, Ha, app_nil_r, Hx. exact Hl.
  - rewrite allocs_app, Ha, app_nil_r. exact Hn.
  - intros i lo n bs. rewrite frees_app, Hf, app_nil_r, in_app_iff. intros [Hin|[Hin|[]]]; eauto.
Qed.

Lemma queued_ids_set (w : world) i b b0' : bget w i = Some b0' ->
  queued_ids (set_bus w i b) = if i then map fst (queued w false) ++ map pk_id (bus_q b)
                               else map pk_id (bus_q b) ++ map fst (queued w true).
Proof.
  intros Hb. unfold queued_ids. rewrite !(queued_set_bus _ _ _ b0' _ Hb).
  assert (forall q, map fst (map pk q) = map pk_id q) as E by (intros; rewrite map_map; reflexivity).
  destruct i; cbn [eqb]; rewrite E; reflexivity.
Qed.
Lemma queued_ids_get (w : world) i b : bget w i = Some b -> map fst (queued w i) = map pk_id (bus_q b).
Proof. intros Hb. rewrite queued_bget, Hb, map_map. reflexivity. Qed.

Lemma I13_enq {st} L h tr w i bs t w' : I13 L h tr w -> enq_step st i w bs t w' ->
  each buffer_use tr t /\ I13 L h (tr ++ t) w'.
Proof.
  intros [Hp Hl Hn Hr] Hs. destruct Hs as [b p Hb Hst Hid Hby Hq].
  assert (~ In (pk_id p) (allocs tr)) as Hfresh.
  { intros Hin. apply Hl in Hin. lia. }
  split.
  - cbn. split; [exact Hfresh|]. split; [|exact I]. split.
    + rewrite allocs_app. apply in_or_app. cbn. auto.
    + rewrite frees_app. cbn. rewrite app_nil_r. intros Hin. apply Hfresh.
      eapply Permutation_in; [symmetry; exact Hp|]. apply in_or_app. auto.
  - set (w1 := set_m w _) in *.
    assert (bget w1 i = Some b) as Hb1 by exact Hb.
    assert (allocs (tr ++ [EvAlloc (pk_id p); EvEnq i (pk_id p) bs]) = allocs tr ++ [pk_id p]) as Ea
      by (rewrite allocs_app; reflexivity).
    assert (frees (tr ++ [EvAlloc (pk_id p); EvEnq i (pk_id p) bs]) = frees tr) as Ef
      by (rewrite frees_app; cbn; now rewrite app_nil_r).
    constructor; rewrite ?Ea, ?Ef.
    + rewrite (queued_ids_set _ _ _ _ Hb1). cbn [set_q bus_q]. rewrite map_app. cbn [map].
      change (queued w1) with (queued w). rewrite <- (queued_ids_get _ _ _ Hb).
      rewrite Hp. unfold queued_ids. rewrite <- !app_assoc. apply Permutation_app_head.
      apply Permutation_app_head. destruct i.
      * reflexivity.
      * apply Permutation_app_head. apply Permutation_app_comm.
    + rewrite next_set_bus. cbn [w1 set_m set_next w_m m_next]. intros n Hin. apply in_app_or in Hin.
      destruct Hin as [Hin|[<-|[]]]; [apply Hl in Hin; lia|lia].
    + apply NoDup_app_snoc_ || (apply Permutation_NoDup with (l := pk_id p :: allocs tr);
        [apply Permutation_cons_append|constructor; assumption]).
    + intros j lo n y. rewrite in_app_iff. intros [Hin|[Hin|[Hin|[]]]]; try discriminate. eauto.
Qed.

Lemma I13_tx {st} L h tr w i rc t w' : I13 L h tr w -> tx_step st i w rc t w' ->
  each buffer_use tr t /\ I13 L h (tr ++ t) w'.
Proof.
  intros HI Hs. destruct Hs as [b p q p' b' rc dis bytes io Hb Hst Hqu Hby Hio Hid Hq].
  change (capev w true bytes ++ _) with (txtrace w i (pk_id p) bytes io dis rc).
  assert (live_at tr (pk_id p)) as Hlive.
  { eapply I13_live; [exact HI|]. apply in_or_app. right. unfold queued_ids.
    rewrite in_app_iff. destruct i; [right|left]; rewrite (queued_ids_get _ _ _ Hb), Hqu; cbn; auto. }
  destruct HI as [Hp Hl Hn Hr]. split.
  - apply each_tx; try (intros; exact I); [exact Hio|intros ? [] Hev; cbn in *; tauto| |].
    + destruct Hlive as [L1 L2]. cbn. unfold live_at, capev. rewrite allocs_app, frees_app.
      destruct (m_cap (w_m w)); cbn; rewrite !app_nil_r; auto.
    + intros Hfin mid Hmid. cbn. destruct Hlive as [L1 L2]. split.
      * split; [rewrite allocs_app; apply in_or_app; auto|].
        rewrite !frees_app, Hmid. cbn. rewrite app_nil_r. exact L2.
      * right. exists (tr ++ mid), i, bytes, rc. rewrite <- app_assoc. split; [reflexivity|].
        unfold final in Hfin. apply orb_true_iff in Hfin. rewrite !Z.eqb_eq in Hfin. exact Hfin.
  - set (w1 := set_bnd w i _).
    assert (bget w1 i = Some b) as Hb1 by (unfold w1; rewrite bget_set_bnd; exact Hb).
    constructor; rewrite ?allocs_app, ?frees_app, ?allocs_tx, ?frees_tx, ?app_nil_r by exact Hio.
    + rewrite Hp. rewrite (queued_ids_set _ _ _ _ Hb1). cbn [bus_q].
      unfold w1. rewrite !queued_set_bnd. unfold queued_ids.
      destruct i; rewrite (queued_ids_get _ _ _ Hb), Hqu; cbn [map]; destruct (final rc); cbn [map].
      * rewrite <- !app_assoc. apply Permutation_app_head.
        rewrite !(app_assoc (held L h)). symmetry. exact (Permutation_middle _ _ (pk_id p)).
      * rewrite Hid, app_nil_r. reflexivity.
      * rewrite <- !app_assoc. apply Permutation_app_head. symmetry. exact (Permutation_middle _ _ (pk_id p)).
      * rewrite Hid, app_nil_r. reflexivity.
    + rewrite next_set_bus. unfold w1. rewrite wm_set_bnd. exact Hl.
    + exact Hn.
    + intros j lo n y Hin. apply in_app_or in Hin. destruct Hin as [Hin|Hin].
      * destruct (Hr _ _ _ _ Hin); [left; apply in_or_app; auto|auto].
      * exfalso. rewrite txtrace_split in Hin. rewrite !in_app_iff in Hin.
        destruct Hin as [Hin|[Hin|[Hin|[Hin|[Hin|Hin]]]]].
        -- unfold capev in Hin. destruct (m_cap (w_m w)); cbn in Hin; intuition discriminate.
        -- cbn in Hin; intuition discriminate.
        -- rewrite Forall_forall in Hio. exact (Hio _ Hin).
        -- destruct dis; cbn in Hin; intuition discriminate.
        -- cbn in Hin; intuition discriminate.
        -- destruct (final rc); cbn in Hin; intuition discriminate.
Qed.

Theorem C13_buffers l : legal f s m b0 b1 l ->
  always no_oom (history f s appl m b0 b1 l) (fun w tr =>
    at_each buffer_use tr /\
    NoDup (allocs tr) /\ NoDup (frees tr) /\
    Permutation (allocs tr) (frees tr ++ map fst (queued w false) ++ map fst (queued w true)) /\
    (forall i lo n bs, In (EvBusRx i lo n bs) tr -> In n (frees tr))).
Proof.
  intros Hl. eapply always_mono; [|apply (history_inv (I13 []) buffer_use l Hl)].
  - intros w tr [He [Hp Hlt Hn Hr]]. split; [exact He|]. split; [exact Hn|].
    split. { apply (Permutation_NoDup Hp) in Hn. clear - Hn. induction (frees tr); [constructor|].
             cbn in Hn. inversion Hn; subst. constructor; [|auto]. intros Hin. apply H1.
             apply in_or_app; auto. }
    split; [exact Hp|]. intros i lo n bs Hin. destruct (Hr _ _ _ _ Hin); [assumption|discriminate].
  - intros h tr w e He Hi. split; [destruct e; cbn in *; tauto|].
    eapply I13_quiet; [exact Hi| | | | |]; destruct e; cbn in *; tauto || reflexivity || congruence.
  - intros tr w j lo n bs Hi. split.
    + eapply I13_live; [exact Hi|]. cbn. auto.
    + eapply I13_quiet; [exact Hi| | | | |]; try reflexivity. congruence.
  - intros h tr w i bs t w'. apply (I13_enq []).
  - intros h tr w i rc t w'. apply (I13_tx []).
  - intros h tr w m' x0 x1 [Hp Hlt Hn Hr] Hm Hx. constructor; auto.
    + unfold queued_ids, queued in *. cbn. rewrite Hm. exact Hp.
    + cbn. rewrite Hx. exact Hlt.
  - intros tr w [Hp Hlt Hn Hr].
    assert (~ In (m_next (w_m w)) (allocs tr)) as Hfresh by (intros Hin; apply Hlt in Hin; lia).
    split; [exact Hfresh|]. constructor; rewrite ?allocs_app, ?frees_app; cbn [allocs frees flat_map app].
    + rewrite app_nil_r. cbn [held held_ids app]. rewrite Hp. cbn [held held_ids app].
      change (queued_ids (set_m w (set_next (w_m w) (m_next (w_m w) + 1)))) with (queued_ids w).
      rewrite <- app_assoc. apply Permutation_app_head. apply Permutation_app_comm.
    + cbn. intros n Hin. apply in_app_or in Hin. destruct Hin as [Hin|[<-|[]]]; [apply Hlt in Hin; lia|lia].
    + apply Permutation_NoDup with (l := m_next (w_m w) :: allocs tr);
        [apply Permutation_cons_append|constructor; assumption].
    + intros i lo n bs. rewrite in_app_iff. intros [Hin|[Hin|[]]]; [|discriminate].
      rewrite app_nil_r. destruct (Hr _ _ _ _ Hin); [auto|discriminate].
  - intros n tr w HI Hrx. pose proof (I13_live _ _ _ _ n HI) as Hlive. destruct HI as [Hp Hlt Hn Hr].
    split.
    + split; [apply Hlive; cbn; auto|left; exact Hrx].
    + constructor; rewrite ?allocs_app, ?frees_app; cbn [allocs frees flat_map app]; rewrite ?app_nil_r.
      * rewrite Hp. cbn. rewrite <- app_assoc. reflexivity.
      * exact Hlt.
      * exact Hn.
      * intros i lo k bs. rewrite in_app_iff. intros [Hin|[Hin|[]]]; [|discriminate].
        destruct (Hr _ _ _ _ Hin) as [?|E]; [left; apply in_or_app; auto|].
        injection E as ->. left. apply in_or_app. cbn. auto.
  - intros tr w i en b st Hi Hb _ _. split; [exact I|].
    eapply I13_quiet; [exact Hi|reflexivity|reflexivity| | |discriminate].
    + intros j. rewrite (queued_set_bus _ _ _ b _ Hb). destruct (Bool.eqb_spec i j); [|reflexivity].
      subst. rewrite queued_bget, Hb. reflexivity.
    + apply next_set_bus.
  - intros t w Hb. pose proof (bt_ev _ _ _ Hb) as Ht. split.
    + apply startup_no; [exact Ht|]. intros pre [] Hs; cbn in *; tauto.
    + constructor; rewrite ?(startup_allocs _ Ht), ?(startup_frees _ Ht).
      * unfold queued_ids. rewrite !(booted_queued _ _ _ Hb). reflexivity.
      * intros n [].
      * constructor.
      * intros i lo n bs Hin. rewrite Forall_forall in Ht. destruct (Ht _ Hin).
Qed.

End Tx.
