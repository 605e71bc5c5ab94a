(** PropAstTrace: the core's guarantees hold over the LPC binding, whatever the peer
    does and whatever KCS accesses fail (C60, C61). *)
From Coq Require Import Permutation.
From Verif Require Import Base Lists Prog PktBuf Core WP Walk CoreRel WalkCore CoreHist Spec SpecRx Trace PropTx
  Reasm PropRx Crc Astlpc SpecAst AstBasic AstWalk PropAst AstTrace Concrete.

Local Notation world := (world astlpc).

(** ** Every history keeps a trace invariant that every part of it keeps *)
Lemma ast_trace_inv app bmc mtu eid l (K : option Z -> list event -> world -> Prop) :
  ast_mtu bmc mtu -> Forall ast_traffic l ->
  (forall h g w e, io_ev e -> K h g w -> K h (g ++ [e]) w) ->
  (forall g w rc, K None g w -> K None (g ++ [EvRet rc]) w) ->
  (forall h g w x n, K h g w -> K h g (putb w x n)) ->
  (forall g w m, K None g w -> m_busses m = m_busses (w_m w) -> m_next m = m_next (w_m w) ->
     m_policy m = m_policy (w_m w) -> m_ctxs m = m_ctxs (w_m w) -> K None g (set_m w m)) ->
  (forall g w en t w', WF Lax w -> K None g w -> set_rel Lax w false en t w' -> K None (g ++ t) w') ->
  (forall g w eid to tag msg rc t w', WF Lax w -> K None g w ->
     message_rel Lax w eid to tag msg rc t w' -> K None (g ++ t) w') ->
  (forall g w, K None g w -> K (Some (m_next (w_m w))) (g ++ [EvAlloc (m_next (w_m w))]) (AstTrace.nextw w)) ->
  (forall n g w, K (Some n) g w -> K None (g ++ [EvFree n]) w) ->
  (forall n g w bs t w', WF Lax w -> K (Some n) g w -> from_window g n bs ->
     rx_rel Lax app w false n bs t w' -> K None (g ++ t) w') ->
  (forall x, K None [EvAttach false eid] (registered bmc mtu eid x)) ->
  always (ast_assm bmc) (ast_history app bmc mtu eid l) (fun w tr => bd_bus (bnd w false) = true -> K None tr w).
Proof.
  intros Hm Hl Kio Kret Kpriv Kcfg Kset Kmsg Kalloc Kdrop Krx Kboot. apply adv_always.
  set (a := ast_assm bmc). pose proof (ast_oom bmc) as Ha. fold a in Ha.
  unfold ast_history. apply wp_bind; [apply adv_mono|].
  assert (forall p, silent p ->
     wp (adv a) p [EvAttach false eid] (fun r g => snd r <? 0 = false -> Inv bmc (registered bmc mtu eid (fst r))) ->
     wp (adv a) p [EvAttach false eid] (fun r g => 
        if snd r <? 0 then forall w, bd_bus (bnd w false) = false ->
          wp (adv a) (if bd_bus (bnd w false) then aexec app w l else Ret w) (g ++ [EvDetach] ++ [EvRet (snd r)])
             (fun w g => bd_bus (bnd w false) = true -> K None g w)
        else wp (adv a) (aexec app (registered bmc mtu eid (fst r)) l) (g ++ [EvRet (snd r)])
             (fun w g => bd_bus (bnd w false) = true -> K None g w))) as Hgo.
  { intros p Hs Hp. eapply wp_mono; [apply adv_mono| |apply wp_silent; [exact Hs|exact Hp]].
    intros [x rc] g (HI & io & -> & Hio). cbn [fst snd] in *. destruct (rc <? 0) eqn:Er.
    { intros w Eb. rewrite Eb. cbn [wp]. rewrite Eb. discriminate. }
    eapply wp_mono; [apply adv_mono| |
      apply (kp_aexec app a bmc Ha (ast_kv bmc) K Kio Kret Kpriv Kcfg Kset Kmsg Kalloc Kdrop Krx)].
    - intros w g [_ HK] _. exact HK.
    - apply HI. reflexivity.
    - apply Kret. assert (forall io g w, Forall io_ev io -> K None g w -> K None (g ++ io) w) as KI.
      { clear - Kio. induction io as [|e io IH]; intros g w Hio HK; [rewrite app_nil_r; exact HK|].
        inversion_clear Hio as [|? ? He Hr]. change (e :: io) with ([e] ++ io). rewrite app_assoc. apply IH; auto. }
      apply KI; [exact Hio|apply Kboot].
    - exact Hl. }
  apply wp_ast_register; [exact Ha|]. 
  assert (forall r g, (if snd r <? 0 then forall w, bd_bus (bnd w false) = false ->
          wp (adv a) (if bd_bus (bnd w false) then aexec app w l else Ret w) (g ++ [EvDetach] ++ [EvRet (snd r)])
             (fun w g => bd_bus (bnd w false) = true -> K None g w)
        else wp (adv a) (aexec app (registered bmc mtu eid (fst r)) l) (g ++ [EvRet (snd r)])
             (fun w g => bd_bus (bnd w false) = true -> K None g w)) ->
     if snd r <? 0 then forall w, bd_bus (bnd w false) = false ->
          wp (adv a) (if bd_bus (bnd w false) then aexec app w l else Ret w) (g ++ [EvDetach] ++ [EvRet (snd r)])
             (fun w g => bd_bus (bnd w false) = true -> K None g w)
     else wp (adv a) (if bd_bus (bnd (registered bmc mtu eid (fst r)) false)
                      then aexec app (registered bmc mtu eid (fst r)) l else Ret (registered bmc mtu eid (fst r)))
             (g ++ [EvRet (snd r)]) (fun w g => bd_bus (bnd w false) = true -> K None g w)) as Hreg.
  { intros r g H. exact H. }
  destruct bmc.
  - eapply wp_mono; [apply adv_mono|intros r g H; apply Hreg; exact H|].
    apply Hgo; [apply silent_start_bmc|].
    eapply wp_mono; [apply adv_mono| |exact (reg_bmc mtu eid Hm)]. intros r g H. exact H.
  - eapply wp_mono; [apply adv_mono|intros r g H; apply Hreg; exact H|].
    apply Hgo; [apply silent_init_host|].
    eapply wp_mono; [apply adv_mono| |exact (reg_host mtu eid Hm)]. intros r g H. exact H.
Qed.

(** ** C60: the transmit queue *)

(** Each call of binding->tx is for the oldest packet that is not settled yet.  (The
    bytes need not be those that were queued: a packet whose transmission failed on a
    KCS error is offered again with a trailer appended, C40.) *)
Definition next_packet (before : list event) (e : event) : Prop :=
  match e with
  | EvTxCall i n _ => exists later, map fst (enqueued i before) = map fst (settled i before) ++ n :: later
  | _ => True
  end.
(** Memory is used and released while allocated. *)
Definition live_use (before : list event) (e : event) : Prop :=
  match e with
  | EvFree n | EvEnq _ n _ | EvTxCall _ n _ | EvBusRx _ _ n _ => live_at before n
  | EvAlloc n => ~ In n (allocs before)
  | _ => True
  end.
Definition sound_tx (before : list event) (e : event) : Prop :=
  next_packet before e /\ only_enabled before e /\ live_use before e.

Definition Iid (tr : list event) (w : world) : Prop :=
  forall i, map fst (enqueued i tr) = map fst (settled i tr) ++ map fst (queued w i).

Record I60 (h : option Z) (tr : list event) (w : world) : Prop := mkI60 {
  i60_id : Iid tr w; i60_en : I03 tr w; i60_mem : I13 [] h tr w }.

Lemma Iid_quiet tr w e w' : Iid tr w ->
  (forall i, enqueued i [e] = []) -> (forall i, settled i [e] = []) ->
  (forall i, queued w' i = queued w i) -> Iid (tr ++ [e]) w'.
Proof.
  intros Hi H1 H2 H3 i. rewrite enqueued_app, settled_app, H1, H2, H3, !app_nil_r. apply Hi.
Qed.

Lemma Iid_enq {st} tr w i bs t w' : Iid tr w -> enq_step st i w bs t w' -> Iid (tr ++ t) w'.
Proof.
  intros Hi Hs. destruct Hs as [b p Hb Hst Hid Hby Hq].
  intros j. rewrite enqueued_app, settled_app, !map_app, Hi.
  rewrite (queued_set_bus _ _ _ b) by exact Hb. cbn.
  destruct (Bool.eqb_spec i j).
  - subst. rewrite eqb_reflx. cbn. rewrite !app_nil_r, !map_app. rewrite queued_bget, Hb. cbn.
    now rewrite app_assoc.
  - replace (eqb j i) with false by (destruct i, j; cbn; congruence). cbn.
    rewrite !app_nil_r. reflexivity.
Qed.

Lemma Iid_tx {st} tr w i rc t w' : Iid tr w -> tx_step st i w rc t w' ->
  each next_packet tr t /\ Iid (tr ++ t) w'.
Proof.
  intros Hi Hs. destruct Hs as [b p q p' b' rc dis bytes io Hb Hst Hqu Hby Hio Hid Hq].
  change (capev w true bytes ++ _) with (txtrace w i (pk_id p) bytes io dis rc).
  assert (map fst (queued w i) = pk_id p :: map fst (map pk q)) as Eq.
  { rewrite queued_bget, Hb, Hqu. reflexivity. }
  split.
  - apply each_tx; try (intros; exact I); [exact Hio|intros ? [] Hev; cbn in *; tauto|].
    cbn. exists (map fst (map pk q)). rewrite enqueued_app, settled_app.
    unfold capev. destruct (m_cap (w_m w)); cbn; rewrite !app_nil_r, Hi, Eq; reflexivity.
  - intros j. rewrite enqueued_app, settled_app, !map_app, Hi, enqueued_tx, settled_tx by exact Hio.
    rewrite (queued_set_bus _ _ _ b) by (rewrite bget_set_bnd; exact Hb).
    rewrite queued_set_bnd. cbn [bus_q map]. rewrite app_nil_r.
    destruct (Bool.eqb_spec i j).
    + subst. rewrite eqb_reflx, Eq. destruct (final rc) eqn:Ef; cbn [andb map fst]; [now rewrite <- app_assoc|].
      cbn [map pk fst]. rewrite Hid, app_nil_r. reflexivity.
    + replace (eqb j i) with false by (destruct i, j; cbn; congruence). cbn.
      rewrite app_nil_r. reflexivity.
Qed.

Lemma each_conj (P Q : list event -> event -> Prop) t : forall pre, each P pre t -> each Q pre t ->
  each (fun b e => P b e /\ Q b e) pre t.
Proof. induction t as [|e t IH]; intros pre; cbn; [auto|]. intros [A1 A2] [B1 B2]. auto. Qed.
Lemma each_impl (P Q : list event -> event -> Prop) t : (forall b e, P b e -> Q b e) ->
  forall pre, each P pre t -> each Q pre t.
Proof. intros H. induction t as [|e t IH]; intros pre; cbn; [auto|]. intros [A1 A2]. auto. Qed.
Lemma use_live b e : buffer_use b e -> live_use b e.
Proof. destruct e; cbn; tauto. Qed.

Lemma I60_note h tr w e : plain_ev e -> I60 h tr w -> sound_tx tr e /\ I60 h (tr ++ [e]) w.
Proof.
  intros He [H1 H2 H3]. split; [destruct e; cbn in *; unfold sound_tx; cbn; tauto|]. constructor.
  - apply (Iid_quiet _ _ _ _ H1); destruct e; cbn in *; tauto || reflexivity.
  - intros i b Hb Hst. rewrite last_set_quiet; [eapply H2; eassumption|]. intros j x ->. exact He.
  - eapply I13_quiet; [exact H3| | | | |]; destruct e; cbn in *; tauto || reflexivity || congruence.
Qed.
Lemma I60_io h tr w e : io_ev e -> I60 h tr w -> sound_tx tr e /\ I60 h (tr ++ [e]) w.
Proof.
  intros He [H1 H2 H3]. split; [destruct e; cbn in *; unfold sound_tx; cbn; tauto|]. constructor.
  - apply (Iid_quiet _ _ _ _ H1); destruct e; cbn in *; tauto || reflexivity.
  - intros i b Hb Hst. rewrite last_set_quiet; [eapply H2; eassumption|]. intros j x ->. exact He.
  - eapply I13_quiet; [exact H3| | | | |]; destruct e; cbn in *; tauto || reflexivity || congruence.
Qed.
Lemma I60_enq h tr w i bs t w' : I60 h tr w -> enq_step Lax i w bs t w' ->
  each sound_tx tr t /\ I60 h (tr ++ t) w'.
Proof.
  intros [H1 H2 H3] Hs. destruct (I13_enq _ _ _ _ _ _ _ _ H3 Hs) as [He H3'].
  pose proof (Iid_enq _ _ _ _ _ _ H1 Hs) as H1'.
  split.
  - destruct Hs as [b p Hb Hst Hid Hby Hq]. unfold sound_tx. cbn in *. tauto.
  - constructor; [exact H1'| |exact H3']. destruct Hs as [b p Hb Hst Hid Hby Hq].
    intros j c. rewrite (bget_set_bus _ _ _ _ b) by exact Hb.
    rewrite last_set_app_other by (cbn; intuition discriminate).
    destruct (Bool.eqb_spec i j); [subst; intros [= <-]; cbn; eauto|intros Hc; eapply H2; exact Hc].
Qed.
Lemma I60_tx h tr w i rc t w' : I60 h tr w -> tx_step Lax i w rc t w' ->
  each sound_tx tr t /\ I60 h (tr ++ t) w'.
Proof.
  intros [H1 H2 H3] Hs. destruct (Iid_tx _ _ _ _ _ _ H1 Hs) as [E1 H1'].
  destruct (I03_tx _ _ _ _ _ _ H2 Hs) as [E2 H2']. destruct (I13_tx _ _ _ _ _ _ _ _ H3 Hs) as [E3 H3'].
  split; [|constructor; assumption]. unfold sound_tx. apply each_conj; [exact E1|]. apply each_conj; [exact E2|].
  eapply each_impl; [apply use_live|exact E3].
Qed.
Lemma I60_steps h w t w' : steps Lax w t w' -> forall tr, I60 h tr w -> each sound_tx tr t /\ I60 h (tr ++ t) w'.
Proof.
  exact (inv_steps (I60 h) sound_tx (I60_note h) (I60_enq h) (I60_tx h) w t w').
Qed.
Lemma I60_set_st h tr w i en b s : I60 h tr w -> bget w i = Some b -> (s = TxEnabled -> en = true) ->
  sound_tx tr (EvSetTx i en) /\ I60 h (tr ++ [EvSetTx i en]) (set_bus w i (set_st b s)).
Proof.
  intros [H1 H2 H3] Hb He. split; [unfold sound_tx; cbn; auto|].
  assert (forall j, queued (set_bus w i (set_st b s)) j = queued w j) as Hq.
  { intros j. rewrite (queued_set_bus _ _ _ b _ Hb). destruct (Bool.eqb_spec i j); [|reflexivity].
    subst. rewrite queued_bget, Hb. reflexivity. }
  constructor.
  - apply (Iid_quiet _ _ _ _ H1); try reflexivity. exact Hq.
  - intros j c. rewrite (bget_set_bus _ _ _ _ _ _ Hb), last_set_snoc.
    destruct (Bool.eqb_spec i j).
    + subst. intros [= <-]. cbn. rewrite eqb_reflx. intros E. now rewrite (He E).
    + replace (eqb j i) with false by (destruct i, j; cbn; congruence). apply H2.
  - eapply I13_quiet; [exact H3|reflexivity|reflexivity|exact Hq|apply next_set_bus|discriminate].
Qed.
Lemma I60_set h w i en t w' : set_rel Lax w i en t w' -> forall tr, I60 h tr w ->
  each sound_tx tr t /\ I60 h (tr ++ t) w'.
Proof.
  intros Hr tr Hi. destruct Hr as [b en Hb Hc|b Hb Hst Hsz|b Hb Hst|b t w' Hb Hst Ht].
  - destruct (I60_set_st h tr w i en b (bus_st b) Hi Hb) as [Hp Hi'].
    { intros E. destruct Hc as [[Hst Hc]|[[Hst ->]|[Hst ->]]]; congruence. }
    rewrite set_st_same, (set_bus_same _ _ _ _ Hb) in Hi'. cbn. auto.
  - destruct (I60_set_st h tr w i true b TxEnabled Hi Hb) as [Hp Hi']; [auto|]. cbn. auto.
  - destruct (I60_set_st h tr w i false b TxDisabled Hi Hb) as [Hp Hi']; [discriminate|]. cbn. auto.
  - destruct (I60_set_st h tr w i true b TxEnabled Hi Hb) as [Hp Hi']; [auto|].
    destruct (I60_steps h _ _ _ (txs_steps _ _ _ _ _ Ht) _ Hi') as [He Hi''].
    cbn [each]. rewrite <- app_assoc in Hi''. auto.
Qed.
Lemma I60_same h tr (w : world) m x0 x1 : I60 h tr w -> m_busses m = m_busses (w_m w) -> m_next m = m_next (w_m w) ->
  I60 h tr (mkWorld m x0 x1).
Proof.
  intros [H1 H2 [Hp Hlt Hn Hr]] Hm Hx. constructor.
  - intros i. rewrite H1. unfold queued. cbn. now rewrite Hm.
  - intros i b. unfold bget. cbn. rewrite Hm. apply H2.
  - constructor; auto.
    + unfold queued_ids, queued in *. cbn. rewrite Hm. exact Hp.
    + cbn. rewrite Hx. exact Hlt.
Qed.
Lemma I60_alloc tr w : I60 None tr w ->
  sound_tx tr (EvAlloc (m_next (w_m w))) /\
  I60 (Some (m_next (w_m w))) (tr ++ [EvAlloc (m_next (w_m w))]) (AstTrace.nextw w).
Proof.
  intros [H1 H2 [Hp Hlt Hn Hr]].
  assert (~ In (m_next (w_m w)) (allocs tr)) as Hfresh by (intros Hin; apply Hlt in Hin; lia).
  split; [unfold sound_tx; cbn; auto|]. constructor.
  - apply (Iid_quiet _ _ _ _ H1); reflexivity.
  - intros i b Hb Hst. rewrite last_set_quiet; [eapply H2; eassumption|discriminate].
  - constructor; rewrite ?allocs_app, ?frees_app; cbn [allocs frees flat_map Datatypes.app].
    + rewrite app_nil_r. cbn [held held_ids Datatypes.app]. rewrite Hp. cbn [held held_ids Datatypes.app].
      change (queued_ids (AstTrace.nextw w)) with (queued_ids w).
      rewrite <- app_assoc. apply Permutation_app_head. apply Permutation_app_comm.
    + cbn. intros n Hin. apply in_app_or in Hin. destruct Hin as [Hin|[<-|[]]]; [apply Hlt in Hin; lia|lia].
    + apply Permutation_NoDup with (l := m_next (w_m w) :: allocs tr);
        [apply Permutation_cons_append|constructor; assumption].
    + intros i lo n bs. rewrite in_app_iff. intros [Hin|[Hin|[]]]; [|discriminate Hin].
      rewrite app_nil_r. destruct (Hr _ _ _ _ Hin); [auto|discriminate].
Qed.
Lemma I60_free n tr w : I60 (Some n) tr w -> sound_tx tr (EvFree n) /\ I60 None (tr ++ [EvFree n]) w.
Proof.
  intros [H1 H2 H3]. pose proof (I13_live _ _ _ _ n H3) as Hlive. destruct H3 as [Hp Hlt Hn Hr].
  split; [unfold sound_tx; cbn; split; [exact I|split; [exact I|apply Hlive; cbn; auto]]|]. constructor.
  - apply (Iid_quiet _ _ _ _ H1); reflexivity.
  - intros i b Hb Hst. rewrite last_set_quiet; [eapply H2; eassumption|discriminate].
  - constructor; rewrite ?allocs_app, ?frees_app; cbn [allocs frees flat_map Datatypes.app]; rewrite ?app_nil_r.
    + rewrite Hp. cbn [held held_ids Datatypes.app]. rewrite <- app_assoc. reflexivity.
    + exact Hlt.
    + exact Hn.
    + intros i lo k bs. rewrite in_app_iff. intros [Hin|[Hin|[]]]; [|discriminate Hin]. left.
      apply in_or_app. destruct (Hr _ _ _ _ Hin) as [Hf|[= ->]]; [auto|right; cbn; auto].
Qed.
Lemma I60_busrx n tr w i lo bs : I60 (Some n) tr w ->
  sound_tx tr (EvBusRx i lo n bs) /\ I60 (Some n) (tr ++ [EvBusRx i lo n bs]) w.
Proof.
  intros [H1 H2 H3]. pose proof (I13_live _ _ _ _ n H3) as Hlive.
  split; [unfold sound_tx; cbn; split; [exact I|split; [exact I|apply Hlive; cbn; auto]]|]. constructor.
  - apply (Iid_quiet _ _ _ _ H1); reflexivity.
  - intros j b Hb Hst. rewrite last_set_quiet; [eapply H2; eassumption|discriminate].
  - eapply I13_quiet; [exact H3|reflexivity|reflexivity|reflexivity|reflexivity|congruence].
Qed.

Lemma steps_none {st} (w : world) t w' : steps st w t w' -> bget w true = None -> bget w' true = None.
Proof.
  intros Hs Hb. apply steps_stable in Hs. destruct Hs as (_ & _ & He & _). specialize (He true). rewrite Hb in He.
  destruct (bget w' true); [discriminate He|reflexivity].
Qed.
Lemma set_none {st} (w : world) en t w' : set_rel st w false en t w' -> bget w true = None -> bget w' true = None.
Proof.
  intros Hr Hn.
  assert (forall b s, bget w false = Some b -> bget (set_bus w false (set_st b s)) true = None) as H.
  { intros b s Hb. now rewrite (bget_set_bus _ _ _ _ _ _ Hb). }
  destruct Hr as [b en Hb Hc|b Hb Hst Hsz|b Hb Hst|b t w' Hb Hst Ht]; auto.
  eapply steps_none; [eapply txs_steps; exact Ht|auto].
Qed.

Theorem C60_transmit app bmc mtu eid l : ast_mtu bmc mtu -> Forall ast_traffic l ->
  always (ast_assm bmc) (ast_history app bmc mtu eid l) (fun w tr => bd_bus (bnd w false) = true ->
    at_each sound_tx tr /\
    map fst (enqueued false tr) = map fst (settled false tr) ++ map fst (queued w false) /\
    NoDup (allocs tr) /\ NoDup (frees tr) /\
    Permutation (allocs tr) (frees tr ++ map fst (queued w false))).
Proof.
  intros Hm Hl. eapply always_mono; [|
    apply (ast_trace_inv app bmc mtu eid l (fun h g w => (each sound_tx [] g /\ I60 h g w) /\ bget w true = None) Hm Hl)].
  - intros w tr HK Hb. destruct (HK Hb) as [[He [H1 H2 [Hp Hlt Hn Hr]]] Hb1].
    split; [now apply each_at_each|]. split; [apply H1|]. split; [exact Hn|].
    cbn [held held_ids Datatypes.app] in Hp.
    split. { apply (Permutation_NoDup Hp) in Hn. clear - Hn. induction (frees tr); [constructor|].
             cbn in Hn. inversion Hn; subst. constructor; [|auto]. intros Hin. apply H1. apply in_or_app; auto. }
    rewrite Hp. unfold queued_ids. rewrite (queued_bget w true), Hb1. cbn [map]. rewrite app_nil_r. reflexivity.
  - intros h g w e He [[Hg HI] Hb]. destruct (I60_io _ _ _ _ He HI) as [Hp HI']. split; [|exact Hb].
    split; [apply each_app; cbn; auto|exact HI'].
  - intros g w rc [[Hg HI] Hb]. destruct (I60_note None g w (EvRet rc) I HI) as [Hp HI']. split; [|exact Hb].
    split; [apply each_app; cbn; auto|exact HI'].
  - intros h g w x n [[Hg HI] Hb]. split; [|unfold putb; rewrite bget_set_bnd; exact Hb]. split; [exact Hg|].
    destruct w as [m0 y0 y1]. eapply I60_same; [exact HI|reflexivity|reflexivity].
  - intros g w m [[Hg HI] Hb] E1 E2 _ _. split; [|unfold bget in *; cbn; rewrite E1; exact Hb]. split; [exact Hg|].
    eapply I60_same; [exact HI|exact E1|exact E2].
  - intros g w en t w' Hw [[Hg HI] Hb] Hr. destruct (I60_set _ _ _ _ _ _ Hr _ HI) as [Hp HI'].
    split; [split; [apply each_app; auto|exact HI']|]. eapply set_none; eassumption.
  - intros g w e to tag msg rc t w' Hw [[Hg HI] Hb] Hr.
    destruct (I60_steps _ _ _ _ (message_rel_steps _ _ _ _ _ _ _ _ _ Hr) _ HI) as [Hp HI'].
    split; [split; [apply each_app; auto|exact HI']|]. eapply steps_none; [eapply message_rel_steps; exact Hr|exact Hb].
  - intros g w [[Hg HI] Hb]. destruct (I60_alloc _ _ HI) as [Hp HI'].
    split; [split; [apply each_app; cbn; auto|exact HI']|exact Hb].
  - intros n g w [[Hg HI] Hb]. destruct (I60_free _ _ _ HI) as [Hp HI'].
    split; [split; [apply each_app; cbn; auto|exact HI']|exact Hb].
  - intros n g w bs t w' Hw [[Hg HI] Hb] _ Hr. destruct (rx_rel_steps _ _ _ _ _ _ Hr) as (cs & b & t1 & Hs & Hb0 & ->).
    destruct (I60_busrx n g w false (busrx_local w b) bs HI) as [Hp1 HI1].
    assert (I60 (Some n) (g ++ [EvBusRx false (busrx_local w b) n bs]) (setc w cs)) as HI2.
    { destruct w as [m0 y0 y1]. eapply I60_same; [exact HI1|reflexivity|reflexivity]. }
    destruct (I60_steps _ _ _ _ Hs _ HI2) as [Hp3 HI3]. destruct (I60_free _ _ _ HI3) as [Hp4 HI4].
    split; [split|].
    + apply each_app. split; [exact Hg|]. cbn [Datatypes.app each]. split; [exact Hp1|]. apply each_app. split; [exact Hp3|].
      cbn [each]. split; [exact Hp4|exact I].
    + rewrite <- !app_assoc in HI4. exact HI4.
    + eapply steps_none; [exact Hs|exact Hb].
  - intros x. split; [|reflexivity]. split; [cbn; unfold sound_tx; cbn; auto|]. constructor.
    + intros i. destruct i; reflexivity.
    + intros i b. destruct i; [discriminate|]. intros [= <-]. discriminate.
    + constructor; cbn; [constructor|intros; contradiction|constructor|]. intros i lo n bs [N|[]]. discriminate N.
Qed.

(** ** C61: reception *)

(** A packet that reaches the core was just read from the window; a message that
    reaches the application is accounted for by the packets that reached the core. *)
Definition sound_rx (before : list event) (e : event) : Prop :=
  accounted before e /\
  match e with EvBusRx _ _ n bs => from_window before n bs | _ => True end.

Lemma sound_rx_quiet pre e : quiet_ev e -> sound_rx pre e.
Proof. destruct e; cbn; unfold sound_rx; cbn; tauto. Qed.
Lemma quiet_each t : Forall quiet_ev t -> forall pre, each sound_rx pre t.
Proof. intros Ht. apply each_quiet; [exact Ht|apply sound_rx_quiet]. Qed.
Lemma ctxs_steps {st} (w : world) t w' : steps st w t w' -> m_ctxs (w_m w') = m_ctxs (w_m w) /\ m_policy (w_m w') = m_policy (w_m w).
Proof. intros Hs. apply steps_stable in Hs. destruct Hs as (Hr & _). injection Hr. auto. Qed.
Lemma rx_log_quiet_snoc g t : Forall quiet_ev t -> rx_log (g ++ t) = rx_log g.
Proof. intros Ht. now rewrite rx_log_app, (rx_log_quiet _ Ht), app_nil_r. Qed.

Lemma rx_sound app (w : world) n bs t w' : rx_rel Lax app w false n bs t w' -> m_policy (w_m w) = RouteEndpoint ->
  forall g, CI (rx_log g) (m_ctxs (w_m w)) -> from_window g n bs ->
  each sound_rx g t /\ CI (rx_log (g ++ t)) (m_ctxs (w_m w')) /\ m_policy (w_m w') = RouteEndpoint.
Proof.
  intros Hr Hpol g Hci Hfw.
  destruct Hr as [b Hb Hl|b t w' Hb Hl Hr].
  { cbn [each]. split; [|split; [|exact Hpol]].
    - split; [split; [exact I|exact Hfw]|]. split; [split; exact I|exact I].
    - rewrite rx_log_app. cbn [rx_log flat_map considered]. unfold taken. replace (4 <? zlen bs) with false by lia.
      cbn [andb Datatypes.app]. rewrite app_nil_r. exact Hci. }
  assert (busrx_local w b = Some (bus_eid b)) as El by (unfold busrx_local; rewrite Hpol; reflexivity).
  set (lo := busrx_local w b) in *. set (e0 := EvBusRx false lo n bs).
  assert (taken lo bs = dest_is_local b (p_dest bs)) as Etk.
  { unfold taken. rewrite El. replace (4 <? zlen bs) with true by lia. reflexivity. }
  assert (forall t', Forall quiet_ev t' -> each sound_rx g (e0 :: capev w false bs ++ t' ++ [EvFree n])) as Hq.
  { intros t' Ht'. cbn [each]. split; [split; [exact I|exact Hfw]|]. apply quiet_each.
    apply Forall_app. split; [apply capev_quiet|]. apply Forall_app. split; [exact Ht'|repeat constructor]. }
  assert (forall t', Forall quiet_ev t' ->
     rx_log (g ++ e0 :: capev w false bs ++ t' ++ [EvFree n]) = rx_log g ++ (if taken lo bs then [bs] else [])) as Hlog.
  { intros t' Ht'. rewrite rx_log_app. f_equal. change (e0 :: ?x) with ([e0] ++ x). rewrite rx_log_app.
    rewrite (rx_log_quiet (capev w false bs ++ t' ++ [EvFree n])).
    - cbn. now rewrite !app_nil_r.
    - apply Forall_app. split; [apply capev_quiet|]. apply Forall_app. split; [exact Ht'|repeat constructor]. }
  destruct Hr as [b' Hb' Hpo Hloc|b' cs Hb' Hloc Hpure|b' cs s' d msg t w' Hb' Hloc Hpure Hrt].
  - split; [apply (Hq []); constructor|]. split; [|exact Hpol]. rewrite (Hlog []) by constructor.
    rewrite Hb in Hb'. injection Hb' as <-. rewrite Etk, Hloc, app_nil_r. exact Hci.
  - split; [apply (Hq []); constructor|]. split; [|exact Hpol]. rewrite (Hlog []) by constructor.
    rewrite Hb in Hb'. injection Hb' as <-. destruct Hloc as [N|Hloc]; [congruence|]. rewrite Etk, Hloc.
    destruct (rx_pure_CI _ _ _ _ _ _ Hci Hpure) as [Hci' _]. exact Hci'.
  - rewrite Hb in Hb'. injection Hb' as <-. destruct Hloc as [N|Hloc]; [congruence|].
    rewrite <- Etk in Hloc. destruct (rx_pure_CI _ _ _ _ _ _ Hci Hpure) as [Hci' Hout].
    destruct (Hout _ _ _ eq_refl) as (Es & Ed & Ho). subst s' d.
    pose proof (route_rel_steps _ _ _ _ _ _ _ _ _ _ _ Hrt) as Hst.
    destruct (ctxs_steps _ _ _ Hst) as [Ec Ep]. cbn in Ec, Ep. rewrite Hpol in Ep.
    rewrite p_to_spec, p_tag_spec in Hrt.
    set (e1 := EvMsg false (h_src bs) (h_dest bs) (h_to bs) (h_tag bs) msg) in *.
    assert (exists cb t2, t = e1 :: cb ++ t2 /\ Forall quiet_ev t2 /\
       (cb = [] \/ exists e, cb = [e] /\ (e = EvRx (h_src bs) (h_to bs) (h_tag bs) msg \/
               e = EvCtrl false (h_src bs) (negb (h_tag bs =? 0)) (if h_to bs then 1 else 0) msg))) as (cb & t2 & -> & Hq2 & Hcb).
    { inversion Hrt as [b2 Hb2 Hpl Hno|b2 e t2 w2 Hb2 Hpl Hyes Hev Hms|rc t2 w2 Hpl Hob]; subst.
      - exists [], []. split; [reflexivity|]. split; [constructor|auto].
      - exists [e], t2. split; [reflexivity|]. split; [apply tx_ev_quiet; eapply msgs_ev; exact Hms|].
        right. exists e. split; [reflexivity|]. eapply local_event_shape. exact Hev.
      - exfalso. change (m_policy (w_m w) = RouteBridge) in Hpl. congruence. }
    assert (rx_log (cb ++ t2 ++ [EvFree n]) = []) as Elog2.
    { rewrite rx_log_app, (rx_log_quiet (t2 ++ [EvFree n])) by (apply Forall_app; split; [exact Hq2|repeat constructor]).
      destruct Hcb as [-> |(e & -> & [-> | ->])]; reflexivity. }
    split; [|split; [|exact Ep]].
    2:{ rewrite Ec. rewrite rx_log_app. change (e0 :: ?x) with ([e0] ++ x). rewrite rx_log_app, rx_log_app.
        rewrite (rx_log_quiet _ (capev_quiet _ _ _ _)).
        replace (rx_log ((e1 :: cb ++ t2) ++ [EvFree n])) with (@nil (list Z)).
        2:{ rewrite <- app_comm_cons, <- app_assoc. change (e1 :: ?x) with ([e1] ++ x). rewrite rx_log_app, Elog2. reflexivity. }
        cbn [rx_log flat_map considered e0 Datatypes.app]. rewrite Hloc. exact Hci'. }
    cbn [each]. split; [split; [exact I|exact Hfw]|].
    apply each_app. split; [apply quiet_each, capev_quiet|].
    set (pre' := (g ++ [e0]) ++ capev w false bs).
    assert (explained pre' false (h_src bs) (h_dest bs) (h_to bs) (h_tag bs) msg) as Hex.
    { exists lo, bs. unfold pre'. rewrite last_rx_quiet by apply capev_quiet.
      rewrite !rx_log_app, (rx_log_quiet _ (capev_quiet _ _ _ _)). cbn [rx_log flat_map considered e0].
      rewrite Hloc, !app_nil_r.
      split; [unfold last_rx; rewrite fold_left_app; reflexivity|].
      change (h_src bs, h_dest bs, h_tag bs) with (h_key bs).
      destruct Ho as [(-> & -> & ->)|(-> & -> & Ho)]; repeat split; auto; discriminate. }
    cbn [Datatypes.app each]. split; [split; [exact Hex|exact I]|].
    assert (explained (pre' ++ [e1]) false (h_src bs) (h_dest bs) (h_to bs) (h_tag bs) msg) as Hex'.
    { apply explained_ext; [unfold last_rx; rewrite fold_left_app; reflexivity|reflexivity|exact Hex]. }
    rewrite <- app_assoc. apply each_app. split.
    + destruct Hcb as [-> |(e & -> & [-> | ->])]; cbn [each]; [exact I| |]; (split; [|exact I]); split; try exact I; cbn; eauto 10.
    + apply quiet_each. apply Forall_app. split; [exact Hq2|repeat constructor].
Qed.

Theorem C61_receive app bmc mtu eid l : ast_mtu bmc mtu -> Forall ast_traffic l ->
  always (ast_assm bmc) (ast_history app bmc mtu eid l) (fun w tr => bd_bus (bnd w false) = true ->
    at_each sound_rx tr).
Proof.
  intros Hm Hl. eapply always_mono; [|
    apply (ast_trace_inv app bmc mtu eid l (fun h g w => each sound_rx [] g /\ CI (rx_log g) (m_ctxs (w_m w)) /\
       m_policy (w_m w) = RouteEndpoint) Hm Hl)].
  - intros w tr HK Hb. destruct (HK Hb) as (He & _). now apply each_at_each.
  - intros h g w e He (Hg & Hc & Hp). assert (Forall quiet_ev [e]) as Hq by (repeat constructor; destruct e; cbn in *; tauto).
    split; [apply each_app; split; [exact Hg|now apply quiet_each]|]. rewrite rx_log_quiet_snoc by exact Hq. auto.
  - intros g w rc (Hg & Hc & Hp). assert (Forall quiet_ev [EvRet rc]) as Hq by repeat constructor.
    split; [apply each_app; split; [exact Hg|now apply quiet_each]|]. rewrite rx_log_quiet_snoc by exact Hq. auto.
  - intros h g w x n (Hg & Hc & Hp). auto.
  - intros g w m (Hg & Hc & Hp) _ _ E3 E4. cbn. rewrite E3, E4. auto.
  - intros g w en t w' Hw (Hg & Hc & Hp) Hr.
    assert (Forall quiet_ev t /\ m_ctxs (w_m w') = m_ctxs (w_m w) /\ m_policy (w_m w') = m_policy (w_m w)) as (Hq & -> & ->).
    { assert (forall b st, m_ctxs (w_m (set_bus w b st)) = m_ctxs (w_m w)
                       /\ m_policy (w_m (set_bus w b st)) = m_policy (w_m w)) as Hb.
      { intros b st. pose proof (rest_set_bus _ w b st) as Hre. unfold rest in Hre. injection Hre. auto. }
      destruct Hr as [b en Hb' Hcc|b Hb' Hst Hsz|b Hb' Hst|b t w' Hb' Hst Ht].
      - split; [repeat constructor|auto].
      - split; [repeat constructor|apply Hb].
      - split; [repeat constructor|apply Hb].
      - pose proof (txs_steps _ _ _ _ _ Ht) as Hs. destruct (ctxs_steps _ _ _ Hs) as [-> ->].
        split; [|apply Hb]. constructor; [exact I|]. apply tx_ev_quiet. eapply txs_ev; exact Ht. }
    split; [apply each_app; split; [exact Hg|now apply quiet_each]|]. rewrite rx_log_quiet_snoc by exact Hq. auto.
  - intros g w e to tag msg rc t w' Hw (Hg & Hc & Hp) Hr.
    destruct (ctxs_steps _ _ _ (message_rel_steps _ _ _ _ _ _ _ _ _ Hr)) as [-> ->].
    assert (Forall quiet_ev t) as Hq by (apply tx_ev_quiet; eapply message_ev; exact Hr).
    split; [apply each_app; split; [exact Hg|now apply quiet_each]|]. rewrite rx_log_quiet_snoc by exact Hq. auto.
  - intros g w (Hg & Hc & Hp). assert (Forall quiet_ev [EvAlloc (m_next (w_m w))]) as Hq by repeat constructor.
    split; [apply each_app; split; [exact Hg|now apply quiet_each]|]. rewrite rx_log_quiet_snoc by exact Hq. auto.
  - intros n g w (Hg & Hc & Hp). assert (Forall quiet_ev [EvFree n]) as Hq by repeat constructor.
    split; [apply each_app; split; [exact Hg|now apply quiet_each]|]. rewrite rx_log_quiet_snoc by exact Hq. auto.
  - intros n g w bs t w' Hw (Hg & Hc & Hp) Hfw Hr. destruct (rx_sound app w n bs t w' Hr Hp g Hc Hfw) as (He & Hc' & Hp').
    split; [apply each_app; auto|auto].
  - intros x. split; [cbn; split; [split; exact I|exact I]|]. split; [apply CI_fresh|reflexivity].
Qed.

(** Hypotheses met, and not for want of traffic: the host sends a message, queues a
    second behind it, receives one from the window, answers it, and sends on. *)
Definition in_pkt : list Z := [1; 9; 8; 200; 5; 7].
Definition rx_window : list Z := Eval vm_compute in
  hdr_window ++ repeat 0 (Z.to_nat (256 - zlen hdr_window)) ++ (be32 6 ++ in_pkt ++ be32 (crc32 in_pkt)).
Definition rx_env (ks : nat -> Z) : env :=
  mkEnv (fun _ => true) (fun n _ => Some (ks n)) (fun _ => true) (fun _ off => nth (Z.to_nat off) rx_window 0) (fun _ => 1).
Example C60_case :
  let l := [ACore (OpSetRx true); APoll false; ACore (OpTx 8 true 0 [5; 1]); ACore (OpTx 8 true 1 [5; 2]);
            APoll false; APoll false] in
  ast_mtu false 64 /\ Forall ast_traffic l /\
  can_finish (ast_assm false) (ast_history echo false 64 9 l) (fun w tr =>
    bd_bus (bnd w false) = true /\
    enqueued false tr = [(0, [1; 8; 9; 200; 5; 1]); (1, [1; 8; 9; 201; 5; 2]); (3, [1; 8; 9; 192; 5; 7])] /\
    settled false tr = [(0, [1; 8; 9; 200; 5; 1]); (1, [1; 8; 9; 201; 5; 2])] /\
    queued w false = [(3, [1; 8; 9; 192; 5; 7])] /\
    In (EvBusRx false (Some 9) 2 in_pkt) tr /\ In (EvRx 8 true 0 [5; 7]) tr /\ frees tr = [0; 2; 1]).
Proof.
  cbv zeta. split; [cbn; lia|]. split; [repeat constructor|].
  apply (by_run _ (rx_env (fun n => nth n [128; 128; 128; 128; 128; 128; 128; 128; 193; 255; 193; 193; 193; 193; 193; 193;
     193; 193; 193; 1; 193; 193; 193; 193; 193; 193; 193; 2] 192))).
  - split; [reflexivity|]. split; [discriminate|]. split; [|discriminate].
    intros n r v. cbn [e_kread rx_env kread_val]. intros [= <-]. cbn [kval_ok ast_assm sane_bmc].
    do 30 (destruct n as [|n]; [destruct r; reflexivity|]). destruct r; reflexivity.
  - vm_compute. repeat split; repeat (try (left; reflexivity); right).
Qed.
