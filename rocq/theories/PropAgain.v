(** PropAgain: a node is taken off the bus and put back (C86). *)
From Coq Require Import Permutation.
From Verif Require Import Base Lists Prog PktBuf Core WP Walk CoreRel WalkCore CoreHist Spec SpecRx
  Trace PropTx PropMsg Reasm PropRx PropLife PropRound Concrete.

(** ** What the theorems speak about *)

(** One stay on the bus: the EID it is registered with, what happens until
    mctp_unregister_bus, and what happens after that. *)
Definition stay {B} : Type := (Z * list (@op B) * list (@op B))%type.
Definition stays_ops {B} (l : list (@stay B)) : list op :=
  flat_map (fun x => let '(eid, on, off) := x in OpRegister eid :: on ++ OpUnregister :: off) l.

(** What may be done to a node that is on no bus.  (Giving it packets or enabling its
    binding is a fault, C86_away_faults.) *)
Definition away {B} (o : @op B) : Prop :=
  match o with
  | OpSetMax n => 0 <= n < 2 ^ 64
  | OpSetCapture _ | OpSetRx _ | OpTx _ _ _ _ | OpPriv _ _ => True
  | OpPktSize _ n => 68 <= n < 2 ^ 63
  | _ => False
  end.

Record wanders {B} (f : txfun B) (s : startfun B) (b0 b1 : binding B) (before : list (@op B)) (l : list (@stay B))
  : Prop := mkWanders {
  wn_polite : polite f;
  wn_starts : starts s;
  wn_dims0 : dims_ok b0;
  wn_dims1 : dims_ok b1;
  wn_before : Forall away before;
  wn_stays : Forall (fun x => let '(eid, on, off) := x in Forall (traffic (Endpoint eid)) on /\ Forall away off) l }.

(** The events since the last mctp_unregister_bus. *)
Definition current (tr : list event) : list event :=
  fold_left (fun acc e => match e with EvDetach => [] | _ => acc ++ [e] end) tr [].

(** The buffers that were in use (allocated and not released) when the node was taken off the bus. *)
Definition left_behind (tr : list event) (n : Z) : Prop :=
  exists a b, tr = a ++ EvDetach :: b /\ In n (allocs a) /\ ~ In n (frees a).

Section Again.
Context {B : Type} (f : txfun B) (s : startfun B) (appl : event -> list txreq).
Notation world := (world B).

(** ** Trace invariants from any state on *)

Lemma hist_inv (I : option Z -> list event -> world -> Prop) (P : list event -> event -> Prop) :
  (forall h tr w e, plain_ev e -> I h tr w -> P tr e /\ I h (tr ++ [e]) w) ->
  (forall tr w j lo n bs, I (Some n) tr w ->
     P tr (EvBusRx j lo n bs) /\ I (Some n) (tr ++ [EvBusRx j lo n bs]) w) ->
  (forall h tr w i bs t w', I h tr w -> enq_step Strict i w bs t w' -> each P tr t /\ I h (tr ++ t) w') ->
  (forall h tr w i rc t w', I h tr w -> tx_step Strict i w rc t w' -> each P tr t /\ I h (tr ++ t) w') ->
  (forall h tr w m x0 x1, I h tr w ->
     m_busses m = m_busses (w_m w) -> m_next m = m_next (w_m w) -> I h tr (mkWorld m x0 x1)) ->
  (forall tr w, I None tr w ->
     P tr (EvAlloc (m_next (w_m w))) /\
     I (Some (m_next (w_m w))) (tr ++ [EvAlloc (m_next (w_m w))])
       (set_m w (set_next (w_m w) (m_next (w_m w) + 1)))) ->
  (forall n tr w, I (Some n) tr w -> (exists j lo bs, In (EvBusRx j lo n bs) tr) ->
     P tr (EvFree n) /\ I None (tr ++ [EvFree n]) w) ->
  (forall tr w i en b st, I None tr w -> bget w i = Some b ->
     st = bus_st b \/ (st = TxEnabled /\ en = true) \/ (st = TxDisabled /\ en = false) ->
     (st = TxEnabled -> en = true) ->
     P tr (EvSetTx i en) /\ I None (tr ++ [EvSetTx i en]) (set_bus w i (set_st b st))) ->
  forall w l t w', WF Strict w -> hist w l t w' -> forall tr, I None tr w ->
  each P tr t /\ I None (tr ++ t) w'.
Proof.
  intros H1 H1b H2 H3 H4 H5a H5b H6 w0 l t w Hw0 Hh tr0 Hi.
  assert (forall tr w t w' cs i b bs, I None tr w ->
     let w1 := set_m w (set_next (w_m w) (m_next (w_m w) + 1)) in
     let n := m_next (w_m w) in
     bget w i = Some b -> WF Strict w1 ->
     steps Strict (setc w1 cs) t w' ->
     let t' := EvAlloc n :: EvBusRx i (busrx_local w1 b) n bs :: t ++ [EvFree n] in
     each P tr t' /\ I None (tr ++ t') w') as H5.
  { clear - H1 H1b H2 H3 H4 H5a H5b. intros tr w t w' cs i b bs Hi w1 n Hb Hw1 Hs t'.
    destruct (H5a _ _ Hi) as [P1 I1]. fold n in P1, I1. fold w1 in I1.
    destruct (H1b _ _ i (busrx_local w1 b) n bs I1) as [P2 I2].
    assert (I (Some n) ((tr ++ [EvAlloc n]) ++ [EvBusRx i (busrx_local w1 b) n bs]) (setc w1 cs)) as I3.
    { eapply H4; [exact I2|reflexivity|reflexivity]. }
    destruct (inv_steps (I (Some n)) P (H1 (Some n)) (H2 (Some n)) (H3 (Some n)) _ _ _ Hs _ I3)
      as [P4 I4].
    destruct (H5b n _ _ I4) as [P5 I5].
    { exists i, (busrx_local w1 b), bs. rewrite !in_app_iff. cbn. auto. }
    split.
    - unfold t'. cbn [each]. split; [exact P1|]. split; [exact P2|]. apply each_app.
      split; [exact P4|]. cbn [each]. auto.
    - unfold t'. rewrite <- !app_assoc in I5. exact I5. }
  exact (inv_hist (I None) P (H1 None) (H2 None) (H3 None) (H4 None) H5 H6 _ _ _ _ Hw0 Hh _ Hi).
Qed.

Lemma hist_fifo (w : world) l t w' : WF Strict w -> hist w l t w' -> forall tr, I02 tr w ->
  each next_in_line tr t /\ I02 (tr ++ t) w'.
Proof.
  revert w l t w'. apply (hist_inv (fun _ => I02) next_in_line).
  - intros _ tr w e He Hi. split; [destruct e; cbn in *; tauto|].
    apply (I02_quiet _ _ _ _ Hi); destruct e; cbn in *; tauto || reflexivity.
  - intros tr w j lo n bs Hi. split; [exact I|]. apply (I02_quiet _ _ _ _ Hi); reflexivity.
  - intros _ tr w i bs t w' Hi Hs. split; [|eapply I02_enq; eassumption]. destruct Hs; cbn; auto.
  - intros _ tr w i rc t w'. apply I02_tx.
  - intros _ tr w m' x0 x1 Hi Hm _ i. rewrite Hi. unfold queued. cbn. now rewrite Hm.
  - intros tr w Hi. split; [exact I|]. apply (I02_quiet _ _ _ _ Hi); reflexivity.
  - intros n tr w Hi _. split; [exact I|]. apply (I02_quiet _ _ _ _ Hi); reflexivity.
  - intros tr w i en b st Hi Hb _ _. split; [exact I|].
    apply (I02_quiet _ _ _ _ Hi); try reflexivity. intros j.
    rewrite (queued_set_bus _ _ _ b _ Hb). destruct (Bool.eqb_spec i j); [|reflexivity].
    subst. rewrite queued_bget, Hb. reflexivity.
Qed.

Lemma hist_enabled (w : world) l t w' : WF Strict w -> hist w l t w' -> forall tr, I03 tr w ->
  each only_enabled tr t /\ I03 (tr ++ t) w'.
Proof.
  revert w l t w'. apply (hist_inv (fun _ => I03) only_enabled).
  - intros _ tr w e He Hi. split; [destruct e; cbn in *; tauto|].
    intros i b Hb Hst. rewrite last_set_quiet; [eapply Hi; eassumption|].
    intros j x ->. exact He.
  - intros tr w j lo n bs Hi. split; [exact I|].
    intros i b Hb Hst. rewrite last_set_quiet; [eapply Hi; eassumption|discriminate].
  - intros _ tr w i bs t w' Hi Hs. destruct Hs as [b p Hb Hst Hid Hby Hq]. split; [cbn; auto|].
    intros j c. rewrite (bget_set_bus _ _ _ _ b) by exact Hb.
    rewrite last_set_app_other by (cbn; intuition discriminate).
    destruct (Bool.eqb_spec i j); [subst; intros [= <-]; cbn; eauto|intros Hc; eapply Hi; exact Hc].
  - intros _ tr w i rc t w'. apply I03_tx.
  - intros _ tr w m' x0 x1 Hi Hm _ i b. unfold bget. cbn. rewrite Hm. apply Hi.
  - intros tr w Hi. split; [exact I|].
    intros i b Hb Hst. rewrite last_set_quiet; [eapply Hi; eassumption|discriminate].
  - intros n tr w Hi _. split; [exact I|].
    intros i b Hb Hst. rewrite last_set_quiet; [eapply Hi; eassumption|discriminate].
  - intros tr w i en b st Hi Hb Hc He. split; [exact I|].
    intros j c. rewrite (bget_set_bus _ _ _ _ _ _ Hb), last_set_snoc.
    destruct (Bool.eqb_spec i j).
    + subst. intros [= <-]. cbn. rewrite eqb_reflx. intros E. now rewrite (He E).
    + replace (eqb j i) with false by (destruct i, j; cbn; congruence). apply Hi.
Qed.

Lemma hist_buffers L (w : world) l t w' : WF Strict w -> hist w l t w' -> forall tr, I13 L None tr w ->
  each buffer_use tr t /\ I13 L None (tr ++ t) w'.
Proof.
  revert w l t w'. apply (hist_inv (I13 L) buffer_use).
  - intros h tr w e He Hi. split; [destruct e; cbn in *; tauto|].
    eapply I13_quiet; [exact Hi| | | | |]; destruct e; cbn in *; tauto || reflexivity || congruence.
  - intros tr w j lo n bs Hi. split.
    + eapply I13_live; [exact Hi|]. unfold held. rewrite !in_app_iff. cbn. auto.
    + eapply I13_quiet; [exact Hi| | | | |]; try reflexivity. congruence.
  - intros h tr w i bs t w'. apply (I13_enq L).
  - intros h tr w i rc t w'. apply (I13_tx L).
  - intros h tr w m' x0 x1 [Hp Hlt Hn Hr] Hm Hx. constructor; auto.
    + unfold queued_ids, queued in *. cbn. rewrite Hm. exact Hp.
    + cbn. rewrite Hx. exact Hlt.
  - intros tr w [Hp Hlt Hn Hr].
    assert (~ In (m_next (w_m w)) (allocs tr)) as Hfresh by (intros Hin; apply Hlt in Hin; lia).
    split; [exact Hfresh|]. constructor; rewrite ?allocs_app, ?frees_app; cbn [allocs frees flat_map app].
    + rewrite app_nil_r. rewrite Hp. unfold held. cbn [held_ids]. rewrite app_nil_r.
      change (queued_ids (set_m w (set_next (w_m w) (m_next (w_m w) + 1)))) with (queued_ids w).
      rewrite <- !app_assoc. apply Permutation_app_head. apply Permutation_app_head. apply Permutation_app_comm.
    + cbn. intros n Hin. apply in_app_or in Hin. destruct Hin as [Hin|[<-|[]]]; [apply Hlt in Hin; lia|lia].
    + apply Permutation_NoDup with (l := m_next (w_m w) :: allocs tr);
        [apply Permutation_cons_append|constructor; assumption].
    + intros i lo n bs. rewrite in_app_iff. intros [Hin|[Hin|[]]]; [|discriminate].
      rewrite app_nil_r. destruct (Hr _ _ _ _ Hin); [auto|discriminate].
  - intros n tr w HI Hrx. pose proof (I13_live _ _ _ _ n HI) as Hlive. destruct HI as [Hp Hlt Hn Hr].
    split.
    + split; [apply Hlive; unfold held; rewrite !in_app_iff; cbn; auto|left; exact Hrx].
    + constructor; rewrite ?allocs_app, ?frees_app; cbn [allocs frees flat_map app]; rewrite ?app_nil_r.
      * rewrite Hp. unfold held. cbn [held_ids]. rewrite app_nil_r, <- !app_assoc. apply Permutation_app_head.
        rewrite !app_assoc. apply Permutation_app_tail. apply Permutation_app_comm.
      * exact Hlt.
      * exact Hn.
      * intros i lo k bs. rewrite in_app_iff. intros [Hin|[Hin|[]]]; [|discriminate].
        destruct (Hr _ _ _ _ Hin) as [?|E]; [left; apply in_or_app; auto|].
        injection E as ->. left. apply in_or_app. cbn. auto.
  - intros tr w i en b st Hi Hb _ _. split; [exact I|].
    eapply I13_quiet; [exact Hi|reflexivity|reflexivity| | |discriminate].
    + intros j. rewrite (queued_set_bus _ _ _ b _ Hb). destruct (Bool.eqb_spec i j); [|reflexivity].
      subst. rewrite queued_bget, Hb. reflexivity.
    + apply next_set_bus.
Qed.


Lemma hist_no_detach (w : world) l t w' : WF Strict w -> hist w l t w' -> each (fun _ e => e <> EvDetach) [] t.
Proof.
  intros Hw Hh.
  refine (proj1 (hist_inv (fun _ _ _ => True) (fun _ e => e <> EvDetach) _ _ _ _ _ _ _ _ w l t w' Hw Hh [] I)).
  - intros h tr x e He _. split; [destruct e; cbn in He; try tauto; discriminate|exact I].
  - intros. split; [discriminate|exact I].
  - intros h tr x i bs t1 x' _ Hs. split; [|exact I]. destruct Hs; cbn; repeat split; discriminate.
  - intros h tr x i rc t1 x' _ Hs. split; [|exact I].
    destruct Hs as [b p q p' b' rc dis bytes io Hb Hst Hqu Hby Hio Hid Hq].
    change (capev x true bytes ++ _) with (txtrace x i (pk_id p) bytes io dis rc).
    apply each_tx; try (intros; discriminate); [exact Hio|intros ? [] Hev; cbn in *; try tauto; discriminate].
  - intros. exact I.
  - intros. split; [discriminate|exact I].
  - intros. split; [discriminate|exact I].
  - intros. split; [discriminate|exact I].
Qed.

(** ** Registration of a node that is on no bus *)

(** The node as it is after mctp_register_bus (or mctp_bridge_busses), in terms of what it
    was before. *)
Record attached (m : mode) (mm : mctp) (t : list event) (w : world) : Prop := mkAttached {
  at_wf : WF Strict w;
  at_mode : mode_ok m w;
  at_ev : Forall startup_ev t;
  at_ctx : m_ctxs (w_m w) = m_ctxs mm;
  at_next : m_next (w_m w) = m_next mm;
  at_q : forall i b, bget w i = Some b -> bus_q b = [];
  at_en : forall i b, bget w i = Some b -> bus_st b = TxEnabled -> In (EvSetTx i true) t }.

Record detached (mm : mctp) : Prop := mkDetached {
  de_dead : m_dead mm = false;
  de_nb : m_nb mm = 0;
  de_busses : forall l, m_busses mm <> BLive l;
  de_ctxs : Forall wf_ctx (m_ctxs mm);
  de_max : 0 <= m_max mm < 2 ^ 64 }.

Definition a : assm := no_oom.

Lemma wp_attach (Hs : starts s) m mm (b0 b1 : binding B) g :
  detached mm -> dims_ok b0 -> dims_ok b1 ->
  wp (adv a) (xop f s appl (mkWorld mm b0 b1) (boot_op m)) g
     (fun w' g' => exists t, g' = g ++ t /\ attached m mm t w').
Proof.
  intros [D1 D2 D3 D4 D5] Hd0 Hd1. destruct mm as [nb bs rx cp cs pol mx nx dd].
  cbn [m_dead m_nb m_busses m_ctxs m_max] in *. subst nb dd.
  assert (may_oom a = false) as Ha by reflexivity.
  unfold xop, exec_op. cbn [w_m m_dead].
  destruct m as [eid|]; cbn [boot_op].
  - unfold register_bus. cbn [w_m m_nb Z.eqb assert_ bind wp h_alloc adv].
    split; [|rewrite Ha; discriminate].
    cbn [negb bind wp h_emit adv].
    set (w1 := set_bnd _ false _).
    assert (bnd w1 false = set_bdbus b0 true) as E1 by reflexivity.
    assert (bget w1 false = Some (mkBus eid Constructed [])) as Eb by reflexivity.
    assert (forall x w' t, (w' = w1 \/ (w' = set_bus w1 false (mkBus eid TxEnabled []) /\ 68 <= bd_pkt_size b0
              /\ In (EvSetTx false true) t)) -> Forall startup_ev t ->
            attached (Endpoint eid) (mkMctp 0 bs rx cp cs pol mx nx false) t (set_bnd w' false (set_priv (bnd w' false) x))) as Hboot.
    { intros x w' t Hw' Ht. destruct Hw' as [->|(-> & Hsz & Hin)].
      - constructor; try reflexivity; try assumption; try (intros [|] b [= <-]; cbn; congruence).
        + constructor; cbn; try reflexivity; try congruence.
          * split; congruence.
          * intros [|] b; [discriminate|reflexivity].
          * intros [|] b; [discriminate|intros [= <-]; constructor].
          * intros [|] b; [discriminate|intros [= <-]; cbn; congruence].
          * intros [|]; [exact Hd1|exact Hd0].
          * repeat constructor; cbn; lia.
        + split; reflexivity.
      - constructor; try reflexivity; try assumption; try (intros [|] b [= <-]; cbn; congruence).
        + constructor; cbn; try reflexivity; try congruence.
          * split; congruence.
          * intros [|] b; [discriminate|reflexivity].
          * intros [|] b; [discriminate|intros [= <-]; constructor].
          * intros [|] b; [discriminate|intros [= <-]; cbn; intros _; exact Hsz].
          * intros [|]; [exact Hd1|exact Hd0].
          * repeat constructor; cbn; lia.
        + split; reflexivity. }
    rewrite E1. cbn [set_bdbus bd_has_start].
    destruct (bd_has_start b0) eqn:Est.
    2:{ cbn [bind wp h_emit adv]. exists [EvAttach false eid; EvRet 0].
        rewrite <- app_assoc. split; [reflexivity|].
        specialize (Hboot (bd_priv b0) w1 [EvAttach false eid; EvRet 0]).
        assert (set_bnd w1 false (set_priv (bnd w1 false) (bd_priv b0)) = w1) as E.
        { destruct b0; reflexivity. }
        rewrite E in Hboot. apply Hboot; [auto|repeat constructor]. }
    unfold scripted_start at 1. cbn [bind]. destruct (s _) as [[b' rc] en] eqn:Es.
    pose proof (Hs _ _ _ _ Es) as Hrc. cbn [bind].
    set (w2 := set_bnd w1 false _).
    destruct en.
    + apply wp_bind; [apply adv_mono|]. apply wp_bind; [apply adv_mono|].
      eapply set_tx_first; [reflexivity|reflexivity|reflexivity|].
      replace (rc <? 0) with false by lia. cbn [wp h_emit adv].
      exists [EvAttach false eid; EvSetTx false true; EvRet rc]. rewrite <- !app_assoc.
      split; [reflexivity|]. change (bd_pkt_size (bnd w2 false)) with (bd_pkt_size b0).
      destruct (bd_pkt_size b0 <? 68) eqn:Esz.
      * apply (Hboot b' w1 [EvAttach false eid; EvSetTx false true; EvRet rc]); [auto|repeat constructor].
      * pose proof (Hboot b' (set_bus w1 false (mkBus eid TxEnabled []))
                      [EvAttach false eid; EvSetTx false true; EvRet rc]) as Hbt.
        apply Hbt; [|repeat constructor]. right. split; [reflexivity|]. split; [lia|cbn; auto].
    + cbn [bind]. replace (rc <? 0) with false by lia. cbn [bind wp h_emit adv].
      exists [EvAttach false eid; EvRet rc]. rewrite <- !app_assoc. split; [reflexivity|].
      apply (Hboot b' w1); [auto|repeat constructor].
  - unfold bridge_busses. cbn [w_m m_nb Z.eqb assert_ bind wp h_alloc adv].
    split; [|rewrite Ha; discriminate].
    cbn [negb bind wp h_emit adv].
    set (wb := fun x0 x1 s0 s1 => mkWorld (set_policy (set_busses (mkMctp 0 bs rx cp cs pol mx nx false) 2
                  (BLive [mkBus 0 s0 []; mkBus 0 s1 []])) RouteBridge)
                  (set_priv (set_bdbus b0 true) x0) (set_priv (set_bdbus b1 true) x1)).
    assert (forall x0 x1 s0 s1 t, s0 <> TxDisabled -> s1 <> TxDisabled ->
              (s0 = TxEnabled -> 68 <= bd_pkt_size b0 /\ In (EvSetTx false true) t) ->
              (s1 = TxEnabled -> 68 <= bd_pkt_size b1 /\ In (EvSetTx true true) t) ->
              Forall startup_ev t -> attached Bridge (mkMctp 0 bs rx cp cs pol mx nx false) t (wb x0 x1 s0 s1)) as Hboot.
    { intros x0 x1 s0 s1 t N0 N1 K0 K1 Ht. constructor; try reflexivity; try assumption.
      - constructor; cbn; try reflexivity; try congruence.
        + split; congruence.
        + intros [|] b Hb; reflexivity.
        + intros [|] b [= <-]; constructor.
        + intros [|] b [= <-]; cbn; intros Hc; [apply K1|apply K0]; destruct s0, s1; congruence.
        + intros [|]; [exact Hd1|exact Hd0].
        + repeat constructor; cbn; lia.
      - repeat split.
      - intros [|] b [= <-]; reflexivity.
      - intros [|] b [= <-]; cbn; intros E; [apply K1|apply K0]; exact E. }
    set (w1 := set_bnd _ true _).
    assert (w1 = wb (bd_priv b0) (bd_priv b1) Constructed Constructed) as E1.
    { unfold w1, wb. destruct b0, b1; reflexivity. }
    rewrite E1. clear E1 w1.
    (* one binding->start *)
    assert (forall (i : bool) x0 x1 s0 s1 t (Q : world * Z -> list event -> Prop),
       (if i then s1 else s0) = Constructed ->
       (forall x0' x1' s0' s1' rc t', 0 <= rc ->
          (i = true -> s0' = s0) -> (i = false -> s1' = s1) ->
          ((if i then s1' else s0') = Constructed \/
           ((if i then s1' else s0') = TxEnabled /\ 68 <= bd_pkt_size (if i then b1 else b0)
             /\ In (EvSetTx i true) t')) -> Forall startup_ev t' ->
          Q (wb x0' x1' s0' s1', rc) (t ++ t')) ->
       wp (adv a) (bridge_start (scripted f) (scripted_start s) (wb x0 x1 s0 s1) i) t Q) as Hst.
    { intros i x0 x1 s0 s1 t Q Hc HK. unfold bridge_start.
      destruct (bd_has_start (bnd (wb x0 x1 s0 s1) i)).
      2:{ cbn [wp]. specialize (HK x0 x1 s0 s1 0 []). rewrite app_nil_r in HK. apply HK; auto; lia. }
      unfold scripted_start. cbn [bind]. destruct (s _) as [[b' rc] en] eqn:Es.
      pose proof (Hs _ _ _ _ Es) as Hrc.
      set (w2 := set_bnd (wb x0 x1 s0 s1) i _).
      assert (w2 = wb (if i then x0 else b') (if i then b' else x1) s0 s1) as E2.
      { unfold w2, wb; destruct i; reflexivity. }
      rewrite E2. clear E2 w2. destruct en.
      - apply wp_bind; [apply adv_mono|].
        eapply (set_tx_first _ _ _ i (mkBus 0 (if i then s1 else s0) [])).
        { destruct i; reflexivity. } { destruct i; reflexivity. }
        { destruct i; cbn in *; exact Hc. }
        cbn [wp].
        assert (bd_pkt_size (bnd (wb (if i then x0 else b') (if i then b' else x1) s0 s1) i)
                = bd_pkt_size (if i then b1 else b0)) as -> by (destruct i; reflexivity).
        destruct (bd_pkt_size (if i then b1 else b0) <? 68) eqn:Esz.
        + apply HK; auto. repeat constructor.
        + destruct i; cbn in Hc; subst.
          * apply (HK x0 b' s0 TxEnabled rc [EvSetTx true true]); auto; [discriminate| |repeat constructor].
            right. split; [reflexivity|]. split; [lia|cbn; auto].
          * apply (HK b' x1 TxEnabled s1 rc [EvSetTx false true]); auto; [discriminate| |repeat constructor].
            right. split; [reflexivity|]. split; [lia|cbn; auto].
      - cbn [bind wp]. specialize (HK (if i then x0 else b') (if i then b' else x1) s0 s1 rc []).
        rewrite app_nil_r in HK. apply HK; auto. }
    apply wp_bind; [apply adv_mono|]. apply wp_bind; [apply adv_mono|].
    apply Hst; [reflexivity|]. intros x0 x1 s0 s1 rc t0 Hrc _ Hs1 Hc0 Ht0.
    specialize (Hs1 eq_refl). subst s1. cbn match. replace (rc <? 0) with false by lia.
    apply Hst; [reflexivity|]. intros x0' x1' s0' s1' rc' t1 Hrc' Hs0 _ Hc1 Ht1.
    specialize (Hs0 eq_refl). subst s0'. cbn [wp h_emit adv].
    exists (EvAttach false 0 :: EvAttach true 0 :: t0 ++ t1 ++ [EvRet rc']).
    split; [rewrite <- !app_assoc; reflexivity|]. apply Hboot.
    + destruct Hc0 as [->|[-> _]]; discriminate.
    + destruct Hc1 as [->|[-> _]]; discriminate.
    + intros E. destruct Hc0 as [E'|(_ & ? & Hin)]; [congruence|]. split; [assumption|].
      cbn. right. right. apply in_or_app. auto.
    + intros E. destruct Hc1 as [E'|(_ & ? & Hin)]; [congruence|]. split; [assumption|].
      cbn. right. right. apply in_or_app. right. apply in_or_app. auto.
    + constructor; [exact I|]. constructor; [exact I|]. apply Forall_app. split; [exact Ht0|].
      apply Forall_app. split; [exact Ht1|]. repeat constructor.
Qed.
(** ** Bookkeeping over detachments *)

Definition no_detach (t : list event) : Prop := Forall (fun e => e <> EvDetach) t.

Lemma each_no_detach pre t : each (fun _ e => e <> EvDetach) pre t -> no_detach t.
Proof. revert pre. induction t as [|e t IH]; intros pre; [constructor|]. intros [H1 H2]. constructor; [exact H1|exact (IH _ H2)]. Qed.

Lemma current_snoc tr e : current (tr ++ [e]) = match e with EvDetach => [] | _ => current tr ++ [e] end.
Proof. unfold current. rewrite fold_left_app. reflexivity. Qed.

Lemma current_app tr t : no_detach t -> current (tr ++ t) = current tr ++ t.
Proof.
  revert tr. induction t as [|e t IH]; intros tr Ht; [now rewrite !app_nil_r|]. inversion Ht; subst.
  change (e :: t) with ([e] ++ t). rewrite app_assoc, IH, current_snoc by assumption.
  destruct e; try contradiction; now rewrite <- app_assoc.
Qed.

Lemma each_current (P : list event -> event -> Prop) t : forall pre, no_detach t ->
  each P (current pre) t -> each (fun b e => P (current b) e) pre t.
Proof.
  induction t as [|e t IH]; intros pre Ht; [auto|]. inversion Ht; subst. intros [H3 H4]. split; [exact H3|].
  apply IH; [assumption|]. rewrite current_app by (constructor; [assumption|constructor]). exact H4.
Qed.

Lemma left_behind_snoc tr e n : e <> EvDetach -> left_behind (tr ++ [e]) n <-> left_behind tr n.
Proof.
  intros He. split; intros (x & y & E & H).
  - destruct y as [|z y _] using rev_ind.
    + apply app_inj_tail in E. destruct E as [_ E]. contradiction.
    + change (EvDetach :: y ++ [z]) with ((EvDetach :: y) ++ [z]) in E. rewrite app_assoc in E.
      apply app_inj_tail in E. destruct E as [-> _]. exists x, y. auto.
  - exists x, (y ++ [e]). rewrite E, <- app_assoc. auto.
Qed.

Lemma left_behind_app tr t n : no_detach t -> left_behind (tr ++ t) n <-> left_behind tr n.
Proof.
  revert tr. induction t as [|e t IH]; intros tr Ht; [now rewrite app_nil_r|]. inversion Ht; subst.
  change (e :: t) with ([e] ++ t). rewrite app_assoc, IH by assumption. now apply left_behind_snoc.
Qed.

Lemma left_behind_detach tr n : left_behind (tr ++ [EvDetach]) n <-> left_behind tr n \/ live_at tr n.
Proof.
  split.
  - intros (x & y & E & H). destruct y as [|z y _] using rev_ind.
    + apply app_inj_tail in E. destruct E as [-> _]. right. exact H.
    + change (EvDetach :: y ++ [z]) with ((EvDetach :: y) ++ [z]) in E. rewrite app_assoc in E.
      apply app_inj_tail in E. destruct E as [-> _]. left. exists x, y. auto.
  - intros [(x & y & E & H)|H].
    + exists x, (y ++ [EvDetach]). rewrite E, <- app_assoc. auto.
    + exists tr, []. auto.
Qed.

Lemma startup_no_detach t : Forall startup_ev t -> no_detach t.
Proof. intros Ht. eapply Forall_impl; [|exact Ht]. intros [] He; cbn in He; try tauto; discriminate. Qed.

(** ** What holds all along *)

Record Along (L : list Z) (tr : list event) (w : world) : Prop := mkAlong {
  al_13 : I13 L None tr w;
  al_lost : forall n, In n L <-> left_behind tr n;
  al_use : each buffer_use [] tr;
  al_acc : each accounted [] tr;
  al_ci : CI (rx_log tr) (m_ctxs (w_m w));
  al_line : each (fun b e => next_in_line (current b) e) [] tr;
  al_en : each (fun b e => only_enabled (current b) e) [] tr }.

(** On the bus. *)
Record On (m : mode) (L : list Z) (tr : list event) (w : world) : Prop := mkOn {
  on_al : Along L tr w;
  on_wf : WF Strict w;
  on_mode : mode_ok m w;
  on_fifo : I02 (current tr) w;
  on_en : I03 (current tr) w }.

(** Off the bus: nothing but return codes since. *)
Definition is_ret (e : event) : Prop := match e with EvRet _ => True | _ => False end.
Record Off (gone : bool) (L : list Z) (tr : list event) (w : world) : Prop := mkOff {
  of_al : Along L tr w;
  of_de : detached (w_m w);
  of_dims : forall i, dims_ok (bnd w i);
  of_cur : Forall is_ret (current tr);
  of_gone : gone = true -> bd_bus (bnd w false) = false /\ m_busses (w_m w) = BFreed }.

Lemma along_quiet L tr (w : world) t w' : Along L tr w ->
  no_detach t -> Forall quiet_ev t -> Forall (fun e => match e with EvTxCall _ _ _ | EvFree _ | EvEnq _ _ _ | EvAlloc _ => False | _ => True end) t ->
  m_ctxs (w_m w') = m_ctxs (w_m w) -> m_next (w_m w') = m_next (w_m w) ->
  (forall i, queued w' i = queued w i) -> Along L (tr ++ t) w'.
Proof.
  intros [A1 A2 A3 A4 A5 A6 A7] Hd Hq Hx Hc Hn Hqu. constructor.
  - revert tr A1 A2 A3 A4 A5 A6 A7 Hd Hq Hx. induction t as [|e t IH]; intros tr A1 A2 A3 A4 A5 A6 A7 Hd Hq Hx.
    + rewrite app_nil_r. destruct A1 as [Hp Hlt Hnd Hr]. constructor; auto; [|now rewrite Hn].
      unfold queued_ids. now rewrite !Hqu.
    + inversion Hd; subst. inversion Hq; subst. inversion Hx; subst.
      change (e :: t) with ([e] ++ t). rewrite app_assoc. apply IH; auto.
      * apply (I13_quiet L None tr w e w A1); try reflexivity; destruct e; cbn in *; try tauto; try reflexivity; discriminate.
      * intros n. rewrite left_behind_snoc by assumption. apply A2.
      * apply each_app. split; [exact A3|]. cbn. split; [|exact I]. destruct e; cbn in *; tauto.
      * apply each_app. split; [exact A4|]. cbn. split; [|exact I]. apply accounted_quiet; assumption.
      * rewrite rx_log_app. rewrite (rx_log_quiet [e]) by (constructor; [assumption|constructor]). now rewrite app_nil_r.
      * apply each_app. split; [exact A6|]. cbn. split; [|exact I]. destruct e; cbn in *; tauto.
      * apply each_app. split; [exact A7|]. cbn. split; [|exact I]. destruct e; cbn in *; tauto.
  - intros n. rewrite left_behind_app by assumption. apply A2.
  - apply each_app. split; [exact A3|]. apply each_trivial. intros pre e Hin. rewrite Forall_forall in Hx, Hq.
    specialize (Hx e Hin). specialize (Hq e Hin). destruct e; cbn in *; tauto.
  - apply each_app. split; [exact A4|]. apply each_quiet; [exact Hq|apply accounted_quiet].
  - rewrite rx_log_app, (rx_log_quiet _ Hq), app_nil_r, Hc. exact A5.
  - apply each_app. split; [exact A6|]. apply each_trivial. intros pre e Hin. rewrite Forall_forall in Hx, Hq.
    specialize (Hx e Hin). specialize (Hq e Hin). destruct e; cbn in *; tauto.
  - apply each_app. split; [exact A7|]. apply each_trivial. intros pre e Hin. rewrite Forall_forall in Hx, Hq.
    specialize (Hx e Hin). specialize (Hq e Hin). destruct e; cbn in *; tauto.
Qed.

(** Traffic. *)
Lemma on_hist m L tr (w : world) l t w' : On m L tr w -> hist w l t w' -> WF Strict w' -> On m L (tr ++ t) w'.
Proof.
  intros [[A1 A2 A3 A4 A5 A6 A7] Hw Hm Hf He] Hh Hw'.
  pose proof (each_no_detach _ _ (hist_no_detach _ _ _ _ Hw Hh)) as Hd.
  destruct (hist_buffers L _ _ _ _ Hw Hh _ A1) as [B1 B2].
  destruct (hist_fifo _ _ _ _ Hw Hh _ Hf) as [F1 F2].
  destruct (hist_enabled _ _ _ _ Hw Hh _ He) as [E1 E2].
  destruct (hist_CI m _ _ _ _ Hh tr Hw Hm A5) as [C1 C2].
  constructor; [constructor| | | |].
  - exact B2.
  - intros n. rewrite left_behind_app by exact Hd. apply A2.
  - apply each_app. auto.
  - apply each_app. auto.
  - exact C2.
  - apply each_app. split; [exact A6|]. apply each_current; [exact Hd|exact F1].
  - apply each_app. split; [exact A7|]. apply each_current; [exact Hd|exact E1].
  - exact Hw'.
  - eapply hist_mode; eassumption.
  - rewrite current_app by exact Hd. exact F2.
  - rewrite current_app by exact Hd. exact E2.
Qed.

Lemma detached_queued (w : world) i : detached (w_m w) -> queued w i = [].
Proof. intros D. unfold queued. destruct (m_busses (w_m w)) eqn:E; try reflexivity. destruct (de_busses _ D _ E). Qed.
Lemma detached_bget (w : world) i : detached (w_m w) -> bget w i = None.
Proof. intros D. unfold bget. destruct (m_busses (w_m w)) eqn:E; try reflexivity. destruct (de_busses _ D _ E). Qed.

(** Registration. *)
Lemma wp_off_attach (Hs : starts s) m gone L tr (w : world) : Off gone L tr w ->
  wp (adv a) (xop f s appl w (boot_op m)) tr (fun w' tr' => On m L tr' w').
Proof.
  intros [Hal Hde Hdi Hcu _]. pose proof (wp_attach Hs m (w_m w) (bnd w false) (bnd w true) tr Hde (Hdi false) (Hdi true)) as H.
  replace (mkWorld (w_m w) (bnd w false) (bnd w true)) with w in H by (destruct w; reflexivity).
  eapply wp_mono; [apply adv_mono| |exact H].
  intros w' tr' (t & -> & [B1 B2 B3 B4 B5 B6 B7]).
  assert (forall i, queued w' i = []) as Hq0.
  { intros i. rewrite queued_bget. destruct (bget w' i) eqn:E; [|reflexivity]. now rewrite (B6 _ _ E). }
  pose proof (startup_no_detach _ B3) as Hd.
  constructor.
  - apply (along_quiet L tr w t w' Hal Hd (startup_quiet _ B3)).
    + eapply Forall_impl; [|exact B3]. intros []; cbn; tauto.
    + exact B4.
    + exact B5.
    + intros i. rewrite (detached_queued w i Hde). apply Hq0.
  - exact B1.
  - exact B2.
  - intros i. rewrite current_app, enqueued_app, settled_app, Hq0, (startup_enqueued _ i B3), (startup_settled _ i B3) by exact Hd.
    clear - Hcu. induction Hcu as [|e l He Hl IH]; [reflexivity|]. destruct e; try contradiction. exact IH.
  - intros i b Hb Hst. pose proof (B7 _ _ Hb Hst) as Hin. rewrite current_app by exact Hd.
    clear - B3 Hin. revert Hin. generalize (current tr). intros c. induction t as [|e t IH] using rev_ind; [intros []|].
    apply Forall_app in B3. destruct B3 as [Ht He]. inversion He; subst.
    intros Hin. rewrite app_assoc, last_set_snoc. apply in_app_or in Hin. destruct Hin as [Hin|[->|[]]].
    + rewrite (IH Ht Hin). destruct e; try reflexivity. cbn in *. destruct enable; [|tauto]. destruct (eqb i bus); reflexivity.
    + cbn. now rewrite eqb_reflx.
Qed.

(** mctp_unregister_bus, for an endpoint *)
Lemma wp_on_detach eid L tr (w : world) : On (Endpoint eid) L tr w ->
  wp (adv a) (xop f s appl w OpUnregister) tr (fun w' tr' => exists L', Off true L' tr' w').
Proof.
  intros [[A1 A2 A3 A4 A5 A6 A7] Hw Hm Hf He]. unfold xop, exec_op. rewrite (wf_dead _ _ Hw). unfold unregister_bus.
  pose proof (wf_b0 _ _ Hw) as H0. unfold bget in H0.
  destruct (m_busses (w_m w)) as [|l|] eqn:El; try congruence. cbn [wp h_emit adv].
  set (w' := set_m _ _). exists (L ++ queued_ids w).
  assert (forall i, queued w' i = []) as Hq by (intros i; reflexivity).
  assert (m_next (w_m w') = m_next (w_m w)) as Hn by reflexivity.
  constructor.
  - constructor.
    + destruct A1 as [Hp Hlt Hnd Hr]. constructor.
      * rewrite allocs_app, frees_app. cbn [allocs frees flat_map]. rewrite !app_nil_r, Hp.
        replace (queued_ids w') with (@nil Z) by reflexivity. unfold held. cbn [held_ids]. rewrite !app_nil_r. reflexivity.
      * rewrite allocs_app. cbn [allocs flat_map]. rewrite app_nil_r, Hn. exact Hlt.
      * rewrite allocs_app. cbn [allocs flat_map]. rewrite app_nil_r. exact Hnd.
      * intros i lo n bs. rewrite frees_app. cbn [frees flat_map]. rewrite app_nil_r, in_app_iff. intros [Hin|[Hin|[]]]; [eauto|discriminate].
    + intros n. rewrite left_behind_detach, <- A2, in_app_iff. split.
      * intros [H|H]; [auto|right]. apply (I13_live _ _ _ _ _ A1). rewrite in_app_iff. auto.
      * intros [H|[H1 H2]]; [auto|]. apply (Permutation_in _ (i13_perm _ _ _ _ A1)) in H1.
        unfold held in H1. cbn [held_ids] in H1. rewrite app_nil_r, !in_app_iff in H1. tauto.
    + apply each_app. split; [exact A3|]. cbn. auto.
    + apply each_app. split; [exact A4|]. cbn. auto.
    + rewrite rx_log_app. cbn. rewrite app_nil_r. exact A5.
    + apply each_app. split; [exact A6|]. cbn. auto.
    + apply each_app. split; [exact A7|]. cbn. auto.
  - constructor; try reflexivity.
    + exact (wf_dead _ _ Hw).
    + intros l'. discriminate.
    + exact (wf_ctxs _ _ Hw).
    + exact (wf_max _ _ Hw).
  - intros [|]; [exact (wf_dims _ _ Hw true)|]. exact (wf_dims _ _ Hw false).
  - rewrite current_snoc. constructor.
  - intros _. split; reflexivity.
Qed.

(** What is done while away. *)
Lemma wp_off_op gone L tr (w : world) o : Off gone L tr w -> away o ->
  wp (adv a) (xop f s appl w o) tr (fun w' tr' => Off gone L tr' w').
Proof.
  intros [Hal Hde Hdi Hcu Hgo] Ho. unfold xop, exec_op. rewrite (de_dead _ Hde).
  assert (forall x : world, m_ctxs (w_m x) = m_ctxs (w_m w) -> m_next (w_m x) = m_next (w_m w) ->
    m_busses (w_m x) = m_busses (w_m w) -> detached (w_m x) -> (forall i, dims_ok (bnd x i)) ->
    bd_bus (bnd x false) = bd_bus (bnd w false) -> Off gone L tr x) as Hsame.
  { intros x E1 E2 E3 E4 E5 E6. constructor; [|exact E4|exact E5|exact Hcu|rewrite E6, E3; exact Hgo].
    rewrite <- (app_nil_r tr). apply (along_quiet L tr w [] x Hal); try constructor; try assumption.
    intros i. unfold queued. now rewrite E3. }
  destruct o; cbn [away] in Ho; try contradiction; cbn [wp].
  - apply Hsame; try reflexivity; [|exact Hdi]. destruct Hde; constructor; assumption.
  - apply Hsame; try reflexivity; [|exact Hdi]. destruct Hde; constructor; assumption.
  - apply Hsame; try reflexivity; [|exact Hdi]. destruct Hde; constructor; assumption.
  - assert (forall rc, Off gone L (tr ++ [EvRet rc]) w) as Hret.
    { intros rc. constructor; [|exact Hde|exact Hdi| |exact Hgo].
      - apply (along_quiet L tr w [EvRet rc] w Hal); repeat constructor; discriminate.
      - rewrite current_snoc. apply Forall_app. split; [exact Hcu|repeat constructor]. }
    unfold message_tx. rewrite (de_nb _ Hde). cbn [Z.eqb].
    destruct (negb _); cbn [bind wp h_emit adv]; apply Hret.
  - apply Hsame; try (destruct i; reflexivity).
    + destruct i; cbn; destruct Hde; constructor; assumption.
    + intros j. rewrite bnd_set_bnd. destruct (Bool.eqb_spec i j); [subst|]; apply Hdi.
  - apply Hsame; try (destruct i; reflexivity).
    + destruct i; cbn; destruct Hde; constructor; assumption.
    + intros j. rewrite bnd_set_bnd. destruct (Bool.eqb_spec i j); [subst|apply Hdi].
      destruct (Hdi j) as (? & ? & ?). split; [cbn; lia|auto].
Qed.

Lemma wp_off_ops gone L rest (Q : world -> list event -> Prop) : forall l tr (w : world), Off gone L tr w -> Forall away l ->
  (forall w' tr', Off gone L tr' w' -> wp (adv a) (xops f s appl w' rest) tr' Q) ->
  wp (adv a) (xops f s appl w (l ++ rest)) tr Q.
Proof.
  induction l as [|o l IH]; intros tr w Hw Hl HQ; [exact (HQ _ _ Hw)|]. unfold xops. cbn [List.app exec].
  inversion Hl; subst.
  eapply wp_call; [apply adv_mono|exact (wp_off_op gone L tr w o Hw ltac:(assumption))|]. intros w1 tr1 H1'.
  apply (IH tr1 w1 H1'); assumption.
Qed.

Lemma wp_on_ops (Hf : polite f) m L rest (Q : world -> list event -> Prop) : forall l tr (w : world), On m L tr w ->
  Forall (traffic m) l -> (forall w' tr', On m L tr' w' -> wp (adv a) (xops f s appl w' rest) tr' Q) ->
  wp (adv a) (xops f s appl w (l ++ rest)) tr Q.
Proof.
  induction l as [|o l IH]; intros tr w Hw Hl HQ; [exact (HQ _ _ Hw)|]. unfold xops. cbn [List.app exec].
  inversion Hl; subst.
  eapply wp_call; [apply adv_mono| |].
  - apply (wp_exec_op f s appl a eq_refl Hf m w o tr (on_wf _ _ _ _ Hw) (on_mode _ _ _ _ Hw)). assumption.
  - intros w1 tr1 (t & -> & Hr & Hw1). apply IH; [|assumption|assumption].
    rewrite <- (app_nil_r t). eapply on_hist; [exact Hw|eapply HCons; [exact Hr|exact Hw1|constructor]|exact Hw1].
Qed.

Lemma wp_stays (Hf : polite f) (Hs : starts s) rest (Q : world -> list event -> Prop) : forall l gone L tr (w : world),
  Off gone L tr w ->
  Forall (fun x => let '(eid, on, off) := x in Forall (traffic (Endpoint eid)) on /\ Forall away off) l ->
  (forall L' w' tr', Off (match l with [] => gone | _ => true end) L' tr' w' -> wp (adv a) (xops f s appl w' rest) tr' Q) ->
  wp (adv a) (xops f s appl w (stays_ops l ++ rest)) tr Q.
Proof.
  induction l as [|[[eid on] off] l IH]; intros gone L tr w Hw Hl HQ; [exact (HQ L _ _ Hw)|].
  inversion Hl as [|? ? Hx Hl']; subst. cbn in Hx. destruct Hx as [Hon Hoff]. unfold stays_ops. cbn [flat_map]. fold (stays_ops l).
  rewrite <- app_assoc. cbn [List.app]. unfold xops at 1. cbn [exec].
  eapply wp_call; [apply adv_mono|exact (wp_off_attach Hs (Endpoint eid) gone L tr w Hw)|].
  intros w1 tr1 H1. change (wp (adv a) (xops f s appl w1 ((on ++ OpUnregister :: off) ++ stays_ops l ++ rest)) tr1 Q).
  rewrite <- app_assoc. apply (wp_on_ops Hf (Endpoint eid) L); [exact H1|exact Hon|]. intros w2 tr2 H2.
  cbn [List.app]. unfold xops at 1. cbn [exec].
  eapply wp_call; [apply adv_mono|exact (wp_on_detach eid L tr2 w2 H2)|]. intros w3 tr3 (L' & H3).
  change (wp (adv a) (xops f s appl w3 (off ++ stays_ops l ++ rest)) tr3 Q).
  apply (wp_off_ops true L'); [exact H3|exact Hoff|]. intros w4 tr4 H4.
  apply (IH true L'); [exact H4|exact Hl'|]. intros L5 w5 tr5 H5. apply (HQ L5). destruct l; exact H5.
Qed.

Lemma off_start b0 b1 : dims_ok b0 -> dims_ok b1 -> Off false [] [] (fresh b0 b1).
Proof.
  intros H0 H1. constructor.
  - constructor; try exact I.
    + constructor; try (cbn; tauto); [reflexivity|constructor].
    + intros n. split; [intros []|]. intros (x & y & E & _). destruct x; discriminate.
    + exact CI_fresh.
  - constructor; [reflexivity|reflexivity|discriminate| |cbn; unfold MCTP_MAX_MESSAGE_SIZE; lia].
    change (Forall wf_ctx (repeat ctx0 16)). repeat constructor; cbn; lia.
  - intros [|]; assumption.
  - constructor.
  - discriminate.
Qed.

(** ** C86 *)

Section Wander.
Context (b0 b1 : binding B) (before : list (@op B)) (l : list (@stay B)).
Hypothesis Hwa : wanders f s b0 b1 before l.

Lemma run_destroy_frees e n tr (w : world) w' n' t : run e n tr (destroy w) = Done w' n' (tr ++ t) -> no_detach t.
Proof.
  assert (forall cs n tr x n' tr', run e n tr (free_ctx_bufs cs) = Done x n' tr' -> tr' = tr) as Hc.
  { induction cs as [|c cs IH]; intros k tr0 x k' tr'; cbn [free_ctx_bufs].
    - intros [= <- <- <-]. reflexivity.
    - destruct (c_buf c); cbn [bind]; try discriminate; rewrite run_bind;
        (destruct (run e k tr0 (free_ctx_bufs cs)) as [y k1 t1|] eqn:E; [|discriminate]); apply IH in E; subst;
        intros [= <- <- <-]; reflexivity. }
  assert (forall m k n tr x n' tr', run e n tr (destroy_busses m k) = Done x n' tr' -> exists t, tr' = tr ++ t /\ no_detach t) as Hb.
  { intros m. induction k as [|k IH]; intros k0 tr0 x k' tr'; cbn [destroy_busses].
    - intros [= <- <- <-]. exists []. split; [now rewrite app_nil_r|constructor].
    - destruct (m_busses m) as [|bl|]; try discriminate. destruct (nth_error bl k); cbn [deref bind run]; [|discriminate].
      rewrite run_bind, run_free_packets. intros E. apply IH in E. destruct E as (t1 & -> & Ht). eexists.
      rewrite <- app_assoc. split; [reflexivity|]. apply Forall_app. split; [|exact Ht].
      apply Forall_forall. intros x0 Hin. apply in_map_iff in Hin. destruct Hin as (? & <- & _). discriminate. }
  unfold destroy. rewrite run_bind. destruct (run e n tr (free_ctx_bufs _)) as [cs n1 t1|] eqn:E1; [|discriminate].
  apply Hc in E1. subst t1. rewrite run_bind. destruct (run e n1 tr (destroy_busses _ _)) as [u n2 t2|] eqn:E2; [|discriminate].
  apply Hb in E2. destruct E2 as (t1 & -> & Ht). destruct (m_busses (w_m w)); cbn [run]; try discriminate;
    intros [= _ _ E]; apply app_inv_head in E; now subst.
Qed.

Lemma wander_off : always no_oom (xops f s appl (fresh b0 b1) (before ++ stays_ops l))
  (fun w tr => exists L, Off (match l with [] => false | _ => true end) L tr w).
Proof.
  destruct Hwa as [Hf Hs Hd0 Hd1 Hb Hl]. apply adv_always.
  apply (wp_off_ops false []); [apply off_start; assumption|exact Hb|]. intros w1 tr1 H1.
  rewrite <- (app_nil_r (stays_ops l)).
  apply (wp_stays Hf Hs _ _ l false [] tr1 w1 H1 Hl). intros L2 w2 tr2 H2. cbn. exists L2. exact H2.
Qed.

Lemma wander_on m now : Forall (traffic m) now ->
  always no_oom (xops f s appl (fresh b0 b1) (before ++ stays_ops l ++ boot_op m :: now))
    (fun w tr => exists L, On m L tr w).
Proof.
  intros Hnow. destruct Hwa as [Hf Hs Hd0 Hd1 Hb Hl]. apply adv_always.
  apply (wp_off_ops false []); [apply off_start; assumption|exact Hb|]. intros w1 tr1 H1.
  apply (wp_stays Hf Hs _ _ l false [] tr1 w1 H1 Hl). intros L2 w2 tr2 H2.
  unfold xops at 1. cbn [exec]. eapply wp_call; [apply adv_mono|exact (wp_off_attach Hs m _ L2 tr2 w2 H2)|].
  intros w3 tr3 H3. change (wp (adv a) (xops f s appl w3 now) tr3 (fun w tr => exists L, On m L tr w)).
  rewrite <- (app_nil_r now). apply (wp_on_ops Hf m L2); [exact H3|exact Hnow|]. intros w tr H. cbn. exists L2. exact H.
Qed.

(** Any number of stays, then one more, as an endpoint or as a bridge: nothing faults.
    Buffers are released once, and those never released are the ones still queued and the
    ones left behind at an earlier detachment.  Every message delivered is accounted for by
    packets received (in whatever stays).  In each stay the transmit queue is FIFO and
    loss-free and the binding is only called while enabled in that stay. *)
Theorem C86_again m now : Forall (traffic m) now ->
  always no_oom (xops f s appl (fresh b0 b1) (before ++ stays_ops l ++ boot_op m :: now)) (fun w tr =>
    at_each buffer_use tr /\ NoDup (allocs tr) /\ NoDup (frees tr) /\
    (exists lost, Permutation (allocs tr) (frees tr ++ lost ++ map fst (queued w false) ++ map fst (queued w true)) /\
       forall n, In n lost <-> left_behind tr n) /\
    at_each accounted tr /\
    at_each (fun b e => next_in_line (current b) e) tr /\
    (forall i, enqueued i (current tr) = settled i (current tr) ++ queued w i) /\
    at_each (fun b e => only_enabled (current b) e) tr).
Proof.
  intros Hnow. eapply always_mono; [|exact (wander_on m now Hnow)]. intros w tr (L2 & [Hal Hw Hm Hfi Hen]).
  destruct Hal as [A1 A2 A3 A4 A5 A6 A7].
  split; [apply each_at_each, A3|]. split; [exact (i13_nodup _ _ _ _ A1)|].
  pose proof (i13_perm _ _ _ _ A1) as Hp. unfold held in Hp. cbn [held_ids] in Hp. rewrite app_nil_r in Hp.
  split.
  { pose proof (Permutation_NoDup Hp (i13_nodup _ _ _ _ A1)) as Hn. clear - Hn.
    induction (frees tr); [constructor|]. cbn in Hn. inversion Hn; subst. constructor; [|auto].
    intros Hin. apply H1. apply in_or_app; auto. }
  split; [exists L2; split; [exact Hp|exact A2]|].
  split; [apply each_at_each, A4|]. split; [apply each_at_each, A6|]. split; [exact Hfi|]. apply each_at_each, A7.
Qed.

(** mctp_destroy at the end releases everything but what was left behind. *)
Theorem C86_destroy m now : Forall (traffic m) now ->
  always no_oom (xops f s appl (fresh b0 b1) (before ++ stays_ops l ++ boot_op m :: now ++ [OpDestroy])) (fun w tr =>
    NoDup (frees tr) /\
    (exists lost, Permutation (allocs tr) (frees tr ++ lost) /\ forall n, In n lost <-> left_behind tr n) /\
    Forall (fun c => c_buf c <> PLive) (m_ctxs (w_m w)) /\ m_busses (w_m w) = BFreed /\ m_dead (w_m w) = true).
Proof.
  intros Hnow e He. unfold xops.
  replace (before ++ stays_ops l ++ boot_op m :: now ++ [OpDestroy])
    with ((before ++ stays_ops l ++ boot_op m :: now) ++ [@OpDestroy B]) by (rewrite <- !app_assoc; reflexivity).
  rewrite run_exec_app. pose proof (wander_on m now Hnow e He) as H. unfold xops in H.
  destruct (run e 0 [] _) as [w n tr|]; [|contradiction]. destruct H as (L & [[A1 A2 A3 A4 A5 A6 A7] Hw Hm Hfi Hen]).
  cbn [exec]. rewrite run_bind. unfold exec_op. rewrite (wf_dead _ _ Hw).
  destruct (run_destroy e n tr w Hw) as (w' & t' & Hr & Ha & Hf & Hc & Hb & Hd).
  pose proof (run_destroy_frees e n tr w _ _ _ Hr) as Hnd. rewrite Hr. cbn [run].
  pose proof (i13_perm _ _ _ _ A1) as Hp. unfold held in Hp. cbn [held_ids] in Hp. rewrite app_nil_r in Hp.
  assert (Permutation (allocs (tr ++ t')) (frees (tr ++ t') ++ L)) as Hp'.
  { rewrite allocs_app, frees_app, Ha, app_nil_r, Hp, <- app_assoc. apply Permutation_app_head.
    rewrite Permutation_app_comm. apply Permutation_app_tail. now symmetry. }
  assert (NoDup (frees (tr ++ t'))) as Hn.
  { pose proof (i13_nodup _ _ _ _ A1) as Hn. rewrite <- (app_nil_r (allocs tr)), <- Ha, <- allocs_app in Hn.
    pose proof (Permutation_NoDup Hp' Hn) as Hn'. clear - Hn'.
    induction (frees (tr ++ t')); [constructor|]. cbn in Hn'. inversion Hn'; subst. constructor; [|auto].
    intros Hin. apply H1. apply in_or_app; auto. }
  split; [exact Hn|]. split; [|auto]. exists L. split; [exact Hp'|]. intros k. rewrite A2.
  rewrite left_behind_app by exact Hnd. reflexivity.
Qed.

(** A node that is on no bus accepts messages and drops them: mctp_message_tx reports
    success, nothing is queued or sent, nothing changes. *)
Theorem C86_away e n tr (w : world) eid to tag msg : env_ok no_oom e ->
  run e 0 [] (xops f s appl (fresh b0 b1) (before ++ stays_ops l)) = Done w n tr -> 0 <= tag <= 255 ->
  forall e', run e' n tr (xop f s appl w (OpTx eid to tag msg)) =
    Done w n (tr ++ [EvRet (if tag <=? 7 then 0 else - EINVAL)]).
Proof.
  intros He Hr Htag e'. pose proof (wander_off e He) as H. rewrite Hr in H. destruct H as (L & [_ Hde _ _ _]).
  unfold xop, exec_op. rewrite (de_dead _ Hde). unfold message_tx. rewrite (de_nb _ Hde). cbn [Z.eqb].
  assert ((Z.land tag 7 =? tag) = (tag <=? 7)) as ->.
  { pose proof (Z.land_ones tag 3 ltac:(lia)) as E. change (Z.ones 3) with 7 in E. change (2 ^ 3) with 8 in E. rewrite E.
    pose proof (Z.mod_pos_bound tag 8 ltac:(lia)). destruct (tag <=? 7) eqn:E7.
    - apply Z.eqb_eq, Z.mod_small. lia.
    - apply Z.eqb_neq. lia. }
  destruct (tag <=? 7); reflexivity.
Qed.

(** Once it has left a bus: a received packet runs into an assertion, enabling or disabling
    the binding dereferences NULL, and unregistering or destroying frees the bus again. *)
Theorem C86_away_faults e n tr (w : world) p en : env_ok no_oom e -> l <> [] ->
  run e 0 [] (xops f s appl (fresh b0 b1) (before ++ stays_ops l)) = Done w n tr ->
  forall e', (exists t, run e' n tr (xop f s appl w (OpRx false p)) = Fault AssertFail t) /\
    (exists t, run e' n tr (xop f s appl w (OpSetTx false en)) = Fault NullDeref t) /\
    (exists t, run e' n tr (xop f s appl w OpUnregister) = Fault DoubleFree t) /\
    (exists t, run e' n tr (xop f s appl w OpDestroy) = Fault DoubleFree t).
Proof.
  intros He Hne Hr e'. pose proof (wander_off e He) as H. rewrite Hr in H. destruct H as (L & [_ Hde _ _ Hgo]).
  destruct Hgo as [Hb Hf]; [destruct l; congruence|].
  unfold xop, exec_op. rewrite (de_dead _ Hde). repeat split.
  - unfold bus_rx. change (bd_bus (bnd (set_m w (set_next (w_m w) (m_next (w_m w) + 1))) false)) with (bd_bus (bnd w false)).
    rewrite Hb. eexists. reflexivity.
  - unfold set_tx_enabled. rewrite Hb. eexists. reflexivity.
  - unfold unregister_bus. rewrite Hf. eexists. reflexivity.
  - unfold destroy. rewrite run_bind. destruct (run_free_ctx_bufs e' n tr _ (de_ctxs _ Hde)) as (cs & -> & _).
    rewrite run_bind, (de_nb _ Hde), Hf. eexists. reflexivity.
Qed.

(** A bridge taken apart: mctp_unregister_bus with one of the two bindings frees the table
    of both.  It succeeds; the other binding then keeps a dangling pointer: a packet it
    receives, or enabling or disabling it, reads released memory. *)
Theorem C86_bridge_off now e n tr (w : world) p en : env_ok no_oom e -> Forall (traffic Bridge) now ->
  run e 0 [] (xops f s appl (fresh b0 b1) (before ++ stays_ops l ++ boot_op Bridge :: now)) = Done w n tr ->
  exists w', run e n tr (xop f s appl w OpUnregister) = Done w' n (tr ++ [EvDetach]) /\
  forall e', (exists t, run e' n (tr ++ [EvDetach]) (xop f s appl w' (OpRx true p)) = Fault UseAfterFree t) /\
    (exists t, run e' n (tr ++ [EvDetach]) (xop f s appl w' (OpSetTx true en)) = Fault UseAfterFree t) /\
    (exists t, run e' n (tr ++ [EvDetach]) (xop f s appl w' (OpRx false p)) = Fault AssertFail t) /\
    (exists t, run e' n (tr ++ [EvDetach]) (xop f s appl w' OpDestroy) = Fault DoubleFree t).
Proof.
  intros He Hnow Hr. pose proof (wander_on Bridge now Hnow e He) as H. rewrite Hr in H.
  destruct H as (L & [_ Hw Hm _ _]). destruct Hm as (Hp & H0 & H1).
  destruct (bget w true) as [b|] eqn:E1; [|discriminate]. pose proof (wf_bd _ _ Hw _ _ E1) as Hb1.
  unfold xop at 1, exec_op. rewrite (wf_dead _ _ Hw). unfold unregister_bus. unfold bget in E1.
  destruct (m_busses (w_m w)) as [|bl|] eqn:El; try discriminate. cbn [run]. eexists. split; [reflexivity|].
  set (w' := set_m _ _).
  assert (m_dead (w_m w') = false) as Ed by exact (wf_dead _ _ Hw).
  assert (bd_bus (bnd w' true) = true) as Et by exact Hb1.
  assert (m_busses (w_m w') = BFreed) as Ef by reflexivity.
  assert (m_nb (w_m w') = 0) as En by reflexivity.
  assert (bd_bus (bnd w' false) = false) as Eo by reflexivity.
  assert (Forall wf_ctx (m_ctxs (w_m w'))) as Ec by exact (wf_ctxs _ _ Hw).
  clearbody w'. clear - Ed Et Ef En Ec Eo w'.
  intros e'. unfold xop, exec_op. rewrite Ed. repeat split.
  - unfold bus_rx. change (bd_bus (bnd (set_m w' (set_next (w_m w') (m_next (w_m w') + 1))) true)) with (bd_bus (bnd w' true)).
    rewrite Et. unfold get_bus. cbn [w_m set_m m_busses set_next]. rewrite Ef. eexists. reflexivity.
  - unfold set_tx_enabled. rewrite Et. unfold get_bus. rewrite Ef. eexists. reflexivity.
  - unfold bus_rx. change (bd_bus (bnd (set_m w' (set_next (w_m w') (m_next (w_m w') + 1))) false)) with (bd_bus (bnd w' false)).
    rewrite Eo. eexists. reflexivity.
  - unfold destroy. rewrite run_bind. destruct (run_free_ctx_bufs e' n (tr ++ [EvDetach]) _ Ec) as (cs & -> & _).
    rewrite run_bind, En, Ef. eexists. reflexivity.
Qed.
End Wander.
End Again.

(** ** A concrete case *)

Definition first_half : list Z := packet 8 9 true false 0 true 1 [1; 2; 3].
Definition second_half : list Z := packet 8 9 false true 1 true 1 [4; 5].

(** Two stays: in the first, half a message arrives, and a message is queued on a disabled
    binding; in between a message is sent by nobody. *)
Definition two_stays : list (@stay unit) :=
  [(8, [OpSetRx true; rx first_half; OpSetTx false true; OpSetTx false false; OpTx 9 true 0 [7; 7]], [OpTx 9 true 0 [6; 6; 6]])].
Definition again (now : list (@op unit)) : prog (world unit) :=
  xops accept ok_start no_app (fresh (plain_binding tt) (plain_binding tt))
    ([OpSetMax 4096] ++ stays_ops two_stays ++ boot_op (Endpoint 8) :: now).

Example C86_case : wanders accept ok_start (plain_binding tt) (plain_binding tt) [OpSetMax 4096] two_stays /\
  Forall (@traffic unit (Endpoint 8)) [rx second_half; OpSetTx false true; OpTx 9 true 0 [5]].
Proof.
  split; [constructor|].
  - exact accept_polite.
  - apply ok_start_starts.
  - apply plain_dims.
  - apply plain_dims.
  - repeat constructor; cbn; lia.
  - unfold two_stays. constructor; [|constructor]. split; [|repeat constructor; cbn; lia].
    repeat constructor; cbn; try lia; try discriminate.
  - repeat constructor; cbn; try lia; try discriminate.
Qed.

(** The second half arrives in the next stay: the message is delivered whole.  What was
    queued in the first stay is not sent, and never released; what was sent in between is
    gone without a trace. *)
Theorem C86_resumed_case : can_finish no_oom (again [rx second_half; OpSetTx false true; OpTx 9 true 0 [5]]) (fun w tr =>
  In (EvRx 9 true 1 [1; 2; 3; 4; 5]) tr /\ map d_msg (deliveries tr) = [[1; 2; 3; 4; 5]] /\
  (exists n, In n (allocs tr) /\ ~ In n (frees tr) /\ left_behind tr n) /\
  forall i n bs, In (EvTxCall i n bs) tr -> skipn 4 bs = [5]).
Proof.
  exists calm. do 3 eexists. split; [apply calm_no_oom|]. split; [vm_compute; reflexivity|].
  match goal with |- context [In (EvRx _ _ _ _) ?t] => set (tr := t) end.
  split; [cbn; tauto|]. split; [vm_compute; reflexivity|]. split.
  - exists 1. split; [cbn; tauto|]. split; [cbn; intuition discriminate|].
    unfold tr. match goal with |- left_behind ?t _ => change (left_behind (firstn 10 t ++ EvDetach :: skipn 11 t) 1) end.
    eexists _, _. split; [reflexivity|]. split; cbn; intuition discriminate.
  - intros i n bs. cbn [tr In]. intros Hin.
    repeat destruct Hin as [Hin|Hin]; try discriminate; [injection Hin as <- <- <-; reflexivity|contradiction].
Qed.

Theorem C86_bridge_case : can_fault no_oom (xops accept ok_start no_app (fresh (plain_binding tt) (plain_binding tt))
  [OpBridge; OpRx true (pkt first_half); OpUnregister; OpRx true (pkt second_half)]) UseAfterFree.
Proof. exists calm. eexists. split; [apply calm_no_oom|]. vm_compute. reflexivity. Qed.
