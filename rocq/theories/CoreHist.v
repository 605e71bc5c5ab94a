(** CoreHist: histories of a core with an arbitrary binding. *)
From Verif Require Import Base Lists Prog PktBuf Core WP Walk CoreRel WalkCore.

(** ** The environment of the core: an arbitrary binding

    A binding is any function that says, from its state, what binding->tx does
    with a packet: its new state, the packet as it leaves it, the return code, and
    whether it calls mctp_binding_set_tx_enabled(false).  The state may hold an
    oracle, so every sequence of outcomes is covered. *)
Definition txfun (B : Type) := B -> pktbuf -> B * pktbuf * Z * bool.
Definition startfun (B : Type) := B -> B * Z * bool.
Definition scripted {B} (f : txfun B) : B -> pktbuf -> prog (B * pktbuf * Z * bool) :=
  fun b p => Ret (f b p).
Definition scripted_start {B} (s : startfun B) : B -> prog (B * Z * bool) := fun b => Ret (s b).

(** The binding does not touch a packet that it neither accepts (0) nor rejects
    for good (-EMSGSIZE). *)
Definition polite {B} (f : txfun B) : Prop :=
  forall b p b' p' rc dis, f b p = (b', p', rc, dis) ->
  pk_id p' = pk_id p /\ (rc <> 0 -> rc <> - EMSGSIZE -> p' = p).

Definition starts {B} (s : startfun B) : Prop :=
  forall b b' rc en, s b = (b', rc, en) -> 0 <= rc.

(** ** Histories *)

Inductive mode := Endpoint (eid : Z) | Bridge.
Definition boot_op {B} (m : mode) : @op B :=
  match m with Endpoint eid => OpRegister eid | Bridge => OpBridge end.
Definition mode_bus (m : mode) (i : bool) : Prop := i = true -> m = Bridge.

(** Traffic: what the application and the binding(s) may do once the bus exists. *)
Definition traffic {B} (m : mode) (o : @op B) : Prop :=
  match o with
  | OpSetMax n => 0 <= n < 2 ^ 64
  | OpSetCapture _ | OpSetRx _ | OpTx _ _ _ _ | OpPriv _ _ => True
  | OpRx i p => mode_bus m i /\ wf_pkt p
  | OpSetTx i _ => mode_bus m i
  | OpPktSize _ n => 68 <= n < 2 ^ 63
  | OpRegister _ | OpUnregister | OpBridge | OpDestroy => False
  end.

Section Hist.
Context {B : Type}.
Variable f : txfun B.
Variable s : startfun B.
Variable appl : event -> list txreq.
Variable a : assm.
Notation world := (world B).

Definition no_fail : Prop := may_oom a = false.

Definition xop (w : world) (o : op) : prog world := exec_op (scripted f) (scripted_start s) appl w o.
Definition xops (w : world) (l : list op) : prog world := exec (scripted f) (scripted_start s) appl w l.

Definition Jt : binding B -> binding B -> option bus_state -> option bus_state -> list event -> Prop :=
  fun _ _ _ _ _ => True.

Lemma Jt_emit e (w : world) g (Q : list event -> Prop) : core_ev e -> Jw Jt w g ->
  (forall g', Jw Jt w g' -> id g' = id g ++ [e] -> Q g') -> h_emit (adv a) e g Q.
Proof. intros _ _ HQ. apply HQ; [exact I|reflexivity]. Qed.

Lemma Jt_alloc (Ha : no_fail) (w : world) g (Q : bool -> list event -> Prop) : Jw Jt w g ->
  (forall g', Jw Jt w g' -> id g' = id g -> Q true g') -> h_alloc (adv a) g Q.
Proof.
  intros _ HQ. split; [apply HQ; [exact I|reflexivity]|]. rewrite Ha. discriminate.
Qed.

Lemma Jt_btx (Hf : polite f) (w : world) i b p bytes g
  (Q : B * pktbuf * Z * bool -> list event -> Prop) :
  WF Strict w -> Jw Jt w g -> bget w i = Some b -> bus_st b = TxEnabled ->
  qwf Strict (bnd w i) p -> pktbuf_bytes p = Some bytes ->
  (forall b' p' rc (dis : bool) g' io,
     Jw Jt (set_bus (set_bnd w i (set_priv (bnd w i) b')) i (if dis then disable_bus b else b)) g' ->
     id g' = id g ++ EvTxCall i (pk_id p) bytes :: io -> Forall io_ev io ->
     pk_id p' = pk_id p ->
     (final rc = false -> qwf Strict (bnd w i) p' /\ kept Strict p p') ->
     Q (b', p', rc, dis) g') ->
  h_emit (adv a) (EvTxCall i (pk_id p) bytes) g
         (fun g1 => wp (adv a) (scripted f (bd_priv (bnd w i)) p) g1 Q).
Proof.
  intros Hw _ Hb Hst Hq Hby HQ. cbn [h_emit adv wp scripted].
  unfold scripted. cbn [wp]. destruct (f (bd_priv (bnd w i)) p) as [[[b' p'] rc] dis] eqn:Ef.
  destruct (Hf _ _ _ _ _ _ Ef) as [Hid Hp'].
  apply (HQ b' p' rc dis _ []); [exact I|reflexivity|constructor|exact Hid|].
  intros Hfin. unfold final in Hfin. rewrite Hp' by lia. split; [exact Hq|reflexivity].
Qed.

Lemma Jt_all (w : world) g : Jw Jt w g.
Proof. exact I. Qed.

(** ** What one operation does *)

Inductive op_rel (w : world) : op -> list event -> world -> Prop :=
| ORSetMax n : op_rel w (OpSetMax n) [] (set_m w (mctp_set_max_message_size (w_m w) n))
| ORSetCap b : op_rel w (OpSetCapture b) [] (set_m w (mctp_set_capture_handler (w_m w) b))
| ORSetRx b : op_rel w (OpSetRx b) [] (set_m w (mctp_set_rx_all (w_m w) b))
| ORPriv i b : op_rel w (OpPriv i b) [] (set_bnd w i (set_priv (bnd w i) b))
| ORSize i n : op_rel w (OpPktSize i n) [] (set_bnd w i (set_pkt_size (bnd w i) n))
| ORTx eid to tag msg rc t w' : message_rel Strict w eid to tag msg rc t w' ->
    op_rel w (OpTx eid to tag msg) (t ++ [EvRet rc]) w'
| ORSet i en t w' : set_rel Strict w i en t w' -> op_rel w (OpSetTx i en) t w'
| ORRx i p bytes ap t w' : pktbuf_bytes p = Some bytes ->
    rx_rel Strict ap (set_m w (set_next (w_m w) (m_next (w_m w) + 1))) i (m_next (w_m w)) bytes t w' ->
    op_rel w (OpRx i p) (EvAlloc (m_next (w_m w)) :: t) w'.

Inductive hist : world -> list op -> list event -> world -> Prop :=
| HNil w : hist w [] [] w
| HCons w o t1 w1 l t2 w2 : op_rel w o t1 w1 -> WF Strict w1 -> hist w1 l t2 w2 ->
    hist w (o :: l) (t1 ++ t2) w2.

(** The policy never changes during traffic, so a bus exists iff the mode has it. *)
Definition mode_ok (m : mode) (w : world) : Prop :=
  match m with
  | Endpoint eid => m_policy (w_m w) = RouteEndpoint /\
                    option_map bus_eid (bget w false) = Some eid
  | Bridge => m_policy (w_m w) = RouteBridge /\
              option_map bus_eid (bget w false) = Some 0 /\ option_map bus_eid (bget w true) = Some 0
  end.

Lemma mode_bget m w i : WF Strict w -> mode_ok m w -> mode_bus m i -> exists b, bget w i = Some b.
Proof.
  intros Hw Hmo Hi. destruct (bget w i) eqn:E; [eauto|exfalso]. destruct i.
  - rewrite (Hi eq_refl) in Hmo. destruct Hmo as (Hp & _). apply (proj2 (wf_b1 _ _ Hw) Hp). exact E.
  - exact (wf_b0 _ _ Hw E).
Qed.

Lemma steps_mode {st} m (w : world) t w' : steps st w t w' -> mode_ok m w -> mode_ok m w'.
Proof.
  intros Hs. apply steps_stable in Hs. destruct Hs as (Hr & _ & He & _).
  unfold rest in Hr. injection Hr as _ _ _ _ Hp _ _.
  unfold mode_ok. rewrite !He, Hp. auto.
Qed.

Lemma rx_rel_steps {st ap} (w : world) i n bytes t w' : rx_rel st ap w i n bytes t w' ->
  exists cs b t1, steps st (setc w cs) t1 w' /\ bget w i = Some b /\
                t = EvBusRx i (busrx_local w b) n bytes :: t1 ++ [EvFree n].
Proof.
  destruct 1 as [b Hb Hl|b t w' Hb Hl Hr].
  - exists (m_ctxs (w_m w)), b, []. rewrite setc_id. split; [constructor|]. auto.
  - destruct (rx_body_steps _ _ _ _ _ _ _ Hr) as (cs & Hs). exists cs, b, (capev w false bytes ++ t).
    split; [|split; [exact Hb|now rewrite <- app_assoc]].
    exact (capev_steps st (setc w cs) false bytes t w' Hs).
Qed.

Lemma rx_rel_WF {st ap} (w : world) i n bytes t w' : WF st w -> rx_rel st ap w i n bytes t w' -> WF st w'.
Proof.
  intros Hw Hr. destruct Hr as [b Hb Hl|b t w' Hb Hl Hr]; [exact Hw|].
  pose proof (rx_pure_wf (m_ctxs (w_m w)) (m_max (w_m w)) bytes (wf_ctxs _ _ Hw) Hl (wf_max _ _ Hw)) as Hc.
  destruct Hr as [b' Hb' Hp Hloc|b' cs Hb' Hloc Hpure|b' cs s' d m t w' Hb' Hloc Hpure Hrt].
  - exact Hw.
  - rewrite Hpure in Hc. apply WF_setc; assumption.
  - rewrite Hpure in Hc. eapply steps_WF; [|eapply route_rel_steps; exact Hrt].
    apply WF_setc; assumption.
Qed.

Lemma set_rel_WF {st} (w : world) i en t w' : WF st w -> set_rel st w i en t w' -> WF st w'.
Proof.
  intros Hw Hr. destruct Hr as [b en Hb Hc|b Hb Hst Hsz|b Hb Hst|b t w' Hb Hst Ht].
  - exact Hw.
  - eapply WF_set_st; auto.
  - eapply WF_set_st; [exact Hw|exact Hb|right]. split; [apply (wf_size _ _ Hw _ _ Hb)|apply (wf_cap _ _ Hw _ _ Hb)]; congruence.
  - eapply steps_WF; [|eapply txs_steps; exact Ht].
    eapply WF_set_st; [exact Hw|exact Hb|right]. split; [apply (wf_size _ _ Hw _ _ Hb)|apply (wf_cap _ _ Hw _ _ Hb)]; congruence.
Qed.

Lemma mode_set_st m (w : world) i b st : bget w i = Some b -> mode_ok m w ->
  mode_ok m (set_bus w i (set_st b st)).
Proof.
  intros Hb. unfold mode_ok. rewrite !(bget_set_bus _ _ _ _ _ _ Hb).
  pose proof (rest_set_bus _ w i (set_st b st)) as Hr. unfold rest in Hr.
  injection Hr as _ _ _ _ Hp _ _. rewrite Hp.
  destruct i; cbn [eqb]; cbn; rewrite ?Hb in *; auto.
Qed.

Lemma op_rel_mode m w o t w' : mode_ok m w -> op_rel w o t w' -> mode_ok m w'.
Proof.
  intros Hmo Hr. destruct Hr as [n|b|b|i b|i n|eid to tag msg rc t w' Hr|i en t w' Hr|i p bytes ap t w' Hby Hr].
  1-3: exact Hmo.
  - destruct i; exact Hmo.
  - destruct i; exact Hmo.
  - eapply steps_mode; [eapply message_rel_steps; exact Hr|exact Hmo].
  - destruct Hr as [b en Hb Hc|b Hb Hst Hsz|b Hb Hst|b t w' Hb Hst Ht].
    + exact Hmo.
    + now apply mode_set_st.
    + now apply mode_set_st.
    + eapply steps_mode; [eapply txs_steps; exact Ht|]. now apply mode_set_st.
  - destruct (rx_rel_steps _ _ _ _ _ _ Hr) as (cs & b & t1 & Hs & _ & _).
    eapply steps_mode; [exact Hs|]. exact Hmo.
Qed.

Lemma WF_next st (w : world) n : WF st w -> WF st (set_m w (set_next (w_m w) n)).
Proof. intros [? ? ? ? ? ? ? ? ? ?]. constructor; assumption. Qed.

Lemma WF_bnd st (w : world) i x : WF st w -> bd_bus x = bd_bus (bnd w i) ->
  bd_trailer x = bd_trailer (bnd w i) -> bd_version x = bd_version (bnd w i) -> dims_ok x ->
  (bd_pkt_size x = bd_pkt_size (bnd w i) \/ (68 <= bd_pkt_size x /\ upto st (bd_pkt_size x))) ->
  WF st (set_bnd w i x).
Proof.
  intros [Hd Hn H0 H1 Hb Hq Hs Hdm Hc Hmx Hcap] Eb Et Ev Hdx Hsx.
  constructor; try (rewrite wm_set_bnd); rewrite ?bget_set_bnd; try assumption;
    intros j; rewrite ?bget_set_bnd, ?bnd_set_bnd.
  - destruct (Bool.eqb_spec i j); [subst; rewrite Eb|]; apply Hb.
  - destruct (Bool.eqb_spec i j); [subst|apply Hq].
    intros b Hb'. eapply Forall_impl; [|exact (Hq _ _ Hb')]. intros p. unfold qwf. now rewrite Et, Ev.
  - destruct (Bool.eqb_spec i j); [subst|apply Hs].
    intros b Hb' Hst. destruct Hsx as [->|[? ?]]; [|assumption]. eapply Hs; eassumption.
  - destruct (Bool.eqb_spec i j); [subst; exact Hdx|apply Hdm].
  - destruct (Bool.eqb_spec i j); [subst|apply Hcap].
    intros b Hb' Hst. destruct Hsx as [->|[? ?]]; [|assumption]. eapply Hcap; eassumption.
Qed.

Lemma wp_exec_op (Ha : no_fail) (Hf : polite f) m w o g :
  WF Strict w -> mode_ok m w -> traffic m o ->
  wp (adv a) (xop w o) g
     (fun w' g' => exists t, g' = g ++ t /\ op_rel w o t w' /\ WF Strict w').
Proof.
  intros Hw Hmo Ht. unfold xop, exec_op. rewrite (wf_dead _ _ Hw).
  pose proof (fun e w g Q => Jt_emit e w g Q) as He.
  pose proof (Jt_alloc Ha) as Hal. pose proof (Jt_btx Hf) as Hbt.
  destruct o as [n|b|b|eid| | | |i p|eid to tag msg|i en|i b|i n]; cbn [traffic] in Ht; try contradiction.
  - cbn [wp]. exists []. rewrite app_nil_r. split; [reflexivity|]. split; [constructor|].
    destruct Hw; constructor; assumption.
  - cbn [wp]. exists []. rewrite app_nil_r. split; [reflexivity|]. split; [constructor|].
    destruct Hw; constructor; assumption.
  - cbn [wp]. exists []. rewrite app_nil_r. split; [reflexivity|]. split; [constructor|].
    destruct Hw; constructor; assumption.
  - destruct Ht as [Hi Hp]. destruct (mode_bget m w i Hw Hmo Hi) as (b & Hb).
    destruct (pktbuf_bytes_wf p Hp) as (bytes & Hby & _).
    cbn [wp h_emit adv]. set (n := m_next (w_m w)).
    set (w1 := set_m w (set_next (w_m w) (n + 1))).
    assert (WF Strict w1) as Hw1 by now apply WF_next.
    eapply wp_mono; [apply adv_mono| |
      eapply (wp_bus_rx (scripted f) appl (adv a) (adv_mono a) id Strict Jt He Hal Hbt w1 i b (set_id p n) bytes);
      [exact Hw1|exact Hb| |exact Hby|intros lo Q HQ; apply HQ; [exact I|reflexivity]]].
    + intros w' g' (t & Ht & Hr & _). exists (EvAlloc n :: t).
      unfold id in Ht. split; [rewrite Ht, <- app_assoc; reflexivity|].
      split; [|eapply rx_rel_WF; eassumption]. eapply ORRx; eassumption.
    + destruct Hp; constructor; assumption.
  - eapply wp_call; [apply adv_mono|
      eapply (wp_message_tx (scripted f) (adv a) (adv_mono a) id Strict Jt He Hal Hbt);
      [exact Hw|exact I]|].
    intros [w' rc] g' (t & Ht' & Hr & _). cbn [fst snd] in *. cbn [wp h_emit adv].
    unfold id in Ht'. exists (t ++ [EvRet rc]). split; [rewrite Ht', app_assoc; reflexivity|].
    split; [constructor; exact Hr|]. eapply steps_WF; [exact Hw|eapply message_rel_steps; exact Hr].
  - destruct (mode_bget m w i Hw Hmo Ht) as (b & Hb).
    eapply wp_mono; [apply adv_mono| |
      eapply (wp_set_tx_enabled (scripted f) (adv a) (adv_mono a) id Strict Jt He Hbt);
      [exact Hw|exact I|exact Hb|intros; exact I|intros; exact I]].
    intros w' g' (t & Ht' & Hr & _). exists t. unfold id in Ht'. split; [exact Ht'|].
    split; [constructor; exact Hr|eapply set_rel_WF; eassumption].
  - cbn [wp]. exists []. rewrite app_nil_r. split; [reflexivity|]. split; [constructor|].
    apply WF_bnd; auto. exact (wf_dims _ _ Hw i).
  - cbn [wp]. exists []. rewrite app_nil_r. split; [reflexivity|]. split; [constructor|].
    apply WF_bnd; auto; [|right; split; [cbn; lia|exact I]]. destruct (wf_dims _ _ Hw i) as (? & ? & ?).
    split; [cbn; lia|auto].
Qed.

Lemma wp_xops (Ha : no_fail) (Hf : polite f) m : forall l w g,
  WF Strict w -> mode_ok m w -> Forall (traffic m) l ->
  wp (adv a) (xops w l) g
     (fun w' g' => exists t, g' = g ++ t /\ hist w l t w' /\ WF Strict w').
Proof.
  induction l as [|o l IH]; intros w g Hw Hmo Hl; unfold xops; cbn [exec].
  - cbn [wp]. exists []. rewrite app_nil_r. split; [reflexivity|]. split; [constructor|exact Hw].
  - inversion Hl as [|? ? Ho Hl']; subst.
    eapply wp_call; [apply adv_mono|eapply (wp_exec_op Ha Hf m w o g Hw Hmo Ho)|].
    intros w1 g1 (t1 & -> & Hr & Hw1).
    eapply wp_mono; [apply adv_mono| |eapply (IH w1); [exact Hw1|eapply op_rel_mode; eassumption|exact Hl']].
    intros w2 g2 (t2 & -> & Hh & Hw2). exists (t1 ++ t2). rewrite app_assoc.
    split; [reflexivity|]. split; [|exact Hw2]. eapply HCons; eassumption.
Qed.

(** ** Start-up *)

Definition fresh (b0 b1 : binding B) : world := mkWorld mctp_init b0 b1.

Definition startup_ev (e : event) : Prop :=
  match e with EvAttach _ _ | EvSetTx _ true | EvRet _ => True | _ => False end.

(** The state right after registration. *)
Record booted (m : mode) (t : list event) (w : world) : Prop := mkBooted {
  bt_wf : WF Strict w;
  bt_mode : mode_ok m w;
  bt_ev : Forall startup_ev t;
  bt_ctx : m_ctxs (w_m w) = repeat ctx0 16;
  bt_max : m_max (w_m w) = MCTP_MAX_MESSAGE_SIZE;
  bt_cap : m_cap (w_m w) = false;
  bt_rx : m_rx (w_m w) = false;
  bt_next : m_next (w_m w) = 0;
  bt_q : forall i b, bget w i = Some b -> bus_q b = [];
  bt_st : forall i b, bget w i = Some b -> bus_st b <> TxDisabled;
  bt_en : forall i b, bget w i = Some b -> bus_st b = TxEnabled -> In (EvSetTx i true) t }.

Lemma set_tx_first (w : world) i b g (Q : world -> list event -> Prop) :
  bd_bus (bnd w i) = true -> bget w i = Some b -> bus_st b = Constructed ->
  Q (if bd_pkt_size (bnd w i) <? 68 then w else set_bus w i (set_st b TxEnabled))
    (g ++ [EvSetTx i true]) ->
  wp (adv a) (set_tx_enabled (scripted f) w i true) g Q.
Proof.
  intros Hbd Hb Hst HQ. unfold set_tx_enabled. cbn [wp h_emit adv]. rewrite Hbd. cbn [negb].
  eapply get_bus_bget; [exact Hb|]. rewrite Hst. cbn [negb].
  unfold MCTP_PACKET_SIZE, MCTP_BTU. change (64 + 4) with 68.
  destruct (_ <? 68); exact HQ.
Qed.

Lemma wp_boot (Ha : no_fail) (Hs : starts s) m b0 b1 g :
  dims_ok b0 -> dims_ok b1 ->
  wp (adv a) (xop (fresh b0 b1) (boot_op m)) g
     (fun w' g' => exists t, g' = g ++ t /\ booted m t w').
Proof.
  intros Hd0 Hd1. unfold xop, exec_op. cbn [fresh w_m mctp_init m_dead].
  destruct m as [eid|]; cbn [boot_op].
  - unfold register_bus. cbn [w_m fresh mctp_init m_nb Z.eqb assert_ bind wp h_alloc adv].
    split; [|rewrite Ha; discriminate].
    cbn [negb bind wp h_emit adv].
    set (w1 := set_bnd _ false _).
    assert (bnd w1 false = set_bdbus b0 true) as E1 by reflexivity.
    assert (bget w1 false = Some (mkBus eid Constructed [])) as Eb by reflexivity.
    assert (forall x w' t, (w' = w1 \/ (w' = set_bus w1 false (mkBus eid TxEnabled []) /\ 68 <= bd_pkt_size b0
              /\ In (EvSetTx false true) t)) -> Forall startup_ev t ->
            booted (Endpoint eid) t (set_bnd w' false (set_priv (bnd w' false) x))) as Hboot.
    { intros x w' t Hw' Ht. destruct Hw' as [->|(-> & Hsz & Hin)].
      - constructor; try reflexivity; try assumption; try (intros [|] b [= <-]; cbn; congruence).
        + constructor; cbn; try reflexivity; try congruence; try (unfold MCTP_MAX_MESSAGE_SIZE; lia).
          * split; congruence.
          * intros [|] b; [discriminate|reflexivity].
          * intros [|] b; [discriminate|intros [= <-]; constructor].
          * intros [|] b; [discriminate|intros [= <-]; cbn; congruence].
          * intros [|]; [exact Hd1|exact Hd0].
          * repeat constructor; cbn; lia.
        + split; reflexivity.
      - constructor; try reflexivity; try assumption; try (intros [|] b [= <-]; cbn; congruence).
        + constructor; cbn; try reflexivity; try congruence; try (unfold MCTP_MAX_MESSAGE_SIZE; lia).
          * split; congruence.
          * intros [|] b; [discriminate|reflexivity].
          * intros [|] b; [discriminate|intros [= <-]; constructor].
          * intros [|] b; [discriminate|intros [= <-]; cbn; intros _; exact Hsz].
          * intros [|]; [exact Hd1|exact Hd0].
          * repeat constructor; cbn; lia.
        + split; reflexivity. }
    rewrite E1. cbn [set_bdbus bd_has_start].
    destruct (bd_has_start b0) eqn:Est.
    2:{ cbn [bind wp h_emit adv]. exists [EvAttach false eid; EvRet 0].
        rewrite <- app_assoc. split; [reflexivity|].
        specialize (Hboot (bd_priv b0) w1 [EvAttach false eid; EvRet 0]).
        assert (set_bnd w1 false (set_priv (bnd w1 false) (bd_priv b0)) = w1) as E.
        { destruct b0; reflexivity. }
        rewrite E in Hboot. apply Hboot; [auto|repeat constructor]. }
    unfold scripted_start at 1. cbn [bind]. destruct (s _) as [[b' rc] en] eqn:Es.
    pose proof (Hs _ _ _ _ Es) as Hrc. cbn [bind].
    set (w2 := set_bnd w1 false _).
    destruct en.
    + apply wp_bind; [apply adv_mono|]. apply wp_bind; [apply adv_mono|].
      eapply set_tx_first; [reflexivity|reflexivity|reflexivity|].
      replace (rc <? 0) with false by lia. cbn [wp h_emit adv].
      exists [EvAttach false eid; EvSetTx false true; EvRet rc]. rewrite <- !app_assoc.
      split; [reflexivity|]. change (bd_pkt_size (bnd w2 false)) with (bd_pkt_size b0).
      destruct (bd_pkt_size b0 <? 68) eqn:Esz.
      * apply (Hboot b' w1 [EvAttach false eid; EvSetTx false true; EvRet rc]); [auto|repeat constructor].
      * pose proof (Hboot b' (set_bus w1 false (mkBus eid TxEnabled []))
                      [EvAttach false eid; EvSetTx false true; EvRet rc]) as Hbt.
        apply Hbt; [|repeat constructor]. right. split; [reflexivity|]. split; [lia|cbn; auto].
    + cbn [bind]. replace (rc <? 0) with false by lia. cbn [bind wp h_emit adv].
      exists [EvAttach false eid; EvRet rc]. rewrite <- !app_assoc. split; [reflexivity|].
      apply (Hboot b' w1); [auto|repeat constructor].
  - unfold bridge_busses. cbn [w_m fresh mctp_init m_nb Z.eqb assert_ bind wp h_alloc adv].
    split; [|rewrite Ha; discriminate].
    cbn [negb bind wp h_emit adv].
    set (wb := fun x0 x1 s0 s1 => mkWorld (set_policy (set_busses mctp_init 2
                  (BLive [mkBus 0 s0 []; mkBus 0 s1 []])) RouteBridge)
                  (set_priv (set_bdbus b0 true) x0) (set_priv (set_bdbus b1 true) x1)).
    assert (forall x0 x1 s0 s1 t, s0 <> TxDisabled -> s1 <> TxDisabled ->
              (s0 = TxEnabled -> 68 <= bd_pkt_size b0 /\ In (EvSetTx false true) t) ->
              (s1 = TxEnabled -> 68 <= bd_pkt_size b1 /\ In (EvSetTx true true) t) ->
              Forall startup_ev t -> booted Bridge t (wb x0 x1 s0 s1)) as Hboot.
    { intros x0 x1 s0 s1 t N0 N1 K0 K1 Ht. constructor; try reflexivity; try assumption.
      - constructor; cbn; try reflexivity; try congruence; try (unfold MCTP_MAX_MESSAGE_SIZE; lia).
        + split; congruence.
        + intros [|] b Hb; reflexivity.
        + intros [|] b [= <-]; constructor.
        + intros [|] b [= <-]; cbn; intros Hc; [apply K1|apply K0]; destruct s0, s1; congruence.
        + intros [|]; [exact Hd1|exact Hd0].
        + repeat constructor; cbn; lia.
      - repeat split.
      - intros [|] b [= <-]; reflexivity.
      - intros [|] b [= <-]; assumption.
      - intros [|] b [= <-]; cbn; intros E; [apply K1|apply K0]; exact E. }
    set (w1 := set_bnd _ true _).
    assert (w1 = wb (bd_priv b0) (bd_priv b1) Constructed Constructed) as E1.
    { unfold w1, wb. destruct b0, b1; reflexivity. }
    rewrite E1. clear E1 w1.
    (* one binding->start *)
    assert (forall (i : bool) x0 x1 s0 s1 t (Q : world * Z -> list event -> Prop),
       (if i then s1 else s0) = Constructed ->
       (forall x0' x1' s0' s1' rc t', 0 <= rc ->
          (i = true -> s0' = s0) -> (i = false -> s1' = s1) ->
          ((if i then s1' else s0') = Constructed \/
           ((if i then s1' else s0') = TxEnabled /\ 68 <= bd_pkt_size (if i then b1 else b0)
             /\ In (EvSetTx i true) t')) -> Forall startup_ev t' ->
          Q (wb x0' x1' s0' s1', rc) (t ++ t')) ->
       wp (adv a) (bridge_start (scripted f) (scripted_start s) (wb x0 x1 s0 s1) i) t Q) as Hst.
    { intros i x0 x1 s0 s1 t Q Hc HK. unfold bridge_start.
      destruct (bd_has_start (bnd (wb x0 x1 s0 s1) i)).
      2:{ cbn [wp]. specialize (HK x0 x1 s0 s1 0 []). rewrite app_nil_r in HK. apply HK; auto; lia. }
      unfold scripted_start. cbn [bind]. destruct (s _) as [[b' rc] en] eqn:Es.
      pose proof (Hs _ _ _ _ Es) as Hrc.
      set (w2 := set_bnd (wb x0 x1 s0 s1) i _).
      assert (w2 = wb (if i then x0 else b') (if i then b' else x1) s0 s1) as E2.
      { unfold w2, wb; destruct i; reflexivity. }
      rewrite E2. clear E2 w2. destruct en.
      - apply wp_bind; [apply adv_mono|].
        eapply (set_tx_first _ i (mkBus 0 (if i then s1 else s0) [])).
        { destruct i; reflexivity. } { destruct i; reflexivity. }
        { destruct i; cbn in *; exact Hc. }
        cbn [wp].
        assert (bd_pkt_size (bnd (wb (if i then x0 else b') (if i then b' else x1) s0 s1) i)
                = bd_pkt_size (if i then b1 else b0)) as -> by (destruct i; reflexivity).
        destruct (bd_pkt_size (if i then b1 else b0) <? 68) eqn:Esz.
        + apply HK; auto. repeat constructor.
        + destruct i; cbn in Hc; subst.
          * apply (HK x0 b' s0 TxEnabled rc [EvSetTx true true]); auto; [discriminate| |repeat constructor].
            right. split; [reflexivity|]. split; [lia|cbn; auto].
          * apply (HK b' x1 TxEnabled s1 rc [EvSetTx false true]); auto; [discriminate| |repeat constructor].
            right. split; [reflexivity|]. split; [lia|cbn; auto].
      - cbn [bind wp]. specialize (HK (if i then x0 else b') (if i then b' else x1) s0 s1 rc []).
        rewrite app_nil_r in HK. apply HK; auto. }
    apply wp_bind; [apply adv_mono|]. apply wp_bind; [apply adv_mono|].
    apply Hst; [reflexivity|]. intros x0 x1 s0 s1 rc t0 Hrc _ Hs1 Hc0 Ht0.
    specialize (Hs1 eq_refl). subst s1. cbn match. replace (rc <? 0) with false by lia.
    apply Hst; [reflexivity|]. intros x0' x1' s0' s1' rc' t1 Hrc' Hs0 _ Hc1 Ht1.
    specialize (Hs0 eq_refl). subst s0'. cbn [wp h_emit adv].
    exists (EvAttach false 0 :: EvAttach true 0 :: t0 ++ t1 ++ [EvRet rc']).
    split; [rewrite <- !app_assoc; reflexivity|]. apply Hboot.
    + destruct Hc0 as [->|[-> _]]; discriminate.
    + destruct Hc1 as [->|[-> _]]; discriminate.
    + intros E. destruct Hc0 as [E'|(_ & ? & Hin)]; [congruence|]. split; [assumption|].
      cbn. right. right. apply in_or_app. auto.
    + intros E. destruct Hc1 as [E'|(_ & ? & Hin)]; [congruence|]. split; [assumption|].
      cbn. right. right. apply in_or_app. right. apply in_or_app. auto.
    + constructor; [exact I|]. constructor; [exact I|]. apply Forall_app. split; [exact Ht0|].
      apply Forall_app. split; [exact Ht1|]. repeat constructor.
Qed.

(** A complete history: registration, then traffic. *)
Definition history (m : mode) (b0 b1 : binding B) (l : list op) : prog world :=
  xops (fresh b0 b1) (boot_op m :: l).

Lemma wp_history (Ha : no_fail) (Hf : polite f) (Hs : starts s) m b0 b1 l :
  dims_ok b0 -> dims_ok b1 -> Forall (traffic m) l ->
  wp (adv a) (history m b0 b1 l) []
     (fun w tr => exists t0 w0 t, tr = t0 ++ t /\ booted m t0 w0 /\ hist w0 l t w /\ WF Strict w).
Proof.
  intros Hd0 Hd1 Hl. unfold history, xops. cbn [exec].
  eapply wp_call; [apply adv_mono|eapply (wp_boot Ha Hs m b0 b1 [] Hd0 Hd1)|].
  intros w0 g0 (t0 & -> & Hb).
  eapply wp_mono; [apply adv_mono| |
    eapply (wp_xops Ha Hf m l w0); [exact (bt_wf _ _ _ Hb)|exact (bt_mode _ _ _ Hb)|exact Hl]].
  intros w g (t & -> & Hh & Hw). exists t0, w0, t. auto.
Qed.

End Hist.
