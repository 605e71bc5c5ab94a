(** PropAstOom: the astlpc binding when memory is short (C76).

    An endpoint that only receives, whose application does not answer from its callbacks
    and whose message size limit is below 8192 never faults, whichever allocations fail and
    whatever its peer does; but a packet buffer that cannot be allocated wedges the channel. *)
From Verif Require Import Base Lists Prog PktBuf Core WP Walk CoreRel WalkCore CoreHist Spec SpecRx PropTx PropLife Concrete PropOom
  Crc Astlpc SpecAst AstBasic AstWalk PropAst AstRx AstPoll Trace Foot.

(** ** From runs back to the program logic *)
Lemma run_agree A (p : prog A) : forall e e' n tr,
  (forall m, (n <= m)%nat -> e_alloc e m = e_alloc e' m /\ e_kread e m = e_kread e' m /\ e_kwrite e m = e_kwrite e' m /\
     e_mem e m = e_mem e' m /\ e_swrite e m = e_swrite e' m) ->
  run e n tr p = run e' n tr p.
Proof.
  induction p as [x|f|r k IH|r v k IH|o len k IH|o bs k IH|bs k IH|k IH|ev k IH]; cbn [run]; intros e e' n tr H; try reflexivity.
  7: apply IH; exact H.
  all: destruct (H n (le_n n)) as (E1 & E2 & E3 & E4 & E5);
    assert (forall m, (S n <= m)%nat -> e_alloc e m = e_alloc e' m /\ e_kread e m = e_kread e' m /\ e_kwrite e m = e_kwrite e' m /\
       e_mem e m = e_mem e' m /\ e_swrite e m = e_swrite e' m) as H' by (intros m Hm; apply H; lia);
    rewrite ?E1, ?E2, ?E3, ?E4, ?E5; try (apply IH; exact H').
  - destruct (in_window o len); [apply IH; exact H'|reflexivity].
  - destruct (in_window o (zlen bs)); [apply IH; exact H'|reflexivity].
Qed.

(** Only allocations matter to a program without other effects. *)
Fixpoint heapy {A} (p : prog A) : Prop :=
  match p with
  | Ret _ | Flt _ => True
  | Malloc k => forall b, heapy (k b)
  | Emit _ k => heapy k
  | _ => False
  end.
Definition answers_alloc (f : nat -> bool) : env := mkEnv f (fun _ _ => Some 0) (fun _ => true) (fun _ _ => 0) (fun _ => 1).
Lemma wp_heapy a A (p : prog A) : forall n tr Q, heapy p ->
  (forall f, exists x n' tr', run (answers_alloc f) n tr p = Done x n' tr' /\ Q x tr') -> wp (adv a) p tr Q.
Proof.
  induction p as [x|f|r k IH|r v k IH|o len k IH|o bs k IH|bs k IH|k IH|ev k IH]; cbn [heapy run]; intros n tr Q Hp Hr; try contradiction.
  - destruct (Hr (fun _ => true)) as (x' & n' & tr' & [= <- _ <-] & HQ). exact HQ.
  - destruct (Hr (fun _ => true)) as (x' & n' & tr' & E & _). discriminate.
  - cbn [wp h_alloc adv].
    assert (forall b, wp (adv a) (k b) tr Q) as Hb; [|auto].
    intros b. apply (IH b (S n)); [apply Hp|]. intros f.
    destruct (Hr (fun m => if Nat.eqb m n then b else f m)) as (x & n' & tr' & Hrun & HQ).
    cbn [e_alloc answers_alloc] in Hrun. rewrite Nat.eqb_refl in Hrun. exists x, n', tr'. split; [|exact HQ].
    rewrite <- Hrun. apply run_agree. intros m Hm. cbn [answers_alloc e_alloc e_kread e_kwrite e_mem e_swrite].
    replace (Nat.eqb m n) with false by (symmetry; apply Nat.eqb_neq; lia). auto.
  - cbn [wp h_emit adv]. apply (IH n); [exact Hp|exact Hr].
Qed.

Lemma heapy_bind A C (p : prog A) (q : A -> prog C) : heapy p -> (forall x, heapy (q x)) -> heapy (bind p q).
Proof. induction p; cbn [heapy bind]; try tauto; intuition auto. Qed.
Lemma heapy_deref A f (o : option A) : heapy (deref f o).
Proof. destruct o; exact I. Qed.
Lemma heapy_assert c : heapy (assert_ c).
Proof. destruct c; exact I. Qed.
Create HintDb heapy.
#[export] Hint Resolve heapy_deref heapy_assert : heapy.
Ltac heap := cbv zeta;
  repeat first
  [ solve [auto with heapy nocore]
  | exact I | exact (fun _ => I)
  | match goal with
    | |- heapy (bind _ _) => apply heapy_bind; [|intros ?; cbv zeta]
    | |- heapy (if ?c then _ else _) => destruct c
    | |- heapy (match ?c with _ => _ end) => destruct c
    | |- heapy (Malloc _) => cbn [heapy]; intros ?
    | |- heapy (Emit _ _) => cbn [heapy]
    end ].
Section Rx.
Context {B : Type} (tx : B -> pktbuf -> prog (B * pktbuf * Z * bool)) (appl : event -> list txreq) (Hsil : forall e, appl e = []).
Lemma heapy_bus_rx (w : world B) p : m_policy (w_m w) = RouteEndpoint -> heapy (bus_rx tx appl w false p).
Proof.
  intros Hpol.
  assert (forall w e, heapy (callback tx appl w e)) as Hcb by (intros; unfold callback; rewrite Hsil; heap).
  assert (forall m i, heapy (get_bus m i)) as Hgb by (intros; unfold get_bus; heap).
  assert (forall c p mx, heapy (ctx_add_pkt c p mx)) as Hadd.
  { intros. unfold ctx_add_pkt, ctx_grow, ctx_append. heap. }
  assert (forall w n, heapy (get_ctx (B := B) w n)) as Hgc by (intros; unfold get_ctx; heap).
  assert (forall (w : world B) sr d to tag b msg, m_policy (w_m w) = RouteEndpoint -> heapy (mctp_rx tx appl w false sr d to tag b msg)) as Hrx.
  { intros w0 sr d to tag b msg H0. unfold mctp_rx. rewrite H0. unfold rx_local, ctrl_handle. heap; auto. }
  unfold bus_rx. rewrite Hpol. unfold bus_rx_body, rx_som, rx_eom, rx_mid, pktbuf_free. rewrite ?Hpol. heap; auto.
  all: try (apply Hrx; exact Hpol).
  all: try (apply heapy_bind; [apply Hadd|intros [? ?]; exact I]).
Qed.
End Rx.

(*REST*)

(** Programs that never allocate, and what they return. *)
Fixpoint calmly {A} (R : A -> Prop) (p : prog A) : Prop :=
  match p with
  | Ret x => R x
  | Flt _ => True
  | KRead _ k => forall v, calmly R (k v)
  | KWrite _ _ k => forall v, calmly R (k v)
  | LRead _ _ k => forall v, calmly R (k v)
  | LWrite _ _ k => calmly R k
  | SWrite _ k => forall v, calmly R (k v)
  | Malloc _ => False
  | Emit _ k => calmly R k
  end.
Definition sated (a : assm) : assm := mkAssm false (may_kerr a) (may_stall a) (kval_ok a).
Lemma wp_calmly a A (R : A -> Prop) (p : prog A) : forall g Q, calmly R p -> wp (adv (sated a)) p g Q ->
  wp (adv a) p g (fun x g' => R x /\ Q x g').
Proof.
  induction p as [x|f|r k IH|r v k IH|o len k IH|o bs k IH|bs k IH|k IH|ev k IH]; intros g Q Hc Hw; cbn [calmly] in Hc;
    cbn [wp h_kread h_kwrite h_lread h_lwrite h_swrite h_emit adv] in *.
  - auto.
  - contradiction.
  - destruct Hw as [H1 H2]. split; [intros v Hv Hk; apply IH; auto|intros He; apply IH; auto].
  - destruct Hw as [H1 H2]. split; [apply IH; auto|intros He; apply IH; auto].
  - destruct Hw as [H1 H2]. split; [exact H1|]. intros bs Hz Hb. apply IH; auto.
  - destruct Hw as [H1 H2]. split; [exact H1|]. apply IH; auto.
  - intros r H1 H2. apply IH; auto.
  - contradiction.
  - apply IH; auto.
Qed.


Lemma calmly_bind A C (R : A -> Prop) (S : C -> Prop) (p : prog A) (q : A -> prog C) :
  calmly R p -> (forall x, R x -> calmly S (q x)) -> calmly S (bind p q).
Proof. induction p; cbn [calmly bind]; try tauto; intuition auto. Qed.
Lemma calmly_mono A (R S : A -> Prop) (p : prog A) : (forall x, R x -> S x) -> calmly R p -> calmly S p.
Proof. intros H. induction p; cbn [calmly]; intuition auto. Qed.
Notation any := (fun _ => True).
Lemma calmly_deref A f (o : option A) : calmly any (deref f o).
Proof. destruct o; exact I. Qed.
Lemma calmly_assert c : calmly any (assert_ c).
Proof. destruct c; exact I. Qed.
Create HintDb calm.
#[export] Hint Resolve calmly_deref calmly_assert : calm.
Ltac calmt := cbv zeta;
  repeat first
  [ solve [auto with calm nocore]
  | exact I | exact (fun _ => I)
  | match goal with
    | |- calmly _ (bind _ _) => eapply calmly_bind; [solve [auto with calm nocore]|intros ? ?; cbv zeta]
    | |- calmly any (bind _ _) => apply (calmly_bind _ _ any); [|intros ? _; cbv zeta]
    | |- calmly _ (if ?c then _ else _) => destruct c
    | |- calmly _ (match ?c with _ => _ end) => destruct c
    | |- calmly _ (KRead _ _) => cbn [calmly]; intros ?
    | |- calmly _ (KWrite _ _ _) => cbn [calmly]; intros ?
    | |- calmly _ (LRead _ _ _) => cbn [calmly]; intros ?
    | |- calmly _ (LWrite _ _ _) => cbn [calmly]
    | |- calmly _ (Emit _ _) => cbn [calmly]
    | |- calmly _ (Ret _) => cbn [calmly]
    end ].

Lemma calmly_packet_size p n : calmly any (packet_size p n).
Proof. unfold packet_size. calmt. Qed.
Lemma calmly_body_size p n : calmly any (body_size p n).
Proof. unfold body_size. calmt. Qed.
Lemma calmly_status st : calmly any (kcs_set_status st).
Proof. unfold kcs_set_status. calmt. Qed.
Lemma calmly_send x c : calmly any (kcs_send x c).
Proof. unfold kcs_send. calmt. Qed.
Lemma calmly_lread x : calmly any (layout_read x).
Proof. unfold layout_read. calmt. Qed.
Lemma calmly_lwrite x l : calmly any (layout_write x l).
Proof. unfold layout_write. calmt. Qed.
#[export] Hint Resolve calmly_packet_size calmly_body_size calmly_status calmly_send calmly_lread calmly_lwrite : calm.
Lemma calmly_bval p b : calmly any (buffer_validate p b).
Proof. unfold buffer_validate. calmt. Qed.
#[export] Hint Resolve calmly_bval : calm.
Lemma calmly_lval p l : calmly any (layout_validate p l).
Proof. unfold layout_validate. calmt. Qed.
Lemma calmly_mtu x l : calmly any (calculate_mtu x l).
Proof. unfold calculate_mtu. calmt. Qed.
Lemma calmly_get_bus m i : calmly any (get_bus m i).
Proof. unfold get_bus. calmt. Qed.
Lemma calmly_push p bs : calmly any (pktbuf_push p bs).
Proof. unfold pktbuf_push, pktbuf_push_len. calmt. Qed.
Lemma calmly_free p : calmly any (pktbuf_free p).
Proof. unfold pktbuf_free. calmt. Qed.
#[export] Hint Resolve calmly_lval calmly_mtu calmly_get_bus calmly_push calmly_free : calm.
Lemma calmly_protect v p : calmly any (pktbuf_protect v p).
Proof. unfold pktbuf_protect. calmt. Qed.
#[export] Hint Resolve calmly_protect : calm.
Lemma calmly_atx x p : calmly any (astlpc_tx x p).
Proof. unfold astlpc_tx. calmt. Qed.
#[export] Hint Resolve calmly_atx : calm.
Lemma calmly_nlh x : calmly any (negotiate_layout_host x).
Proof. unfold negotiate_layout_host. calmt. Qed.
#[export] Hint Resolve calmly_nlh : calm.
Lemma calmly_start x : calmly any (astlpc_start x).
Proof. unfold astlpc_start, start_bmc, init_bmc, init_host. calmt. Qed.
#[export] Hint Resolve calmly_start : calm.

(** The limit is not touched. *)
Section Limit.
Variable k : Z.
Definition lim (w : world astlpc) : Prop := m_max (w_m w) = k.
Definition lim1 {A} (r : world astlpc * A) : Prop := lim (fst r).
Lemma lim_bnd w i b : lim w -> lim (set_bnd w i b).
Proof. intros H. unfold lim, set_bnd in *. destruct i; exact H. Qed.
Lemma lim_bus w i b : lim w -> lim (set_bus w i b).
Proof. intros H. unfold lim, set_bus in *. destruct (m_busses (w_m w)); [exact H| |exact H]. destruct i; exact H. Qed.
Lemma lim_ast w i x : lim w -> lim (put_ast w i x).
Proof. intros H. now apply lim_bnd. Qed.
Lemma lim_psz w i n : lim w -> lim (put_pkt_size w i n).
Proof. intros H. now apply lim_bnd. Qed.
Hint Resolve lim_bnd lim_bus lim_ast lim_psz : calm.
Lemma calmly_packet_tx w i p : lim w -> calmly (fun r => lim (fst (fst r))) (packet_tx astlpc_tx w i p).
Proof.
  intros H. unfold packet_tx. eapply calmly_bind; [apply calmly_get_bus|]. intros bs _.
  destruct (bus_st bs); try exact H. eapply calmly_bind; [apply calmly_deref|]. intros by_ _.
  eapply (calmly_bind _ _ any); [calmt|]. intros _ _. cbn [calmly]. eapply calmly_bind; [apply calmly_atx|].
  intros [[[b' p'] rc] dis] _. cbv zeta. eapply (calmly_bind _ _ lim).
  - destruct dis; cbn [calmly]; auto with calm.
  - intros w2 H2. exact H2.
Qed.
Lemma calmly_loop n : forall w i, lim w -> calmly lim (send_loop astlpc_tx n w i).
Proof.
  induction n as [|n IH]; intros w i H; cbn [send_loop]; (eapply calmly_bind; [apply calmly_get_bus|]); intros bs _;
    (destruct (bus_q bs); [exact H|]); [exact I|].
  eapply calmly_bind; [now apply calmly_packet_tx|]. intros [[w' p'] rc] H'. cbn [fst] in H'.
  eapply calmly_bind; [apply calmly_get_bus|]. intros bs' _. destruct (_ || _).
  - cbv zeta. eapply calmly_bind; [apply calmly_free|]. intros _ _. apply IH. auto with calm.
  - cbn [calmly]. auto with calm.
Qed.
Lemma calmly_set w i en : lim w -> calmly lim (set_tx_enabled astlpc_tx w i en).
Proof.
  intros H. unfold set_tx_enabled. cbn [calmly]. destruct (negb _); [exact I|].
  eapply calmly_bind; [apply calmly_get_bus|]. intros bs _.
  destruct (bus_st bs); repeat match goal with |- context [if ?c then _ else _] => destruct c end; cbn [calmly]; auto with calm.
  unfold send_tx_queue. eapply calmly_bind; [apply calmly_get_bus|]. intros bs' _. apply calmly_loop. auto with calm.
Qed.
Lemma calmly_neg w i : lim w -> calmly lim1 (negotiate_layout_bmc w i).
Proof.
  intros H. unfold negotiate_layout_bmc. cbv zeta. eapply calmly_bind; [apply calmly_deref|]. intros v _.
  destruct (v =? 0); [exact H|].
  eapply calmly_bind; [apply calmly_lread|]. intros l _. eapply calmly_bind; [apply calmly_lval|]. intros ok _.
  destruct (negb ok); [exact H|]. eapply calmly_bind; [apply calmly_mtu|]. intros m _.
  eapply calmly_bind; [apply calmly_packet_size|]. intros sz _. eapply calmly_bind; [apply calmly_lval|]. intros ok2 _.
  destruct (negb ok2); [exact H|]. eapply calmly_bind; [apply calmly_lwrite|]. intros _ _. unfold lim1. cbn [calmly fst].
  destruct (2 <=? v); auto with calm.
Qed.
Lemma calmly_init_channel w i : lim w -> calmly lim (init_channel w i).
Proof.
  intros H. unfold init_channel. cbn [calmly]. intros h. cbv zeta. eapply calmly_bind; [apply calmly_assert|]. intros _ _.
  eapply calmly_bind; [apply calmly_neg; auto with calm|]. intros [w2 rc] H2. unfold lim1 in H2. cbn [fst] in H2. cbn [calmly].
  eapply calmly_bind; [apply calmly_status|]. intros _ _. apply calmly_set. auto with calm.
Qed.
Lemma calmly_tx_complete w i : lim w -> calmly lim (tx_complete w i).
Proof. intros H. unfold tx_complete. apply calmly_set. auto with calm. Qed.
Lemma calmly_finalise w i : lim w -> calmly lim1 (finalise_channel w i).
Proof.
  intros H. unfold finalise_channel. cbn [calmly]. intros nb. cbv zeta. destruct (_ || _); [exact H|].
  eapply calmly_bind; [apply calmly_assert|]. intros _ _. eapply calmly_bind; [apply calmly_lread|]. intros l _.
  eapply calmly_bind; [apply calmly_lval|]. intros ok _. destruct (negb ok); [cbn [calmly]; apply lim_ast, H|].
  eapply (calmly_bind _ _ lim).
  - destruct (2 <=? _); [|cbn [calmly]; auto with calm]. eapply calmly_bind; [apply calmly_body_size|]. intros b _. cbn [calmly]. auto with calm.
  - intros w' H'. cbn [calmly]. unfold lim1. cbn [fst]. auto with calm.
Qed.
Lemma calmly_update w i st : lim w -> calmly lim1 (update_channel w i st).
Proof.
  intros H. unfold update_channel. eapply calmly_bind; [apply calmly_assert|]. intros _ _. cbv zeta. destruct (_ && _).
  - eapply calmly_bind; [apply calmly_start|]. intros [[x rc] b] _. cbn [calmly]. unfold lim1. cbn [fst]. auto with calm.
  - eapply (calmly_bind _ _ lim).
    { destruct (tst _ _); [apply calmly_set; auto with calm|exact H]. }
    intros w1 H1. eapply calmly_bind; [apply calmly_deref|]. intros v _. eapply (calmly_bind _ _ lim1).
    + destruct (_ || _); [|exact H1]. eapply calmly_bind; [apply calmly_finalise; auto with calm|].
      intros [w' rc] H'. eapply calmly_bind; [apply calmly_set; exact H'|]. intros w'' H''. exact H''.
    + intros [w2 rc] H2. cbn [calmly]. unfold lim1 in *. cbn [fst] in *. auto with calm.
Qed.
Lemma calmly_tail w i st d rc : lim w -> calmly lim1 (poll_tail w i st d rc).
Proof. intros H. unfold poll_tail. destruct (_ && _); [now apply calmly_update|exact H]. Qed.
End Limit.

(** The endpoint only receives: it polls, changes its configuration and keeps the limit
    for messages below 8192. *)
Definition ast_receiving (o : aop) : Prop :=
  match o with
  | APoll i => i = false
  | ACore (OpSetMax n) => 0 <= n < 8192
  | ACore (OpSetRx _) | ACore (OpSetCapture _) => True
  | ACore _ => False
  end.

(** ** The walk *)
Definition unread (v off sz psz : Z) (lb : list Z) : Prop :=
  zlen lb = 4 /\ unbe32 lb <= sz - extra v /\ unbe32 lb <= psz.

Lemma Inv_next bmc (w : world astlpc) : Inv bmc w -> Inv bmc (set_m w (set_next (w_m w) (m_next (w_m w) + 1))).
Proof. intros (H1 & H2 & H3). split; [now apply WF_next|]. split; assumption. Qed.

Section Walk.
Variable app : event -> list txreq.
Hypothesis Hsil : forall e, app e = [].
Variable a : assm.
Variable bmc : bool.
Hypothesis Hk : bmc = false -> kv_host a.
Notation world := (world astlpc).

Definition InvO (w : world) : Prop := Inv bmc w /\ m_max (w_m w) < 8192.

Lemma Ha' : may_oom (sated a) = false. Proof. reflexivity. Qed.
Lemma Hk' : bmc = false -> kv_host (sated a). Proof. exact Hk. Qed.

Lemma Inv_ctxs (w : world) cs : Inv bmc w -> Forall wf_ctx cs -> Inv bmc (setc w cs).
Proof.
  intros (Hw & H1 & H2) Hc. split; [|split; assumption]. destruct Hw. constructor; try assumption.
Qed.
Lemma shown_quiet (w : world) b bs out : Forall not_busrx (shown w b bs out).
Proof.
  unfold shown. destruct out as [[[? ?] ?]|]; [|constructor]. constructor; [exact I|].
  destruct (dest_is_local _ _); [|constructor]. unfold local_event.
  destruct (_ && _); [repeat constructor|]. destruct (m_rx _); repeat constructor.
Qed.

Lemma wp_starved_rx (w : world) p bytes g : Inv bmc w -> m_max (w_m w) < 8192 -> wf_pkt p -> pktbuf_bytes p = Some bytes ->
  wp (adv a) (bus_rx astlpc_tx app w false p) g (fun w' g' => InvO w' /\ exists lo t,
    g' = g ++ EvBusRx false lo (pk_id p) bytes :: t ++ [EvFree (pk_id p)] /\ Forall not_busrx t).
Proof.
  intros HI Hmax Hp Hby. pose proof HI as (Hw & H1 & H2). destruct (bget0 w Hw) as (b & Hb).
  assert (m_policy (w_m w) = RouteEndpoint) as Hpol.
  { destruct (m_policy (w_m w)) eqn:E; [reflexivity|]. apply (wf_b1 _ _ Hw) in E. unfold ost in H1.
    destruct (bget w true); [discriminate|contradiction]. }
  apply (wp_heapy a _ _ 0%nat); [now apply heapy_bus_rx|]. intros f.
  destruct (run_bus_rx astlpc_tx app Hsil Lax (answers_alloc f) 0 g w b p bytes Hw Hpol Hb Hmax Hp Hby) as (n' & mx & Hs & Hr).
  do 3 eexists. split; [exact Hr|]. unfold rx_done.
  destruct (zlen bytes <=? 4) eqn:El; cbn [fst snd].
  { split; [split; assumption|]. exists (Some (bus_eid b)), []. split; [reflexivity|constructor]. }
  unfold rx_out. destruct (negb _) eqn:Ed; cbn [fst snd].
  { split; [split; assumption|]. exists (Some (bus_eid b)), (capev w false bytes). split; [reflexivity|].
    unfold capev. destruct (m_cap _); repeat constructor. }
  split.
  - split; [|exact Hmax]. apply Inv_ctxs; [exact HI|]. apply rx_pure_wf; [exact (wf_ctxs _ _ Hw)|lia|].
    pose proof (wf_max _ _ Hw). destruct Hs as [[-> | ->] _]; lia.
  - eexists (Some (bus_eid b)), _. split; [reflexivity|]. apply Forall_app. split; [|apply shown_quiet].
    unfold capev. destruct (m_cap _); repeat constructor.
Qed.

Lemma wp_rx_start_oom (w : world) v g : InvO w -> a_proto (ast w false) = Some v -> v <> 0 ->
  ab_st (a_rx (ast w false)) = Released ->
  wp (adv a) (rx_start app w false) g (fun w' g' => InvO w' /\
    exists t, g' = g ++ t /\
      (rx_trace v (ab_off (a_rx (ast w false))) (ab_size (a_rx (ast w false))) (bd_pkt_size (w_b0 w)) t \/
       exists lb, unread v (ab_off (a_rx (ast w false))) (ab_size (a_rx (ast w false))) (bd_pkt_size (w_b0 w)) lb /\
         t = [EvLRead (ab_off (a_rx (ast w false))) lb])).
Proof.
  intros [HI Hmax] Ev Hv0 Hst. pose proof HI as (Hw & H1 & Hao). pose proof Hao as [K1 K2 K3 K4 K5 K6 K7 K8 Ky K9].
  unfold ast in *. cbn [bnd] in *. set (x := bd_priv (w_b0 w)) in *.
  destruct K6 as (v' & E' & Rv & _). rewrite Ev in E'. injection E' as <-.
  destruct K7 as [(G1 & G2 & G3) _]; [right; left; rewrite Hst; discriminate|].
  fold x in G1, G2, G3. fold (a_rx x) in *.
  assert (1 <= v <= 3) as Hv by lia. pose proof (extra_range v) as Ex.
  unfold rx_start, ast. cbn [bnd]. fold x. cbn [wp h_lread adv]. split; [apply inwin; lia|].
  intros lb Hz Hby. pose proof (unbe32_range lb Hz Hby) as Hbr.
  pose proof (RxTooLong v (ab_off (a_rx x)) (ab_size (a_rx x)) (bd_pkt_size (w_b0 w)) lb Hz) as Tlong.
  pose proof (RxDropped v (ab_off (a_rx x)) (ab_size (a_rx x)) (bd_pkt_size (w_b0 w)) lb) as Tdrop.
  pose proof (RxHanded v (ab_off (a_rx x)) (ab_size (a_rx x)) (bd_pkt_size (w_b0 w)) lb) as Thand.
  set (body := unbe32 lb) in *.
  rewrite Ev. rewrite body_size_ok by lia. cbn [bind].
  destruct (ab_size (a_rx x) - extra v <? body) eqn:E1.
  { cbn [wp]. split; [split; [exact HI|exact Hmax]|]. eexists. split; [reflexivity|]. left. apply Tlong. lia. }
  destruct (bd_pkt_size (w_b0 w) <? body) eqn:E2.
  { cbn [wp]. split; [split; [exact HI|exact Hmax]|]. eexists. split; [reflexivity|]. left. apply Tlong. lia. }
  rewrite packet_size_ok by lia. cbn [bind].
  rewrite (w32_id (body + extra v - 4)) by lia. set (packet := body + extra v - 4) in *.
  unfold pktbuf_alloc. rewrite K1, K2. rewrite w64_id by lia.
  replace (bd_pkt_size (w_b0 w) + 4 + 4 <? packet) with false by lia. cbn [bind wp h_alloc adv].
  split; [|intros _; cbn [bind wp]; split; [split; [exact (Inv_next _ _ HI)|exact Hmax]|];
           eexists; split; [reflexivity|]; right; exists lb; repeat split; try lia; exact Hz].
  cbn [bind wp h_emit h_lread adv].
  rewrite (w32_id (ab_off (a_rx x) + 4)) by lia. split; [apply inwin; lia|].
  intros bs Hzb Hbb. unfold pktbuf_mk. rewrite !w64_id by lia.
  set (sz := bd_pkt_size (w_b0 w) + 4 + 4). cbn [pk_hdr]. unfold pktbuf_store.
  destruct (wr_some (repeat poison (Z.to_nat sz)) 4 bs) as (d & Hd); [lia|rewrite zlen_repeat; lia|].
  cbn [pk_data pk_id pk_start pk_end pk_size pk_hdr]. rewrite Hd. cbn [deref bind].
  pose proof (wr_zlen _ _ _ _ Hd) as Hzd. rewrite zlen_repeat in Hzd.
  pose proof (rd_wr_same _ _ _ _ Hd) as Hrs. rewrite Hzb in Hrs.
  set (nid := m_next (w_m w)).
  set (pkt := mkPkt nid 4 (4 + packet) sz 4 d).
  assert (wf_pkt pkt) as Hpk by (constructor; cbn [pkt pk_hdr pk_start pk_end pk_size pk_data]; lia).
  apply wp_bind; [apply adv_mono|]. apply wp_kcs_send. intros rc io Hio _.
  set (w' := set_m w (set_next (w_m w) (nid + 1))).
  match goal with |- context [put_ast w' false ?y] => set (x2 := y) end.
  assert (exists s, x2 = a_set_rx_st x s) as (s & Ex2).
  { unfold x2. destruct (rc =? 0); eexists; reflexivity. }
  rewrite put_as_putb. change (bd_pkt_size (bnd w' false)) with (bd_pkt_size (w_b0 w)).
  set (w2 := putb w' x2 (bd_pkt_size (w_b0 w))).
  assert (Inv bmc w2) as HI2.
  { split; [apply (WF_putb (sated a) bmc Ha' Hk'); [now apply WF_next|exact K3]|]. unfold w2. rewrite !ost_putb. split; [exact H1|].
    rewrite Ex2. apply (aok_rx_st bmc (w_b0 w)); [exact Hao|fold x; rewrite Hst; discriminate|exact K3]. }
  destruct (rd_some d 4 1) as (hb & Hhb & Hzh); [lia|lia|lia|].
  change (pk_data pkt) with d. change (pk_hdr pkt) with 4. eapply wp_deref_bind; [exact Hhb|].
  assert (nth 0 hb 0 = nth 0 bs poison) as Hnth.
  { destruct bs as [|b0 bs'].
    - change (zlen (@nil Z)) with 0 in *. apply wr_spec in Hd. destruct Hd as (xa & ya & za & Er & Hxa & Hya & ->).
      change (zlen (@nil Z)) with 0 in Hya. apply zlen_0_nil in Hya. subst ya. cbn [Datatypes.app] in Hhb, Er. rewrite <- Er in Hhb.
      apply rd_spec in Hhb. destruct Hhb as (xb & zb & Er2 & Hxb & _).
      destruct hb as [|h0 [|]]; unfold zlen in Hzh; cbn in Hzh; try lia. cbn.
      apply (repeat_spec (Z.to_nat sz)). rewrite Er2. apply in_or_app. right. now left.
    - rewrite zlen_cons in Hzb. pose proof (zlen_pos _ bs'). replace packet with (1 + (packet - 1)) in Hrs by lia.
      apply rd_split in Hrs; [|lia|lia]. destruct Hrs as [Hrs _]. rewrite Hhb in Hrs. injection Hrs as ->. reflexivity. }
  rewrite Hnth. rewrite <- !app_assoc. cbn [Datatypes.app].
  destruct (nth 0 bs poison =? 1) eqn:Ev1; cbn [negb].
  2:{ unfold pktbuf_free. cbn [bind wp h_emit adv]. split; [split; [exact HI2|exact Hmax]|].
      eexists. split; [rewrite <- !app_assoc; reflexivity|]. cbn [Datatypes.app].
      rewrite <- ?app_assoc. left. apply Tdrop; try assumption; try lia.
      intros [N _]. lia. }
  assert (a_proto x2 = Some v) as -> by (rewrite Ex2; exact Ev).
  pose proof (pktbuf_size_wf pkt Hpk) as Hps. change (pk_end pkt - pk_start pkt) with (4 + packet - 4) in Hps.
  assert (forall p' (ok : bool) gi, Forall io_ev gi -> wf_pkt p' -> pk_id p' = nid ->
      pktbuf_bytes p' = Some (firstn (Z.to_nat body) bs) ->
      (ok = true <-> (v = 3 -> skipn (Z.to_nat body) bs = be32 (crc32 (firstn (Z.to_nat body) bs)))) ->
      wp (adv a)
      (if ok then bus_rx astlpc_tx app w2 false p' else _ <- pktbuf_free p' ;; Ret w2)
      (g ++ EvLRead (ab_off (a_rx x)) lb :: EvAlloc nid :: EvLRead (ab_off (a_rx x) + 4) bs :: gi)
      (fun w' g' => InvO w' /\ exists t, g' = g ++ t /\
         (rx_trace v (ab_off (a_rx x)) (ab_size (a_rx x)) (bd_pkt_size (w_b0 w)) t \/
          exists lb, unread v (ab_off (a_rx x)) (ab_size (a_rx x)) (bd_pkt_size (w_b0 w)) lb /\ t = [EvLRead (ab_off (a_rx x)) lb]))) as Hfin.
  { intros p' ok gi Hgi Hp' Hid Hby' Hok. destruct ok.
    2:{ unfold pktbuf_free; cbn [bind wp h_emit adv]. split; [split; [exact HI2|exact Hmax]|].
        eexists. split; [rewrite <- app_assoc; reflexivity|]. cbn [Datatypes.app]. rewrite Hid.
        left. apply Tdrop; try assumption; try lia. intros [_ N]. apply Hok in N. discriminate. }
    eapply wp_mono; [apply adv_mono| |eapply (wp_starved_rx w2); [exact HI2|exact Hmax|exact Hp'|exact Hby']].
    intros w4 g4 (HI4 & lo & t & -> & Ht). split; [exact HI4|].
    eexists. split; [rewrite <- app_assoc; reflexivity|]. left.
    cbn [Datatypes.app]. rewrite Hid. apply Thand; try assumption; try lia.
    split; [lia|]. apply Hok. reflexivity. }
  unfold pktbuf_validate. destruct ((v =? 1) || (v =? 2)) eqn:Ev12.
  { cbn [bind]. apply (Hfin pkt true io); [exact Hio|exact Hpk|reflexivity| |split; [lia|reflexivity]].
    unfold pktbuf_bytes. rewrite Hps. change (pk_data pkt) with d. change (pk_hdr pkt) with 4.
    assert (packet = body) as Epb by (unfold packet, extra; replace (v =? 3) with false by lia; lia).
    replace (4 + packet - 4) with packet by lia. rewrite Hrs. rewrite firstn_all2; [reflexivity|].
    unfold zlen in Hzb. lia. }
  assert (v = 3) as Ev3 by lia. replace (v =? 3) with true by lia.
  assert (packet = body + 4) as Hpb by (unfold packet; rewrite Ev3; change (extra 3) with 8; lia).
  rewrite Hps. replace (4 + packet - 4) with packet by lia. rewrite w64_id by lia.
  rewrite Hpb in Hrs. apply rd_split in Hrs; [|lia|lia]. destruct Hrs as [Hcb Hck].
  replace (packet - 4) with body by lia.
  change (pk_data pkt) with d. change (pk_hdr pkt) with 4. rewrite Hcb. cbn [deref bind].
  unfold pktbuf_pop. rewrite Hps. replace (4 + packet - 4 <? 4) with false by lia.
  change (pk_end pkt) with (4 + packet). rewrite w64_id by lia.
  cbn [pk_data]. change (pk_data pkt) with d. replace (4 + packet - 4) with (4 + body) by lia.
  rewrite Hck. cbn [deref bind].
  apply (Hfin _ _ io); [exact Hio| |reflexivity| |].
  - constructor; cbn [pkt pk_hdr pk_start pk_end pk_size pk_data]; lia.
  - assert (wf_pkt (mkPkt nid 4 (4 + body) sz 4 d)) as Hwf by (constructor; cbn [pk_hdr pk_start pk_end pk_size pk_data]; lia).
    cbn [pk_start pk_end pk_id pk_size pk_hdr pk_data pkt].
    unfold pktbuf_bytes. rewrite (pktbuf_size_wf _ Hwf). cbn [pk_hdr pk_start pk_end pk_size pk_data].
    replace (4 + body - 4) with body by lia. exact Hcb.
  - rewrite (list_eqb_eq (sated a) bmc Ha' Hk'). split; intros E; [intros _; congruence|]. symmetry. auto.
Qed.

(** The rest of a poll allocates nothing. *)
Lemma wp_lim (p : prog world) (w : world) g : m_max (w_m w) < 8192 ->
  calmly (lim (m_max (w_m w))) p -> wp (adv (sated a)) p g (fun w' _ => Inv bmc w') ->
  wp (adv a) p g (fun w' _ => InvO w').
Proof.
  intros Hm Hc Hw. eapply wp_mono; [apply adv_mono| |apply wp_calmly; [exact Hc|exact Hw]].
  cbn beta. intros w' g' [E HI]. unfold lim in E. split; [exact HI|lia].
Qed.
Lemma wp_lim1 (p : prog (world * Z)) (w : world) g : m_max (w_m w) < 8192 ->
  calmly (lim1 (m_max (w_m w))) p -> wp (adv (sated a)) p g (fun r _ => Inv bmc (fst r)) ->
  wp (adv a) p g (fun r _ => InvO (fst r)).
Proof.
  intros Hm Hc Hw. eapply wp_mono; [apply adv_mono| |apply wp_calmly; [exact Hc|exact Hw]].
  cbn beta. intros r g' [E HI]. unfold lim1, lim in E. split; [exact HI|lia].
Qed.
Lemma wp_tail_oom (w : world) st data rc g : InvO w -> kval_ok a KStatus st = true ->
  wp (adv a) (poll_tail w false st data rc) g (fun r _ => InvO (fst r)).
Proof.
  intros [HI Hm] Hst. apply (wp_lim1 _ w); [exact Hm|now apply calmly_tail|].
  apply (wp_poll_tail (sated a) bmc Ha' Hk'); assumption.
Qed.

Lemma wp_poll_oom (w : world) g : InvO w -> wp (adv a) (poll app w false) g (fun r _ => InvO (fst r)).
Proof.
  intros HI. unfold poll.
  eapply wp_call with (P := fun x _ => InvO (put_ast w false x)); [apply adv_mono| |].
  { unfold poll_release_rx. destruct (ab_st (a_rx (ast w false))) eqn:Es; try (cbn [wp]; rewrite Inv_same; exact HI).
    apply wp_bind; [apply adv_mono|]. apply wp_kcs_send. intros rc io _ _. cbn [wp].
    destruct (rc =? 0); [|rewrite Inv_same; exact HI]. destruct HI as [HI Hm]. split; [|exact Hm].
    apply (Inv_rx_st (sated a) bmc Ha' Hk'); [exact HI|congruence]. }
  intros x1 g1 HI1. set (w1 := put_ast w false x1) in *.
  eapply wp_call with (P := fun x _ => InvO (put_ast w1 false x)); [apply adv_mono| |].
  { change x1 with (ast w1 false).
    unfold poll_release_tx. destruct (ab_st (a_tx (ast w1 false))) eqn:Es; try (cbn [wp]; rewrite Inv_same; exact HI1).
    apply wp_bind; [apply adv_mono|]. apply wp_kcs_send. intros rc io _ _. cbn [wp].
    destruct (rc =? 0); [|rewrite Inv_same; exact HI1]. destruct HI1 as [HI1 Hm]. split; [|exact Hm].
    apply (Inv_tx_st (sated a) bmc Ha' Hk'); [exact HI1|rewrite Es; now left|now right]. }
  intros x2 g2 HI2'. change (put_ast w1 false x2) with (put_ast w false x2) in HI2'. set (w2 := put_ast w false x2) in *.
  pose proof HI2' as HI2. cbn [wp h_kread adv]. split; [|intros _; exact HI2].
  intros st Hst Hkst. destruct (negb (kcs_read_ready x2 st)); [exact HI2|].
  cbn [wp h_kread adv]. split; [|intros _; exact HI2].
  intros data Hdata Hkd. unfold poll_dispatch.
  pose proof HI2 as ((HIw & HIo & Hao) & Hm). destruct (ao_ver _ _ _ Hao) as (v & Ev & Rv & _).
  eapply wp_deref_bind; [exact Ev|].
  destruct ((v =? 0) && negb ((data =? cmd_initialise) || (data =? cmd_dummy_value))) eqn:E0; [exact HI2|].
  unfold cmd_initialise, cmd_tx_begin, cmd_rx_complete, cmd_dummy_value in *.
  destruct (data =? 0) eqn:D0.
  { destruct (Bool.bool_dec bmc true) as [Eb|Eb].
    - eapply wp_call; [apply adv_mono|apply (wp_lim _ w2); [exact Hm|now apply calmly_init_channel|
        apply (wp_init_channel (sated a) bmc Ha' Hk'); [exact Eb|exact (proj1 HI2)]]|].
      intros w3 g3 HI3. now apply wp_tail_oom.
    - exfalso. apply Bool.not_true_is_false in Eb. destruct (Hk Eb data) as [Hd _]. specialize (Hd Hkd). lia. }
  destruct (data =? 1) eqn:D1.
  { destruct (ab_st (a_rx (ast w2 false))) eqn:Es; try exact HI2.
    eapply wp_call; [apply adv_mono|eapply (wp_rx_start_oom w2 v); [exact HI2|exact Ev|lia|exact Es]|].
    intros w3 g3 [HI3 _]. now apply wp_tail_oom. }
  destruct (data =? 2) eqn:D2.
  { destruct (ab_st (a_tx (ast w2 false))) eqn:Es; try exact HI2.
    eapply wp_call; [apply adv_mono|apply (wp_lim _ w2); [exact Hm|now apply calmly_tx_complete|
      eapply (wp_tx_complete (sated a) bmc Ha' Hk' w2 v); [exact (proj1 HI2)|exact Ev|lia|exact Es]]|].
    intros w3 g3 HI3. now apply wp_tail_oom. }
  destruct (data =? 255) eqn:D3; [|now apply wp_tail_oom].
  pose proof (ao_mode _ _ _ Hao) as Hmo. unfold ast at 1. cbn [bnd]. rewrite Hmo.
  destruct (Bool.bool_dec bmc true) as [Eb|Eb]; [rewrite Eb; now apply wp_tail_oom|].
  apply Bool.not_true_is_false in Eb. rewrite Eb.
  eapply wp_call; [apply adv_mono|apply (wp_lim1 _ w2); [exact Hm|now apply calmly_update|
    apply (wp_update (sated a) bmc Ha' Hk'); [exact Eb|exact (proj1 HI2)|exact Hkst]]|].
  intros [w3 rc] g3 HI3. cbn [fst] in HI3. destruct (rc <? 0); [exact HI3|now apply wp_tail_oom].
Qed.

Lemma wp_aop_oom (w : world) o g : InvO w -> ast_receiving o ->
  wp (adv a) (aexec_op app w o) g (fun w' _ => InvO w').
Proof.
  intros HI Ho. pose proof HI as ((Hw & H1 & H2) & Hm). unfold aexec_op. destruct o as [o|i].
  - unfold exec_op. rewrite (wf_dead _ _ Hw).
    destruct o as [n|b|b|eid| | | |i p|eid to tag msg|i en|i b|i n]; cbn [ast_receiving] in Ho; try contradiction;
      (cbn [wp]; split; [split; [destruct Hw; constructor; try assumption|split; assumption]|try exact Hm]).
    + cbn. lia.
    + cbn. lia.
  - cbn in Ho. subst i. rewrite (wf_dead _ _ Hw).
    eapply wp_call; [apply adv_mono|apply wp_poll_oom; exact HI|].
    intros [w' rc] g' HI'. cbn [wp h_emit adv fst] in *. exact HI'.
Qed.
Lemma wp_aexec_oom : forall l (w : world) g, InvO w -> Forall ast_receiving l ->
  wp (adv a) (aexec app w l) g (fun w' _ => InvO w').
Proof.
  induction l as [|o l IH]; intros w g HI Hl; cbn [aexec]; [exact HI|].
  inversion_clear Hl as [|? ? Ho Hl']. eapply wp_call; [apply adv_mono|apply wp_aop_oom; assumption|].
  intros w' g' HI'. apply IH; assumption.
Qed.
End Walk.

(** ** C76: receiving under memory shortage is safe *)

(** As [ast_assm], but any allocation may fail. *)
Definition starved (bmc : bool) : assm := mkAssm true true false (kval_ok (ast_assm bmc)).

(** C76.  From any state an endpoint reaches, once the application has set a message limit
    below 8192 and while it only receives, no pattern of failing allocations makes it
    fault, whatever the peer does; and when memory is back, everything works on: no
    traffic faults. *)
Theorem C76_survived app bmc mtu eid l0 e0 n0 tr0 w k l :
  ast_reach app bmc mtu eid l0 e0 n0 tr0 w -> (forall e, app e = []) -> 0 <= k < 8192 -> Forall ast_receiving l ->
  always (starved bmc) (aexec app w (ACore (OpSetMax k) :: l)) (fun w' _ =>
    forall app' l', Forall ast_traffic l' -> always (ast_assm bmc) (aexec app' w' l') (fun _ _ => True)).
Proof.
  intros Hr Hs Hkk Hl. pose proof (reach_inv _ _ _ _ _ _ _ _ _ Hr) as HI.
  assert (bmc = false -> kv_host (starved bmc)) as Hkv by (intros ->; exact (ast_kv false eq_refl)).
  apply adv_always. cbn [aexec]. eapply wp_call; [apply adv_mono| |].
  { instantiate (1 := fun w' _ => InvO bmc w'). cbn [aexec_op]. unfold exec_op.
    destruct HI as (Hw & H1 & H2). rewrite (wf_dead _ _ Hw). cbn [wp]. split; [|cbn; lia].
    split; [destruct Hw; constructor; try assumption; cbn; lia|]. split; assumption. }
  intros w1 g1 HI1. eapply wp_mono; [apply adv_mono| |apply (wp_aexec_oom app Hs (starved bmc) bmc Hkv l w1 g1 HI1 Hl)].
  cbn beta. intros w' g' [HI' _] app' l' Hl'. apply adv_always.
  eapply wp_mono; [apply adv_mono| |apply (wp_aexec app' (ast_assm bmc) bmc (ast_oom bmc) (ast_kv bmc) l' w' [] HI' Hl')]. auto.
Qed.

(** ** C76: a packet buffer that cannot be allocated wedges the channel *)

(** The side has written Rx Complete (or tried to). *)
Definition handed_back (e : event) : Prop := match e with EvKWrite KData 2 _ => True | _ => False end.
(** The peer's command waits in the register. *)
Definition commanded (bmc : bool) (st : Z) : bool := tst st (if bmc then 2 else 1).

Section Wedge.
Variable app : event -> list txreq.
Variable bmc : bool.
Notation world := (world astlpc).
Definition mute : answers := mkAns (fun r v => match r with KStatus => negb (commanded bmc v) | KData => true end) (fun _ _ => True).
Definition silentish (_ : list event) (e : event) : Prop := ~ handed_back e.
Definition anyK (_ : list event) (_ : astlpc) : Prop := True.

Lemma foot_conj kv ok A (p : prog A) (R : A -> Prop) : forall g Q, res R p -> foot kv ok p g Q -> foot kv ok p g (fun x g' => R x /\ Q x g').
Proof.
  induction p as [x|f|r k IH|r v k IH|o l k IH|o bs k IH|bs k IH|k IH|ev k IH]; intros g Q Hr Hf; cbn [foot res] in *; auto.
  - intros v Hv. destruct (Hf v Hv). auto.
  - intros b. destruct (Hf b). auto.
  - intros E bs Z1 Z2. destruct (Hf E bs Z1 Z2). auto.
  - intros E. destruct (Hf E). auto.
  - intros r Hrr. destruct (Hf r Hrr). auto.
  - destruct Hf. auto.
Qed.
Lemma ok_core g e : ~ io_ev e -> silentish g e.
Proof. intros H. unfold silentish. intros Hh. destruct e; cbn in *; tauto. Qed.
Lemma mute_send x g (Q : Z -> list event -> Prop) : (forall rc g', Q rc g') -> foot mute silentish (kcs_send x 1) g Q.
Proof.
  intros H. unfold kcs_send. cbn [foot]. intros v _. split; [exact (fun y => y)|].
  destruct v as [st|]; [|apply H]. destruct (negb _); [apply H|]. cbn [foot]. intros b. split; [exact (fun y => y)|].
  destruct b; apply H.
Qed.
Lemma plain_body p n : plainp (body_size p n).
Proof. unfold body_size. plain. Qed.
Lemma mute_tx g (x : astlpc) p : anyK g x -> foot mute silentish (astlpc_tx x p) g (fun r g' => anyK g' (fst (fst (fst r)))).
Proof.
  intros _. unfold astlpc_tx. cbv zeta. apply (foot_pcall _ _ ok_core); [apply plain_body|]. intros m t.
  destruct (_ <? _); [exact I|]. cbn [foot]. intros _. split; [exact (fun y => y)|].
  apply (foot_pcall _ _ ok_core); [unfold pktbuf_protect; plain|]. intros pkt' t1.
  apply (foot_pcall _ _ ok_core); [plain|]. intros bs t2. cbn [foot]. intros _. split; [exact (fun y => y)|].
  apply foot_bind, mute_send. intros rc g'. exact I.
Qed.
Definition still_released (w : world) : Prop := a_bmc (ast w false) = bmc /\ ab_st (a_rx (ast w false)) = Released.
Lemma mute_aop (w : world) o g : still_released w -> ast_traffic o ->
  foot mute silentish (aexec_op app w o) g (fun w' _ => still_released w').
Proof.
  intros [Hb Hs] Ho. unfold aexec_op. destruct o as [o|i].
  - unfold exec_op. destruct (m_dead (w_m w)); [exact I|].
    destruct o as [n|b|b|eid| | | |i p|eid to tag msg|i en|i b|i n]; cbn [ast_traffic] in Ho; try contradiction; try (split; assumption).
    eapply foot_call.
    + apply (foot_conj _ _ _ _ (fun r => keep w (fst r))); [apply res_message_tx|].
      apply (foot_message astlpc_tx mute silentish anyK ok_core (fun _ _ _ _ => I) mute_tx). split; exact I.
    + intros [w' rc] t [K _]. cbn [fst] in K. cbn [foot]. split; [split; exact (fun y => y)|].
      destruct K as [(A1 & A2 & A3 & A4) _]. split; congruence.
  - cbn in Ho. subst i. destruct (m_dead (w_m w)); [exact I|].
    unfold poll, poll_release_rx. rewrite Hs. cbn [bind].
    eapply foot_call with (P := fun r _ => still_released (fst r)).
    + eapply foot_call with (P := fun x _ => a_bmc x = bmc /\ ab_st (a_rx x) = Released).
      { unfold poll_release_tx. destruct (ab_st (a_tx _)); try (split; assumption).
        apply foot_bind, mute_send. intros rc g'. cbn [foot]. destruct (rc =? 0); split; assumption. }
      intros x t [X1 X2]. cbv zeta. cbn [foot]. intros st Hst. split; [exact (fun y => y)|]. destruct st as [st|]; [|split; assumption].
      assert (kcs_read_ready x st = false) as ->.
      { specialize (Hst st eq_refl). cbn [mute an_kread commanded] in Hst. unfold kcs_read_ready, kcs_ready, ST_IBF, ST_OBF.
        rewrite X1. unfold commanded in Hst. destruct bmc; cbn [xorb negb] in *; destruct (tst st _); try discriminate; reflexivity. }
      split; assumption.
    + intros [w' rc] t Hw. cbn [foot]. split; [split; exact (fun y => y)|exact Hw].
Qed.
Lemma mute_aexec : forall l (w : world) g, still_released w -> Forall ast_traffic l ->
  foot mute silentish (aexec app w l) g (fun w' _ => still_released w').
Proof.
  induction l as [|o l IH]; intros w g Hw Hl; cbn [aexec]; [exact Hw|]. inversion_clear Hl as [|? ? Ho Hl'].
  eapply foot_call; [apply mute_aop; assumption|]. intros w' t Hw'. now apply IH.
Qed.
End Wedge.

(** C76, the other half.  A side reads the peer's Tx Begin for a packet of legal length
    and cannot allocate the packet buffer: that poll returns 0 having written nothing; and
    from then on, until the peer sends some command -- which it will not, as it waits for
    its buffer -- no history of polls and transmissions ever writes Rx Complete, however much
    memory there is: one failed allocation ends the peer's transmissions. *)
Theorem C76_wedged app bmc mtu eid l0 e0 n0 tr0 w v e n st :
  ast_reach app bmc mtu eid l0 e0 n0 tr0 w -> a_proto (ast w false) = Some v -> v <> 0 ->
  ab_st (a_rx (ast w false)) = Released -> ab_st (a_tx (ast w false)) <> Prepared ->
  kread_val (e_kread e n KStatus) = Some st -> commanded bmc st = true ->
  (bmc = false -> tst st 128 = tst (a_kcs (ast w false)) 128 /\ tst st 64 = tst (a_kcs (ast w false)) 64) ->
  kread_val (e_kread e (S n) KData) = Some 1 ->
  let lb := mem_bytes (e_mem e (S (S n))) (ab_off (a_rx (ast w false))) 4 in
  unbe32 lb <= ab_size (a_rx (ast w false)) - extra v -> unbe32 lb <= bd_pkt_size (bnd w false) ->
  e_alloc e (S (S (S n))) = false ->
  exists w',
    run e n [] (poll app w false) = Done (w', 0) (S (S (S (S n))))
      [EvKRead KStatus (Some st); EvKRead KData (Some 1); EvLRead (ab_off (a_rx (ast w false))) lb] /\
    forall e' n' l, (forall m s, kread_val (e_kread e' m KStatus) = Some s -> commanded bmc s = false) ->
      Forall ast_traffic l -> ~ Exists handed_back (events (run e' n' [] (aexec app w' l))).
Proof.
  intros Hr Ev Hv0 Hrx Htx Hst Hcm Hsame Hd lb Hl1 Hl2 Hal.
  pose proof (reach_inv _ _ _ _ _ _ _ _ _ Hr) as HI. pose proof HI as (Hw & H1 & Hao).
  pose proof Hao as [K1 K2 K3 K4 K5 K6 K7 K8 Ky K9].
  pose proof (ao_mode _ _ _ Hao) as Km.
  assert (0 <= unbe32 lb) as Hlb.
  { destruct (mem_bytes_ok (e_mem e (S (S n))) (ab_off (a_rx (ast w false))) 4) as [Z1 Z2]; [clear; lia|].
    pose proof (unbe32_range lb Z1 Z2) as HH. clear - HH. lia. }
  assert (exists w', run e n [] (poll app w false) = Done (w', 0) (S (S (S (S n))))
      [EvKRead KStatus (Some st); EvKRead KData (Some 1); EvLRead (ab_off (a_rx (ast w false))) lb] /\ still_released bmc w') as (w' & E & Hs).
  2:{ exists w'. split; [exact E|]. intros e' n' l Hmute Hl.
      destruct (foot_sound (mute bmc) silentish _ _ _ _ (mute_aexec app bmc l w' [] Hs Hl) I e' n') as [H _].
      - intros m r s Hrd. destruct r; cbn [mute an_kread]; try reflexivity. now rewrite (Hmute m s Hrd).
      - intros; exact I.
      - intros Hex. apply Exists_exists in Hex. destruct Hex as (ev & Hin & Hh).
        apply in_split in Hin. destruct Hin as (a & b & Hab). rewrite Hab in H. apply each_app in H. destruct H as [_ H].
        cbn [each] in H. exact (proj1 H Hh). }
  unfold ast in *. cbn [bnd] in *.
  change (bnd w false) with (w_b0 w) in *. set (x := bd_priv (w_b0 w)) in *.
  destruct K6 as (v' & E' & Rv & _). rewrite Ev in E'. injection E' as <-.
  destruct K7 as [(G1 & G2 & G3) _]; [right; left; rewrite Hrx; discriminate|].
  fold x in G1, G2, G3. fold (a_rx x) in *.
  assert (1 <= v <= 3) as Hv by (clear - Rv Hv0; lia). pose proof (extra_range v) as Ex.
  clear HI Hao Hw Hr K4 K5 K8 Ky K9 H1.
  unfold poll. unfold ast at 1. cbn [bnd]. fold x. unfold poll_release_rx. rewrite Hrx. cbn [bind].
  assert (poll_release_tx x = Ret x) as ->.
  { unfold poll_release_tx. destruct (ab_st (a_tx x)); try reflexivity. contradiction. }
  cbn [bind]. replace (put_ast w false x) with w by (destruct w as [? [] ?]; reflexivity).
  cbn [run]. rewrite Hst. replace (kcs_read_ready x st) with true.
  2:{ unfold kcs_read_ready, kcs_ready, ST_IBF, ST_OBF. rewrite Km. unfold commanded in Hcm. destruct bmc; cbn [xorb negb]; rewrite Hcm; reflexivity. }
  cbn [negb run]. rewrite Hd. unfold poll_dispatch. unfold ast at 1. cbn [bnd]. fold x. rewrite Ev. cbn [deref bind].
  replace (v =? 0) with false by lia. cbn [andb]. unfold cmd_initialise, cmd_tx_begin. cbn [Z.eqb Pos.eqb].
  unfold ast at 1. cbn [bnd]. fold x. rewrite Hrx. rewrite run_bind.
  unfold rx_start, ast. cbn [bnd run]. fold x. rewrite inwin by lia. fold lb.
  rewrite Ev. rewrite body_size_ok by lia. cbn [bind].
  replace (ab_size (a_rx x) - extra v <? unbe32 lb) with false by lia.
  replace (bd_pkt_size (w_b0 w) <? unbe32 lb) with false by lia.
  rewrite packet_size_ok by lia. cbn [bind]. rewrite (w32_id (unbe32 lb + extra v - 4)) by lia.
  unfold pktbuf_alloc. rewrite K1, K2. rewrite w64_id by lia.
  replace (bd_pkt_size (w_b0 w) + 4 + 4 <? unbe32 lb + extra v - 4) with false by lia. cbn [bind run]. rewrite Hal. cbn [bind run].
  unfold poll_tail, ast. cbn [bnd set_m w_b0]. fold x. destruct bmc eqn:Eb.
  { rewrite Km. cbn [negb andb run]. eexists. split; [reflexivity|]. split; [exact Km|exact Hrx]. }
  rewrite Km. cbn [negb andb]. replace (tst st ST_BMC_READY && (1 =? cmd_dummy_value)) with false
    by (unfold cmd_dummy_value; cbn; now rewrite andb_false_r).
  cbn [negb]. unfold update_channel, ast. cbn [bnd set_m w_b0]. fold x. rewrite Km. cbn [negb assert_ bind]. cbv zeta.
  destruct (Hsame eq_refl) as [S1 S2]. rewrite tst_xor_ready, tst_xor_active. unfold ST_BMC_READY, ST_ACTIVE.
  rewrite S1, S2, !xorb_nilpotent. cbn [andb bind]. cbn [w_b0 set_m]. fold x. rewrite Ev. cbn [deref bind]. replace (v =? 0) with false by lia.
  cbn [orb bind run]. eexists. split; [reflexivity|]. split; [exact Km|exact Hrx].
Qed.

(** ** The hypotheses are met *)

(** The host of [demo_env] runs out of memory when the BMC's first packet arrives. *)
Definition deaf_env : env :=
  mkEnv (fun _ => true) (fun _ _ => Some 192) (fun _ => true) demo_mem (fun _ => 1).
Example C76_case : exists n tr w,
  ast_reach no_app false 64 9 [ACore (OpSetRx true); APoll false] demo_env n tr w /\
  a_proto (ast w false) = Some 3 /\ ab_st (a_rx (ast w false)) = Released /\ ab_st (a_tx (ast w false)) <> Prepared /\
  exists m, let e := mkEnv (fun k => negb (k =? S (S (S m)))%nat) (e_kread demo_env) (e_kwrite demo_env) (e_mem demo_env) (e_swrite demo_env) in
  kread_val (e_kread e m KStatus) = Some 193 /\ commanded false 193 = true /\
  tst 193 128 = tst (a_kcs (ast w false)) 128 /\ tst 193 64 = tst (a_kcs (ast w false)) 64 /\
  kread_val (e_kread e (S m) KData) = Some 1 /\
  unbe32 (mem_bytes (e_mem e (S (S m))) (ab_off (a_rx (ast w false))) 4) = 7 /\
  7 <= ab_size (a_rx (ast w false)) - extra 3 /\ 7 <= bd_pkt_size (bnd w false) /\ e_alloc e (S (S (S m))) = false /\
  (* with the memory available, the same poll hands the buffer back *)
  match run demo_env m [] (poll no_app w false) with
  | Done _ _ t => Exists handed_back t /\ In (EvRx 8 true 0 [5; 77; 78]) t
  | Fault _ _ => False
  end /\
  (forall m s, kread_val (e_kread deaf_env m KStatus) = Some s -> commanded false s = false).
Proof.
  destruct (run demo_env 0 [] (ast_history no_app false 64 9 [ACore (OpSetRx true); APoll false])) as [w n tr|f tr] eqn:E; [|vm_compute in E; discriminate].
  exists n, tr, w. pose proof E as E0. vm_compute in E. injection E as <- <- <-. split.
  { split; [cbn; lia|]. split; [repeat constructor|]. split; [apply demo_ok|]. split; [exact E0|reflexivity]. }
  split; [reflexivity|]. split; [reflexivity|]. split; [discriminate|]. exists 12%nat. cbv zeta.
  do 9 (split; [first [vm_compute; reflexivity|vm_compute; discriminate]|]).
  split; [vm_compute; split; [|repeat (try (left; reflexivity); right)]|].
  - repeat first [apply Exists_cons_hd; exact I|apply Exists_cons_tl].
  - intros m s. cbn. intros [= <-]. reflexivity.
Qed.

(** That the endpoint only receives is needed: transmitting without memory faults. *)
Definition broke_env : env :=
  mkEnv (fun n => (n <? 8)%nat) (e_kread demo_env) (e_kwrite demo_env) (e_mem demo_env) (e_swrite demo_env).
Theorem C76_transmit_faults :
  let l := [APoll false; ACore (OpTx 8 true 1 [5; 6])] in
  Forall ast_traffic l /\ can_fault (starved false) (ast_history no_app false 64 9 l) NullDeref.
Proof.
  cbv zeta. split; [repeat constructor|]. apply (by_fault _ broke_env).
  - destruct demo_ok as (_ & H2 & H3 & H4). split; [discriminate|]. split; [exact H2|]. split; [exact H3|exact H4].
  - vm_compute. reflexivity.
Qed.
