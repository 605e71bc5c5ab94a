(** AstRx: what one poll of the astlpc binding does with a received packet (C36). *)
From Verif Require Import Base Lists Prog PktBuf Core WP Walk CoreRel WalkCore CoreHist Spec SpecRx PropRx Crc PropCrc
  SpecSer Astlpc SpecAst AstBasic AstWalk Concrete PropAst CrcSpan.

Local Notation world := (world astlpc).

(** ** Programs that receive nothing *)

(** Neither the reception nor the delivery of a packet, nor the reading of a command,
    nor the allocation of a packet buffer. *)
Definition plain (e : event) : Prop :=
  quiet_ev e /\ match e with EvKRead KData _ | EvAlloc _ => False | _ => True end.

(** Every event [p] can emit is plain, and it reads no command. *)
Fixpoint only {A} (p : prog A) : Prop :=
  match p with
  | Ret _ | Flt _ => True
  | KRead r k => r = KStatus /\ forall v, only (k v)
  | KWrite _ _ k => forall ok, only (k ok)
  | LRead _ _ k => forall bs, only (k bs)
  | LWrite _ _ k => only k
  | SWrite _ k => forall r, only (k r)
  | Malloc k => forall ok, only (k ok)
  | Emit e k => plain e /\ only k
  end.

Lemma only_bind A B (p : prog A) (f : A -> prog B) :
  only p -> (forall x, only (f x)) -> only (bind p f).
Proof.
  intros Hp Hf. induction p as [x|f0|r k IH|r v k IH|o n k IH|o bs k IH|bs k IH|k IH|e k IH];
    cbn [only bind] in *; auto.
  - destruct Hp. auto.
  - destruct Hp. auto.
Qed.

Lemma wp_only a A (p : prog A) : forall g Q, only p -> wp (adv a) p g Q ->
  wp (adv a) p g (fun x g' => Q x g' /\ exists t, g' = g ++ t /\ Forall plain t).
Proof.
  assert (forall (e : event) g g' t, plain e -> g' = (g ++ [e]) ++ t /\ Forall plain t ->
            exists t', g' = g ++ t' /\ Forall plain t') as Hstep.
  { intros e g g' t He [-> Ht]. exists (e :: t). rewrite <- app_assoc. split; [reflexivity|now constructor]. }
  induction p as [x|f0|r k IH|r v k IH|o n k IH|o bs k IH|bs k IH|k IH|e k IH];
    cbn [only wp h_kread h_kwrite h_lread h_lwrite h_swrite h_alloc h_emit adv]; intros g Q Ho Hp.
  - split; [exact Hp|]. exists []. now rewrite app_nil_r.
  - exact Hp.
  - destruct Ho as [-> Ho]. destruct Hp as [H1 H2]. split.
    + intros v Hv Hk. eapply wp_mono; [apply adv_mono| |apply IH; [apply Ho|apply H1; assumption]].
      cbn beta. intros x g' (HQ & t & E). split; [exact HQ|]. eapply Hstep; [|exact E]. repeat split.
    + intros Hk. eapply wp_mono; [apply adv_mono| |apply IH; [apply Ho|apply H2; assumption]].
      cbn beta. intros x g' (HQ & t & E). split; [exact HQ|]. eapply Hstep; [|exact E]. repeat split.
  - destruct Hp as [H1 H2]. split.
    + eapply wp_mono; [apply adv_mono| |apply IH; [apply Ho|apply H1; assumption]].
      cbn beta. intros x g' (HQ & t & E). split; [exact HQ|]. eapply Hstep; [|exact E]. repeat split.
    + intros Hk. eapply wp_mono; [apply adv_mono| |apply IH; [apply Ho|apply H2; assumption]].
      cbn beta. intros x g' (HQ & t & E). split; [exact HQ|]. eapply Hstep; [|exact E]. repeat split.
  - destruct Hp as [H1 H2]. split; [exact H1|]. intros bs Hz Hb.
    eapply wp_mono; [apply adv_mono| |apply IH; [apply Ho|apply H2; assumption]].
    cbn beta. intros x g' (HQ & t & E). split; [exact HQ|]. eapply Hstep; [|exact E]. repeat split.
  - destruct Hp as [H1 H2]. split; [exact H1|].
    eapply wp_mono; [apply adv_mono| |apply IH; [apply Ho|apply H2; assumption]].
    cbn beta. intros x g' (HQ & t & E). split; [exact HQ|]. eapply Hstep; [|exact E]. repeat split.
  - intros r Hr Hs. eapply wp_mono; [apply adv_mono| |apply IH; [apply Ho|apply Hp; assumption]].
    cbn beta. intros x g' (HQ & t & E). split; [exact HQ|]. eapply Hstep; [|exact E]. repeat split.
  - destruct Hp as [H1 H2]. split; [now apply IH|]. intros Hm. now apply IH; [|apply H2].
  - destruct Ho as [He Ho]. eapply wp_mono; [apply adv_mono| |apply IH; [exact Ho|exact Hp]].
    cbn beta. intros x g' (HQ & t & E). split; [exact HQ|]. eapply Hstep; [|exact E].
    exact He.
Qed.

Lemma only_deref A f (o : option A) : only (deref f o).
Proof. destruct o; exact I. Qed.
Lemma only_assert b : only (assert_ b).
Proof. destruct b; exact I. Qed.

Ltac only_step :=
  match goal with
  | |- only (bind _ _) => apply only_bind
  | |- only (deref _ _) => apply only_deref
  | |- only (assert_ _) => apply only_assert
  | |- only (Emit _ _) => cbn [only]; split; [split; exact I|]
  | |- only (Ret _) => exact I
  | |- only (Flt _) => exact I
  | |- only (KRead KStatus _) => cbn [only]; split; [reflexivity|]
  | |- only (KWrite _ _ _) => cbn [only]
  | |- only (LRead _ _ _) => cbn [only]
  | |- only (LWrite _ _ _) => cbn [only]
  | |- only (Malloc _) => cbn [only]
  | |- only (if ?b then _ else _) => destruct b
  | |- only (match ?x with _ => _ end) => destruct x
  | |- forall _, _ => intro
  | |- True => exact I
  | |- plain _ => split; exact I
  | |- _ /\ _ => split
  | |- KStatus = KStatus => reflexivity
  | |- only (let _ := _ in _) => cbv zeta
  end.
Ltac only_tac := repeat only_step.

Lemma only_packet_size p n : only (packet_size p n).
Proof. unfold packet_size. only_tac. Qed.
Lemma only_body_size p n : only (body_size p n).
Proof. unfold body_size. only_tac. Qed.
Lemma only_buffer_validate p b : only (buffer_validate p b).
Proof. unfold buffer_validate. only_tac. apply only_packet_size. Qed.
Lemma only_layout_validate p l : only (layout_validate p l).
Proof. unfold layout_validate. only_tac; apply only_buffer_validate. Qed.
Lemma only_layout_read x : only (layout_read x).
Proof. unfold layout_read. only_tac. Qed.
Lemma only_layout_write x l : only (layout_write x l).
Proof. unfold layout_write. only_tac. Qed.
Lemma only_kcs_send x c : only (kcs_send x c).
Proof. unfold kcs_send. only_tac. Qed.
Lemma only_set_status x : only (kcs_set_status x).
Proof. unfold kcs_set_status. only_tac. Qed.
Lemma only_protect p k : only (pktbuf_protect p k).
Proof. unfold pktbuf_protect, pktbuf_push, pktbuf_push_len. only_tac. Qed.
Lemma only_tx x p : only (astlpc_tx x p).
Proof. unfold astlpc_tx. only_tac; auto using only_body_size, only_protect, only_kcs_send. Qed.
Lemma only_get_bus (m : mctp) i : only (get_bus m i).
Proof. unfold get_bus. only_tac. Qed.
Lemma only_packet_tx (w : world) i p : only (packet_tx astlpc_tx w i p).
Proof. unfold packet_tx. only_tac; auto using only_get_bus, only_tx. Qed.
Lemma only_send_loop : forall n (w : world) i, only (send_loop astlpc_tx n w i).
Proof.
  induction n as [|n IH]; intros w i; cbn [send_loop]; only_tac; auto using only_get_bus, only_packet_tx.
  unfold pktbuf_free. only_tac.
Qed.
Lemma only_set (w : world) i en : only (set_tx_enabled astlpc_tx w i en).
Proof. unfold set_tx_enabled, send_tx_queue. only_tac; auto using only_get_bus, only_send_loop. Qed.
Lemma only_calculate x l : only (calculate_mtu x l).
Proof. unfold calculate_mtu. only_tac; auto using only_packet_size, only_body_size. Qed.
Lemma only_neg_bmc (w : world) i : only (negotiate_layout_bmc w i).
Proof.
  unfold negotiate_layout_bmc. only_tac;
    auto using only_layout_read, only_layout_validate, only_calculate, only_packet_size, only_layout_write.
Qed.
Lemma only_init_channel (w : world) i : only (init_channel w i).
Proof. unfold init_channel. only_tac; auto using only_neg_bmc, only_set_status, only_set. Qed.
Lemma only_tx_complete (w : world) i : only (tx_complete w i).
Proof. apply only_set. Qed.
Lemma only_neg_host x : only (negotiate_layout_host x).
Proof.
  unfold negotiate_layout_host. only_tac;
    auto using only_layout_read, only_layout_validate, only_packet_size, only_layout_write.
Qed.
Lemma only_init_host x : only (init_host x).
Proof. unfold init_host. only_tac; auto using only_neg_host. Qed.
Lemma only_init_bmc x : only (init_bmc x).
Proof.
  unfold init_bmc. only_tac; auto using only_body_size, only_packet_size, only_layout_validate, only_set_status.
Qed.
Lemma only_start x : only (astlpc_start x).
Proof. unfold astlpc_start, start_bmc. only_tac; auto using only_init_bmc, only_init_host. Qed.
Lemma only_finalise (w : world) i : only (finalise_channel w i).
Proof. unfold finalise_channel. only_tac; auto using only_layout_read, only_layout_validate, only_body_size. Qed.
Lemma only_update (w : world) i st : only (update_channel w i st).
Proof. unfold update_channel. only_tac; auto using only_start, only_set, only_finalise. Qed.
Lemma only_poll_tail (w : world) i st d rc : only (poll_tail w i st d rc).
Proof. unfold poll_tail. only_tac; auto using only_update. Qed.

(** ** One poll *)

(** The events of one poll, by the binding's state at its start: either nothing is
    received, or the command Tx Begin is read and one packet is received. *)
Definition poll_trace (x : astlpc) (psz : Z) (t : list event) : Prop :=
  (Forall quiet_ev t /\
   (ab_st (a_rx x) = Released -> a_proto x <> Some 0 -> ~ In (EvKRead KData (Some 1)) t)) \/
  (exists v t0 t1 t2, a_proto x = Some v /\ 1 <= v <= 3 /\
     t = t0 ++ EvKRead KData (Some 1) :: t1 ++ t2 /\ Forall plain t0 /\ Forall plain t2 /\
     rx_trace v (ab_off (a_rx x)) (ab_size (a_rx x)) psz t1).

Lemma plain_quiet t : Forall plain t -> Forall quiet_ev t.
Proof. apply Forall_impl. intros e [H _]. exact H. Qed.
Lemma plain_nocmd t d : Forall plain t -> ~ In (EvKRead KData d) t.
Proof. rewrite Forall_forall. intros H Hin. destruct (H _ Hin) as [_ N]. exact N. Qed.
Lemma plain_trace x psz t : Forall plain t -> poll_trace x psz t.
Proof. intros H. left. split; [now apply plain_quiet|]. intros _ _. now apply plain_nocmd. Qed.
Lemma other_trace x psz t0 t2 d : Forall plain t0 -> Forall plain t2 -> d <> 1 ->
  poll_trace x psz (t0 ++ EvKRead KData (Some d) :: t2).
Proof.
  intros H0 H2 Hd. left. split.
  - apply Forall_app. split; [now apply plain_quiet|]. constructor; [exact I|now apply plain_quiet].
  - intros _ _ Hin. apply in_app_or in Hin. destruct Hin as [Hin|[Hin|Hin]]; [|congruence|];
      revert Hin; now apply plain_nocmd.
Qed.

Section Poll.
Variable app : event -> list txreq.
Variable bmc : bool.
Notation a := (ast_assm bmc).

Lemma wp_plain A (p : prog A) g (Q Q' : A -> list event -> Prop) : only p -> wp (adv a) p g Q ->
  (forall x t, Q x (g ++ t) -> Forall plain t -> Q' x (g ++ t)) -> wp (adv a) p g Q'.
Proof.
  intros Ho Hp HQ. eapply wp_mono; [apply adv_mono| |apply wp_only; [exact Ho|exact Hp]].
  cbn beta. intros x g' (H & t & -> & Ht). auto.
Qed.

Lemma wp_poll_trace (w : world) g : Inv bmc w ->
  wp (adv a) (poll app w false) g (fun _ g' => exists t, g' = g ++ t /\ poll_trace (ast w false) (bd_pkt_size (w_b0 w)) t).
Proof.
  intros HI. pose proof (ast_oom bmc) as Ho. pose proof (ast_kv bmc) as Hkv. set (x := ast w false). set (psz := bd_pkt_size (w_b0 w)). unfold poll.
  eapply wp_call with (P := fun x1 g1 => Inv bmc (put_ast w false x1) /\
     (exists s, x1 = a_set_rx_st x s /\ (ab_st (a_rx x) = Released -> s = Released)) /\
     exists t, g1 = g ++ t /\ Forall plain t); [apply adv_mono| |].
  { fold x. unfold poll_release_rx.
    assert (x = a_set_rx_st x (ab_st (a_rx x))) as Esame by (destruct x as [? [[] []] ? ? ?]; reflexivity).
    assert (put_ast w false x = w) as Eput by apply Inv_same.
    destruct (ab_st (a_rx x)) eqn:Es.
    1,2,4: cbn [wp]; rewrite Eput; split; [exact HI|]; split; [exists (ab_st (a_rx x)); rewrite Es; auto|];
           exists []; rewrite app_nil_r; auto.
    apply wp_bind; [apply adv_mono|]. eapply wp_plain; [apply only_kcs_send|apply wp_kcs_send with (Q := fun _ _ => True); auto|].
    intros rc t _ Ht. cbn [wp]. split; [|split; [|eauto]].
    - destruct (rc =? 0); [|rewrite Eput; exact HI]. apply (Inv_rx_st a bmc Ho Hkv); [exact HI|]. fold x. congruence.
    - destruct (rc =? 0); [exists Released|exists Prepared]; split; auto; discriminate. }
  intros x1 g1 (HI1 & (s1 & Ex1 & Hs1) & t1 & -> & Ht1). set (w1 := put_ast w false x1) in *.
  eapply wp_call with (P := fun x2 g2 => Inv bmc (put_ast w1 false x2) /\
     (exists s, x2 = a_set_tx_st x1 s) /\ exists t, g2 = (g ++ t1) ++ t /\ Forall plain t); [apply adv_mono| |].
  { unfold poll_release_tx.
    assert (x1 = a_set_tx_st x1 (ab_st (a_tx x1))) as Esame by (destruct x1 as [? [[] []] ? ? ?]; reflexivity).
    assert (put_ast w1 false x1 = w1) as Eput by (apply (Inv_same w1)).
    destruct (ab_st (a_tx x1)) eqn:Es.
    1,2,4: cbn [wp]; rewrite Eput; split; [exact HI1|]; split; [exists (ab_st (a_tx x1)); rewrite Es; auto|];
           exists []; rewrite app_nil_r; auto.
    apply wp_bind; [apply adv_mono|]. eapply wp_plain; [apply only_kcs_send|apply wp_kcs_send with (Q := fun _ _ => True); auto|].
    intros rc t _ Ht. cbn [wp]. split; [|split; [|eauto]].
    - destruct (rc =? 0); [|rewrite Eput; exact HI1].
      apply (Inv_tx_st a bmc Ho Hkv w1); [exact HI1| |now right]. change (ast w1 false) with x1. rewrite Es. now left.
    - destruct (rc =? 0); [exists Released|exists Prepared]; auto. }
  intros x2 g2 (HI2 & (s2 & Ex2) & t2 & -> & Ht2).
  change (put_ast w1 false x2) with (put_ast w false x2) in HI2. set (w2 := put_ast w false x2) in *.
  assert (Forall plain (t1 ++ t2)) as Ht12 by (apply Forall_app; auto).
  assert (a_proto x2 = a_proto x /\ ab_off (a_rx x2) = ab_off (a_rx x) /\ ab_size (a_rx x2) = ab_size (a_rx x) /\
          ab_st (a_rx x2) = s1) as (Xp & Xo & Xs & Xr).
  { rewrite Ex2, Ex1. repeat split. }
  assert (forall e, plain e -> forall t, Forall plain t -> Forall plain ((t1 ++ t2) ++ e :: t)) as Happ.
  { intros e He t Ht. apply Forall_app. split; [exact Ht12|]. now constructor. }
  cbn [wp h_kread adv]. split.
  2:{ intros _. cbn [wp]. eexists. split; [rewrite <- !app_assoc; reflexivity|]. rewrite (app_assoc t1).
      apply plain_trace. apply Happ; [repeat split|constructor]. }
  intros st Hst Hkst. destruct (negb (kcs_read_ready x2 st)).
  { cbn [wp]. eexists. split; [rewrite <- !app_assoc; reflexivity|]. rewrite (app_assoc t1).
    apply plain_trace. apply Happ; [repeat split|constructor]. }
  set (t0 := t1 ++ t2 ++ [EvKRead KStatus (Some st)]).
  replace (((g ++ t1) ++ t2) ++ [EvKRead KStatus (Some st)]) with (g ++ t0) by (unfold t0; rewrite <- !app_assoc; reflexivity).
  assert (Forall plain t0) as Ht0.
  { unfold t0. rewrite (app_assoc t1). apply Happ; [repeat split|constructor]. }
  cbn [wp h_kread adv]. split.
  2:{ intros _. cbn [wp]. eexists. split; [rewrite <- !app_assoc; reflexivity|]. left. split.
      - apply Forall_app. split; [now apply plain_quiet|repeat constructor].
      - intros _ _ Hin. apply in_app_or in Hin. destruct Hin as [Hin|[Hin|[]]]; [|discriminate].
        revert Hin. now apply plain_nocmd. }
  intros data Hdata Hkd. unfold poll_dispatch.
  pose proof HI2 as (_ & _ & Hao). destruct (ao_ver _ _ _ Hao) as (v & Ev & Rv & _).
  change (ast w2 false) with x2. change (bd_priv (w_b0 w2)) with x2 in Ev.
  eapply wp_deref_bind; [exact Ev|].
  set (g3 := (g ++ t0) ++ [EvKRead KData (Some data)]).
  assert (forall A (p : prog (world * A)), only p -> data <> 1 \/ ab_st (a_rx x2) <> Released \/ v = 0 ->
     forall Q, wp (adv a) p g3 Q ->
     wp (adv a) p g3 (fun _ g' => exists t, g' = g ++ t /\ poll_trace x psz t)) as Hnone.
  { intros A p Honly Hd Q Hp. eapply wp_plain; [exact Honly|exact Hp|]. intros _ t _ Ht. unfold g3.
    eexists. split; [rewrite <- !app_assoc; reflexivity|]. cbn [Datatypes.app].
    destruct (Z.eq_dec data 1) as [->|Hne]; [|now apply other_trace].
    left. split.
    - apply Forall_app. split; [now apply plain_quiet|]. constructor; [exact I|now apply plain_quiet].
    - intros H1 H2. exfalso. destruct Hd as [N|[N|N]]; [congruence|apply N; rewrite Xr; auto|congruence]. }
  assert (forall A (r : world * A), data <> 1 \/ ab_st (a_rx x2) <> Released \/ v = 0 ->
     wp (adv a) (Ret r) g3 (fun _ g' => exists t, g' = g ++ t /\ poll_trace x psz t)) as Hret.
  { intros A r Hd. eapply (Hnone A (Ret r) I Hd (fun _ _ => True)). exact I. }
  destruct ((v =? 0) && negb ((data =? cmd_initialise) || (data =? cmd_dummy_value))) eqn:E0.
  { apply Hret. lia. }
  unfold cmd_initialise, cmd_tx_begin, cmd_rx_complete, cmd_dummy_value in *.
  destruct (data =? 0) eqn:D0.
  { destruct (Bool.bool_dec bmc true) as [Eb|Eb].
    - eapply Hnone with (Q := fun r _ => Inv bmc (fst r));
        [apply only_bind; [apply only_init_channel|intros; apply only_poll_tail]|lia|].
      eapply wp_call; [apply adv_mono|apply (wp_init_channel a bmc Ho Hkv); [exact Eb|exact HI2]|].
      intros w3 g4 HI3. now apply (wp_poll_tail a bmc Ho Hkv).
    - exfalso. apply Bool.not_true_is_false in Eb. destruct (Hkv Eb data) as [Hd _]. specialize (Hd Hkd). lia. }
  destruct (data =? 1) eqn:D1.
  { destruct (ab_st (a_rx x2)) eqn:Es; try (apply Hret; right; left; congruence).
    eapply wp_call; [apply adv_mono|eapply (wp_rx_start app a bmc Ho Hkv w2 v); [exact HI2|exact Ev|lia|exact Es]|].
    intros w3 g4 [HI3 (t3 & -> & Htr)].
    eapply wp_plain; [apply only_poll_tail|apply (wp_poll_tail a bmc Ho Hkv); assumption|].
    intros _ t4 _ Ht4. unfold g3. eexists. split; [rewrite <- !app_assoc; reflexivity|]. right.
    cbn [Datatypes.app]. assert (data = 1) as -> by lia.
    exists v, t0, t3, t4. rewrite <- Xp. split; [exact Ev|]. split; [lia|]. split; [reflexivity|]. split; [exact Ht0|].
    split; [exact Ht4|]. rewrite <- Xo, <- Xs. exact Htr. }
  destruct (data =? 2) eqn:D2.
  { destruct (ab_st (a_tx x2)) eqn:Es; try (apply Hret; lia).
    eapply Hnone with (Q := fun r _ => Inv bmc (fst r));
      [apply only_bind; [apply only_tx_complete|intros; apply only_poll_tail]|lia|].
    eapply wp_call; [apply adv_mono|eapply (wp_tx_complete a bmc Ho Hkv w2 v); [exact HI2|exact Ev|lia|exact Es]|].
    intros w3 g4 HI3. now apply (wp_poll_tail a bmc Ho Hkv). }
  destruct (data =? 255) eqn:D3.
  2:{ eapply Hnone with (Q := fun r _ => Inv bmc (fst r)); [apply only_poll_tail|lia|].
      now apply (wp_poll_tail a bmc Ho Hkv). }
  pose proof (ao_mode _ _ _ Hao) as Hm. change (bd_priv (w_b0 w2)) with x2 in Hm.
  destruct (Bool.bool_dec bmc true) as [Eb|Eb].
  { assert (a_bmc x2 = true) as -> by congruence. eapply Hnone with (Q := fun r _ => Inv bmc (fst r)); [apply only_poll_tail|lia|].
    now apply (wp_poll_tail a bmc Ho Hkv). }
  apply Bool.not_true_is_false in Eb. assert (a_bmc x2 = false) as -> by congruence.
  eapply Hnone with (Q := fun r _ => Inv bmc (fst r)).
  { apply only_bind; [apply only_update|]. intros [w3 rc]. destruct (rc <? 0); [exact I|apply only_poll_tail]. }
  { lia. }
  eapply wp_call; [apply adv_mono|apply (wp_update a bmc Ho Hkv); [exact Eb|exact HI2|exact Hkst]|].
  intros [w3 rc] g4 HI3. cbn [fst] in HI3. destruct (rc <? 0); [exact HI3|now apply (wp_poll_tail a bmc Ho Hkv)].
Qed.
End Poll.

(** ** Accesses to the window are what the trace says *)

(** [p] emits no event that looks like an access. *)
Fixpoint noio {A} (p : prog A) : Prop :=
  match p with
  | Ret _ | Flt _ => True
  | KRead _ k => forall v, noio (k v)
  | KWrite _ _ k => forall ok, noio (k ok)
  | LRead _ _ k => forall bs, noio (k bs)
  | LWrite _ _ k => noio k
  | SWrite _ k => forall r, noio (k r)
  | Malloc k => forall ok, noio (k ok)
  | Emit e k => ~ io_ev e /\ noio k
  end.
Lemma noio_bind A B (p : prog A) (f : A -> prog B) : noio p -> (forall x, noio (f x)) -> noio (bind p f).
Proof.
  intros Hp Hf. induction p as [x|f0|r k IH|r v k IH|o n k IH|o bs k IH|bs k IH|k IH|e k IH];
    cbn [noio bind] in *; auto. destruct Hp. auto.
Qed.
(** Every window read in the trace of a run returned what the window showed. *)
Lemma run_reads e A (p : prog A) : forall n tr x n' tr', noio p -> run e n tr p = Done x n' tr' ->
  exists t, tr' = tr ++ t /\ forall o b, In (EvLRead o b) t ->
    exists k, (n <= k < n')%nat /\ b = mem_bytes (e_mem e k) o (zlen b).
Proof.
  assert (forall (ev : event) n n1 n' tr tr', (forall o b, ev = EvLRead o b ->
            exists k, (n <= k < n')%nat /\ b = mem_bytes (e_mem e k) o (zlen b)) -> (n <= n1)%nat ->
     (exists t, tr' = (tr ++ [ev]) ++ t /\ forall o b, In (EvLRead o b) t ->
       exists k, (n1 <= k < n')%nat /\ b = mem_bytes (e_mem e k) o (zlen b)) ->
     exists t, tr' = tr ++ t /\ forall o b, In (EvLRead o b) t ->
       exists k, (n <= k < n')%nat /\ b = mem_bytes (e_mem e k) o (zlen b)) as Hs.
  { intros ev n n1 n' tr tr' Hev Hn (t & -> & Ht). exists (ev :: t). rewrite <- app_assoc. split; [reflexivity|].
    intros o b [E|Hin]; [now apply Hev|]. destruct (Ht o b Hin) as (k & Hk & Hb). exists k. split; [lia|exact Hb]. }
  assert (forall B (q : prog B) n tr x n' tr', run e n tr q = Done x n' tr' -> (n <= n')%nat) as Hmon.
  { intros B q. induction q as [x|f0|r k IH|r v k IH|o n k IH|o bs k IH|bs k IH|k IH|ev k IH];
      cbn [run]; intros n0 tr y n' tr' Hr;
      repeat match type of Hr with context [if in_window ?a ?b then _ else _] => destruct (in_window a b) end;
      try discriminate; try (apply IH in Hr; lia). injection Hr as _ <- _. lia. }
  induction p as [x|f0|r k IH|r v k IH|o len k IH|o bs k IH|bs k IH|k IH|ev k IH];
    cbn [run noio]; intros n tr y n' tr' Hp Hr.
  - injection Hr as <- <- <-. exists []. rewrite app_nil_r. split; [reflexivity|]. intros o b [].
  - discriminate.
  - eapply Hs; [|apply Nat.le_succ_diag_r|eapply IH; [apply Hp|exact Hr]]. discriminate.
  - eapply Hs; [|apply Nat.le_succ_diag_r|eapply IH; [apply Hp|exact Hr]]. discriminate.
  - destruct (in_window o len) eqn:Ew; [|discriminate].
    eapply Hs; [|apply Nat.le_succ_diag_r|eapply IH; [apply Hp|exact Hr]].
    intros o' b' [= <- <-]. exists n. pose proof (Hmon _ _ _ _ _ _ _ Hr). split; [lia|].
    rewrite mem_bytes_zlen; [reflexivity|]. unfold in_window in Ew. lia.
  - destruct (in_window o (zlen bs)) eqn:Ew; [|discriminate].
    eapply Hs; [|apply Nat.le_succ_diag_r|eapply IH; [apply Hp|exact Hr]]. discriminate.
  - eapply Hs; [|apply Nat.le_succ_diag_r|eapply IH; [apply Hp|exact Hr]]. discriminate.
  - destruct (IH _ _ _ _ _ _ (Hp _) Hr) as (t & -> & Ht). exists t. split; [reflexivity|].
    intros o b Hin. destruct (Ht o b Hin) as (j & Hj & Hb). exists j. split; [lia|exact Hb].
  - destruct Hp as [He Hp]. eapply Hs; [|apply Nat.le_refl|eapply IH; [apply Hp|exact Hr]].
    intros o b ->. now destruct He.
Qed.

Lemma noio_deref A f (o : option A) : noio (deref f o).
Proof. destruct o; exact I. Qed.
Lemma noio_assert b : noio (assert_ b).
Proof. destruct b; exact I. Qed.

Ltac noio_step :=
  match goal with
  | |- noio (bind _ _) => apply noio_bind
  | |- noio (deref _ _) => apply noio_deref
  | |- noio (assert_ _) => apply noio_assert
  | |- noio (Ret _) => exact I
  | |- noio (Flt _) => exact I
  | |- noio (Emit _ _) => cbn [noio]
  | |- noio (KRead _ _) => cbn [noio]
  | |- noio (KWrite _ _ _) => cbn [noio]
  | |- noio (LRead _ _ _) => cbn [noio]
  | |- noio (LWrite _ _ _) => cbn [noio]
  | |- noio (Malloc _) => cbn [noio]
  | |- noio (if ?b then _ else _) => destruct b
  | |- noio (match ?x with _ => _ end) => destruct x
  | |- noio (let _ := _ in _) => cbv zeta
  | |- ~ io_ev _ => intros []
  | |- forall _, _ => intro
  | |- True => exact I
  | |- _ /\ _ => split
  end.
Ltac noio_tac := repeat noio_step.

Lemma noio_packet_size p n : noio (packet_size p n).
Proof. unfold packet_size. noio_tac. Qed.
Lemma noio_body_size p n : noio (body_size p n).
Proof. unfold body_size. noio_tac. Qed.
Lemma noio_layout_validate p l : noio (layout_validate p l).
Proof. unfold layout_validate, buffer_validate. noio_tac; apply noio_packet_size. Qed.
Lemma noio_layout_read x : noio (layout_read x).
Proof. unfold layout_read. noio_tac. Qed.
Lemma noio_layout_write x l : noio (layout_write x l).
Proof. unfold layout_write. noio_tac. Qed.
Lemma noio_kcs_send x c : noio (kcs_send x c).
Proof. unfold kcs_send. noio_tac. Qed.
Lemma noio_set_status x : noio (kcs_set_status x).
Proof. unfold kcs_set_status. noio_tac. Qed.
Lemma noio_push p bs : noio (pktbuf_push p bs).
Proof. unfold pktbuf_push, pktbuf_push_len. noio_tac. Qed.
Lemma noio_tx x p : noio (astlpc_tx x p).
Proof.
  unfold astlpc_tx, pktbuf_protect. noio_tac; auto using noio_body_size, noio_push, noio_kcs_send.
Qed.
Lemma noio_get_bus (m : mctp) i : noio (get_bus m i).
Proof. unfold get_bus. noio_tac. Qed.
Lemma noio_send_loop : forall n (w : world) i, noio (send_loop astlpc_tx n w i).
Proof.
  induction n as [|n IH]; intros w i; cbn [send_loop]; unfold packet_tx, pktbuf_free; noio_tac;
    auto using noio_get_bus, noio_tx.
Qed.
Lemma noio_set (w : world) i en : noio (set_tx_enabled astlpc_tx w i en).
Proof. unfold set_tx_enabled, send_tx_queue. noio_tac; auto using noio_get_bus, noio_send_loop. Qed.
Lemma noio_pktbuf_alloc n a b c d : noio (pktbuf_alloc n a b c d).
Proof. unfold pktbuf_alloc. noio_tac. Qed.
Lemma noio_store p o bs : noio (pktbuf_store p o bs).
Proof. unfold pktbuf_store. noio_tac. Qed.
Lemma noio_packetise : forall n (w : world) i s d to tag mtu k msg, noio (packetise n w i s d to tag mtu k msg).
Proof.
  induction n as [|n IH]; intros; cbn [packetise]; noio_tac;
    auto using noio_get_bus, noio_pktbuf_alloc, noio_store.
Qed.
Lemma noio_on_bus (w : world) i s d to tag msg : noio (message_tx_on_bus astlpc_tx w i s d to tag msg).
Proof.
  unfold message_tx_on_bus, send_tx_queue. noio_tac; auto using noio_get_bus, noio_packetise, noio_send_loop.
Qed.
Lemma noio_message_tx (w : world) eid to tag msg : noio (message_tx astlpc_tx w eid to tag msg).
Proof. unfold message_tx. noio_tac; auto using noio_get_bus, noio_on_bus. Qed.
Lemma noio_react : forall l (w : world), noio (app_react astlpc_tx w l).
Proof. induction l as [|r l IH]; intros w; cbn [app_react]; noio_tac; auto using noio_message_tx. Qed.
Lemma noio_mctp_rx app (w : world) i s d to tag b msg : noio (mctp_rx astlpc_tx app w i s d to tag b msg).
Proof.
  unfold mctp_rx, rx_local, ctrl_handle, callback, rx_bridge. noio_tac; auto using noio_get_bus, noio_react, noio_on_bus.
Qed.
Lemma noio_add c p m : noio (ctx_add_pkt c p m).
Proof. unfold ctx_add_pkt, ctx_grow, ctx_append. noio_tac. Qed.
Lemma noio_bus_rx app (w : world) i p : noio (bus_rx astlpc_tx app w i p).
Proof.
  unfold bus_rx, bus_rx_body, rx_som, rx_eom, rx_mid, get_ctx, pktbuf_free. noio_tac;
    auto using noio_get_bus, noio_mctp_rx, noio_add.
Qed.
Lemma noio_init_channel (w : world) i : noio (init_channel w i).
Proof.
  unfold init_channel, negotiate_layout_bmc, calculate_mtu. noio_tac;
    auto using noio_set_status, noio_set, noio_layout_read, noio_layout_validate, noio_packet_size, noio_body_size, noio_layout_write.
Qed.
Lemma noio_start x : noio (astlpc_start x).
Proof.
  unfold astlpc_start, start_bmc, init_bmc, init_host, negotiate_layout_host. noio_tac;
    auto using noio_set_status, noio_layout_read, noio_layout_validate, noio_packet_size, noio_body_size, noio_layout_write.
Qed.
Lemma noio_update (w : world) i st : noio (update_channel w i st).
Proof.
  unfold update_channel, finalise_channel. noio_tac;
    auto using noio_start, noio_set, noio_layout_read, noio_layout_validate, noio_body_size.
Qed.
Lemma noio_rx_start app (w : world) i : noio (rx_start app w i).
Proof.
  unfold rx_start, pktbuf_validate, pktbuf_free. noio_tac;
    auto using noio_body_size, noio_packet_size, noio_pktbuf_alloc, noio_store, noio_kcs_send, noio_bus_rx.
Qed.
Lemma noio_poll app (w : world) i : noio (poll app w i).
Proof.
  unfold poll, poll_release_rx, poll_release_tx, poll_dispatch, poll_tail, tx_complete. noio_tac;
    auto using noio_kcs_send, noio_init_channel, noio_update, noio_rx_start, noio_set.
Qed.

(** ** C36 *)

(** From time [n] on the window shows [bs] at [off]. *)
Definition shows (e : env) (n : nat) (off : Z) (bs : list Z) : Prop :=
  forall k, (n <= k)%nat -> mem_bytes (e_mem e k) off (zlen bs) = bs.

(** What the receive buffer holds when a packet [bs] is sent under protocol version 3:
    the packet's length, the packet and its CRC-32. *)
Definition protected (bs : list Z) : list Z := be32 (zlen bs) ++ bs ++ be32 (crc32 bs).

Lemma run_poll app bmc mtu eid l e n tr w r n' t :
  ast_reach app bmc mtu eid l e n tr w -> run e n tr (poll app w false) = Done r n' (tr ++ t) ->
  poll_trace (ast w false) (bd_pkt_size (w_b0 w)) t /\
  forall o b, In (EvLRead o b) t -> exists k, (n <= k < n')%nat /\ b = mem_bytes (e_mem e k) o (zlen b).
Proof.
  intros Hr Hrun. pose proof (reach_inv _ _ _ _ _ _ _ _ _ Hr) as HI. destruct Hr as (_ & _ & He & _).
  split.
  - destruct (adv_sound _ _ _ e n tr _ He (wp_poll_trace app bmc w tr HI)) as (x & m & tr' & Hrun' & t' & -> & Ht).
    rewrite Hrun in Hrun'. injection Hrun' as _ _ Et. apply app_inv_head in Et. subst t'. exact Ht.
  - destruct (run_reads e _ _ _ _ _ _ _ (noio_poll app w false) Hrun) as (t' & Et & Ht).
    apply app_inv_head in Et. subst t'. exact Ht.
Qed.

Lemma mem_bytes_split m off a b : 0 <= a -> 0 <= b ->
  mem_bytes m off (a + b) = mem_bytes m off a ++ mem_bytes m (off + a) b.
Proof.
  intros Ha Hb. unfold mem_bytes. replace (Z.to_nat (a + b)) with (Z.to_nat a + Z.to_nat b)%nat by lia.
  rewrite seq_app, map_app. f_equal. rewrite Nat.add_0_l.
  assert (forall c s, map (fun i => m (off + Z.of_nat i) mod 256) (seq s c)
             = map (fun i => m (off + Z.of_nat s + Z.of_nat i) mod 256) (seq 0 c)) as H.
  { intros c s. rewrite <- (map_map (fun i => off + Z.of_nat i) (fun z => m z mod 256)).
    rewrite <- (map_map (fun i => off + Z.of_nat s + Z.of_nat i) (fun z => m z mod 256)). f_equal.
    rewrite <- (Nat.add_0_r s) at 1. generalize 0%nat as j. revert s.
    induction c as [|c IH]; intros s j; [reflexivity|]. cbn [seq map]. f_equal; [lia|].
    rewrite <- Nat.add_succ_r. apply IH. }
  rewrite H. rewrite Z2Nat.id by lia. reflexivity.
Qed.
(** The reception of a packet from a window that shows [be32 len ++ d]. *)
Lemma rx_shown app bmc mtu eid l e n tr w r n' t (len : Z) (d : list Z) v :
  ast_reach app bmc mtu eid l e n tr w -> a_proto (ast w false) = Some v -> v <> 0 ->
  ab_st (a_rx (ast w false)) = Released ->
  0 <= len -> len <= ab_size (a_rx (ast w false)) - extra v -> len <= bd_pkt_size (bnd w false) ->
  zlen d = len + extra v - 4 ->
  shows e n (ab_off (a_rx (ast w false))) (be32 len ++ d) ->
  run e n tr (poll app w false) = Done r n' (tr ++ t) -> In (EvKRead KData (Some 1)) t ->
  exists t0 id io t1 t2, t = t0 ++ EvKRead KData (Some 1) :: EvLRead (ab_off (a_rx (ast w false))) (be32 len)
      :: EvAlloc id :: EvLRead (ab_off (a_rx (ast w false)) + 4) d :: io ++ t1 ++ t2 /\
    Forall plain t0 /\ Forall plain t2 /\ Forall io_ev io /\
    ((acceptable v len d /\ exists lo t3, t1 = EvBusRx false lo id (firstn (Z.to_nat len) d) :: t3 ++ [EvFree id] /\ Forall not_busrx t3)
     \/ (~ acceptable v len d /\ t1 = [EvFree id])).
Proof.
  intros Hr Ev Hv0 Hrel Hl0 Hsz Hps Hzd Hsh Hrun Hin.
  destruct (run_poll _ _ _ _ _ _ _ _ _ _ _ _ Hr Hrun) as [Ht Hrd].
  pose proof (reach_inv _ _ _ _ _ _ _ _ _ Hr) as (_ & _ & Hao).
  set (off := ab_off (a_rx (ast w false))) in *. set (sz := ab_size (a_rx (ast w false))) in *.
  assert (0 <= sz <= 1048576) as Hszr.
  { destruct (ao_lay _ _ _ Hao) as [(G1 & G2 & G3) _]; [right; left; change (ab_st (a_rx (ast w false)) <> Idle); congruence|].
    fold (a_rx (bd_priv (w_b0 w))) in *. change (bd_priv (w_b0 w)) with (ast w false) in *. unfold sz. lia. }
  pose proof (extra_range v) as Hex.
  destruct Ht as [[_ N]|(v' & t0 & t1 & t2 & Ev' & Rv & -> & H0 & H2 & Htr)]; [exfalso; apply N; [assumption|congruence|assumption]|].
  rewrite Ev in Ev'. injection Ev' as <-. fold off sz in Htr.
  (* what the reads returned *)
  assert (forall lb, zlen lb = 4 -> In (EvLRead off lb) (t0 ++ EvKRead KData (Some 1) :: t1 ++ t2) -> lb = be32 len) as Hlb.
  { intros lb Hz Hi. destruct (Hrd _ _ Hi) as (k & Hk & ->). specialize (Hsh k ltac:(lia)).
    rewrite zlen_app in Hsh. change (zlen (be32 len)) with 4 in Hsh. rewrite mem_bytes_split in Hsh by lia.
    apply app_inv_zlen in Hsh; [|rewrite mem_bytes_zlen by lia; reflexivity]. destruct Hsh as [Hsh _].
    rewrite Hz. exact Hsh. }
  assert (forall d', zlen d' = zlen d -> In (EvLRead (off + 4) d') (t0 ++ EvKRead KData (Some 1) :: t1 ++ t2) -> d' = d) as Hd.
  { intros d' Hz Hi. destruct (Hrd _ _ Hi) as (k & Hk & E). rewrite E, Hz. specialize (Hsh k ltac:(lia)).
    rewrite zlen_app in Hsh. change (zlen (be32 len)) with 4 in Hsh. rewrite mem_bytes_split in Hsh by lia.
    apply app_inv_zlen in Hsh; [|rewrite mem_bytes_zlen by lia; reflexivity]. exact (proj2 Hsh). }
  assert (unbe32 (be32 len) = len) as Hub by (apply unbe32_be32; lia).
  inversion Htr as [lb Hz Hbig|lb id d' io Hz H3 H4 H5 H6 H7|lb id d' io lo t3 Hz H3 H4 H5 H6 H7 H8]; subst t1.
  - exfalso. assert (lb = be32 len) as -> by (apply Hlb; [exact Hz|]; apply in_or_app; right; right; left; reflexivity).
    rewrite Hub in Hbig. cbn [bnd] in Hps. lia.
  - assert (lb = be32 len) as -> by (apply Hlb; [exact Hz|]; apply in_or_app; right; right; left; reflexivity).
    rewrite Hub in *.
    assert (d' = d) as -> by (apply Hd; [lia|]; apply in_or_app; right; right; right; right; left; reflexivity).
    exists t0, id, io, [EvFree id], t2. split; [cbn [Datatypes.app]; rewrite <- app_assoc; reflexivity|]. split; [auto|]. split; [auto|]. split; [auto|]. right. auto.
  - assert (lb = be32 len) as -> by (apply Hlb; [exact Hz|]; apply in_or_app; right; right; left; reflexivity).
    rewrite Hub in *.
    assert (d' = d) as -> by (apply Hd; [lia|]; apply in_or_app; right; right; right; right; left; reflexivity).
    exists t0, id, io, (EvBusRx false lo id (firstn (Z.to_nat len) d) :: t3 ++ [EvFree id]), t2.
    split; [cbn [Datatypes.app]; rewrite <- app_assoc; reflexivity|]. split; [auto|]. split; [auto|]. split; [auto|].
    left. split; [exact H7|]. eauto.
Qed.

Lemma handed_not i t : Forall not_busrx t -> handed i t = [].
Proof.
  unfold handed. induction 1 as [|ev t He Ht IH]; [reflexivity|]. cbn [flat_map]. rewrite IH.
  destruct ev; cbn in He; try contradiction; reflexivity.
Qed.
Lemma plain_not t : Forall plain t -> Forall not_busrx t.
Proof. apply Forall_impl. intros [] [H _]; cbn in *; try contradiction; exact I. Qed.
Lemma io_not t : Forall io_ev t -> Forall not_busrx t.
Proof. apply Forall_impl. intros [] H; cbn in *; try contradiction; exact I. Qed.
Lemma firstn_app_zlen A (x y : list A) : firstn (Z.to_nat (zlen x)) (x ++ y) = x.
Proof. unfold zlen. rewrite Nat2Z.id, firstn_app, firstn_all, Nat.sub_diag. cbn [firstn]. now rewrite app_nil_r. Qed.
Lemma skipn_app_zlen A (x y : list A) : skipn (Z.to_nat (zlen x)) (x ++ y) = y.
Proof. unfold zlen. rewrite Nat2Z.id, skipn_app, skipn_all, Nat.sub_diag. reflexivity. Qed.
(** A change within four consecutive bytes of a packet and its checksum shows, but
    for one place (see [C30_protected_sharp]). *)
Lemma damaged_crc bs x y y' z : Forall is_byte bs -> bs ++ be32 (crc32 bs) = x ++ y ++ z ->
  Forall is_byte y' -> length y = length y' -> (length y <= 4)%nat -> y <> y' ->
  ~ (length y = 4%nat /\ zlen x + 2 = zlen bs) ->
  skipn (Z.to_nat (zlen bs)) (x ++ y' ++ z) <> be32 (crc32 (firstn (Z.to_nat (zlen bs)) (x ++ y' ++ z))).
Proof.
  intros Hb E Hy' L L4 Hne Nx Q.
  assert (zlen (x ++ y' ++ z) = zlen bs + 4) as Hz.
  { assert (zlen (bs ++ be32 (crc32 bs)) = zlen (x ++ y ++ z)) as E1 by now rewrite E.
    rewrite !zlen_app in *. change (zlen (be32 (crc32 bs))) with 4 in E1. assert (zlen y = zlen y') by (unfold zlen; lia). lia. }
  apply Hne. apply (C30_protected bs (firstn (Z.to_nat (zlen bs)) (x ++ y' ++ z)) x y y' z); auto.
  - assert (forall l : list Z, Forall is_byte l -> Forall is_byte (firstn (Z.to_nat (zlen bs)) l)) as Hf.
    { intros l Hl. rewrite <- (firstn_skipn (Z.to_nat (zlen bs)) l) in Hl. rewrite Forall_app in Hl. tauto. }
    apply Hf. assert (Forall is_byte (x ++ y ++ z)) as Ha.
    { rewrite <- E. apply Forall_app. split; [exact Hb|]. unfold be32. repeat constructor; apply Z.mod_pos_bound; lia. }
    rewrite !Forall_app in *. tauto.
  - rewrite zlen_firstn, Hz. pose proof (zlen_pos _ bs). lia.
  - rewrite <- Q. apply firstn_skipn.
Qed.

(** Intact: the packet is handed over, as it was sent, exactly once. *)
Theorem C36_intact app bmc mtu eid l e n tr w r n' t bs :
  ast_reach app bmc mtu eid l e n tr w ->
  a_proto (ast w false) = Some 3 -> ab_st (a_rx (ast w false)) = Released ->
  zlen bs + 8 <= ab_size (a_rx (ast w false)) -> zlen bs <= bd_pkt_size (bnd w false) ->
  nth 0 bs 0 = 1 ->
  shows e n (ab_off (a_rx (ast w false))) (protected bs) ->
  run e n tr (poll app w false) = Done r n' (tr ++ t) -> In (EvKRead KData (Some 1)) t ->
  handed false t = [bs].
Proof.
  intros Hr Ev Hrel Hsz Hps Hn Hsh Hrun Hin.
  assert (zlen (bs ++ be32 (crc32 bs)) = zlen bs + extra 3 - 4) as Hz.
  { rewrite zlen_app. change (zlen (be32 (crc32 bs))) with 4. change (extra 3) with 8. lia. }
  assert (zlen bs <= ab_size (a_rx (ast w false)) - extra 3) as Hsz' by (change (extra 3) with 8; lia).
  destruct (rx_shown _ _ _ _ _ _ _ _ _ _ _ _ (zlen bs) (bs ++ be32 (crc32 bs)) 3 Hr Ev ltac:(lia) Hrel (zlen_pos _ bs)
    Hsz' Hps Hz Hsh Hrun Hin)
    as (t0 & id & io & t1 & t2 & -> & H0 & H2 & Hio & Hc).
  change (t0 ++ EvKRead KData (Some 1) :: EvLRead (ab_off (a_rx (ast w false))) (be32 (zlen bs))
      :: EvAlloc id :: EvLRead (ab_off (a_rx (ast w false)) + 4) (bs ++ be32 (crc32 bs)) :: io ++ t1 ++ t2)
    with (t0 ++ [EvKRead KData (Some 1); EvLRead (ab_off (a_rx (ast w false))) (be32 (zlen bs));
       EvAlloc id; EvLRead (ab_off (a_rx (ast w false)) + 4) (bs ++ be32 (crc32 bs))] ++ io ++ t1 ++ t2).
  unfold handed. rewrite !flat_map_app. fold (handed false t0) (handed false io) (handed false t2) (handed false t1).
  rewrite (handed_not _ t0), (handed_not _ io), (handed_not _ t2) by (auto using plain_not, io_not).
  cbn [flat_map Datatypes.app]. rewrite app_nil_r.
  destruct Hc as [[_ (lo & t3 & -> & H3)]|[N _]].
  - cbn [handed flat_map]. rewrite flat_map_app. fold (handed false t3). rewrite (handed_not _ t3) by exact H3.
    cbn. now rewrite firstn_app_zlen.
  - exfalso. apply N. split.
    + destruct bs as [|b0 bs']; cbn in Hn |- *; [discriminate|exact Hn].
    + intros _. now rewrite firstn_app_zlen, skipn_app_zlen.
Qed.

(** Damaged: if up to four consecutive bytes of packet or checksum differ from what
    was sent - other than the last two bytes of the packet with the first two of the
    checksum - no packet is handed over, no callback runs, and the packet buffer is
    released. *)
Theorem C36_damaged app bmc mtu eid l e n tr w r n' t bs x y y' z :
  ast_reach app bmc mtu eid l e n tr w ->
  a_proto (ast w false) = Some 3 -> ab_st (a_rx (ast w false)) = Released ->
  zlen bs + 8 <= ab_size (a_rx (ast w false)) -> zlen bs <= bd_pkt_size (bnd w false) ->
  Forall is_byte bs ->
  bs ++ be32 (crc32 bs) = x ++ y ++ z -> Forall is_byte y' -> length y = length y' -> (length y <= 4)%nat -> y <> y' ->
  ~ (length y = 4%nat /\ zlen x + 2 = zlen bs) ->
  shows e n (ab_off (a_rx (ast w false))) (be32 (zlen bs) ++ x ++ y' ++ z) ->
  run e n tr (poll app w false) = Done r n' (tr ++ t) -> In (EvKRead KData (Some 1)) t ->
  Forall quiet_ev t /\ forall id, In (EvAlloc id) t -> In (EvFree id) t.
Proof.
  intros Hr Ev Hrel Hsz Hps Hby Ebs Hby' Hl Hl4 Hne Hnx Hsh Hrun Hin.
  assert (zlen (x ++ y' ++ z) = zlen bs + 4) as Hz.
  { assert (zlen (bs ++ be32 (crc32 bs)) = zlen (x ++ y ++ z)) as E by now rewrite Ebs.
    rewrite !zlen_app in *. change (zlen (be32 (crc32 bs))) with 4 in E. assert (zlen y = zlen y') by (unfold zlen; lia). lia. }
  assert (zlen (x ++ y' ++ z) = zlen bs + extra 3 - 4) as Hz' by (change (extra 3) with 8; lia).
  assert (zlen bs <= ab_size (a_rx (ast w false)) - extra 3) as Hsz' by (change (extra 3) with 8; lia).
  destruct (rx_shown _ _ _ _ _ _ _ _ _ _ _ _ (zlen bs) (x ++ y' ++ z) 3 Hr Ev ltac:(lia) Hrel (zlen_pos _ bs)
    Hsz' Hps Hz' Hsh Hrun Hin)
    as (t0 & id & io & t1 & t2 & -> & H0 & H2 & Hio & Hc).
  assert (~ acceptable 3 (zlen bs) (x ++ y' ++ z)) as Hna.
  { intros [_ Hcrc]. specialize (Hcrc eq_refl). eapply (damaged_crc bs x y y' z); eauto. }
  destruct Hc as [[Ha _]|[_ ->]]; [contradiction|].
  split.
  - apply Forall_app. split; [now apply plain_quiet|]. do 4 (constructor; [exact I|]).
    apply Forall_app. split; [eapply Forall_impl; [|exact Hio]; intros [] Hi; cbn in *; try contradiction; exact I|].
    constructor; [exact I|]. now apply plain_quiet.
  - intros id' Hi. apply in_app_or in Hi. destruct Hi as [Hi|Hi].
    { rewrite Forall_forall in H0. destruct (H0 _ Hi) as [_ []]. }
    destruct Hi as [Hi|[Hi|[Hi|[Hi|Hi]]]]; try discriminate.
    + injection Hi as ->. apply in_or_app. right. do 4 right. apply in_or_app. right. now left.
    + apply in_app_or in Hi. destruct Hi as [Hi|[Hi|Hi]]; [|discriminate|].
      * rewrite Forall_forall in Hio. destruct (Hio _ Hi).
      * rewrite Forall_forall in H2. destruct (H2 _ Hi) as [_ []].
Qed.

(** Checked: whatever the peer does with the window and however often it changes it,
    a packet handed over under version 3 was read together with its CRC-32. *)
Theorem C36_checked app bmc mtu eid l e n tr w r n' t i lo id bs :
  ast_reach app bmc mtu eid l e n tr w -> a_proto (ast w false) = Some 3 ->
  run e n tr (poll app w false) = Done r n' (tr ++ t) -> In (EvBusRx i lo id bs) t ->
  exists k, (n <= k < n')%nat /\
    mem_bytes (e_mem e k) (ab_off (a_rx (ast w false)) + 4) (zlen bs + 4) = bs ++ be32 (crc32 bs).
Proof.
  intros Hr Ev Hrun Hin. destruct (run_poll _ _ _ _ _ _ _ _ _ _ _ _ Hr Hrun) as [Ht Hrd].
  destruct Ht as [[N _]|(v & t0 & t1 & t2 & Ev' & Rv & -> & H0 & H2 & Htr)].
  { rewrite Forall_forall in N. destruct (N _ Hin). }
  rewrite Ev in Ev'. injection Ev' as <-.
  assert (In (EvBusRx i lo id bs) t1) as Hin1.
  { apply in_app_or in Hin. destruct Hin as [Hin|[Hin|Hin]].
    - rewrite Forall_forall in H0. destruct (H0 _ Hin) as [[] _].
    - discriminate.
    - apply in_app_or in Hin. destruct Hin as [Hin|Hin]; [exact Hin|]. rewrite Forall_forall in H2. destruct (H2 _ Hin) as [[] _]. }
  assert (forall o b, In (EvLRead o b) t1 -> exists k, (n <= k < n')%nat /\ b = mem_bytes (e_mem e k) o (zlen b)) as Hrd1.
  { intros o b Hi. apply Hrd. apply in_or_app. right. right. apply in_or_app. now left. }
  clear Hrd Hrun Hin. destruct Htr as [lb Hz Hbig|lb id' d io Hz H3 H4 H5 H6 H7|lb id' d io lo' t3 Hz H3 H4 H5 H6 H7 H8].
  - destruct Hin1 as [N|[]]. discriminate.
  - do 3 (destruct Hin1 as [N|Hin1]; [discriminate|]). apply in_app_or in Hin1. destruct Hin1 as [N|[N|[]]]; [|discriminate].
    rewrite Forall_forall in H6. destruct (H6 _ N).
  - do 3 (destruct Hin1 as [N|Hin1]; [discriminate|]). apply in_app_or in Hin1.
    destruct Hin1 as [N|[N|N]].
    + rewrite Forall_forall in H6. destruct (H6 _ N).
    + injection N as _ _ _ <-. destruct H7 as [_ Hcrc]. specialize (Hcrc eq_refl).
      destruct (Hrd1 _ d (or_intror (or_intror (or_introl eq_refl)))) as (k & Hk & Ed).
      exists k. split; [exact Hk|]. rewrite <- Hcrc, firstn_skipn. change (extra 3) with 8 in H5.
      rewrite zlen_firstn. assert (0 <= unbe32 lb \/ unbe32 lb < 0) as [Hp|Hp] by lia.
      * rewrite Z2Nat.id by lia. rewrite Z.min_l by lia. replace (unbe32 lb + 4) with (zlen d) by lia. now symmetry.
      * exfalso. replace (Z.to_nat (unbe32 lb)) with 0%nat in Hcrc by lia. cbn [skipn firstn] in Hcrc.
        assert (zlen d = 4) by (rewrite Hcrc; reflexivity). lia.
    + apply in_app_or in N. destruct N as [N|[N|[]]]; [|discriminate]. rewrite Forall_forall in H8. destruct (H8 _ N).
Qed.

(** Sent: a transmission under version [v] puts the packet's length and the packet,
    under version 3 followed by its CRC-32, into the transmit buffer, and nothing
    else anywhere in the window, before the peer is told. *)
Theorem C36_sent x p v bs e n tr :
  a_proto x = Some v -> 1 <= v <= 3 -> fits v (a_tx x) ->
  wf_pkt p -> pktbuf_bytes p = Some bs -> pk_end p + 4 <= pk_size p -> pk_size p < 2 ^ 32 ->
  zlen bs + extra v <= ab_size (a_tx x) ->
  exists x' p' rc io n', run e n tr (astlpc_tx x p) = Done (x', p', rc, true) n' (tr ++
     [EvLWrite (ab_off (a_tx x)) (be32 (zlen bs));
      EvLWrite (ab_off (a_tx x) + 4) (if v =? 3 then bs ++ be32 (crc32 bs) else bs)] ++ io) /\
    (rc = 0 \/ rc = - EIO) /\
    Forall (fun ev => match ev with EvKRead KStatus _ => True | EvKWrite KData c _ => c = 1 | _ => False end) io.
Proof.
  intros Ep Hv (G1 & G2 & G3) Hw Hb Hroom Hmax Hfit. pose proof (extra_range v) as Ex.
  pose proof (pktbuf_size_wf p Hw) as Hps. pose proof Hw as Hw0. destruct Hw0 as [W1 W2 W3 W4 W5 W6].
  unfold pktbuf_bytes in Hb. pose proof (proj1 (rd_spec _ _ _ _) Hb) as (x0 & z0 & _ & _ & Hz).
  unfold astlpc_tx. rewrite Ep. rewrite body_size_ok by lia. cbn [bind].
  rewrite (w32_id (pktbuf_size p)) by lia.
  destruct (ab_size (a_tx x) - extra v <? pktbuf_size p) eqn:El; [lia|]. cbn [run].
  change (zlen (be32 (pktbuf_size p))) with 4. rewrite inwin by lia.
  assert (exists p', pktbuf_protect (Some v) p = Ret p' /\ w32 (pktbuf_size p') = pktbuf_size p + (extra v - 4) /\
     rd (pk_data p') (pk_hdr p') (pktbuf_size p + (extra v - 4)) = Some (if v =? 3 then bs ++ be32 (crc32 bs) else bs)) as (p' & Hp & Hs' & Hrd).
  { unfold pktbuf_protect. destruct ((v =? 1) || (v =? 2)) eqn:E12.
    - exists p. split; [reflexivity|]. unfold extra. replace (v =? 3) with false by lia.
      replace (pktbuf_size p + (4 - 4)) with (pktbuf_size p) by lia. rewrite w32_id by lia. auto.
    - unfold extra. replace (v =? 3) with true by lia. rewrite Hb. cbn [deref bind].
      unfold pktbuf_push, pktbuf_push_len. change (zlen (be32 (crc32 bs))) with 4. rewrite w64_id by lia.
      destruct (pk_size p <? pk_end p + 4) eqn:E4; [lia|].
      change (rd (be32 (crc32 bs)) 0 4) with (Some (be32 (crc32 bs))). cbn [deref bind].
      destruct (wr_some (pk_data p) (pk_end p) (be32 (crc32 bs))) as (d & Hd); [lia|change (zlen (be32 (crc32 bs))) with 4; lia|].
      rewrite Hd. cbn [deref bind]. eexists. split; [reflexivity|]. unfold pktbuf_size. cbn [pk_data pk_hdr pk_end pk_start].
      unfold pktbuf_size in Hz, Hb. rewrite !w64_id in * by lia.
      split; [rewrite w32_id by lia; lia|].
      replace (pk_end p - pk_start p + (8 - 4)) with (zlen bs + 4) by lia.
      apply rd_app.
      + rewrite (rd_wr_before _ _ _ _ _ _ Hd) by lia. rewrite <- Hb. f_equal. lia.
      + replace (pk_hdr p + zlen bs) with (pk_end p) by lia. pose proof (rd_wr_same _ _ _ _ Hd) as Hsame. exact Hsame. }
  rewrite Hp. cbn [bind]. rewrite Hs', Hrd. cbn [deref bind run].
  rewrite w32_id by lia.
  assert (zlen (if v =? 3 then bs ++ be32 (crc32 bs) else bs) = pktbuf_size p + (extra v - 4)) as Hzz.
  { unfold extra. destruct (v =? 3); [rewrite zlen_app; change (zlen (be32 (crc32 bs))) with 4|]; lia. }
  rewrite Hzz. rewrite inwin by lia. rewrite Hz. unfold kcs_send. cbn [bind run].
  destruct (kread_val (e_kread e (S (S n)) KStatus)) as [st|].
  - destruct (kcs_write_ready _ st) eqn:Er; cbn [negb bind run].
    + destruct (e_kwrite e (S (S (S n)))) eqn:Ew.
      * cbn [bind run]. eexists _, _, _, _, _. split; [rewrite <- !app_assoc; reflexivity|]. split; [left; reflexivity|]. repeat constructor.
      * cbn [bind run]. eexists _, _, _, _, _. split; [rewrite <- !app_assoc; reflexivity|]. split; [right; reflexivity|]. repeat constructor.
    + eexists _, _, _, _, _. split; [rewrite <- !app_assoc; reflexivity|]. split; [left; reflexivity|]. repeat constructor.
  - cbn [bind run]. eexists _, _, _, _, _. split; [rewrite <- !app_assoc; reflexivity|]. split; [right; reflexivity|]. repeat constructor.
Qed.

(** ** The hypotheses are met *)

(** A host whose BMC has activated version 3 and has put a packet into the window. *)
Definition demo_pkt : list Z := [1; 9; 8; 200; 5; 77; 78].
Definition demo_mem (_ : nat) (off : Z) : Z :=
  if off <? 32 then nth (Z.to_nat off) hdr_window 0
  else nth (Z.to_nat (off - 256)) (protected demo_pkt) 0.
Definition demo_env : env :=
  mkEnv (fun _ => true)
    (fun n _ => Some (nth n [128; 128; 128; 128; 128; 128; 128; 128; 193; 255; 192; 193; 193; 1; 192] 192))
    (fun _ => true) demo_mem (fun _ => 1).
Lemma demo_ok : env_ok sane_bmc demo_env.
Proof.
  split; [reflexivity|]. split; [discriminate|]. split; [|discriminate].
  intros n r v. cbn [e_kread demo_env kread_val]. intros [= <-]. cbn [kval_ok sane_bmc].
  do 20 (destruct n as [|n]; [destruct r; reflexivity|]). destruct r; reflexivity.
Qed.
Example C36_case : exists n tr w r n' t,
  ast_reach no_app false 64 9 [ACore (OpSetRx true); APoll false] demo_env n tr w /\
  a_proto (ast w false) = Some 3 /\ ab_st (a_rx (ast w false)) = Released /\
  zlen demo_pkt + 8 <= ab_size (a_rx (ast w false)) /\ zlen demo_pkt <= bd_pkt_size (bnd w false) /\
  nth 0 demo_pkt 0 = 1 /\ Forall is_byte demo_pkt /\
  shows demo_env n (ab_off (a_rx (ast w false))) (protected demo_pkt) /\
  run demo_env n tr (poll no_app w false) = Done r n' (tr ++ t) /\ In (EvKRead KData (Some 1)) t /\
  In (EvRx 8 true 0 [5; 77; 78]) t.
Proof.
  destruct (run demo_env 0 [] (ast_history no_app false 64 9 [ACore (OpSetRx true); APoll false])) as [w n tr|f tr] eqn:E; [|vm_compute in E; discriminate].
  exists n, tr, w. pose proof E as E0. vm_compute in E. injection E as <- <- <-.
  eexists _, _, _. split.
  { split; [cbn; lia|]. split; [repeat constructor|]. split; [apply demo_ok|]. split; [exact E0|reflexivity]. }
  split; [reflexivity|]. split; [reflexivity|]. split; [vm_compute; discriminate|]. split; [vm_compute; discriminate|].
  split; [reflexivity|]. split; [repeat constructor; unfold is_byte; lia|].
  split; [intros k _; vm_compute; reflexivity|].
  split; [|].
  { match goal with |- run ?e ?n ?tr ?p = Done ?r ?n' (?t0 ++ ?t) =>
      let q := eval vm_compute in (run e n tr p) in
      match q with Done ?r' ?m ?l => 
        let s := eval vm_compute in (skipn (length t0) l) in
        instantiate (1 := s) end end.
    vm_compute. reflexivity. }
  vm_compute. split; repeat (try (left; reflexivity); right).
Qed.
