(** AstPoll: hand-offs that had to wait are made up for (C39). *)
From Verif Require Import Base Lists Prog PktBuf Core WP Walk CoreRel WalkCore CoreHist Spec SpecRx PropRx Crc PropCrc
  SpecSer Astlpc SpecAst AstBasic AstWalk Concrete PropAst CrcSpan AstRx.

Local Notation world := (world astlpc).

(** ** Results, whatever the environment *)
Fixpoint res {A} (P : A -> Prop) (p : prog A) : Prop :=
  match p with
  | Ret a => P a
  | Flt _ => True
  | KRead _ k => forall v, res P (k v)
  | KWrite _ _ k => forall b, res P (k b)
  | LRead _ _ k => forall l, res P (k l)
  | LWrite _ _ k => res P k
  | SWrite _ k => forall r, res P (k r)
  | Malloc k => forall b, res P (k b)
  | Emit _ k => res P k
  end.
Lemma res_run {A} e (P : A -> Prop) : forall (p : prog A) n tr a n' tr',
  res P p -> run e n tr p = Done a n' tr' -> P a.
Proof.
  induction p; intros n tr a' n' tr' Hr E; cbn [res run] in *; try (eapply H; [apply Hr|exact E]); try (eapply IHp; eassumption).
  - injection E as <- _ _. exact Hr.
  - discriminate.
  - destruct (in_window off len); [|discriminate]. eapply H; [apply Hr|exact E].
  - destruct (in_window off (zlen bs)); [|discriminate]. eapply IHp; eassumption.
Qed.
Lemma res_bind {A B} (Q : A -> Prop) (P : B -> Prop) : forall (p : prog A) (f : A -> prog B),
  res Q p -> (forall a, Q a -> res P (f a)) -> res P (bind p f).
Proof.
  induction p; intros F Hp Hf; cbn [bind res] in *; auto.
Qed.
Lemma res_mono {A} (P Q : A -> Prop) (p : prog A) : (forall a, P a -> Q a) -> res P p -> res Q p.
Proof. intros H. induction p; cbn [res]; auto. Qed.
Lemma res_any {A} (p : prog A) : res (fun _ => True) p.
Proof. induction p; cbn [res]; auto. Qed.
Lemma res_deref {A} f (o : option A) (P : A -> Prop) : (forall a, o = Some a -> P a) -> res P (deref f o).
Proof. destruct o; cbn; auto. Qed.

(** ** What the core leaves alone: the receive buffer, and while transmission is
    not enabled also the transmit buffer *)
Definition fixed (x x' : astlpc) : Prop :=
  a_rx x' = a_rx x /\ a_kcs x' = a_kcs x /\ a_proto x' = a_proto x /\ a_bmc x' = a_bmc x.
Lemma fixed_refl x : fixed x x.
Proof. repeat split. Qed.
Lemma fixed_trans x y z : fixed x y -> fixed y z -> fixed x z.
Proof. intros (A1 & A2 & A3 & A4) (B1 & B2 & B3 & B4). repeat split; congruence. Qed.
Definition keep (w w' : world) : Prop :=
  fixed (ast w false) (ast w' false) /\
  (ost w false <> Some TxEnabled -> a_tx (ast w' false) = a_tx (ast w false) /\ ost w' false <> Some TxEnabled) /\
  bd_pkt_size (bnd w' false) = bd_pkt_size (bnd w false).
Lemma keep_refl w : keep w w.
Proof. split; [apply fixed_refl|auto]. Qed.
Lemma keep_trans w1 w2 w3 : keep w1 w2 -> keep w2 w3 -> keep w1 w3.
Proof.
  intros (A1 & A2 & A3) (B1 & B2 & B3). split; [eapply fixed_trans; eassumption|]. split; [|congruence]. intros N. destruct (A2 N) as [C1 C2]. destruct (B2 C2) as [D1 D2].
  split; congruence.
Qed.
Lemma keep_same w w' : w_b0 w' = w_b0 w -> ost w' false = ost w false -> keep w w'.
Proof. intros E1 E2. unfold keep, ast. cbn [bnd]. rewrite E1, E2. split; [apply fixed_refl|auto]. Qed.

Lemma keep_set_bus w i b b' : bget w i = Some b -> bus_st b' = bus_st b -> keep w (set_bus w i b').
Proof.
  intros Hb Hs. apply keep_same; [apply b0_set_bus|]. unfold ost. rewrite (bget_set_bus _ _ _ _ _ _ Hb).
  destruct i; cbn [eqb]; [reflexivity|]. rewrite Hb. cbn. now rewrite Hs.
Qed.
Lemma res_get_bus (w : world) i : res (fun b => bget w i = Some b) (get_bus (w_m w) i).
Proof.
  unfold get_bus, bget. destruct (m_busses (w_m w)) as [|l|]; cbn; auto. destruct (nth_bus l i); cbn; auto.
Qed.

Lemma res_kcs_send x c : res (fun _ => True) (kcs_send x c).
Proof. apply res_any. Qed.
Lemma res_tx x p : res (fun r => fixed x (fst (fst (fst r)))) (astlpc_tx x p).
Proof.
  unfold astlpc_tx. eapply res_bind; [apply res_any|]. intros mx _. destruct (mx <? _); [apply fixed_refl|]. cbn [res].
  eapply res_bind; [apply res_any|]. intros p' _. eapply res_bind; [apply res_any|]. intros bs _. cbn [res].
  eapply res_bind; [apply res_any|]. intros rc _. destruct (rc =? 0); repeat split.
Qed.

(** Transmission of one packet. *)
Lemma res_packet_tx (w : world) i b p : bget w i = Some b ->
  res (fun r => keep w (fst (fst r)) /\ exists b', bget (fst (fst r)) i = Some b') (packet_tx astlpc_tx w i p).
Proof.
  intros Hb. unfold packet_tx. eapply res_bind; [apply res_get_bus|]. intros b0 Hb0. rewrite Hb in Hb0. injection Hb0 as <-.
  destruct (bus_st b) eqn:Es; cbn [res fst]; try (split; [apply keep_refl|eauto]).
  eapply res_bind; [apply res_any|]. intros by_ _. eapply res_bind; [apply res_any|]. intros _ _. cbn [res].
  eapply res_bind; [apply res_tx|]. intros [[[x' p'] rc] dis] Hx. cbn [fst] in Hx.
  set (w1 := set_bnd w i (set_priv (bnd w i) x')).
  assert (bget w1 i = Some b) as Hb1 by (unfold w1; rewrite bget_set_bnd; exact Hb).
  assert (keep w w1) as K1.
  { split.
    - unfold w1, ast. destruct i; cbn; [apply fixed_refl|]. exact Hx.
    - split; [|destruct i; reflexivity]. intros N. destruct i.
      + split; [reflexivity|]. unfold ost in *. unfold w1. rewrite bget_set_bnd. exact N.
      + exfalso. apply N. unfold ost. rewrite Hb. cbn. now rewrite Es. }
  eapply res_bind with (Q := fun w2 => keep w1 w2 /\ exists b', bget w2 i = Some b').
  - destruct dis; cbn [res]; [|split; [apply keep_refl|eauto]].
    split.
    + split; [unfold ast; cbn [bnd]; rewrite b0_set_bus; apply fixed_refl|]. split; [|cbn [bnd]; now rewrite b0_set_bus]. intros N.
      split; [unfold ast; cbn [bnd]; now rewrite b0_set_bus|]. unfold ost. rewrite (bget_set_bus _ _ _ _ _ _ Hb1).
      destruct i; cbn [eqb]; [exact N|]. cbn. unfold disable_bus. rewrite Es. discriminate.
    + rewrite (bget_set_bus _ _ _ _ _ _ Hb1). rewrite eqb_reflx. eauto.
  - intros w2 [K2 Hb2]. cbn [res fst]. split; [eapply keep_trans; eassumption|exact Hb2].
Qed.

Lemma res_send_loop i : forall n (w : world), res (keep w) (send_loop astlpc_tx n w i).
Proof.
  induction n as [|n IH]; intros w; cbn [send_loop].
  - eapply res_bind; [apply res_get_bus|]. intros b _. destruct (bus_q b); cbn [res]; [apply keep_refl|exact I].
  - eapply res_bind; [apply res_get_bus|]. intros b Hb. destruct (bus_q b) as [|p q]; cbn [res]; [apply keep_refl|].
    eapply res_bind; [apply (res_packet_tx w i b p Hb)|]. intros [[w' p'] rc] [K _]. cbn [fst] in K.
    eapply res_bind; [apply res_get_bus|]. intros b' Hb'.
    destruct ((rc =? 0) || (rc =? - EMSGSIZE)).
    + eapply res_bind; [apply res_any|]. intros _ _. eapply res_mono; [|apply IH]. intros w2 K2.
      eapply keep_trans; [exact K|]. eapply keep_trans; [|exact K2]. now apply (keep_set_bus _ _ b').
    + cbn [res]. eapply keep_trans; [exact K|]. now apply (keep_set_bus _ _ b').
Qed.
Lemma res_send_tx_queue (w : world) i : res (keep w) (send_tx_queue astlpc_tx w i).
Proof. unfold send_tx_queue. eapply res_bind; [apply res_any|]. intros b _. apply res_send_loop. Qed.
Lemma keep_next (w : world) n : keep w (set_m w (set_next (w_m w) n)).
Proof. apply keep_same; reflexivity. Qed.
Lemma res_packetise i : forall n (w : world) s d to tag mtu k msg,
  res (keep w) (packetise n w i s d to tag mtu k msg).
Proof.
  induction n as [|n IH]; intros w s d to tag mtu k msg; cbn [packetise].
  - destruct msg; cbn [res]; [apply keep_refl|exact I].
  - destruct msg as [|c msg]; [apply keep_refl|].
    eapply res_bind; [apply res_any|]. intros o _. eapply res_bind; [apply res_any|]. intros p _.
    eapply res_bind; [apply res_any|]. intros p1 _. eapply res_bind; [apply res_any|]. intros p2 _.
    eapply res_bind; [apply res_get_bus|]. intros b Hb. eapply res_bind; [apply res_any|]. intros by_ _. cbn [res].
    eapply res_mono; [|apply IH]. intros w2 K2. eapply keep_trans; [apply keep_next|].
    eapply keep_trans; [eapply keep_set_bus; [exact Hb|]|exact K2]. reflexivity.
Qed.
Lemma res_on_bus (w : world) i s d to tag msg : res (fun r => keep w (fst r)) (message_tx_on_bus astlpc_tx w i s d to tag msg).
Proof.
  unfold message_tx_on_bus. eapply res_bind; [apply res_any|]. intros b _.
  assert (res (fun r : world * Z => keep w (fst r)) (if negb (Z.land tag 7 =? tag) then Ret (w, - EINVAL)
      else let mtu := MCTP_BODY_SIZE (bd_pkt_size (bnd w i)) in
        _ <- assert_ (MCTP_BTU <=? mtu) ;;
        w' <- packetise (length msg) w i s d to tag mtu 0 msg ;;
        w'' <- send_tx_queue astlpc_tx w' i ;;
        Ret (w'', 0))) as H.
  { destruct (negb _); [apply keep_refl|]. cbv zeta. eapply res_bind; [apply res_any|]. intros _ _.
    eapply res_bind; [apply res_packetise|]. intros w1 K1. eapply res_bind; [apply res_send_tx_queue|]. intros w2 K2.
    cbn [res fst]. eapply keep_trans; eassumption. }
  destruct (bus_st b); [apply keep_refl|exact H|exact H].
Qed.
Lemma res_message_tx (w : world) eid to tag msg : res (fun r => keep w (fst r)) (message_tx astlpc_tx w eid to tag msg).
Proof.
  unfold message_tx. destruct (negb _); [apply keep_refl|]. destruct (m_nb (w_m w) =? 0); [apply keep_refl|].
  eapply res_bind; [apply res_any|]. intros b _. apply res_on_bus.
Qed.
Lemma res_react : forall l (w : world), res (keep w) (app_react astlpc_tx w l).
Proof.
  induction l as [|r l IH]; intros w; cbn [app_react]; [apply keep_refl|].
  eapply res_bind; [apply res_message_tx|]. intros [w1 rc] K. cbn [fst] in K.
  eapply res_mono; [|apply IH]. intros w2 K2. eapply keep_trans; eassumption.
Qed.
Lemma res_callback app (w : world) ev : res (keep w) (callback astlpc_tx app w ev).
Proof. unfold callback. cbn [res]. apply res_react. Qed.
Lemma res_mctp_rx app (w : world) i s d to tag b msg : res (keep w) (mctp_rx astlpc_tx app w i s d to tag b msg).
Proof.
  unfold mctp_rx. eapply res_bind; [apply res_any|]. intros _ _. cbn [res].
  destruct (m_policy (w_m w)).
  - eapply res_bind; [apply res_any|]. intros bs _. destruct (dest_is_local bs d); [|apply keep_refl].
    unfold rx_local. eapply res_bind with (Q := fun r => keep w (fst r)).
    + destruct (_ && _); [|apply keep_refl]. unfold ctrl_handle. destruct (_ && _); [|apply keep_refl].
      eapply res_bind; [apply res_callback|]. intros w1 K. exact K.
    + intros [w1 h] K. cbn [fst] in K. destruct h; [exact K|]. destruct (m_rx (w_m w1)); [|exact K].
      eapply res_mono; [|apply res_callback]. intros w2 K2. eapply keep_trans; eassumption.
  - unfold rx_bridge. destruct (m_nb (w_m w) =? 2); [|apply keep_refl].
    eapply res_bind; [apply res_on_bus|]. intros [w1 rc] K. exact K.
Qed.
Lemma keep_ctx (w : world) n c : keep w (put_ctx w n c).
Proof. apply keep_same; reflexivity. Qed.
Ltac kp :=
  repeat match goal with
  | |- res (keep ?w) (@bind (Core.world astlpc) _ _ _) => eapply res_bind with (Q := keep w); [|intros ? ?]
  | |- res _ (bind _ _) => eapply res_bind; [apply res_any|intros ? _]
  | |- res _ (mctp_rx _ _ _ _ _ _ _ _ _ _) => eapply res_mono; [|apply res_mctp_rx]; intros ? ?
  | |- res _ (Emit _ _) => cbn [res]
  | |- res _ (Flt _) => exact I
  | |- res _ (Ret _) => cbn [res]
  | |- res _ (if ?b then _ else _) => destruct b
  | |- res _ (let _ := _ in _) => cbv zeta
  | |- res _ (match ?x with _ => _ end) => destruct x
  | |- keep ?w ?w => apply keep_refl
  | |- keep ?w (put_ctx ?w _ _) => apply keep_ctx
  | |- keep _ (put_ctx _ _ _) => eapply keep_trans; [|apply keep_ctx]
  | H : keep ?w ?w' |- keep ?w ?w' => exact H
  end.
Lemma res_bus_rx app (w : world) i p : res (keep w) (bus_rx astlpc_tx app w i p).
Proof.
  unfold bus_rx. eapply res_bind; [apply res_any|]. intros _ _. eapply res_bind; [apply res_any|]. intros b _.
  eapply res_bind; [apply res_any|]. intros by_ _. cbn [res].
  unfold bus_rx_body, rx_som, rx_eom, rx_mid. 
  eapply res_bind with (Q := keep w); [|intros w1 K; eapply res_bind; [apply res_any|]; intros; exact K].
  kp. all: eapply keep_trans; [apply keep_ctx|eassumption].
Qed.

(** ** Results and events, whatever the environment *)
Fixpoint rest {A} (P : A -> list event -> Prop) (p : prog A) (t : list event) : Prop :=
  match p with
  | Ret a => P a t
  | Flt _ => True
  | KRead r k => forall v, rest P (k v) (t ++ [EvKRead r v])
  | KWrite r v k => forall b, rest P (k b) (t ++ [EvKWrite r v b])
  | LRead o _ k => forall l, rest P (k l) (t ++ [EvLRead o l])
  | LWrite o bs k => rest P k (t ++ [EvLWrite o bs])
  | SWrite bs k => forall r, rest P (k r) (t ++ [EvSWrite bs r])
  | Malloc k => forall b, rest P (k b) t
  | Emit e k => rest P k (t ++ [e])
  end.
Lemma rest_run {A} e (P : A -> list event -> Prop) : forall (p : prog A) n t a n' t',
  rest P p t -> run e n t p = Done a n' t' -> P a t'.
Proof.
  induction p; intros m t x n' t' Hr E; cbn [rest run] in *; try (eapply H; [apply Hr|exact E]); try (eapply IHp; eassumption).
  - injection E as <- _ <-. exact Hr.
  - discriminate.
  - destruct (in_window off len); [|discriminate]. eapply H; [apply Hr|exact E].
  - destruct (in_window off (zlen bs)); [|discriminate]. eapply IHp; eassumption.
Qed.
Lemma rest_bind {A B} (Q : A -> list event -> Prop) (P : B -> list event -> Prop) : forall (p : prog A) (f : A -> prog B) t,
  rest Q p t -> (forall a t', Q a t' -> rest P (f a) t') -> rest P (bind p f) t.
Proof. induction p; intros F t Hp Hf; cbn [bind rest] in *; auto. Qed.
Lemma rest_mono {A} (P Q : A -> list event -> Prop) : forall (p : prog A) t, (forall a t, P a t -> Q a t) -> rest P p t -> rest Q p t.
Proof. induction p; cbn [rest]; auto. Qed.
Lemma rest_res {A} (P : A -> Prop) : forall (p : prog A) t, res P p -> rest (fun a t' => P a /\ exists s, t' = t ++ s) p t.
Proof.
  assert (forall (e : event) g g', (exists s, g' = (g ++ [e]) ++ s) -> exists s, g' = g ++ s) as Hs.
  { intros e g g' [s ->]. exists (e :: s). now rewrite <- app_assoc. }
  induction p; intros t Hr; cbn [rest res] in *.
  - split; [exact Hr|]. exists []. now rewrite app_nil_r.
  - exact I.
  - intros v. eapply rest_mono; [|apply H; apply Hr]. cbn. intros x y [H1 H2]. split; [exact H1|]. eapply Hs. exact H2.
  - intros b. eapply rest_mono; [|apply H; apply Hr]. cbn. intros x y [H1 H2]. split; [exact H1|]. eapply Hs. exact H2.
  - intros l. eapply rest_mono; [|apply H; apply Hr]. cbn. intros x y [H1 H2]. split; [exact H1|]. eapply Hs. exact H2.
  - eapply rest_mono; [|apply IHp; exact Hr]. cbn. intros x y [H1 H2]. split; [exact H1|]. eapply Hs. exact H2.
  - intros l. eapply rest_mono; [|apply H; apply Hr]. cbn. intros x y [H1 H2]. split; [exact H1|]. eapply Hs. exact H2.
  - intros l. apply H, Hr.
  - eapply rest_mono; [|apply IHp; exact Hr]. cbn. intros x y [H1 H2]. split; [exact H1|]. eapply Hs. exact H2.
Qed.
Lemma rest_any {A} (p : prog A) t : rest (fun _ t' => exists s, t' = t ++ s) p t.
Proof. eapply rest_mono; [|apply rest_res, res_any]. cbn. intros a t' [_ H]. exact H. Qed.

(** ** The claims of C39 *)

(** The side's own KCS data register is free according to status [st]: a BMC may
    write when the output buffer is empty, a host when the input buffer is. *)
Definition own_free (bmc : bool) (st : Z) : bool := negb (tst st (if bmc then 1 else 2)).

(** One attempt at handing a buffer over with command [cmd]: the status register is
    read and, if the register is free, the command written.  [true]: it got through. *)
Inductive attempt (bmc : bool) (cmd : Z) : list event -> bool -> Prop :=
| AtError : attempt bmc cmd [EvKRead KStatus None] false
| AtFull st : own_free bmc st = false -> attempt bmc cmd [EvKRead KStatus (Some st)] false
| AtWritten st ok : own_free bmc st = true ->
    attempt bmc cmd [EvKRead KStatus (Some st); EvKWrite KData cmd ok] ok.

(** The channel was restarted: Initialise was received, or the host finds bmc-ready or
    channel-active changed since it last looked, or is announced a change while its
    version is not negotiated. *)
Definition restarted (x : astlpc) (t : list event) : Prop :=
  In (EvKRead KData (Some 0)) t \/
  (a_bmc x = false /\ exists st, In (EvKRead KStatus (Some st)) t /\
     (tst st 128 <> tst (a_kcs x) 128 \/ tst st 64 <> tst (a_kcs x) 64)) \/
  (a_bmc x = false /\ a_proto x = Some 0 /\ In (EvKRead KData (Some 255)) t).

Lemma free_ready (x : astlpc) st : kcs_write_ready x st = own_free (a_bmc x) st.
Proof.
  unfold kcs_write_ready, kcs_ready, own_free, ST_IBF, ST_OBF.
  destruct (a_bmc x); cbn [xorb negb]; destruct (tst st _); reflexivity.
Qed.

Lemma rest_kcs_send x cmd t : rest (fun rc t' => exists s ok, t' = t ++ s /\ attempt (a_bmc x) cmd s ok /\
    (ok = true -> rc = 0) /\ (ok = false -> rc <> 0)) (kcs_send x cmd) t.
Proof.
  unfold kcs_send. cbn [rest]. intros [st|].
  - rewrite free_ready. destruct (own_free (a_bmc x) st) eqn:E; cbn [negb rest].
    + intros [|]; cbn [rest]; eexists _, _; rewrite <- app_assoc; (split; [reflexivity|]); split; try (now constructor);
        split; try discriminate; (intros _; first [reflexivity|discriminate]).
    + eexists _, false. split; [reflexivity|]. split; [now apply AtFull|]. split; [discriminate|intros _; discriminate].
  - cbn [rest]. eexists _, false. split; [reflexivity|]. split; [apply AtError|]. split; [discriminate|intros _; discriminate].
Qed.

(** mctp_astlpc_init_pollfd asks for POLLOUT exactly while a hand-off is outstanding. *)
Theorem C39_pollfd (x : astlpc) :
  pollfd_out x = true <-> ab_st (a_rx x) = Prepared \/ ab_st (a_tx x) = Prepared.
Proof.
  unfold pollfd_out. destruct (ab_st (a_rx x)), (ab_st (a_tx x)); (split; [intros H|intros [H|H]]); solve [discriminate|auto].
Qed.

(** A buffer still waits to be handed over. *)
Definition still (x x' : astlpc) : Prop :=
  (ab_st (a_rx x) = Prepared -> ab_st (a_rx x') = Prepared) /\
  (ab_st (a_tx x) = Prepared -> ab_st (a_tx x') = Prepared).
(** The buffers and what decides about them. *)
Definition calm_from (w w' : world) : Prop :=
  still (ast w false) (ast w' false) /\ a_kcs (ast w' false) = a_kcs (ast w false) /\
  a_proto (ast w' false) = a_proto (ast w false) /\ a_bmc (ast w' false) = a_bmc (ast w false).
Definition waits (w : world) : Prop := ab_st (a_tx (ast w false)) = Prepared -> ost w false <> Some TxEnabled.

Lemma calm_refl w : calm_from w w.
Proof. repeat split; auto. Qed.
Lemma calm_keep w w' : waits w -> keep w w' -> calm_from w w'.
Proof.
  intros Hw [(A1 & A2 & A3 & A4) [B _]]. split; [|auto]. split; [now rewrite A1|].
  intros E. destruct (B (Hw E)) as [-> _]. exact E.
Qed.

Lemma res_rx_start app (w : world) : waits w -> ab_st (a_rx (ast w false)) = Released ->
  res (calm_from w) (rx_start app w false).
Proof.
  intros Hw Hr. unfold rx_start. cbn [res]. intros lb. eapply res_bind; [apply res_any|]. intros mx _.
  destruct (mx <? _); [apply calm_refl|]. destruct (_ <? _); [apply calm_refl|].
  eapply res_bind; [apply res_any|]. intros ps _. cbv zeta. eapply res_bind; [apply res_any|]. intros [pkt|] _; [|exact (calm_refl w)].
  cbn [res]. intros bs. eapply res_bind; [apply res_any|]. intros pk _. eapply res_bind; [apply res_any|]. intros rc _.
  match goal with |- res _ (bind _ (fun h => if _ then bind _ (fun _ => Ret ?w1) else _)) => set (w2 := w1) end.
  assert (calm_from w w2 /\ (waits w2)) as [C2 W2].
  { split.
    - unfold w2. split; [|destruct (rc =? 0); repeat split]. split; [rewrite Hr; discriminate|].
      destruct (rc =? 0); intros E; exact E.
    - unfold waits, w2. destruct (rc =? 0); exact Hw. }
  eapply res_bind; [apply res_any|]. intros h _. destruct (negb _).
  { eapply res_bind; [apply res_any|]. intros _ _. exact C2. }
  eapply res_bind; [apply res_any|]. intros [pk' ok] _. destruct ok.
  - eapply res_mono; [|apply res_bus_rx]. intros w3 K3. apply (calm_keep _ _ W2) in K3.
    destruct C2 as ([P1 P2] & P3 & P4 & P5), K3 as ([R1 R2] & R3 & R4 & R5). repeat split; try congruence; auto.
  - eapply res_bind; [apply res_any|]. intros _ _. exact C2.
Qed.
Lemma res_tx_complete (w : world) : ab_st (a_tx (ast w false)) = Released -> res (calm_from w) (tx_complete w false).
Proof.
  intros Ht. unfold tx_complete, set_tx_enabled. cbn [res]. destruct (negb _); [exact I|].
  set (w1 := put_ast w false _).
  assert (forall w', w_b0 w' = w_b0 w1 -> calm_from w w') as H1.
  { intros w' E. unfold calm_from, still, ast. cbn [bnd]. rewrite E. unfold w1. cbn.
    unfold ast in Ht. cbn [bnd] in Ht. repeat split; auto. unfold a_rx, a_tx in *. rewrite Ht. discriminate. }
  eapply res_bind; [apply res_any|]. intros b _. destruct (bus_st b); cbn [negb].
  - destruct (_ <? _); apply H1; [reflexivity|apply b0_set_bus].
  - now apply H1.
  - eapply res_mono; [|apply res_send_tx_queue]. intros w2 [(A1 & A2 & A3 & A4) _].
    pose proof (H1 (set_bus w1 false (set_st b TxEnabled)) (b0_set_bus _ _ _ _)) as ([P1 P2] & P3 & P4 & P5).
    split; [split|]; [rewrite A1; exact P1|rewrite Ht; discriminate|]. repeat split; congruence.
Qed.

(** The host's view of the status register unchanged: nothing happens. *)
Lemma res_update_same (w : world) st v : a_proto (ast w false) = Some v -> v <> 0 ->
  tst st ST_BMC_READY = tst (a_kcs (ast w false)) ST_BMC_READY -> tst st ST_ACTIVE = tst (a_kcs (ast w false)) ST_ACTIVE ->
  res (fun r => still (ast w false) (ast (fst r) false)) (update_channel w false st).
Proof.
  intros Ev Nv E1 E2. unfold update_channel. eapply res_bind; [apply res_any|]. intros _ _. cbv zeta.
  rewrite tst_xor_ready, tst_xor_active, E1, E2, !xorb_nilpotent. cbn [andb bind]. rewrite Ev. cbn [deref bind].
  replace (v =? 0) with false by lia. cbn [orb bind res fst]. split; auto.
Qed.

Lemma rest_tail (w0 w : world) st data rc t : calm_from w0 w -> In (EvKRead KStatus (Some st)) t ->
  In (EvKRead KData (Some data)) t -> (exists v, a_proto (ast w false) = Some v /\ (v = 0 -> data = 0 \/ data = 255)) ->
  rest (fun r t' => restarted (ast w0 false) t' \/ still (ast w0 false) (ast (fst r) false)) (poll_tail w false st data rc) t.
Proof.
  intros ([P1 P2] & P3 & P4 & P5) I1 I2 (v & Ev & Hv). unfold poll_tail.
  destruct (a_bmc (ast w false)) eqn:Eb; cbn [negb andb]; [right; split; assumption|].
  destruct (negb _); [|right; split; assumption].
  assert (forall t', (exists s, t' = t ++ s) -> (forall e, In e t -> In e t')) as Hin.
  { intros t' [s ->] e He. apply in_or_app. now left. }
  destruct (Z.eq_dec v 0) as [E|E].
  { eapply rest_mono; [|apply rest_any]. cbn. intros r t' Ht'. specialize (Hin t' Ht'). left.
    destruct (Hv E) as [-> | ->]; [left; now apply Hin|]. right. right. repeat split; [congruence|congruence|now apply Hin]. }
  destruct (Bool.bool_dec (tst st ST_BMC_READY) (tst (a_kcs (ast w false)) ST_BMC_READY)) as [E1|E1];
  [destruct (Bool.bool_dec (tst st ST_ACTIVE) (tst (a_kcs (ast w false)) ST_ACTIVE)) as [E2|E2]|].
  - eapply rest_mono; [|apply rest_res, (res_update_same w st v); assumption]. cbn. intros r t' [[R1 R2] _]. right. split; auto.
  - eapply rest_mono; [|apply rest_any]. cbn. intros r t' Ht'. left. right. left. split; [congruence|].
    exists st. split; [now apply (Hin t' Ht')|]. right. rewrite <- P3. exact E2.
  - eapply rest_mono; [|apply rest_any]. cbn. intros r t' Ht'. left. right. left. split; [congruence|].
    exists st. split; [now apply (Hin t' Ht')|]. left. rewrite <- P3. exact E1.
Qed.

Lemma restarted_mono x t t' : (exists s, t' = t ++ s) -> restarted x t -> restarted x t'.
Proof.
  intros [s ->] [H|[(A & st & H1 & H2)|(A & B & H)]].
  - left. apply in_or_app. now left.
  - right. left. split; [exact A|]. exists st. split; [apply in_or_app; now left|exact H2].
  - right. right. split; [exact A|]. split; [exact B|]. apply in_or_app. now left.
Qed.

Lemma rest_dispatch app (w : world) st data t : waits w -> In (EvKRead KStatus (Some st)) t ->
  In (EvKRead KData (Some data)) t ->
  rest (fun r t' => restarted (ast w false) t' \/ still (ast w false) (ast (fst r) false)) (poll_dispatch app w false st data) t.
Proof.
  intros Hw I1 I2. unfold poll_dispatch. destruct (a_proto (ast w false)) as [v|] eqn:Ev; [|exact I]. cbn [deref bind].
  assert (forall t' s, t' = t ++ s -> forall e, In e t -> In e t') as Hin.
  { intros t' s -> e He. apply in_or_app. now left. }
  unfold cmd_initialise, cmd_tx_begin, cmd_rx_complete, cmd_dummy_value in *.
  destruct ((v =? 0) && negb ((data =? 0) || (data =? 255))) eqn:E0; [right; split; auto|].
  assert (v = 0 -> data = 0 \/ data = 255) as Hv by lia.
  destruct (data =? 0) eqn:D0.
  { assert (data = 0) as -> by lia. eapply rest_mono; [|apply rest_any]. cbn. intros r t' [s E].
    left. left. now apply (Hin t' s E). }
  destruct (data =? 1) eqn:D1.
  { destruct (ab_st (a_rx (ast w false))) eqn:Es; try (right; split; auto).
    eapply rest_bind; [apply rest_res, (res_rx_start app w Hw Es)|]. intros w1 t1 [C [s ->]].
    apply rest_tail; [exact C|apply in_or_app; now left|apply in_or_app; now left|]. exists v.
    destruct C as (_ & _ & C & _). split; [congruence|lia]. }
  destruct (data =? 2) eqn:D2.
  { destruct (ab_st (a_tx (ast w false))) eqn:Es; try (right; split; auto).
    eapply rest_bind; [apply rest_res, (res_tx_complete w Es)|]. intros w1 t1 [C [s ->]].
    apply rest_tail; [exact C|apply in_or_app; now left|apply in_or_app; now left|]. exists v.
    destruct C as (_ & _ & C & _). split; [congruence|lia]. }
  destruct (data =? 255) eqn:D3; [|apply rest_tail; eauto using calm_refl].
  assert (data = 255) as -> by lia.
  destruct (a_bmc (ast w false)) eqn:Eb; [apply rest_tail; eauto using calm_refl|].
  destruct (Z.eq_dec v 0) as [E|E].
  { eapply rest_mono; [|apply rest_any]. cbn. intros r t' [s Et]. left. right. right. repeat split; [congruence|congruence|].
    now apply (Hin t' s Et). }
  destruct (Bool.bool_dec (tst st ST_BMC_READY) (tst (a_kcs (ast w false)) ST_BMC_READY)) as [E1|E1];
  [destruct (Bool.bool_dec (tst st ST_ACTIVE) (tst (a_kcs (ast w false)) ST_ACTIVE)) as [E2|E2]|].
  - unfold update_channel. rewrite Eb. cbn [negb assert_ bind]. cbv zeta.
    rewrite tst_xor_ready, tst_xor_active, E1, E2, !xorb_nilpotent. cbn [andb bind]. rewrite Ev. cbn [deref bind].
    replace (v =? 0) with false by lia. cbn [orb bind].
    unfold poll_tail. destruct (0 <? 0) eqn:E00; [lia|]. clear E00.
    assert (forall x, a_bmc (ast (put_ast w false (a_set_kcs (ast w false) x)) false) = false) as -> by (intros; exact Eb).
    cbn [negb andb]. destruct (negb (tst st ST_BMC_READY && (255 =? cmd_dummy_value))); [|right; split; auto].
    eapply rest_mono; [|apply rest_res, (res_update_same _ st v); [exact Ev|exact E| |]]; try reflexivity.
    cbn. intros r t' [[R1 R2] _]. right. split; [exact R1|exact R2].
  - eapply rest_mono; [|apply rest_any]. cbn. intros r t' [s Et]. left. right. left. split; [congruence|].
    exists st. split; [now apply (Hin t' s Et)|]. right. exact E2.
  - eapply rest_mono; [|apply rest_any]. cbn. intros r t' [s Et]. left. right. left. split; [congruence|].
    exists st. split; [now apply (Hin t' s Et)|]. left. exact E1.
Qed.

(** The events of a poll begin with one attempt for each buffer that waits, receive
    buffer first; a buffer whose attempt failed goes on waiting, unless the channel is
    restarted. *)
Definition attempts (x x' : astlpc) (t : list event) : Prop :=
  exists r1 r2 d1 d2 t2, t = r1 ++ r2 ++ t2 /\
    (ab_st (a_rx x) = Prepared -> attempt (a_bmc x) 2 r1 d1) /\ (ab_st (a_rx x) <> Prepared -> r1 = []) /\
    (ab_st (a_tx x) = Prepared -> attempt (a_bmc x) 1 r2 d2) /\ (ab_st (a_tx x) <> Prepared -> r2 = []) /\
    (restarted x t \/
     (ab_st (a_rx x) = Prepared -> d1 = false -> ab_st (a_rx x') = Prepared) /\
     (ab_st (a_tx x) = Prepared -> d2 = false -> ab_st (a_tx x') = Prepared)).

Lemma rest_attempt (x : astlpc) (b : abuf) cmd (f : astlpc) t :
  rest (fun y t' => exists s d, t' = t ++ s /\ attempt (a_bmc x) cmd s d /\ y = if d : bool then f else x)
       (rc <- kcs_send x cmd ;; Ret (if rc =? 0 then f else x)) t.
Proof.
  eapply rest_bind; [apply rest_kcs_send|]. intros rc t1 (s & ok & -> & Ha & K1 & K2). cbn [rest].
  exists s, ok. split; [reflexivity|]. split; [exact Ha|]. destruct ok.
  - rewrite (K1 eq_refl). reflexivity.
  - specialize (K2 eq_refl). destruct (rc =? 0) eqn:E; [lia|reflexivity].
Qed.

Lemma rest_poll app (w : world) : waits w ->
  rest (fun r t' => attempts (ast w false) (ast (fst r) false) t') (poll app w false) [].
Proof.
  intros Hw. unfold poll. set (x := ast w false) in *.
  eapply rest_bind with (Q := fun y t' => exists d1, (ab_st (a_rx x) = Prepared -> attempt (a_bmc x) 2 t' d1) /\
      (ab_st (a_rx x) <> Prepared -> t' = []) /\ a_bmc y = a_bmc x /\ a_tx y = a_tx x /\ a_kcs y = a_kcs x /\ a_proto y = a_proto x /\
      (ab_st (a_rx x) = Prepared -> d1 = false -> ab_st (a_rx y) = Prepared)).
  { unfold poll_release_rx. destruct (ab_st (a_rx x)) eqn:Er;
      try (cbn [rest]; exists false; repeat split; try (intros; congruence)).
    eapply rest_mono; [|apply (rest_attempt x (a_rx x) cmd_rx_complete)]. cbn. intros y t' (s & d & -> & Ha & ->).
    exists d. split; [intros _; exact Ha|]. split; [congruence|]. destruct d; repeat split; auto; discriminate. }
  intros x1 t1 (d1 & A1 & A2 & A3 & A4 & A4k & A4p & A5).
  eapply rest_bind with (Q := fun y t' => exists r2 d2, t' = t1 ++ r2 /\ (ab_st (a_tx x) = Prepared -> attempt (a_bmc x) 1 r2 d2) /\
      (ab_st (a_tx x) <> Prepared -> r2 = []) /\ a_bmc y = a_bmc x /\ a_rx y = a_rx x1 /\ a_kcs y = a_kcs x /\ a_proto y = a_proto x /\
      (ab_st (a_tx x) = Prepared -> d2 = false -> ab_st (a_tx y) = Prepared) /\
      (ab_st (a_tx y) = Prepared -> ab_st (a_tx x) = Prepared)).
  { unfold poll_release_tx. rewrite A4. destruct (ab_st (a_tx x)) eqn:Er;
      try (cbn [rest]; exists [], false; rewrite app_nil_r; repeat split; try congruence; try (intros; congruence)).
    eapply rest_mono; [|apply (rest_attempt x1 (a_tx x) cmd_tx_begin)]. cbn. intros y t' (s & d & -> & Ha & ->).
    exists s, d. split; [reflexivity|]. rewrite A3 in Ha. split; [intros _; exact Ha|]. split; [congruence|].
    destruct d; repeat split; auto; try congruence; try discriminate. }
  intros x2 t2 (r2 & d2 & -> & B1 & B2 & B3 & B4 & B4k & B4p & B5 & B6). cbv zeta.
  assert (forall (w' : world) s, restarted x (t1 ++ r2 ++ s) \/ still x2 (ast w' false) ->
      attempts x (ast w' false) (t1 ++ r2 ++ s)) as Hfin.
  { intros w' s H. exists t1, r2, d1, d2, s. repeat split; try assumption. destruct H as [H|[H1 H2]]; [now left|].
    right. split; intros; [apply H1; rewrite B4; auto|apply H2; auto]. }
  cbn [rest]. intros [st|]; [|cbn [rest fst]; rewrite <- app_assoc; apply Hfin; right; split; auto].
  destruct (negb _); [cbn [rest fst]; rewrite <- app_assoc; apply Hfin; right; split; auto|].
  cbn [rest]. intros [data|]; [|cbn [rest fst]; rewrite <- !app_assoc; apply Hfin; right; split; auto].
  set (w2 := put_ast w false x2).
  assert (In (EvKRead KStatus (Some st)) (((t1 ++ r2) ++ [EvKRead KStatus (Some st)]) ++ [EvKRead KData (Some data)])) as I1
    by (rewrite !in_app_iff; cbn; auto).
  assert (In (EvKRead KData (Some data)) (((t1 ++ r2) ++ [EvKRead KStatus (Some st)]) ++ [EvKRead KData (Some data)])) as I2
    by (rewrite !in_app_iff; cbn; auto).
  assert (waits w2) as W2.
  { intros E. change (ost w2 false) with (ost w false). apply Hw. fold x. apply B6. exact E. }
  pose proof (rest_dispatch app w2 st data _ W2 I1 I2) as HD.
  pose proof (rest_any (poll_dispatch app w2 false st data)
     (((t1 ++ r2) ++ [EvKRead KStatus (Some st)]) ++ [EvKRead KData (Some data)])) as HA.
  assert (forall A (p : prog A) (P Q : A -> list event -> Prop) t, rest P p t -> rest Q p t -> rest (fun a t => P a t /\ Q a t) p t) as Hconj.
  { clear. intros A p P Q. induction p; cbn [rest]; intros; auto. }
  eapply rest_mono; [|apply (Hconj _ _ _ _ _ HD HA)]. cbn beta. intros r t' [H [s ->]].
  rewrite <- !app_assoc in *. apply Hfin. destruct H as [H|H]; [left|right; exact H].
  unfold restarted in *. change (ast w2 false) with x2 in H. rewrite B3, B4k, B4p in H. exact H.
Qed.

Lemma reach_waits app bmc mtu eid l e n tr w : ast_reach app bmc mtu eid l e n tr w -> waits w.
Proof.
  intros Hr. destruct (reach_inv _ _ _ _ _ _ _ _ _ Hr) as (_ & _ & Hao). intros E.
  apply (ao_busy _ _ _ Hao). left. exact E.
Qed.

(** Every poll first tries to hand over each buffer that waits for it: it reads the
    status register and, if the register is free, writes the command.  Unless the
    channel is restarted, a buffer whose attempt failed still waits afterwards. *)
Theorem C39_poll app bmc mtu eid l e n tr w r n' t :
  ast_reach app bmc mtu eid l e n tr w ->
  run e n [] (poll app w false) = Done r n' t ->
  attempts (ast w false) (ast (fst r) false) t.
Proof. intros Hr E. exact (rest_run _ _ _ _ _ _ _ _ (rest_poll app w (reach_waits _ _ _ _ _ _ _ _ _ Hr)) E). Qed.

(** No other call changes that a buffer waits. *)
Theorem C39_kept app bmc mtu eid l e n tr w o w' n' t :
  ast_reach app bmc mtu eid l e n tr w -> ast_traffic (ACore o) ->
  run e n [] (aexec_op app w (ACore o)) = Done w' n' t ->
  (ab_st (a_rx (ast w false)) = Prepared -> ab_st (a_rx (ast w' false)) = Prepared) /\
  (ab_st (a_tx (ast w false)) = Prepared -> ab_st (a_tx (ast w' false)) = Prepared).
Proof.
  intros Hr Ho E. pose proof (reach_waits _ _ _ _ _ _ _ _ _ Hr) as Hw.
  refine (res_run e (fun w' => still (ast w false) (ast w' false)) _ n [] w' n' t _ E).
  cbn [aexec_op]. unfold exec_op. destruct (m_dead (w_m w)); [exact I|].
  destruct o; cbn [ast_traffic] in Ho; try contradiction; cbn [res]; try (split; auto; fail).
  eapply res_bind; [apply res_message_tx|]. intros [w1 rc] K. cbn [res fst] in *. apply (calm_keep _ _ Hw K).
Qed.

(** A packet that is written into the transmit buffer is announced by one attempt;
    if it fails, POLLOUT is asked for. *)
Theorem C39_tx (x : astlpc) p e n x' p' rc (dis : bool) n' t :
  run e n [] (astlpc_tx x p) = Done (x', p', rc, dis) n' t ->
  (dis = false /\ x' = x /\ t = []) \/
  (dis = true /\ exists s1 s2 d, t = s1 ++ s2 /\ zlen s1 = 2 /\ attempt (a_bmc x) 1 s2 d /\
     (d = true -> ab_st (a_tx x') = Released /\ rc = 0) /\ (d = false -> pollfd_out x' = true)).
Proof.
  intros E. refine (rest_run e (fun r t => (snd r = false /\ fst (fst (fst r)) = x /\ t = []) \/
  (snd r = true /\ exists s1 s2 d, t = s1 ++ s2 /\ zlen s1 = 2 /\ attempt (a_bmc x) 1 s2 d /\
     (d = true -> ab_st (a_tx (fst (fst (fst r)))) = Released /\ snd (fst r) = 0) /\
     (d = false -> pollfd_out (fst (fst (fst r))) = true))) _ n [] _ n' t _ E).
  unfold astlpc_tx. eapply rest_bind with (Q := fun _ t' => t' = []).
  { unfold body_size. destruct (a_proto x); [|exact I]. destruct (overhead _); [|exact I].
    unfold assert_. destruct (_ <? _); [reflexivity|exact I]. }
  intros mx t0 ->. destruct (mx <? _); [left; repeat split|]. cbn [rest].
  eapply rest_bind with (Q := fun _ t' => t' = [] ++ [EvLWrite (ab_off (a_tx x)) (be32 (w32 (pktbuf_size p)))]).
  { unfold pktbuf_protect. destruct (a_proto x) as [v|]; [|exact I]. destruct (_ || _); [reflexivity|].
    destruct (v =? 3); [|exact I]. destruct (rd _ _ _); [|exact I]. cbn [deref bind]. unfold pktbuf_push, pktbuf_push_len.
    destruct (_ <? _); [reflexivity|]. destruct (rd _ 0 _); [|exact I]. cbn [deref bind].
    destruct (wr _ _ _); [|exact I]. reflexivity. }
  intros p1 t1 ->. destruct (rd _ _ _) as [bs|]; [|exact I]. cbn [deref bind rest].
  eapply rest_bind; [apply rest_kcs_send|]. intros rc0 t' (s & ok & -> & Ha & K1 & K2). cbn [rest fst snd]. right.
  split; [reflexivity|]. eexists _, s, ok. split; [reflexivity|]. split; [reflexivity|]. split; [exact Ha|]. split.
  - intros Ok. rewrite (K1 Ok). cbn. auto.
  - intros Ok. specialize (K2 Ok). destruct (rc0 =? 0) eqn:E0; [lia|]. apply C39_pollfd. right. reflexivity.
Qed.

(** A packet that is copied out of the receive buffer is acknowledged by one attempt;
    if it fails, POLLOUT is asked for. *)
Theorem C39_rx app (w w' : world) e n n' t :
  run e n [] (rx_start app w false) = Done w' n' t ->
  (exists lb, t = [EvLRead (ab_off (a_rx (ast w false))) lb] /\ ast w' false = ast w false) \/
  (exists lb id off bs s t' d, t = EvLRead (ab_off (a_rx (ast w false))) lb :: EvAlloc id :: EvLRead off bs :: s ++ t' /\
     attempt (a_bmc (ast w false)) 2 s d /\
     (d = true -> ab_st (a_rx (ast w' false)) = Released) /\ (d = false -> pollfd_out (ast w' false) = true)).
Proof.
  intros E. refine (rest_run e (fun w' t => (exists lb, t = [EvLRead (ab_off (a_rx (ast w false))) lb] /\ ast w' false = ast w false) \/
  (exists lb id off bs s t' d, t = EvLRead (ab_off (a_rx (ast w false))) lb :: EvAlloc id :: EvLRead off bs :: s ++ t' /\
     attempt (a_bmc (ast w false)) 2 s d /\
     (d = true -> ab_st (a_rx (ast w' false)) = Released) /\ (d = false -> pollfd_out (ast w' false) = true))) _ n [] _ n' t _ E).
  clear E. unfold rx_start. cbn [rest]. intros lb. cbn [Datatypes.app].
  assert (forall A (p : prog A) (f : A -> prog world) P t0, (forall v, p = Ret v -> rest P (f v) t0) ->
     ((exists v, p = Ret v) \/ exists x, p = Flt x) -> rest P (bind p f) t0) as Hpure.
  { intros A p f P t0 H [[v ->] | [x ->]]; [cbn; apply H; reflexivity|exact I]. }
  apply Hpure. 2:{ unfold body_size. destruct (a_proto _); [|eauto]. destruct (overhead _); [|eauto]. unfold assert_.
    destruct (_ <? _); cbn; eauto. }
  intros mx _. destruct (mx <? _); [left; eexists; split; reflexivity|].
  destruct (_ <? _); [left; eexists; split; reflexivity|].
  apply Hpure. 2:{ unfold packet_size. destruct (a_proto _); [|eauto]. destruct (overhead _); [|eauto]. unfold assert_.
    destruct (_ <? _); cbn; eauto. }
  intros ps _. cbv zeta. unfold pktbuf_alloc. destruct (_ <? _); [left; eexists; split; reflexivity|].
  cbn [bind rest]. intros [|]; [|left; eexists; split; reflexivity]. cbn [bind rest]. intros bs.
  apply Hpure. 2:{ unfold pktbuf_store. destruct (wr _ _ _); cbn; eauto. }
  intros pk _. eapply rest_bind; [apply rest_kcs_send|]. intros rc t1 (s & ok & -> & Ha & K1 & K2).
  match goal with |- rest _ (bind _ (fun h => if _ then bind _ (fun _ => Ret ?w1) else _)) _ => set (w2 := w1) end.
  assert ((ok = true -> ab_st (a_rx (ast w2 false)) = Released) /\ (ok = false -> ab_st (a_rx (ast w2 false)) = Prepared)) as [S1 S2].
  { unfold w2. split; intros Ok; [rewrite (K1 Ok); reflexivity|]. specialize (K2 Ok). destruct (rc =? 0) eqn:E0; [lia|]. reflexivity. }
  eapply rest_mono; [|apply (rest_res (fun w' => a_rx (ast w' false) = a_rx (ast w2 false)))].
  - cbn beta. intros w3 t3 [E3 [u ->]]. right. eexists lb, _, _, bs, s, u, ok. split; [rewrite <- app_assoc; reflexivity|].
    split; [exact Ha|]. rewrite C39_pollfd, E3. auto.
  - eapply res_bind; [apply res_any|]. intros h _. destruct (negb _).
    { eapply res_bind; [apply res_any|]. intros _ _. reflexivity. }
    eapply res_bind; [apply res_any|]. intros [pk' k] _. destruct k.
    + eapply res_mono; [|apply res_bus_rx]. intros w4 [(A1 & _) _]. exact A1.
    + eapply res_bind; [apply res_any|]. intros _ _. reflexivity.
Qed.

(** ** The hypotheses are met: a host that cannot acknowledge a packet, is asked to
    wait, and acknowledges it on the poll that finds the register free *)
Definition busy_env : env :=
  mkEnv (fun _ => true)
    (fun n _ => Some (nth n [128; 128; 128; 128; 128; 128; 128; 128; 193; 255; 192; 193; 193; 1; 195; 195; 195; 195; 194] 192))
    (fun _ => true) demo_mem (fun _ => 1).
Lemma busy_ok : env_ok sane_bmc busy_env.
Proof.
  split; [reflexivity|]. split; [discriminate|]. split; [|discriminate].
  intros n r v. cbn [e_kread busy_env kread_val]. intros [= <-]. cbn [kval_ok sane_bmc].
  do 20 (destruct n as [|n]; [destruct r; reflexivity|]). destruct r; reflexivity.
Qed.
Example C39_case : exists n tr w,
  ast_reach no_app false 64 9 [ACore (OpSetRx true); APoll false; APoll false; APoll false] busy_env n tr w /\
  pollfd_out (ast w false) = true /\
  exists r n' t, run busy_env n [] (poll no_app w false) = Done r n' t /\
    t = [EvKRead KStatus (Some 192); EvKWrite KData 2 true; EvKRead KStatus (Some 192)] /\
    pollfd_out (ast (fst r) false) = false.
Proof.
  destruct (run busy_env 0 [] (ast_history no_app false 64 9 [ACore (OpSetRx true); APoll false; APoll false; APoll false]))
    as [w n tr|f tr] eqn:E; [|vm_compute in E; discriminate].
  exists n, tr, w. pose proof E as E0. vm_compute in E. injection E as <- <- <-. split.
  { split; [cbn; lia|]. split; [repeat constructor|]. split; [apply busy_ok|]. split; [exact E0|reflexivity]. }
  split; [reflexivity|]. eexists _, _, _. split; [vm_compute; reflexivity|]. split; reflexivity.
Qed.
