(** DuoMsg: what one side of the astlpc channel says and hears, from its history. *)
From Verif Require Import Base Lists Prog PktBuf Core WP Walk CoreRel WalkCore CoreHist Spec SpecRx Trace PropTx PropMsg
  Reasm PropRx PropRound PropSerRound Crc Astlpc SpecAst AstBasic
  AstWalk PropAst TwoParty DuoInv DuoPast SpecDuo.

Local Notation world := (world astlpc).

Definition prefix {A} (a b : list A) : Prop := exists r, b = a ++ r.
Lemma prefix_refl {A} (a : list A) : prefix a a.
Proof. exists []. now rewrite app_nil_r. Qed.
Lemma prefix_trans {A} (a b c : list A) : prefix a b -> prefix b c -> prefix a c.
Proof. intros [x ->] [y ->]. exists (x ++ y). now rewrite app_assoc. Qed.
Lemma prefix_app {A} (c a b : list A) : prefix a b -> prefix (c ++ a) (c ++ b).
Proof. intros [x ->]. exists x. now rewrite app_assoc. Qed.
Lemma prefix_cut {A} (a b c : list A) : prefix a (b ++ c) -> prefix a b \/ exists x, a = b ++ x /\ prefix x c.
Proof.
  revert b. induction a as [|y a IH]; intros b [r E].
  - left. exists b. reflexivity.
  - destruct b as [|z b].
    + right. exists (y :: a). split; [reflexivity|]. exists r. exact E.
    + injection E as -> E. destruct (IH b) as [[q ->]|(x & -> & Hx)]; [exists r; exact E| |].
      * left. exists q. reflexivity.
      * right. exists x. auto.
Qed.
Lemma prefix_one {A} (a : list A) x : prefix a [x] -> a = [] \/ a = [x].
Proof.
  intros [r E]. destruct a as [|y [|z a]]; [auto| |discriminate]. injection E as -> _. auto.
Qed.
Lemma prefix_nil {A} (a : list A) : prefix a [] -> a = [].
Proof. intros [r E]. destruct a; [reflexivity|discriminate]. Qed.
Lemma prefix_flat {A B} (f : A -> list B) a b : prefix a b -> prefix (flat_map f a) (flat_map f b).
Proof. intros [r ->]. exists (flat_map f r). apply flat_map_app. Qed.
Lemma prefix_map {A B} (f : A -> B) a b : prefix a b -> prefix (map f a) (map f b).
Proof. intros [r ->]. exists (map f r). apply map_app. Qed.
Lemma prefix_filter {A} (f : A -> bool) a b : prefix a b -> prefix (filter f a) (filter f b).
Proof. intros [r ->]. exists (filter f r). apply filter_app. Qed.
Lemma Forall_prefix {A} (P : A -> Prop) a b : prefix a b -> Forall P b -> Forall P a.
Proof. intros [r ->] H. apply Forall_app in H. tauto. Qed.

(** ** Transmission *)

(** Events that change neither what is said nor what is heard. *)
Definition dull_ev (e : event) : Prop :=
  match e with
  | EvSetTx _ en => en = false
  | EvRx _ _ _ _ | EvCtrl _ _ _ _ _ | EvRet _ | EvBusRx _ _ _ _ => False
  | _ => True
  end.
Lemma wire_dull e : wire_ev e -> dull_ev e.
Proof. destruct e; cbn; tauto. Qed.
Lemma io_dull e : io_ev e -> dull_ev e.
Proof. destruct e; cbn; tauto. Qed.

(** Events that do not change what is said. *)
Definition mum_ev (e : event) : Prop := match e with EvBusRx _ _ _ _ => True | _ => dull_ev e end.
Lemma dull_mum e : dull_ev e -> mum_ev e.
Proof. destruct e; cbn; tauto. Qed.
Lemma dull_mums t : Forall dull_ev t -> Forall mum_ev t.
Proof. apply Forall_impl. apply dull_mum. Qed.

Lemma talk_mum app t k : Forall mum_ev t -> fold_left (talk_step app) t k = k.
Proof.
  intros Ht. revert k. induction Ht as [|e t He Ht IH]; intros k; [reflexivity|]. cbn [fold_left].
  rewrite IH. destruct k as [u n l], e; cbn in *; try reflexivity; try contradiction. subst. now rewrite orb_false_r.
Qed.
Lemma received_dull t : Forall dull_ev t -> received t = [].
Proof. unfold received. induction 1 as [|e t He Ht IH]; [reflexivity|]. cbn [flat_map]. rewrite IH. destruct e; try reflexivity; contradiction. Qed.
Lemma heard_dull t : Forall dull_ev t -> heard t = [].
Proof. unfold heard. induction 1 as [|e t He Ht IH]; [reflexivity|]. cbn [flat_map]. rewrite IH. destruct e; try reflexivity; contradiction. Qed.
Lemma received_app a b : received (a ++ b) = received a ++ received b. Proof. apply flat_map_app. Qed.
Lemma heard_app a b : heard (a ++ b) = heard a ++ heard b. Proof. apply flat_map_app. Qed.
Lemma offered_app a b : offered (a ++ b) = offered a ++ offered b. Proof. apply flat_map_app. Qed.
Definition enq (t : list event) : list (list Z) := map snd (enqueued false t).
Lemma enq_app a b : enq (a ++ b) = enq a ++ enq b.
Proof. unfold enq. now rewrite enqueued_app, map_app. Qed.

Section Side.
Context (N : Z).
Notation St := (Upto N).

Lemma tx_dull i (w : world) rc t w' : tx_step St i w rc t w' -> Forall dull_ev t.
Proof.
  destruct 1 as [b p q p' b' rc dis bytes io Hb Hst Hqu Hby Hio Hid Hq].
  repeat (apply Forall_app; split); unfold capev.
  - destruct (m_cap (w_m w)); repeat constructor.
  - constructor; [exact I|]. apply Forall_app; split.
    + eapply Forall_impl; [|exact Hio]. apply io_dull.
    + apply Forall_app; split; [destruct dis; repeat constructor|].
      constructor; [exact I|]. destruct (final rc); repeat constructor.
Qed.
Lemma enqs_dull i (w : world) l t w' : enqs St i w l t w' -> Forall dull_ev t.
Proof.
  induction 1 as [|w bs t1 w1 l t2 w2 H1 H2 IH]; [constructor|]. apply Forall_app. split; [|exact IH].
  destruct H1. repeat constructor.
Qed.
Lemma txs_dull i (w : world) t w' : txs St i w t w' -> Forall dull_ev t.
Proof.
  induction 1; [constructor|eapply tx_dull; eassumption|]. apply Forall_app.
  split; [eapply tx_dull; eassumption|assumption].
Qed.
Lemma on_bus_dull (w : world) i s d to tag m rc t w' :
  on_bus_rel St w i s d to tag m rc t w' -> Forall dull_ev t.
Proof.
  destruct 1 as [| |t w' H]; [constructor|constructor|]. destruct H. apply Forall_app.
  split; [eapply enqs_dull; eassumption|eapply txs_dull; eassumption].
Qed.
Lemma message_dull (w : world) e to tag m rc t w' : message_rel St w e to tag m rc t w' -> Forall dull_ev t.
Proof. destruct 1; [constructor|]. eapply on_bus_dull; eassumption. Qed.
Lemma msgs_dull (w : world) l t w' : msgs_rel St w l t w' -> Forall dull_ev t.
Proof. induction 1; [constructor|]. apply Forall_app. split; [eapply message_dull; eassumption|assumption]. Qed.

(** *** What is queued comes out in order *)
Definition held (w : world) : list (list Z) := map snd (queued w false).
Lemma held_bget (w : world) b : bget w false = Some b ->
  held w = map (fun p => match pktbuf_bytes p with Some x => x | None => [] end) (bus_q b).
Proof.
  intros Hb. unfold held. rewrite queued_bget, Hb, map_map. reflexivity.
Qed.

(** At every moment of [t] the packets offered are the first of those held before and
    enqueued since, and at its end the rest is what is held. *)
Definition fifo (a : list (list Z)) (t : list event) (a' : list (list Z)) : Prop :=
  (forall x, prefix x t -> prefix (offered x) (a ++ enq x)) /\ a ++ enq t = offered t ++ a'.
Lemma fifo_nil a : fifo a [] a.
Proof.
  split; [|reflexivity || (cbn; now rewrite app_nil_r)]. intros x Hx. apply prefix_nil in Hx. subst. exists (a ++ []). reflexivity.
Qed.
Lemma fifo_app a t b u c : fifo a t b -> fifo b u c -> fifo a (t ++ u) c.
Proof.
  intros [F1 F2] [G1 G2]. split.
  - intros x Hx. destruct (prefix_cut _ _ _ Hx) as [Hx'|(y & -> & Hy)]; [now apply F1|].
    rewrite enq_app, offered_app, app_assoc, F2, <- app_assoc. apply prefix_app. now apply G1.
  - rewrite enq_app, offered_app, app_assoc, F2, <- !app_assoc, G2. reflexivity.
Qed.
(** Events that neither enqueue nor offer. *)
Lemma fifo_quiet a t : enq t = [] -> offered t = [] -> fifo a t a.
Proof.
  intros He Ho. split.
  - intros x Hx. pose proof (prefix_flat (fun e => match e with EvTxCall _ _ bs => [bs] | _ => [] end) _ _ Hx) as Hp.
    fold (offered x) in Hp. fold (offered t) in Hp. rewrite Ho in Hp. apply prefix_nil in Hp. rewrite Hp. exists (a ++ enq x). reflexivity.
  - rewrite He, Ho, app_nil_r. reflexivity.
Qed.

Lemma steps_fifo (w : world) t w' : steps St w t w' -> bget w true = None -> fifo (held w) t (held w') /\ bget w' true = None.
Proof.
  induction 1 as [w|w e t w' He Hs IH|i w bs t1 w1 t2 w2 H1 Hs IH|i w rc t1 w1 t2 w2 H1 Hs IH]; intros Hn.
  - split; [apply fifo_nil|exact Hn].
  - destruct (IH Hn) as [F Hn']. split; [|exact Hn']. change (e :: t) with ([e] ++ t).
    eapply fifo_app; [|exact F]. apply fifo_quiet; destruct e; try reflexivity; contradiction.
  - destruct H1 as [b p Hb Hst Hid Hby Hq]. destruct i; [congruence|].
    set (wn := set_m w _) in *. assert (bget wn false = Some b) as Hbn by exact Hb.
    destruct IH as [F Hn']; [rewrite (bget_set_bus _ _ _ _ _ _ Hbn); exact Hn|]. split; [|exact Hn'].
    eapply fifo_app; [|exact F].
    rewrite (held_bget _ b Hb). erewrite (held_bget (set_bus _ _ _)) by (rewrite (bget_set_bus _ _ _ _ _ _ Hbn); reflexivity).
    cbn [set_q bus_q]. rewrite map_app. cbn [map]. rewrite Hby. split; [|reflexivity].
    intros x Hx. destruct Hx as [r Hr]. destruct x as [|e1 [|e2 [|e3 x]]]; try discriminate.
    + eexists. reflexivity.
    + injection Hr as <- _. eexists. reflexivity.
    + injection Hr as <- <- _. eexists. reflexivity.
  - destruct H1 as [b p q p' b' rc dis bytes io Hb Hst Hqu Hby Hio Hid Hq]. destruct i; [congruence|].
    destruct (final rc) eqn:Ef; [|destruct (Hq eq_refl) as [_ []]].
    assert (forall bnd', bget (set_bnd w false bnd') false = Some b) as Hb'.
    { intros bnd'. rewrite bget_set_bnd. exact Hb. }
    destruct IH as [F Hn'].
    { rewrite (bget_set_bus _ _ _ _ _ _ (Hb' _)), bget_set_bnd. exact Hn. }
    split; [|exact Hn']. eapply fifo_app; [|exact F].
    rewrite (held_bget _ b Hb), Hqu. cbn [map]. rewrite Hby.
    erewrite (held_bget (set_bus _ _ _)) by (rewrite (bget_set_bus _ _ _ _ _ _ (Hb' _)); reflexivity). cbn [bus_q].
    set (rest := map _ q).
    set (t0 := io ++ (if dis then [EvSetTx false false] else []) ++ [EvTxRet false (pk_id p) bytes rc; EvFree (pk_id p)]).
    assert (enq t0 = [] /\ offered t0 = []) as [E1 E2].
    { unfold t0. assert (enq io = [] /\ offered io = []) as [I1 I2].
      { clear -Hio. induction Hio as [|e l He Hl [IH1 IH2]]; [split; reflexivity|].
        change (e :: l) with ([e] ++ l). rewrite enq_app, offered_app, IH1, IH2.
        destruct e; try contradiction; split; reflexivity. }
      rewrite !enq_app, !offered_app, I1, I2. destruct dis; split; reflexivity. }
    apply (fifo_app _ (capev w true bytes) (bytes :: rest)).
    { apply fifo_quiet; unfold capev; destruct (m_cap (w_m w)); reflexivity. }
    change (EvTxCall false (pk_id p) bytes :: t0) with ([EvTxCall false (pk_id p) bytes] ++ t0).
    eapply fifo_app; [|apply fifo_quiet; assumption]. split; [|change (enq _) with (@nil (list Z)); rewrite app_nil_r; reflexivity].
    intros x Hx. apply prefix_one in Hx. destruct Hx as [->| ->]; eexists; reflexivity.
Qed.

(** *** What is said is queued *)
Context (HN : 68 <= N) (eid : Z).

(** [pk] are the packets of the messages [l], one message after the other. *)
Definition packs (l : list txreq) (pk : list (list Z)) : Prop :=
  exists pkl, Forall2 (fun r ps => 0 <= r_tag r <= 7 /\ exists ver mtu, 1 <= mtu <= N - 4 /\
     packetised ver eid (r_eid r) (r_to r) (r_tag r) mtu (r_msg r) ps) l pkl /\ pk = concat pkl.
Lemma packs_nil : packs [] [].
Proof. exists []. split; [constructor|reflexivity]. Qed.
Lemma packs_app l1 p1 l2 p2 : packs l1 p1 -> packs l2 p2 -> packs (l1 ++ l2) (p1 ++ p2).
Proof.
  intros (a & A & ->) (b & Bb & ->). exists (a ++ b). split; [now apply Forall2_app|now rewrite concat_app].
Qed.

Lemma map_nil_snd : map snd (@nil (Z * list Z)) = []. Proof. reflexivity. Qed.


Lemma enqs_enq (w : world) l t w' : enqs St false w l t w' -> enq t = l.
Proof.
  induction 1 as [w|w bs t1 w1 l t2 w2 H1 H2 IH]; [reflexivity|]. rewrite enq_app, IH. destruct H1. reflexivity.
Qed.
Lemma txs_enq (w : world) t w' : txs St false w t w' -> enq t = [].
Proof.
  assert (forall (w : world) rc t w', tx_step St false w rc t w' -> enq t = []) as Hs.
  { intros w1 rc t1 w1' H. destruct H as [b p q p' b' rc dis bytes io Hb Hst Hqu Hby Hio Hid Hq]. unfold enq. rewrite <- map_nil_snd. f_equal. exact (enqueued_tx w1 false (pk_id p) bytes io dis rc false Hio). }
  induction 1; [reflexivity|eauto|]. rewrite enq_app, (Hs _ _ _ _ H), IHtxs. reflexivity.
Qed.

Lemma tag_ok_land r : tag_ok r = true <-> Z.land (r_tag r) 7 = r_tag r.
Proof. unfold tag_ok. rewrite tag_range. lia. Qed.

Lemma message_said (w : world) r rc t w' : WF St w -> option_map bus_eid (bget w false) = Some eid ->
  message_rel St w (r_eid r) (r_to r) (r_tag r) (r_msg r) rc t w' ->
  packs (if up w && tag_ok r then [r] else []) (enq t).
Proof.
  intros Hw He Hr. destruct Hr as [Ht|b rc t w' Ht Hb Hr].
  { replace (tag_ok r) with false; [rewrite andb_false_r; apply packs_nil|].
    destruct (tag_ok r) eqn:E; [|reflexivity]. apply tag_ok_land in E. contradiction. }
  assert (tag_ok r = true) as -> by (now apply tag_ok_land). rewrite andb_true_r.
  rewrite Hb in He. injection He as He.
  unfold up, ost. rewrite Hb. cbn [option_map].
  destruct Hr as [b' Hb' Hs|b' Hb' Hs Htag|t w' Hr].
  - rewrite Hb in Hb'. injection Hb' as <-. rewrite Hs. apply packs_nil.
  - contradiction.
  - destruct Hr as [b' t1 w1 t2 w' Hb' Hs Htag Hen Htx]. rewrite Hb in Hb'. injection Hb' as <-.
    rewrite enq_app, (enqs_enq _ _ _ _ Hen), (txs_enq _ _ _ Htx), app_nil_r.
    pose proof (wf_size _ _ Hw _ _ Hb Hs) as Hz. pose proof (wf_cap _ _ Hw _ _ Hb Hs) as Hc. cbn [upto] in Hc.
    destruct (wf_dims _ _ Hw false) as (Hd & _ & _).
    assert (mtu_of w false = bd_pkt_size (bnd w false) - 4) as Em by (unfold mtu_of, MCTP_BODY_SIZE; apply w64_id; lia).
    assert (0 <= r_tag r <= 7) as Htr by (now apply tag_range).
    destruct (bus_st b); try congruence;
      (eexists [_]; split; [|cbn [concat]; rewrite app_nil_r; reflexivity]; constructor; [|constructor]; split; [exact Htr|];
       eexists _, (mtu_of w false); split; [lia|]; rewrite He; apply frags_packetised; [exact Htr|lia]).
Qed.

Lemma stable_up (w w' : world) : stable w w' -> up w' = up w /\ option_map bus_eid (bget w' false) = option_map bus_eid (bget w false)
  /\ m_policy (w_m w') = m_policy (w_m w) /\ m_max (w_m w') = m_max (w_m w) /\ m_rx (w_m w') = m_rx (w_m w) /\
  bd_ctrl (bnd w' false) = bd_ctrl (bnd w false) /\ m_ctxs (w_m w') = m_ctxs (w_m w) /\ bd_pkt_size (bnd w' false) = bd_pkt_size (bnd w false).
Proof.
  intros (H1 & H2 & H3 & H4 & _). unfold rest in H1. injection H1 as R1 R2 R3 R4 R5 R6 R7.
  specialize (H2 false). unfold bconst in H2. injection H2 as B1 B2 B3 B4 B5 B6 B7.
  split; [|repeat split; auto]. specialize (H3 false). specialize (H4 false). unfold up, ost in *.
  destruct (bget w false) as [b|], (bget w' false) as [b'|]; cbn [option_map] in *; try discriminate; [|reflexivity].
  destruct (bus_st b), (bus_st b'); intuition congruence.
Qed.

Lemma msgs_said (w : world) l t w' : WF St w -> option_map bus_eid (bget w false) = Some eid ->
  msgs_rel St w l t w' -> packs (if up w then filter tag_ok l else []) (enq t).
Proof.
  intros Hw He Hr. induction Hr as [w|w r rs rc t1 w1 t2 w2 H1 H2 IH].
  - destruct (up w); apply packs_nil.
  - pose proof (message_said _ _ _ _ _ Hw He H1) as P1. pose proof (message_rel_steps _ _ _ _ _ _ _ _ _ H1) as Hs.
    destruct (stable_up _ _ (steps_stable _ _ _ _ Hs)) as (U & E & _).
    specialize (IH (steps_WF _ _ _ _ Hw Hs) ltac:(congruence)). rewrite U in IH. rewrite enq_app.
    pose proof (packs_app _ _ _ _ P1 IH) as P. destruct (up w); [|exact P]. cbn [filter].
    destruct (tag_ok r); exact P.
Qed.

Lemma packs_exist l : Forall (fun r => tag_ok r = true) l -> exists pk, packs l pk.
Proof.
  induction 1 as [|r l Hr Hl [pk IH]]; [exists []; apply packs_nil|].
  apply tag_ok_land, tag_range in Hr.
  exists (frags (length (r_msg r)) 1 eid (r_eid r) (r_to r) (r_tag r) (N - 4) 0 (r_msg r) ++ pk).
  apply (packs_app [r]); [|exact IH]. eexists [_]. split; [|cbn [concat]; rewrite app_nil_r; reflexivity].
  constructor; [|constructor]. split; [exact Hr|]. exists 1, (N - 4). split; [lia|]. apply frags_packetised; [exact Hr|lia].
Qed.

(** *** One reception *)
Variable app : event -> list txreq.
Variable bmc : bool.

Lemma rx_endp (w : world) b id bs t w' : m_policy (w_m w) = RouteEndpoint -> bget w false = Some b -> bus_eid b = eid ->
  4 < zlen bs -> rx_rel St app w false id bs t w' ->
  let run := if taken (Some eid) bs then rx_pure (m_ctxs (w_m w)) (m_max (w_m w)) bs else (m_ctxs (w_m w), None) in
  exists lo t1, t = EvBusRx false lo id bs :: t1 ++ [EvFree id] /\
  ((Forall dull_ev t1 /\ enq t1 = [] /\ offered t1 = [] /\ w' = setc w (fst run) /\
    match snd run with None => True | Some (sr, d, m) => local_event w false sr (h_to bs) (h_tag bs) m = None end) \/
   (exists sr d m e u t2, snd run = Some (sr, d, m) /\ local_event w false sr (h_to bs) (h_tag bs) m = Some e /\
      t1 = u ++ e :: t2 /\ Forall dull_ev u /\ enq u = [] /\ offered u = [] /\
      msgs_rel St (setc w (fst run)) (app e) t2 w')).
Proof.
  intros Hp Hb He Hz Hr run.
  assert (forall d, dest_is_local b d = for_us (Some eid) d) as Hloc.
  { intros d. unfold dest_is_local, for_us. rewrite He. reflexivity. }
  destruct Hr as [b0 Hb0 Hl|b0 t w' Hb0 Hl Hr]; [exfalso; lia|].
  rewrite Hb in Hb0. injection Hb0 as <-.
  exists (busrx_local w b), (capev w false bs ++ t). split; [now rewrite <- app_assoc|].
  assert (Forall dull_ev (capev w false bs) /\ enq (capev w false bs) = [] /\ offered (capev w false bs) = []) as (C1 & C2 & C3).
  { unfold capev. destruct (m_cap (w_m w)); repeat split; repeat constructor. }
  unfold run, taken. replace (4 <? zlen bs) with true by lia. cbn [andb]. rewrite <- Hloc.
  change (h_dest bs) with (p_dest bs).
  destruct Hr as [b1 Hb1 _ Hd|b1 cs Hb1 Hd Hpu|b1 cs sr d m t w' Hb1 Hd Hpu Hr];
    rewrite Hb in Hb1; injection Hb1 as <-.
  - left. rewrite Hd. cbn [fst snd]. rewrite app_nil_r, setc_id. auto.
  - left. destruct Hd as [Hd|Hd]; [congruence|]. rewrite Hd, Hpu. cbn [fst snd]. rewrite app_nil_r. auto.
  - destruct Hd as [Hd|Hd]; [congruence|]. rewrite Hd, Hpu. cbn [fst snd].
    destruct (rx_pure_out _ _ _ _ _ _ _ Hpu) as [E1 E2]. rewrite p_to_spec, p_tag_spec in Hr.
    destruct Hr as [b1 Hb1 _ Hdr|b1 e t w' Hb1 _ Hd1 Hle Hms|rc t w' Hbr _].
    + left. cbn [w_m setc set_m set_ctxs] in *. change (bget (setc w cs) false) with (bget w false) in Hb1.
      rewrite Hb in Hb1. injection Hb1 as <-.
      assert (local_event w false sr (h_to bs) (h_tag bs) m = None) as Hn.
      { destruct Hdr as [Hdr|Hdr]; [|exact Hdr]. exfalso. rewrite E2 in Hdr. change (h_dest bs) with (p_dest bs) in Hdr. congruence. }
      split; [apply Forall_app; split; [exact C1|repeat constructor]|]. rewrite enq_app, offered_app, C2, C3. auto.
    + right. exists sr, d, m, e, (capev w false bs ++ [EvMsg false sr d (h_to bs) (h_tag bs) m]), t.
      split; [reflexivity|]. split; [exact Hle|]. split; [rewrite <- app_assoc; reflexivity|].
      split; [apply Forall_app; split; [exact C1|repeat constructor]|]. rewrite enq_app, offered_app, C2, C3. auto.
    + exfalso. cbn in Hbr. congruence.
Qed.

(** ** What a side says *)
Definition pend (u : bool) (l : list (option txreq)) : list txreq :=
  match l with Some r :: _ => if u && tag_ok r then [r] else [] | _ => [] end.
Lemma step_ret u l acc rc : talk_step app (mkTalk u l acc) (EvRet rc) = mkTalk u (tl l) (acc ++ pend u l).
Proof.
  cbn [talk_step t_next t_up t_said]. destruct l as [|[r|] l]; cbn [tl pend]; rewrite ?app_nil_r; reflexivity.
Qed.
Lemma pend_ok u l : Forall (fun r => tag_ok r = true) (pend u l).
Proof. destruct l as [|[r|] l]; cbn [pend]; try constructor. destruct u; cbn; [|constructor]. destruct (tag_ok r) eqn:E; repeat constructor. exact E. Qed.

Definition causal (l : list aop) (tr : list event) : Prop :=
  forall x, prefix x tr -> exists pk, packs (said app l x) pk /\ prefix (enq x) pk.
Lemma causal_app l tr t : causal l tr ->
  (forall y, prefix y t -> exists pk, packs (t_said (fold_left (talk_step app) y (talked app l tr))) pk /\ prefix (enq tr ++ enq y) pk) ->
  causal l (tr ++ t).
Proof.
  intros Hc Ht x Hx. destruct (prefix_cut _ _ _ Hx) as [Hx'|(y & -> & Hy)]; [now apply Hc|].
  destruct (Ht y Hy) as (pk & P1 & P2). exists pk. unfold said, talked. rewrite fold_left_app, enq_app. auto.
Qed.
Lemma talked_app l tr t : talked app l (tr ++ t) = fold_left (talk_step app) t (talked app l tr).
Proof. unfold talked. apply fold_left_app. Qed.

Definition speech (ops more : list aop) (w : world) (tr : list event) (acc : list txreq) : Prop :=
  talked app (ops ++ more) tr = mkTalk (up w) (tl (requests more)) (acc ++ pend (up w) (requests more)) /\
  causal (ops ++ more) tr.
Record Sinv (b : bool) (ops : list aop) (w : world) (tr : list event) : Prop := mkSinv {
  si_one : bget w true = None;
  si_eid : option_map bus_eid (bget w false) = Some eid;
  si_pol : m_policy (w_m w) = RouteEndpoint;
  si_fifo : fifo [] tr (held w);
  si_said : exists acc, packs acc (enq tr) /\ forall more, (b = true -> exists m', more = APoll false :: m') -> speech ops more w tr acc }.

(** Events that say nothing new. *)
Lemma speech_mum ops more (w w' : world) tr t acc : speech ops more w tr acc -> up w' = up w ->
  Forall mum_ev t -> enq t = [] -> packs acc (enq tr) -> speech ops more w' (tr ++ t) acc.
Proof.
  intros [S1 S2] Hu Ht He Hp. split.
  - rewrite talked_app, talk_mum, Hu by exact Ht. exact S1.
  - apply causal_app; [exact S2|]. intros y Hy.
    rewrite talk_mum by (eapply Forall_prefix; eassumption). rewrite S1. cbn [t_said].
    destruct (packs_exist _ (pend_ok (up w) (requests more))) as (pk & Hpk).
    exists (enq tr ++ pk). split; [now apply packs_app|].
    assert (enq y = []) as ->. { destruct Hy as [r ->]. rewrite enq_app in He. now apply app_eq_nil in He. }
    apply prefix_app. exists pk. reflexivity.
Qed.

Lemma enq_prefix y t : prefix y t -> prefix (enq y) (enq t).
Proof. intros [r ->]. rewrite enq_app. exists (enq r). reflexivity. Qed.

(** The return of a call, and what the next one says. *)
Lemma speech_ret ops more (w : world) tr rc acc : 
  talked app (ops ++ more) tr = mkTalk (up w) (requests more) acc -> causal (ops ++ more) tr -> packs acc (enq tr) ->
  speech ops more w (tr ++ [EvRet rc]) acc.
Proof.
  intros S1 S2 Hp. split; [rewrite talked_app, S1; apply step_ret|]. apply causal_app; [exact S2|].
  intros y Hy. apply prefix_one in Hy. destruct (packs_exist _ (pend_ok (up w) (requests more))) as (pk & Hpk).
  destruct Hy as [->| ->]; cbn [fold_left].
  - rewrite S1. exists (enq tr). split; [exact Hp|]. rewrite app_nil_r. apply prefix_refl.
  - rewrite S1, step_ret. exists (enq tr ++ pk). split; [now apply packs_app|]. apply prefix_app. exists pk. reflexivity.
Qed.

(** The replies of the application. *)
Lemma speech_rx ops m (w w' : world) tr pre e t acc : let more := APoll false :: m in
  speech ops more w tr acc -> packs acc (enq tr) -> up w' = up w ->
  Forall mum_ev pre -> enq pre = [] -> (match e with EvRx _ _ _ _ | EvCtrl _ _ _ _ _ => True | _ => False end) ->
  Forall dull_ev t -> packs (if up w then filter tag_ok (app e) else []) (enq t) ->
  let acc' := acc ++ if up w then filter tag_ok (app e) else [] in
  packs acc' (enq (tr ++ pre ++ e :: t)) /\ speech ops more w' (tr ++ pre ++ e :: t) acc'.
Proof.
  intros more Hs Hp Hu Hpre Hep He Ht Hpt acc'.
  pose proof (speech_mum _ _ _ w _ pre _ Hs eq_refl Hpre Hep Hp) as [S1 S2].
  assert (enq [e] = []) as Ee by (destruct e; try contradiction; reflexivity).
  assert (enq (tr ++ pre ++ e :: t) = enq tr ++ enq t) as E.
  { change (e :: t) with ([e] ++ t). rewrite !enq_app, Ee, Hep. reflexivity. }
  split; [rewrite E; now apply packs_app|].
  cbn [requests more flat_map Datatypes.app tl pend] in S1. rewrite app_nil_r in S1.
  rewrite app_assoc. split.
  - rewrite talked_app, S1. cbn [fold_left]. rewrite talk_mum by (now apply dull_mums).
    cbn [requests more flat_map Datatypes.app tl pend]. rewrite app_nil_r, Hu.
    destruct e; try contradiction; reflexivity.
  - apply causal_app; [exact S2|]. intros y Hy. rewrite S1, enq_app, Hep, app_nil_r.
    destruct y as [|e' y].
    + cbn [fold_left t_said]. exists (enq tr). split; [exact Hp|]. rewrite app_nil_r. apply prefix_refl.
    + assert (e' = e /\ prefix y t) as [-> Hy'] by (destruct Hy as [r Er]; injection Er as -> ->; split; [reflexivity|exists r; reflexivity]).
      cbn [fold_left]. rewrite talk_mum by (apply dull_mums; eapply Forall_prefix; eassumption).
      exists (enq tr ++ enq t). split.
      * replace (t_said _) with acc' by (destruct e; try contradiction; reflexivity). now apply packs_app.
      * change (e :: y) with ([e] ++ y). rewrite enq_app, Ee. apply prefix_app. now apply enq_prefix.
Qed.

Lemma wires_off t : Forall wire_ev t -> Forall dull_ev t /\ enq t = [] /\ offered t = [].
Proof.
  induction 1 as [|e t He Ht (I1 & I2 & I3)]; [repeat split; constructor|].
  change (e :: t) with ([e] ++ t). rewrite enq_app, offered_app, I2, I3. 
  destruct e; try contradiction; repeat split; constructor; auto; exact I.
Qed.
Lemma boots_off t : Forall boot_ev t -> Forall dull_ev t /\ enq t = [] /\ offered t = [].
Proof.
  induction 1 as [|e t He Ht (I1 & I2 & I3)]; [repeat split; constructor|].
  change (e :: t) with ([e] ++ t). rewrite enq_app, offered_app, I2, I3. 
  destruct e; try contradiction; repeat split; constructor; auto; exact I.
Qed.

Lemma past_Sinv b ops (w : world) tr : past bmc app N eid b ops w tr -> Sinv b ops w tr.
Proof.
  induction 1 as [s mtu x t Hb|ops w tr Hp IH|ops w tr t Hp IH Ht|ops w tr x n Hp IH Hw|ops w tr en t w' Hp IH Hw Hn Hr
    |ops w tr x n io bs t w' Hp IH Hw Hio Hg Hbm Hr|ops w tr rc Hp IH|ops w tr dest to tag msg rc t w' Hp IH Hw Hr|ops w tr o w' Hp IH Hc].
  - destruct (boots_off _ Hb) as (B1 & B2 & B3). constructor; try reflexivity.
    + apply fifo_quiet; rewrite ?enq_app, ?offered_app, ?B2, ?B3; reflexivity.
    + exists []. rewrite enq_app, B2. split; [apply packs_nil|]. intros more _.
      assert (talked app ([] ++ more) t = mkTalk false (requests more) []) as E by (apply talk_mum; now apply dull_mums).
      apply speech_ret; [exact E| |rewrite B2; apply packs_nil].
      intros y Hy. unfold said, talked. rewrite talk_mum by (apply dull_mums; eapply Forall_prefix; eassumption).
      exists []. split; [apply packs_nil|]. pose proof (enq_prefix _ _ Hy) as H. rewrite B2 in H. exact H.
  - destruct IH as [I1 I2 I3 I4 (acc & I5 & I6)]. constructor; try assumption. exists acc. split; [exact I5|].
    intros more _. apply I6. discriminate.
  - destruct IH as [I1 I2 I3 I4 (acc & I5 & I6)]. destruct (wires_off _ Ht) as (B1 & B2 & B3). constructor; try assumption.
    + eapply fifo_app; [exact I4|]. now apply fifo_quiet.
    + exists acc. rewrite enq_app, B2, app_nil_r. split; [exact I5|]. intros more Hm.
      eapply speech_mum; [apply I6, Hm|reflexivity|now apply dull_mums|exact B2|exact I5].
  - destruct IH as [I1 I2 I3 I4 (acc & I5 & I6)]. constructor; try assumption. exists acc. split; [exact I5|exact I6].
  - destruct IH as [I1 I2 I3 I4 (acc & I5 & I6)].
    assert (forall t, fifo (held w) t (held w') -> enq t = [] -> bget w' true = None -> option_map bus_eid (bget w' false) = Some eid ->
      m_policy (w_m w') = RouteEndpoint -> Forall dull_ev t -> up w' = up w || en ->
      Sinv true ops w' (tr ++ EvSetTx false en :: t)) as Go.
    { clear Hr. intros u F Eu J1 J2 J3 Hd Hup. change (EvSetTx false en :: u) with ([EvSetTx false en] ++ u).
      constructor; try assumption.
      - eapply fifo_app; [exact I4|]. eapply fifo_app; [|exact F]. now apply fifo_quiet.
      - exists acc. rewrite !enq_app, Eu. change (enq [EvSetTx false en]) with (@nil (list Z)). rewrite !app_nil_r.
        split; [exact I5|]. intros more Hm. pose proof (I6 more Hm) as Hs. destruct (Hm eq_refl) as (m' & ->).
        rewrite app_assoc. eapply (speech_mum _ _ w'); [|reflexivity|now apply dull_mums|exact Eu|rewrite enq_app; change (enq [EvSetTx false en]) with (@nil (list Z)); rewrite app_nil_r; exact I5].
        destruct Hs as [S1 S2]. cbn [requests flat_map Datatypes.app tl pend] in S1. rewrite app_nil_r in S1.
        split.
        + rewrite talked_app, S1. cbn [fold_left talk_step t_up t_next t_said requests flat_map Datatypes.app tl pend].
          rewrite app_nil_r, Hup. reflexivity.
        + apply causal_app; [exact S2|]. intros y Hy. apply prefix_one in Hy. exists (enq tr).
          assert (enq y = []) as -> by (destruct Hy as [->| ->]; reflexivity). rewrite app_nil_r.
          split; [|apply prefix_refl]. replace (t_said _) with acc; [exact I5|]. rewrite S1. destruct Hy as [->| ->]; reflexivity. }
    assert (fifo (held w) [] (held w)) as F0 by apply fifo_nil.
    destruct Hr as [b en Hb Hcase|b Hb Hst Hsz Hu|b Hb Hst|b t w' Hb Hst Htx].
    + apply Go; auto. unfold up, ost. rewrite Hb. cbn [option_map].
      destruct Hcase as [(-> & [-> |Hlt])|[(-> & ->)|(-> & ->)]]; try reflexivity.
      destruct en; [exfalso; rewrite <- (Hn eq_refl) in HN; cbn [bnd] in Hlt; lia|reflexivity].
    + apply Go; try reflexivity.
      * rewrite (held_bget w b Hb). erewrite held_bget by (rewrite (bget_set_bus _ _ _ _ _ _ Hb); reflexivity). apply fifo_nil.
      * rewrite (bget_set_bus _ _ _ _ _ _ Hb). exact I1.
      * rewrite (bget_set_bus _ _ _ _ _ _ Hb). rewrite Hb in I2. exact I2.
      * rewrite <- I3. unfold set_bus. destruct (m_busses (w_m w)); reflexivity.
      * constructor.
      * unfold up, ost. rewrite (bget_set_bus _ _ _ _ _ _ Hb), Hb. cbn. rewrite orb_true_r. reflexivity.
    + apply Go; try reflexivity.
      * rewrite (held_bget w b Hb). erewrite held_bget by (rewrite (bget_set_bus _ _ _ _ _ _ Hb); reflexivity). apply fifo_nil.
      * rewrite (bget_set_bus _ _ _ _ _ _ Hb). exact I1.
      * rewrite (bget_set_bus _ _ _ _ _ _ Hb). rewrite Hb in I2. exact I2.
      * rewrite <- I3. unfold set_bus. destruct (m_busses (w_m w)); reflexivity.
      * constructor.
      * unfold up, ost. rewrite (bget_set_bus _ _ _ _ _ _ Hb), Hb. cbn. rewrite Hst. reflexivity.
    + set (w1 := set_bus w false (set_st b TxEnabled)) in *.
      assert (forall j, bget w1 j = if eqb false j then Some (set_st b TxEnabled) else bget w j) as Hb1 by (intros j; apply (bget_set_bus _ _ _ _ _ _ Hb)).
      assert (bget w1 true = None) as N1 by (rewrite Hb1; exact I1).
      pose proof (txs_steps _ _ _ _ _ Htx) as Hs. destruct (steps_fifo _ _ _ Hs N1) as [F N2].
      destruct (stable_up _ _ (steps_stable _ _ _ _ Hs)) as (U & Ee & Ep & _).
      assert (held w1 = held w) as Eh.
      { rewrite (held_bget w b Hb). erewrite held_bget by (rewrite Hb1; reflexivity). reflexivity. }
      rewrite Eh in F. apply Go.
      * exact F.
      * exact (txs_enq _ _ _ Htx).
      * exact N2.
      * rewrite Ee, Hb1. rewrite Hb in I2. exact I2.
      * rewrite Ep, <- I3. unfold w1, set_bus. destruct (m_busses (w_m w)); reflexivity.
      * eapply txs_dull; eassumption.
      * rewrite U. unfold up, ost. rewrite Hb1, Hb. cbn. rewrite orb_true_r. reflexivity.
  - destruct IH as [I1 I2 I3 I4 (acc & I5 & I6)]. set (w0 := putb (nextw w) x n) in *.
    destruct (bget w false) as [b|] eqn:Hb; [|discriminate]. injection I2 as Ie.
    assert (bget w0 false = Some b) as Hb0 by exact Hb.
    destruct (wires_off _ Hio) as (W1 & W2 & W3).
    destruct (rx_endp w0 b (m_next (w_m w)) bs t w' I3 Hb0 Ie (proj1 (proj1 Hg)) Hr) as (lo & t1 & -> & Hcase).
    set (run := if taken (Some eid) bs then _ else _) in *.
    assert (Forall wf_ctx (fst run)) as Hwc.
    { unfold run. destruct (taken (Some eid) bs); [|exact (wf_ctxs _ _ Hw)].
      pose proof (rx_pure_wf (m_ctxs (w_m w0)) (m_max (w_m w0)) bs (wf_ctxs _ _ Hw) (proj1 (proj1 Hg)) (wf_max _ _ Hw)) as H.
      destruct (rx_pure (m_ctxs (w_m w0)) (m_max (w_m w0)) bs). exact H. }
    clearbody run.
    set (pre := EvAlloc (m_next (w_m w)) :: io ++ [EvBusRx false lo (m_next (w_m w)) bs]).
    assert (enq pre = [] /\ offered pre = []) as [P2 P3].
    { unfold pre. change (EvAlloc (m_next (w_m w)) :: io ++ [EvBusRx false lo (m_next (w_m w)) bs])
        with ([EvAlloc (m_next (w_m w))] ++ io ++ [EvBusRx false lo (m_next (w_m w)) bs]).
      rewrite !enq_app, !offered_app, W2, W3. split; reflexivity. }
    assert (Forall mum_ev pre) as P1.
    { constructor; [exact I|]. apply Forall_app. split; [now apply dull_mums|]. repeat constructor. }
    replace (EvAlloc (m_next (w_m w)) :: io ++ EvBusRx false lo (m_next (w_m w)) bs :: t1 ++ [EvFree (m_next (w_m w))])
      with (pre ++ t1 ++ [EvFree (m_next (w_m w))]) by (unfold pre; cbn [Datatypes.app]; rewrite <- !app_assoc; reflexivity).
    destruct Hcase as [(D1 & D2 & D3 & -> & _)|(sr & d & m & e & u & t2 & Erun & Hle & -> & U1 & U2 & U3 & Hms)].
    + set (ext := pre ++ t1 ++ [EvFree (m_next (w_m w))]).
      assert (enq ext = [] /\ offered ext = [] /\ Forall mum_ev ext) as (X1 & X2 & X3).
      { unfold ext. rewrite !enq_app, !offered_app, P2, P3, D2, D3. split; [reflexivity|]. split; [reflexivity|].
        repeat (apply Forall_app; split); [exact P1|now apply dull_mums|repeat constructor]. }
      constructor; [exact I1|cbn [option_map]; rewrite <- Ie; now change (bget (setc w0 (fst run)) false) with (bget w false); rewrite Hb|exact I3| |].
      * eapply fifo_app; [exact I4|]. change (held (setc w0 (fst run))) with (held w). now apply fifo_quiet.
      * exists acc. rewrite enq_app, X1, app_nil_r. split; [exact I5|]. intros more Hm.
        eapply speech_mum; [apply I6, Hm|reflexivity|exact X3|exact X1|exact I5].
    + set (w1 := setc w0 (fst run)) in *.
      assert (WF St w1) as Hw1.
      { apply WF_setc; assumption. }
      assert (option_map bus_eid (bget w1 false) = Some eid) as E1.
      { change (bget w1 false) with (bget w false). rewrite Hb. cbn. congruence. }
      pose proof (msgs_rel_steps _ _ _ _ _ Hms) as Hs.
      destruct (stable_up _ _ (steps_stable _ _ _ _ Hs)) as (U & Ee & Ep & _).
      assert (bget w1 true = None) as N1 by exact I1.
      destruct (steps_fifo _ _ _ Hs N1) as [F N2]. change (held w1) with (held w) in F.
      pose proof (msgs_said _ _ _ _ Hw1 E1 Hms) as Pm. change (up w1) with (up w) in Pm, U.
      pose proof (msgs_dull _ _ _ _ Hms) as Dm.
      assert (match e with EvRx _ _ _ _ | EvCtrl _ _ _ _ _ => True | _ => False end) as He.
      { revert Hle. unfold local_event. destruct (_ && _); [|destruct (m_rx _)]; intros [= <-]; exact I. }
      assert (enq [e] = [] /\ offered [e] = []) as [Ne No] by (destruct e; try contradiction; split; reflexivity).
      constructor; [exact N2|congruence|rewrite Ep; exact I3| |].
      * eapply fifo_app; [exact I4|]. eapply fifo_app; [apply (fifo_quiet _ pre); assumption|].
        rewrite <- app_assoc. eapply fifo_app; [apply (fifo_quiet _ u); assumption|].
        change ((e :: t2) ++ [EvFree (m_next (w_m w))]) with ([e] ++ t2 ++ [EvFree (m_next (w_m w))]).
        eapply fifo_app; [apply (fifo_quiet _ [e]); assumption|]. eapply fifo_app; [exact F|]. now apply fifo_quiet.
      * exists (acc ++ if up w then filter tag_ok (app e) else []).
        replace (tr ++ pre ++ (u ++ e :: t2) ++ [EvFree (m_next (w_m w))])
          with ((tr ++ (pre ++ u) ++ e :: t2) ++ [EvFree (m_next (w_m w))]) by (rewrite <- !app_assoc; reflexivity).
        assert (enq (pre ++ u) = []) as Epu by (rewrite enq_app, P2, U2; reflexivity).
        assert (Forall mum_ev (pre ++ u)) as Mpu by (apply Forall_app; split; [exact P1|now apply dull_mums]).
        split.
        -- rewrite enq_app. change (enq [EvFree (m_next (w_m w))]) with (@nil (list Z)). rewrite app_nil_r.
           destruct (I6 [APoll false]) as [S1 S2]; [eauto|].
           exact (proj1 (speech_rx ops [] w w' tr (pre ++ u) e t2 acc (conj S1 S2) I5 U Mpu Epu He Dm Pm)).
        -- intros more Hm. pose proof (I6 more Hm) as Sp. destruct (Hm eq_refl) as (m' & ->).
           destruct (speech_rx ops m' w w' tr (pre ++ u) e t2 acc Sp I5 U Mpu Epu He Dm Pm) as [Q1 Q2].
           eapply speech_mum; [exact Q2|reflexivity|repeat constructor|reflexivity|exact Q1].
  - destruct IH as [I1 I2 I3 I4 (acc & I5 & I6)]. constructor; try assumption.
    + eapply fifo_app; [exact I4|]. now apply fifo_quiet.
    + exists acc. rewrite enq_app. change (enq [EvRet rc]) with (@nil (list Z)). rewrite app_nil_r. split; [exact I5|]. intros more _.
      destruct (I6 (APoll false :: more)) as [S1 S2]; [eauto|].
      cbn [requests flat_map Datatypes.app tl pend] in S1. rewrite app_nil_r in S1.
      replace (ops ++ APoll false :: more) with ((ops ++ [APoll false]) ++ more) in * by (rewrite <- app_assoc; reflexivity).
      apply speech_ret; assumption.
  - destruct IH as [I1 I2 I3 I4 (acc & I5 & I6)].
    pose proof (message_rel_steps _ _ _ _ _ _ _ _ _ Hr) as Hs.
    destruct (stable_up _ _ (steps_stable _ _ _ _ Hs)) as (U & Ee & Ep & _).
    destruct (steps_fifo _ _ _ Hs I1) as [F I1']. set (r := mkReq dest to tag msg).
    pose proof (message_said w r rc t w' Hw I2 Hr) as Pm. pose proof (message_dull _ _ _ _ _ _ _ _ Hr) as Dt.
    constructor; [exact I1'|congruence|congruence| |].
    + eapply fifo_app; [exact I4|]. eapply fifo_app; [exact F|]. now apply fifo_quiet.
    + exists (acc ++ if up w && tag_ok r then [r] else []). rewrite !enq_app. change (enq [EvRet rc]) with (@nil (list Z)).
      rewrite app_nil_r. split; [now apply packs_app|]. intros more _.
      destruct (I6 (ACore (OpTx dest to tag msg) :: more)) as [S1 S2]; [discriminate|].
      cbn [requests flat_map Datatypes.app tl pend] in S1. fold r in S1.
      replace (ops ++ ACore (OpTx dest to tag msg) :: more) with ((ops ++ [ACore (OpTx dest to tag msg)]) ++ more) in *
        by (rewrite <- app_assoc; reflexivity).
      rewrite app_assoc. apply speech_ret.
      * rewrite talked_app, talk_mum, U by (now apply dull_mums). exact S1.
      * apply causal_app; [exact S2|]. intros y Hy. rewrite talk_mum by (apply dull_mums; eapply Forall_prefix; eassumption).
        rewrite S1. cbn [t_said]. exists (enq tr ++ enq t). split; [now apply packs_app|]. apply prefix_app. now apply enq_prefix.
      * rewrite enq_app. now apply packs_app.
  - destruct IH as [I1 I2 I3 I4 (acc & I5 & I6)].
    assert (requests [o] = [] /\ bget w' = bget w /\ m_policy (w_m w') = m_policy (w_m w) /\ held w' = held w /\ up w' = up w) as (R1 & R2 & R3 & R4 & R5).
    { destruct o as [o|]; [|discriminate]. destruct o; try discriminate; injection Hc as <-; repeat split. }
    constructor; rewrite ?R2, ?R3, ?R4; try assumption. exists acc. split; [exact I5|]. intros more _.
    destruct (I6 (o :: more)) as [S1 S2]; [discriminate|].
    replace (ops ++ o :: more) with ((ops ++ [o]) ++ more) in * by (rewrite <- app_assoc; reflexivity).
    split; [|exact S2]. rewrite R5, S1. unfold requests in *. cbn [flat_map] in *. rewrite app_nil_r in R1. rewrite R1. reflexivity.
Qed.

(** ** What a side hears *)
Definition out_of (o : list Z * list Z) : Z * bool * Z * list Z := (h_src (fst o), h_to (fst o), h_tag (fst o), snd o).
Definition outs (ps : list (list Z)) : list (Z * bool * Z * list Z) :=
  map out_of (snd (rx_run (repeat ctx0 16) 65536 (filter (taken (Some eid)) ps))).
Lemma outs_app a b : exists r, outs (a ++ b) = outs a ++ r.
Proof. unfold outs. rewrite filter_app, rx_run_app. cbn [snd]. rewrite map_app. eauto. Qed.
Lemma outs_prefix a b : prefix a b -> prefix (outs a) (outs b).
Proof. intros [r ->]. apply outs_app. Qed.

Definition timely (tr : list event) : Prop := forall x, prefix x tr -> prefix (heard x) (outs (received x)).
Record hearing (w : world) (tr : list event) : Prop := mkHearing {
  hr_max : m_max (w_m w) = 65536;
  hr_ctxs : m_ctxs (w_m w) = fst (rx_run (repeat ctx0 16) 65536 (filter (taken (Some eid)) (received tr)));
  hr_heard : heard tr = outs (received tr);
  hr_time : timely tr }.
Definition Rinv (b : bool) (ops : list aop) (w : world) (tr : list event) : Prop :=
  bd_ctrl (bnd w false) = false /\
  forall more, (b = true -> exists m', more = APoll false :: m') -> listening (ops ++ more) ->
    (ops <> [] -> m_rx (w_m w) = true) /\ hearing w tr.

Lemma timely_dull tr t : timely tr -> Forall (fun e => dull_ev e \/ exists rc, e = EvRet rc) t -> 
  received t = [] /\ heard t = [] /\ timely (tr ++ t).
Proof.
  intros Ht Hd. assert (forall t, Forall (fun e => dull_ev e \/ exists rc, e = EvRet rc) t -> received t = [] /\ heard t = []) as Hz.
  { clear. unfold received, heard. induction 1 as [|e t He Ht [I1 I2]]; [auto|]. cbn [flat_map]. rewrite I1, I2.
    destruct He as [He|[rc ->]]; [destruct e; try contradiction; auto|auto]. }
  destruct (Hz _ Hd) as [Z1 Z2]. split; [exact Z1|]. split; [exact Z2|].
  intros x Hx. destruct (prefix_cut _ _ _ Hx) as [Hx'|(y & -> & Hy)]; [now apply Ht|].
  destruct (Hz y (Forall_prefix _ _ _ Hy Hd)) as [Y1 Y2]. rewrite received_app, heard_app, Y1, Y2, !app_nil_r. apply Ht, prefix_refl.
Qed.

Lemma hearing_dull (w w' : world) tr t : hearing w tr -> Forall (fun e => dull_ev e \/ exists rc, e = EvRet rc) t ->
  m_max (w_m w') = m_max (w_m w) -> m_ctxs (w_m w') = m_ctxs (w_m w) -> hearing w' (tr ++ t).
Proof.
  intros [H1 H2 H3 H4] Hd Em Ec. destruct (timely_dull tr t H4 Hd) as (Z1 & Z2 & Z3).
  constructor; rewrite ?received_app, ?heard_app, ?Z1, ?Z2, ?app_nil_r; try assumption; congruence.
Qed.
Lemma dull_or t : Forall dull_ev t -> Forall (fun e => dull_ev e \/ exists rc, e = EvRet rc) t.
Proof. apply Forall_impl. auto. Qed.

Lemma past_Rinv b ops (w : world) tr : past bmc app N eid b ops w tr -> Rinv b ops w tr.
Proof.
  induction 1 as [s mtu x t Hb|ops w tr Hp IH|ops w tr t Hp IH Ht|ops w tr x n Hp IH Hw|ops w tr en t w' Hp IH Hw Hn Hr
    |ops w tr x n io bs t w' Hp IH Hw Hio Hg Hbm Hr|ops w tr rc Hp IH|ops w tr dest to tag msg rc t w' Hp IH Hw Hr|ops w tr o w' Hp IH Hc].
  - split; [reflexivity|]. intros more _ Hl. split; [congruence|].
    destruct (boots_off _ Hb) as (B1 & _).
    assert (Forall (fun e => dull_ev e \/ exists rc, e = EvRet rc) (t ++ [EvRet 0])) as Hd.
    { apply Forall_app. split; [now apply dull_or|]. constructor; [right; eauto|constructor]. }
    destruct (timely_dull [] (t ++ [EvRet 0])) as (Z1 & Z2 & Z3); [|exact Hd|].
    { intros x0 Hx. apply prefix_nil in Hx. subst. exists []. reflexivity. }
    constructor; [reflexivity|rewrite Z1; reflexivity|rewrite Z1, Z2; reflexivity|exact Z3].
  - destruct IH as [I1 I2]. split; [exact I1|]. intros more _. apply I2. discriminate.
  - destruct IH as [I1 I2]. split; [exact I1|]. intros more Hm Hl. destruct (I2 more Hm Hl) as [I3 I4]. split; [exact I3|].
    destruct (wires_off _ Ht) as (B1 & _). eapply hearing_dull; [exact I4|now apply dull_or|reflexivity|reflexivity].
  - destruct IH as [I1 I2]. split; [exact I1|]. intros more Hm Hl. destruct (I2 more Hm Hl) as [I3 [I4 I5 I6 I7]]. split; [exact I3|].
    constructor; assumption.
  - destruct IH as [I1 I2].
    assert (Forall (fun e => dull_ev e \/ exists e', e = EvRet e') (tl t) /\ (exists e, t = EvSetTx false e :: tl t) /\
       m_max (w_m w') = m_max (w_m w) /\ m_ctxs (w_m w') = m_ctxs (w_m w) /\ m_rx (w_m w') = m_rx (w_m w) /\
       bd_ctrl (bnd w' false) = bd_ctrl (bnd w false)) as (T1 & (e0 & T2) & T3 & T4 & T5 & T6).
    { assert (forall b, m_max (w_m (set_bus w false b)) = m_max (w_m w) /\ m_ctxs (w_m (set_bus w false b)) = m_ctxs (w_m w) /\
         m_rx (w_m (set_bus w false b)) = m_rx (w_m w) /\ bd_ctrl (bnd (set_bus w false b) false) = bd_ctrl (bnd w false)) as Hsb.
      { intros b. unfold set_bus. destruct (m_busses (w_m w)); repeat split. }
      destruct Hr as [b en Hb Hcase|b Hb Hst Hsz Hu|b Hb Hst|b t w' Hb Hst Htx]; cbn [tl].
      - split; [constructor|]. split; [eauto|]. auto.
      - split; [constructor|]. split; [eauto|]. apply Hsb.
      - split; [constructor|]. split; [eauto|]. apply Hsb.
      - split; [apply dull_or; eapply txs_dull; eassumption|]. split; [eauto|].
        destruct (stable_up _ _ (steps_stable _ _ _ _ (txs_steps _ _ _ _ _ Htx))) as (_ & _ & _ & E1 & E2 & E3 & E4 & _).
        destruct (Hsb (set_st b TxEnabled)) as (H1 & H2 & H3 & H4). repeat split; congruence. }
    split; [congruence|]. intros more Hm Hl. destruct (I2 more Hm Hl) as [I3 I4]. split; [intros Ho; rewrite T5; exact (I3 Ho)|].
    rewrite T2. change (EvSetTx false e0 :: tl t) with ([EvSetTx false e0] ++ tl t). rewrite app_assoc.
    eapply (hearing_dull w); [|exact T1|exact T3|exact T4].
    destruct I4 as [J1 J2 J3 J4]. 
    assert (forall x0, prefix x0 (tr ++ [EvSetTx false e0]) -> prefix (heard x0) (outs (received x0))) as Ht.
    { intros x0 Hx. destruct (prefix_cut _ _ _ Hx) as [Hx'|(y & -> & Hy)]; [now apply J4|]. apply prefix_one in Hy.
      rewrite received_app, heard_app. destruct Hy as [->| ->]; cbn; rewrite !app_nil_r; apply J4, prefix_refl. }
    constructor; [exact J1|rewrite received_app|rewrite received_app, heard_app|exact Ht]; cbn; rewrite !app_nil_r; assumption.
  - pose proof (past_Sinv _ _ _ _ Hp) as [_ S2 S3 _ _].
    destruct IH as [I1 I2]. set (w0 := putb (nextw w) x n) in *.
    destruct (bget w false) as [b|] eqn:Hb; [|discriminate]. injection S2 as Ie.
    assert (bget w0 false = Some b) as Hb0 by exact Hb.
    destruct (wires_off _ Hio) as (W1 & W2 & W3).
    destruct (rx_endp w0 b (m_next (w_m w)) bs t w' S3 Hb0 Ie (proj1 (proj1 Hg)) Hr) as (lo & t1 & -> & Hcase).
    change (m_ctxs (w_m w0)) with (m_ctxs (w_m w)) in Hcase. change (m_max (w_m w0)) with (m_max (w_m w)) in Hcase.
    set (run := if taken (Some eid) bs then _ else _) in *.
    assert (m_max (w_m w') = m_max (w_m w) /\ m_ctxs (w_m w') = fst run /\ m_rx (w_m w') = m_rx (w_m w) /\
       bd_ctrl (bnd w' false) = bd_ctrl (bnd w false)) as (T3 & T4 & T5 & T6).
    { destruct Hcase as [(_ & _ & _ & -> & _)|(sr & d & m & e & u & t2 & Erun & Hle & -> & U1 & U2 & U3 & Hms)]; [repeat split|].
      destruct (stable_up _ _ (steps_stable _ _ _ _ (msgs_rel_steps _ _ _ _ _ Hms))) as (_ & _ & _ & E1 & E2 & E3 & E4 & _).
      repeat split; [exact E1|exact E4|exact E2|exact E3]. }
    split; [congruence|]. intros more Hm Hl. destruct (I2 more Hm Hl) as [I3 [J1 J2 J3 J4]].
    assert (m_rx (w_m w) = true) as Hrx.
    { apply I3. intros ->. destruct (Hm eq_refl) as (m' & ->). destruct Hl as (c & E & _). discriminate. }
    split; [intros _; congruence|].
    assert (Forall (fun e => dull_ev e \/ exists rc, e = EvRet rc) (EvAlloc (m_next (w_m w)) :: io)) as Da.
    { apply dull_or. constructor; [exact I|exact W1]. }
    destruct (timely_dull tr _ J4 Da) as (A1 & A2 & A3).
    assert (outs (received tr ++ [bs]) = outs (received tr) ++
       match snd run with Some (_, _, m) => [(h_src bs, h_to bs, h_tag bs, m)] | None => [] end) as Eo.
    { unfold outs. rewrite filter_app, rx_run_app. cbn [snd]. rewrite map_app. f_equal. cbn [filter]. rewrite <- J2.
      unfold run. rewrite J1. destruct (taken (Some eid) bs); [|reflexivity]. cbn [rx_run].
      destruct (rx_pure (m_ctxs (w_m w)) 65536 bs) as [cs1 [[[? ?] ?]|]]; reflexivity. }
    assert (fst run = fst (rx_run (repeat ctx0 16) 65536 (filter (taken (Some eid)) (received tr ++ [bs])))) as Ec.
    { rewrite filter_app, rx_run_app. cbn [fst filter]. rewrite <- J2. unfold run. rewrite J1.
      destruct (taken (Some eid) bs); [|reflexivity]. cbn [rx_run]. destruct (rx_pure (m_ctxs (w_m w)) 65536 bs) as [cs1 out]. reflexivity. }
    assert (received (t1 ++ [EvFree (m_next (w_m w))]) = [] /\ heard (t1 ++ [EvFree (m_next (w_m w))]) =
      match snd run with Some (_, _, m) => [(h_src bs, h_to bs, h_tag bs, m)] | None => [] end) as [Q1 Q2].
    { rewrite received_app, heard_app.
      destruct Hcase as [(D1 & _ & _ & _ & D5)|(sr & d & m & e & u & t2 & Erun & Hle & -> & U1 & U2 & U3 & Hms)].
      - rewrite (received_dull _ D1), (heard_dull _ D1). split; [reflexivity|]. destruct (snd run) as [[[sr d] m]|]; [|reflexivity].
        exfalso. unfold local_event in D5. change (bd_ctrl (bnd w0 false)) with (bd_ctrl (bnd w false)) in D5.
        rewrite I1, andb_false_r in D5. change (m_rx (w_m w0)) with (m_rx (w_m w)) in D5. rewrite Hrx in D5. discriminate.
      - change (e :: t2) with ([e] ++ t2). rewrite !received_app, !heard_app.
        pose proof (msgs_dull _ _ _ _ Hms) as Dm. rewrite (received_dull _ U1), (heard_dull _ U1), (received_dull _ Dm), (heard_dull _ Dm), Erun.
        assert (e = EvRx sr (h_to bs) (h_tag bs) m) as ->.
        { unfold local_event in Hle. change (bd_ctrl (bnd w0 false)) with (bd_ctrl (bnd w false)) in Hle.
          rewrite I1, andb_false_r in Hle. change (m_rx (w_m w0)) with (m_rx (w_m w)) in Hle. rewrite Hrx in Hle. congruence. }
        split; [reflexivity|]. cbn. assert (sr = h_src bs) as ->; [|reflexivity].
        unfold run in Erun. destruct (taken (Some eid) bs); [|discriminate].
        destruct (rx_pure (m_ctxs (w_m w)) (m_max (w_m w)) bs) as [cs1 out] eqn:Er. cbn [snd] in Erun. subst out.
        exact (proj1 (rx_pure_out _ _ _ _ _ _ _ Er)). }
    change (EvAlloc (m_next (w_m w)) :: io ++ EvBusRx false lo (m_next (w_m w)) bs :: t1 ++ [EvFree (m_next (w_m w))])
      with ((EvAlloc (m_next (w_m w)) :: io) ++ [EvBusRx false lo (m_next (w_m w)) bs] ++ t1 ++ [EvFree (m_next (w_m w))]).
    set (pre := EvAlloc (m_next (w_m w)) :: io) in *. set (post := t1 ++ [EvFree (m_next (w_m w))]) in *.
    set (br := EvBusRx false lo (m_next (w_m w)) bs).
    constructor.
    + congruence.
    + rewrite !received_app, A1, Q1, T4, Ec. reflexivity.
    + rewrite !received_app, !heard_app, A1, A2, Q1, Q2, J3. change (received [br]) with [bs]. cbn [Datatypes.app].
      rewrite Eo. reflexivity.
    + intros y Hy. rewrite app_assoc in Hy. destruct (prefix_cut _ _ _ Hy) as [Hy'|(z & -> & Hz)]; [now apply A3|].
      destruct z as [|e z]; [rewrite app_nil_r; apply A3, prefix_refl|].
      assert (e = br /\ prefix z post) as [-> Hz'].
      { destruct Hz as [r Er]. injection Er as -> Er. split; [reflexivity|exists r; exact Er]. }
      change (br :: z) with ([br] ++ z). rewrite !received_app, !heard_app, A1, A2. change (received [br]) with [bs].
      change (heard [br]) with (@nil (Z * bool * Z * list Z)). rewrite !app_nil_r.
      assert (received z = []) as ->.
      { apply prefix_nil. rewrite <- Q1. now apply prefix_flat. }
      rewrite app_nil_r, Eo, J3. cbn [Datatypes.app]. apply prefix_app. rewrite <- Q2. now apply prefix_flat.
  - destruct IH as [I1 I2]. split; [exact I1|]. intros more _ Hl.
    rewrite <- app_assoc in Hl. destruct (I2 (APoll false :: more)) as [I3 I4]; [eauto|exact Hl|].
    split.
    + intros _. apply I3. intros ->. destruct Hl as (c & E & _). discriminate.
    + eapply hearing_dull; [exact I4|constructor; [right; eauto|constructor]|reflexivity|reflexivity].
  - destruct IH as [I1 I2].
    destruct (stable_up _ _ (steps_stable _ _ _ _ (message_rel_steps _ _ _ _ _ _ _ _ _ Hr))) as (_ & _ & _ & E1 & E2 & E3 & E4 & _).
    split; [congruence|]. intros more _ Hl. rewrite <- app_assoc in Hl.
    destruct (I2 (ACore (OpTx dest to tag msg) :: more)) as [I3 I4]; [discriminate|exact Hl|].
    split.
    + intros _. rewrite E2. apply I3. intros ->. destruct Hl as (c & E & _). discriminate.
    + eapply hearing_dull; [exact I4| |exact E1|exact E4]. apply Forall_app. split; [apply dull_or; eapply message_dull; eassumption|].
      constructor; [right; eauto|constructor].
  - destruct IH as [I1 I2].
    split; [destruct o as [o|]; [|discriminate]; destruct o; try discriminate; injection Hc as <-; exact I1|].
    intros more _ Hl. rewrite <- app_assoc in Hl.
    destruct (I2 (o :: more)) as [I3 [J1 J2 J3 J4]]; [discriminate|exact Hl|].
    destruct Hl as (c & El & Hq). destruct ops as [|o1 ops].
    + cbn [Datatypes.app] in El. injection El as -> ->. cbn in Hc. injection Hc as <-. split; [intros _; reflexivity|].
      constructor; assumption.
    + cbn [Datatypes.app] in El. injection El as -> El. rewrite <- El in Hq. apply Forall_app in Hq. destruct Hq as [_ Hq].
      inversion Hq as [|? ? Hq1 _]; subst.
      destruct o as [o|]; [|discriminate]. destruct o; try discriminate; try contradiction. injection Hc as <-.
      split; [intros _; apply I3; discriminate|]. constructor; assumption.
Qed.
End Side.
