(** AstTrace: an arbitrary trace invariant along the histories of the astlpc binding
    against an arbitrary peer.  The walks of AstWalk are repeated with the invariant [K]
    carried along; the result is used by PropAstTrace. *)
From Verif Require Import Base Lists Prog PktBuf Core WP Walk CoreRel WalkCore CoreHist Crc Astlpc SpecAst AstBasic
  AstWalk PropAst.

Local Notation world := (world astlpc).

(** ** Two facts about the same run *)
Lemma wp_conj a A (p : prog A) : forall g (Q1 Q2 : A -> list event -> Prop),
  wp (adv a) p g Q1 -> wp (adv a) p g Q2 -> wp (adv a) p g (fun x g' => Q1 x g' /\ Q2 x g').
Proof.
  induction p as [x|f|r k IH|r v k IH|o n k IH|o bs k IH|bs k IH|k IH|e k IH]; intros g Q1 Q2 H1 H2;
    cbn [wp h_kread h_kwrite h_lread h_lwrite h_swrite h_alloc h_emit adv] in *.
  - auto.
  - exact H1.
  - destruct H1 as [A1 A2], H2 as [B1 B2]. split; auto.
  - destruct H1 as [A1 A2], H2 as [B1 B2]. split; auto.
  - destruct H1 as [A1 A2], H2 as [B1 B2]. split; auto.
  - destruct H1 as [A1 A2], H2 as [B1 B2]. split; auto.
  - auto.
  - destruct H1 as [A1 A2], H2 as [B1 B2]. split; auto.
  - auto.
Qed.

(** ** Programs that only do I/O *)
Fixpoint silent {A} (p : prog A) : Prop :=
  match p with
  | Ret _ | Flt _ => True
  | KRead _ k => forall v, silent (k v)
  | KWrite _ _ k => forall ok, silent (k ok)
  | LRead _ _ k => forall bs, silent (k bs)
  | LWrite _ _ k => silent k
  | SWrite _ k => forall r, silent (k r)
  | Malloc k => forall ok, silent (k ok)
  | Emit _ _ => False
  end.
Lemma silent_bind A C (p : prog A) (q : A -> prog C) :
  silent p -> (forall x, silent (q x)) -> silent (bind p q).
Proof. induction p; cbn [silent bind] in *; auto. Qed.
Lemma wp_silent a A (p : prog A) : silent p -> forall g (Q : A -> list event -> Prop), wp (adv a) p g Q ->
  wp (adv a) p g (fun x g' => Q x g' /\ exists io, g' = g ++ io /\ Forall io_ev io).
Proof.
  assert (forall A (p : prog A) g e Q, io_ev e ->
    wp (adv a) p (g ++ [e]) (fun x g' => Q x g' /\ exists io, g' = (g ++ [e]) ++ io /\ Forall io_ev io) ->
    wp (adv a) p (g ++ [e]) (fun x g' => Q x g' /\ exists io, g' = g ++ io /\ Forall io_ev io)) as Hs.
  { intros A0 p0 g e Q He Hw. eapply wp_mono; [apply adv_mono| |exact Hw].
    intros x g' (H1 & io & -> & H2). split; [exact H1|]. exists (e :: io). rewrite <- app_assoc. split; [reflexivity|].
    constructor; assumption. }
  induction p as [x|f|r k IH|r v k IH|o n k IH|o bs k IH|bs k IH|k IH|e k IH]; intros Hp g Q H1;
    cbn [silent wp h_kread h_kwrite h_lread h_lwrite h_swrite h_alloc h_emit adv] in *.
  - split; [exact H1|]. exists []. rewrite app_nil_r. auto.
  - exact H1.
  - destruct H1 as [A1 A2]. split; intros; apply Hs; try exact I; apply IH; auto.
  - destruct H1 as [A1 A2]. split; intros; apply Hs; try exact I; apply IH; auto.
  - destruct H1 as [A1 A2]. split; [exact A1|]. intros. apply Hs; try exact I; apply IH; auto.
  - destruct H1 as [A1 A2]. split; [exact A1|]. apply Hs; try exact I; apply IH; auto.
  - intros. apply Hs; try exact I; apply IH; auto.
  - destruct H1 as [A1 A2]. split; intros; apply IH; auto.
  - destruct Hp.
Qed.

Create HintDb sil.
Lemma silent_deref A f (o : option A) : silent (deref f o).
Proof. destruct o; exact I. Qed.
Lemma silent_assert c : silent (assert_ c).
Proof. destruct c; exact I. Qed.
#[local] Hint Resolve silent_deref silent_assert : sil.
Ltac sil := cbv zeta;
  repeat first
  [ solve [auto with sil nocore]
  | exact I | exact (fun _ => I)
  | match goal with
    | |- silent (bind _ _) => apply silent_bind; [|intros ?; cbv zeta]
    | |- silent (if ?c then _ else _) => destruct c
    | |- silent (match ?c with _ => _ end) => destruct c
    | |- silent (KRead _ _) => cbn [silent]; intros ?
    | |- silent (KWrite _ _ _) => cbn [silent]; intros ?
    | |- silent (LRead _ _ _) => cbn [silent]; intros ?; cbv zeta
    | |- silent (LWrite _ _ _) => cbn [silent]
    end ].
Lemma silent_psz v n : silent (packet_size v n).
Proof. unfold packet_size. sil. Qed.
Lemma silent_bsz v n : silent (body_size v n).
Proof. unfold body_size. sil. Qed.
#[local] Hint Resolve silent_psz silent_bsz : sil.
Lemma silent_bval p b : silent (buffer_validate p b).
Proof. unfold buffer_validate. sil. Qed.
#[local] Hint Resolve silent_bval : sil.
Lemma silent_lval p l : silent (layout_validate p l).
Proof. unfold layout_validate. sil. Qed.
Lemma silent_status st : silent (kcs_set_status st).
Proof. unfold kcs_set_status. sil. Qed.
Lemma silent_lread x : silent (layout_read x).
Proof. unfold layout_read. sil. Qed.
Lemma silent_lwrite x l : silent (layout_write x l).
Proof. unfold layout_write. sil. Qed.
Lemma silent_cmtu x l : silent (calculate_mtu x l).
Proof. unfold calculate_mtu. sil. Qed.
#[local] Hint Resolve silent_lval silent_status silent_lread silent_lwrite silent_cmtu : sil.
Lemma silent_start_bmc x : silent (start_bmc x).
Proof. unfold start_bmc, init_bmc. sil. Qed.
Lemma silent_init_host x : silent (init_host x).
Proof. unfold init_host, negotiate_layout_host. sil. Qed.
Lemma silent_neg_bmc w i : silent (negotiate_layout_bmc w i).
Proof. unfold negotiate_layout_bmc. sil. Qed.
Lemma silent_finalise w i : silent (finalise_channel w i).
Proof. unfold finalise_channel. sil. Qed.

(** The packet [bs], in buffer [n], is what was just read from the shared window: the
    length field says how long it is, its bytes are the first of what follows, and its
    MCTP header version is 1. *)
Definition from_window (before : list event) (n : Z) (bs : list Z) : Prop :=
  exists g0 off lb d io, before = g0 ++ EvLRead off lb :: EvAlloc n :: EvLRead (off + 4) d :: io /\
    Forall io_ev io /\ zlen lb = 4 /\ unbe32 lb = zlen bs /\ bs = firstn (Z.to_nat (zlen bs)) d /\
    nth 0 d poison = 1.

(** Memory for one more packet buffer. *)
Definition nextw (w : world) : world := set_m w (set_next (w_m w) (m_next (w_m w) + 1)).

Section Walk.
Variable app : event -> list txreq.
Variable a : assm.
Variable bmc : bool.
Hypothesis Ha : may_oom a = false.
Hypothesis Hk : bmc = false -> kv_host a.

(** The invariant: the buffer that is being filled or received, if any, the events so
    far, the state. *)
Variable K : option Z -> list event -> world -> Prop.
Hypothesis Kio : forall h g w e, io_ev e -> K h g w -> K h (g ++ [e]) w.
Hypothesis Kret : forall g w rc, K None g w -> K None (g ++ [EvRet rc]) w.
Hypothesis Kpriv : forall h g w x n, K h g w -> K h g (putb w x n).
Hypothesis Kcfg : forall g w m, K None g w -> m_busses m = m_busses (w_m w) -> m_next m = m_next (w_m w) ->
  m_policy m = m_policy (w_m w) -> m_ctxs m = m_ctxs (w_m w) -> K None g (set_m w m).
Hypothesis Kset : forall g w en t w', WF Lax w -> K None g w -> set_rel Lax w false en t w' -> K None (g ++ t) w'.
Hypothesis Kmsg : forall g w eid to tag msg rc t w', WF Lax w -> K None g w ->
  message_rel Lax w eid to tag msg rc t w' -> K None (g ++ t) w'.
Hypothesis Kalloc : forall g w, K None g w -> K (Some (m_next (w_m w))) (g ++ [EvAlloc (m_next (w_m w))]) (nextw w).
Hypothesis Kdrop : forall n g w, K (Some n) g w -> K None (g ++ [EvFree n]) w.
Hypothesis Krx : forall n g w bs t w', WF Lax w -> K (Some n) g w -> from_window g n bs ->
  rx_rel Lax app w false n bs t w' -> K None (g ++ t) w'.

Notation J := (J bmc).
Notation Inv := (Inv bmc).
Notation J_emit := (J_emit a bmc).
Notation J_alloc := (J_alloc a bmc Ha).
Notation J_btx := (J_btx a bmc Ha Hk).
Notation WF_putb := (WF_putb a bmc Ha Hk).
Notation Inv_kcs := (Inv_kcs a bmc Ha Hk).
Notation Inv_rx_st := (Inv_rx_st a bmc Ha Hk).
Notation Inv_tx_st := (Inv_tx_st a bmc Ha Hk).

Lemma K_io h w : forall io g, Forall io_ev io -> K h g w -> K h (g ++ io) w.
Proof.
  induction io as [|e io IH]; intros g Hio HK; [rewrite app_nil_r; exact HK|].
  inversion_clear Hio as [|? ? He Hr]. change (e :: io) with ([e] ++ io). rewrite app_assoc. apply IH; [exact Hr|].
  now apply Kio.
Qed.
Lemma K_put h g w x : K h g w -> K h g (put_ast w false x).
Proof. intros HK. rewrite put_as_putb. now apply Kpriv. Qed.

Lemma kp_silent A (p : prog A) h (w : world) g (Q : A -> list event -> Prop) : silent p ->
  K h g w -> wp (adv a) p g Q -> wp (adv a) p g (fun x g' => Q x g' /\ K h g' w).
Proof.
  intros Hs HK Hw. eapply wp_mono; [apply adv_mono| |apply wp_silent; [exact Hs|exact Hw]].
  intros x g' (HQ & io & -> & Hio). split; [exact HQ|]. now apply K_io.
Qed.

Lemma kp_set (w : world) (en : bool) g : WF Lax w -> ost w true = None ->
  aok bmc (w_b0 w) (if en then Some TxEnabled else None) -> K None g w ->
  wp (adv a) (set_tx_enabled astlpc_tx w false en) g (fun w' g' => (Inv w' /\
     (en = false -> w_b0 w' = w_b0 w /\ ost w' false <> Some TxEnabled)) /\ K None g' w').
Proof.
  intros Hw H1 Hao HK. apply wp_conj; [apply wp_set; assumption|]. destruct (bget0 w Hw) as (b & Hb).
  assert (forall s, (s = TxEnabled -> en = true) -> ost (set_bus w false (set_st b s)) true = None /\
             aok bmc (w_b0 (set_bus w false (set_st b s))) (ost (set_bus w false (set_st b s)) false)) as HS.
  { intros s Hs. rewrite b0_set_bus. unfold ost. rewrite !(bget_set_bus _ _ _ _ _ _ Hb). cbn [eqb option_map set_st bus_st].
    split; [exact H1|]. eapply aok_weak; [exact Hao|]. intros [= E]. now rewrite (Hs E). }
  destruct en.
  - assert (Jw J w g) as HJ. { split; [exact H1|]. eapply aok_weak; [exact Hao|reflexivity]. }
    eapply wp_mono; [apply adv_mono| |
      eapply (wp_set_tx_enabled astlpc_tx (adv a) (adv_mono a) id Lax J J_emit J_btx); [exact Hw|exact HJ|exact Hb|intros; exact I|]].
    + intros w' g' (t & Ht & Hr & _). unfold id in Ht. rewrite Ht. eapply Kset; eassumption.
    + intros g' s _ _ Hs _ _ _. apply HS. reflexivity.
  - unfold set_tx_enabled. cbn [wp h_emit adv]. rewrite (wf_bd _ _ Hw _ _ Hb). cbn [negb].
    eapply get_bus_bget; [exact Hb|].
    destruct (bus_st b) eqn:Eb; cbn [negb wp]; eapply Kset; try eassumption.
    + eapply SetSame; [exact Hb|]. left. auto.
    + eapply SetOff; eassumption.
    + eapply SetSame; [exact Hb|]. right. right. auto.
Qed.
Lemma kp_set1 (w : world) (en : bool) g : WF Lax w -> ost w true = None ->
  aok bmc (w_b0 w) (if en then Some TxEnabled else None) -> K None g w ->
  wp (adv a) (set_tx_enabled astlpc_tx w false en) g (fun w' g' => Inv w' /\ K None g' w').
Proof.
  intros Hw H1 Hao HK. eapply wp_mono; [apply adv_mono| |apply kp_set; eassumption]. intros w' g' [[A _] B]. auto.
Qed.

Lemma kp_init_channel (w : world) g : bmc = true -> Inv w -> K None g w ->
  wp (adv a) (init_channel w false) g (fun w' g' => Inv w' /\ K None g' w').
Proof.
  intros Ebmc (Hw & H1 & Hao) HK. unfold init_channel. cbn [wp h_lread adv]. split; [reflexivity|].
  intros h Hz Hby. pose proof (fld16_range h OFF_host_ver_min Hz Hby ltac:(unfold OFF_host_ver_min; lia)) as R1.
  pose proof (fld16_range h OFF_host_ver_cur Hz Hby ltac:(unfold OFF_host_ver_cur; lia)) as R2.
  destruct (C31_index _ _ R1 R2) as [_ Rn].
  set (neg := negotiate_version ASTLPC_VER_MIN ASTLPC_VER_CUR _ _) in *.
  apply wp_assert_bind; [lia|].
  destruct Hao as [K1 K2 K3 K4 K5 K6 K7 K8 Ky K9]. destruct (K9 Ebmc) as [Hus Hlay].
  unfold ast. cbn [bnd]. set (x0 := bd_priv (w_b0 w)) in *.
  set (w1 := put_ast w false (a_set_proto x0 neg)).
  eapply wp_call with (P := fun r g' => (exists lay n, fst r = putb w (a_set_layout (a_set_proto x0 neg) lay) n /\
     bmclay lay /\ 68 <= n < 2 ^ 33 /\ (neg = 0 -> snd r < 0)) /\ K None g' w); [apply adv_mono| |].
  - apply kp_silent; [apply silent_neg_bmc|apply Kio; [exact I|exact HK]|].
    apply (wp_neg_bmc a bmc Ha Hk w1 _ _ neg); try assumption; try reflexivity.
    + exact (eq_trans K4 Ebmc).
    + intros g'. exists (a_layout x0), (bd_pkt_size (w_b0 w)). cbn [fst snd].
      split; [subst w1 x0; destruct w as [m [? ? ? ? ? ? ? []] b1]; reflexivity|].
      split; [exact Hlay|]. split; [exact K3|reflexivity].
    + intros lay n g' N L B _ _. exists lay, n. cbn [fst snd]. split; [reflexivity|].
      split; [exact L|]. split; [exact B|]. intros; contradiction.
  - intros [w2 rc] g1 ((lay & n & Ew & Hl & Hn & Hneg) & HK1). cbn [fst snd] in *. subst w2.
    cbn [wp h_lwrite adv]. split; [reflexivity|].
    set (neg' := if rc <? 0 then ASTLPC_VER_BAD else neg).
    rewrite put_putb. 
    eapply wp_call; [apply adv_mono|apply (kp_silent _ _ None w _ (fun _ _ => True)); [apply silent_status|apply Kio; [exact I|exact HK1]|apply wp_set_status; auto]|].
    intros rc' g2 [_ HK2].
    change (ast (putb w (a_set_layout (a_set_proto x0 neg) lay) n) false)
      with (a_set_layout (a_set_proto x0 neg) lay).
    set (x3 := a_set_rx_st _ Released).
    set (st := if 0 <? neg' then _ else _).
    assert (tst st ST_ACTIVE = (0 <? neg')) as -> by (unfold st; destruct (0 <? neg'); reflexivity).
    apply kp_set1; [now apply WF_putb|rewrite ost_putb; exact H1| |now apply Kpriv].
    assert (forall s, (s = Some TxEnabled -> neg <> 0) -> aok bmc (w_b0 (putb w x3 n)) s) as Hok.
    { intros s Hs. constructor; try assumption.
      - exists neg. auto.
      - intros _. apply bmc_goodlay. exact Hl.
      - congruence.
      - intros [N|N]; discriminate.
      - intros _. split; [exact Hus|exact Hl]. }
    apply Hok. destruct (0 <? neg') eqn:E; [|discriminate]. intros _ ->. unfold neg' in E. destruct (rc <? 0); discriminate.
Qed.

Lemma kp_rx_start (w : world) v g : Inv w -> K None g w -> a_proto (ast w false) = Some v -> v <> 0 ->
  ab_st (a_rx (ast w false)) = Released ->
  wp (adv a) (rx_start app w false) g (fun w' g' => Inv w' /\ K None g' w').
Proof.
  intros HI HK Ev Hv0 Hst. pose proof HI as (Hw & H1 & Hao). pose proof Hao as [K1 K2 K3 K4 K5 K6 K7 K8 Ky K9].
  unfold ast in *. cbn [bnd] in *. set (x := bd_priv (w_b0 w)) in *.
  destruct K6 as (v' & E' & Rv & _). rewrite Ev in E'. injection E' as <-.
  destruct K7 as [(G1 & G2 & G3) _]; [right; left; rewrite Hst; discriminate|].
  fold x in G1, G2, G3. fold (a_rx x) in *.
  assert (1 <= v <= 3) as Hv by lia. pose proof (extra_range v) as Ex.
  unfold rx_start, ast. cbn [bnd]. fold x. cbn [wp h_lread adv]. split; [apply inwin; lia|].
  intros lb Hz Hby. pose proof (unbe32_range lb Hz Hby) as Hbr.
  set (body := unbe32 lb) in *.
  rewrite Ev. rewrite body_size_ok by lia. cbn [bind].
  destruct (ab_size (a_rx x) - extra v <? body) eqn:E1.
  { cbn [wp]. split; [exact HI|]. apply Kio; [exact I|exact HK]. }
  destruct (bd_pkt_size (w_b0 w) <? body) eqn:E2.
  { cbn [wp]. split; [exact HI|]. apply Kio; [exact I|exact HK]. }
  rewrite packet_size_ok by lia. cbn [bind].
  rewrite (w32_id (body + extra v - 4)) by lia. set (packet := body + extra v - 4) in *.
  unfold pktbuf_alloc. rewrite K1, K2. rewrite w64_id by lia.
  replace (bd_pkt_size (w_b0 w) + 4 + 4 <? packet) with false by lia. cbn [bind wp h_alloc adv].
  split; [|rewrite Ha; discriminate]. cbn [bind wp h_emit h_lread adv].
  rewrite (w32_id (ab_off (a_rx x) + 4)) by lia. split; [apply inwin; lia|].
  intros bs Hzb Hbb. unfold pktbuf_mk. rewrite !w64_id by lia.
  set (sz := bd_pkt_size (w_b0 w) + 4 + 4). cbn [pk_hdr]. unfold pktbuf_store.
  destruct (wr_some (repeat poison (Z.to_nat sz)) 4 bs) as (d & Hd); [lia|rewrite zlen_repeat; lia|].
  cbn [pk_data pk_id pk_start pk_end pk_size pk_hdr]. rewrite Hd. cbn [deref bind].
  pose proof (wr_zlen _ _ _ _ Hd) as Hzd. rewrite zlen_repeat in Hzd.
  pose proof (rd_wr_same _ _ _ _ Hd) as Hrs. rewrite Hzb in Hrs.
  set (nid := m_next (w_m w)).
  set (pkt := mkPkt nid 4 (4 + packet) sz 4 d).
  assert (wf_pkt pkt) as Hpk by (constructor; cbn [pkt pk_hdr pk_start pk_end pk_size pk_data]; lia).
  apply wp_bind; [apply adv_mono|]. apply wp_kcs_send. intros rc io Hio _.
  set (w' := set_m w (set_next (w_m w) (nid + 1))).
  match goal with |- context [put_ast w' false ?y] => set (x2 := y) end.
  assert (exists s, x2 = a_set_rx_st x s) as (s & Ex2).
  { unfold x2. destruct (rc =? 0); eexists; reflexivity. }
  rewrite put_as_putb. change (bd_pkt_size (bnd w' false)) with (bd_pkt_size (w_b0 w)).
  set (w2 := putb w' x2 (bd_pkt_size (w_b0 w))).
  assert (Inv w2) as HI2.
  { split; [apply WF_putb; [now apply WF_next|exact K3]|]. unfold w2. rewrite !ost_putb. split; [exact H1|].
    rewrite Ex2. apply (aok_rx_st bmc (w_b0 w)); [exact Hao|fold x; rewrite Hst; discriminate|exact K3]. }
  destruct (rd_some d 4 1) as (hb & Hhb & Hzh); [lia|lia|lia|].
  change (pk_data pkt) with d. change (pk_hdr pkt) with 4. eapply wp_deref_bind; [exact Hhb|].
  assert (K (Some nid) (((((g ++ [EvLRead (ab_off (a_rx x)) lb]) ++ [EvAlloc nid]) ++ [EvLRead (ab_off (a_rx x) + 4) bs])) ++ io) w2) as HK2.
  { unfold w2. apply Kpriv. apply K_io; [exact Hio|]. apply Kio; [exact I|]. apply Kalloc. apply Kio; [exact I|exact HK]. }
  assert (nth 0 hb 0 = nth 0 bs poison) as Hnth.
  { destruct bs as [|b0 bs'].
    - change (zlen (@nil Z)) with 0 in *. apply wr_spec in Hd. destruct Hd as (xa & ya & za & Er & Hxa & Hya & ->).
      change (zlen (@nil Z)) with 0 in Hya. apply zlen_0_nil in Hya. subst ya. cbn [Datatypes.app] in Hhb, Er. rewrite <- Er in Hhb.
      apply rd_spec in Hhb. destruct Hhb as (xb & zb & Er2 & Hxb & _).
      destruct hb as [|h0 [|]]; unfold zlen in Hzh; cbn in Hzh; try lia. cbn.
      apply (repeat_spec (Z.to_nat sz)). rewrite Er2. apply in_or_app. right. now left.
    - rewrite zlen_cons in Hzb. pose proof (zlen_pos _ bs'). replace packet with (1 + (packet - 1)) in Hrs by lia.
      apply rd_split in Hrs; [|lia|lia]. destruct Hrs as [Hrs _]. rewrite Hhb in Hrs. injection Hrs as ->. reflexivity. }
  destruct (nth 0 hb 0 =? 1) eqn:Ev1; cbn [negb].
  2:{ unfold pktbuf_free. cbn [bind wp h_emit adv]. split; [exact HI2|]. apply Kdrop. exact HK2. }
  assert (a_proto x2 = Some v) as -> by (rewrite Ex2; exact Ev).
  pose proof (pktbuf_size_wf pkt Hpk) as Hps. change (pk_end pkt - pk_start pkt) with (4 + packet - 4) in Hps.
  match type of HK2 with K _ ?gg _ => set (gi := gg) in * end.
  assert (zlen (firstn (Z.to_nat body) bs) = body) as Hzf by (rewrite zlen_firstn; clear - Hzb Hbr Ex; unfold packet in Hzb; lia).
  assert (from_window gi nid (firstn (Z.to_nat body) bs)) as Hfw.
  { exists g, (ab_off (a_rx x)), lb, bs, io. rewrite Hzf. split; [unfold gi; rewrite <- !app_assoc; reflexivity|].
    split; [exact Hio|]. split; [exact Hz|]. split; [reflexivity|]. split; [reflexivity|]. rewrite <- Hnth. clear - Ev1. lia. }
  assert (forall p' (ok : bool), wf_pkt p' -> pk_id p' = nid ->
      pktbuf_bytes p' = Some (firstn (Z.to_nat body) bs) ->
      wp (adv a)
      (if ok then bus_rx astlpc_tx app w2 false p' else _ <- pktbuf_free p' ;; Ret w2) gi
      (fun w' g' => Inv w' /\ K None g' w')) as Hfin.
  { intros p' ok Hp' Hid Hby'. destruct ok.
    2:{ unfold pktbuf_free; cbn [bind wp h_emit adv]. split; [exact HI2|]. rewrite Hid. now apply Kdrop. }
    destruct (bget0 w2 (proj1 HI2)) as (b2 & Hb2).
    eapply wp_mono; [apply adv_mono| |
      eapply (wp_bus_rx astlpc_tx app (adv a) (adv_mono a) id Lax J J_emit J_alloc J_btx);
        [exact (proj1 HI2)|exact Hb2|exact Hp'|exact Hby'|
         intros lo Q HQ; apply HQ; [apply Inv_J; exact HI2|reflexivity]]].
    intros w4 g4 (t & Ht & Hr & HJ).
    split; [split; [eapply rx_rel_WF; [exact (proj1 HI2)|exact Hr]|exact HJ]|].
    unfold id in Ht. rewrite Ht. rewrite Hid in Hr. eapply Krx; [exact (proj1 HI2)|exact HK2|exact Hfw|exact Hr]. }
  unfold pktbuf_validate. destruct ((v =? 1) || (v =? 2)) eqn:Ev12.
  { cbn [bind]. apply (Hfin pkt true Hpk eq_refl).
    unfold pktbuf_bytes. rewrite Hps. change (pk_data pkt) with d. change (pk_hdr pkt) with 4.
    assert (packet = body) as Epb by (unfold packet, extra; replace (v =? 3) with false by lia; lia).
    replace (4 + packet - 4) with packet by lia. rewrite Hrs. rewrite firstn_all2; [reflexivity|].
    unfold zlen in Hzb. lia. }
  assert (v = 3) as Ev3 by lia. replace (v =? 3) with true by lia.
  assert (packet = body + 4) as Hpb by (unfold packet; rewrite Ev3; change (extra 3) with 8; lia).
  rewrite Hps. replace (4 + packet - 4) with packet by lia. rewrite w64_id by lia.
  rewrite Hpb in Hrs. apply rd_split in Hrs; [|lia|lia]. destruct Hrs as [Hcb Hck].
  replace (packet - 4) with body by lia.
  change (pk_data pkt) with d. change (pk_hdr pkt) with 4. rewrite Hcb. cbn [deref bind].
  unfold pktbuf_pop. rewrite Hps. replace (4 + packet - 4 <? 4) with false by lia.
  change (pk_end pkt) with (4 + packet). rewrite w64_id by lia.
  cbn [pk_data]. change (pk_data pkt) with d. replace (4 + packet - 4) with (4 + body) by lia.
  rewrite Hck. cbn [deref bind].
  apply Hfin; [|reflexivity|].
  - constructor; cbn [pkt pk_hdr pk_start pk_end pk_size pk_data]; lia.
  - assert (wf_pkt (mkPkt nid 4 (4 + body) sz 4 d)) as Hwf by (constructor; cbn [pk_hdr pk_start pk_end pk_size pk_data]; lia).
    cbn [pk_start pk_end pk_id pk_size pk_hdr pk_data pkt].
    unfold pktbuf_bytes. rewrite (pktbuf_size_wf _ Hwf). cbn [pk_hdr pk_start pk_end pk_size pk_data].
    replace (4 + body - 4) with body by lia. exact Hcb.
Qed.

Lemma kp_tx_complete (w : world) v g : Inv w -> K None g w -> a_proto (ast w false) = Some v -> v <> 0 ->
  ab_st (a_tx (ast w false)) = Released ->
  wp (adv a) (tx_complete w false) g (fun w' g' => Inv w' /\ K None g' w').
Proof.
  intros (Hw & H1 & [K1 K2 K3 K4 K5 K6 K7 K8 Ky K9]) HK Ev Hv0 Hst. unfold tx_complete, ast in *. cbn [bnd] in *.
  rewrite put_as_putb. cbn [bnd]. apply kp_set1; [now apply WF_putb|rewrite ost_putb; exact H1| |now apply Kpriv].
  assert (goodlay (a_layout (bd_priv (w_b0 w)))) as [G1 G2] by (apply K7; left; rewrite Hst; discriminate).
  destruct K6 as (v' & E' & R & _). rewrite Ev in E'. injection E' as <-.
  constructor; try assumption.
  - exists v. auto.
  - intros _. split; assumption.
  - intros E _. apply K8; [exact E|right; right; exact Hst].
  - intros [N|N]; discriminate.
Qed.

Lemma kp_update (w : world) st g : bmc = false -> Inv w -> K None g w -> kval_ok a KStatus st = true ->
  wp (adv a) (update_channel w false st) g (fun r g' => Inv (fst r) /\ K None g' (fst r)).
Proof.
  intros Eb HI HK Hkv. pose proof HI as (Hw & H1 & Hao). pose proof Hao as [K1 K2 K3 K4 K5 K6 K7 K8 Ky K9].
  destruct (Hk Eb st) as [_ Hact]. specialize (Hact Hkv).
  unfold update_channel, ast. cbn [bnd]. set (x := bd_priv (w_b0 w)) in *.
  apply wp_assert_bind; [rewrite K4, Eb; reflexivity|].
  rewrite tst_xor_ready, tst_xor_active.
  destruct (xorb (tst (a_kcs x) ST_BMC_READY) (tst st ST_BMC_READY)) eqn:Eu; cbn [andb].
  - destruct (tst st ST_BMC_READY) eqn:Er.
    + (* bmc-ready rises *)
      assert (tst (a_kcs x) ST_BMC_READY = false) as Ek by (destruct (tst (a_kcs x) ST_BMC_READY); [discriminate|reflexivity]).
      assert (ost w false <> Some TxEnabled /\ ~ holding (ab_st (a_tx x))) as [N1 N2].
      { split; intros N; (assert (tst (a_kcs x) ST_BMC_READY = true) by (apply K8; auto)); congruence. }
      unfold astlpc_start. change (a_bmc (a_set_kcs x st)) with (a_bmc x). replace (a_bmc x) with false by congruence.
      apply wp_bind; [apply adv_mono|]. apply wp_bind; [apply adv_mono|].
      eapply wp_mono; [apply adv_mono| |apply (kp_silent _ _ None w); [apply silent_init_host|exact HK|apply (wp_init_host a bmc Ha Hk (a_set_kcs x st)); [exact (eq_trans K4 Eb)|exact K5]]].
      intros [x' rc] g' [(k & Hx) HK1]. cbn [wp fst snd] in *. rewrite put_as_putb.
      assert (a_bmc x' = a_bmc x /\ a_mtu x' = a_mtu x /\ a_layout x' = a_layout x /\
              exists v, a_proto x' = Some v /\ 0 <= v <= 3) as (X1 & X2 & X3 & X4).
      { destruct Hx as [[_ ->]|(v & Hv & ->)]; repeat split.
        - destruct K6 as (v & E & R & _). exists v. auto.
        - exists v. auto. }
      split; [|now apply Kpriv]. split; [now apply WF_putb|]. rewrite !ost_putb. split; [exact H1|].
      constructor; cbn [putb set_bnd w_b0 bnd set_pkt_size set_priv bd_header bd_trailer bd_pkt_size bd_priv];
        unfold a_tx, a_rx; rewrite ?X1, ?X2, ?X3; try assumption.
      * destruct X4 as (v & E & R). exists v. split; [exact E|]. split; [exact R|]. intros; contradiction.
      * intros _ [N|N]; contradiction.
    + (* bmc-ready falls *)
      assert (Hnact : tst st ST_ACTIVE = false).
      { destruct (tst st ST_ACTIVE) eqn:E; [|reflexivity]. specialize (Hact eq_refl). congruence. }
      set (xi := a_set_rx_st (a_set_tx_st x Idle) Idle).
      rewrite put_as_putb. cbn [bnd].
      eapply wp_call; [apply adv_mono|apply kp_set with (en := false)|].
      { now apply WF_putb. } { rewrite ost_putb. exact H1. }
      { destruct K6 as (v & E & R & _). constructor; try assumption.
        - exists v. split; [exact E|]. split; [exact R|discriminate].
        - intros [N|[N|N]]; [now destruct N|now destruct N|discriminate].
        - intros _ [N|N]; [discriminate|]. destruct N as [N|N]; discriminate.
        - intros [N|N]; discriminate. }
      { now apply Kpriv. }
      intros w1 g1 [[HI1 Hoff] HK1]. destruct (Hoff eq_refl) as [Eb1 Eo1]. clear Hoff.
      pose proof HI1 as (Hw1 & H11 & Hao1).
      assert (bd_priv (w_b0 w1) = xi) as Ex1 by (rewrite Eb1; reflexivity).
      destruct (ao_ver _ _ _ Hao1) as (v & Ev & Rv & _).
      unfold ast. cbn [bnd]. eapply wp_deref_bind; [exact Ev|].
      destruct ((v =? 0) || xorb (tst (a_kcs x) ST_ACTIVE) (tst st ST_ACTIVE)) eqn:Efin.
      2:{ cbn [bind wp fst]. split; [|apply K_put; assumption]. apply Inv_kcs; [exact HI1|exact Eb|right]. split; [exact Eo1|].
          unfold ast. cbn [bnd]. rewrite Ex1. intros [N|N]; discriminate. }
      set (xj := a_set_rx_st (a_set_tx_st (bd_priv (w_b0 w1)) Idle) Idle).
      rewrite (put_as_putb w1). cbn [bnd]. set (n1 := bd_pkt_size (w_b0 w1)).
      assert (68 <= n1 < 2 ^ 33) as Hn1 by exact (ao_psz _ _ _ Hao1).
      apply wp_bind; [apply adv_mono|].
      eapply wp_call; [apply adv_mono|apply (kp_silent _ _ None w1); [apply silent_finalise|exact HK1|apply (wp_finalise a bmc Ha Hk (putb w1 xj n1) g1 v); [exact Hn1|exact Ev]]|].
      intros [w' rc] g' [Hf HKf]. cbn [fst snd] in Hf. rewrite Hnact. cbn [andb].
      change (bd_pkt_size (w_b0 (putb w1 xj n1))) with n1 in Hf.
      change (bd_priv (w_b0 (putb w1 xj n1))) with xj in Hf.
      assert (WF Lax w' /\ ost w' true = None /\ aok bmc (w_b0 w') None /\
              ~ holding (ab_st (a_tx (bd_priv (w_b0 w'))))) as (A1 & A2 & A3 & A4).
      { destruct Hao1 as [B1 B2 B3 B4 B5 B6 B7 B8 By B9].
        destruct Hf as [[_ (v' & Hv' & ->)]|[_ (v' & lay & n & Hv' & Hl & Hn & Hs & ->)]]; rewrite putb_putb, ost_putb;
          (split; [now apply WF_putb|]; split; [exact H11|]; split; [constructor; try assumption|]).
        - exists v'. split; [reflexivity|]. split; [clear - Hv' Rv; lia|discriminate].
        - intros [N|[N|N]]; [now destruct N|now destruct N|discriminate].
        - intros _ [N|[N|N]]; discriminate.
        - intros [N|N]; discriminate.
        - intros [N|N]; discriminate.
        - exists v'. split; [reflexivity|]. split; [clear - Hv' Rv; lia|discriminate].
        - intros _. exact Hl.
        - intros _ [N|N]; [discriminate|]. unfold a_tx in N. cbn in N. rewrite Hs in N. destruct N; discriminate.
        - unfold a_tx. cbn. rewrite Hs. intros [N|N]; discriminate.
        - congruence.
        - unfold a_tx. cbn. rewrite Hs. intros [N|N]; discriminate. }
      assert (K None g' w') as HKw.
      { destruct Hf as [[_ (v' & Hv' & ->)]|[_ (v' & lay & n & Hv' & Hl & Hn & Hs & ->)]]; rewrite putb_putb; now apply Kpriv. }
      eapply wp_call; [apply adv_mono|apply kp_set with (en := false); assumption|].
      intros w2 g2 [[HI2 Hoff] HK2]. destruct (Hoff eq_refl) as [Eb2 Eo2]. cbn [wp fst]. split; [|apply K_put; exact HK2].
      apply Inv_kcs; [exact HI2|exact Eb|right]. split; [exact Eo2|]. unfold ast. cbn [bnd]. rewrite Eb2. exact A4.
  - (* bmc-ready unchanged *)
    assert (tst (a_kcs x) ST_BMC_READY = tst st ST_BMC_READY) as Ek.
    { destruct (tst (a_kcs x) ST_BMC_READY), (tst st ST_BMC_READY); try reflexivity; discriminate. }
    cbn [bind]. destruct K6 as (v & Ev & Rv & Nv). eapply wp_deref_bind; [exact Ev|].
    destruct ((v =? 0) || xorb (tst (a_kcs x) ST_ACTIVE) (tst st ST_ACTIVE)) eqn:Efin.
    2:{ cbn [bind wp fst]. split; [|apply K_put; assumption]. apply Inv_kcs; [exact HI|exact Eb|].
        destruct (tst st ST_BMC_READY) eqn:E; [now left|right]. unfold ast. cbn [bnd]. fold x.
        split; intros N; (assert (tst (a_kcs x) ST_BMC_READY = true) by (apply K8; auto)); congruence. }
    set (xj := a_set_rx_st (a_set_tx_st x Idle) Idle). rewrite put_as_putb. cbn [bnd].
    set (n1 := bd_pkt_size (w_b0 w)) in *.
    apply wp_bind; [apply adv_mono|].
    eapply wp_call; [apply adv_mono|apply (kp_silent _ _ None w); [apply silent_finalise|exact HK|apply (wp_finalise a bmc Ha Hk (putb w xj n1) _ v); [exact K3|exact Ev]]|].
    intros [w' rc] g' [Hf HKf]. cbn [fst snd] in Hf.
    change (bd_pkt_size (w_b0 (putb w xj n1))) with n1 in Hf.
    change (bd_priv (w_b0 (putb w xj n1))) with xj in Hf.
    assert (WF Lax w' /\ ost w' true = None /\
            aok bmc (w_b0 w') (if tst st ST_ACTIVE && (rc =? 0) then Some TxEnabled else None) /\
            ~ holding (ab_st (a_tx (bd_priv (w_b0 w'))))) as (A1 & A2 & A3 & A4).
    { destruct Hf as [[Hrc (v' & Hv' & ->)]|[Hrc (v' & lay & n & Hv' & Hl & Hn & Hs & ->)]]; rewrite putb_putb, ost_putb;
        (split; [now apply WF_putb|]; split; [exact H1|]).
      - replace (rc =? 0) with false by lia. rewrite andb_false_r. split; [constructor; try assumption|].
        + exists v'. split; [reflexivity|]. split; [clear - Hv' Rv; lia|discriminate].
        + intros [N|[N|N]]; [now destruct N|now destruct N|discriminate].
        + intros _ [N|[N|N]]; discriminate.
        + intros [N|N]; discriminate.
        + intros [N|N]; discriminate.
      - subst rc. rewrite andb_true_r. split; [constructor; try assumption|].
        + exists v'. split; [reflexivity|]. clear - Hv'. split; lia.
        + intros _. exact Hl.
        + intros _ [N|N].
          * destruct (tst st ST_ACTIVE); [|discriminate]. change (tst (a_kcs x) ST_BMC_READY = true).
            rewrite Ek. auto.
          * unfold a_tx in N. cbn in N. rewrite Hs in N. destruct N; discriminate.
        + unfold a_tx. cbn. rewrite Hs. intros [N|N]; discriminate.
        + congruence.
        + unfold a_tx. cbn. rewrite Hs. intros [N|N]; discriminate. }
    assert (K None g' w') as HKw.
    { destruct Hf as [[Hrc (v' & Hv' & ->)]|[Hrc (v' & lay & n & Hv' & Hl & Hn & Hs & ->)]]; rewrite putb_putb; now apply Kpriv. }
    eapply wp_call; [apply adv_mono|apply kp_set with (en := tst st ST_ACTIVE && (rc =? 0)); assumption|].
    intros w2 g2 [[HI2 Hoff] HK2]. cbn [wp fst]. split; [|apply K_put; exact HK2]. apply Inv_kcs; [exact HI2|exact Eb|].
    destruct (tst st ST_ACTIVE) eqn:Eact; [left; apply Hact; reflexivity|].
    destruct (Hoff eq_refl) as [Eb2 Eo2]. right. split; [exact Eo2|]. unfold ast. cbn [bnd]. rewrite Eb2. exact A4.
Qed.

Lemma kp_poll_tail (w : world) st data rc g : Inv w -> K None g w -> kval_ok a KStatus st = true ->
  wp (adv a) (poll_tail w false st data rc) g (fun r g' => Inv (fst r) /\ K None g' (fst r)).
Proof.
  intros HI HK Hkv. unfold poll_tail. pose proof HI as (_ & _ & Hao). pose proof (ao_mode _ _ _ Hao) as Hm.
  unfold ast. cbn [bnd]. destruct (Bool.bool_dec bmc true) as [Eb|Eb].
  { replace (a_bmc (bd_priv (w_b0 w))) with true by congruence. cbn [negb andb]. exact (conj HI HK). }
  apply Bool.not_true_is_false in Eb. replace (a_bmc (bd_priv (w_b0 w))) with false by congruence. cbn [negb andb].
  destruct (negb (tst st ST_BMC_READY && (data =? cmd_dummy_value))); [|exact (conj HI HK)].
  apply kp_update; assumption.
Qed.

Lemma kp_poll (w : world) g : Inv w -> K None g w -> wp (adv a) (poll app w false) g (fun r g' => Inv (fst r) /\ K None g' (fst r)).
Proof.
  intros HI HK. unfold poll.
  eapply wp_call with (P := fun x g' => Inv (put_ast w false x) /\ K None g' w); [apply adv_mono| |].
  { unfold poll_release_rx. destruct (ab_st (a_rx (ast w false))) eqn:Es; try (cbn [wp]; rewrite Inv_same; exact (conj HI HK)).
    apply wp_bind; [apply adv_mono|]. apply wp_kcs_send. intros rc io Hio _. cbn [wp]. split; [|apply K_io; assumption].
    destruct (rc =? 0); [|rewrite Inv_same; exact HI]. apply Inv_rx_st; [exact HI|congruence]. }
  intros x1 g1 [HI1 HK1]. set (w1 := put_ast w false x1) in *.
  eapply wp_call with (P := fun x g' => Inv (put_ast w1 false x) /\ K None g' w); [apply adv_mono| |].
  { change x1 with (ast w1 false).
    unfold poll_release_tx. destruct (ab_st (a_tx (ast w1 false))) eqn:Es; try (cbn [wp]; rewrite Inv_same; exact (conj HI1 HK1)).
    apply wp_bind; [apply adv_mono|]. apply wp_kcs_send. intros rc io Hio _. cbn [wp]. split; [|apply K_io; assumption].
    destruct (rc =? 0); [|rewrite Inv_same; exact HI1]. apply Inv_tx_st; [exact HI1|rewrite Es; now left|now right]. }
  intros x2 g2 [HI2' HK2']. change (put_ast w1 false x2) with (put_ast w false x2) in HI2'. set (w2 := put_ast w false x2) in *.
  pose proof HI2' as HI2. assert (K None g2 w2) as HKw by (apply K_put; exact HK2'). clear HK2'.
  cbn [wp h_kread adv]. split; [|intros _; split; [exact HI2|apply Kio; [exact I|exact HKw]]].
  intros st Hst Hkst. apply (Kio _ _ _ (EvKRead KStatus (Some st))) in HKw; [|exact I].
  destruct (negb (kcs_read_ready x2 st)); [exact (conj HI2 HKw)|].
  cbn [wp h_kread adv]. split; [|intros _; split; [exact HI2|apply Kio; [exact I|exact HKw]]].
  intros data Hdata Hkd. apply (Kio _ _ _ (EvKRead KData (Some data))) in HKw; [|exact I]. unfold poll_dispatch.
  pose proof HI2 as (_ & _ & Hao). destruct (ao_ver _ _ _ Hao) as (v & Ev & Rv & _).
  eapply wp_deref_bind; [exact Ev|].
  destruct ((v =? 0) && negb ((data =? cmd_initialise) || (data =? cmd_dummy_value))) eqn:E0; [exact (conj HI2 HKw)|].
  unfold cmd_initialise, cmd_tx_begin, cmd_rx_complete, cmd_dummy_value in *.
  destruct (data =? 0) eqn:D0.
  { destruct (Bool.bool_dec bmc true) as [Eb|Eb].
    - eapply wp_call; [apply adv_mono|apply kp_init_channel; [exact Eb|exact HI2|exact HKw]|].
      intros w3 g3 [HI3 HK3]. now apply kp_poll_tail.
    - exfalso. apply Bool.not_true_is_false in Eb. destruct (Hk Eb data) as [Hd _]. specialize (Hd Hkd). lia. }
  destruct (data =? 1) eqn:D1.
  { destruct (ab_st (a_rx (ast w2 false))) eqn:Es; try exact (conj HI2 HKw).
    eapply wp_call; [apply adv_mono|eapply (kp_rx_start w2 v); [exact HI2|exact HKw|exact Ev|lia|exact Es]|].
    intros w3 g3 [HI3 HK3]. now apply kp_poll_tail. }
  destruct (data =? 2) eqn:D2.
  { destruct (ab_st (a_tx (ast w2 false))) eqn:Es; try exact (conj HI2 HKw).
    eapply wp_call; [apply adv_mono|eapply (kp_tx_complete w2 v); [exact HI2|exact HKw|exact Ev|lia|exact Es]|].
    intros w3 g3 [HI3 HK3]. now apply kp_poll_tail. }
  destruct (data =? 255) eqn:D3; [|now apply kp_poll_tail].
  pose proof (ao_mode _ _ _ Hao) as Hm. unfold ast at 1. cbn [bnd].
  destruct (Bool.bool_dec bmc true) as [Eb|Eb]; [replace (a_bmc (bd_priv (w_b0 w2))) with true by congruence; now apply kp_poll_tail|].
  apply Bool.not_true_is_false in Eb. replace (a_bmc (bd_priv (w_b0 w2))) with false by congruence.
  eapply wp_call; [apply adv_mono|apply kp_update; [exact Eb|exact HI2|exact HKw|exact Hkst]|].
  intros [w3 rc] g3 [HI3 HK3]. cbn [fst] in HI3, HK3. destruct (rc <? 0); [exact (conj HI3 HK3)|now apply kp_poll_tail].
Qed.

Lemma kp_aop (w : world) o g : Inv w -> K None g w -> ast_traffic o ->
  wp (adv a) (aexec_op app w o) g (fun w' g' => Inv w' /\ K None g' w').
Proof.
  intros HI HK Ht. pose proof HI as (Hw & H1 & Hao). unfold aexec_op. destruct o as [o|i].
  - unfold exec_op. rewrite (wf_dead _ _ Hw).
    destruct o as [n|b|b|eid| | | |i p|eid to tag msg|i en|i b|i n]; cbn [ast_traffic] in Ht; try contradiction.
    + cbn [wp]. split; [|apply Kcfg; try reflexivity; exact HK]. split; [destruct Hw; constructor; assumption|]. split; assumption.
    + cbn [wp]. split; [|apply Kcfg; try reflexivity; exact HK]. split; [destruct Hw; constructor; assumption|]. split; assumption.
    + cbn [wp]. split; [|apply Kcfg; try reflexivity; exact HK]. split; [destruct Hw; constructor; assumption|]. split; assumption.
    + eapply wp_call; [apply adv_mono|
        eapply (wp_message_tx astlpc_tx (adv a) (adv_mono a) id Lax J J_emit J_alloc J_btx);
        [exact Hw|apply Inv_J; exact HI]|].
      intros [w' rc] g' (t & Et & Hr & HJ). cbn [fst snd wp h_emit adv] in *.
      split; [|apply Kret; unfold id in Et; rewrite Et; eapply Kmsg; eassumption]. split; [eapply steps_WF; [exact Hw|eapply message_rel_steps; exact Hr]|exact HJ].
  - cbn in Ht. subst i. rewrite (wf_dead _ _ Hw).
    eapply wp_call; [apply adv_mono|apply kp_poll; [exact HI|exact HK]|].
    intros [w' rc] g' [HI' HK']. cbn [wp h_emit adv fst] in *. split; [exact HI'|]. now apply Kret.
Qed.

Lemma kp_aexec : forall l (w : world) g, Inv w -> K None g w -> Forall ast_traffic l ->
  wp (adv a) (aexec app w l) g (fun w' g' => Inv w' /\ K None g' w').
Proof.
  induction l as [|o l IH]; intros w g HI HK Hl; cbn [aexec]; [exact (conj HI HK)|].
  inversion_clear Hl as [|? ? Ho Hl']. eapply wp_call; [apply adv_mono|apply kp_aop; assumption|].
  intros w' g' [HI' HK']. apply IH; assumption.
Qed.
End Walk.

(** ** What registration leaves *)
Lemma reg_bmc mtu eid : usable_mtu mtu ->
  wp (adv no_oom) (start_bmc (init_ast true mtu)) [EvAttach false eid]
     (fun r _ => snd r <? 0 = false -> Inv true (registered true mtu eid (fst r))).
Proof.
  intros Hus. assert (u32 mtu) as Hu by (unfold u32, usable_mtu in *; lia).
  destruct (init_bmc_usable (init_ast true mtu) mtu eq_refl eq_refl Hu Hus) as [E V]. cbn zeta in E, V.
  rewrite E. cbn [wp h_lwrite adv]. split; [reflexivity|].
  apply wp_bind; [apply adv_mono|]. apply wp_set_status. intros rc g _. cbn [wp fst snd]. intros _.
  split; [apply WF_registered; exact Hu|]. split; [reflexivity|].
  assert (bmclay (a_layout (a_set_layout (a_set_proto (init_ast true mtu) 3)
    (mkLayout (mkBuf (256 + (bmc_mtu mtu + 12)) (bmc_mtu mtu + 12) Idle) (mkBuf 256 (bmc_mtu mtu + 12) Idle))))) as Hlay.
  { exists (bmc_mtu mtu + 12). cbn [a_layout a_set_layout ly_tx ly_rx ab_off ab_size].
    unfold bmc_mtu, usable_mtu in *. destruct (mtu =? 0) eqn:E0; lia. }
  unfold u32, usable_mtu in *.
  constructor; try reflexivity.
  - cbn. unfold MCTP_PACKET_SIZE, MCTP_BTU. destruct (64 <? mtu) eqn:E0; lia.
  - cbn. lia.
  - exists 3. split; [reflexivity|]. split; [lia|discriminate].
  - intros _. apply bmc_goodlay. exact Hlay.
  - discriminate.
  - discriminate.
  - intros _. split; [exact Hus|exact Hlay].
Qed.

Lemma reg_host mtu eid : 0 <= mtu <= 2 ^ 32 - 13 ->
  wp (adv sane_bmc) (init_host (init_ast false mtu)) [EvAttach false eid]
     (fun r _ => snd r <? 0 = false -> Inv false (registered false mtu eid (fst r))).
Proof.
  intros Hm. assert (u32 mtu) as Hu by (unfold u32; lia).
  eapply wp_mono; [apply adv_mono| |apply (wp_init_host sane_bmc false eq_refl (fun _ => sane_kv)); [reflexivity|exact Hm]].
  intros [x rc] g (k & Hx). cbn [fst snd] in *. intros Er.
  destruct Hx as [[N _]|(v & Hv & ->)]; [lia|].
  split; [apply WF_registered; exact Hu|]. split; [reflexivity|].
  constructor; try reflexivity.
  - cbn. unfold MCTP_PACKET_SIZE, MCTP_BTU. destruct (64 <? mtu) eqn:E0; lia.
  - exact Hm.
  - exists v. split; [reflexivity|]. split; [exact Hv|discriminate].
  - intros [N|[N|N]]; [now destruct N|now destruct N|discriminate].
  - intros _ [N|[N|N]]; discriminate.
  - discriminate.
  - discriminate.
Qed.
