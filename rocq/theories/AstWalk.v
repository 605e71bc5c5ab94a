(** AstWalk: the astlpc binding against an arbitrary peer (C35). *)
From Verif Require Import Base Lists Prog PktBuf Core WP Walk CoreRel WalkCore CoreHist Crc Astlpc SpecAst AstBasic.

Local Notation world := (world astlpc).

Definition goodbuf (b : abuf) : Prop :=
  72 <= ab_size b /\ 256 <= ab_off b /\ ab_off b + ab_size b <= 1048576.
Definition goodlay (l : layout) : Prop := goodbuf (ly_rx l) /\ goodbuf (ly_tx l).

Lemma valid_goodlay v l : valid_layout v l -> goodlay l.
Proof.
  intros ((A1 & A2 & A3) & (B1 & B2 & B3) & _). unfold goodlay, goodbuf.
  destruct (extra_range v) as [E|E]; rewrite E in *; lia.
Qed.

(** The geometry on the BMC: offsets as published, sizes at most as published. *)
Definition bmclay (l : layout) : Prop :=
  exists S, 76 <= S <= 524156 /\ ab_off (ly_tx l) = 256 /\ ab_off (ly_rx l) = 256 + S /\
            72 <= ab_size (ly_tx l) <= S /\ 72 <= ab_size (ly_rx l) <= S.
Lemma bmc_goodlay l : bmclay l -> goodlay l.
Proof. intros (S & H1 & H2 & H3 & H4 & H5). unfold goodlay, goodbuf. lia. Qed.

Definition holding (s : bufst) : Prop := s = Prepared \/ s = Released.

Record aok (bmc : bool) (b : binding astlpc) (s : option bus_state) : Prop := mkAok {
  ao_hdr : bd_header b = 4;
  ao_trl : bd_trailer b = 4;
  ao_psz : 68 <= bd_pkt_size b < 2 ^ 33;
  ao_mode : a_bmc (bd_priv b) = bmc;
  ao_mtu : 0 <= a_mtu (bd_priv b) <= 2 ^ 32 - 13;
  ao_ver : exists v, a_proto (bd_priv b) = Some v /\ 0 <= v <= 3 /\ (s = Some TxEnabled -> v <> 0);
  ao_lay : ab_st (a_tx (bd_priv b)) <> Idle \/ ab_st (a_rx (bd_priv b)) <> Idle \/ s = Some TxEnabled ->
           goodlay (a_layout (bd_priv b));
  ao_host : bmc = false -> s = Some TxEnabled \/ holding (ab_st (a_tx (bd_priv b))) ->
            tst (a_kcs (bd_priv b)) ST_BMC_READY = true;
  ao_busy : holding (ab_st (a_tx (bd_priv b))) -> s <> Some TxEnabled;
  ao_bmc : bmc = true -> usable_mtu (a_mtu (bd_priv b)) /\ bmclay (a_layout (bd_priv b)) }.

(** ** Byte fields *)
Lemma unbe32_range l : zlen l = 4 -> Forall is_byte l -> 0 <= unbe32 l < 2 ^ 32.
Proof.
  intros Hz Hb. unfold zlen in Hz. destruct l as [|x [|y [|z [|t [|]]]]]; cbn in Hz; try lia.
  inversion_clear Hb as [|? ? H1 Hb1]. inversion_clear Hb1 as [|? ? H2 Hb2]. inversion_clear Hb2 as [|? ? H3 Hb3].
  inversion_clear Hb3 as [|? ? H4 _]. unfold is_byte in *. unfold unbe32. lia.
Qed.
Lemma unbe16_range l : zlen l = 2 -> Forall is_byte l -> 0 <= unbe16 l < 65536.
Proof.
  intros Hz Hb. unfold zlen in Hz. destruct l as [|x [|y [|]]]; cbn in Hz; try lia.
  inversion_clear Hb as [|? ? H1 Hb1]. inversion_clear Hb1 as [|? ? H2 _]. unfold is_byte in *. unfold unbe16. lia.
Qed.
Lemma Forall_sub (P : Z -> Prop) n m l : Forall P l -> Forall P (firstn n (skipn m l)).
Proof.
  intros H. assert (Forall P (skipn m l)) as H1.
  { rewrite <- (firstn_skipn m l) in H. apply Forall_app in H. tauto. }
  rewrite <- (firstn_skipn n (skipn m l)) in H1. apply Forall_app in H1. tauto.
Qed.
Lemma fld32_range h off : zlen h = 32 -> Forall is_byte h -> 0 <= off <= 28 -> 0 <= fld32 h off < 2 ^ 32.
Proof.
  intros Hz Hb Ho. apply unbe32_range; [|now apply Forall_sub].
  rewrite zlen_firstn, zlen_skipn. lia.
Qed.
Lemma fld16_range h off : zlen h = 32 -> Forall is_byte h -> 0 <= off <= 30 -> 0 <= fld16 h off < 65536.
Proof.
  intros Hz Hb Ho. apply unbe16_range; [|now apply Forall_sub].
  rewrite zlen_firstn, zlen_skipn. lia.
Qed.

Lemma land_pow2 v k : 0 <= k -> Z.land v (2 ^ k) = if Z.testbit v k then 2 ^ k else 0.
Proof.
  intros Hk. apply Z.bits_inj'. intros n Hn. rewrite Z.land_spec, Z.pow2_bits_eqb by lia.
  destruct (Z.eqb_spec k n) as [->|Hne].
  - rewrite andb_true_r. destruct (Z.testbit v n); [now rewrite Z.pow2_bits_true by lia|now rewrite Z.bits_0].
  - rewrite andb_false_r. destruct (Z.testbit v k); [|now rewrite Z.bits_0].
    rewrite Z.pow2_bits_eqb by lia. symmetry. now apply Z.eqb_neq.
Qed.
Lemma tst_pow2 v k : 0 <= k -> tst v (2 ^ k) = Z.testbit v k.
Proof.
  intros Hk. unfold tst. rewrite land_pow2 by exact Hk. destruct (Z.testbit v k); [|reflexivity].
  assert (0 < 2 ^ k) by (apply Z.pow_pos_nonneg; lia). destruct (Z.eqb_spec (2 ^ k) 0); [lia|reflexivity].
Qed.
Lemma tst_ready v : tst v ST_BMC_READY = Z.testbit v 7.
Proof. exact (tst_pow2 v 7 ltac:(lia)). Qed.
Lemma tst_active v : tst v ST_ACTIVE = Z.testbit v 6.
Proof. exact (tst_pow2 v 6 ltac:(lia)). Qed.
Lemma tst_xor_ready x y : tst (Z.lxor x y) ST_BMC_READY = xorb (tst x ST_BMC_READY) (tst y ST_BMC_READY).
Proof. rewrite !tst_ready. apply Z.lxor_spec. Qed.
Lemma tst_xor_active x y : tst (Z.lxor x y) ST_ACTIVE = xorb (tst x ST_ACTIVE) (tst y ST_ACTIVE).
Proof. rewrite !tst_active. apply Z.lxor_spec. Qed.

Lemma inwin off len : 0 <= off -> 0 <= len -> off + len <= 1048576 -> in_window off len = true.
Proof. unfold in_window, LPC_WIN_SIZE. lia. Qed.

(** What the host-side theorem asks of the peer: it never sends Initialise, and
    channel-active comes with bmc-ready. *)
Definition kv_host (a : assm) : Prop := forall v,
  (kval_ok a KData v = true -> v <> 0) /\
  (kval_ok a KStatus v = true -> tst v ST_ACTIVE = true -> tst v ST_BMC_READY = true).

Section Walk.
Variable app : event -> list txreq.
Variable a : assm.
Variable bmc : bool.
Hypothesis Ha : may_oom a = false.
Hypothesis Hk : bmc = false -> kv_host a.

(** ** I/O *)
Lemma wp_kcs_send x cmd g (Q : Z -> list event -> Prop) :
  (forall rc io, Forall io_ev io -> rc = 0 \/ rc = - EBUSY \/ rc = - EIO -> Q rc (g ++ io)) ->
  wp (adv a) (kcs_send x cmd) g Q.
Proof.
  intros HQ. unfold kcs_send. cbn [wp h_kread adv]. split.
  - intros v _ _. destruct (negb (kcs_write_ready x v)); cbn [wp h_kwrite adv].
    + apply HQ; [repeat constructor|auto].
    + split; [|intros _]; rewrite <- app_assoc; apply HQ; auto; repeat constructor.
  - intros _. cbn [wp]. apply HQ; [repeat constructor|auto].
Qed.

Lemma wp_set_status st g (Q : Z -> list event -> Prop) :
  (forall rc g', rc = 0 \/ rc = -1 -> Q rc g') -> wp (adv a) (kcs_set_status st) g Q.
Proof.
  intros HQ. unfold kcs_set_status. cbn [wp h_kwrite adv negb]. split; [split|]; intros; apply HQ; auto.
Qed.

Lemma wp_layout_read x g (Q : layout -> list event -> Prop) :
  (forall l g', layout_u32 l -> Q l g') -> wp (adv a) (layout_read x) g Q.
Proof.
  intros HQ. unfold layout_read. cbn [wp h_lread adv]. split; [reflexivity|].
  intros h Hz Hb. cbn [wp]. apply HQ.
  destruct (a_bmc x); unfold layout_u32, u32; cbn [ly_rx ly_tx ab_off ab_size];
    repeat split; apply fld32_range; try assumption; lia.
Qed.

Lemma wp_layout_write x l g (Q : unit -> list event -> Prop) :
  (forall g', Q tt g') -> wp (adv a) (layout_write x l) g Q.
Proof.
  intros HQ. unfold layout_write. destruct (a_bmc x); cbn [wp h_lwrite adv]; split; try reflexivity; apply HQ.
Qed.

(** ** Transmission *)
Lemma push_crc p v g (Q : pktbuf -> list event -> Prop) : 1 <= v <= 3 -> wf_pkt p -> pk_size p < 2 ^ 63 + 2 ^ 33 ->
  (forall p', wf_pkt p' -> pk_id p' = pk_id p -> pk_size p' = pk_size p ->
              pktbuf_size p' = pktbuf_size p \/ (v = 3 /\ pktbuf_size p' = pktbuf_size p + 4) -> Q p' g) ->
  wp (adv a) (pktbuf_protect (Some v) p) g Q.
Proof.
  intros Hv Hw Hs HQ. unfold pktbuf_protect. destruct ((v =? 1) || (v =? 2)) eqn:E; [cbn [wp]; apply HQ; auto|].
  replace (v =? 3) with true by lia.
  destruct (pktbuf_bytes_wf p Hw) as (bs & Hb & Hz). unfold pktbuf_bytes in Hb.
  eapply wp_deref_bind; [exact Hb|]. unfold pktbuf_push, pktbuf_push_len.
  change (zlen (be32 (crc32 bs))) with 4. destruct Hw as [W1 W2 W3 W4 W5 W6].
  rewrite w64_id by lia. destruct (pk_size p <? pk_end p + 4) eqn:El.
  { cbn [bind wp]. apply HQ; auto. constructor; assumption. }
  change (rd (be32 (crc32 bs)) 0 4) with (Some (be32 (crc32 bs))). cbn [deref bind].
  destruct (wr_some (pk_data p) (pk_end p) (be32 (crc32 bs))) as (d & Hd); [lia|change (zlen (be32 (crc32 bs))) with 4; lia|].
  rewrite Hd. cbn [deref bind wp]. pose proof (wr_zlen _ _ _ _ Hd) as Hz'.
  assert (wf_pkt (mkPkt (pk_id p) (pk_start p) (pk_end p + 4) (pk_size p) (pk_hdr p) d)) as Hw'.
  { constructor; cbn; lia. }
  apply HQ; try reflexivity; [exact Hw'|right]. split; [lia|]. rewrite (pktbuf_size_wf _ Hw'), pktbuf_size_wf by (constructor; assumption).
  cbn. lia.
Qed.

Lemma wp_astlpc_tx x p v g (Q : astlpc * pktbuf * Z * bool -> list event -> Prop) :
  a_proto x = Some v -> 1 <= v <= 3 -> goodbuf (a_tx x) -> wf_pkt p -> pk_size p < 2 ^ 63 + 2 ^ 33 ->
  (forall io, Forall io_ev io -> Q (x, p, - EMSGSIZE, false) (g ++ io)) ->
  (forall s p' rc io, Forall io_ev io -> holding s -> wf_pkt p' -> pk_id p' = pk_id p -> pk_size p' = pk_size p ->
              pktbuf_size p <= pktbuf_size p' -> rc = 0 \/ rc = - EIO ->
              Q (a_set_tx_st x s, p', rc, true) (g ++ io)) ->
  wp (adv a) (astlpc_tx x p) g Q.
Proof.
  intros Ep Hv (G1 & G2 & G3) Hw Hs HQ1 HQ2. unfold astlpc_tx. rewrite Ep.
  pose proof (extra_range v) as Ex.
  rewrite body_size_ok by lia. cbn [bind]. destruct (ab_size (a_tx x) - extra v <? w32 (pktbuf_size p)) eqn:El.
  { cbn [wp]. specialize (HQ1 []). rewrite app_nil_r in HQ1. apply HQ1. constructor. }
  cbn [wp h_lwrite adv]. split; [apply inwin; change (zlen (be32 (w32 (pktbuf_size p)))) with 4; lia|].
  apply wp_bind; [apply adv_mono|]. apply push_crc; try assumption. intros p' Hw' Hid Hsz Hlen.
  pose proof (pktbuf_size_wf p' Hw') as Hps'. pose proof (pktbuf_size_wf p Hw) as Hps.
  pose proof (w32_range (pktbuf_size p)) as R0. pose proof (w32_range (pktbuf_size p')) as R1.
  assert (w32 (pktbuf_size p') <= w32 (pktbuf_size p) + (extra v - 4)) as Hle.
  { destruct Hlen as [->|[-> ->]]; [lia|]. change (extra 3) with 8. change (extra 3) with 8 in El.
    unfold w32. rewrite <- (Zplus_mod_idemp_l (pktbuf_size p)). apply Z.mod_le; unfold w32 in *; lia. }
  assert (w32 (pktbuf_size p') <= pktbuf_size p') as Hle2.
  { apply Z.mod_le; [rewrite Hps'; destruct Hw'; lia|lia]. }
  destruct (rd_some (pk_data p') (pk_hdr p') (w32 (pktbuf_size p'))) as (bs & Hb & Hz);
    [apply Hw'|lia|rewrite Hps' in Hle2 at 2; destruct Hw'; lia|].
  eapply wp_deref_bind; [exact Hb|]. cbn [wp h_lwrite adv].
  rewrite w32_id by lia. split; [apply inwin; lia|].
  apply wp_bind; [apply adv_mono|]. apply wp_kcs_send. intros rc io Hio Hrc. cbn [wp].
  rewrite <- !app_assoc.
  assert (Forall io_ev (([EvLWrite (ab_off (a_tx x)) (be32 (w32 (pktbuf_size p)))] ++
     [EvLWrite (ab_off (a_tx x) + 4) bs] ++ io))) as Hio'.
  { constructor; [exact I|]. constructor; [exact I|exact Hio]. }
  destruct Hrc as [-> | [-> | ->]].
  - change (0 =? 0) with true. change (0 =? - EBUSY) with false. cbv iota.
    apply (HQ2 Released p' 0); auto; [now right|lia].
  - change (- EBUSY =? 0) with false. change (- EBUSY =? - EBUSY) with true. cbv iota.
    apply (HQ2 Prepared p' 0); auto; [now left|lia].
  - change (- EIO =? 0) with false. change (- EIO =? - EBUSY) with false. cbv iota.
    apply (HQ2 Prepared p' (- EIO)); auto; [now left|lia].
Qed.

(** ** The walk *)
Definition J : binding astlpc -> binding astlpc -> option bus_state -> option bus_state -> list event -> Prop :=
  fun b0 _ s0 s1 _ => s1 = None /\ aok bmc b0 s0.
Notation Jw := (Jw J).

Lemma J_emit e (w : world) g (Q : list event -> Prop) : core_ev e -> Jw w g ->
  (forall g', Jw w g' -> id g' = id g ++ [e] -> Q g') -> h_emit (adv a) e g Q.
Proof. intros _ HJ HQ. apply HQ; [exact HJ|reflexivity]. Qed.
Lemma J_alloc (w : world) g (Q : bool -> list event -> Prop) : Jw w g ->
  (forall g', Jw w g' -> id g' = id g -> Q true g') -> h_alloc (adv a) g Q.
Proof. intros HJ HQ. split; [apply HQ; [exact HJ|reflexivity]|]. rewrite Ha. discriminate. Qed.

Lemma aok_tx_st b s x : aok bmc b s -> s = Some TxEnabled -> holding x ->
  aok bmc (set_priv b (a_set_tx_st (bd_priv b) x)) (Some TxDisabled).
Proof.
  intros [H1 H2 H3 H4 H5 H6 H7 H8 Hy H9] Hs Hx. constructor; cbn; try assumption.
  - destruct H6 as (v & E & R & _). exists v. split; [exact E|]. split; [exact R|discriminate].
  - intros _. destruct H7 as [G1 G2]; [auto|]. split; assumption.
  - intros E _. apply H8; auto.
  - discriminate.
Qed.

Lemma J_btx (w : world) i b p bytes g
  (Q : astlpc * pktbuf * Z * bool -> list event -> Prop) :
  WF Lax w -> Jw w g -> bget w i = Some b -> bus_st b = TxEnabled ->
  qwf Lax (bnd w i) p -> pktbuf_bytes p = Some bytes ->
  (forall b' p' rc (dis : bool) g' io,
     Jw (set_bus (set_bnd w i (set_priv (bnd w i) b')) i (if dis then disable_bus b else b)) g' ->
     id g' = id g ++ EvTxCall i (pk_id p) bytes :: io -> Forall io_ev io ->
     pk_id p' = pk_id p ->
     (final rc = false -> qwf Lax (bnd w i) p' /\ kept Lax p p') ->
     Q (b', p', rc, dis) g') ->
  h_emit (adv a) (EvTxCall i (pk_id p) bytes) g
         (fun g1 => wp (adv a) (astlpc_tx (bd_priv (bnd w i)) p) g1 Q).
Proof.
  intros Hw [HJ1 HJ2] Hb Hs (Q1 & Q2 & Q3 & _) Hby HQ. cbn [h_emit adv].
  destruct i; [unfold ost in HJ1; rewrite Hb in HJ1; discriminate|].
  assert (ost w false = Some TxEnabled) as Eo by (unfold ost; rewrite Hb; cbn; congruence).
  rewrite Eo in HJ2. cbn [bnd] in *. pose proof HJ2 as Hao.
  destruct (ao_ver _ _ _ HJ2) as (v & Ev & Hv & Hv0). specialize (Hv0 eq_refl).
  destruct (ao_lay _ _ _ HJ2) as [G1 G2]; [auto|].
  assert (forall x (dis : bool) g', aok bmc (set_priv (w_b0 w) x) (Some (if dis then TxDisabled else TxEnabled)) ->
     Jw (set_bus (set_bnd w false (set_priv (w_b0 w) x)) false (if dis then disable_bus b else b)) g') as HJn.
  { intros x dis g' Hx. unfold WalkCore.Jw, J. rewrite b0_set_bus.
    assert (bget (set_bnd w false (set_priv (w_b0 w) x)) false = Some b) as Hb' by exact Hb.
    unfold ost. rewrite !(bget_set_bus _ _ _ _ _ _ Hb'). cbn [eqb option_map]. split; [exact HJ1|].
    cbn [set_bnd w_b0]. destruct dis; [unfold disable_bus; rewrite Hs|rewrite Hs]; exact Hx. }
  eapply wp_astlpc_tx; [exact Ev|lia|exact G2|exact Q1|exact Q3| |].
  - intros io Hio. eapply (HQ _ p (- EMSGSIZE) false _ io); [|unfold id; rewrite <- app_assoc; reflexivity|exact Hio|reflexivity|].
    + apply (HJn _ false). destruct Hao; constructor; assumption.
    + discriminate.
  - intros s p' rc io Hio Hh Hw' Hid Hsz Hle Hrc.
    eapply (HQ _ p' rc true _ io); [|unfold id; rewrite <- app_assoc; reflexivity|exact Hio|exact Hid|].
    + apply (HJn _ true). exact (aok_tx_st _ _ s Hao eq_refl Hh).
    + intros _. split; [|exact I]. split; [exact Hw'|]. split; [lia|]. split; [lia|]. split; [exact I|discriminate].
Qed.

Definition Inv (w : world) : Prop :=
  WF Lax w /\ ost w true = None /\ aok bmc (w_b0 w) (ost w false).
Lemma Inv_J w g : Inv w -> Jw w g.
Proof. intros (_ & H). exact H. Qed.
Lemma J_Inv w g : WF Lax w -> Jw w g -> Inv w.
Proof. intros Hw H. split; assumption. Qed.

Lemma aok_weak b s s' : aok bmc b s -> (s' = Some TxEnabled -> s = Some TxEnabled) -> aok bmc b s'.
Proof.
  intros [H1 H2 H3 H4 H5 (v & E & R & N) H7 H8 Hy H9] Hs. constructor; try assumption.
  - exists v. auto.
  - intros [K|[K|K]]; auto.
  - intros E' [K|K]; auto.
  - intros Hh E'. apply (Hy Hh). auto.
Qed.

Lemma bget0 (w : world) : WF Lax w -> exists b, bget w false = Some b.
Proof. intros Hw. destruct (bget w false) eqn:E; [eauto|]. destruct (wf_b0 _ _ Hw E). Qed.

Lemma wp_set (w : world) (en : bool) g : WF Lax w -> ost w true = None ->
  aok bmc (w_b0 w) (if en then Some TxEnabled else None) ->
  wp (adv a) (set_tx_enabled astlpc_tx w false en) g (fun w' _ => Inv w' /\
     (en = false -> w_b0 w' = w_b0 w /\ ost w' false <> Some TxEnabled)).
Proof.
  intros Hw H1 Hao. destruct (bget0 w Hw) as (b & Hb).
  assert (forall s, (s = TxEnabled -> en = true) -> ost (set_bus w false (set_st b s)) true = None /\
             aok bmc (w_b0 (set_bus w false (set_st b s))) (ost (set_bus w false (set_st b s)) false)) as HS.
  { intros s Hs. rewrite b0_set_bus. unfold ost. rewrite !(bget_set_bus _ _ _ _ _ _ Hb). cbn [eqb option_map set_st bus_st].
    split; [exact H1|]. eapply aok_weak; [exact Hao|]. intros [= E]. now rewrite (Hs E). }
  destruct en.
  - assert (Jw w g) as HJ. { split; [exact H1|]. eapply aok_weak; [exact Hao|reflexivity]. }
    eapply wp_mono; [apply adv_mono| |
      eapply (wp_set_tx_enabled astlpc_tx (adv a) (adv_mono a) id Lax J J_emit J_btx); [exact Hw|exact HJ|exact Hb|intros; exact I|]].
    + intros w' g' (t & _ & Hr & HJ'). split; [|discriminate]. split; [eapply set_rel_WF; eassumption|exact HJ'].
    + intros g' s _ _ Hs _ _ _. apply HS. reflexivity.
  - unfold set_tx_enabled. cbn [wp h_emit adv]. rewrite (wf_bd _ _ Hw _ _ Hb). cbn [negb].
    eapply get_bus_bget; [exact Hb|].
    assert (bus_st b <> TxEnabled -> Inv w /\ (false = false -> w_b0 w = w_b0 w /\ ost w false <> Some TxEnabled)) as Hsame.
    { intros Hn. split; [|intros _; split; [reflexivity|unfold ost; rewrite Hb; cbn; congruence]].
      split; [exact Hw|]. split; [exact H1|]. eapply aok_weak; [exact Hao|].
      unfold ost. rewrite Hb. cbn. congruence. }
    destruct (bus_st b) eqn:Eb; cbn [negb wp]; try (apply Hsame; congruence).
    split; [|intros _; rewrite b0_set_bus; split; [reflexivity|]; unfold ost;
             rewrite (bget_set_bus _ _ _ _ _ _ Hb); discriminate].
    split; [|apply HS; discriminate].
    apply WF_set_st; [exact Hw|exact Hb|right]. split; [|exact I]. apply (wf_size _ _ Hw _ _ Hb). congruence.
Qed.

Lemma wp_set1 (w : world) (en : bool) g : WF Lax w -> ost w true = None ->
  aok bmc (w_b0 w) (if en then Some TxEnabled else None) ->
  wp (adv a) (set_tx_enabled astlpc_tx w false en) g (fun w' _ => Inv w').
Proof.
  intros Hw H1 Hao. eapply wp_mono; [apply adv_mono| |apply wp_set; eassumption].
  intros w' g' [K _]. exact K.
Qed.

(** ** Changes of the binding's state *)
Definition putb (w : world) (x : astlpc) (n : Z) : world :=
  set_bnd w false (set_pkt_size (set_priv (bnd w false) x) n).
Lemma putb_putb w x n y m : putb (putb w x n) y m = putb w y m.
Proof. reflexivity. Qed.
Lemma put_putb w x n y : put_ast (putb w x n) false y = putb w y n.
Proof. reflexivity. Qed.
Lemma put_as_putb (w : world) y : put_ast w false y = putb w y (bd_pkt_size (bnd w false)).
Proof. destruct w as [m [] b1]; reflexivity. Qed.
Lemma WF_putb (w : world) x n : WF Lax w -> 68 <= n < 2 ^ 33 -> WF Lax (putb w x n).
Proof.
  intros Hw Hn. unfold putb. apply WF_bnd; try reflexivity; try exact Hw; [|right; split; [cbn; lia|exact I]].
  destruct (wf_dims _ _ Hw false) as (D1 & D2 & D3). split; [cbn; lia|]. split; assumption.
Qed.
Lemma ost_putb (w : world) x n i : ost (putb w x n) i = ost w i.
Proof. unfold ost, putb. now rewrite bget_set_bnd. Qed.

(** ** Negotiation on the BMC *)
Lemma w32_nonneg_le x : 0 <= x -> 0 <= w32 x <= x.
Proof. intros H. split; [apply w32_range|]. apply Z.mod_le; lia. Qed.

Lemma wp_neg_bmc (w : world) g (Q : world * Z -> list event -> Prop) v :
  let x := bd_priv (w_b0 w) in
  a_bmc x = true -> usable_mtu (a_mtu x) -> bmclay (a_layout x) -> 68 <= bd_pkt_size (w_b0 w) < 2 ^ 33 ->
  a_proto x = Some v -> 0 <= v <= 3 ->
  (forall g', Q (w, - EINVAL) g') ->
  (forall lay n g', v <> 0 -> bmclay lay -> 68 <= n < 2 ^ 33 ->
      ab_st (ly_tx lay) = ab_st (a_tx x) -> ab_st (ly_rx lay) = ab_st (a_rx x) ->
      Q (putb w (a_set_layout x lay) n, 0) g') ->
  wp (adv a) (negotiate_layout_bmc w false) g Q.
Proof.
  intros x Hb Hm (S & L1 & L2 & L3 & L4 & L5) Hp Ev Hv HQ1 HQ2. unfold negotiate_layout_bmc, ast. cbn [bnd]. fold x.
  eapply wp_deref_bind; [exact Ev|]. destruct (v =? 0) eqn:E0; [cbn [wp]; apply HQ1|].
  assert (1 <= v <= 3) as Hv1 by lia.
  apply wp_bind; [apply adv_mono|]. apply wp_layout_read. intros l g1 Hl. rewrite Ev.
  destruct (C32_validate v l Hv1 Hl) as (r & -> & Hr). cbn [bind].
  destruct r; cbn [negb]; [|cbn [wp]; apply HQ1].
  destruct Hr as [Hr _]. specialize (Hr eq_refl). destruct Hr as (_ & (F1 & F2 & F3) & _).
  pose proof (extra_range v) as Ex.
  unfold calculate_mtu. unfold a_rx, a_tx in *. rewrite L2, L3, Ev.
  replace (Z.max (256 + S) 256 - Z.min (256 + S) 256) with S by lia.
  assert (exists lim, (if a_mtu x =? 0 then Ret S
      else rpkt <- packet_size (Some v) (w32 (MCTP_PACKET_SIZE (a_mtu x))) ;; Ret (Z.min S rpkt)) = Ret lim
      /\ 68 + extra v <= lim <= S) as (lim & -> & Hlim).
  { destruct Hm as [-> | Hm]; [exists S; split; [reflexivity|lia]|].
    replace (a_mtu x =? 0) with false by lia. unfold MCTP_PACKET_SIZE. rewrite w32_id by lia.
    rewrite packet_size_ok by lia. cbn [bind]. eexists. split; [reflexivity|lia]. }
  cbn [bind]. rewrite body_size_ok by lia. cbn [bind].
  unfold MCTP_BODY_SIZE. set (mtu := Z.min lim (ab_size (ly_tx l)) - extra v - 4).
  assert (64 <= mtu /\ mtu + 4 + extra v <= S) as [M1 M2] by (unfold mtu; lia).
  rewrite w64_id by lia. rewrite (w32_id mtu) by lia. unfold MCTP_PACKET_SIZE. rewrite (w32_id (mtu + 4)) by lia.
  rewrite packet_size_ok by lia. cbn [bind].
  match goal with |- context [layout_validate (Some v) ?l] => set (pend := l) end.
  destruct (C32_validate v pend Hv1) as (r2 & -> & Hr2).
  { unfold layout_u32, u32, pend. cbn [ly_rx ly_tx ab_off ab_size ab_set_size]. rewrite L2, L3. lia. }
  cbn [bind]. destruct r2; cbn [negb]; [|cbn [wp]; apply HQ1].
  apply wp_bind; [apply adv_mono|]. apply wp_layout_write. intros g2. cbn [wp].
  assert (bmclay pend) as Hpend.
  { exists S. unfold pend. cbn [ly_rx ly_tx ab_off ab_size ab_set_size]. lia. }
  destruct (2 <=? v).
  - apply (HQ2 pend (mtu + 4)); try reflexivity; try assumption; lia.
  - rewrite put_as_putb. apply (HQ2 pend); try reflexivity; try assumption; lia.
Qed.

Lemma wp_init_channel (w : world) g : bmc = true -> Inv w ->
  wp (adv a) (init_channel w false) g (fun w' _ => Inv w').
Proof.
  intros Ebmc (Hw & H1 & Hao). unfold init_channel. cbn [wp h_lread adv]. split; [reflexivity|].
  intros h Hz Hby. pose proof (fld16_range h OFF_host_ver_min Hz Hby ltac:(unfold OFF_host_ver_min; lia)) as R1.
  pose proof (fld16_range h OFF_host_ver_cur Hz Hby ltac:(unfold OFF_host_ver_cur; lia)) as R2.
  destruct (C31_index _ _ R1 R2) as [_ Rn].
  set (neg := negotiate_version ASTLPC_VER_MIN ASTLPC_VER_CUR _ _) in *.
  apply wp_assert_bind; [lia|].
  destruct Hao as [K1 K2 K3 K4 K5 K6 K7 K8 Ky K9]. destruct (K9 Ebmc) as [Hus Hlay].
  unfold ast. cbn [bnd]. set (x0 := bd_priv (w_b0 w)) in *.
  set (w1 := put_ast w false (a_set_proto x0 neg)).
  eapply wp_call with (P := fun r _ => exists lay n, fst r = putb w (a_set_layout (a_set_proto x0 neg) lay) n /\
     bmclay lay /\ 68 <= n < 2 ^ 33 /\ (neg = 0 -> snd r < 0)); [apply adv_mono| |].
  - apply (wp_neg_bmc w1 _ _ neg); try assumption; try reflexivity.
    + exact (eq_trans K4 Ebmc).
    + intros g'. exists (a_layout x0), (bd_pkt_size (w_b0 w)). cbn [fst snd].
      split; [subst w1 x0; destruct w as [m [? ? ? ? ? ? ? []] b1]; reflexivity|].
      split; [exact Hlay|]. split; [exact K3|reflexivity].
    + intros lay n g' N L B _ _. exists lay, n. cbn [fst snd]. split; [reflexivity|].
      split; [exact L|]. split; [exact B|]. intros; contradiction.
  - intros [w2 rc] g1 (lay & n & Ew & Hl & Hn & Hneg). cbn [fst snd] in *. subst w2.
    cbn [wp h_lwrite adv]. split; [reflexivity|].
    set (neg' := if rc <? 0 then ASTLPC_VER_BAD else neg).
    rewrite put_putb. apply wp_bind; [apply adv_mono|]. apply wp_set_status. intros rc' g2 _.
    change (ast (putb w (a_set_layout (a_set_proto x0 neg) lay) n) false)
      with (a_set_layout (a_set_proto x0 neg) lay).
    set (x3 := a_set_rx_st _ Released).
    set (st := if 0 <? neg' then _ else _).
    assert (tst st ST_ACTIVE = (0 <? neg')) as -> by (unfold st; destruct (0 <? neg'); reflexivity).
    apply wp_set1; [now apply WF_putb|rewrite ost_putb; exact H1|].
    assert (forall s, (s = Some TxEnabled -> neg <> 0) -> aok bmc (w_b0 (putb w x3 n)) s) as Hok.
    { intros s Hs. constructor; try assumption.
      - exists neg. auto.
      - intros _. apply bmc_goodlay. exact Hl.
      - congruence.
      - intros [N|N]; discriminate.
      - intros _. split; [exact Hus|exact Hl]. }
    apply Hok. destruct (0 <? neg') eqn:E; [|discriminate]. intros _ ->. unfold neg' in E. destruct (rc <? 0); discriminate.
Qed.

(** ** Reception *)
Lemma aok_rx_st b s x n : aok bmc b s -> ab_st (a_rx (bd_priv b)) <> Idle -> 68 <= n < 2 ^ 33 ->
  aok bmc (set_pkt_size (set_priv b (a_set_rx_st (bd_priv b) x)) n) s.
Proof.
  intros [H1 H2 H3 H4 H5 H6 H7 H8 Hy H9] Hs Hn. constructor; try assumption.
  intros _. destruct H7 as [G1 G2]; [auto|]. split; assumption.
Qed.

Lemma list_eqb_eq : forall x y, list_eqb x y = true <-> x = y.
Proof.
  induction x as [|c x IH]; destruct y as [|d y]; cbn; split; try congruence.
  - intros E. apply andb_prop in E. destruct E as [E1 E2]. apply IH in E2. subst. f_equal. lia.
  - intros [= -> ->]. rewrite Z.eqb_refl. apply IH. reflexivity.
Qed.

Lemma steps_busrx st (w : world) t w' : steps st w t w' -> Forall not_busrx t.
Proof.
  assert (forall io, Forall io_ev io -> Forall not_busrx io) as Hio.
  { intros io H. eapply Forall_impl; [|exact H]. intros [] He; cbn in He; try contradiction; exact I. }
  assert (forall w out by_, Forall not_busrx (capev (B := astlpc) w out by_)) as Hcap.
  { intros w0 o b. unfold capev. destruct (m_cap (w_m w0)); repeat constructor. }
  induction 1 as [|w e t w' Hn _ IH|i w bs t1 w1 t2 w2 He _ IH|i w rc t1 w1 t2 w2 Ht _ IH]; auto.
  - constructor; [destruct e; cbn in Hn; try contradiction; exact I|exact IH].
  - apply Forall_app. split; [|exact IH]. destruct He. repeat constructor.
  - apply Forall_app. split; [|exact IH]. destruct Ht. apply Forall_app. split; [apply Hcap|].
    constructor; [exact I|]. apply Forall_app. split; [now apply Hio|].
    apply Forall_app. split; [destruct dis; repeat constructor|].
    constructor; [exact I|]. destruct (final rc); repeat constructor.
Qed.

Lemma wp_rx_start (w : world) v g : Inv w -> a_proto (ast w false) = Some v -> v <> 0 ->
  ab_st (a_rx (ast w false)) = Released ->
  wp (adv a) (rx_start app w false) g (fun w' g' => Inv w' /\
    exists t, g' = g ++ t /\
      rx_trace v (ab_off (a_rx (ast w false))) (ab_size (a_rx (ast w false))) (bd_pkt_size (w_b0 w)) t).
Proof.
  intros HI Ev Hv0 Hst. pose proof HI as (Hw & H1 & Hao). pose proof Hao as [K1 K2 K3 K4 K5 K6 K7 K8 Ky K9].
  unfold ast in *. cbn [bnd] in *. set (x := bd_priv (w_b0 w)) in *.
  destruct K6 as (v' & E' & Rv & _). rewrite Ev in E'. injection E' as <-.
  destruct K7 as [(G1 & G2 & G3) _]; [right; left; rewrite Hst; discriminate|].
  fold x in G1, G2, G3. fold (a_rx x) in *.
  assert (1 <= v <= 3) as Hv by lia. pose proof (extra_range v) as Ex.
  unfold rx_start, ast. cbn [bnd]. fold x. cbn [wp h_lread adv]. split; [apply inwin; lia|].
  intros lb Hz Hby. pose proof (unbe32_range lb Hz Hby) as Hbr.
  pose proof (RxTooLong v (ab_off (a_rx x)) (ab_size (a_rx x)) (bd_pkt_size (w_b0 w)) lb Hz) as Tlong.
  pose proof (RxDropped v (ab_off (a_rx x)) (ab_size (a_rx x)) (bd_pkt_size (w_b0 w)) lb) as Tdrop.
  pose proof (RxHanded v (ab_off (a_rx x)) (ab_size (a_rx x)) (bd_pkt_size (w_b0 w)) lb) as Thand.
  set (body := unbe32 lb) in *.
  rewrite Ev. rewrite body_size_ok by lia. cbn [bind].
  destruct (ab_size (a_rx x) - extra v <? body) eqn:E1.
  { cbn [wp]. split; [exact HI|]. eexists. split; [reflexivity|]. apply Tlong. lia. }
  destruct (bd_pkt_size (w_b0 w) <? body) eqn:E2.
  { cbn [wp]. split; [exact HI|]. eexists. split; [reflexivity|]. apply Tlong. lia. }
  rewrite packet_size_ok by lia. cbn [bind].
  rewrite (w32_id (body + extra v - 4)) by lia. set (packet := body + extra v - 4) in *.
  unfold pktbuf_alloc. rewrite K1, K2. rewrite w64_id by lia.
  replace (bd_pkt_size (w_b0 w) + 4 + 4 <? packet) with false by lia. cbn [bind wp h_alloc adv].
  split; [|rewrite Ha; discriminate]. cbn [bind wp h_emit h_lread adv].
  rewrite (w32_id (ab_off (a_rx x) + 4)) by lia. split; [apply inwin; lia|].
  intros bs Hzb Hbb. unfold pktbuf_mk. rewrite !w64_id by lia.
  set (sz := bd_pkt_size (w_b0 w) + 4 + 4). cbn [pk_hdr]. unfold pktbuf_store.
  destruct (wr_some (repeat poison (Z.to_nat sz)) 4 bs) as (d & Hd); [lia|rewrite zlen_repeat; lia|].
  cbn [pk_data pk_id pk_start pk_end pk_size pk_hdr]. rewrite Hd. cbn [deref bind].
  pose proof (wr_zlen _ _ _ _ Hd) as Hzd. rewrite zlen_repeat in Hzd.
  pose proof (rd_wr_same _ _ _ _ Hd) as Hrs. rewrite Hzb in Hrs.
  set (nid := m_next (w_m w)).
  set (pkt := mkPkt nid 4 (4 + packet) sz 4 d).
  assert (wf_pkt pkt) as Hpk by (constructor; cbn [pkt pk_hdr pk_start pk_end pk_size pk_data]; lia).
  apply wp_bind; [apply adv_mono|]. apply wp_kcs_send. intros rc io Hio _.
  set (w' := set_m w (set_next (w_m w) (nid + 1))).
  match goal with |- context [put_ast w' false ?y] => set (x2 := y) end.
  assert (exists s, x2 = a_set_rx_st x s) as (s & Ex2).
  { unfold x2. destruct (rc =? 0); eexists; reflexivity. }
  rewrite put_as_putb. change (bd_pkt_size (bnd w' false)) with (bd_pkt_size (w_b0 w)).
  set (w2 := putb w' x2 (bd_pkt_size (w_b0 w))).
  assert (Inv w2) as HI2.
  { split; [apply WF_putb; [now apply WF_next|exact K3]|]. unfold w2. rewrite !ost_putb. split; [exact H1|].
    rewrite Ex2. apply (aok_rx_st (w_b0 w)); [exact Hao|fold x; rewrite Hst; discriminate|exact K3]. }
  destruct (rd_some d 4 1) as (hb & Hhb & Hzh); [lia|lia|lia|].
  change (pk_data pkt) with d. change (pk_hdr pkt) with 4. eapply wp_deref_bind; [exact Hhb|].
  assert (nth 0 hb 0 = nth 0 bs poison) as Hnth.
  { destruct bs as [|b0 bs'].
    - change (zlen (@nil Z)) with 0 in *. apply wr_spec in Hd. destruct Hd as (xa & ya & za & Er & Hxa & Hya & ->).
      change (zlen (@nil Z)) with 0 in Hya. apply zlen_0_nil in Hya. subst ya. cbn [Datatypes.app] in Hhb, Er. rewrite <- Er in Hhb.
      apply rd_spec in Hhb. destruct Hhb as (xb & zb & Er2 & Hxb & _).
      destruct hb as [|h0 [|]]; unfold zlen in Hzh; cbn in Hzh; try lia. cbn.
      apply (repeat_spec (Z.to_nat sz)). rewrite Er2. apply in_or_app. right. now left.
    - rewrite zlen_cons in Hzb. pose proof (zlen_pos _ bs'). replace packet with (1 + (packet - 1)) in Hrs by lia.
      apply rd_split in Hrs; [|lia|lia]. destruct Hrs as [Hrs _]. rewrite Hhb in Hrs. injection Hrs as ->. reflexivity. }
  rewrite Hnth. rewrite <- !app_assoc. cbn [Datatypes.app].
  destruct (nth 0 bs poison =? 1) eqn:Ev1; cbn [negb].
  2:{ unfold pktbuf_free. cbn [bind wp h_emit adv]. split; [exact HI2|].
      eexists. split; [rewrite <- !app_assoc; reflexivity|]. cbn [Datatypes.app].
      rewrite <- ?app_assoc. apply Tdrop; try assumption; try lia.
      intros [N _]. lia. }
  assert (a_proto x2 = Some v) as -> by (rewrite Ex2; exact Ev).
  pose proof (pktbuf_size_wf pkt Hpk) as Hps. change (pk_end pkt - pk_start pkt) with (4 + packet - 4) in Hps.
  assert (forall p' (ok : bool) gi, Forall io_ev gi -> wf_pkt p' -> pk_id p' = nid ->
      pktbuf_bytes p' = Some (firstn (Z.to_nat body) bs) ->
      (ok = true <-> (v = 3 -> skipn (Z.to_nat body) bs = be32 (crc32 (firstn (Z.to_nat body) bs)))) ->
      wp (adv a)
      (if ok then bus_rx astlpc_tx app w2 false p' else _ <- pktbuf_free p' ;; Ret w2)
      (g ++ EvLRead (ab_off (a_rx x)) lb :: EvAlloc nid :: EvLRead (ab_off (a_rx x) + 4) bs :: gi)
      (fun w' g' => Inv w' /\ exists t, g' = g ++ t /\
         rx_trace v (ab_off (a_rx x)) (ab_size (a_rx x)) (bd_pkt_size (w_b0 w)) t)) as Hfin.
  { intros p' ok gi Hgi Hp' Hid Hby' Hok. destruct ok.
    2:{ unfold pktbuf_free; cbn [bind wp h_emit adv]. split; [exact HI2|].
        eexists. split; [rewrite <- app_assoc; reflexivity|]. cbn [Datatypes.app]. rewrite Hid.
        apply Tdrop; try assumption; try lia. intros [_ N]. apply Hok in N. discriminate. }
    destruct (bget0 w2 (proj1 HI2)) as (b2 & Hb2).
    eapply wp_mono; [apply adv_mono| |
      eapply (wp_bus_rx astlpc_tx app (adv a) (adv_mono a) id Lax J J_emit J_alloc J_btx);
        [exact (proj1 HI2)|exact Hb2|exact Hp'|exact Hby'|
         intros lo Q HQ; apply HQ; [apply Inv_J; exact HI2|reflexivity]]].
    intros w4 g4 (t & Ht & Hr & HJ).
    split; [split; [eapply rx_rel_WF; [exact (proj1 HI2)|exact Hr]|exact HJ]|].
    destruct (rx_rel_steps _ _ _ _ _ _ Hr) as (cs & b & t1 & Hs & _ & Et).
    unfold id in Ht. eexists. split; [rewrite Ht, <- app_assoc; reflexivity|].
    cbn [Datatypes.app]. rewrite Et, Hid. apply Thand; try assumption; try lia.
    - split; [lia|]. apply Hok. reflexivity.
    - eapply steps_busrx. exact Hs. }
  unfold pktbuf_validate. destruct ((v =? 1) || (v =? 2)) eqn:Ev12.
  { cbn [bind]. apply (Hfin pkt true io); [exact Hio|exact Hpk|reflexivity| |split; [lia|reflexivity]].
    unfold pktbuf_bytes. rewrite Hps. change (pk_data pkt) with d. change (pk_hdr pkt) with 4.
    assert (packet = body) as Epb by (unfold packet, extra; replace (v =? 3) with false by lia; lia).
    replace (4 + packet - 4) with packet by lia. rewrite Hrs. rewrite firstn_all2; [reflexivity|].
    unfold zlen in Hzb. lia. }
  assert (v = 3) as Ev3 by lia. replace (v =? 3) with true by lia.
  assert (packet = body + 4) as Hpb by (unfold packet; rewrite Ev3; change (extra 3) with 8; lia).
  rewrite Hps. replace (4 + packet - 4) with packet by lia. rewrite w64_id by lia.
  rewrite Hpb in Hrs. apply rd_split in Hrs; [|lia|lia]. destruct Hrs as [Hcb Hck].
  replace (packet - 4) with body by lia.
  change (pk_data pkt) with d. change (pk_hdr pkt) with 4. rewrite Hcb. cbn [deref bind].
  unfold pktbuf_pop. rewrite Hps. replace (4 + packet - 4 <? 4) with false by lia.
  change (pk_end pkt) with (4 + packet). rewrite w64_id by lia.
  cbn [pk_data]. change (pk_data pkt) with d. replace (4 + packet - 4) with (4 + body) by lia.
  rewrite Hck. cbn [deref bind].
  apply (Hfin _ _ io); [exact Hio| |reflexivity| |].
  - constructor; cbn [pkt pk_hdr pk_start pk_end pk_size pk_data]; lia.
  - assert (wf_pkt (mkPkt nid 4 (4 + body) sz 4 d)) as Hwf by (constructor; cbn [pk_hdr pk_start pk_end pk_size pk_data]; lia).
    cbn [pk_start pk_end pk_id pk_size pk_hdr pk_data pkt].
    unfold pktbuf_bytes. rewrite (pktbuf_size_wf _ Hwf). cbn [pk_hdr pk_start pk_end pk_size pk_data].
    replace (4 + body - 4) with body by lia. exact Hcb.
  - rewrite list_eqb_eq. split; intros E; [intros _; congruence|]. symmetry. auto.
Qed.

Lemma wp_tx_complete (w : world) v g : Inv w -> a_proto (ast w false) = Some v -> v <> 0 ->
  ab_st (a_tx (ast w false)) = Released ->
  wp (adv a) (tx_complete w false) g (fun w' _ => Inv w').
Proof.
  intros (Hw & H1 & [K1 K2 K3 K4 K5 K6 K7 K8 Ky K9]) Ev Hv0 Hst. unfold tx_complete, ast in *. cbn [bnd] in *.
  rewrite put_as_putb. cbn [bnd]. apply wp_set1; [now apply WF_putb|rewrite ost_putb; exact H1|].
  assert (goodlay (a_layout (bd_priv (w_b0 w)))) as [G1 G2] by (apply K7; left; rewrite Hst; discriminate).
  destruct K6 as (v' & E' & R & _). rewrite Ev in E'. injection E' as <-.
  constructor; try assumption.
  - exists v. auto.
  - intros _. split; assumption.
  - intros E _. apply K8; [exact E|right; right; exact Hst].
  - intros [N|N]; discriminate.
Qed.

(** ** The host *)
Lemma wp_init_host x g : a_bmc x = false -> 0 <= a_mtu x <= 2 ^ 32 - 13 ->
  wp (adv a) (init_host x) g (fun r _ => exists k,
     (snd r < 0 /\ fst r = a_set_kcs x k) \/
     (exists v, 0 <= v <= 3 /\ fst r = a_set_proto (a_set_kcs x k) v)).
Proof.
  intros Hb Hm. unfold init_host. cbn [wp h_kread adv]. split.
  2:{ intros _. cbn [wp fst snd]. exists (a_kcs x). left. split; [lia|]. destruct x; reflexivity. }
  intros st _ _. destruct (negb (tst st ST_BMC_READY)).
  { cbn [wp fst snd]. exists st. left. split; [unfold EHOSTDOWN; lia|reflexivity]. }
  cbn [wp h_lread adv]. split; [reflexivity|]. intros h Hz Hby.
  pose proof (fld16_range h OFF_bmc_ver_min Hz Hby ltac:(unfold OFF_bmc_ver_min; lia)) as R1.
  pose proof (fld16_range h OFF_bmc_ver_cur Hz Hby ltac:(unfold OFF_bmc_ver_cur; lia)) as R2.
  destruct (C31_index _ _ R1 R2) as [Rn _].
  set (neg := negotiate_version _ _ ASTLPC_VER_MIN ASTLPC_VER_CUR) in *.
  destruct (neg =? 0) eqn:E0.
  { cbn [wp fst snd]. exists st. left. split; [unfold EINVAL; lia|reflexivity]. }
  apply wp_assert_bind; [lia|].
  set (x2 := a_set_proto (a_set_kcs x st) neg).
  assert (forall rc g', wp (adv a) (if rc <? 0 then Ret (x2, rc)
     else LWrite OFF_host_ver_min (be16 ASTLPC_VER_MIN)
            (LWrite OFF_host_ver_cur (be16 ASTLPC_VER_CUR)
            (KWrite KData cmd_initialise (fun ok =>
               Ret (a_set_proto x2 ASTLPC_VER_BAD, if ok then 0 else -1))))) g'
     (fun r _ => exists k, (snd r < 0 /\ fst r = a_set_kcs x k) \/
        (exists v, 0 <= v <= 3 /\ fst r = a_set_proto (a_set_kcs x k) v))) as Hfin.
  { intros rc g'. destruct (rc <? 0); cbn [wp h_lwrite h_kwrite adv fst snd].
    - exists st. right. exists neg. split; [exact Rn|reflexivity].
    - split; [reflexivity|]. split; [reflexivity|]. split; intros; exists st; right; exists 0; (split; [lia|reflexivity]). }
  destruct (2 <=? neg) eqn:E2; [|apply (Hfin 0)].
  apply wp_bind; [apply adv_mono|]. unfold negotiate_layout_host.
  apply wp_bind; [apply adv_mono|]. apply wp_layout_read. intros l g1 Hl.
  change (a_proto x2) with (Some neg). change (a_mtu x2) with (a_mtu x).
  assert (1 <= neg <= 3) as Hn1 by lia. pose proof (extra_range neg) as Ex.
  destruct (C32_validate neg l Hn1 Hl) as (r & -> & _). cbn [bind].
  destruct r; cbn [negb]; [|cbn [wp]; apply Hfin].
  unfold MCTP_PACKET_SIZE. rewrite w32_id by lia. rewrite packet_size_ok by lia. cbn [bind].
  match goal with |- context [layout_validate (Some neg) ?l'] => set (l2 := l') end.
  destruct (C32_validate neg l2 Hn1) as (r2 & -> & _).
  { destruct Hl as (U1 & U2 & U3 & U4). unfold layout_u32, u32, l2 in *. cbn [ly_rx ly_tx ab_set_size ab_off ab_size]. lia. }
  cbn [bind]. destruct r2; cbn [negb]; [|cbn [wp]; apply Hfin].
  apply wp_bind; [apply adv_mono|]. apply wp_layout_write. intros g2. cbn [wp]. apply Hfin.
Qed.

Lemma wp_finalise (w : world) g v0 : 68 <= bd_pkt_size (w_b0 w) < 2 ^ 33 ->
  a_proto (bd_priv (w_b0 w)) = Some v0 ->
  wp (adv a) (finalise_channel w false) g (fun r _ =>
     (snd r < 0 /\ exists v, (v = v0 \/ 1 <= v <= 3) /\ 
        fst r = putb w (a_set_proto (bd_priv (w_b0 w)) v) (bd_pkt_size (w_b0 w))) \/
     (snd r = 0 /\ exists v lay n, 1 <= v <= 3 /\ goodlay lay /\ 68 <= n < 2 ^ 33 /\
        ab_st (ly_tx lay) = Acquired /\
        fst r = putb w (a_set_layout (a_set_proto (bd_priv (w_b0 w)) v) lay) n)).
Proof.
  intros Hp E0. unfold finalise_channel, ast. cbn [bnd wp h_lread adv]. split; [reflexivity|].
  intros nb Hz Hby. set (neg := unbe16 nb).
  destruct ((neg =? ASTLPC_VER_BAD) || (neg <? ASTLPC_VER_MIN) || (ASTLPC_VER_CUR <? neg)) eqn:En.
  { cbn [wp fst snd]. left. split; [unfold EINVAL; lia|]. exists v0. split; [auto|].
    destruct w as [m [? ? ? ? ? ? ? [? ? ? ? ?]] b1]. cbn in E0. rewrite E0. reflexivity. }
  unfold ASTLPC_VER_BAD, ASTLPC_VER_MIN, ASTLPC_VER_CUR in En.
  assert (1 <= neg <= 3) as Hn1 by lia. pose proof (extra_range neg) as Ex.
  apply wp_assert_bind; [lia|].
  apply wp_bind; [apply adv_mono|]. apply wp_layout_read. intros l g1 Hl.
  set (x := bd_priv (w_b0 w)). change (a_proto (a_set_proto x neg)) with (Some neg).
  destruct (C32_validate neg l Hn1 Hl) as (r & -> & Hr). cbn [bind].
  destruct r; cbn [negb].
  2:{ cbn [wp fst snd]. left. split; [unfold EINVAL; lia|]. exists neg. split; [auto|].
      rewrite put_as_putb. reflexivity. }
  destruct Hr as [Hr _]. specialize (Hr eq_refl). pose proof (valid_goodlay _ _ Hr) as (G1 & G2 & G3 & G4).
  destruct Hr as (_ & (F1 & F2 & F3) & _).
  set (l' := mkLayout (ab_set_st (ly_rx l) Released) (ab_set_st (ly_tx l) Acquired)).
  assert (goodlay l') as Gl. { split; [exact G1|exact (conj G2 (conj G3 G4))]. }
  rewrite put_as_putb. cbn [bnd].
  destruct (2 <=? neg) eqn:E2.
  - rewrite body_size_ok by lia. cbn [bind wp fst snd]. right. split; [reflexivity|].
    exists neg, l', (ab_size (ly_tx l) - extra neg). split; [exact Hn1|]. split; [exact Gl|]. split; [lia|].
    split; reflexivity.
  - cbn [bind wp fst snd]. right. split; [reflexivity|].
    exists neg, l', (bd_pkt_size (w_b0 w)). split; [exact Hn1|]. split; [exact Gl|]. split; [exact Hp|].
    split; reflexivity.
Qed.

Lemma Inv_kcs (w : world) st : Inv w -> bmc = false ->
  tst st ST_BMC_READY = true \/ (ost w false <> Some TxEnabled /\ ~ holding (ab_st (a_tx (ast w false)))) ->
  Inv (put_ast w false (a_set_kcs (ast w false) st)).
Proof.
  intros (Hw & H1 & [K1 K2 K3 K4 K5 K6 K7 K8 Ky K9]) Eb Hc. rewrite put_as_putb.
  split; [now apply WF_putb|]. rewrite !ost_putb. split; [exact H1|].
  constructor; try assumption.
  - intros _ Hh. destruct Hc as [Hc|[C1 C2]]; [exact Hc|]. exfalso. destruct Hh as [Hh|Hh]; auto.
Qed.

Lemma wp_update (w : world) st g : bmc = false -> Inv w -> kval_ok a KStatus st = true ->
  wp (adv a) (update_channel w false st) g (fun r _ => Inv (fst r)).
Proof.
  intros Eb HI Hkv. pose proof HI as (Hw & H1 & Hao). pose proof Hao as [K1 K2 K3 K4 K5 K6 K7 K8 Ky K9].
  destruct (Hk Eb st) as [_ Hact]. specialize (Hact Hkv).
  unfold update_channel, ast. cbn [bnd]. set (x := bd_priv (w_b0 w)) in *.
  apply wp_assert_bind; [rewrite K4, Eb; reflexivity|].
  rewrite tst_xor_ready, tst_xor_active.
  destruct (xorb (tst (a_kcs x) ST_BMC_READY) (tst st ST_BMC_READY)) eqn:Eu; cbn [andb].
  - destruct (tst st ST_BMC_READY) eqn:Er.
    + (* bmc-ready rises *)
      assert (tst (a_kcs x) ST_BMC_READY = false) as Ek by (destruct (tst (a_kcs x) ST_BMC_READY); [discriminate|reflexivity]).
      assert (ost w false <> Some TxEnabled /\ ~ holding (ab_st (a_tx x))) as [N1 N2].
      { split; intros N; (assert (tst (a_kcs x) ST_BMC_READY = true) by (apply K8; auto)); congruence. }
      unfold astlpc_start. change (a_bmc (a_set_kcs x st)) with (a_bmc x). rewrite K4, Eb.
      apply wp_bind; [apply adv_mono|]. apply wp_bind; [apply adv_mono|].
      eapply wp_mono; [apply adv_mono| |apply (wp_init_host (a_set_kcs x st)); [exact (eq_trans K4 Eb)|exact K5]].
      intros [x' rc] g' (k & Hx). cbn [wp fst snd] in *. rewrite put_as_putb.
      assert (a_bmc x' = a_bmc x /\ a_mtu x' = a_mtu x /\ a_layout x' = a_layout x /\
              exists v, a_proto x' = Some v /\ 0 <= v <= 3) as (X1 & X2 & X3 & X4).
      { destruct Hx as [[_ ->]|(v & Hv & ->)]; repeat split.
        - destruct K6 as (v & E & R & _). exists v. auto.
        - exists v. auto. }
      split; [now apply WF_putb|]. rewrite !ost_putb. split; [exact H1|].
      constructor; cbn [putb set_bnd w_b0 bnd set_pkt_size set_priv bd_header bd_trailer bd_pkt_size bd_priv];
        unfold a_tx, a_rx; rewrite ?X1, ?X2, ?X3; try assumption.
      * destruct X4 as (v & E & R). exists v. split; [exact E|]. split; [exact R|]. intros; contradiction.
      * intros _ [N|N]; contradiction.
    + (* bmc-ready falls *)
      assert (Hnact : tst st ST_ACTIVE = false).
      { destruct (tst st ST_ACTIVE) eqn:E; [|reflexivity]. specialize (Hact eq_refl). congruence. }
      set (xi := a_set_rx_st (a_set_tx_st x Idle) Idle).
      rewrite put_as_putb. cbn [bnd].
      eapply wp_call; [apply adv_mono|apply wp_set with (en := false)|].
      { now apply WF_putb. } { rewrite ost_putb. exact H1. }
      { destruct K6 as (v & E & R & _). constructor; try assumption.
        - exists v. split; [exact E|]. split; [exact R|discriminate].
        - intros [N|[N|N]]; [now destruct N|now destruct N|discriminate].
        - intros _ [N|N]; [discriminate|]. destruct N as [N|N]; discriminate.
        - intros [N|N]; discriminate. }
      intros w1 g1 [HI1 Hoff]. destruct (Hoff eq_refl) as [Eb1 Eo1]. clear Hoff.
      pose proof HI1 as (Hw1 & H11 & Hao1).
      assert (bd_priv (w_b0 w1) = xi) as Ex1 by (rewrite Eb1; reflexivity).
      destruct (ao_ver _ _ _ Hao1) as (v & Ev & Rv & _).
      unfold ast. cbn [bnd]. eapply wp_deref_bind; [exact Ev|].
      destruct ((v =? 0) || xorb (tst (a_kcs x) ST_ACTIVE) (tst st ST_ACTIVE)) eqn:Efin.
      2:{ cbn [bind wp fst]. apply Inv_kcs; [exact HI1|exact Eb|right]. split; [exact Eo1|].
          unfold ast. cbn [bnd]. rewrite Ex1. intros [N|N]; discriminate. }
      set (xj := a_set_rx_st (a_set_tx_st (bd_priv (w_b0 w1)) Idle) Idle).
      rewrite (put_as_putb w1). cbn [bnd]. set (n1 := bd_pkt_size (w_b0 w1)).
      assert (68 <= n1 < 2 ^ 33) as Hn1 by exact (ao_psz _ _ _ Hao1).
      apply wp_bind; [apply adv_mono|].
      eapply wp_call; [apply adv_mono|apply (wp_finalise (putb w1 xj n1) g1 v); [exact Hn1|exact Ev]|].
      intros [w' rc] g' Hf. cbn [fst snd] in Hf. rewrite Hnact. cbn [andb].
      change (bd_pkt_size (w_b0 (putb w1 xj n1))) with n1 in Hf.
      change (bd_priv (w_b0 (putb w1 xj n1))) with xj in Hf.
      assert (WF Lax w' /\ ost w' true = None /\ aok bmc (w_b0 w') None /\
              ~ holding (ab_st (a_tx (bd_priv (w_b0 w'))))) as (A1 & A2 & A3 & A4).
      { destruct Hao1 as [B1 B2 B3 B4 B5 B6 B7 B8 By B9].
        destruct Hf as [[_ (v' & Hv' & ->)]|[_ (v' & lay & n & Hv' & Hl & Hn & Hs & ->)]]; rewrite putb_putb, ost_putb;
          (split; [now apply WF_putb|]; split; [exact H11|]; split; [constructor; try assumption|]).
        - exists v'. split; [reflexivity|]. split; [lia|discriminate].
        - intros [N|[N|N]]; [now destruct N|now destruct N|discriminate].
        - intros _ [N|[N|N]]; discriminate.
        - intros [N|N]; discriminate.
        - intros [N|N]; discriminate.
        - exists v'. split; [reflexivity|]. split; [lia|discriminate].
        - intros _. exact Hl.
        - intros _ [N|N]; [discriminate|]. unfold a_tx in N. cbn in N. rewrite Hs in N. destruct N; discriminate.
        - unfold a_tx. cbn. rewrite Hs. intros [N|N]; discriminate.
        - congruence.
        - unfold a_tx. cbn. rewrite Hs. intros [N|N]; discriminate. }
      eapply wp_call; [apply adv_mono|apply wp_set with (en := false); assumption|].
      intros w2 g2 [HI2 Hoff]. destruct (Hoff eq_refl) as [Eb2 Eo2]. cbn [wp fst].
      apply Inv_kcs; [exact HI2|exact Eb|right]. split; [exact Eo2|]. unfold ast. cbn [bnd]. rewrite Eb2. exact A4.
  - (* bmc-ready unchanged *)
    assert (tst (a_kcs x) ST_BMC_READY = tst st ST_BMC_READY) as Ek.
    { destruct (tst (a_kcs x) ST_BMC_READY), (tst st ST_BMC_READY); try reflexivity; discriminate. }
    cbn [bind]. destruct K6 as (v & Ev & Rv & Nv). eapply wp_deref_bind; [exact Ev|].
    destruct ((v =? 0) || xorb (tst (a_kcs x) ST_ACTIVE) (tst st ST_ACTIVE)) eqn:Efin.
    2:{ cbn [bind wp fst]. apply Inv_kcs; [exact HI|exact Eb|].
        destruct (tst st ST_BMC_READY) eqn:E; [now left|right]. unfold ast. cbn [bnd]. fold x.
        split; intros N; (assert (tst (a_kcs x) ST_BMC_READY = true) by (apply K8; auto)); congruence. }
    set (xj := a_set_rx_st (a_set_tx_st x Idle) Idle). rewrite put_as_putb. cbn [bnd].
    set (n1 := bd_pkt_size (w_b0 w)) in *.
    apply wp_bind; [apply adv_mono|].
    eapply wp_call; [apply adv_mono|apply (wp_finalise (putb w xj n1) _ v); [exact K3|exact Ev]|].
    intros [w' rc] g' Hf. cbn [fst snd] in Hf.
    change (bd_pkt_size (w_b0 (putb w xj n1))) with n1 in Hf.
    change (bd_priv (w_b0 (putb w xj n1))) with xj in Hf.
    assert (WF Lax w' /\ ost w' true = None /\
            aok bmc (w_b0 w') (if tst st ST_ACTIVE && (rc =? 0) then Some TxEnabled else None) /\
            ~ holding (ab_st (a_tx (bd_priv (w_b0 w'))))) as (A1 & A2 & A3 & A4).
    { destruct Hf as [[Hrc (v' & Hv' & ->)]|[Hrc (v' & lay & n & Hv' & Hl & Hn & Hs & ->)]]; rewrite putb_putb, ost_putb;
        (split; [now apply WF_putb|]; split; [exact H1|]).
      - replace (rc =? 0) with false by lia. rewrite andb_false_r. split; [constructor; try assumption|].
        + exists v'. split; [reflexivity|]. split; [lia|discriminate].
        + intros [N|[N|N]]; [now destruct N|now destruct N|discriminate].
        + intros _ [N|[N|N]]; discriminate.
        + intros [N|N]; discriminate.
        + intros [N|N]; discriminate.
      - subst rc. rewrite andb_true_r. split; [constructor; try assumption|].
        + exists v'. split; [reflexivity|]. split; lia.
        + intros _. exact Hl.
        + intros _ [N|N].
          * destruct (tst st ST_ACTIVE); [|discriminate]. change (tst (a_kcs x) ST_BMC_READY = true).
            rewrite Ek. auto.
          * unfold a_tx in N. cbn in N. rewrite Hs in N. destruct N; discriminate.
        + unfold a_tx. cbn. rewrite Hs. intros [N|N]; discriminate.
        + congruence.
        + unfold a_tx. cbn. rewrite Hs. intros [N|N]; discriminate. }
    eapply wp_call; [apply adv_mono|apply wp_set with (en := tst st ST_ACTIVE && (rc =? 0)); assumption|].
    intros w2 g2 [HI2 Hoff]. cbn [wp fst]. apply Inv_kcs; [exact HI2|exact Eb|].
    destruct (tst st ST_ACTIVE) eqn:Eact; [left; apply Hact; reflexivity|].
    destruct (Hoff eq_refl) as [Eb2 Eo2]. right. split; [exact Eo2|]. unfold ast. cbn [bnd]. rewrite Eb2. exact A4.
Qed.

(** ** Polling *)
Lemma Inv_same (w : world) : put_ast w false (ast w false) = w.
Proof. unfold put_ast, ast. destruct w as [m [] b1]; reflexivity. Qed.

Lemma Inv_rx_st (w : world) s : Inv w -> ab_st (a_rx (ast w false)) <> Idle ->
  Inv (put_ast w false (a_set_rx_st (ast w false) s)).
Proof.
  intros (Hw & H1 & Hao) Hs. pose proof (ao_psz _ _ _ Hao) as Hn. rewrite put_as_putb. split; [now apply WF_putb|].
  rewrite !ost_putb. split; [exact H1|]. apply (aok_rx_st (w_b0 w)); assumption.
Qed.
Lemma Inv_tx_st (w : world) s : Inv w -> holding (ab_st (a_tx (ast w false))) -> holding s ->
  Inv (put_ast w false (a_set_tx_st (ast w false) s)).
Proof.
  intros (Hw & H1 & [K1 K2 K3 K4 K5 K6 K7 K8 Ky K9]) Hh Hs. rewrite put_as_putb. split; [now apply WF_putb|].
  rewrite !ost_putb. split; [exact H1|]. constructor; try assumption.
  - intros _. destruct K7 as [G1 G2]; [left; unfold ast in Hh; cbn [bnd] in Hh; destruct Hh as [-> | ->]; discriminate|].
    split; assumption.
  - intros E _. apply K8; auto.
  - intros _. apply Ky. exact Hh.
Qed.

Lemma wp_poll_tail (w : world) st data rc g : Inv w -> kval_ok a KStatus st = true ->
  wp (adv a) (poll_tail w false st data rc) g (fun r _ => Inv (fst r)).
Proof.
  intros HI Hkv. unfold poll_tail. pose proof HI as (_ & _ & Hao). pose proof (ao_mode _ _ _ Hao) as Hm.
  unfold ast. cbn [bnd]. destruct (Bool.bool_dec bmc true) as [Eb|Eb].
  { rewrite Hm, Eb. cbn [negb andb]. exact HI. }
  apply Bool.not_true_is_false in Eb. rewrite Hm, Eb. cbn [negb andb].
  destruct (negb (tst st ST_BMC_READY && (data =? cmd_dummy_value))); [|exact HI].
  apply wp_update; assumption.
Qed.

Lemma wp_poll (w : world) g : Inv w -> wp (adv a) (poll app w false) g (fun r _ => Inv (fst r)).
Proof.
  intros HI. unfold poll.
  eapply wp_call with (P := fun x _ => Inv (put_ast w false x)); [apply adv_mono| |].
  { unfold poll_release_rx. destruct (ab_st (a_rx (ast w false))) eqn:Es; try (cbn [wp]; rewrite Inv_same; exact HI).
    apply wp_bind; [apply adv_mono|]. apply wp_kcs_send. intros rc io _ _. cbn [wp].
    destruct (rc =? 0); [|rewrite Inv_same; exact HI]. apply Inv_rx_st; [exact HI|congruence]. }
  intros x1 g1 HI1. set (w1 := put_ast w false x1) in *.
  eapply wp_call with (P := fun x _ => Inv (put_ast w1 false x)); [apply adv_mono| |].
  { change x1 with (ast w1 false).
    unfold poll_release_tx. destruct (ab_st (a_tx (ast w1 false))) eqn:Es; try (cbn [wp]; rewrite Inv_same; exact HI1).
    apply wp_bind; [apply adv_mono|]. apply wp_kcs_send. intros rc io _ _. cbn [wp].
    destruct (rc =? 0); [|rewrite Inv_same; exact HI1]. apply Inv_tx_st; [exact HI1|rewrite Es; now left|now right]. }
  intros x2 g2 HI2'. change (put_ast w1 false x2) with (put_ast w false x2) in HI2'. set (w2 := put_ast w false x2) in *.
  pose proof HI2' as HI2. cbn [wp h_kread adv]. split; [|intros _; exact HI2].
  intros st Hst Hkst. destruct (negb (kcs_read_ready x2 st)); [exact HI2|].
  cbn [wp h_kread adv]. split; [|intros _; exact HI2].
  intros data Hdata Hkd. unfold poll_dispatch.
  pose proof HI2 as (_ & _ & Hao). destruct (ao_ver _ _ _ Hao) as (v & Ev & Rv & _).
  eapply wp_deref_bind; [exact Ev|].
  destruct ((v =? 0) && negb ((data =? cmd_initialise) || (data =? cmd_dummy_value))) eqn:E0; [exact HI2|].
  unfold cmd_initialise, cmd_tx_begin, cmd_rx_complete, cmd_dummy_value in *.
  destruct (data =? 0) eqn:D0.
  { destruct (Bool.bool_dec bmc true) as [Eb|Eb].
    - eapply wp_call; [apply adv_mono|apply wp_init_channel; [exact Eb|exact HI2]|].
      intros w3 g3 HI3. now apply wp_poll_tail.
    - exfalso. apply Bool.not_true_is_false in Eb. destruct (Hk Eb data) as [Hd _]. specialize (Hd Hkd). lia. }
  destruct (data =? 1) eqn:D1.
  { destruct (ab_st (a_rx (ast w2 false))) eqn:Es; try exact HI2.
    eapply wp_call; [apply adv_mono|eapply (wp_rx_start w2 v); [exact HI2|exact Ev|lia|exact Es]|].
    intros w3 g3 [HI3 _]. now apply wp_poll_tail. }
  destruct (data =? 2) eqn:D2.
  { destruct (ab_st (a_tx (ast w2 false))) eqn:Es; try exact HI2.
    eapply wp_call; [apply adv_mono|eapply (wp_tx_complete w2 v); [exact HI2|exact Ev|lia|exact Es]|].
    intros w3 g3 HI3. now apply wp_poll_tail. }
  destruct (data =? 255) eqn:D3; [|now apply wp_poll_tail].
  pose proof (ao_mode _ _ _ Hao) as Hm. unfold ast at 1. cbn [bnd]. rewrite Hm.
  destruct (Bool.bool_dec bmc true) as [Eb|Eb]; [rewrite Eb; now apply wp_poll_tail|].
  apply Bool.not_true_is_false in Eb. rewrite Eb.
  eapply wp_call; [apply adv_mono|apply wp_update; [exact Eb|exact HI2|exact Hkst]|].
  intros [w3 rc] g3 HI3. cbn [fst] in HI3. destruct (rc <? 0); [exact HI3|now apply wp_poll_tail].
Qed.

Lemma wp_aop (w : world) o g : Inv w -> ast_traffic o ->
  wp (adv a) (aexec_op app w o) g (fun w' _ => Inv w').
Proof.
  intros HI Ht. pose proof HI as (Hw & H1 & Hao). unfold aexec_op. destruct o as [o|i].
  - unfold exec_op. rewrite (wf_dead _ _ Hw).
    destruct o as [n|b|b|eid| | | |i p|eid to tag msg|i en|i b|i n]; cbn [ast_traffic] in Ht; try contradiction.
    + cbn [wp]. split; [destruct Hw; constructor; assumption|]. split; assumption.
    + cbn [wp]. split; [destruct Hw; constructor; assumption|]. split; assumption.
    + cbn [wp]. split; [destruct Hw; constructor; assumption|]. split; assumption.
    + eapply wp_call; [apply adv_mono|
        eapply (wp_message_tx astlpc_tx (adv a) (adv_mono a) id Lax J J_emit J_alloc J_btx);
        [exact Hw|apply Inv_J; exact HI]|].
      intros [w' rc] g' (t & _ & Hr & HJ). cbn [fst snd wp h_emit adv] in *.
      split; [eapply steps_WF; [exact Hw|eapply message_rel_steps; exact Hr]|exact HJ].
  - cbn in Ht. subst i. rewrite (wf_dead _ _ Hw).
    eapply wp_call; [apply adv_mono|apply wp_poll; exact HI|].
    intros [w' rc] g' HI'. cbn [wp h_emit adv fst] in *. exact HI'.
Qed.

Lemma wp_aexec : forall l (w : world) g, Inv w -> Forall ast_traffic l ->
  wp (adv a) (aexec app w l) g (fun w' _ => Inv w').
Proof.
  induction l as [|o l IH]; intros w g HI Hl; cbn [aexec]; [exact HI|].
  inversion_clear Hl as [|? ? Ho Hl']. eapply wp_call; [apply adv_mono|apply wp_aop; assumption|].
  intros w' g' HI'. apply IH; assumption.
Qed.
End Walk.
