(** SerWalk: the serial binding refines the byte machine of SerRx, and its histories
    are core histories. *)
From Verif Require Import Base Lists Prog PktBuf Core WP Walk CoreRel WalkCore CoreHist Crc Serial SpecSer SerRx.

Local Notation world := (world serial).

(** ** The receiver's state *)
Record pkt_ok (p : pktbuf) (bs : list Z) : Prop := mkPktOk {
  po_wf : wf_pkt p; po_size : pk_size p = 68; po_hdr : pk_hdr p = 0; po_bytes : pktbuf_bytes p = Some bs }.

Definition body (s : serial) : list Z :=
  match s_pkt s with
  | Some p => match pktbuf_bytes p with Some bs => bs | None => [] end
  | None => []
  end.
Definition rof (s : serial) : rcv :=
  match s_st s with
  | WaitSyncStart => Idle
  | WaitRevision => Rev
  | WaitLen => Len
  | SData => Data (s_exp s) (body s) false
  | SDataEsc => Data (s_exp s) (body s) true
  | WaitFcs1 => Fcs1 (body s)
  | WaitFcs2 => Fcs2 (body s) (s_fcs s / 256)
  | WaitSyncEnd => End (body s) (s_fcs s)
  end.
Definition pid (s : serial) : option Z := option_map pk_id (s_pkt s).

Definition has_body (s : serial) (P : list Z -> Prop) : Prop :=
  exists p bs, s_pkt s = Some p /\ pkt_ok p bs /\ P bs.
Definition swf (s : serial) : Prop :=
  match s_st s with
  | WaitSyncStart | WaitRevision => s_pkt s = None
  | WaitLen => s_pkt s = None /\ s_calc s = crc16 65535 [1]
  | SData | SDataEsc =>
      has_body s (fun bs => zlen bs < s_exp s <= 68 /\ s_calc s = crc16 65535 (1 :: s_exp s :: bs))
  | WaitFcs1 | WaitSyncEnd => has_body s (fun bs => s_calc s = fcs bs)
  | WaitFcs2 => has_body s (fun bs => s_calc s = fcs bs) /\ exists hi, 0 <= hi < 256 /\ s_fcs s = hi * 256
  end.

Lemma pkt_ok_end p bs : pkt_ok p bs -> pk_end p = zlen bs.
Proof.
  intros [Hw Hs Hh Hb]. destruct (pktbuf_bytes_wf p Hw) as (b' & E & Hz). rewrite Hb in E. injection E as <-.
  rewrite (pktbuf_size_wf p Hw) in Hz. destruct Hw. lia.
Qed.
Lemma body_ok s p bs : s_pkt s = Some p -> pkt_ok p bs -> body s = bs.
Proof. intros E [_ _ _ Hb]. unfold body. now rewrite E, Hb. Qed.

Lemma push_ok p bs c : pkt_ok p bs -> zlen bs < 68 ->
  exists p', pktbuf_push p [c] = Ret (p', 0) /\ pkt_ok p' (bs ++ [c]) /\ pk_id p' = pk_id p.
Proof.
  intros Hp Hl. pose proof (pkt_ok_end p bs Hp) as He. destruct Hp as [Hw Hs Hh Hb].
  unfold pktbuf_push, pktbuf_push_len. change (zlen [c]) with 1.
  pose proof (zlen_pos _ bs). rewrite w64_id by lia. replace (pk_size p <? pk_end p + 1) with false by lia.
  change (rd [c] 0 1) with (Some [c]). cbn [deref bind].
  destruct (wr_some (pk_data p) (pk_end p) [c]) as (d & Hd).
  { lia. } { destruct Hw. change (zlen [c]) with 1. lia. }
  rewrite Hd. cbn [deref bind]. eexists. split; [reflexivity|]. split; [|reflexivity].
  pose proof (wr_zlen _ _ _ _ Hd) as Hz.
  assert (wf_pkt (mkPkt (pk_id p) (pk_start p) (pk_end p + 1) (pk_size p) (pk_hdr p) d)) as Hw'.
  { destruct Hw; constructor; cbn; lia. }
  constructor; [exact Hw'|exact Hs|exact Hh|].
  unfold pktbuf_bytes in *. rewrite (pktbuf_size_wf _ Hw'). rewrite (pktbuf_size_wf _ Hw) in Hb. cbn.
  replace (pk_end p + 1 - pk_start p) with (pk_end p - pk_start p + 1) by lia.
  apply rd_app.
  - rewrite <- Hb. eapply rd_wr_before; [exact Hd|]. destruct Hw; lia.
  - replace (pk_hdr p + (pk_end p - pk_start p)) with (pk_end p) by (destruct Hw; lia).
    exact (rd_wr_same _ _ _ _ Hd).
Qed.

(** ** Transmission: the state is left alone *)
Section Walk.
Variable fuel : nat.
Variable app : event -> list txreq.
Variable a : assm.
Hypothesis Ha : may_oom a = false.
Hypothesis Hst : may_stall a = false.
Hypothesis Hfuel : (256 <= fuel)%nat.

Lemma wp_write_all n : forall bs g (Q : Z -> list event -> Prop), (length bs <= n)%nat ->
  (forall rc io, Forall io_ev io -> Q rc (g ++ io)) ->
  wp (adv a) (write_all n bs) g Q.
Proof.
  induction n as [|n IH]; intros bs g Q Hn HQ.
  - destruct bs; [|cbn in Hn; lia]. cbn [write_all wp]. specialize (HQ 0 []). rewrite app_nil_r in HQ. apply HQ. constructor.
  - destruct bs as [|c bs]; cbn [write_all wp].
    + specialize (HQ 0 []). rewrite app_nil_r in HQ. apply HQ. constructor.
    + cbn [h_swrite adv]. intros r Hr Hns. destruct (r <? 0) eqn:E.
      * cbn [wp]. apply HQ. constructor; [exact I|constructor].
      * apply IH.
        { specialize (Hns Hst ltac:(discriminate)). rewrite skipn_length. lia. }
        intros rc io Hio. rewrite <- app_assoc. apply HQ. constructor; [exact I|exact Hio].
Qed.

Lemma wp_serial_tx s p g (Q : serial * pktbuf * Z * bool -> list event -> Prop) : wf_pkt p ->
  (forall rc io, Forall io_ev io -> Q (s, p, rc, false) (g ++ io)) ->
  wp (adv a) (serial_tx fuel s p) g Q.
Proof.
  intros Hw HQ. unfold serial_tx. pose proof (pktbuf_size_wf p Hw) as Hsz.
  assert (0 <= pktbuf_size p /\ pk_hdr p + pktbuf_size p <= zlen (pk_data p)) as [H0 H1]
    by (rewrite Hsz; destruct Hw; lia).
  assert (forall k, 0 < k -> 0 <= pktbuf_size p mod k <= pktbuf_size p) as Hmod.
  { intros k Hk. pose proof (Z.mod_pos_bound (pktbuf_size p) k Hk). pose proof (Z.mod_le (pktbuf_size p) k H0 Hk). lia. }
  pose proof (Hmod (2 ^ 32) ltac:(lia)) as M32. pose proof (Hmod (2 ^ 8) ltac:(lia)) as M8.
  pose proof (wp_hdr _ Hw) as Hh.
  destruct (rd_some (pk_data p) (pk_hdr p) (w32 (pktbuf_size p))) as (bd & Eb & _); [lia|apply M32|unfold w32; lia|].
  eapply wp_deref_bind; [exact Eb|].
  replace (pk_end p - pk_hdr p) with (pktbuf_size p) by (rewrite Hsz; destruct Hw; lia).
  destruct (rd_some (pk_data p) (pk_hdr p) (w8 (pktbuf_size p))) as (es & Ee & _); [lia|apply M8|unfold w8; lia|].
  eapply wp_deref_bind; [exact Ee|].
  destruct (256 <? zlen (ser_escape es) + 3 + 3) eqn:El.
  - cbn [wp]. specialize (HQ (- EMSGSIZE) []). rewrite app_nil_r in HQ. apply HQ. constructor.
  - apply wp_bind; [apply adv_mono|]. apply wp_write_all.
    + rewrite !app_length. cbn [length]. unfold zlen in El. lia.
    + intros rc io Hio. cbn [wp]. apply HQ. exact Hio.
Qed.

(** Walking the core with the private states fixed. *)
Definition Js (s0 s1 : serial) :
  binding serial -> binding serial -> option bus_state -> option bus_state -> list event -> Prop :=
  fun b0 b1 _ _ _ => bd_priv b0 = s0 /\ bd_priv b1 = s1.

Lemma Js_emit s0 s1 e (w : world) g (Q : list event -> Prop) : core_ev e -> Jw (Js s0 s1) w g ->
  (forall g', Jw (Js s0 s1) w g' -> id g' = id g ++ [e] -> Q g') -> h_emit (adv a) e g Q.
Proof. intros _ HJ HQ. apply HQ; [exact HJ|reflexivity]. Qed.

Lemma Js_alloc s0 s1 (w : world) g (Q : bool -> list event -> Prop) : Jw (Js s0 s1) w g ->
  (forall g', Jw (Js s0 s1) w g' -> id g' = id g -> Q true g') -> h_alloc (adv a) g Q.
Proof. intros HJ HQ. split; [apply HQ; [exact HJ|reflexivity]|]. rewrite Ha. discriminate. Qed.

Lemma Js_btx s0 s1 (w : world) i b p bytes g
  (Q : serial * pktbuf * Z * bool -> list event -> Prop) :
  WF Strict w -> Jw (Js s0 s1) w g -> bget w i = Some b -> bus_st b = TxEnabled ->
  qwf Strict (bnd w i) p -> pktbuf_bytes p = Some bytes ->
  (forall b' p' rc (dis : bool) g' io,
     Jw (Js s0 s1) (set_bus (set_bnd w i (set_priv (bnd w i) b')) i (if dis then disable_bus b else b)) g' ->
     id g' = id g ++ EvTxCall i (pk_id p) bytes :: io -> Forall io_ev io ->
     pk_id p' = pk_id p ->
     (final rc = false -> qwf Strict (bnd w i) p' /\ kept Strict p p') ->
     Q (b', p', rc, dis) g') ->
  h_emit (adv a) (EvTxCall i (pk_id p) bytes) g
         (fun g1 => wp (adv a) (serial_tx fuel (bd_priv (bnd w i)) p) g1 Q).
Proof.
  intros Hw HJ Hb Hs Hq Hby HQ. cbn [h_emit adv]. apply wp_serial_tx; [exact (proj1 Hq)|].
  intros rc io Hio. eapply (HQ _ p rc false _ io); [|unfold id; rewrite <- app_assoc; reflexivity|exact Hio|reflexivity|intros _; split; [exact Hq|reflexivity]].
  unfold Jw, Js in *. rewrite b0_set_bus, b1_set_bus. destruct i; exact HJ.
Qed.

Definition same_priv (w w' : world) : Prop := forall j, bd_priv (bnd w' j) = bd_priv (bnd w j).
Lemma Js_self (w : world) g : Jw (Js (bd_priv (w_b0 w)) (bd_priv (w_b1 w))) w g.
Proof. split; reflexivity. Qed.
Lemma Js_same (w w' : world) g : Jw (Js (bd_priv (w_b0 w)) (bd_priv (w_b1 w))) w' g -> same_priv w w'.
Proof. intros [E0 E1] [|]; assumption. Qed.

(** The operations of the application. *)
Lemma wp_ser_op m (w : world) o g : WF Strict w -> mode_ok m w -> ser_traffic m (SCore o) ->
  wp (adv a) (exec_op (serial_tx fuel) serial_start app w o) g
     (fun w' g' => exists t, g' = g ++ t /\ op_rel w o t w' /\ WF Strict w' /\ same_priv w w').
Proof.
  intros Hw Hmo Ht. unfold exec_op. rewrite (wf_dead _ _ Hw).
  set (s0 := bd_priv (w_b0 w)). set (s1 := bd_priv (w_b1 w)).
  pose proof (Js_emit s0 s1) as He. pose proof (Js_alloc s0 s1) as Hal. pose proof (Js_btx s0 s1) as Hbt.
  destruct o as [n|b|b|eid| | | |i p|eid to tag msg|i en|i b|i n]; cbn [ser_traffic] in Ht; try contradiction.
  - cbn [wp]. exists []. rewrite app_nil_r. split; [reflexivity|]. split; [constructor|].
    split; [destruct Hw; constructor; assumption|intros [|]; reflexivity].
  - cbn [wp]. exists []. rewrite app_nil_r. split; [reflexivity|]. split; [constructor|].
    split; [destruct Hw; constructor; assumption|intros [|]; reflexivity].
  - cbn [wp]. exists []. rewrite app_nil_r. split; [reflexivity|]. split; [constructor|].
    split; [destruct Hw; constructor; assumption|intros [|]; reflexivity].
  - eapply wp_call; [apply adv_mono|
      eapply (wp_message_tx (serial_tx fuel) (adv a) (adv_mono a) id Strict (Js s0 s1) He Hal Hbt);
      [exact Hw|apply Js_self]|].
    intros [w' rc] g' (t & Ht' & Hr & HJ). cbn [fst snd] in *. cbn [wp h_emit adv].
    unfold id in Ht'. exists (t ++ [EvRet rc]). split; [rewrite Ht', app_assoc; reflexivity|].
    split; [constructor; exact Hr|]. split; [|eapply Js_same; exact HJ].
    eapply steps_WF; [exact Hw|eapply message_rel_steps; exact Hr].
  - destruct (mode_bget m w i Hw Hmo Ht) as (b & Hb).
    eapply wp_mono; [apply adv_mono| |
      eapply (wp_set_tx_enabled (serial_tx fuel) (adv a) (adv_mono a) id Strict (Js s0 s1) He Hbt);
      [exact Hw|apply Js_self|exact Hb|intros; exact I|]].
    2:{ intros. unfold Jw, Js in *. rewrite b0_set_bus, b1_set_bus. split; reflexivity. }
    intros w' g' (t & Ht' & Hr & HJ). exists t. unfold id in Ht'. split; [exact Ht'|].
    split; [constructor; exact Hr|]. split; [eapply set_rel_WF; eassumption|eapply Js_same; exact HJ].
Qed.

(** ** Reception of one byte *)
Definition ser_dims (b : binding serial) : Prop :=
  bd_pkt_size b = 68 /\ bd_header b = 0 /\ bd_trailer b = 0.

Definition nextw (w : world) : world := set_m w (set_next (w_m w) (m_next (w_m w) + 1)).

Inductive byte_rel (w : world) (i : bool) (c : Z) : list event -> world -> Prop :=
| BQuiet s' : let s := bd_priv (bnd w i) in
    swf s' -> rof s' = rnext (rof s) c -> rout (rof s) c = [] -> (pid s' = pid s \/ pid s' = None) ->
    byte_rel w i c [] (put_ser w i s')
| BAlloc s' : let s := bd_priv (bnd w i) in
    swf s' -> rof s' = rnext (rof s) c -> rout (rof s) c = [] ->
    pid s = None -> pid s' = Some (m_next (w_m w)) ->
    byte_rel w i c [EvAlloc (m_next (w_m w))] (put_ser (nextw w) i s')
| BHand p bs ap t w1 s' : let s := bd_priv (bnd w i) in
    s_pkt s = Some p -> pkt_ok p bs -> rx_rel Strict ap w i (pk_id p) bs t w1 -> same_priv w w1 ->
    swf s' -> rof s' = rnext (rof s) c -> rout (rof s) c = [bs] -> pid s' = None ->
    byte_rel w i c t (put_ser w1 i s').

Lemma crc16_snoc f l c : crc16 f (l ++ [c]) = crc16_byte (crc16 f l) c.
Proof. unfold crc16. now rewrite fold_left_app. Qed.

Lemma lor_hi_lo hi c : 0 <= c < 256 -> Z.lor (hi * 256) c = hi * 256 + c.
Proof.
  intros Hc.
  assert (Hl : Z.land (hi * 256) c = 0).
  { apply Z.bits_inj'. intros k Hk. rewrite Z.land_spec, Z.bits_0.
    change 256 with (2 ^ 8). rewrite Z.mul_pow2_bits by lia.
    destruct (Z.ltb_spec k 8); [now rewrite Z.testbit_neg_r by lia|].
    assert (Z.testbit c k = false) as ->; [|apply andb_false_r].
    rewrite <- (Z.mod_small c (2 ^ 8)) by lia. apply Z.mod_pow2_bits_high. lia. }
  rewrite Z.add_nocarry_lxor by exact Hl. symmetry. apply Z.lxor_lor. exact Hl.
Qed.

Lemma WF_put (w : world) i s : WF Strict w -> WF Strict (put_ser w i s).
Proof.
  intros Hw. unfold put_ser. apply WF_bnd; auto. exact (wf_dims _ _ Hw i).
Qed.

Lemma wp_data_byte (w : world) i c x e p bs g :
  let s := bd_priv (bnd w i) in
  WF Strict w -> s_st s = (if e : bool then SDataEsc else SData) -> s_pkt s = Some p -> pkt_ok p bs ->
  zlen bs < s_exp s <= 68 -> s_calc s = crc16 65535 (1 :: s_exp s :: bs) ->
  rnext (rof s) c = rpush (s_exp s) bs x -> rout (rof s) c = [] ->
  wp (adv a) (data_byte w i s p x) g
     (fun w' g' => exists t, g' = g ++ t /\ byte_rel w i c t w' /\ WF Strict w').
Proof.
  intros s Hw Est Ep Hp Hz Hc Hn Ho. unfold data_byte.
  destruct (push_ok p bs x Hp ltac:(lia)) as (p' & E & Hp' & Hid). rewrite E. cbn [bind wp].
  exists []. rewrite app_nil_r. split; [reflexivity|]. split; [|apply WF_put; exact Hw].
  pose proof (pkt_ok_end _ _ Hp') as He. rewrite (po_hdr _ _ Hp'), He, Z.sub_0_r.
  pose proof (zlen_pos _ bs). pose proof (zlen_snoc _ bs x) as Hsn.
  rewrite w64_id by lia.
  unfold rpush in Hn.
  destruct (zlen (bs ++ [x]) =? s_exp s) eqn:Ef; apply BQuiet; cbn [s_set_st s_set_calc s_set_pkt swf s_st];
    fold s; rewrite ?Hn; try exact Ho; try (left; unfold pid; cbn [s_pkt option_map]; rewrite Ep; cbn; congruence).
  - exists p', (bs ++ [x]). cbn [s_pkt s_calc]. split; [reflexivity|]. split; [exact Hp'|].
    rewrite Hc. unfold fcs. replace (zlen (bs ++ [x])) with (s_exp s) by lia.
    rewrite <- crc16_snoc. reflexivity.
  - unfold rof, body. cbn [s_set_st s_set_calc s_set_pkt s_st s_pkt]. rewrite (po_bytes _ _ Hp'). reflexivity.
  - exists p', (bs ++ [x]). cbn [s_set_st s_set_calc s_set_pkt s_st s_pkt s_calc s_exp]. split; [reflexivity|]. split; [exact Hp'|].
    split; [lia|]. rewrite Hc, <- crc16_snoc. reflexivity.
  - unfold rof, body. cbn [s_set_st s_set_calc s_set_pkt s_st s_exp s_pkt]. rewrite (po_bytes _ _ Hp'). reflexivity.
Qed.

Lemma wp_consume (w : world) i b c g :
  WF Strict w -> bget w i = Some b -> ser_dims (bnd w i) -> swf (bd_priv (bnd w i)) -> is_byte c ->
  wp (adv a) (consume_one fuel app w i c) g
     (fun w' g' => exists t, g' = g ++ t /\ byte_rel w i c t w' /\ WF Strict w').
Proof.
  intros Hw Hb (Hd1 & Hd2 & Hd3) Hs Hc. unfold consume_one.
  set (s := bd_priv (bnd w i)) in *.
  assert (Hquiet : forall s', swf s' -> rof s' = rnext (rof s) c -> rout (rof s) c = [] ->
            (pid s' = pid s \/ pid s' = None) ->
            exists t, g = g ++ t /\ byte_rel w i c t (put_ser w i s') /\ WF Strict (put_ser w i s')).
  { intros s' H1 H2 H3 H4. exists []. rewrite app_nil_r. split; [reflexivity|]. split; [now apply BQuiet|now apply WF_put]. }
  assert (Hself : rof s = rnext (rof s) c -> rout (rof s) c = [] ->
            exists t, g = g ++ t /\ byte_rel w i c t w /\ WF Strict w).
  { intros H2 H3. destruct (Hquiet s Hs H2 H3 (or_introl eq_refl)) as (t & H4 & H5 & H6).
    assert (put_ser w i s = w) as E.
    { unfold put_ser, s. destruct w as [m x0 x1], x0, x1, i; reflexivity. }
    rewrite E in *. eauto. }
  unfold swf in Hs. destruct (s_st s) eqn:Est.
  - (* WaitSyncStart *)
    rewrite Hs. cbn [Bool.eqb assert_ bind]. destruct (c =? SER_FLAG) eqn:Ec; unfold SER_FLAG in Ec; cbn [wp].
    + apply Hquiet; unfold swf, rof, pid; cbn; rewrite ?Est, ?Hs; cbn; rewrite ?Ec; auto.
    + apply Hself; unfold rof; rewrite Est; cbn; rewrite ?Ec; reflexivity.
  - (* WaitRevision *)
    rewrite Hs. cbn [Bool.eqb assert_ bind]. destruct (c =? SER_REV) eqn:Ec; unfold SER_REV in Ec.
    + cbn [wp]. apply Hquiet; unfold swf, rof, pid; cbn [s_set_calc s_set_st s_st s_pkt s_calc s_exp s_fcs]; rewrite ?Est, ?Hs; cbn [rnext rout option_map]; rewrite ?Ec; auto.
      split; [reflexivity|]. apply Z.eqb_eq in Ec. subst c. reflexivity.
    + destruct (c =? SER_FLAG) eqn:Ec'; unfold SER_FLAG in Ec'; cbn [wp].
      * apply Hself; unfold rof; rewrite Est; cbn; rewrite ?Ec, ?Ec'; reflexivity.
      * apply Hquiet; unfold swf, rof, pid; cbn; rewrite ?Est, ?Hs; cbn; rewrite ?Ec, ?Ec'; auto.
  - (* WaitLen *)
    destruct Hs as [Hs Hcalc]. rewrite Hs. cbn [Bool.eqb assert_ bind]. rewrite Hd1.
    destruct ((68 <? c) || (c <? 4)) eqn:Ec.
    + cbn [wp]. apply Hquiet; unfold swf, rof, pid; cbn; rewrite ?Est, ?Hs; cbn; rewrite ?Ec; auto.
    + unfold start_packet. rewrite Hd1, Hd2, Hd3. unfold pktbuf_alloc.
      change (w64 (68 + 0 + 0) <? 0) with false. cbv iota. cbn [bind wp h_alloc adv].
      split; [|rewrite Ha; discriminate]. cbn [bind wp h_emit adv].
      exists [EvAlloc (m_next (w_m w))]. split; [reflexivity|].
      set (p := pktbuf_mk (m_next (w_m w)) 68 0 0 0).
      assert (pkt_ok p []) as Hp.
      { constructor; [|reflexivity|reflexivity|reflexivity]. constructor; cbn; try lia. reflexivity. }
      split.
      * refine (BAlloc w i c _ _ _ _ _ _); fold s.
        -- unfold swf. cbn [s_st]. exists p, []. split; [reflexivity|]. split; [exact Hp|].
           cbn [s_exp s_calc]. split; [change (zlen (@nil Z)) with 0; lia|]. rewrite Hcalc. reflexivity.
        -- unfold rof, body. cbn [s_st s_exp s_pkt]. rewrite (po_bytes _ _ Hp), Est. cbn [rnext]. rewrite Ec. reflexivity.
        -- unfold rof. rewrite Est. reflexivity.
        -- unfold pid. rewrite Hs. reflexivity.
        -- reflexivity.
      * apply WF_put. apply WF_next. exact Hw.
  - (* SData *)
    destruct Hs as (p & bs & Ep & Hp & Hz & Hcalc). rewrite Ep. cbn [Bool.eqb assert_ bind].
    pose proof (body_ok s p bs Ep Hp) as Eb.
    destruct (c =? SER_ESC) eqn:Ec; unfold SER_ESC in Ec.
    + cbn [wp]. apply Hquiet; unfold pid; cbn [s_set_st s_pkt].
      * unfold swf. cbn [s_st]. exists p, bs. auto.
      * unfold rof. rewrite Est. cbn [s_st rnext]. rewrite Ec. unfold body. cbn [s_pkt s_exp]. reflexivity.
      * unfold rof. rewrite Est. reflexivity.
      * auto.
    + cbn [deref bind]. apply (wp_data_byte w i c c false p bs); auto.
      * unfold rof. fold s. rewrite Est, Eb. cbn [rnext]. rewrite Ec. reflexivity.
      * unfold rof. fold s. rewrite Est. reflexivity.
  - (* SDataEsc *)
    destruct Hs as (p & bs & Ep & Hp & Hz & Hcalc). rewrite Ep. cbn [Bool.eqb assert_ bind].
    pose proof (body_ok s p bs Ep Hp) as Eb.
    cbn [deref bind]. apply (wp_data_byte w i c (Z.lxor c 32) true p bs); auto.
    + unfold rof. fold s. rewrite Est, Eb. reflexivity.
    + unfold rof. fold s. rewrite Est. reflexivity.
  - (* WaitFcs1 *)
    destruct Hs as (p & bs & Ep & Hp & Hcalc). rewrite Ep. cbn [Bool.eqb assert_ bind wp].
    assert (w16 (Z.shiftl c 8) = c * 256) as E16.
    { rewrite Z.shiftl_mul_pow2 by lia. unfold is_byte in Hc. unfold w16. rewrite Z.mod_small; lia. }
    apply Hquiet; unfold pid; cbn [s_set_st s_set_fcs s_pkt].
    + unfold swf. cbn [s_st]. split; [exists p, bs; auto|]. exists c. cbn [s_fcs]. split; [exact Hc|exact E16].
    + unfold rof. rewrite Est. cbn [s_set_st s_set_fcs s_st rnext s_fcs]. rewrite E16, Z.div_mul by lia. unfold body. cbn [s_pkt]. reflexivity.
    + unfold rof. rewrite Est. reflexivity.
    + auto.
  - (* WaitFcs2 *)
    destruct Hs as [(p & bs & Ep & Hp & Hcalc) (hi & Hhi & Ehi)]. rewrite Ep. cbn [Bool.eqb assert_ bind wp].
    assert (Z.lor (hi * 256) c = hi * 256 + c) as Elor.
    { apply lor_hi_lo. exact Hc. }
    apply Hquiet; unfold pid; cbn [s_set_st s_set_fcs s_pkt].
    + unfold swf. cbn [s_st]. exists p, bs; auto.
    + unfold rof. rewrite Est. cbn [s_st rnext s_fcs]. rewrite Ehi, Elor, Z.div_mul by lia. unfold body. cbn [s_pkt]. reflexivity.
    + unfold rof. rewrite Est. reflexivity.
    + auto.
  - (* WaitSyncEnd *)
    destruct Hs as (p & bs & Ep & Hp & Hcalc). rewrite Ep. cbn [Bool.eqb assert_ bind].
    pose proof (body_ok s p bs Ep Hp) as Eb.
    unfold finish_packet. fold s. rewrite Ep.
    assert (Hro : rout (rof s) c = if (s_fcs s =? s_calc s) && (c =? SER_FLAG) then [bs] else []).
    { unfold rof. rewrite Est, Eb. cbn [rout]. rewrite Hcalc. reflexivity. }
    destruct ((s_fcs s =? s_calc s) && (c =? SER_FLAG)) eqn:Ev.
    + apply wp_bind; [apply adv_mono|]. apply wp_bind; [apply adv_mono|].
      set (s0 := bd_priv (w_b0 w)). set (s1 := bd_priv (w_b1 w)).
      pose proof (Js_emit s0 s1) as He. pose proof (Js_alloc s0 s1) as Hal. pose proof (Js_btx s0 s1) as Hbt.
      eapply wp_mono; [apply adv_mono| |
        eapply (wp_bus_rx (serial_tx fuel) app (adv a) (adv_mono a) id Strict (Js s0 s1) He Hal Hbt w i b p bs);
        [exact Hw|exact Hb|exact (po_wf _ _ Hp)|exact (po_bytes _ _ Hp)|
         intros lo Q HQ; apply HQ; [apply Js_self|reflexivity]]].
      intros w1 g1 (t & Et & Hr & HJ). unfold id in Et. cbn [wp].
      exists t. split; [exact Et|].
      set (s' := s_set_st (bd_priv (bnd (put_ser w1 i (s_set_pkt (bd_priv (bnd w1 i)) None)) i)) WaitSyncStart).
      assert (put_ser (put_ser w1 i (s_set_pkt (bd_priv (bnd w1 i)) None)) i s' = put_ser w1 i s') as ->.
      { unfold put_ser. destruct i; reflexivity. }
      assert (s_pkt s' = None /\ s_st s' = WaitSyncStart) as [E1 E2].
      { unfold s', put_ser. rewrite bnd_set_bnd, Bool.eqb_reflx. split; reflexivity. }
      split; [|apply WF_put; eapply rx_rel_WF; eassumption].
      eapply BHand; try eassumption.
      * eapply Js_same; exact HJ.
      * unfold rof at 1. rewrite E2. fold s. unfold rof. rewrite Est. reflexivity.
      * unfold pid. rewrite E1. reflexivity.
    + cbn [bind wp].
      assert (put_ser (put_ser w i (s_set_pkt (bd_priv (bnd w i)) None)) i
                (s_set_st (bd_priv (bnd (put_ser w i (s_set_pkt (bd_priv (bnd w i)) None)) i)) WaitSyncStart)
              = put_ser w i (mkSerial WaitSyncStart None (s_exp s) (s_fcs s) (s_calc s))) as ->.
      { unfold put_ser, s. destruct i; reflexivity. }
      apply Hquiet; auto; unfold rof; rewrite ?Est; reflexivity.
Qed.

(** ** Histories *)
Inductive mop := MOp (o : @op serial) | MByte (i : bool) (c : Z).
Definition micro (l : list sop) : list mop :=
  flat_map (fun o => match o with SCore o => [MOp o] | SRx i bs => map (MByte i) bs end) l.

Inductive mrel (w : world) : mop -> list event -> world -> Prop :=
| MROp o t w' : op_rel w o t w' -> same_priv w w' -> mrel w (MOp o) t w'
| MRByte i c t w' : byte_rel w i c t w' -> mrel w (MByte i c) t w'.

Record SI (m : mode) (w : world) : Prop := mkSI {
  si_wf : WF Strict w; si_mode : mode_ok m w;
  si_dims : forall i, ser_dims (bnd w i);
  si_swf : forall i, swf (bd_priv (bnd w i)) }.

Definition mtraffic (m : mode) (o : mop) : Prop :=
  match o with MOp o => ser_traffic m (SCore o) | MByte i c => mode_bus m i /\ is_byte c end.

Inductive mhist (m : mode) : world -> list mop -> list event -> world -> Prop :=
| MHNil w : mhist m w [] [] w
| MHCons w o t1 w1 l t2 w2 : SI m w -> mtraffic m o -> mrel w o t1 w1 -> SI m w1 -> mhist m w1 l t2 w2 ->
    mhist m w (o :: l) (t1 ++ t2) w2.

Lemma mhist_app m w l1 t1 w1 l2 t2 w2 : mhist m w l1 t1 w1 -> mhist m w1 l2 t2 w2 ->
  mhist m w (l1 ++ l2) (t1 ++ t2) w2.
Proof.
  induction 1; intros Hq; cbn [Datatypes.app]; [exact Hq|]. rewrite <- app_assoc. eapply MHCons; eauto.
Qed.

Lemma stable_dims (w w' : world) i : stable w w' -> ser_dims (bnd w i) -> ser_dims (bnd w' i).
Proof.
  intros (_ & H & _) (H1 & H2 & H3). specialize (H i). unfold bconst in H. injection H as E1 E2 E3 E4 E5 E6 E7.
  unfold ser_dims. rewrite E2, E3, E4. auto.
Qed.

Lemma op_dims m (w : world) o t w' i : op_rel w o t w' -> ser_traffic m (SCore o) ->
  ser_dims (bnd w i) -> ser_dims (bnd w' i).
Proof.
  intros Hr Ht Hd.
  destruct Hr as [n|b|b|j b|j n|eid to tag msg rc t w' Hr|j en t w' Hr|j p bytes ap t w' Hby Hr];
    cbn in Ht; try contradiction.
  1-3: destruct i; exact Hd.
  - eapply stable_dims; [eapply steps_stable, message_rel_steps; exact Hr|exact Hd].
  - destruct Hr as [b en Hb Hc|b Hb Hs Hsz|b Hb Hs|b t w' Hb Hs Htx].
    + exact Hd.
    + rewrite bnd_set_bus. exact Hd.
    + rewrite bnd_set_bus. exact Hd.
    + eapply stable_dims; [eapply steps_stable, txs_steps; exact Htx|]. rewrite bnd_set_bus. exact Hd.
Qed.

Lemma rx_mode m (w : world) i id bytes ap t w' : mode_ok m w -> rx_rel Strict ap w i id bytes t w' -> mode_ok m w'.
Proof.
  intros Hm Hr. destruct (rx_rel_steps _ _ _ _ _ _ Hr) as (cs & b & t1 & Hs & _ & _).
  eapply steps_mode; [exact Hs|]. exact Hm.
Qed.
Lemma rx_dims (w : world) i id bytes ap t w' j : rx_rel Strict ap w i id bytes t w' ->
  ser_dims (bnd w j) -> ser_dims (bnd w' j).
Proof.
  intros Hr Hd. destruct (rx_rel_steps _ _ _ _ _ _ Hr) as (cs & b & t1 & Hs & _ & _).
  eapply stable_dims; [eapply steps_stable; exact Hs|]. destruct j; exact Hd.
Qed.

Lemma mode_put m (w : world) i s : mode_ok m w -> mode_ok m (put_ser w i s).
Proof. unfold put_ser. destruct i; exact (fun x => x). Qed.
Lemma dims_put (w : world) i s j : ser_dims (bnd w j) -> ser_dims (bnd (put_ser w i s) j).
Proof. unfold put_ser. rewrite bnd_set_bnd. destruct (Bool.eqb_spec i j); [subst|]; exact (fun x => x). Qed.
Lemma priv_put (w : world) i s j : bd_priv (bnd (put_ser w i s) j) = if Bool.eqb i j then s else bd_priv (bnd w j).
Proof. unfold put_ser. rewrite bnd_set_bnd. destruct (Bool.eqb i j); reflexivity. Qed.

Lemma mrel_SI m (w : world) o t w' : SI m w -> mtraffic m o -> mrel w o t w' -> WF Strict w' -> SI m w'.
Proof.
  intros [Hw Hm Hd Hs] Ht Hr Hw'. destruct Hr as [o t w' Hr Hp|i c t w' Hr].
  - constructor; [exact Hw'|eapply op_rel_mode; eassumption|intros i; eapply op_dims; eauto|].
    intros i. rewrite Hp. apply Hs.
  - destruct Hr as [s' s S1 S2 S3 S4|s' s S1 S2 S3 S4 S5|p bs ap t w1 s' s Ep Hp Hr Hsp S1 S2 S3 S4].
    + constructor; [exact Hw'|now apply mode_put|intros; now apply dims_put|].
      intros j. rewrite priv_put. destruct (Bool.eqb_spec i j); auto.
    + constructor; [exact Hw'|now apply mode_put|intros; apply dims_put; destruct i0; [apply (Hd true)|apply (Hd false)]|].
      intros j. rewrite priv_put. destruct (Bool.eqb_spec i j); auto. destruct j; [apply (Hs true)|apply (Hs false)].
    + constructor; [exact Hw'|apply mode_put; eapply rx_mode; eassumption|
        intros j; apply dims_put; eapply rx_dims; eauto|].
      intros j. rewrite priv_put. destruct (Bool.eqb_spec i j); [exact S1|]. rewrite Hsp. apply Hs.
Qed.

Lemma wp_ser_rx m i : forall bs (w : world) g, SI m w -> mode_bus m i -> Forall is_byte bs ->
  wp (adv a) (serial_rx fuel app w i bs) g
     (fun w' g' => exists t, g' = g ++ t /\ mhist m w (map (MByte i) bs) t w' /\ SI m w').
Proof.
  induction bs as [|c bs IH]; intros w g Hw Hi Hb; cbn [serial_rx].
  - cbn [wp]. exists []. rewrite app_nil_r. split; [reflexivity|]. split; [constructor|exact Hw].
  - inversion Hb as [|? ? Hc Hb']; subst.
    destruct (mode_bget m w i (si_wf _ _ Hw) (si_mode _ _ Hw) Hi) as (b & Hbg).
    eapply wp_call; [apply adv_mono|eapply wp_consume;
      [exact (si_wf _ _ Hw)|exact Hbg|apply (si_dims _ _ Hw)|apply (si_swf _ _ Hw)|exact Hc]|].
    intros w1 g1 (t1 & -> & Hr & Hw1).
    assert (mtraffic m (MByte i c)) as Htr by (split; assumption).
    assert (SI m w1) as Hsi by (eapply mrel_SI; [exact Hw|exact Htr|apply MRByte; exact Hr|exact Hw1]).
    eapply wp_mono; [apply adv_mono| |apply (IH w1); assumption].
    intros w2 g2 (t2 & -> & Hh & Hw2). exists (t1 ++ t2). rewrite app_assoc. split; [reflexivity|].
    split; [|exact Hw2]. cbn [map]. eapply MHCons; [exact Hw|exact Htr|apply MRByte; exact Hr|exact Hsi|exact Hh].
Qed.

Lemma wp_sexec m : forall l (w : world) g, SI m w -> Forall (ser_traffic m) l ->
  wp (adv a) (sexec fuel app w l) g
     (fun w' g' => exists t, g' = g ++ t /\ mhist m w (micro l) t w' /\ SI m w').
Proof.
  induction l as [|o l IH]; intros w g Hw Hl.
  - cbn [sexec wp]. exists []. rewrite app_nil_r. split; [reflexivity|]. split; [constructor|exact Hw].
  - inversion Hl as [|? ? Ho Hl']; subst. destruct o as [o|i bs]; cbn [sexec].
    + eapply wp_call; [apply adv_mono|eapply (wp_ser_op m);
        [exact (si_wf _ _ Hw)|exact (si_mode _ _ Hw)|exact Ho]|].
      intros w1 g1 (t1 & -> & Hr & Hw1 & Hp).
      assert (SI m w1) as Hsi by (eapply (mrel_SI m w (MOp o)); [exact Hw|exact Ho|apply MROp; [exact Hr|exact Hp]|exact Hw1]).
      eapply wp_mono; [apply adv_mono| |apply (IH w1); assumption].
      intros w2 g2 (t2 & -> & Hh & Hw2). exists (t1 ++ t2). rewrite app_assoc. split; [reflexivity|].
      split; [|exact Hw2]. cbn [micro flat_map Datatypes.app].
      eapply MHCons; [exact Hw|exact Ho|apply MROp; [exact Hr|exact Hp]|exact Hsi|exact Hh].
    + rewrite (wf_dead _ _ (si_wf _ _ Hw)). cbn in Ho. destruct Ho as [Hi Hb].
      eapply wp_call; [apply adv_mono|apply (wp_ser_rx m i bs w g Hw Hi Hb)|].
      intros w1 g1 (t1 & -> & Hr & Hw1).
      eapply wp_mono; [apply adv_mono| |apply (IH w1); assumption].
      intros w2 g2 (t2 & -> & Hh & Hw2). exists (t1 ++ t2). rewrite app_assoc. split; [reflexivity|].
      split; [|exact Hw2]. cbn [micro flat_map]. eapply mhist_app; eassumption.
Qed.

(** Registration. *)
Definition ser_booted (m : mode) : world :=
  let s := mkSerial WaitSyncStart None 0 0 0 in
  let bd x := mkBinding 1 68 0 0 x true false s in
  match m with
  | Endpoint eid => mkWorld (set_policy (set_busses mctp_init 1 (BLive [mkBus eid TxEnabled []])) RouteEndpoint)
                            (bd true) (bd false)
  | Bridge => mkWorld (set_policy (set_busses mctp_init 2 (BLive [mkBus 0 TxEnabled []; mkBus 0 TxEnabled []])) RouteBridge)
                      (bd true) (bd true)
  end.
Definition ser_boot_ev (m : mode) : list event :=
  match m with
  | Endpoint eid => [EvAttach false eid; EvSetTx false true; EvRet 0]
  | Bridge => [EvAttach false 0; EvAttach true 0; EvSetTx false true; EvSetTx true true; EvRet 0]
  end.

Lemma wp_ser_boot m g : wp (adv a) (exec_op (serial_tx fuel) serial_start app serial_world (boot_op m)) g
  (fun w' g' => w' = ser_booted m /\ g' = g ++ ser_boot_ev m).
Proof.
  destruct m as [eid|]; cbn [boot_op]; unfold exec_op; cbn [wp bind h_alloc adv];
    (split; [|rewrite Ha; discriminate]); cbn; rewrite <- !app_assoc; split; reflexivity.
Qed.

Lemma ser_booted_booted m : booted m (ser_boot_ev m) (ser_booted m).
Proof.
  destruct m as [eid|].
  - constructor; try reflexivity; try (intros [|] b [= <-]; cbn; congruence).
    + constructor; cbn; try reflexivity; try congruence; try (unfold MCTP_MAX_MESSAGE_SIZE; lia).
      * split; congruence.
      * intros [|] b; [discriminate|reflexivity].
      * intros [|] b; [discriminate|intros [= <-]; constructor].
      * intros [|] b; [discriminate|intros [= <-]; cbn; intros _; lia].
      * intros [|]; cbv; intuition congruence.
      * repeat constructor; cbn; lia.
    + split; reflexivity.
    + repeat constructor.
    + intros [|] b; [discriminate|]. cbn. auto.
  - constructor; try reflexivity; try (intros [|] b [= <-]; cbn; congruence).
    + constructor; cbn; try reflexivity; try congruence; try (unfold MCTP_MAX_MESSAGE_SIZE; lia).
      * split; congruence.
      * intros [|] b Hb; reflexivity.
      * intros [|] b [= <-]; constructor.
      * intros [|] b [= <-]; cbn; intros _; lia.
      * intros [|]; cbv; intuition congruence.
      * repeat constructor; cbn; lia.
    + repeat split.
    + repeat constructor.
    + intros [|] b; cbn; auto 10.
Qed.

Lemma ser_booted_SI m : SI m (ser_booted m).
Proof.
  constructor; [exact (bt_wf _ _ _ (ser_booted_booted m))|exact (bt_mode _ _ _ (ser_booted_booted m))| |].
  - intros [|]; destruct m; repeat split.
  - intros [|]; destruct m; reflexivity.
Qed.

Lemma wp_ser_history m l : Forall (ser_traffic m) l ->
  wp (adv a) (ser_history fuel app m l) []
     (fun w tr => exists t, tr = ser_boot_ev m ++ t /\ mhist m (ser_booted m) (micro l) t w /\ SI m w).
Proof.
  intros Hl. unfold ser_history. cbn [sexec].
  eapply wp_call; [apply adv_mono|apply (wp_ser_boot m)|].
  intros w g [-> ->]. cbn [Datatypes.app].
  eapply wp_mono; [apply adv_mono| |apply (wp_sexec m l (ser_booted m)); [apply ser_booted_SI|exact Hl]].
  intros w' g (t & -> & Hh & Hw). eauto.
Qed.
End Walk.
