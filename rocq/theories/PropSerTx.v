(** PropSerTx: the serial transmit path (C27), and what goes wrong when memory or
    the write function fail (C24, C27). *)
From Verif Require Import Base Lists Prog PktBuf Core WP Walk CoreRel WalkCore CoreHist Spec Trace PropTx
  Crc Serial SpecSer SerRx SerWalk PropSer.

Lemma ser_escape_esc l : ser_escape l = flat_map esc l.
Proof.
  induction l as [|c l IH]; [reflexivity|]. cbn [ser_escape flat_map]. unfold esc at 1. rewrite IH.
  destruct ((c =? 126) || (c =? 125)); reflexivity.
Qed.
Lemma esc_zlen l : zlen (flat_map esc l) <= 2 * zlen l.
Proof.
  induction l as [|c l IH]; [cbn; lia|]. cbn [flat_map]. rewrite zlen_app, zlen_cons.
  assert (zlen (esc c) <= 2) by (unfold esc; destruct ((c =? 126) || (c =? 125)); cbn; lia). lia.
Qed.
Lemma wire_zlen body : zlen body <= 68 -> zlen (wire body) <= 142.
Proof. intros H. unfold wire. rewrite !zlen_app. pose proof (esc_zlen body). cbn [zlen length Z.of_nat]. unfold zlen in *. cbn [length]. lia. Qed.

Lemma serial_tx_wire fuel s p body : wf_pkt p -> pktbuf_bytes p = Some body -> zlen body <= 68 ->
  serial_tx fuel s p = (rc <- write_all fuel (wire body) ;; Ret (s, p, rc, false)).
Proof.
  intros Hw Hb Hl. unfold serial_tx. pose proof (pktbuf_size_wf p Hw) as Hsz.
  destruct (pktbuf_bytes_wf p Hw) as (bs & E & Hz). rewrite Hb in E. injection E as <-.
  assert (pk_end p - pk_hdr p = pktbuf_size p) as -> by (rewrite Hsz; destruct Hw; lia).
  rewrite <- Hz. pose proof (zlen_pos _ body).
  unfold w32, w8. rewrite !Z.mod_small by lia.
  unfold pktbuf_bytes in Hb. rewrite <- Hz in Hb. rewrite Hb. cbn [deref bind].
  rewrite ser_escape_esc. pose proof (esc_zlen body).
  replace (256 <? zlen (flat_map esc body) + 3 + 3) with false by lia.
  assert (crc16 (crc16 FCS_INIT_16 [SER_REV; zlen body]) body = fcs body) as ->.
  { unfold fcs, crc16. change (SER_REV) with 1. change FCS_INIT_16 with 65535. cbn [fold_left]. reflexivity. }
  assert (Z.shiftr (fcs body) 8 = fcs body / 256) as -> by (rewrite Z.shiftr_div_pow2 by lia; reflexivity).
  assert (Z.land (fcs body) 255 = fcs body mod 256) as -> by (change 255 with (Z.ones 8); rewrite Z.land_ones by lia; reflexivity).
  reflexivity.
Qed.

(** Each write offers exactly the bytes of the frame not yet accepted. *)
Definition offers (frame : list Z) (before : list event) (e : event) : Prop :=
  exists bs r, e = EvSWrite bs r /\ frame = sent before ++ bs /\ bs <> [] /\ r <= zlen bs.

Lemma sent_app a b : sent (a ++ b) = sent a ++ sent b.
Proof. apply flat_map_app. Qed.

Lemma wp_write_frame a frame : may_stall a = false -> forall n bs g tr0, (length bs <= n)%nat ->
  g = tr0 -> frame = sent g ++ bs -> each (offers frame) [] g ->
  wp (adv a) (write_all n bs) g (fun rc tr => each (offers frame) [] tr /\
    ((rc = 0 /\ sent tr = frame) \/
     (rc < 0 /\ exists pre rest, tr = pre ++ [EvSWrite rest rc] /\ rest <> [] /\ frame = sent tr ++ rest))).
Proof.
  intros Hst. induction n as [|n IH]; intros bs g tr0 Hn _ Hf He.
  - destruct bs; [|cbn in Hn; lia]. cbn [write_all wp]. rewrite app_nil_r in Hf. auto.
  - destruct bs as [|c bs]; cbn [write_all wp].
    + rewrite app_nil_r in Hf. auto.
    + cbn [h_swrite adv]. intros r Hr Hns.
      assert (each (offers frame) [] (g ++ [EvSWrite (c :: bs) r])) as He'.
      { apply each_app. split; [exact He|]. cbn [each]. split; [|exact I]. exists (c :: bs), r.
        split; [reflexivity|]. split; [exact Hf|]. split; [discriminate|exact Hr]. }
      destruct (r <? 0) eqn:E.
      * cbn [wp]. split; [exact He'|]. right. split; [lia|]. exists g, (c :: bs). split; [reflexivity|].
        split; [discriminate|]. rewrite sent_app. cbn [sent flat_map]. replace (Z.to_nat r) with 0%nat by lia. cbn [firstn].
        rewrite !app_nil_r. exact Hf.
      * eapply (IH (skipn (Z.to_nat r) (c :: bs)) _ _ ltac:(specialize (Hns Hst ltac:(discriminate)); rewrite skipn_length; lia) eq_refl).
        -- rewrite sent_app. cbn [sent flat_map]. rewrite app_nil_r, <- app_assoc, firstn_skipn. exact Hf.
        -- exact He'.
Qed.

(** *** C27: the frame of a packet of up to 68 bytes always fits; the call returns 0
    exactly when all of it was accepted in order, and otherwise the error of the
    failing write, with a strict prefix accepted *)
Theorem C27_tx a fuel s p body : may_stall a = false -> (256 <= fuel)%nat ->
  wf_pkt p -> pktbuf_bytes p = Some body -> zlen body <= 68 ->
  always a (serial_tx fuel s p) (fun '(s', p', rc, disabled) tr =>
    s' = s /\ p' = p /\ disabled = false /\
    at_each (offers (wire body)) tr /\
    ((rc = 0 /\ sent tr = wire body) \/
     (rc < 0 /\ exists pre rest, tr = pre ++ [EvSWrite rest rc] /\ rest <> [] /\ wire body = sent tr ++ rest))).
Proof.
  intros Hst Hfu Hw Hb Hl. apply adv_always. rewrite (serial_tx_wire fuel s p body Hw Hb Hl).
  eapply wp_call; [apply adv_mono|eapply (wp_write_frame a (wire body) Hst fuel (wire body) []); try reflexivity; try exact I|].
  - pose proof (wire_zlen body Hl). unfold zlen in *. lia.
  - intros rc tr [He H]. cbn [wp]. split; [reflexivity|]. split; [reflexivity|]. split; [reflexivity|].
    split; [now apply each_at_each|exact H].
Qed.

(** A write function that accepts nothing makes the call spin for ever: no number of
    iterations is enough. *)
Definition stalled : env := mkEnv (fun _ => true) (fun _ _ => Some 0) (fun _ => true) (fun _ _ => 0) (fun _ => 0).
Lemma stalled_ok : env_ok hostile stalled.
Proof. repeat split; cbn; intros; discriminate. Qed.

Lemma run_bind A B (p : prog A) (f : A -> prog B) : forall e n tr,
  run e n tr (bind p f) = match run e n tr p with Done x n' tr' => run e n' tr' (f x) | Fault x tr' => Fault x tr' end.
Proof.
  induction p as [a|x|r k IH|r v k IH|o l k IH|o bs k IH|bs k IH|k IH|ev k IH]; intros e n tr; cbn [bind run]; auto.
  - destruct (in_window o l); auto.
  - destruct (in_window o (zlen bs)); auto.
Qed.

Theorem C27_spins fuel s p body : wf_pkt p -> pktbuf_bytes p = Some body -> zlen body <= 68 ->
  exists tr, run stalled 0 [] (serial_tx fuel s p) = Fault OutOfFuel tr /\
             sent tr = [] /\ length tr = fuel.
Proof.
  intros Hw Hb Hl. rewrite (serial_tx_wire fuel s p body Hw Hb Hl).
  assert (forall n c bs k tr, sent tr = [] -> exists tr', run stalled k tr (write_all n (c :: bs)) = Fault OutOfFuel tr' /\
            sent tr' = [] /\ length tr' = (length tr + n)%nat) as H.
  { induction n as [|n IH]; intros c bs k tr Hs.
    - exists tr. cbn [write_all run]. split; [reflexivity|]. split; [exact Hs|lia].
    - cbn [write_all run e_swrite stalled]. pose proof (zlen_pos _ bs). rewrite zlen_cons, Z.min_l by lia.
      change (0 <? 0) with false. cbv iota. change (Z.to_nat 0) with 0%nat. cbn [skipn].
      destruct (IH c bs (S k) (tr ++ [EvSWrite (c :: bs) 0])) as (tr' & E1 & E2 & E3).
      + rewrite sent_app, Hs. reflexivity.
      + exists tr'. split; [exact E1|]. split; [exact E2|]. rewrite E3, app_length. cbn. lia. }
  destruct (H fuel 126 ([1; zlen body] ++ flat_map esc body ++ [fcs body / 256; fcs body mod 256; 126]) 0%nat [] eq_refl)
    as (tr & E1 & E2 & E3).
  exists tr. rewrite run_bind. unfold wire. change ([126; 1; zlen body] ++ ?x) with (126 :: [1; zlen body] ++ x).
  rewrite E1. auto.
Qed.

(** *** C24: with a failing allocation the next byte trips the assertion *)
Definition starved : env := mkEnv (fun n => Nat.ltb n 1) (fun _ _ => Some 0) (fun _ => true) (fun _ _ => 0) (fun _ => 1).
Theorem C24_refuted_oom fuel app eid len c : 4 <= len <= 68 ->
  can_fault hostile (ser_history fuel app (Endpoint eid) [SRx false [126; 1; len; c]]) AssertFail.
Proof.
  intros Hl. exists starved. eexists. split.
  - repeat split; cbn; intros; discriminate.
  - unfold ser_history. cbn.
    replace ((68 <? len) || (len <? 4)) with false by lia. reflexivity.
Qed.
(** Up to that byte nothing goes wrong, so it is the failed allocation. *)
Theorem C24_before_oom fuel app eid len : 4 <= len <= 68 ->
  exists w n tr, run starved 0 [] (ser_history fuel app (Endpoint eid) [SRx false [126; 1; len]]) = Done w n tr.
Proof.
  intros Hl. do 3 eexists. unfold ser_history. cbn.
  replace ((68 <? len) || (len <? 4)) with false by lia. reflexivity.
Qed.
