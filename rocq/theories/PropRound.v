(** PropRound: reassembly completeness (C06) and acceptance (C12). *)
From Verif Require Import Base Lists Prog PktBuf Core WP Walk CoreRel WalkCore CoreHist Spec SpecRx
  Trace PropTx PropMsg Reasm PropRx.

(** ** Header fields of the packets of a packetisation *)

Lemma flags_fields som eom seq to tag : 0 <= seq < 4 -> 0 <= tag < 8 ->
  let b := flags_byte som eom seq to tag in
  Z.testbit b 7 = som /\ Z.testbit b 6 = eom /\ (b / 16) mod 4 = seq /\ Z.testbit b 3 = to /\ b mod 8 = tag.
Proof.
  intros Hs Ht b.
  assert (seq = 0 \/ seq = 1 \/ seq = 2 \/ seq = 3) as Hseq by lia.
  assert (tag = 0 \/ tag = 1 \/ tag = 2 \/ tag = 3 \/ tag = 4 \/ tag = 5 \/ tag = 6 \/ tag = 7) as Htag by lia.
  unfold b, flags_byte. clear b Hs Ht.
  destruct som, eom, to; destruct Hseq as [->|[->|[->| ->]]];
    destruct Htag as [->|[->|[->|[->|[->|[->|[->| ->]]]]]]]; repeat split.
Qed.

Record pkt_no (src dest : Z) (to : bool) (tag mtu : Z) (k : nat) (last : bool) (p : list Z) : Prop := mkPktNo {
  pn_key : h_key p = (src, dest, tag);
  pn_to : h_to p = to;
  pn_som : h_som p = Nat.eqb k 0;
  pn_eom : h_eom p = last;
  pn_seq : h_seq p = Z.of_nat k mod 4;
  pn_len : if last then 4 < zlen p <= mtu + 4 else zlen p = mtu + 4 }.

Lemma packetised_no ver src dest to tag mtu msg pkts : 0 <= tag <= 7 ->
  packetised ver src dest to tag mtu msg pkts ->
  forall k p, nth_error pkts k = Some p ->
  pkt_no src dest to tag mtu k (Nat.eqb (S k) (length pkts)) p.
Proof.
  intros Htag [Hc Hp] k p Hk. specialize (Hp k p Hk). destruct Hp as [Hh Hl].
  set (hd := [ver mod 16; dest; src;
            flags_byte (Nat.eqb k 0) (Nat.eqb (S k) (length pkts)) (Z.of_nat k mod 4) to tag]) in *.
  assert (forall n, (n < 4)%nat -> nth n p 0 = nth n hd 0) as Hn.
  { intros n Hn. rewrite <- (firstn_skipn 4 p), app_nth1, Hh; [reflexivity|]. rewrite Hh. exact Hn. }
  pose proof (Hn 1%nat ltac:(lia)) as N1. pose proof (Hn 2%nat ltac:(lia)) as N2.
  pose proof (Hn 3%nat ltac:(lia)) as N3. cbn [hd nth] in N1, N2, N3.
  destruct (flags_fields (Nat.eqb k 0) (Nat.eqb (S k) (length pkts)) (Z.of_nat k mod 4) to tag)
    as (F1 & F2 & F3 & F4 & F5); [apply Z.mod_pos_bound; lia|lia|].
  constructor; unfold h_key, h_src, h_dest, h_tag, h_to, h_som, h_eom, h_seq; rewrite ?N1, ?N2, ?N3; auto.
  - congruence.
  - destruct (Nat.eqb (S k) (length pkts)); lia.
Qed.

(** ** Buffer growth *)

Definition good (J : Z) (c : mctx) : Prop :=
  c_alloc c = 0 \/ exists i, 0 <= i <= J /\ c_alloc c = 4096 * 2 ^ i.

Lemma add_pure_good J c pl max c' ok : 0 <= J -> max = 4096 * 2 ^ J -> max < 2 ^ 64 ->
  good J c -> wf_ctx c -> 0 < zlen pl <= 4096 -> add_pure c pl max = (c', ok) ->
  good J c' /\ (zlen (c_data c) + zlen pl <= max -> ok = true).
Proof.
  intros HJ Hmax Hm Hg Hw Hp. unfold add_pure. pose proof (zlen_pos _ (c_data c)) as Hd.
  assert (1 <= 2 ^ J) as H1 by (pose proof (Z.pow_pos_nonneg 2 J); lia).
  destruct (2 ^ 64 <=? zlen pl + zlen (c_data c)) eqn:E0; [intros [= <- <-]; split; [exact Hg|lia]|].
  destruct (c_alloc c <? zlen (c_data c) + zlen pl) eqn:E1; [|intros [= <- <-]; split; [exact Hg|auto]].
  destruct Hg as [Hg|(i & Hi & Hg)].
  - unfold new_alloc_size. rewrite Hg. cbn [Z.eqb]. replace (Z.max (zlen pl) 4096) with 4096 by lia.
    replace (max <? 4096) with false by lia. intros [= <- <-]. split; [|auto].
    right. exists 0. cbn. lia.
  - assert (1 <= 2 ^ i) as H2 by (pose proof (Z.pow_pos_nonneg 2 i); lia).
    pose proof (wc_data _ Hw) as Hda. pose proof (wc_alloc _ Hw) as Hal.
    unfold new_alloc_size. replace (c_alloc c =? 0) with false by lia.
    destruct (Z.eq_dec i J) as [->|Hne].
    { (* already at the limit *)
      assert (zlen (c_data c) + zlen pl > max) as Hgt by lia.
      assert (w64 (zlen pl + zlen (c_data c)) = zlen pl + zlen (c_data c)) as ->.
      { unfold w64. apply Z.mod_small. lia. }
      replace (max <? _) with true by lia. intros [= <- <-]. split; [|lia].
      right. exists J. split; [lia|exact Hg]. }
    assert (2 ^ (i + 1) <= 2 ^ J) as H3 by (apply Z.pow_le_mono_r; lia).
    rewrite Z.pow_add_r in H3 by lia. change (2 ^ 1) with 2 in H3.
    assert (w64 (c_alloc c * 2) = c_alloc c * 2) as -> by (unfold w64; apply Z.mod_small; lia).
    assert (w64 (zlen pl + zlen (c_data c)) = zlen pl + zlen (c_data c)) as ->
      by (unfold w64; apply Z.mod_small; lia).
    replace (Z.max _ _) with (c_alloc c * 2) by lia.
    replace (max <? c_alloc c * 2) with false by lia.
    intros [= <- <-]. split; [|auto]. right. exists (i + 1). cbn [c_alloc ctx_set_data ctx_set_buf].
    rewrite Z.pow_add_r by lia. change (2 ^ 1) with 2. split; lia.
Qed.

Lemma rx_pure_good J cs max bs cs' out : 0 <= J -> max = 4096 * 2 ^ J -> max < 2 ^ 64 ->
  4 < zlen bs <= 4100 -> Forall wf_ctx cs -> Forall (good J) cs ->
  rx_pure cs max bs = (cs', out) -> Forall (good J) cs'.
Proof.
  intros HJ Hmax Hm Hb Hw Hg Hr.
  pose proof (payload_zlen bs ltac:(lia)) as Hpl.
  assert (forall n, good J (nth n cs ctx0) /\ wf_ctx (nth n cs ctx0)) as Hn.
  { intros n. destruct (nth_in_or_default n cs ctx0) as [H| ->].
    - rewrite Forall_forall in *. auto.
    - split; [left; reflexivity|constructor; cbn; lia || auto]. }
  assert (forall c c' ok, good J c -> wf_ctx c -> add_pure c (p_payload bs) max = (c', ok) -> good J c') as Hadd.
  { intros c c' ok H1 H2 H3. refine (proj1 (add_pure_good J c _ max c' ok HJ Hmax Hm H1 H2 _ H3)). lia. }
  assert (forall n c, good J c -> wf_ctx c -> Forall (good J) (start_pure cs n c max bs)) as Hst.
  { intros n c H1 H2. unfold start_pure.
    destruct (add_pure (ctx_set_frag c (zlen bs)) (p_payload bs) max) as [c2 ok] eqn:E.
    apply upd_nth_Forall; [exact Hg|].
    assert (good J c2) as H. { eapply Hadd; [| |exact E]; [exact H1|now apply wf_ctx_frag]. }
    destruct ok; exact H. }
  revert Hr. unfold rx_pure. destruct (p_flags bs =? _); [congruence|].
  destruct (ctx_lookup cs _ _ _) as [k|].
  - destruct (Hn k) as [G W]. set (c := nth k cs ctx0) in *.
    destruct (p_flags bs =? FLAG_SOM).
    { intros [= <- <-]; apply Hst; [exact G|]. destruct W as [W1 W2 W3].
      constructor; cbn; auto; [destruct (c_buf c); intuition|].
      pose proof (zlen_pos _ (c_data c)). cbn in *. lia. }
    destruct (negb _); [intros [= <- <-]; apply upd_nth_Forall; auto|].
    destruct (p_flags bs =? FLAG_EOM).
    + destruct (_ <? _); [intros [= <- <-]; apply upd_nth_Forall; auto|].
      destruct (add_pure c _ _) as [c2 ok] eqn:E. intros [= <- <-]; apply upd_nth_Forall; auto.
      exact (Hadd _ _ _ G W E).
    + destruct (negb _); [intros [= <- <-]; apply upd_nth_Forall; auto|].
      destruct (add_pure c _ _) as [c2 ok] eqn:E. intros [= <- <-]; apply upd_nth_Forall; auto.
      pose proof (Hadd _ _ _ G W E). destruct ok; assumption.
  - destruct (p_flags bs =? FLAG_SOM); [|congruence].
    destruct (ctx_free_slot cs) as [k|]; [|congruence].
    destruct (Hn k) as [G W]. intros [= <- <-]. apply Hst; [exact G|]. destruct W as [W1 W2 W3].
    constructor; cbn; auto; [destruct (c_buf (nth k cs ctx0)); intuition|].
    pose proof (zlen_pos _ (c_data (nth k cs ctx0))). cbn in *. lia.
Qed.

(** ** One packet of the message *)

Section Pure.
Context (J : Z) (HJ : 0 <= J) (L : Z) (HL : L = 4096 * 2 ^ J) (HL64 : L < 2 ^ 64).
Context (src dest tag : Z) (Hsrc : src <> 0) (to : bool) (mtu : Z) (Hmtu : mtu <= 4096).
Notation k := (src, dest, tag).

Definition holds (cs : list mctx) (data : list Z) (frag seq : Z) : Prop :=
  exists n c, nth_error cs n = Some c /\ c_key c = k /\ c_data c = data /\ c_frag c = frag /\ c_seq c = seq.

Lemma lookup_is log cs n c : CI log cs -> nth_error cs n = Some c -> c_key c = k ->
  ctx_lookup cs src dest tag = Some n.
Proof.
  intros Hci Hn Hk. destruct (ctx_lookup cs src dest tag) as [n'|] eqn:El.
  - destruct (lookup_some _ _ _ _ _ El) as (_ & Hn' & Hk'). f_equal.
    eapply (ci_uniq _ _ Hci n' n); [exact Hn'|exact Hn| |congruence].
    unfold c_key in Hk'. congruence.
  - exfalso. exact (lookup_none _ _ _ _ El _ _ Hn Hk).
Qed.

Lemma step_first log cs bs no : CI log cs -> Forall wf_ctx cs -> Forall (good J) cs ->
  pkt_no src dest to tag mtu no false bs -> no = 0%nat -> 4 < zlen bs ->
  (exists n c, nth_error cs n = Some c /\ (c_src c = 0 \/ c_key c = k)) ->
  exists cs', rx_pure cs L bs = (cs', None) /\ holds cs' (payload bs) (zlen bs) (h_seq bs).
Proof.
  intros Hci Hw Hg [Hk Ht Hs He Hq Hl] -> Hz Hslot. cbn in Hs, Hl.
  unfold h_key in Hk. injection Hk as K1 K2 K3.
  unfold rx_pure. rewrite p_flags_spec, Hs, He, p_tag_spec.
  change (p_src bs) with (h_src bs). change (p_dest bs) with (h_dest bs). rewrite K1, K2, K3.
  change (Z.lor FLAG_SOM FLAG_EOM) with 192. unfold FLAG_SOM, FLAG_EOM.
  cbn -[start_pure ctx_lookup].
  assert (forall n c0 c, nth_error cs n = Some c0 -> c_alloc c = c_alloc c0 -> c_buf c = c_buf c0 ->
            c_key c = k -> c_data c = [] ->
            holds (start_pure cs n c L bs) (payload bs) (zlen bs) (h_seq bs)) as Hst.
  { intros n c0 c Hn Ha Hb Hck Hd.
    pose proof (nth_error_Forall _ _ _ _ _ Hw Hn) as Hwc. pose proof (nth_error_Forall _ _ _ _ _ Hg Hn) as Hgc.
    unfold start_pure. destruct (add_pure (ctx_set_frag c (zlen bs)) (p_payload bs) L) as [c2 ok] eqn:E.
    destruct (add_pure_fields _ _ _ _ _ E) as (E1 & E2 & E3 & E4 & E5 & E6 & E7).
    pose proof (payload_zlen bs ltac:(lia)) as Hpl.
    destruct (add_pure_good J (ctx_set_frag c (zlen bs)) (p_payload bs) L c2 ok HJ HL HL64) as [_ Hok].
    + unfold good. cbn. rewrite Ha. exact Hgc.
    + destruct Hwc as [W1 W2 W3]. constructor; cbn; rewrite ?Ha, ?Hb, ?Hd; auto.
      * destruct (c_buf c0); intuition.
      * pose proof (zlen_pos _ (c_data c0)). cbn. lia.
    + lia.
    + exact E.
    + assert (n < length cs)%nat as Hnl by (apply nth_error_Some; congruence).
      assert (1 <= 2 ^ J) by (pose proof (Z.pow_pos_nonneg 2 J); lia).
      assert (ok = true) as ->.
      { apply Hok. cbn [ctx_set_frag c_data]. rewrite Hd. change (zlen (@nil Z)) with 0. lia. }
      specialize (E6 eq_refl). cbn [ctx_set_frag c_data c_src c_dest c_tag c_frag] in *.
      exists n, (ctx_set_seq c2 (p_seq bs)). rewrite nth_error_upd, Nat.eqb_refl by exact Hnl.
      split; [reflexivity|]. unfold c_key in *. cbn [ctx_set_seq c_src c_dest c_tag c_data c_frag c_seq].
      rewrite E1, E2, E3, E4, E6, Hd, p_seq_spec. auto. }
  destruct (ctx_lookup cs src dest tag) as [n|] eqn:El.
  - destruct (lookup_some _ _ _ _ _ El) as (_ & Hn & Hck). eexists. split; [reflexivity|].
    eapply Hst; [exact Hn|reflexivity|reflexivity|exact Hck|reflexivity].
  - destruct (ctx_free_slot cs) as [n|] eqn:Ef.
    + destruct (free_some _ _ Ef) as (_ & Hn & _). eexists. split; [reflexivity|].
      eapply Hst; [exact Hn|reflexivity|reflexivity|reflexivity|reflexivity].
    + exfalso. destruct Hslot as (n & c & Hn & [Hc|Hc]).
      * exact (free_none _ Ef _ _ Hn Hc).
      * exact (lookup_none _ _ _ _ El _ _ Hn Hc).
Qed.

Lemma step_next log cs bs no last data : CI log cs -> Forall wf_ctx cs -> Forall (good J) cs ->
  pkt_no src dest to tag mtu (S no) last bs -> 4 < zlen bs ->
  holds cs data (mtu + 4) (Z.of_nat no mod 4) -> zlen data + zlen (payload bs) <= L ->
  exists cs', rx_pure cs L bs = (cs', if last then Some (src, dest, data ++ payload bs) else None) /\
    (last = false -> holds cs' (data ++ payload bs) (mtu + 4) (Z.of_nat (S no) mod 4)).
Proof.
  intros Hci Hw Hg [Hk Ht Hs He Hq Hl] Hz (n & c & Hn & Hck & Hd & Hf & Hsq) Hsz.
  cbn in Hs. pose proof (lookup_is _ _ _ _ Hci Hn Hck) as Elk.
  unfold h_key in Hk. injection Hk as K1 K2 K3.
  unfold rx_pure. rewrite p_flags_spec, Hs, He, p_tag_spec, p_seq_spec.
  change (p_src bs) with (h_src bs). change (p_dest bs) with (h_dest bs). rewrite K1, K2, K3, Elk.
  change (Z.lor FLAG_SOM FLAG_EOM) with 192. unfold FLAG_SOM, FLAG_EOM.
  rewrite (nth_error_nth _ _ ctx0 Hn). rewrite Hsq, Hq, Hf.
  assert ((Z.of_nat no mod 4 + 1) mod 4 = Z.of_nat (S no) mod 4) as ->.
  { rewrite Zplus_mod_idemp_l. f_equal. lia. }
  rewrite Z.eqb_refl. cbn [negb].
  change (p_payload bs) with (payload bs).
  destruct (add_pure c (payload bs) L) as [c2 ok] eqn:E.
  destruct (add_pure_fields _ _ _ _ _ E) as (E1 & E2 & E3 & E4 & E5 & E6 & E7).
  pose proof (payload_zlen bs ltac:(lia)) as Hpl. change (p_payload bs) with (payload bs) in Hpl.
  assert (n < length cs)%nat as Hnl by (apply nth_error_Some; congruence).
  destruct (add_pure_good J c (payload bs) L c2 ok HJ HL HL64
              (nth_error_Forall _ _ _ _ _ Hg Hn) (nth_error_Forall _ _ _ _ _ Hw Hn)
              ltac:(destruct last; lia) E) as [_ Hok].
  rewrite Hd in Hok. specialize (Hok Hsz). subst ok. specialize (E6 eq_refl).
  unfold c_key in Hck. injection Hck as C1 C2 C3.
  destruct last; cbn -[Z.modulo Z.of_nat].
  - replace (mtu + 4 <? zlen bs) with false by lia. eexists. split; [|discriminate].
    rewrite E1, E2, E6, C1, C2, Hd. reflexivity.
  - replace (zlen bs =? mtu + 4) with true by lia. cbn [negb]. eexists. split; [reflexivity|].
    intros _. exists n, (ctx_set_seq c2 (Z.of_nat (S no) mod 4)).
    rewrite nth_error_upd, Nat.eqb_refl by exact Hnl. split; [reflexivity|].
    unfold c_key. cbn -[Z.modulo Z.of_nat]. rewrite E1, E2, E3, E4, E6, Hd. repeat split; congruence.
Qed.

End Pure.

(** ** Deliveries of one operation *)

Definition ends_msg (t : list event) : Prop :=
  exists a i sr d to tag msg, t = a ++ [EvMsg i sr d to tag msg].

Lemma deliveries_app t t' : ~ ends_msg t -> deliveries (t ++ t') = deliveries t ++ deliveries t'.
Proof.
  induction t as [|e t IH]; intros Hn; [reflexivity|].
  assert (~ ends_msg t) as Hn'.
  { intros (a & i & sr & d & to & tag & msg & ->). apply Hn. exists (e :: a), i, sr, d, to, tag, msg. reflexivity. }
  specialize (IH Hn'). cbn [app deliveries]. destruct e; try exact IH. rewrite IH. cbn [app]. do 2 f_equal.
  destruct t as [|e t]; [|reflexivity]. exfalso. apply Hn.
  exists [], bus, src, dest, tag_owner, tag, msg. reflexivity.
Qed.

Lemma deliveries_for_app k t t' : ~ ends_msg t ->
  deliveries_for k (t ++ t') = deliveries_for k t ++ deliveries_for k t'.
Proof. intros Hn. unfold deliveries_for. now rewrite deliveries_app, filter_app. Qed.

Lemma quiet_not_ends t : Forall quiet_ev t -> ~ ends_msg t.
Proof.
  intros Ht (a & i & sr & d & to & tag & msg & ->). apply Forall_app in Ht. destruct Ht as [_ Ht].
  inversion Ht as [|? ? H1]; subst. exact H1.
Qed.
Lemma free_not_ends t n : ~ ends_msg (t ++ [EvFree n]).
Proof.
  intros (a & i & sr & d & to & tag & msg & E). apply app_inj_tail in E. destruct E; discriminate.
Qed.

Section Round.
Context {B : Type} (f : txfun B) (s : startfun B) (appl : event -> list txreq).
Context (b0 b1 : binding B).
Notation world := (world B).

(** The callback for a message completed by packet [bs]. *)
Definition cb_of (m : mode) (w : world) (i : bool) (bs msg : list Z) : option event :=
  match m with
  | Endpoint _ => local_event w i (h_src bs) (h_to bs) (h_tag bs) msg
  | Bridge => None
  end.

Lemma rx_case_deliveries m (w : world) i bs w' t1 x y n : rx_case m w i bs w' t1 ->
  quiet_ev x -> (match y with EvBusRx _ _ _ _ => True | _ => False end) ->
  deliveries (x :: y :: t1 ++ [EvFree n]) =
  (if taken (mode_local m) bs then
     match snd (rx_pure (m_ctxs (w_m w)) (m_max (w_m w)) bs) with
     | Some (_, _, msg) => [mkDel (h_src bs) (h_dest bs) (h_to bs) (h_tag bs) msg (cb_of m w i bs msg)]
     | None => []
     end
   else []).
Proof.
  intros Hc Hx Hy.
  assert (forall t, deliveries (x :: y :: t) = deliveries t) as ->.
  { intros t. destruct x; cbn in Hx; try contradiction; destruct y; cbn in Hy; try contradiction; reflexivity. }
  destruct Hc as [Hl Hw'|Hl Hf Hw'|cs Ht Hp Hw'|cs msg t2 Ht Hp Hw' Hm].
  - unfold taken. replace (4 <? zlen bs) with false by lia. reflexivity.
  - unfold taken. rewrite Hf, andb_false_r, deliveries_quiet by apply capev_quiet. reflexivity.
  - rewrite Ht, Hp, deliveries_quiet by apply capev_quiet. reflexivity.
  - rewrite Ht, Hp, <- app_assoc, deliveries_quiet by apply capev_quiet. cbn [app deliveries snd].
    assert (forall t, Forall tx_ev t -> deliveries (t ++ [EvFree n]) = [] /\ callback_of (t ++ [EvFree n]) = None) as Hq.
    { intros t H. rewrite deliveries_quiet by now apply tx_ev_quiet. split; [reflexivity|].
      destruct H as [|e t He _]; [reflexivity|]. destruct e; cbn in *; tauto. }
    unfold cb_of. destruct m as [eid|].
    + destruct (local_event w i (h_src bs) (h_to bs) (h_tag bs) msg) as [e|] eqn:Ee.
      * destruct Hm as (t3 & -> & H3 & _). destruct (Hq _ H3) as [Hd _].
        destruct (local_event_shape _ _ _ _ _ _ _ Ee) as [-> | ->]; cbn [app deliveries callback_of];
          rewrite Hd; reflexivity.
      * destruct Hm as [-> _]. reflexivity.
    + destruct Hm as (rc & Hm). destruct (Hq t2) as [-> ->]; [eapply on_bus_ev; exact Hm|]. reflexivity.
Qed.

(** One operation: its deliveries and its effect on the contexts. *)
Inductive op_eff (m : mode) (w : world) : @op B -> list delivery -> list mctx -> Prop :=
| EffNo o : (forall i p bs, o = OpRx i p -> pkt_is p bs -> taken (mode_local m) bs = false) ->
    op_eff m w o [] (m_ctxs (w_m w))
| EffRx i p bs cs out : pkt_is p bs -> taken (mode_local m) bs = true ->
    rx_pure (m_ctxs (w_m w)) (m_max (w_m w)) bs = (cs, out) ->
    op_eff m w (OpRx i p)
      match out with
      | Some (_, _, msg) => [mkDel (h_src bs) (h_dest bs) (h_to bs) (h_tag bs) msg (cb_of m w i bs msg)]
      | None => []
      end cs.

Lemma op_eff_inv m (w : world) o D C : op_eff m w o D C ->
  (D = [] /\ C = m_ctxs (w_m w) /\
   forall i p bs, o = OpRx i p -> pkt_is p bs -> taken (mode_local m) bs = false) \/
  exists i p bs out, o = OpRx i p /\ pkt_is p bs /\ taken (mode_local m) bs = true /\
    rx_pure (m_ctxs (w_m w)) (m_max (w_m w)) bs = (C, out) /\
    D = match out with
        | Some (_, _, msg) => [mkDel (h_src bs) (h_dest bs) (h_to bs) (h_tag bs) msg (cb_of m w i bs msg)]
        | None => []
        end.
Proof. intros []; [left; auto|right; eauto 10]. Qed.

Lemma op_effect m (w : world) o t w' : WF Strict w -> mode_ok m w -> op_rel w o t w' ->
  op_eff m w o (deliveries t) (m_ctxs (w_m w')) /\ ~ ends_msg t /\
  m_max (w_m w') = match o with OpSetMax n => n | _ => m_max (w_m w) end.
Proof.
  intros Hw Hm Hr.
  assert ((exists i p, o = OpRx i p) \/ forall i p, o <> OpRx i p) as [(i & p & ->)|Ho].
  { destruct o; eauto; right; discriminate. }
  2:{ destruct (op_other _ _ _ _ Hr Ho) as (Hc & Hq & Hmx). rewrite Hc.
      rewrite <- (app_nil_r t) at 1. rewrite deliveries_quiet by exact Hq. cbn.
      split; [|split; [now apply quiet_not_ends|exact Hmx]]. constructor. intros i p bs E. now destruct (Ho i p). }
  assert (exists bs, pkt_is p bs) as (bs & Hp).
  { inversion Hr; subst. unfold pkt_is. eauto. }
  assert (m_max (w_m w') = m_max (w_m w)) as Emax.
  { inversion Hr as [| | | | | | |i' p' bytes ap t'' w'' Hby Hrx]; subst.
    destruct (rx_rel_steps _ _ _ _ _ _ Hrx) as (cs & b & t1 & Hs & _ & _).
    rewrite (steps_max _ _ _ Hs). reflexivity. }
  destruct (rx_cases _ _ _ _ _ _ _ Hw Hm Hp Hr) as (t1 & -> & Hc).
  split; [|split; [|exact Emax]].
  2:{ set (x := EvAlloc _). set (y := EvBusRx _ _ _ _).
      change (x :: y :: t1 ++ [EvFree (m_next (w_m w))]) with ((x :: y :: t1) ++ [EvFree (m_next (w_m w))]).
      apply free_not_ends. }
  rewrite (rx_case_deliveries _ _ _ _ _ _ (EvAlloc (m_next (w_m w))) (EvBusRx i (mode_local m) (m_next (w_m w)) bs) _ Hc) by exact I.
  destruct (rx_case_ctxs _ _ _ _ _ _ Hc) as [E|(Ht & out & Hpure)].
  - destruct (taken (mode_local m) bs) eqn:Ht.
    + destruct Hc as [Hl Hw'|Hl Hf Hw'|cs Ht' Hpu Hw'|cs msg t2 Ht' Hpu Hw' Hm'].
      * exfalso. unfold taken in Ht. apply andb_true_iff in Ht. lia.
      * exfalso. unfold taken in Ht. rewrite Hf, andb_false_r in Ht. discriminate.
      * subst w'. cbn [setc set_m set_ctxs w_m m_ctxs]. rewrite Hpu. eapply (EffRx m w i p bs cs None); eassumption.
      * rewrite Hw'. rewrite Hpu. eapply (EffRx m w i p bs cs (Some (h_src bs, h_dest bs, msg))); eassumption.
    + rewrite E. constructor. intros i' p' bs' [= <- <-] Hp'. unfold pkt_is in *. congruence.
  - rewrite Ht, Hpure. cbn [snd]. eapply (EffRx m w i p bs _ out); eassumption.
Qed.

(** Packets of other keys deliver nothing with this key. *)
Lemma other_key_quiet m (w : world) k l t w' : hist w l t w' -> WF Strict w -> mode_ok m w ->
  packets_for (mode_local m) k l = [] -> deliveries_for k t = [].
Proof.
  induction 1 as [w|w o t1 w1 l t2 w2 Ho Hw1 Hh IH]; intros Hw Hm Hk; [reflexivity|].
  cbn [packets_for flat_map] in Hk. apply app_eq_nil in Hk. destruct Hk as [Hk0 Hk].
  destruct (op_effect _ _ _ _ _ Hw Hm Ho) as (He & Hn & _).
  rewrite deliveries_for_app by exact Hn.
  rewrite (IH Hw1 (op_rel_mode _ _ _ _ _ Hm Ho) Hk), app_nil_r.
  unfold deliveries_for. remember (deliveries t1) as D eqn:ED. remember (m_ctxs (w_m w1)) as C eqn:EC.
  clear Ho. destruct He as [o H0|i p bs cs out Hp Ht Hpure]; [reflexivity|].
  unfold pkt_is in Hp. rewrite Hp, Ht in Hk0. cbn [andb] in Hk0.
  destruct out as [[[sr d] msg]|]; [|reflexivity].
  cbn [filter]. unfold d_key. cbn [d_src d_dest d_tag]. change (h_src bs, h_dest bs, h_tag bs) with (h_key bs).
  destruct (key_eqb (h_key bs) k); [discriminate|reflexivity].
Qed.

Section OneMessage.
Context (m : mode).
Context (J : Z) (HJ : 0 <= J) (L : Z) (HL : L = 4096 * 2 ^ J) (HL64 : L < 2 ^ 64).
Context (src dest tag : Z) (Hsrc : src <> 0) (to : bool) (mtu : Z) (Hmtu : mtu <= 4096).
Notation k := (src, dest, tag).

(** Everything known about the receiver besides the message itself. *)
Record ready (tr : list event) (w : world) : Prop := mkReady {
  rd_wf : WF Strict w; rd_mode : mode_ok m w; rd_ci : CI (rx_log tr) (m_ctxs (w_m w));
  rd_good : Forall (good J) (m_ctxs (w_m w)); rd_max : m_max (w_m w) = L }.

(** Packets are small and the configuration stays. *)
Definition mild (l : list (@op B)) : Prop :=
  no_config l /\ forall i p bs, In (OpRx i p) l -> pkt_is p bs -> zlen bs <= 4100.

Lemma mild_cons o l : mild (o :: l) -> mild l.
Proof.
  intros [H1 H2]. inversion H1; subst. split; [assumption|]. intros i p bs Hin. apply (H2 i p bs). now right.
Qed.

Lemma op_ready tr (w : world) o l t w' : ready tr w -> op_rel w o t w' -> mild (o :: l) -> WF Strict w' ->
  ready (tr ++ t) w'.
Proof.
  intros [Hw Hm Hci Hg Hx] Hr [Hc Hs] Hw'.
  destruct (op_effect _ _ _ _ _ Hw Hm Hr) as (He & _ & Hmx).
  constructor; [exact Hw'|eapply op_rel_mode; eassumption| | |].
  - refine (proj2 (op_CI m w o t w' tr Hw Hm Hr Hci)).
  - clear Hr Hmx Hw'. remember (deliveries t) as D. remember (m_ctxs (w_m w')) as C.
    destruct He as [o H0|i p bs cs out Hp Ht Hpure]; [exact Hg|].
    rewrite Hx in Hpure. eapply (rx_pure_good J _ L); [exact HJ|exact HL|exact HL64| | | |exact Hpure].
    + unfold taken in Ht. apply andb_true_iff in Ht. split; [lia|].
      eapply Hs; [left; reflexivity|exact Hp].
    + exact (wf_ctxs _ _ Hw).
    + exact Hg.
  - rewrite Hmx. inversion Hc; subst. destruct o; try exact Hx. contradiction.
Qed.

Lemma op_rx_flag (w : world) o t w' : WF Strict w -> op_rel w o t w' ->
  match o with OpSetRx _ => True | _ => m_rx (w_m w') = m_rx (w_m w) end /\
  forall j, bd_ctrl (bnd w' j) = bd_ctrl (bnd w j).
Proof.
  intros Hw Hr.
  assert (forall w1 w2 : world, stable w1 w2 -> m_rx (w_m w2) = m_rx (w_m w1) /\
            forall j, bd_ctrl (bnd w2 j) = bd_ctrl (bnd w1 j)) as Hst.
  { intros w1 w2 (H1 & H2 & _). split; [unfold rest in H1; congruence|].
    intros j. specialize (H2 j). unfold bconst in H2. congruence. }
  assert (forall b st, m_rx (w_m (set_bus w b st)) = m_rx (w_m w) /\
            forall j, bd_ctrl (bnd (set_bus w b st) j) = bd_ctrl (bnd w j)) as Hb.
  { intros b st. split; [pose proof (rest_set_bus _ w b st) as Hre; unfold rest in Hre; congruence|].
    intros j. unfold set_bus. destruct (m_busses (w_m w)); destruct j; reflexivity. }
  destruct Hr as [n|b|b|i b|i n|eid to' tag' msg rc t w' Hr|i en t w' Hr|i p bytes ap t w' Hby Hr].
  1-3: split; [reflexivity || exact I|intros [|]; reflexivity].
  1-2: split; [destruct i; reflexivity|intros [|]; destruct i; reflexivity].
  - apply Hst. eapply steps_stable, message_rel_steps; exact Hr.
  - destruct Hr as [b en Hb' Hc|b Hb' Hst' Hsz|b Hb' Hst'|b t w' Hb' Hst' Ht]; try apply Hb.
    + auto.
    + destruct (Hst _ _ (steps_stable _ _ _ _ (txs_steps _ _ _ _ _ Ht))) as [E1 E2].
      destruct (Hb i (set_st b TxEnabled)) as [E3 E4]. split; [congruence|]. intros j. rewrite E2, E4. reflexivity.
  - destruct (rx_rel_steps _ _ _ _ _ _ Hr) as (cs & b & t1 & Hs & _ & _).
    destruct (Hst _ _ (steps_stable _ _ _ _ Hs)) as [E1 E2]. split; [exact E1|]. intros j.
    rewrite E2. destruct j; reflexivity.
Qed.

Lemma steps_hist_rx (w : world) l t w' : hist w l t w' -> WF Strict w -> mild l ->
  m_rx (w_m w') = m_rx (w_m w) /\ forall j, bd_ctrl (bnd w' j) = bd_ctrl (bnd w j).
Proof.
  induction 1 as [w|w o t1 w1 l t2 w2 Ho Hw1 Hh IH]; intros Hw Hl; [auto|].
  destruct (IH Hw1 (mild_cons _ _ Hl)) as [E1 E2]. destruct (op_rx_flag _ _ _ _ Hw Ho) as [E3 E4].
  destruct Hl as [Hc _]. inversion Hc as [|? ? Hc1]; subst. split.
  - rewrite E1. destruct o; try exact E3. contradiction.
  - intros j. now rewrite E2, E4.
Qed.

(** The callback of the message, if the application listens. *)
Definition cb_good (w : world) (msg : list Z) (d : delivery) : Prop :=
  forall eid, m = Endpoint eid -> m_rx (w_m w) = true ->
    (forall i, bd_ctrl (bnd w i) && transport_request msg = false) ->
    d_cb d = Some (EvRx src to tag msg).

Lemma rest_progress ver msg pkts : packetised ver src dest to tag mtu msg pkts -> 0 <= tag <= 7 ->
  zlen msg <= L ->
  forall (w : world) l t w', hist w l t w' -> forall tr donep rest,
  ready tr w -> mild l -> pkts = donep ++ rest -> donep <> [] -> rest <> [] ->
  packets_for (mode_local m) k l = rest ->
  holds src dest tag (m_ctxs (w_m w)) (concat (map payload donep)) (mtu + 4)
        (Z.of_nat (length donep - 1) mod 4) ->
  exists d, deliveries_for k t = [d] /\ d_msg d = msg /\ d_to d = to /\ d_key d = k /\ cb_good w msg d.
Proof.
  intros Hpk Htag Hsz w l t w'.
  induction 1 as [w|w o t1 w1 l t2 w2 Ho Hw1 Hh IH]; intros tr donep rest Hrd Hl Epk Hd Hr Hpf Hho.
  { exfalso. apply Hr. rewrite <- Hpf. reflexivity. }
  pose proof (op_ready _ _ _ _ _ _ Hrd Ho Hl Hw1) as Hrd1.
  destruct (op_effect _ _ _ _ _ (rd_wf _ _ Hrd) (rd_mode _ _ Hrd) Ho) as (He & Hn & _).
  destruct (op_rx_flag _ _ _ _ (rd_wf _ _ Hrd) Ho) as [Erx Ect].
  assert (m_rx (w_m w1) = m_rx (w_m w)) as Erx'.
  { destruct Hl as [Hc _]. inversion Hc as [|? ? Hc1]; subst. destruct o; try exact Erx. contradiction. }
  rewrite deliveries_for_app by exact Hn. cbn [packets_for flat_map] in Hpf.
  assert (forall d msg', cb_good w1 msg' d -> cb_good w msg' d) as Hcb.
  { intros d msg' H eid Em Hrx Hct. apply (H eid Em); [congruence|]. intros j. rewrite Ect. apply Hct. }
  (* an operation that does not concern this message *)
  assert (match o with
          | OpRx _ p => match pktbuf_bytes p with
              | Some bs => if taken (mode_local m) bs && key_eqb (h_key bs) k then [bs] else []
              | None => [] end
          | _ => [] end = [] ->
          deliveries_for k t1 = [] /\
          holds src dest tag (m_ctxs (w_m w1)) (concat (map payload donep)) (mtu + 4)
            (Z.of_nat (length donep - 1) mod 4)) as Hskip.
  { intros H0. destruct (op_eff_inv _ _ _ _ _ He) as [(E2 & E3 & H0')|(i & p & bs & out & -> & Hp & Ht & Hpure & E2)].
    - rewrite E3. unfold deliveries_for. rewrite E2. auto.
    - unfold pkt_is in Hp. rewrite Hp, Ht in H0. cbn [andb] in H0.
      destruct (key_eqb (h_key bs) k) eqn:Ek; [discriminate|].
      assert (h_key bs <> k) as Hne by (intros E; apply key_eqb_spec in E; congruence).
      split.
      + unfold deliveries_for. rewrite E2. destruct out as [[[sr d] ms]|]; [|reflexivity].
        cbn [filter]. unfold d_key. cbn [d_src d_dest d_tag].
        change (h_src bs, h_dest bs, h_tag bs) with (h_key bs). rewrite Ek. reflexivity.
      + destruct Hho as (n & c & Hc1 & Hc2 & Hc3 & Hc4 & Hc5). exists n, c. split; [|auto].
        eapply rx_pure_other; [exact Hpure|exact Hc1| |congruence].
        unfold c_key in Hc2. congruence. }
  match type of Hpf with ?x ++ _ = _ => destruct x as [|bs0 x0] eqn:Ex end.
  - destruct (Hskip eq_refl) as [-> Hho1]. cbn [app] in *.
    destruct (IH _ donep rest Hrd1 (mild_cons _ _ Hl) Epk Hd Hr Hpf Hho1) as (d & Q1 & Q2 & Q3 & Q4 & Q5).
    exists d. auto 10.
  - clear Hskip. destruct o as [| | | | | | |i p| | | |]; try discriminate.
    destruct (pktbuf_bytes p) as [bs|] eqn:Hp; [|discriminate].
    destruct (taken (mode_local m) bs && key_eqb (h_key bs) k) eqn:Etk; [|discriminate].
    injection Ex as <- <-. cbn [app] in Hpf. apply andb_true_iff in Etk. destruct Etk as [Ht Hk].
    apply key_eqb_spec in Hk.
    destruct rest as [|bs' rest]; [discriminate|]. injection Hpf as <- Hpf.
    assert (nth_error pkts (length donep) = Some bs) as Hnth.
    { rewrite Epk, nth_error_app2, Nat.sub_diag by lia. reflexivity. }
    pose proof (packetised_no _ _ _ _ _ _ _ _ Htag Hpk _ _ Hnth) as Hno.
    destruct (length donep) as [|no] eqn:El; [destruct donep; [contradiction|discriminate]|].
    replace (S no - 1)%nat with no in Hho by lia.
    assert (concat (map payload pkts) = msg) as Hmsg by (exact (proj1 Hpk)).
    assert (zlen (concat (map payload donep)) + zlen (payload bs) <= L) as Hfit.
    { rewrite <- Hmsg in Hsz. rewrite Epk, map_app, concat_app, zlen_app in Hsz. cbn [map concat] in Hsz.
      rewrite zlen_app in Hsz. pose proof (zlen_pos _ (concat (map payload rest))). lia. }
    assert (4 < zlen bs) as Hz by (unfold taken in Ht; apply andb_true_iff in Ht; lia).
    destruct (step_next J HJ L HL HL64 src dest tag Hsrc to mtu Hmtu _ _ bs no
                (Nat.eqb (S (S no)) (length pkts)) _ (rd_ci _ _ Hrd) (wf_ctxs _ _ (rd_wf _ _ Hrd))
                (rd_good _ _ Hrd) Hno Hz Hho Hfit) as (cs' & Hpure & Hnext).
    destruct (op_eff_inv _ _ _ _ _ He) as [(E2 & E3 & H0')|(i' & p' & bs' & out & E1 & Hp' & Ht' & Hpure' & E2)].
    { exfalso. specialize (H0' i p bs eq_refl Hp). congruence. }
    injection E1 as <- <-. unfold pkt_is in Hp'. rewrite Hp in Hp'. injection Hp' as <-.
    rewrite (rd_max _ _ Hrd) in Hpure'. rewrite Hpure in Hpure'. apply pair_equal_spec in Hpure'. destruct Hpure' as [Ecs Eout]. subst pkts msg.
    unfold h_key in Hk. injection Hk as K1 K2 K3.
    destruct (Nat.eqb_spec (S (S no)) (length (donep ++ bs :: rest))) as [Elast|Enl].
    + (* last packet *)
      assert (rest = []) as ->.
      { rewrite app_length in Elast. cbn in Elast. rewrite El in Elast. destruct rest; [reflexivity|cbn in Elast; lia]. }
      rewrite (other_key_quiet m _ k _ _ _ Hh Hw1 (rd_mode _ _ Hrd1) Hpf), app_nil_r.
      unfold deliveries_for. rewrite E2, <- Eout. cbn [filter]. unfold d_key. cbn [d_src d_dest d_tag].
      rewrite K1, K2, K3, key_eqb_refl. eexists. split; [reflexivity|]. cbn [d_msg d_to].
      rewrite map_app, concat_app. cbn [map concat]. rewrite app_nil_r.
      split; [reflexivity|]. split; [exact (pn_to _ _ _ _ _ _ _ _ Hno)|]. split; [reflexivity|].
      intros eid Em Hrx Hct. cbn [d_cb]. unfold cb_of. rewrite Em. unfold local_event.
      rewrite transport_request_spec, andb_comm, K1, K3, (pn_to _ _ _ _ _ _ _ _ Hno).
      rewrite (Hct i), Hrx. reflexivity.
    + (* more to come *)
      assert (rest <> []) as Hr'.
      { intros ->. apply Enl. rewrite app_length. cbn. lia. }
      unfold deliveries_for at 1. rewrite E2, <- Eout. cbn [filter app].
      destruct (IH _ (donep ++ [bs]) rest Hrd1 (mild_cons _ _ Hl)) as (d & Q1 & Q2 & Q3 & Q4 & Q5).
      * rewrite <- app_assoc. reflexivity.
      * destruct donep; discriminate.
      * exact Hr'.
      * exact Hpf.
      * rewrite map_app, concat_app, app_length. cbn [map concat length].
        rewrite app_nil_r, El. replace (S no + 1 - 1)%nat with (S no) by lia.
        rewrite <- Ecs. apply Hnext. reflexivity.
      * exists d. auto 10.
Qed.


End OneMessage.

Lemma always_ops m (w : world) tr l : reaches f s appl m b0 b1 w tr -> Forall (traffic m) l ->
  always no_oom (xops f s appl w l) (fun w' t => hist w l t w').
Proof.
  intros Hr Hl. destruct (reaches_spec _ _ _ _ _ _ _ _ Hr) as (Hw & Hm & Hf & _).
  apply adv_always. eapply wp_mono; [apply adv_mono| |
    eapply (wp_xops f s appl no_oom eq_refl Hf m l w [] Hw Hm Hl)].
  intros w' g (t & -> & Hrel & _). exact Hrel.
Qed.

(** The limit in force at the end of a history. *)
Lemma hist_limit m (P : Z -> list Z -> Prop) : forall (w : world) l t w', hist w l t w' ->
  WF Strict w -> mode_ok m w -> forall l', limited P (m_max (w_m w)) (l ++ l') ->
  limited P (m_max (w_m w)) l /\ limited P (m_max (w_m w')) l'.
Proof.
  intros w l t w'. induction 1 as [w|w o t1 w1 l t2 w2 Ho Hw1 Hh IH]; intros Hw Hm l' Hl; [split; [exact I|exact Hl]|].
  destruct (op_effect _ _ _ _ _ Hw Hm Ho) as (_ & _ & Emax).
  specialize (IH Hw1 (op_rel_mode _ _ _ _ _ Hm Ho) l'). rewrite Emax in IH.
  destruct o; cbn [limited app] in *; tauto.
Qed.

(** Reassembly has room for key [k]. *)
Definition room (w : world) (k : key) : Prop :=
  In k (map fst (partials w)) \/ (length (partials w) < 16)%nat.

Lemma few_partials (cs : list mctx) :
  (length (flat_map (fun c => if (c_src c =? 0)%Z then [] else [((c_src c, c_dest c, c_tag c), c_data c)]) cs)
     < length cs)%nat ->
  exists n c, nth_error cs n = Some c /\ c_src c = 0.
Proof.
  induction cs as [|c cs IH]; cbn [flat_map length]; [lia|]. rewrite app_length.
  destruct (Z.eqb_spec (c_src c) 0) as [E|E]; cbn [length]; intros H.
  - exists 0%nat, c. auto.
  - destruct IH as (n & c' & Hn & Hc); [lia|]. exists (S n), c'. auto.
Qed.

Lemma packets_for_in local k (l : list (@op B)) bs : In bs (packets_for local k l) ->
  taken local bs = true /\ h_key bs = k.
Proof.
  unfold packets_for. rewrite in_flat_map. intros (o & _ & Hin). destruct o as [| | | | | | |j p| | | |]; try contradiction.
  destruct (pktbuf_bytes p) as [bs'|]; [|contradiction].
  destruct (taken local bs' && key_eqb (h_key bs') k) eqn:E; [|contradiction].
  destruct Hin as [->|[]]. apply andb_true_iff in E. destruct E as [E1 E2]. now apply key_eqb_spec in E2.
Qed.

(** ** C06 *)

Theorem C06_reassembly_complete m J L ver src dest to tag mtu msg pkts w tr i p l first :
  0 <= J -> L = 4096 * 2 ^ J -> L < 2 ^ 64 -> mtu <= 4096 -> zlen msg <= L ->
  packetised ver src dest to tag mtu msg pkts -> 0 <= tag <= 7 -> src <> 0 ->
  reaches_by (fun past => limited (fun n bs => n = L /\ zlen bs <= 4100) 65536 (past ++ OpRx i p :: l))
             f s appl m b0 b1 w tr ->
  Forall (traffic m) (OpRx i p :: l) -> no_config (OpRx i p :: l) ->
  packets_for (mode_local m) (src, dest, tag) (OpRx i p :: l) = pkts ->
  nth_error pkts 0 = Some first -> pkt_is p first ->
  (length pkts = 1%nat \/ room w (src, dest, tag)) ->
  always no_oom (xops f s appl w (OpRx i p :: l)) (fun w' t =>
    exists d, deliveries_for (src, dest, tag) t = [d] /\ d_msg d = msg /\ d_to d = to /\
      forall eid, m = Endpoint eid -> m_rx (w_m w) = true ->
        (forall j, bd_ctrl (bnd w j) && transport_request msg = false) ->
        d_cb d = Some (EvRx src to tag msg)).
Proof.
  intros HJ HL HL64 Hmtu Hsz Hpk Htag Hsrc (past & e & n0 & Hleg & Hlim & He & Hrun) Htr Hcf Hpf Hfst Hp Hslot.
  assert (reaches f s appl m b0 b1 w tr) as Hr by (exists past, e, n0; auto).
  eapply always_mono; [|eapply always_ops; [exact Hr|exact Htr]].
  pose proof (reaches_CI f s appl b0 b1 _ _ _ Hr) as Hci.
  pose proof (history_spec f s appl m b0 b1 past Hleg e He) as Hh. rewrite Hrun in Hh.
  destruct Hh as (t0 & w0 & tp & Etr & Hb & Hh & Hw).
  destruct (hist_limit m (fun n bs => n = L /\ zlen bs <= 4100) _ _ _ _ Hh (bt_wf _ _ _ Hb) (bt_mode _ _ _ Hb) (OpRx i p :: l)) as [Hlp Hll].
  { rewrite (bt_max _ _ _ Hb). exact Hlim. }
  rewrite (bt_max _ _ _ Hb) in Hlp.
  assert (mode_ok m w) as Hm by (eapply hist_mode; [exact Hh|exact (bt_mode _ _ _ Hb)]).
  assert (m_max (w_m w) = L /\ zlen first <= 4100) as [Hmax Hfl].
  { cbn [limited] in Hll. destruct Hll as [Hll _]. exact (Hll first Hp). }
  assert (Forall (good J) (m_ctxs (w_m w))) as Hgood.
  { pose proof (history_limited f s appl b0 b1 m past (fun n bs => n = L /\ zlen bs <= 4100)
      (Forall (good J)) (fun _ _ => True)) as Hlm.
    assert (at_each (on_msg (fun _ _ => True)) tr /\ Forall (good J) (m_ctxs (w_m w))) as [_ HH]; [|exact HH].
    assert (always no_oom (history f s appl m b0 b1 past)
              (fun w tr => at_each (on_msg (fun _ _ => True)) tr /\ Forall (good J) (m_ctxs (w_m w)))) as Ha.
    { apply Hlm; auto.
      - intros cs max bs cs' out Hg Hwf _ [-> Hbl] Hbs Hpu.
        eapply (rx_pure_good J cs L bs); eauto.
      - apply Forall_forall. intros c Hc. apply repeat_spec in Hc. subst. left. reflexivity. }
    specialize (Ha e He). rewrite Hrun in Ha. exact Ha. }
  assert (mild (OpRx i p :: l)) as Hmild.
  { split; [exact Hcf|]. rewrite Hmax in Hll. clear - Hll Hcf.
    revert Hll Hcf. generalize (OpRx i p :: l). clear. induction l as [|o l IH]; intros Hll Hcf j q bs Hin Hq; [contradiction|].
    inversion Hcf as [|? ? Hc1 Hc2]; subst. destruct Hin as [->|Hin].
    - cbn [limited] in Hll. exact (proj2 (proj1 Hll bs Hq)).
    - eapply (IH); [|exact Hc2|exact Hin|exact Hq]. destruct o; cbn [limited] in Hll; tauto. }
  assert (ready m J L tr w) as Hrd by (constructor; assumption).
  intros w' t Hhist.
  inversion Hhist as [|? ? t1 w1 ? t2 ? Ho Hw1 Hh2]; subst w2 t.
  pose proof (op_ready m J HJ L HL HL64 _ _ _ _ _ _ Hrd Ho Hmild Hw1) as Hrd1.
  destruct (op_effect _ _ _ _ _ Hw Hm Ho) as (Hef & Hne & _).
  destruct (op_rx_flag _ _ _ _ Hw Ho) as [Erx Ect].
  rewrite deliveries_for_app by exact Hne.
  assert (taken (mode_local m) first = true /\ h_key first = (src, dest, tag)) as [Htk Hky].
  { eapply packets_for_in. rewrite Hpf. eapply nth_error_In. exact Hfst. }
  cbn [packets_for flat_map] in Hpf. unfold pkt_is in Hp. rewrite Hp, Htk, Hky, key_eqb_refl in Hpf.
  cbn [andb app] in Hpf. change (flat_map _ l) with (packets_for (mode_local m) (src, dest, tag) l) in Hpf.
  pose proof (packetised_no _ _ _ _ _ _ _ _ Htag Hpk _ _ Hfst) as Hno.
  destruct (op_eff_inv _ _ _ _ _ Hef) as [(E2 & E3 & H0')|(i' & p' & bs' & out & E1 & Hp' & Ht' & Hpure & E2)].
  { exfalso. specialize (H0' i p first eq_refl Hp). congruence. }
  injection E1 as <- <-. unfold pkt_is in Hp'. rewrite Hp in Hp'. injection Hp' as <-.
  rewrite Hmax in Hpure.
  assert (concat (map payload pkts) = msg) as Hmsg by exact (proj1 Hpk).
  assert (4 < zlen first) as Hz by (unfold taken in Htk; apply andb_true_iff in Htk; lia).
  pose proof Hky as Hky'. unfold h_key in Hky'. injection Hky' as K1 K2 K3.
  destruct (packets_for (mode_local m) (src, dest, tag) l) as [|nxt rest] eqn:Erest.
  - (* a single packet *)
    rewrite (other_key_quiet m _ (src, dest, tag) _ _ _ Hh2 Hw1 (rd_mode _ _ _ _ _ Hrd1) Erest), app_nil_r.
    subst pkts. cbn [length Nat.eqb] in Hno. destruct Hno as [_ Nto Nsom Neom _ _].
    cbn [map concat] in Hmsg. rewrite app_nil_r in Hmsg. subst msg.
    revert Hpure. unfold rx_pure. rewrite p_flags_spec, Nsom, Neom.
    change (_ =? Z.lor FLAG_SOM FLAG_EOM) with true. cbv iota.
    intros Hpure. apply pair_equal_spec in Hpure. destruct Hpure as [_ Eout]. rewrite <- Eout in E2.
    unfold deliveries_for. rewrite E2. cbn [filter]. unfold d_key. cbn [d_src d_dest d_tag].
    rewrite K1, K2, K3, key_eqb_refl. eexists. split; [reflexivity|]. cbn [d_msg d_to d_cb].
    split; [reflexivity|]. split; [exact Nto|]. intros eid -> Hrx Hct. cbn [cb_of]. unfold local_event.
    rewrite transport_request_spec, andb_comm, K1, K3, Nto.
    change (p_payload first) with (payload first). rewrite (Hct i), Hrx. reflexivity.
  - assert (Nat.eqb 1 (length pkts) = false) as El by (subst pkts; reflexivity).
    rewrite El in Hno.
    destruct (step_first J HJ L HL HL64 src dest tag to mtu Hmtu _ _ first 0%nat Hci (wf_ctxs _ _ Hw) Hgood
                Hno eq_refl Hz) as (cs' & Hpure' & Hho).
    { destruct Hslot as [Hs|[Hs|Hs]].
      - exfalso. subst pkts. discriminate.
      - apply in_map_iff in Hs. destruct Hs as ((k0 & data) & E & Hin). cbn [fst] in E. subst k0.
        apply partials_in in Hin. destruct Hin as (n & c & Hn & _ & Hkey & _). exists n, c. auto.
      - destruct (few_partials (m_ctxs (w_m w))) as (n & c & Hn & Hc).
        + rewrite (ci_len _ _ Hci). exact Hs.
        + exists n, c. auto. }
    rewrite Hpure in Hpure'. injection Hpure' as Ecs Eout. subst out. rewrite <- Ecs in Hho.
    unfold deliveries_for at 1. rewrite E2. cbn [filter app].
    destruct (rest_progress m J HJ L HL HL64 src dest tag Hsrc to mtu Hmtu ver msg pkts Hpk Htag Hsz
                _ _ _ _ Hh2 _ [first] (nxt :: rest) Hrd1 (mild_cons J L HL HL64 _ _ Hmild)) as (d & Q1 & Q2 & Q3 & Q4 & Q5).
    + subst pkts. reflexivity.
    + discriminate.
    + discriminate.
    + exact Erest.
    + destruct Hno as [_ _ _ _ Nq Nl]. cbn [map concat length]. rewrite app_nil_r, <- Nl. cbn [Nat.sub].
      rewrite <- Nq. exact Hho.
    + exists d. split; [exact Q1|]. split; [exact Q2|]. split; [exact Q3|].
      intros eid Em Hrx Hct. apply (Q5 eid Em); [congruence|]. intros j. rewrite Ect. apply Hct.
Qed.
End Round.

(** ** Sender to receiver

    Whatever a sender's mctp_message_tx queues, an endpoint that is handed those
    packets (in order, anything else in between) delivers as the message sent. *)
Theorem C06_round_trip
    {B B' : Type} (f : txfun B) (s : startfun B) (appl : event -> list txreq) (b0 b1 : binding B)
    (f' : txfun B') (s' : startfun B') (appl' : event -> list txreq) (c0 c1 : binding B')
    m J L src dest to tag msg (ws : world B) trs e r n ts (w : world B') tr eid i p l first :
  (* the sender, an endpoint [src], sends [msg] *)
  reaches f s appl (Endpoint src) b0 b1 ws trs -> src <> 0 ->
  bus_state_of ws false <> Some Constructed -> 0 <= tag <= 7 ->
  env_ok no_oom e -> run e 0 [] (message_tx (scripted f) ws dest to tag msg) = Done r n ts ->
  (* sizes *)
  0 <= J -> L = 4096 * 2 ^ J -> L < 2 ^ 64 -> bd_pkt_size (bnd ws false) <= 4100 -> zlen msg <= L ->
  (* the receiver gets its packets *)
  m = Endpoint eid ->
  reaches_by (fun past => limited (fun n bs => n = L /\ zlen bs <= 4100) 65536 (past ++ OpRx i p :: l))
             f' s' appl' m c0 c1 w tr ->
  Forall (traffic m) (OpRx i p :: l) -> no_config (OpRx i p :: l) ->
  packets_for (mode_local m) (src, dest, tag) (OpRx i p :: l) = map snd (enqueued false ts) ->
  nth_error (map snd (enqueued false ts)) 0 = Some first -> pkt_is p first ->
  (length (enqueued false ts) = 1%nat \/ room w (src, dest, tag)) ->
  m_rx (w_m w) = true -> (forall j, bd_ctrl (bnd w j) && transport_request msg = false) ->
  always no_oom (xops f' s' appl' w (OpRx i p :: l)) (fun w' t =>
    exists d, deliveries_for (src, dest, tag) t = [d] /\ d_msg d = msg /\ d_to d = to /\
              d_cb d = Some (EvRx src to tag msg)).
Proof.
  intros Hs Hsrc Hst Htag He Hrun HJ HL HL64 Hps Hsz Hm Hr Htr Hcf Hpf Hfst Hp Hslot Hrx Hct.
  pose proof (C01_packetisation _ _ _ _ _ _ _ _ dest to tag msg Hs Hst Htag e He) as H1. rewrite Hrun in H1.
  destruct H1 as (_ & Hpk & _ & _).
  eapply always_mono; [|eapply (C06_reassembly_complete f' s' appl' c0 c1 m J L); try eassumption].
  - intros w' t (d & H1 & H2 & H3 & H4). exists d. repeat split; auto. eapply H4; eauto.
  - lia.
  - rewrite map_length. exact Hslot.
Qed.
