(** PropFoot: what each side of the LPC channel touches (C64). *)
From Verif Require Import Base Lists Prog PktBuf Core Walk Trace Crc Astlpc SpecAst AstBasic AstWalk Foot PropAst Concrete.

Local Notation world := (world astlpc).

(** ** Specification *)

(** The size of each of the two packet areas that a BMC configured with [mtu] lays out:
    one at offset 256, which it fills, one right behind it, which the host fills. *)
Definition area (mtu : Z) : Z := if mtu =? 0 then 524156 else Z.min 524156 (w32 (mtu + 4) + 8).

(** [n] bytes at [off] lie between [lo] and [hi]. *)
Definition within (off n lo hi : Z) : Prop := lo <= off /\ off + n <= hi.

(** The layout fields: where and how large the area that the host receives from is, then
    the one that it fills. *)
Definition layout_fields (rx rxn tx txn : Z) : list Z := be32 rx ++ be32 rxn ++ be32 tx ++ be32 txn.
(** The header at start-up: magic, the BMC's versions 1 to 3, room for the host's versions
    and the negotiated one, and the layout. *)
Definition first_header (mtu : Z) : list Z :=
  be32 1296258128 ++ be16 1 ++ be16 3 ++ be16 0 ++ be16 0 ++ be16 0 ++ be16 0
  ++ layout_fields 256 (area mtu) (256 + area mtu) (area mtu).

(** The event before was a read of the status register that showed [flag]. *)
Definition status_showed (flag : Z) (before : list event) : Prop :=
  exists b st, before = b ++ [EvKRead KStatus (Some st)] /\ tst st flag = true.

Definition bmc_footprint (mtu : Z) (before : list event) (e : event) : Prop :=
  match e with
  | EvLWrite off bs =>
      (off = 0 /\ bs = first_header mtu)
      \/ (off = 12 /\ exists v, 0 <= v <= 3 /\ bs = be16 v)      (* the negotiated version *)
      \/ (off = 16 /\ exists n, 72 <= n <= area mtu /\           (* the final layout *)
           bs = layout_fields 256 n (256 + area mtu) n)
      \/ within off (zlen bs) 256 (256 + area mtu)
  | EvLRead off bs =>
      within off (zlen bs) 0 32 \/ within off (zlen bs) (256 + area mtu) (256 + 2 * area mtu)
  | EvKRead KData _ => status_showed 2 before
  | EvKWrite KStatus v _ => v = 128 \/ v = 129 \/ v = 193
  | EvKWrite KData v _ => v = 1 \/ v = 2 \/ v = 255
  | EvSWrite _ _ => False
  | _ => True
  end.

(** The layout a header announces: the area the host receives from, and the one it fills. *)
Record announces (h : list Z) (rx rxn tx txn : Z) : Prop := mkAnn {
  an_len : zlen h = 32;
  an_rx : rx = fld32 h 16;
  an_rxn : rxn = fld32 h 20;
  an_tx : tx = fld32 h 24;
  an_txn : txn = fld32 h 28;
  an_in_rx : within rx rxn 256 LPC_WIN_SIZE;
  an_in_tx : within tx txn 256 LPC_WIN_SIZE;
  an_room : 72 <= rxn /\ 72 <= txn;                 (* a baseline packet fits *)
  an_apart : rx + rxn <= tx \/ tx + txn <= rx }.

(** Packets of [n] bytes can be received in a layout that is otherwise as header [h] says. *)
Definition acceptable_size (h : list Z) (n : Z) : Prop :=
  zlen h = 32 /\ within (fld32 h 16) n 256 LPC_WIN_SIZE /\ 72 <= n /\
  (fld32 h 16 + n <= fld32 h 24 \/ fld32 h 24 + fld32 h 28 <= fld32 h 16).

(** A read of the status register has shown the BMC ready. *)
Definition ready_seen (before : list event) : Prop :=
  exists st, In (EvKRead KStatus (Some st)) before /\ tst st 128 = true.

Definition host_footprint (mtu : Z) (before : list event) (e : event) : Prop :=
  match e with
  | EvLWrite off bs =>
      (off = 8 /\ bs = be16 1) \/ (off = 10 /\ bs = be16 3)    (* the host's versions *)
      \/ (off = 20 /\ exists k h b, (k = 4 \/ k = 8) /\          (* the size it asks for *)
           before = b ++ [EvLRead 0 h] /\ let n := w32 (mtu + 4) + k in acceptable_size h n /\ bs = be32 n)
      \/ exists h rx rxn tx txn, In (EvLRead 0 h) before /\ announces h rx rxn tx txn /\
           within off (zlen bs) tx (tx + txn)
  | EvLRead off bs =>
      ready_seen before /\ within off (zlen bs) 0 32
      \/ exists h rx rxn tx txn, In (EvLRead 0 h) before /\ announces h rx rxn tx txn /\
           within off (zlen bs) rx (rx + rxn)
  | EvKRead KData _ => status_showed 1 before
  | EvKWrite KStatus _ _ => False
  | EvKWrite KData v _ => v = 0 \/ v = 1 \/ v = 2
  | EvSWrite _ _ => False
  | _ => True
  end.

(** The peer never sends the host the Initialise command. *)
Definition no_initialise (r : kreg) (v : Z) : bool :=
  match r with KData => negb (v =? 0) | KStatus => true end.

(** Everything the application and the transport may do, except overwriting the
    binding's private state. *)
Definition keeps (o : aop) : Prop := match o with ACore o => keeps_priv o | APoll _ => True end.

(** ** The parts common to both roles *)

Lemma overhead_extra v k : overhead v = Some k -> k = 4 \/ k = 8.
Proof. unfold overhead. destruct (v =? 1), (v =? 2), (v =? 3); intros [= <-]; auto. Qed.

Lemma w32_w64 x : w32 x = w32 (w64 x).
Proof. unfold w32, w64. rewrite <- Znumtheory.Zmod_div_mod; [reflexivity|lia|lia|]. exists (2 ^ 32). lia. Qed.

Section Parts.
Variable app : event -> list txreq.
Variable kv : answers.
Variable ok : list event -> event -> Prop.
Variable K : list event -> astlpc -> Prop.
Hypothesis ok_core : forall g e, ~ io_ev e -> ok g e.
Variable bm : bool.
Hypothesis ok_kread : forall g v, ok g (EvKRead KStatus v).
Hypothesis ok_kdata : forall g st v, tst st (if bm then 2 else 1) = true -> ok (g ++ [EvKRead KStatus (Some st)]) (EvKRead KData v).
Hypothesis K_role : forall g a, K g a -> a_bmc a = bm.
Hypothesis ok_data : forall g v b, v = 1 \/ v = 2 -> ok g (EvKWrite KData v b).
Hypothesis K_more : forall g t a, K g a -> K (g ++ t) a.
Hypothesis K_same : forall g a a', K g a -> a_bmc a' = a_bmc a -> a_mtu a' = a_mtu a ->
  ab_off (a_rx a') = ab_off (a_rx a) -> ab_size (a_rx a') = ab_size (a_rx a) ->
  ab_off (a_tx a') = ab_off (a_tx a) -> ab_size (a_tx a') = ab_size (a_tx a) -> (a_proto a' <> None -> a_proto a <> None) -> K g a'.
Hypothesis K_u32 : forall g a, K g a ->
  0 <= ab_off (a_tx a) /\ ab_off (a_tx a) + ab_size (a_tx a) < 2 ^ 32 /\
  0 <= ab_off (a_rx a) /\ ab_off (a_rx a) + ab_size (a_rx a) < 2 ^ 32.
Hypothesis K_wr : forall g a off bs, K g a -> 0 < ab_size (a_tx a) ->
  within off (zlen bs) (ab_off (a_tx a)) (ab_off (a_tx a) + ab_size (a_tx a)) -> ok g (EvLWrite off bs).
Hypothesis K_len : forall g a bs, K g a -> a_proto a <> None -> zlen bs = 4 -> ok g (EvLRead (ab_off (a_rx a)) bs).
Hypothesis K_rd : forall g a off bs, K g a -> 0 < ab_size (a_rx a) ->
  within off (zlen bs) (ab_off (a_rx a)) (ab_off (a_rx a) + ab_size (a_rx a)) -> ok g (EvLRead off bs).

Lemma foot_body p n g Q :
  (forall k, k = 4 \/ k = 8 -> overhead match p with Some v => v | None => 0 end = Some k ->
     w32 (n - k) < n -> foot kv ok (Ret (w32 (n - k))) g Q) ->
  foot kv ok (body_size p n) g Q.
Proof.
  intros H. unfold body_size. destruct p as [v|]; [|exact I]. destruct (overhead v) as [k|] eqn:E; [|exact I].
  destruct (w32 (n - k) <? n) eqn:E1; [|exact I]. cbn [assert_ bind].
  apply H; [eapply overhead_extra; exact E|first [exact E|reflexivity]|lia].
Qed.
Lemma foot_psize p n g Q :
  (forall k, k = 4 \/ k = 8 -> overhead match p with Some v => v | None => 0 end = Some k ->
     n < w32 (n + k) -> foot kv ok (Ret (w32 (n + k))) g Q) ->
  foot kv ok (packet_size p n) g Q.
Proof.
  intros H. unfold packet_size. destruct p as [v|]; [|exact I]. destruct (overhead v) as [k|] eqn:E; [|exact I].
  destruct (n <? w32 (n + k)) eqn:E1; [|exact I]. cbn [assert_ bind].
  apply H; [eapply overhead_extra; exact E|first [exact E|reflexivity]|lia].
Qed.
Lemma foot_bval p b g (Q : bool -> list event -> Prop) : u32 (ab_off b) -> u32 (ab_size b) ->
  (forall r, (r = true -> within (ab_off b) (ab_size b) 256 LPC_WIN_SIZE /\ 72 <= ab_size b) -> Q r g) ->
  foot kv ok (buffer_validate p b) g Q.
Proof.
  unfold u32, within. intros Ho Hs HQ. unfold buffer_validate.
  destruct (_ <? ab_off b) eqn:E1; [cbn [foot]; apply HQ; discriminate|]. destruct (LPC_WIN_SIZE <? _) eqn:E2; [cbn [foot]; apply HQ; discriminate|].
  apply foot_bind, foot_psize. intros k Hk _ _. cbn [foot].
  destruct (ab_size b <? w32 _) eqn:E3; [cbn [foot]; apply HQ; discriminate|]. destruct (_ <? control_size) eqn:E4; [cbn [foot]; apply HQ; discriminate|].
  cbn [foot]. apply HQ. intros _. unfold control_size in E4. unfold MCTP_PACKET_SIZE, MCTP_BTU in E3. rewrite w32_id in E3 by lia.
  assert (w32 (ab_off b + ab_size b) = ab_off b + ab_size b) as E; [|lia].
  destruct (Z.ltb_spec (ab_off b + ab_size b) (2 ^ 32)); [apply w32_id; lia|exfalso].
  assert (w32 (ab_off b + ab_size b) = ab_off b + ab_size b - 2 ^ 32); [|lia].
  unfold w32. symmetry. apply (Z.mod_unique _ _ 1); lia.
Qed.
Lemma foot_lval p l g (Q : bool -> list event -> Prop) :
  u32 (ab_off (ly_rx l)) -> u32 (ab_size (ly_rx l)) -> u32 (ab_off (ly_tx l)) -> u32 (ab_size (ly_tx l)) ->
  (forall r, (r = true -> within (ab_off (ly_rx l)) (ab_size (ly_rx l)) 256 LPC_WIN_SIZE /\
     within (ab_off (ly_tx l)) (ab_size (ly_tx l)) 256 LPC_WIN_SIZE /\ 72 <= ab_size (ly_rx l) /\ 72 <= ab_size (ly_tx l) /\
     (ab_off (ly_rx l) + ab_size (ly_rx l) <= ab_off (ly_tx l) \/ ab_off (ly_tx l) + ab_size (ly_tx l) <= ab_off (ly_rx l))) -> Q r g) ->
  foot kv ok (layout_validate p l) g Q.
Proof.
  intros U1 U2 U3 U4 HQ. unfold layout_validate. cbv zeta.
  apply foot_bind, foot_bval; [exact U1|exact U2|]. intros r1 H1. apply foot_bind, foot_bval; [exact U3|exact U4|]. intros r2 H2.
  destruct r1; [|cbn [foot]; apply HQ; discriminate]. destruct r2; [|cbn [foot]; apply HQ; discriminate].
  destruct (H1 eq_refl) as [[A1 A2] A3]. destruct (H2 eq_refl) as [[B1 B2] B3]. unfold u32, LPC_WIN_SIZE in *. cbn [negb andb].
  rewrite !w32_id by lia. destruct (_ || _) eqn:E; [cbn [foot]; apply HQ; discriminate|]. cbn [foot]. apply HQ. intros _.
  unfold within. lia.
Qed.

Lemma foot_kcs_send a c g (Q : Z -> list event -> Prop) : c = 1 \/ c = 2 -> (forall rc t, Q rc (g ++ t)) -> foot kv ok (kcs_send a c) g Q.
Proof.
  intros Hc HQ. unfold kcs_send. cbn [foot]. intros v _. split; [apply ok_kread|].
  destruct v as [st|]; [|apply HQ]. destruct (negb _); [apply HQ|]. cbn [foot]. intros b.
  split; [now apply ok_data|]. rewrite <- app_assoc. destruct b; apply HQ.
Qed.

Lemma K_rx_st g a s : K g a -> K g (a_set_rx_st a s).
Proof. intros H. eapply K_same; [exact H|..]; try reflexivity. exact (fun x => x). Qed.
Lemma K_tx_st g a s : K g a -> K g (a_set_tx_st a s).
Proof. intros H. eapply K_same; [exact H|..]; try reflexivity. exact (fun x => x). Qed.
Lemma K_kcs g a v : K g a -> K g (a_set_kcs a v).
Proof. intros H. eapply K_same; [exact H|..]; try reflexivity. exact (fun x => x). Qed.

Lemma foot_protect p pkt g (Q : pktbuf -> list event -> Prop) k : overhead match p with Some v => v | None => 0 end = Some k ->
  (forall pkt' t, w32 (pktbuf_size pkt') <= w32 (pktbuf_size pkt) + (k - 4) -> Q pkt' (g ++ t)) ->
  foot kv ok (pktbuf_protect p pkt) g Q.
Proof.
  intros Hk HQ. unfold pktbuf_protect. destruct p as [v|]; [|exact I].
  assert (Q pkt g) as Hsame.
  { rewrite <- (app_nil_r g). apply HQ. destruct (overhead_extra _ _ Hk); lia. }
  destruct ((v =? 1) || (v =? 2)) eqn:E1; [exact Hsame|]. destruct (v =? 3) eqn:E3; [|exact I].
  destruct (rd _ _ _); cbn [deref bind]; [|exact I]. unfold pktbuf_push, pktbuf_push_len.
  destruct (_ <? _); cbn [bind]; [exact Hsame|]. change (zlen (be32 (crc32 l))) with 4.
  destruct (rd (be32 _) _ _); cbn [deref bind]; [|exact I]. destruct (wr _ _ _); cbn [deref bind]; [|exact I].
  cbn [foot]. rewrite <- (app_nil_r g). apply HQ. unfold pktbuf_size. cbn [pk_end pk_start].
  assert (k = 8) as ->.
  { unfold overhead in Hk. replace (v =? 1) with false in Hk by lia. replace (v =? 2) with false in Hk by lia.
    rewrite E3 in Hk. congruence. }
  assert (w64 (w64 (pk_end pkt + 4) - pk_start pkt) = w64 (w64 (pk_end pkt - pk_start pkt) + 4)) as ->.
  { unfold w64. rewrite Zminus_mod_idemp_l, Zplus_mod_idemp_l. f_equal. lia. }
  generalize (w64 (pk_end pkt - pk_start pkt)). intros x.
  assert (w32 (w64 (x + 4)) = w32 (w32 x + 4)) as ->.
  { unfold w32, w64. rewrite Zplus_mod_idemp_l.
    rewrite <- Znumtheory.Zmod_div_mod; [reflexivity|lia|lia|]. exists (2 ^ 32). lia. }
  unfold w32 at 1. pose proof (Z.mod_pos_bound x (2 ^ 32) ltac:(lia)) as Hx. fold (w32 x) in Hx.
  etransitivity; [apply Z.mod_le; lia|lia].
Qed.

Lemma foot_tx g a pkt : K g a -> foot kv ok (astlpc_tx a pkt) g (fun r g' => K g' (fst (fst (fst r)))).
Proof.
  intros HK. unfold astlpc_tx. cbv zeta. apply foot_bind, foot_body. intros k Hk Hov Hlt. cbn [foot].
  set (m := w32 (ab_size (a_tx a) - k)) in *. destruct (m <? w32 (pktbuf_size pkt)) eqn:E; [exact HK|].
  destruct (K_u32 _ _ HK) as (U1 & U2 & _ & _).
  pose proof (Z.mod_pos_bound (ab_size (a_tx a) - k) (2 ^ 32) ltac:(lia)) as Hm. fold (w32 (ab_size (a_tx a) - k)) in Hm. fold m in Hm.
  assert (m = ab_size (a_tx a) - k) as Em.
  { destruct (Z.leb_spec k (ab_size (a_tx a))); [unfold m; apply w32_id; lia|exfalso].
    assert (m = ab_size (a_tx a) - k + 2 ^ 32); [|lia].
    unfold m, w32. rewrite <- (Z_mod_plus_full _ 1). apply Z.mod_small. lia. }
  cbn [foot]. intros _. split.
  { eapply K_wr; [exact HK|lia|]. change (zlen (be32 (w32 (pktbuf_size pkt)))) with 4. unfold within.
    pose proof (Z.mod_pos_bound (pktbuf_size pkt) (2 ^ 32) ltac:(lia)) as Hp. fold (w32 (pktbuf_size pkt)) in Hp. lia. }
  apply foot_bind. apply (foot_protect _ _ _ _ k Hov). intros pkt' t Hsz.
  destruct (rd _ _ _) as [bs|] eqn:Er; cbn [deref bind]; [|exact I].
  apply rd_spec in Er. destruct Er as (? & ? & _ & _ & Hz). cbn [foot]. intros _. split.
  { eapply K_wr; [apply K_more, K_more; exact HK|lia|]. rewrite Hz. rewrite w32_id by lia. unfold within. lia. }
  apply foot_bind, foot_kcs_send; [left; reflexivity|]. intros rc t1. cbn [foot fst].
  apply K_more, K_more, K_more, K_more. destruct (rc =? 0); repeat apply K_tx_st; exact HK.
Qed.

Notation W := (W K).
Notation done := (fun w' g' => W g' w').
Notation done1 := (fun r g' => W g' (fst r)).

Lemma W_put g w i a : W g w -> K g a -> W g (put_ast w i a).
Proof. intros Hw Ha. apply W_set_bnd; assumption. Qed.
Lemma W_size g w i n : W g w -> W g (put_pkt_size w i n).
Proof. intros Hw. apply W_set_bnd; [exact Hw|]. apply (W_bnd K g w i Hw). Qed.
Lemma W_ast g w i : W g w -> K g (ast w i).
Proof. intros Hw. apply (W_bnd K g w i Hw). Qed.
Notation W_more := (W_more K K_more).
Notation foot_set_tx := (foot_set_tx astlpc_tx kv ok K ok_core K_more foot_tx).
Notation foot_bus_rx := (foot_bus_rx astlpc_tx app kv ok K ok_core K_more foot_tx).

Lemma plainp_validate p pkt : plainp (pktbuf_validate p pkt).
Proof. unfold pktbuf_validate. plain. Qed.

Lemma foot_rx_start g w i : a_proto (ast w i) <> None -> W g w -> foot kv ok (rx_start app w i) g done.
Proof.
  intros Hp Hw. unfold rx_start. cbv zeta. pose proof (W_ast _ _ i Hw) as HK. set (a := ast w i) in *.
  destruct (K_u32 _ _ HK) as (_ & _ & U1 & U2).
  cbn [foot]. intros _ lb Hz Hb. split; [now apply K_len|]. pose proof (unbe32_range lb Hz Hb) as Hbr.
  apply (W_more _ [EvLRead (ab_off (a_rx a)) lb]) in Hw. apply (K_more _ [EvLRead (ab_off (a_rx a)) lb]) in HK.
  set (g1 := g ++ [EvLRead (ab_off (a_rx a)) lb]) in *. clearbody g1. clear g.
  apply foot_bind, foot_body. intros k Hk Hov Hlt. cbn [foot]. set (m := w32 (ab_size (a_rx a) - k)) in *.
  destruct (m <? unbe32 lb) eqn:E; [exact Hw|]. destruct (bd_pkt_size _ <? _); [exact Hw|].
  assert (m = ab_size (a_rx a) - k) as Em.
  { pose proof (Z.mod_pos_bound (ab_size (a_rx a) - k) (2 ^ 32) ltac:(lia)) as Hm. fold (w32 (ab_size (a_rx a) - k)) in Hm. fold m in Hm.
    destruct (Z.leb_spec k (ab_size (a_rx a))); [unfold m; apply w32_id; lia|exfalso].
    assert (m = ab_size (a_rx a) - k + 2 ^ 32); [|lia].
    unfold m, w32. rewrite <- (Z_mod_plus_full _ 1). apply Z.mod_small. lia. }
  apply foot_bind, foot_psize. intros k' Hk' Hov' Hlt'. cbn [foot].
  assert (k' = k) as -> by congruence. rewrite (w32_id (unbe32 lb + k)) by lia. rewrite (w32_id (_ - 4)) by lia.
  apply (foot_pcall kv ok ok_core); [plain|]. intros o t. cbv zeta. apply (W_more _ t) in Hw. apply (K_more _ t) in HK.
  destruct o as [pkt|]; [|exact Hw]. cbn [foot]. intros _ bs Hzb _. split.
  { eapply K_rd; [exact HK|lia|]. rewrite w32_id by lia. unfold within. lia. }
  match goal with |- foot _ _ _ ?x _ => set (g2 := x) end.
  assert (K g2 a /\ W g2 w) as [HK2 Hw2] by (split; [now apply K_more|now apply W_more]). clearbody g2. clear HK Hw g1 t.
  apply (foot_pcall kv ok ok_core); [plain|]. intros pkt2 t.
  apply foot_bind, foot_kcs_send; [right; reflexivity|]. intros rc t1. cbv zeta.
  match goal with |- context [put_ast ?w' i ?a'] => set (w3 := put_ast w' i a'); set (a3 := a') in * end.
  assert (forall t', W ((g2 ++ t) ++ t') w3) as Hw3.
  { intros t'. apply W_put; [apply W_set_m; now apply W_more, W_more|].
    apply K_more, K_more. unfold a3. destruct (rc =? 0); repeat apply K_rx_st; exact HK2. }
  apply (foot_pcall kv ok ok_core); [plain|]. intros h t2.
  destruct (negb _).
  { apply (foot_pcall kv ok ok_core); [plain|]. intros ? t3. cbn [foot]. apply W_more, W_more, Hw3. }
  apply (foot_pcall kv ok ok_core); [apply plainp_validate|]. intros [pkt' okv] t3. destruct okv.
  - apply foot_bus_rx. apply W_more, W_more, Hw3.
  - apply (foot_pcall kv ok ok_core); [plain|]. intros ? t4. cbn [foot]. apply W_more, W_more, W_more, Hw3.
Qed.
Lemma foot_tx_complete g w i : W g w -> foot kv ok (tx_complete w i) g done.
Proof. intros Hw. unfold tx_complete. apply foot_set_tx. apply W_put; [exact Hw|]. apply K_tx_st. now apply W_ast. Qed.
Lemma foot_release_rx g a : K g a -> foot kv ok (poll_release_rx a) g (fun a' g' => K g' a').
Proof.
  intros HK. unfold poll_release_rx. destruct (ab_st _); try exact HK.
  apply foot_bind, foot_kcs_send; [right; reflexivity|]. intros rc t. cbn [foot].
  destruct (rc =? 0); [apply K_rx_st|]; now apply K_more.
Qed.
Lemma foot_release_tx g a : K g a -> foot kv ok (poll_release_tx a) g (fun a' g' => K g' a').
Proof.
  intros HK. unfold poll_release_tx. destruct (ab_st _); try exact HK.
  apply foot_bind, foot_kcs_send; [left; reflexivity|]. intros rc t. cbn [foot].
  destruct (rc =? 0); [apply K_tx_st|]; now apply K_more.
Qed.

(** Polling and histories, given what differs between the roles. *)
Hypothesis F_init : forall g w i, kv KData 0 = true -> W g w -> foot kv ok (init_channel w i) g done.
Hypothesis F_update : forall g w i st, W g w -> foot kv ok (update_channel w i st) g done1.
Hypothesis F_start : forall g a, K g a -> foot kv ok (astlpc_start a) g (fun r g' => K g' (fst (fst r))).

Lemma foot_tail g w i st d rc : W g w -> foot kv ok (poll_tail w i st d rc) g done1.
Proof. intros Hw. unfold poll_tail. destruct (_ && _); [now apply F_update|exact Hw]. Qed.
Lemma foot_dispatch g w i st d : kv KData d = true -> W g w -> foot kv ok (poll_dispatch app w i st d) g done1.
Proof.
  intros Hd Hw. unfold poll_dispatch. destruct (a_proto (ast w i)) as [v|] eqn:Ep; cbn [deref bind]; [|exact I].
  assert (a_proto (ast w i) <> None) as Hp by congruence.
  destruct (_ && _); [exact Hw|]. destruct (d =? cmd_initialise) eqn:E0.
  { assert (d = 0) as -> by (unfold cmd_initialise in E0; lia).
    eapply foot_call; [now apply F_init|]. intros w' t Hw'. now apply foot_tail. }
  destruct (d =? cmd_tx_begin).
  { destruct (ab_st _); try exact Hw. eapply foot_call; [now apply foot_rx_start|]. intros w' t Hw'. now apply foot_tail. }
  destruct (d =? cmd_rx_complete).
  { destruct (ab_st _); try exact Hw. eapply foot_call; [now apply foot_tx_complete|]. intros w' t Hw'. now apply foot_tail. }
  destruct (d =? cmd_dummy_value); [|now apply foot_tail].
  destruct (a_bmc _); [now apply foot_tail|].
  eapply foot_call; [now apply F_update|]. intros [w' rc] t Hw'. cbn [fst] in Hw'.
  destruct (rc <? 0); [exact Hw'|now apply foot_tail].
Qed.
Lemma foot_poll g w i : W g w -> foot kv ok (poll app w i) g done1.
Proof.
  intros Hw. unfold poll. pose proof (W_ast _ _ i Hw) as HK.
  eapply foot_call; [apply foot_release_rx; exact HK|]. intros a1 t1 HK1.
  eapply foot_call; [apply foot_release_tx; exact HK1|]. intros a2 t2 HK2. cbv zeta.
  assert (forall t, W (((g ++ t1) ++ t2) ++ t) (put_ast w i a2)) as Hw2.
  { intros t. apply W_more. apply W_put; [now apply W_more, W_more|exact HK2]. }
  cbn [foot]. intros v _. split; [apply ok_kread|]. destruct v as [st|]; [|apply Hw2].
  destruct (kcs_read_ready a2 st) eqn:Er; cbn [negb]; [|apply Hw2]. cbn [foot]. intros v Hv. split.
  { apply ok_kdata. rewrite <- (K_role _ _ HK2). unfold kcs_read_ready, kcs_ready in Er. cbn [negb] in Er.
    destruct (a_bmc a2); apply Bool.eqb_prop in Er; exact Er. }
  destruct v as [d|]; [|apply W_more, Hw2]. apply foot_dispatch; [now apply Hv|]. apply W_more, Hw2.
Qed.
Lemma foot_aop g w o : keeps o -> W g w -> foot kv ok (aexec_op app w o) g done.
Proof.
  intros Ho Hw. destruct o as [o|i]; cbn [aexec_op].
  - apply (foot_op astlpc_tx astlpc_start app kv ok K ok_core K_more foot_tx F_start); assumption.
  - destruct (m_dead _); [exact I|]. eapply foot_call; [apply foot_poll; exact Hw|].
    intros [w' rc] t Hw'. apply (foot_emit kv ok ok_core); [exact (fun x => x)|]. cbn [foot]. now apply W_more.
Qed.
Lemma foot_aexec l : forall g w, Forall keeps l -> W g w -> foot kv ok (aexec app w l) g done.
Proof.
  induction l as [|o l IH]; intros g w Hl Hw; cbn [aexec]; [exact Hw|]. inversion_clear Hl as [|? ? Ho Hl'].
  eapply foot_call with (P := done); [|intros w' t Hw'; now apply IH]. now apply foot_aop.
Qed.
End Parts.

(** ** The BMC *)

Section Bmc.
Variable app : event -> list txreq.
Variable mtu : Z.
Hypothesis Hmtu : 0 <= mtu < 2 ^ 32.

Definition blank (a : astlpc) : Prop :=
  ab_off (a_rx a) = 0 /\ ab_size (a_rx a) = 0 /\ ab_off (a_tx a) = 0 /\ ab_size (a_tx a) = 0.
Definition bK (_ : list event) (a : astlpc) : Prop :=
  a_bmc a = true /\ a_mtu a = mtu /\
  (blank a \/
   (ab_off (a_tx a) = 256 /\ ab_off (a_rx a) = 256 + area mtu /\
    0 <= ab_size (a_tx a) <= area mtu /\ 0 <= ab_size (a_rx a) <= area mtu)).
Definition bok : list event -> event -> Prop := bmc_footprint mtu.
Notation kv := (mkAns any_kval (fun _ _ => True)).
Notation W := (W bK).

Lemma area_range : 8 <= area mtu <= 524156.
Proof.
  unfold area. pose proof (Z.mod_pos_bound (mtu + 4) (2 ^ 32) ltac:(lia)) as H. fold (w32 (mtu + 4)) in H.
  destruct (mtu =? 0); lia.
Qed.
Lemma b_core g e : ~ io_ev e -> bok g e.
Proof. destruct e; cbn; tauto. Qed.
Lemma b_kread g v : bok g (EvKRead KStatus v).
Proof. exact I. Qed.
Lemma b_kdata g st v : tst st 2 = true -> bok (g ++ [EvKRead KStatus (Some st)]) (EvKRead KData v).
Proof. intros H. exists g, st. auto. Qed.
Lemma b_role g a : bK g a -> a_bmc a = true.
Proof. intros H. apply H. Qed.
Lemma b_data g v b : v = 1 \/ v = 2 -> bok g (EvKWrite KData v b).
Proof. intros H. cbn. tauto. Qed.
Lemma b_more g t a : bK g a -> bK (g ++ t) a.
Proof. intros H. exact H. Qed.
Lemma b_same g a a' : bK g a -> a_bmc a' = a_bmc a -> a_mtu a' = a_mtu a ->
  ab_off (a_rx a') = ab_off (a_rx a) -> ab_size (a_rx a') = ab_size (a_rx a) ->
  ab_off (a_tx a') = ab_off (a_tx a) -> ab_size (a_tx a') = ab_size (a_tx a) -> (a_proto a' <> None -> a_proto a <> None) -> bK g a'.
Proof. unfold bK, blank. intros H -> -> -> -> -> -> _. exact H. Qed.
Lemma b_same0 g a a' : bK g a -> a_bmc a' = a_bmc a -> a_mtu a' = a_mtu a -> a_layout a' = a_layout a -> bK g a'.
Proof. unfold bK, blank. intros H -> -> E. unfold a_rx, a_tx in *. rewrite E. exact H. Qed.
Lemma b_u32 g a : bK g a ->
  0 <= ab_off (a_tx a) /\ ab_off (a_tx a) + ab_size (a_tx a) < 2 ^ 32 /\
  0 <= ab_off (a_rx a) /\ ab_off (a_rx a) + ab_size (a_rx a) < 2 ^ 32.
Proof. pose proof area_range. intros (_ & _ & [(E1 & E2 & E3 & E4)|(E1 & E2 & H1 & H2)]); lia. Qed.
Lemma b_wr g a off bs : bK g a -> 0 < ab_size (a_tx a) ->
  within off (zlen bs) (ab_off (a_tx a)) (ab_off (a_tx a) + ab_size (a_tx a)) -> bok g (EvLWrite off bs).
Proof.
  unfold within. intros (_ & _ & [(_ & _ & E1 & E2)|(E1 & E2 & H1 & H2)]) Hp Hw; [lia|].
  unfold bok, bmc_footprint. right. right. right. unfold within. lia.
Qed.
Lemma b_len g a bs : bK g a -> a_proto a <> None -> zlen bs = 4 -> bok g (EvLRead (ab_off (a_rx a)) bs).
Proof.
  pose proof area_range. intros (_ & _ & [(E & _ & _ & _)|(_ & E & H1 & H2)]) _ Hz; unfold bok, bmc_footprint, within; lia.
Qed.
Lemma b_rd g a off bs : bK g a -> 0 < ab_size (a_rx a) ->
  within off (zlen bs) (ab_off (a_rx a)) (ab_off (a_rx a) + ab_size (a_rx a)) -> bok g (EvLRead off bs).
Proof.
  unfold within. intros (_ & _ & [(_ & E & _ & _)|(_ & E & H1 & H2)]) Hp Hw; [lia|].
  unfold bok, bmc_footprint. right. unfold within. lia.
Qed.

Lemma b_layout_read a g (Q : layout -> list event -> Prop) : a_bmc a = true ->
  (forall l g', u32 (ab_size (ly_tx l)) -> Q l g') -> foot kv bok (layout_read a) g Q.
Proof.
  intros Hb HQ. unfold layout_read. cbn [foot]. intros _ h Hz Hby. change HDR_SIZE with 32 in Hz.
  split; [unfold bok, bmc_footprint, within; lia|]. rewrite Hb. apply HQ. cbn [ly_tx ab_size].
  apply fld32_range; [exact Hz|exact Hby|lia].
Qed.
Lemma plainp_psz p n : plainp (packet_size p n).
Proof. unfold packet_size. plain. Qed.
Lemma plainp_bsz p n : plainp (body_size p n).
Proof. unfold body_size. plain. Qed.
#[local] Hint Resolve plainp_psz plainp_bsz : plain.
Lemma plainp_bval p b : plainp (buffer_validate p b).
Proof. unfold buffer_validate. plain. Qed.
#[local] Hint Resolve plainp_bval : plain.
Lemma plainp_lval p l : plainp (layout_validate p l).
Proof. unfold layout_validate. plain. Qed.
#[local] Hint Resolve plainp_lval : plain.
Lemma b_status st g (Q : Z -> list event -> Prop) : st = 128 \/ st = 129 \/ st = 193 ->
  (forall rc t, Q rc (g ++ t)) -> foot kv bok (kcs_set_status st) g Q.
Proof.
  intros Hs HQ. unfold kcs_set_status. cbn [foot]. intros b. split; [exact Hs|].
  destruct b; cbn [negb foot]; [|apply HQ]. intros b. split; [cbn; unfold cmd_dummy_value; lia|].
  rewrite <- app_assoc. destruct b; apply HQ.
Qed.

Lemma b_start g a : bK g a -> foot kv bok (astlpc_start a) g (fun r g' => bK g' (fst (fst r))).
Proof.
  intros HK. pose proof HK as (Hb & Hm & _). pose proof area_range as HS. unfold astlpc_start. rewrite Hb.
  unfold start_bmc, init_bmc. cbn [a_set_proto a_proto a_mtu].
  change (body_size (Some ASTLPC_VER_CUR) ((LPC_WIN_SIZE - control_size) / 2)) with (Ret 524152).
  cbn [bind]. change (Z.land (w32 (MCTP_BODY_SIZE 524152)) (2 ^ 32 - 16)) with 524144.
  change (packet_size (Some ASTLPC_VER_CUR) (w32 (MCTP_PACKET_SIZE 524144))) with (Ret 524156). cbn [bind].
  eapply foot_call with (P := fun r g' => bK g' (fst r)); [|intros [a' rc] t HK'; exact HK'].
  eapply foot_call with (P := fun sz _ => sz = area mtu).
  - unfold area. rewrite Hm. destruct (mtu =? 0); [reflexivity|]. apply foot_bind, foot_psize.
    intros k Hk Hov Hlt. cbn [foot]. unfold MCTP_PACKET_SIZE in *. assert (k = 8) as -> by (cbn in Hov; congruence).
    f_equal. pose proof (Z.mod_pos_bound (mtu + 4) (2 ^ 32) ltac:(lia)) as H. fold (w32 (mtu + 4)) in H.
    destruct (Z.ltb_spec (w32 (mtu + 4) + 8) (2 ^ 32)); [apply w32_id; lia|exfalso].
    assert (w32 (w32 (mtu + 4) + 8) = w32 (mtu + 4) + 8 - 2 ^ 32); [|lia].
    unfold w32 at 1. symmetry. apply (Z.mod_unique _ _ 1); lia.
  - intros sz t ->. cbv zeta. apply (foot_pcall kv bok b_core); [plain|]. intros okl t1.
    match goal with |- context [a_set_layout ?x ?y] => set (a1 := a_set_layout x y) end.
    assert (bK g a1) as HK1.
    { split; [exact Hb|]. split; [exact Hm|]. right. cbn [a1 a_set_layout a_set_proto a_layout a_tx a_rx ly_rx ly_tx ab_off ab_size].
      unfold control_size. rewrite w32_id by lia. lia. }
    destruct (negb okl); [exact HK1|]. cbn [foot]. intros _. split.
    { left. split; [reflexivity|]. unfold first_header, layout_fields. cbn [ab_off ab_size]. unfold control_size. rewrite w32_id by lia. reflexivity. }
    apply foot_bind, b_status; [left; reflexivity|]. intros rc t2. exact HK1.
Qed.

Lemma b_update g w i st : W g w -> foot kv bok (update_channel w i st) g (fun r g' => W g' (fst r)).
Proof.
  intros Hw. unfold update_channel. destruct (W_ast bK g w i Hw) as (Hb & _). rewrite Hb. exact I.
Qed.

Lemma b_negotiate g w i : W g w -> foot kv bok (negotiate_layout_bmc w i) g (fun r g' => W g' (fst r)).
Proof.
  intros Hw. unfold negotiate_layout_bmc. cbv zeta. pose proof (W_ast bK g w i Hw) as HK. set (a := ast w i) in *.
  pose proof HK as (Hb & Hm & HL). pose proof area_range as HS.
  apply (foot_pcall kv bok b_core); [plain|]. intros v t. destruct (v =? 0); [exact Hw|].
  apply foot_bind, b_layout_read; [exact Hb|]. intros l g' Hu. cbn [foot].
  apply (foot_pcall kv bok b_core); [plain|]. intros okl t1. destruct (negb okl); [exact Hw|].
  eapply foot_call with (P := fun m _ => exists r k, overhead match a_proto a with Some v => v | None => 0 end = Some k /\
     m = w32 (r - k - 4) /\ k <= r <= area mtu /\ ~ blank a).
  - unfold calculate_mtu. cbv zeta.
    eapply foot_call with (P := fun lim _ => lim <= area mtu /\ (blank a -> lim <= 0)).
    + destruct HL as [(B1 & B2 & B3 & B4)|(B1 & B2 & B3 & B4)].
      * rewrite B1, B3. destruct (a_mtu a =? 0); [cbn [foot]; lia|].
        apply (foot_pcall kv bok b_core); [plain|]. intros r t2. cbn [foot]. lia.
      * rewrite B1, B2. assert (~ blank a) as Hn by (unfold blank; lia).
        destruct (a_mtu a =? 0); [cbn [foot]; split; [lia|tauto]|].
        apply (foot_pcall kv bok b_core); [plain|]. intros r t2. cbn [foot]. split; [lia|tauto].
    + intros lim t2 [Hl1 Hl2]. cbv zeta. set (r := Z.min lim (ab_size (ly_tx l))).
      apply foot_bind, foot_body. intros k Hk Hov Hlt. cbn [foot]. exists r, k. split; [exact Hov|].
      unfold u32 in Hu.
      pose proof (Z.mod_pos_bound (r - k) (2 ^ 32) ltac:(lia)) as Hm1. fold (w32 (r - k)) in Hm1.
      assert (k <= r) as Hkr.
      { destruct (Z.leb_spec k r); [assumption|exfalso].
        assert (0 < r) by lia. assert (w32 (r - k) = r - k + 2 ^ 32); [|lia].
        unfold w32. rewrite <- (Z_mod_plus_full _ 1). apply Z.mod_small. lia. }
      rewrite (w32_id (r - k)) by (unfold r; lia).
      split; [symmetry; apply w32_w64|]. split; [unfold r in *; lia|]. intros Hbl. specialize (Hl2 Hbl). unfold r in *. lia.
  - intros m t2 (r & k & Hov & -> & Hr & Hbl).
    assert (w32 (MCTP_PACKET_SIZE (w32 (r - k - 4))) = r - k) as Er.
    { unfold MCTP_PACKET_SIZE, w32. rewrite Zplus_mod_idemp_l. replace (r - k - 4 + 4) with (r - k) by lia.
      apply Z.mod_small. destruct (overhead_extra _ _ Hov); lia. }
    rewrite Er. apply foot_bind, foot_psize. intros k' Hk' Hov' _. cbn [foot]. assert (k' = k) as -> by congruence.
    replace (r - k + k) with r by lia. rewrite (w32_id r) by (destruct (overhead_extra _ _ Hov); lia).
    set (pl := mkLayout _ _).
    assert (72 <= r -> bok g (EvLWrite 16 (layout_fields 256 r (256 + area mtu) r))) as Hlw.
    { intros H72. right. right. left. split; [reflexivity|]. exists r. split; [lia|reflexivity]. }
    destruct HL as [HL|(L1 & L2 & _ & _)]; [contradiction|].
    apply foot_bind, (foot_lval kv bok); cbn [pl ly_rx ly_tx ab_set_size ab_off ab_size]; rewrite ?L1, ?L2;
      try (unfold u32; destruct (overhead_extra _ _ Hov); lia).
    intros ok2 H2. cbn [foot]. destruct ok2; cbn [negb]; [|exact Hw]. destruct (H2 eq_refl) as (_ & _ & H72 & _).
    match goal with |- context [layout_write ?x ?y] => set (a1 := x) end.
    assert (bK g a1) as HK1.
    { split; [exact Hb|]. split; [exact Hm|]. right.
      cbn [a1 pl a_set_layout a_layout a_tx a_rx ly_rx ly_tx ab_off ab_size ab_set_size].
      destruct (overhead_extra _ _ Hov); lia. }
    apply foot_bind. unfold layout_write. change (a_bmc a1) with (a_bmc a). rewrite Hb. cbn [foot]. intros _.
    split; [cbn [pl ly_rx ly_tx ab_set_size ab_off ab_size]; rewrite L1, L2; exact (Hlw H72)|].
    assert (W g (put_ast w i a1)) as Hw1 by (apply W_put; assumption).
    destruct (2 <=? v); [apply W_size|]; exact Hw1.
Qed.

Lemma b_init g w i : any_kval KData 0 = true -> W g w ->
  foot kv bok (init_channel w i) g (fun w' g' => W g' w').
Proof.
  intros _ Hw. unfold init_channel. cbn [foot]. intros _ h Hz Hby. change HDR_SIZE with 32 in Hz.
  split; [unfold bok, bmc_footprint, within; lia|]. cbv zeta. set (neg := negotiate_version _ _ _ _).
  assert (0 <= neg <= 3) as Hneg.
  { pose proof (fld16_range h OFF_host_ver_cur Hz Hby ltac:(unfold OFF_host_ver_cur; lia)) as R2.
    unfold neg, negotiate_version, ASTLPC_VER_BAD, ASTLPC_VER_CUR. destruct (negb _); [lia|]. destruct (_ <? _) eqn:E; lia. }
  clearbody neg. apply (foot_pcall kv bok b_core); [plain|]. intros ? t.
  eapply foot_call; [apply b_negotiate; apply W_put; [exact Hw|]; eapply b_same0; [exact (W_ast bK g w i Hw)|..]; reflexivity|].
  intros [w2 rc] t1 Hw2. cbn [fst] in Hw2. cbn [foot]. intros _. split.
  { right. left. split; [reflexivity|]. eexists. split; [|reflexivity]. destruct (rc <? 0); unfold ASTLPC_VER_BAD; lia. }
  cbv zeta. apply foot_bind, b_status; [destruct (rc <? 0), (0 <? _); cbn; auto|]. intros rc' t2.
  apply (foot_set_tx astlpc_tx kv bok bK b_core b_more (foot_tx kv bok bK b_kread b_data b_more b_same b_u32 b_wr)).
  apply W_put; [exact Hw2|]. eapply b_same; [exact (W_ast bK _ w2 i Hw2)|..]; try reflexivity. exact (fun y => y).
Qed.
End Bmc.

(** Every call of a BMC that is within its footprint so far stays within it. *)
Lemma bmc_call app mtu g w o : 0 <= mtu < 2 ^ 32 -> keeps o -> W (bK mtu) g w ->
  foot (mkAns any_kval (fun _ _ => True)) (bok mtu) (aexec_op app w o) g (fun w' g' => W (bK mtu) g' w').
Proof.
  intros Hm Ho Hw. apply (foot_aop app _ _ _) with (bm := true); try assumption.
  all: first [exact (b_core mtu Hm) | exact (b_kread mtu) | exact (b_kdata mtu) | exact (b_role mtu) | exact (b_data mtu Hm) | exact (b_more mtu) | exact (b_same mtu)
      | exact (b_u32 mtu) | exact (b_wr mtu) | exact (b_len mtu) | exact (b_rd mtu) | exact (b_init mtu Hm)
      | exact (b_update mtu) | exact (b_start mtu Hm)].
Qed.
Lemma bmc_blank mtu : W (bK mtu) [] (astlpc_world true mtu).
Proof. split; (split; [reflexivity|]; split; [reflexivity|]; left; repeat split). Qed.

(** C64, BMC side.  In every history of calls, with every peer, in every state of memory
    and with every failing access, even if the run ends in undefined behaviour: the BMC
    writes only the header and its own packet area, reads only the header and the host's
    packet area, writes nothing but status words and commands to the KCS registers, and
    reads a command only when the status register has just shown that there is one. *)
Theorem C64_bmc app mtu l e : 0 <= mtu < 2 ^ 32 -> Forall keeps l ->
  forall before ev after,
    events (run e 0 [] (aexec app (astlpc_world true mtu) l)) = before ++ ev :: after -> bmc_footprint mtu before ev.
Proof.
  intros Hm Hl before ev after E.
  assert (forall l g w, Forall keeps l -> W (bK mtu) g w ->
    foot (mkAns any_kval (fun _ _ => True)) (bok mtu) (aexec app w l) g (fun w' g' => W (bK mtu) g' w')) as Hf.
  { clear l Hl e E. induction l as [|o l IH]; intros g w Hl Hw; cbn [aexec]; [exact Hw|]. inversion_clear Hl as [|? ? Ho Hl'].
    eapply foot_call; [now apply bmc_call|]. intros w' t Hw'. now apply IH. }
  specialize (Hf l [] _ Hl (bmc_blank mtu)).
  destruct (foot_sound _ _ _ _ _ _ Hf I e 0%nat (fun _ _ _ _ => eq_refl) (fun _ _ => I)) as [He _].
  rewrite E in He. apply each_app in He. exact (proj1 (proj2 He)).
Qed.

(** ** The host *)

Section Host.
Variable mtu : Z.
Notation kv := (mkAns no_initialise (fun _ _ => True)).
Definition hK (g : list event) (a : astlpc) : Prop :=
  a_bmc a = false /\ a_mtu a = mtu /\ (a_proto a <> None -> ready_seen g) /\
  (blank a \/ exists h, In (EvLRead 0 h) g /\
     announces h (ab_off (a_rx a)) (ab_size (a_rx a)) (ab_off (a_tx a)) (ab_size (a_tx a))).
Notation hok := (host_footprint mtu).
Notation W := (W hK).

Lemma h_core g e : ~ io_ev e -> hok g e.
Proof. destruct e; cbn; tauto. Qed.
Lemma h_kread g v : hok g (EvKRead KStatus v).
Proof. exact I. Qed.
Lemma h_kdata g st v : tst st 1 = true -> hok (g ++ [EvKRead KStatus (Some st)]) (EvKRead KData v).
Proof. intros H. exists g, st. auto. Qed.
Lemma h_role g a : hK g a -> a_bmc a = false.
Proof. intros H. apply H. Qed.
Lemma h_data g v b : v = 1 \/ v = 2 -> hok g (EvKWrite KData v b).
Proof. intros H. cbn. tauto. Qed.
Lemma seen_more g t : ready_seen g -> ready_seen (g ++ t).
Proof. intros (st & H & E). exists st. split; [apply in_or_app; now left|exact E]. Qed.
Lemma h_more g t a : hK g a -> hK (g ++ t) a.
Proof.
  intros (Hb & Hm & Hr & [Hbl|(h & Hin & Ha)]); (split; [exact Hb|]; split; [exact Hm|]; split; [intros Hp; apply seen_more; auto|]); [now left|right].
  exists h. split; [apply in_or_app; now left|exact Ha].
Qed.
Lemma h_same g a a' : hK g a -> a_bmc a' = a_bmc a -> a_mtu a' = a_mtu a ->
  ab_off (a_rx a') = ab_off (a_rx a) -> ab_size (a_rx a') = ab_size (a_rx a) ->
  ab_off (a_tx a') = ab_off (a_tx a) -> ab_size (a_tx a') = ab_size (a_tx a) -> (a_proto a' <> None -> a_proto a <> None) -> hK g a'.
Proof. unfold hK, blank. intros H -> -> -> -> -> -> Hp. destruct H as (H1 & H2 & H3 & H4). repeat split; auto. Qed.
Lemma h_set_proto g a v : hK g a -> ready_seen g -> hK g (a_set_proto a v).
Proof. intros (H1 & H2 & H3 & H4) Hr. exact (conj H1 (conj H2 (conj (fun _ => Hr) H4))). Qed.
Lemma h_u32 g a : hK g a ->
  0 <= ab_off (a_tx a) /\ ab_off (a_tx a) + ab_size (a_tx a) < 2 ^ 32 /\
  0 <= ab_off (a_rx a) /\ ab_off (a_rx a) + ab_size (a_rx a) < 2 ^ 32.
Proof.
  intros (_ & _ & _ & [(E1 & E2 & E3 & E4)|(h & _ & Ha)]); [lia|].
  destruct Ha as [_ _ _ _ _ [? ?] [? ?] _ _]. unfold LPC_WIN_SIZE in *. lia.
Qed.
Lemma h_wr g a off bs : hK g a -> 0 < ab_size (a_tx a) ->
  within off (zlen bs) (ab_off (a_tx a)) (ab_off (a_tx a) + ab_size (a_tx a)) -> hok g (EvLWrite off bs).
Proof.
  intros (_ & _ & _ & [(E1 & E2 & E3 & E4)|(h & Hin & Ha)]) Hp Hw; [lia|]. cbn. right. right. right. eauto 10.
Qed.
Lemma h_rd g a off bs : hK g a -> 0 < ab_size (a_rx a) ->
  within off (zlen bs) (ab_off (a_rx a)) (ab_off (a_rx a) + ab_size (a_rx a)) -> hok g (EvLRead off bs).
Proof.
  intros (_ & _ & _ & [(E1 & E2 & E3 & E4)|(h & Hin & Ha)]) Hp Hw; [lia|]. cbn. right. eauto 10.
Qed.
Lemma h_len g a bs : hK g a -> a_proto a <> None -> zlen bs = 4 -> hok g (EvLRead (ab_off (a_rx a)) bs).
Proof.
  intros (_ & _ & Hr & [(E1 & E2 & E3 & E4)|(h & Hin & Ha)]) Hp Hz; cbn.
  - left. split; [auto|]. unfold within. lia.
  - right. exists h, (ab_off (a_rx a)), (ab_size (a_rx a)), (ab_off (a_tx a)), (ab_size (a_tx a)).
    split; [exact Hin|]. split; [exact Ha|]. pose proof (an_room _ _ _ _ _ Ha). unfold within. lia.
Qed.
Lemma h_init g w i : no_initialise KData 0 = true -> W g w -> foot kv hok (init_channel w i) g (fun w' g' => W g' w').
Proof. discriminate. Qed.

Lemma announced p h g (Q : bool -> list event -> Prop) : zlen h = 32 -> Forall is_byte h ->
  (forall r, (r = true -> announces h (fld32 h 16) (fld32 h 20) (fld32 h 24) (fld32 h 28)) -> Q r g) ->
  foot kv hok (layout_validate p (mkLayout (mkBuf (fld32 h 16) (fld32 h 20) Idle) (mkBuf (fld32 h 24) (fld32 h 28) Idle))) g Q.
Proof.
  intros Hz Hb HQ. apply (foot_lval kv hok); cbn [ly_rx ly_tx ab_off ab_size]; try (apply fld32_range; assumption || lia).
  intros r Hr. apply HQ. intros Et. destruct (Hr Et) as (A1 & A2 & A3 & A4 & A5). constructor; try reflexivity; auto.
Qed.

Lemma h_negotiate g a : hK g a -> ready_seen g ->
  foot kv hok (negotiate_layout_host a) g (fun _ _ => True).
Proof.
  intros (Hb & Hm & _) Hr. unfold negotiate_layout_host, layout_read. cbn [bind foot]. intros _ h Hz Hby.
  change HDR_SIZE with 32 in Hz. split; [left; split; [exact Hr|unfold within; lia]|]. rewrite Hb.
  apply foot_bind, announced; [exact Hz|exact Hby|]. intros r Hann. destruct r; cbn [negb]; [|exact I]. specialize (Hann eq_refl).
  apply foot_bind, foot_psize. intros k Hk _ Hlt. cbn [foot]. rewrite Hm in *. unfold MCTP_PACKET_SIZE in *.
  pose proof (Z.mod_pos_bound (mtu + 4) (2 ^ 32) ltac:(lia)) as Hw. fold (w32 (mtu + 4)) in Hw.
  assert (w32 (w32 (mtu + 4) + k) = w32 (mtu + 4) + k) as E.
  { destruct (Z.ltb_spec (w32 (mtu + 4) + k) (2 ^ 32)); [apply w32_id; lia|exfalso].
    assert (w32 (w32 (mtu + 4) + k) = w32 (mtu + 4) + k - 2 ^ 32); [|lia].
    unfold w32 at 1. symmetry. apply (Z.mod_unique _ _ 1); lia. }
  rewrite E in *.
  pose proof (fld32_range h 16 Hz Hby ltac:(lia)) as R1. pose proof (fld32_range h 24 Hz Hby ltac:(lia)) as R2.
  pose proof (fld32_range h 28 Hz Hby ltac:(lia)) as R3.
  assert (u32 (w32 (mtu + 4) + k)) as R4.
  { pose proof (Z.mod_pos_bound (w32 (mtu + 4) + k) (2 ^ 32) ltac:(lia)) as H. fold (w32 (w32 (mtu + 4) + k)) in H. rewrite E in H. exact H. }
  apply foot_bind, (foot_lval kv hok); cbn [ly_rx ly_tx ab_set_size ab_off ab_size]; try assumption.
  intros r2 H2. cbn [foot]. destruct r2; cbn [negb]; [|exact I]. destruct (H2 eq_refl) as (A1 & A2 & A3 & A4 & A5).
  apply foot_bind. unfold layout_write. rewrite Hb. cbn [foot]. intros _. split; [|exact I].
  right. right. left. split; [reflexivity|]. exists k, h, g. split; [exact Hk|]. split; [reflexivity|]. cbv zeta. split; [|reflexivity]. split; [exact Hz|]. split; [exact A1|]. split; [exact A3|exact A5].
Qed.

Lemma h_start g a : hK g a -> foot kv hok (astlpc_start a) g (fun r g' => hK g' (fst (fst r))).
Proof.
  intros HK. pose proof HK as (Hb & _). unfold astlpc_start. rewrite Hb.
  eapply foot_call with (P := fun r g' => hK g' (fst r)); [|intros [a' rc] t HK'; exact HK'].
  unfold init_host. cbn [foot]. intros v _. split; [exact I|]. destruct v as [st|]; [|now apply h_more].
  cbv zeta. assert (forall t, hK (g ++ t) (a_set_kcs a st)) as HK1.
  { intros t. apply h_more. eapply h_same; [exact HK|..]; try reflexivity. exact (fun x => x). }
  destruct (tst st ST_BMC_READY) eqn:Er; cbn [negb]; [|apply HK1].
  assert (forall t, ready_seen (g ++ [EvKRead KStatus (Some st)] ++ t)) as Hsn.
  { intros t. exists st. split; [apply in_or_app; right; now left|exact Er]. }
  cbn [foot]. intros _ h Hz _. change HDR_SIZE with 32 in Hz.
  split; [left; split; [exact (Hsn [])|unfold within; lia]|]. rewrite <- app_assoc. destruct (_ =? 0); [apply HK1|].
  apply (foot_pcall kv hok h_core); [plain|]. intros ? t. rewrite <- app_assoc.
  match goal with |- context [a_set_proto (a_set_kcs a st) ?n] => set (neg := n) end.
  rewrite <- app_assoc.
  assert (forall t n, hK (g ++ [EvKRead KStatus (Some st)] ++ t) (a_set_proto (a_set_kcs a st) n)) as HK2.
  { intros t' n. apply h_set_proto; [apply HK1|apply Hsn]. }
  eapply foot_call with (P := fun _ _ => True).
  { destruct (2 <=? neg); [eapply h_negotiate; [apply HK2|apply Hsn]|exact I]. }
  intros rc t1 _. rewrite <- !app_assoc. destruct (rc <? 0); [apply HK2|].
  cbn [foot]. intros _. split; [left; split; reflexivity|]. intros _. split; [right; left; split; reflexivity|].
  intros b. split; [left; reflexivity|]. rewrite <- !app_assoc. cbn [fst].
  change (a_set_proto (a_set_proto (a_set_kcs a st) neg) ASTLPC_VER_BAD) with (a_set_proto (a_set_kcs a st) ASTLPC_VER_BAD).
  apply HK2.
Qed.

Lemma h_finalise g w i : ready_seen g -> W g w -> foot kv hok (finalise_channel w i) g (fun r g' => W g' (fst r)).
Proof.
  intros Hs Hw. unfold finalise_channel. cbn [foot]. intros _ nb Hz _. split; [left; split; [exact Hs|unfold within, OFF_negotiated; lia]|].
  cbv zeta. destruct (_ || _); [cbn [foot fst]; apply (W_more hK h_more); exact Hw|].
  apply (foot_pcall kv hok h_core); [plain|]. intros ? t. rewrite <- app_assoc.
  match goal with |- context [a_set_proto (ast w i) ?n] => set (a := a_set_proto (ast w i) n) end.
  assert (forall t', hK (g ++ t') a) as HKa.
  { intros t'. apply h_more, h_set_proto; [exact (W_ast hK g w i Hw)|exact Hs]. }
  assert (forall t', W (g ++ t') (put_ast w i a)) as Hwa.
  { intros t'. apply W_put; [now apply (W_more hK h_more)|apply HKa]. }
  unfold layout_read. cbn [bind foot]. intros _ h Hzh Hby. change HDR_SIZE with 32 in Hzh.
  split; [left; split; [now apply seen_more|unfold within; lia]|]. destruct (HKa []) as (Hba & Hma & _). rewrite Hba. rewrite <- app_assoc.
  apply foot_bind, announced; [exact Hzh|exact Hby|]. intros r Hr. destruct r; cbn [negb]; [|apply Hwa].
  specialize (Hr eq_refl). cbn [ly_rx ly_tx].
  match goal with |- context [a_set_layout a ?l] => set (lay := l) end.
  eapply foot_call with (P := fun w' g' => W g' w').
  - destruct (2 <=? _); [|apply Hwa]. apply foot_bind, foot_body. intros k _ _ _. cbn [foot]. apply W_size, Hwa.
  - intros w' t1 Hw'. cbn [foot fst]. apply W_put; [exact Hw'|]. split; [exact Hba|]. split; [exact Hma|]. split; [intros _; now apply seen_more, seen_more|]. right. exists h.
    split; [|exact Hr]. apply in_or_app. left. apply in_or_app. right. apply in_or_app. right. now left.
Qed.

Lemma h_update g w i st : W g w -> foot kv hok (update_channel w i st) g (fun r g' => W g' (fst r)).
Proof.
  intros Hw. unfold update_channel. apply (foot_pcall kv hok h_core); [plain|]. intros ? t. cbv zeta.
  apply (W_more hK h_more _ t) in Hw. revert Hw. generalize (g ++ t). clear g t. intros g Hw.
  assert (forall g a x, hK g a -> hK g (a_set_kcs a x)) as Hkcs.
  { intros g' a' x0 Ha. eapply h_same; [exact Ha|..]; try reflexivity. exact (fun y => y). }
  destruct (_ && _).
  { eapply foot_call; [apply h_start, Hkcs; exact (W_ast hK g w i Hw)|].
    intros [[a' rc] ?] t Ha. cbn [fst] in Ha. cbn [foot fst]. apply W_put; [now apply (W_more hK h_more)|exact Ha]. }
  assert (forall g w, W g w -> W g (put_ast w i (a_set_rx_st (a_set_tx_st (ast w i) Idle) Idle))) as Hidle.
  { intros g' w' Hw'. apply W_put; [exact Hw'|]. eapply h_same; [exact (W_ast hK g' w' i Hw')|..]; try reflexivity. exact (fun y => y). }
  pose proof (foot_set_tx astlpc_tx kv hok hK h_core h_more
    (foot_tx kv hok hK h_kread h_data h_more h_same h_u32 h_wr)) as Hset.
  eapply foot_call with (P := fun w' g' => W g' w').
  { destruct (tst _ _); [apply Hset, Hidle; exact Hw|exact Hw]. }
  intros w1 t Hw1. destruct (a_proto (ast w1 i)) as [v|] eqn:Ep; cbn [deref bind]; [|exact I].
  eapply foot_call with (P := fun r g' => W g' (fst r)).
  - destruct (_ || _); [|exact Hw1]. eapply foot_call; [apply h_finalise; [|apply Hidle; exact Hw1]|].
    { destruct (W_ast hK _ w1 i Hw1) as (_ & _ & Hr & _). apply Hr. congruence. }
    intros [w' rc] t2 Hw'. cbn [fst] in Hw'. eapply foot_call; [apply Hset; exact Hw'|]. intros w'' t3 Hw''. exact Hw''.
  - intros [w2 rc] t2 Hw2. cbn [fst] in Hw2. cbn [foot fst]. apply W_put; [exact Hw2|]. apply Hkcs. exact (W_ast hK _ w2 i Hw2).
Qed.
End Host.

Lemma host_call app mtu g w o : keeps o -> W (hK mtu) g w ->
  foot (mkAns no_initialise (fun _ _ => True)) (host_footprint mtu) (aexec_op app w o) g (fun w' g' => W (hK mtu) g' w').
Proof.
  intros Ho Hw. apply (foot_aop app _ _ _) with (bm := false); try assumption.
  all: first [exact (h_core mtu) | exact (h_kread mtu) | exact (h_kdata mtu) | exact (h_role mtu) | exact (h_data mtu)
      | exact (h_more mtu) | exact (h_same mtu) | exact (h_u32 mtu) | exact (h_wr mtu) | exact (h_len mtu) | exact (h_rd mtu)
      | exact (h_init mtu) | exact (h_update mtu) | exact (h_start mtu)].
Qed.
Lemma host_blank mtu : W (hK mtu) [] (astlpc_world false mtu).
Proof. split; (split; [reflexivity|]; split; [reflexivity|]; split; [intros N; exfalso; apply N; reflexivity|]; left; repeat split). Qed.

(** C64, host side: against any peer that never sends the Initialise command, in every
    history and with any failures, the host writes only its two version fields, the size
    field (with the size for its own mtu, once the BMC was seen ready and if the header read
    just before can take it) and the packet area that a header it has read assigns to it, and reads only the
    header and the other packet area. *)
Theorem C64_host app mtu l e :
  (forall n r v, kread_val (e_kread e n r) = Some v -> no_initialise r v = true) -> Forall keeps l ->
  forall before ev after,
    events (run e 0 [] (aexec app (astlpc_world false mtu) l)) = before ++ ev :: after -> host_footprint mtu before ev.
Proof.
  intros He Hl before ev after E.
  assert (forall l g w, Forall keeps l -> W (hK mtu) g w ->
    foot (mkAns no_initialise (fun _ _ => True)) (host_footprint mtu) (aexec app w l) g (fun w' g' => W (hK mtu) g' w')) as Hf.
  { clear l Hl E. induction l as [|o l IH]; intros g w Hl Hw; cbn [aexec]; [exact Hw|]. inversion_clear Hl as [|? ? Ho Hl'].
    eapply foot_call; [now apply host_call|]. intros w' t Hw'. now apply IH. }
  specialize (Hf l [] _ Hl (host_blank mtu)).
  destruct (foot_sound _ _ _ _ _ _ Hf I e 0%nat He (fun _ _ => I)) as [Hev _].
  rewrite E in Hev. apply each_app in Hev. exact (proj1 (proj2 Hev)).
Qed.

(** The condition on the peer is needed: sent an Initialise command once the channel is
    up, the host answers it as a BMC would, overwriting the negotiated version and the
    KCS status register, which are the BMC's. *)
Definition host_env : env :=
  kcs_env (fun n => nth n [128; 128; 128; 128; 128; 128; 128; 128; 193; 255; 193; 193; 193; 0] 193).
Theorem C64_host_initialise :
  let l := [ACore (OpRegister 9); APoll false; APoll false] in
  let tr := events (run host_env 0 [] (aexec no_app (astlpc_world false 64) l)) in
  Forall keeps l /\ In (EvLWrite 12 [0; 3]) tr /\ In (EvKWrite KStatus 193 true) tr /\
  ~ (forall before ev after, tr = before ++ ev :: after -> host_footprint 64 before ev).
Proof.
  cbv zeta. split; [repeat constructor|].
  assert (In (EvKWrite KStatus 193 true)
    (events (run host_env 0 [] (aexec no_app (astlpc_world false 64) [ACore (OpRegister 9); APoll false; APoll false])))) as H.
  { vm_compute. repeat (try (left; reflexivity); right). }
  split; [vm_compute; repeat (try (left; reflexivity); right)|]. split; [exact H|].
  intros Hf. apply in_split in H. destruct H as (x & y & E). exact (Hf _ _ _ E).
Qed.

(** A host that comes up and sends a packet, and a BMC that does: both use their areas. *)
Lemma C64_case_host :
  let e := kcs_env (fun n => nth n [128; 128; 128; 128; 128; 128; 128; 128; 193; 255] 192) in
  let l := [ACore (OpRegister 9); APoll false; ACore (OpTx 8 true 0 [1; 2; 3])] in
  (forall n r v, kread_val (e_kread e n r) = Some v -> no_initialise r v = true) /\ Forall keeps l /\
  In (EvLWrite 4368 [1; 8; 9; 200; 1; 2; 3; 195; 92; 171; 48])
     (events (run e 0 [] (aexec no_app (astlpc_world false 64) l))) /\
  announces hdr_window 256 4108 4364 4108.
Proof.
  cbv zeta. split; [|split; [repeat constructor|split]].
  - intros n r v. cbn [e_kread kcs_env kread_val]. intros [= <-].
    do 20 (destruct n as [|n]; [destruct r; reflexivity|]). destruct r; reflexivity.
  - vm_compute. repeat (try (left; reflexivity); right).
  - constructor; try reflexivity; unfold within; vm_compute; repeat split; try discriminate; left; discriminate.
Qed.
Lemma C64_case_bmc :
  let e := kcs_env (fun n => nth n [0; 0; 0; 0; 2] 0) in
  let l := [ACore (OpRegister 8); APoll false; ACore (OpTx 9 true 0 [1; 2; 3])] in
  Forall keeps l /\ area 4096 = 4108 /\
  In (EvLWrite 260 [1; 9; 8; 200; 1; 2; 3; 53; 96; 81; 37])
     (events (run e 0 [] (aexec no_app (astlpc_world true 4096) l))).
Proof. cbv zeta. split; [repeat constructor|]. split; [reflexivity|]. vm_compute. repeat (try (left; reflexivity); right). Qed.
