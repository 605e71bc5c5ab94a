(** AstDown: errors, old peers and restarts on the astlpc channel (C40-C43). *)
From Verif Require Import Base Lists Prog PktBuf Core WP Walk CoreRel WalkCore CoreHist Spec SpecRx PropRx Crc PropCrc
  SpecSer Astlpc SpecAst AstBasic AstWalk Concrete PropAst CrcSpan AstRx AstPoll PropLife.

Local Notation world := (world astlpc).

(** ** Which commands a program can write *)
Definition noiow (e : event) : Prop := match e with EvKWrite _ _ _ => False | _ => True end.
Fixpoint kw {A} (W : kreg -> Z -> Prop) (p : prog A) : Prop :=
  match p with
  | Ret _ | Flt _ => True
  | KRead _ k => forall v, kw W (k v)
  | KWrite r v k => W r v /\ forall ok, kw W (k ok)
  | LRead _ _ k => forall bs, kw W (k bs)
  | LWrite _ _ k => kw W k
  | SWrite _ k => forall r, kw W (k r)
  | Malloc k => forall ok, kw W (k ok)
  | Emit e k => noiow e /\ kw W k
  end.
Lemma kw_bind W A B (p : prog A) (f : A -> prog B) : kw W p -> (forall x, kw W (f x)) -> kw W (bind p f).
Proof.
  intros Hp Hf. induction p; cbn [kw bind] in *; auto; destruct Hp; auto.
Qed.

(** Results and commands in environments whose register reads satisfy [R]. *)
Fixpoint okrun {A} (R : kreg -> option Z -> Prop) (W : kreg -> Z -> Prop) (P : A -> Prop) (p : prog A) : Prop :=
  match p with
  | Ret a => P a
  | Flt _ => True
  | KRead r k => forall v, R r v -> okrun R W P (k v)
  | KWrite r v k => W r v /\ forall ok, okrun R W P (k ok)
  | LRead _ _ k => forall bs, okrun R W P (k bs)
  | LWrite _ _ k => okrun R W P k
  | SWrite _ k => forall r, okrun R W P (k r)
  | Malloc k => forall ok, okrun R W P (k ok)
  | Emit e k => noiow e /\ okrun R W P k
  end.
Lemma okrun_bind {A B} R W (Q : A -> Prop) (P : B -> Prop) : forall (p : prog A) (f : A -> prog B),
  okrun R W Q p -> (forall a, Q a -> okrun R W P (f a)) -> okrun R W P (bind p f).
Proof.
  induction p; intros F Hp Hf; cbn [bind okrun] in *; auto; destruct Hp; auto.
Qed.
Lemma okrun_mono {A} R W (P Q : A -> Prop) (p : prog A) : (forall a, P a -> Q a) -> okrun R W P p -> okrun R W Q p.
Proof. intros H. induction p; cbn [okrun]; auto; intros [H1 H2]; auto. Qed.
Lemma okrun_of {A} R W (P : A -> Prop) (p : prog A) : res P p -> kw W p -> okrun R W P p.
Proof. induction p; cbn [res kw okrun]; auto; intros Hr []; auto. Qed.
Lemma okrun_any {A} R W (p : prog A) : kw W p -> okrun R W (fun _ => True) p.
Proof. apply okrun_of, res_any. Qed.
Lemma okrun_run {A} e (R : kreg -> option Z -> Prop) (W : kreg -> Z -> Prop) (P : A -> Prop) : (forall n r, R r (kread_val (e_kread e n r))) ->
  forall (p : prog A) n tr a n' tr', okrun R W P p -> run e n tr p = Done a n' tr' ->
  P a /\ exists t, tr' = tr ++ t /\ forall r v ok, In (EvKWrite r v ok) t -> W r v.
Proof.
  intros He.
  assert (forall (ev : event) tr tr', noiow ev \/ (exists r v ok, ev = EvKWrite r v ok /\ W r v) ->
    (exists t, tr' = (tr ++ [ev]) ++ t /\ forall r v ok, In (EvKWrite r v ok) t -> W r v) ->
    exists t, tr' = tr ++ t /\ forall r v ok, In (EvKWrite r v ok) t -> W r v) as Hs.
  { intros ev tr tr' Hev (t & -> & Ht). exists (ev :: t). split; [now rewrite <- app_assoc|].
    intros r v ok [->|Hi]; [|eapply Ht; exact Hi]. destruct Hev as [[]|(r' & v' & ok' & [= <- <- <-] & Hw)]. exact Hw. }
  induction p as [x|f0|r k IH|r v k IH|o n k IH|o bs k IH|bs k IH|k IH|ev k IH];
    intros m tr x' n' tr' Hr E; cbn [okrun run] in *.
  - injection E as <- _ <-. split; [exact Hr|]. exists []. rewrite app_nil_r. split; [reflexivity|intros ? ? ? []].
  - discriminate.
  - eapply IH in E; [|apply Hr, He]. destruct E as [E1 E2]. split; [exact E1|].
    eapply Hs; [|exact E2]. left. exact I.
  - destruct Hr as [Hw Hr]. eapply IH in E; [|apply Hr]. destruct E as [E1 E2]. split; [exact E1|].
    eapply Hs; [|exact E2]. right. eauto.
  - destruct (in_window o n); [|discriminate]. eapply IH in E; [|apply Hr]. destruct E as [E1 E2]. split; [exact E1|].
    eapply Hs; [|exact E2]. left. exact I.
  - destruct (in_window o (zlen bs)); [|discriminate]. eapply IH in E; [|apply Hr]. destruct E as [E1 E2]. split; [exact E1|].
    eapply Hs; [|exact E2]. left. exact I.
  - eapply IH in E; [|apply Hr]. destruct E as [E1 E2]. split; [exact E1|]. eapply Hs; [|exact E2]. left. exact I.
  - eapply IH in E; [|apply Hr]. exact E.
  - destruct Hr as [Hn Hr]. eapply IH in E; [|apply Hr]. destruct E as [E1 E2]. split; [exact E1|].
    eapply Hs; [|exact E2]. left. exact Hn.
Qed.

(** A host in a session writes only the two hand-off commands. *)
Definition handoff (r : kreg) (v : Z) : Prop := r = KData /\ (v = 1 \/ v = 2).
Notation kh := (kw handoff).
Lemma kw_deref A f (o : option A) : kh (deref f o).
Proof. destruct o; exact I. Qed.
Lemma kw_assert b : kh (assert_ b).
Proof. destruct b; exact I. Qed.
Ltac kw_step :=
  match goal with
  | |- kw _ (bind _ _) => apply kw_bind
  | |- kw _ (deref _ _) => apply kw_deref
  | |- kw _ (assert_ _) => apply kw_assert
  | |- kw _ (Emit _ _) => cbn [kw]; split; [exact I|]
  | |- kw _ (Ret _) => exact I
  | |- kw _ (Flt _) => exact I
  | |- kw _ (KRead _ _) => cbn [kw]
  | |- kw _ (KWrite _ _ _) => cbn [kw]; split
  | |- kw _ (LRead _ _ _) => cbn [kw]
  | |- kw _ (LWrite _ _ _) => cbn [kw]
  | |- kw _ (Malloc _) => cbn [kw]
  | |- kw _ (if ?b then _ else _) => destruct b
  | |- kw _ (match ?x with _ => _ end) => destruct x
  | |- forall _, _ => intro
  | |- True => exact I
  | |- noiow _ => exact I
  | |- kw _ (let _ := _ in _) => cbv zeta
  end.
Ltac kw_tac := repeat kw_step.
Lemma kw_packet_size p n : kh (packet_size p n).
Proof. unfold packet_size. kw_tac. Qed.
Lemma kw_body_size p n : kh (body_size p n).
Proof. unfold body_size. kw_tac. Qed.
Lemma kw_layout_validate p l : kh (layout_validate p l).
Proof. unfold layout_validate, buffer_validate. kw_tac; apply kw_packet_size. Qed.
Lemma kw_layout_read x : kh (layout_read x).
Proof. unfold layout_read. kw_tac. Qed.
Lemma kw_kcs_send x c : c = 1 \/ c = 2 -> kh (kcs_send x c).
Proof. intros Hc. unfold kcs_send. kw_tac. split; auto. Qed.
Lemma kw_send1 x : kh (kcs_send x cmd_tx_begin).
Proof. apply kw_kcs_send. auto. Qed.
Lemma kw_send2 x : kh (kcs_send x cmd_rx_complete).
Proof. apply kw_kcs_send. auto. Qed.
Lemma kw_push p bs : kh (pktbuf_push p bs).
Proof. unfold pktbuf_push, pktbuf_push_len. kw_tac. Qed.
Lemma kw_tx x p : kh (astlpc_tx x p).
Proof. unfold astlpc_tx, pktbuf_protect. kw_tac; auto using kw_body_size, kw_push, kw_send1. Qed.
Lemma kw_get_bus (m : mctp) i : kh (get_bus m i).
Proof. unfold get_bus. kw_tac. Qed.
Lemma kw_send_loop : forall n (w : world) i, kh (send_loop astlpc_tx n w i).
Proof.
  induction n as [|n IH]; intros w i; cbn [send_loop]; unfold packet_tx, pktbuf_free; kw_tac;
    auto using kw_get_bus, kw_tx.
Qed.
Lemma kw_set (w : world) i en : kh (set_tx_enabled astlpc_tx w i en).
Proof. unfold set_tx_enabled, send_tx_queue. kw_tac; auto using kw_get_bus, kw_send_loop. Qed.
Lemma kw_pktbuf_alloc n a b c d : kh (pktbuf_alloc n a b c d).
Proof. unfold pktbuf_alloc. kw_tac. Qed.
Lemma kw_store p o bs : kh (pktbuf_store p o bs).
Proof. unfold pktbuf_store. kw_tac. Qed.
Lemma kw_packetise : forall n (w : world) i s d to tag mtu k msg, kh (packetise n w i s d to tag mtu k msg).
Proof.
  induction n as [|n IH]; intros; cbn [packetise]; kw_tac;
    auto using kw_get_bus, kw_pktbuf_alloc, kw_store.
Qed.
Lemma kw_on_bus (w : world) i s d to tag msg : kh (message_tx_on_bus astlpc_tx w i s d to tag msg).
Proof.
  unfold message_tx_on_bus, send_tx_queue. kw_tac; auto using kw_get_bus, kw_packetise, kw_send_loop.
Qed.
Lemma kw_message_tx (w : world) eid to tag msg : kh (message_tx astlpc_tx w eid to tag msg).
Proof. unfold message_tx. kw_tac; auto using kw_get_bus, kw_on_bus. Qed.
Lemma kw_react : forall l (w : world), kh (app_react astlpc_tx w l).
Proof. induction l as [|r l IH]; intros w; cbn [app_react]; kw_tac; auto using kw_message_tx. Qed.
Lemma kw_mctp_rx app (w : world) i s d to tag b msg : kh (mctp_rx astlpc_tx app w i s d to tag b msg).
Proof.
  unfold mctp_rx, rx_local, ctrl_handle, callback, rx_bridge. kw_tac; auto using kw_get_bus, kw_react, kw_on_bus.
Qed.
Lemma kw_add c p m : kh (ctx_add_pkt c p m).
Proof. unfold ctx_add_pkt, ctx_grow, ctx_append. kw_tac. Qed.
Lemma kw_bus_rx app (w : world) i p : kh (bus_rx astlpc_tx app w i p).
Proof.
  unfold bus_rx, bus_rx_body, rx_som, rx_eom, rx_mid, get_ctx, pktbuf_free. kw_tac;
    auto using kw_get_bus, kw_mctp_rx, kw_add.
Qed.
Lemma kw_rx_start app (w : world) i : kh (rx_start app w i).
Proof.
  unfold rx_start, pktbuf_validate, pktbuf_free. kw_tac;
    auto using kw_body_size, kw_packet_size, kw_pktbuf_alloc, kw_store, kw_send2, kw_bus_rx.
Qed.
Lemma kw_finalise (w : world) i : kh (finalise_channel w i).
Proof. unfold finalise_channel. kw_tac; auto using kw_layout_read, kw_layout_validate, kw_body_size. Qed.

(** ** C43: a restart of the BMC *)

Definition sess (w : world) : Prop :=
  a_bmc (ast w false) = false /\ tst (a_kcs (ast w false)) ST_BMC_READY = true.
Definition upst (r : kreg) (v : option Z) : Prop :=
  match r, v with
  | KStatus, Some st => tst st ST_BMC_READY = true
  | KData, Some d => d <> 0
  | _, None => True
  end.
Notation oks := (okrun upst handoff).

Lemma sess_fixed w w' : sess w -> fixed (ast w false) (ast w' false) -> sess w'.
Proof. intros [A B] (_ & F1 & _ & F2). unfold sess. now rewrite F1, F2. Qed.
Lemma sess_keep w w' : sess w -> keep w w' -> sess w'.
Proof. intros H [F _]. exact (sess_fixed _ _ H F). Qed.
Lemma sess_b0 (w w' : world) : sess w -> w_b0 w' = w_b0 w -> sess w'.
Proof. unfold sess, ast. cbn [bnd]. now intros H ->. Qed.
Lemma res_set (w : world) en : res (fun w' => fixed (ast w false) (ast w' false)) (set_tx_enabled astlpc_tx w false en).
Proof.
  unfold set_tx_enabled. cbn [res]. destruct (negb _); [exact I|]. eapply res_bind; [apply res_any|]. intros b _.
  assert (forall s, fixed (ast w false) (ast (set_bus w false (set_st b s)) false)) as H.
  { intros s. unfold ast. cbn [bnd]. rewrite b0_set_bus. apply fixed_refl. }
  destruct (bus_st b), en; cbn [negb]; try (apply fixed_refl); try apply H.
  - destruct (_ <? _); [apply fixed_refl|apply H].
  - eapply res_mono; [|apply res_send_tx_queue]. intros w' [F _]. eapply fixed_trans; [apply H|exact F].
Qed.
Lemma res_rx_sess app (w : world) : sess w -> res sess (rx_start app w false).
Proof.
  intros Hs. unfold rx_start. cbn [res]. intros lb. eapply res_bind; [apply res_any|]. intros mx _.
  destruct (mx <? _); [exact Hs|]. destruct (_ <? _); [exact Hs|].
  eapply res_bind; [apply res_any|]. intros ps _. cbv zeta. eapply res_bind; [apply res_any|]. intros [pkt|] _; [|exact Hs].
  cbn [res]. intros bs. eapply res_bind; [apply res_any|]. intros pk _. eapply res_bind; [apply res_any|]. intros rc _.
  match goal with |- res _ (bind _ (fun h => if _ then bind _ (fun _ => Ret ?w1) else _)) => set (w2 := w1) end.
  assert (sess w2) as H2 by (unfold w2; destruct (rc =? 0); exact Hs).
  eapply res_bind; [apply res_any|]. intros h _. destruct (negb _).
  { eapply res_bind; [apply res_any|]. intros _ _. exact H2. }
  eapply res_bind; [apply res_any|]. intros [pk' ok] _. destruct ok.
  - eapply res_mono; [|apply res_bus_rx]. intros w3. now apply sess_keep.
  - eapply res_bind; [apply res_any|]. intros _ _. exact H2.
Qed.
Lemma ok_update (w : world) st : sess w -> tst st ST_BMC_READY = true ->
  oks (fun r => sess (fst r)) (update_channel w false st).
Proof.
  intros [Hb Hk] Hst. unfold update_channel. rewrite Hb. cbn [negb assert_ bind]. cbv zeta.
  rewrite tst_xor_ready, Hk, Hst. cbn [xorb andb bind].
  eapply okrun_bind; [apply okrun_any, kw_deref|]. intros v _.
  eapply okrun_bind with (Q := fun r => a_bmc (ast (fst r) false) = false).
  2:{ intros [w2 rc] H2. cbn [okrun fst] in *. split; [exact H2|exact Hst]. }
  destruct (_ || _); [|exact Hb].
  eapply okrun_bind with (Q := fun r => a_bmc (ast (fst r) false) = false).
  - apply okrun_of; [|apply kw_finalise]. unfold finalise_channel. cbn [res]. intros nb.
    destruct (_ || _ || _); [exact Hb|]. eapply res_bind; [apply res_any|]. intros _ _. cbv zeta.
    eapply res_bind; [apply res_any|]. intros l _. eapply res_bind; [apply res_any|]. intros ok _.
    destruct (negb ok); [exact Hb|].
    eapply res_bind with (Q := fun w' => a_bmc (ast w' false) = false).
    { destruct (2 <=? _); [|exact Hb]. eapply res_bind; [apply res_any|]. intros b _. exact Hb. }
    intros w' Hw'. exact Hb.
  - intros [w1 rc] H1. cbn [fst] in H1. eapply okrun_bind with (Q := fun w' => a_bmc (ast w' false) = false).
    + apply okrun_of; [|apply kw_set]. eapply res_mono; [|apply res_set]. intros w' (_ & _ & _ & F). congruence.
    + intros w2 H2. exact H2.
Qed.
Lemma ok_tail (w : world) st data rc : sess w -> tst st ST_BMC_READY = true ->
  oks (fun r => sess (fst r)) (poll_tail w false st data rc).
Proof. intros Hs Hst. unfold poll_tail. destruct (_ && _); [now apply ok_update|exact Hs]. Qed.


Lemma ok_poll app (w : world) : sess w -> oks (fun r => sess (fst r)) (poll app w false).
Proof.
  intros Hs. unfold poll.
  eapply okrun_bind with (Q := fun x => sess (put_ast w false x)).
  { unfold poll_release_rx. destruct (ab_st (a_rx (ast w false))); try exact Hs.
    eapply okrun_bind; [apply okrun_any, kw_send2|]. intros rc _. cbn [okrun]. destruct (rc =? 0); exact Hs. }
  intros x1 H1.
  eapply okrun_bind with (Q := fun x => sess (put_ast w false x)).
  { unfold poll_release_tx. destruct (ab_st (a_tx x1)); try exact H1.
    eapply okrun_bind; [apply okrun_any, kw_send1|]. intros rc _. cbn [okrun]. destruct (rc =? 0); exact H1. }
  intros x2 H2. cbv zeta. set (w2 := put_ast w false x2) in *. clearbody w2. cbn [okrun].
  intros [st|] Hst; [|exact H2]. cbn [upst] in Hst. destruct (negb _); [exact H2|]. cbn [okrun]. intros [data|] Hd; [|exact H2].
  cbn [upst] in Hd. unfold poll_dispatch. eapply okrun_bind; [apply okrun_any, kw_deref|]. intros v _.
  destruct (_ && _); [exact H2|]. unfold cmd_initialise. replace (data =? 0) with false by lia.
  destruct (data =? cmd_tx_begin).
  { destruct (ab_st (a_rx (ast w2 false))); try exact H2.
    eapply okrun_bind; [apply okrun_of; [apply (res_rx_sess app w2 H2)|apply kw_rx_start]|].
    intros w3 H3. now apply ok_tail. }
  destruct (data =? cmd_rx_complete).
  { destruct (ab_st (a_tx (ast w2 false))); try exact H2.
    eapply okrun_bind with (Q := sess); [|intros w3 H3; now apply ok_tail].
    unfold tx_complete. apply okrun_of; [|apply kw_set]. eapply res_mono; [|apply res_set].
    intros w3. apply sess_fixed. exact H2. }
  destruct (data =? cmd_dummy_value); [|now apply ok_tail].
  destruct H2 as [Hb Hk]. rewrite Hb. assert (sess w2) as H2 by (split; assumption).
  eapply okrun_bind; [apply ok_update; assumption|]. intros [w3 rc] H3. cbn [fst] in H3.
  destruct (rc <? 0); [exact H3|now apply ok_tail].
Qed.
Lemma ok_aexec app : forall l (w : world), sess w -> Forall ast_traffic l -> oks sess (aexec app w l).
Proof.
  induction l as [|o l IH]; intros w Hs Hl; [exact Hs|]. cbn [aexec]. inversion_clear Hl as [|? ? Ho Hl'].
  eapply okrun_bind with (Q := sess); [|intros w' Hs'; apply IH; assumption].
  destruct o as [o|i].
  - cbn [aexec_op]. unfold exec_op. destruct (m_dead _); [exact I|].
    destruct o; cbn [ast_traffic] in Ho; try contradiction; try exact Hs.
    eapply okrun_bind; [apply okrun_of; [apply res_message_tx|apply kw_message_tx]|].
    intros [w1 rc] K. split; [exact I|]. exact (sess_keep _ _ Hs K).
  - cbn in Ho. subst i. cbn [aexec_op]. destruct (m_dead _); [exact I|].
    eapply okrun_bind; [apply ok_poll; exact Hs|]. intros [w1 rc] H1. split; [exact I|exact H1].
Qed.

(** While the host goes on finding bmc-ready set, it never sends Initialise again,
    however often it polls or transmits: a BMC that was restarted between two polls
    is not noticed. *)
Theorem C43_unnoticed app mtu eid l e n tr w l2 w' n' t :
  ast_reach app false mtu eid l e n tr w -> tst (a_kcs (ast w false)) 128 = true ->
  (forall k v, kread_val (e_kread e k KStatus) = Some v -> tst v 128 = true) ->
  Forall ast_traffic l2 -> run e n [] (aexec app w l2) = Done w' n' t ->
  forall ok, ~ In (EvKWrite KData 0 ok) t.
Proof.
  intros Hr Hk He Hl E ok Hin. pose proof (reach_inv _ _ _ _ _ _ _ _ _ Hr) as (_ & _ & Hao).
  pose proof Hr as (_ & _ & Hok & _). destruct Hok as (_ & _ & Hv & _). cbn [ast_assm] in Hv.
  assert (sess w) as Hs by (split; [exact (ao_mode _ _ _ Hao)|exact Hk]).
  destruct (okrun_run e upst handoff sess) with (p := aexec app w l2) (n := n) (tr := @nil event) (a := w') (n' := n') (tr' := t)
    as (_ & t0 & -> & Ht).
  - intros k r. specialize (Hv k r). destruct (kread_val (e_kread e k r)) as [v|] eqn:Ek; [|destruct r; exact I].
    specialize (Hv v eq_refl). destruct r; cbn in *.
    + unfold cmd_initialise in Hv. lia.
    + apply (He k v Ek).
  - now apply ok_aexec.
  - exact E.
  - specialize (Ht _ _ _ Hin). destruct Ht as [_ [Ht|Ht]]; discriminate.
Qed.


Lemma published_fields sz : u32 sz -> u32 (256 + sz) ->
  fld16 (published sz) 4 = 1 /\ fld16 (published sz) 6 = 3 /\
  fld32 (published sz) 16 = 256 /\ fld32 (published sz) 20 = sz /\
  fld32 (published sz) 24 = 256 + sz /\ fld32 (published sz) 28 = sz.
Proof.
  intros H1 H2. split; [reflexivity|]. split; [reflexivity|].
  split; [reflexivity|]. split; [exact (unbe32_be32 sz H1)|]. split; [exact (unbe32_be32 _ H2)|exact (unbe32_be32 sz H1)].
Qed.
Lemma validate_true v l : 1 <= v <= 3 -> layout_u32 l -> valid_layout v l -> layout_validate (Some v) l = Ret true.
Proof.
  intros Hv Hu Hl. destruct (C32_validate v l Hv Hu) as (r & -> & Hr). apply Hr in Hl. now subst r.
Qed.

(** The host's side of the negotiation, against the header a BMC publishes. *)
Lemma run_init_host e n tr a sz st : a_bmc a = false -> 64 <= a_mtu a <= sz - 12 -> sz <= 524156 ->
  kread_val (e_kread e n KStatus) = Some st -> tst st 128 = true ->
  mem_bytes (e_mem e (S n)) 0 32 = published sz -> mem_bytes (e_mem e (S (S n))) 0 32 = published sz ->
  let ok := e_kwrite e (6 + n) in
  run e n tr (init_host a) = Done (a_set_proto (a_set_kcs a st) 0, if ok then 0 else -1) (7 + n)
    (tr ++ [EvKRead KStatus (Some st); EvLRead 0 (published sz); EvLRead 0 (published sz);
            EvLWrite 20 (be32 (a_mtu a + 12)); EvLWrite 8 (be16 1); EvLWrite 10 (be16 3); EvKWrite KData 0 ok]).
Proof.
  intros Hb Hm Hsz Hk Hst M1 M2. cbn zeta. unfold init_host. cbn [run]. rewrite Hk. unfold ST_BMC_READY. rewrite Hst. cbn [negb].
  destruct (published_fields sz) as (F1 & F2 & F3 & F4 & F5 & F6); [unfold u32; lia|unfold u32; lia|].
  cbn [run]. unfold HDR_SIZE. change (in_window 0 32) with true. cbv iota. rewrite M1.
  unfold OFF_bmc_ver_min, OFF_bmc_ver_cur. rewrite F1, F2. change (negotiate_version 1 3 ASTLPC_VER_MIN ASTLPC_VER_CUR) with 3.
  cbn [Z.eqb assert_ Z.ltb Z.compare Pos.compare Pos.compare_cont bind].
  change (2 <=? 3) with true. cbv iota. unfold negotiate_layout_host, layout_read, HDR_SIZE. cbn [bind run].
  change (in_window 0 32) with true. cbv iota. rewrite M2.
  change (a_bmc (a_set_proto (a_set_kcs a st) 3)) with (a_bmc a). rewrite Hb.
  change (fld32 (published sz) 16) with 256. rewrite F4, F5, F6.
  change (a_proto (a_set_proto (a_set_kcs a st) 3)) with (Some 3).
  change (a_mtu (a_set_proto (a_set_kcs a st) 3)) with (a_mtu a).
  rewrite validate_true; [|lia|unfold layout_u32, u32; cbn [ly_rx ly_tx ab_off ab_size]; lia|
    unfold valid_layout, fits, inside; cbn [ly_rx ly_tx ab_off ab_size]; change (extra 3) with 8; repeat split; try lia].
  cbn [bind negb]. unfold MCTP_PACKET_SIZE. rewrite w32_id by lia. rewrite packet_size_ok by (change (extra 3) with 8; lia).
  change (extra 3) with 8. cbn [bind].
  rewrite validate_true; [|lia|unfold layout_u32, u32; cbn [ly_rx ly_tx ab_off ab_size ab_set_size]; lia|
    unfold valid_layout, fits, inside; cbn [ly_rx ly_tx ab_off ab_size ab_set_size]; change (extra 3) with 8; repeat split; try lia].
  cbn [bind negb]. unfold layout_write. change (a_bmc (a_set_proto (a_set_kcs a st) 3)) with (a_bmc a). rewrite Hb.
  cbn [ly_rx ab_size ab_set_size bind run].
  unfold OFF_rx_size, OFF_host_ver_min, OFF_host_ver_cur.
  change (in_window 20 _) with true. cbn [run bind Z.ltb Z.compare].
  change (in_window 8 _) with true. cbn [run bind].
  change (in_window 10 _) with true. cbn [run bind]. unfold cmd_initialise.
  replace (a_mtu a + 4 + 8) with (a_mtu a + 12) by lia.
  rewrite <- !app_assoc. reflexivity.
Qed.

(** When the host has seen bmc-ready clear and then finds it set, it starts over as
    on registration and sends Initialise. *)
Theorem C43_recovers app mtu eid l e n tr w st sz :
  ast_reach app false mtu eid l e n tr w -> tst (a_kcs (ast w false)) 128 = false ->
  pollfd_out (ast w false) = false ->
  (* the poll finds bmc-ready set and the dummy value announcing it *)
  kread_val (e_kread e n KStatus) = Some st -> tst st 128 = true -> tst st 1 = true ->
  kread_val (e_kread e (1 + n) KData) = Some 255 ->
  (exists st2, kread_val (e_kread e (2 + n) KStatus) = Some st2 /\ tst st2 128 = true) ->
  (* the BMC has published buffers large enough for the host's request *)
  shows e n 0 (published sz) -> 64 <= a_mtu (ast w false) <= sz - 12 -> sz <= 524156 ->
  exists r n' t, run e n [] (poll app w false) = Done r n' t /\
    In (EvKWrite KData 0 (e_kwrite e (8 + n))) t /\ a_proto (ast (fst r) false) = Some 0.
Proof.
  intros Hr Hk Hp Hs1 Hs2 Hs3 Hd (st2 & Hs4 & Hs5) Hsh Hm Hsz.
  pose proof (reach_inv _ _ _ _ _ _ _ _ _ Hr) as (Hwf & _ & Hao). pose proof (ao_mode _ _ _ Hao) as Hb.
  destruct (ao_ver _ _ _ Hao) as (v & Ev & _). fold (bnd w false) in Hb, Ev.

  assert (forall k, (n <= k)%nat -> mem_bytes (e_mem e k) 0 32 = published sz) as Hmem by exact Hsh.
  assert (poll_release_rx (ast w false) = Ret (ast w false) /\ poll_release_tx (ast w false) = Ret (ast w false)) as [R1 R2].
  { unfold poll_release_rx, poll_release_tx, pollfd_out in *.
    destruct (ab_st (a_rx (ast w false))), (ab_st (a_tx (ast w false))); try discriminate; split; reflexivity. }
  unfold poll. rewrite R1. cbn [bind]. rewrite R2. cbn [bind]. cbv zeta. rewrite Inv_same. cbn [run]. rewrite Hs1.
  assert (kcs_read_ready (ast w false) st = true) as Hrr.
  { unfold kcs_read_ready, kcs_ready. change (a_bmc (ast w false)) with (a_bmc (bd_priv (bnd w false))). rewrite Hb.
    cbn [xorb negb]. unfold ST_OBF. now rewrite Hs3. }
  rewrite Hrr. cbn [negb run]. change (1 + n)%nat with (S n) in Hd. rewrite Hd. unfold poll_dispatch.
  change (a_proto (bd_priv (bnd w false))) with (a_proto (ast w false)) in Ev. rewrite Ev. cbn [deref bind].
  unfold cmd_initialise, cmd_tx_begin, cmd_rx_complete, cmd_dummy_value.
  change (255 =? 0) with false. change (255 =? 255) with true. change (255 =? 1) with false. change (255 =? 2) with false.
  cbn [orb negb]. rewrite andb_false_r. cbv iota.
  change (a_bmc (bd_priv (bnd w false))) with (a_bmc (ast w false)) in Hb. rewrite Hb.
  unfold update_channel. rewrite Hb. cbn [negb assert_ bind]. cbv zeta.
  rewrite tst_xor_ready. unfold ST_BMC_READY at 1 2 3. rewrite Hk, Hs2. cbn [xorb andb].
  unfold astlpc_start. change (a_bmc (a_set_kcs (ast w false) st)) with (a_bmc (ast w false)). rewrite Hb.
  rewrite !run_bind.
  rewrite (run_init_host e (S (S n)) _ (a_set_kcs (ast w false) st) sz st2); try assumption; try (apply Hmem; lia).
  cbn [run bind]. set (ok := e_kwrite e (6 + S (S n))).
  match goal with |- context [put_ast w false ?x] => set (w' := put_ast w false x) end.
  assert (forall rc, poll_tail w' false st 255 rc = Ret (w', rc)) as Htail.
  { intros rc. unfold poll_tail, cmd_dummy_value, ST_BMC_READY. rewrite Hs2. cbn [andb Z.eqb Pos.eqb negb]. now rewrite andb_false_r. }
  exists (w', if ok then 0 else -1). eexists _, _. split; [|split; [|reflexivity]].
  - match goal with |- run _ _ _ ?p = _ => assert (p = Ret (w', if ok then 0 else -1)) as -> end; [|reflexivity].
    rewrite Htail. now destruct ok.
  - apply in_or_app. right. cbn. tauto.
Qed.

(** The hypotheses of C43_unnoticed are met: an active host, then a BMC that comes
    back with bmc-ready set and channel-active clear, nothing negotiated. *)
Definition back_mem (n : nat) (off : Z) : Z :=
  if (n <=? 12)%nat then hdr_mem n off else nth (Z.to_nat off) (published 4108) 0.
Definition back_env : env :=
  mkEnv (fun _ => true)
    (fun n _ => Some (nth n [128; 128; 128; 128; 128; 128; 128; 128; 193; 255; 192; 193; 129; 255; 128; 129; 255] 128))
    (fun _ => true) back_mem (fun _ => 1).
Lemma back_ok : env_ok sane_bmc back_env.
Proof.
  split; [reflexivity|]. split; [discriminate|]. split; [|discriminate].
  intros n r v. cbn [e_kread back_env kread_val]. intros [= <-]. cbn [kval_ok sane_bmc].
  do 20 (destruct n as [|n]; [destruct r; reflexivity|]). destruct r; reflexivity.
Qed.
Example C43_case : exists n tr w,
  ast_reach no_app false 64 9 [APoll false] back_env n tr w /\
  In (EvKWrite KData 0 true) tr /\ ost w false = Some TxEnabled /\ tst (a_kcs (ast w false)) 128 = true /\
  (forall k v, kread_val (e_kread back_env k KStatus) = Some v -> tst v 128 = true) /\
  exists w' n' t, run back_env n [] (aexec no_app w [APoll false; APoll false]) = Done w' n' t /\
    ost w' false = Some TxDisabled /\ a_proto (ast w' false) = Some 3.
Proof.
  destruct (run back_env 0 [] (ast_history no_app false 64 9 [APoll false])) as [w n tr|f tr] eqn:E; [|vm_compute in E; discriminate].
  exists n, tr, w. pose proof E as E0. vm_compute in E. injection E as <- <- <-. split.
  { split; [cbn; lia|]. split; [repeat constructor|]. split; [apply back_ok|]. split; [exact E0|reflexivity]. }
  split; [repeat (try (left; reflexivity); right)|]. split; [reflexivity|]. split; [reflexivity|]. split.
  - intros k v. cbn [e_kread back_env kread_val]. intros [= <-].
    do 20 (destruct k as [|k]; [reflexivity|]). reflexivity.
  - eexists _, _, _. split; [vm_compute; reflexivity|]. split; reflexivity.
Qed.

(** ** C42: the channel goes down *)

Lemma kw_calculate x l : kh (calculate_mtu x l).
Proof. unfold calculate_mtu. kw_tac; auto using kw_packet_size, kw_body_size. Qed.
Lemma kw_neg_bmc (w : world) i : kh (negotiate_layout_bmc w i).
Proof.
  unfold negotiate_layout_bmc, layout_write. kw_tac;
    auto using kw_layout_read, kw_layout_validate, kw_calculate, kw_packet_size.
Qed.
Lemma rest_kw {A} W (p : prog A) : forall t, kw W p ->
  rest (fun _ t' => exists s, t' = t ++ s /\ forall r v ok, In (EvKWrite r v ok) s -> W r v) p t.
Proof.
  assert (forall (ev : event) t t', noiow ev \/ (exists r v ok, ev = EvKWrite r v ok /\ W r v) ->
    (exists s, t' = (t ++ [ev]) ++ s /\ forall r v ok, In (EvKWrite r v ok) s -> W r v) ->
    exists s, t' = t ++ s /\ forall r v ok, In (EvKWrite r v ok) s -> W r v) as Hs.
  { intros ev tr tr' Hev (t & -> & Ht). exists (ev :: t). split; [now rewrite <- app_assoc|].
    intros r v ok [->|Hi]; [|eapply Ht; exact Hi]. destruct Hev as [[]|(r' & v' & ok' & [= <- <- <-] & Hw)]. exact Hw. }
  induction p as [x|f0|r k IH|r v k IH|o n k IH|o bs k IH|bs k IH|k IH|ev k IH]; intros t Hk; cbn [kw rest] in *.
  - exists []. rewrite app_nil_r. split; [reflexivity|intros ? ? ? []].
  - exact I.
  - intros v. eapply rest_mono; [|apply IH, Hk]. cbn beta. intros x t'. apply Hs. now left.
  - destruct Hk as [Hw Hk]. intros b. eapply rest_mono; [|apply IH, Hk]. cbn beta. intros x t'. apply Hs. right. eauto.
  - intros v. eapply rest_mono; [|apply IH, Hk]. cbn beta. intros x t'. apply Hs. now left.
  - eapply rest_mono; [|apply IH, Hk]. cbn beta. intros x t'. apply Hs. now left.
  - intros v. eapply rest_mono; [|apply IH, Hk]. cbn beta. intros x t'. apply Hs. now left.
  - intros v. apply IH, Hk.
  - destruct Hk as [Hn Hk]. eapply rest_mono; [|apply IH, Hk]. cbn beta. intros x t'. apply Hs. now left.
Qed.
Lemma res_disable (w : world) : res (fun w' => ost w' false <> Some TxEnabled /\ w_b0 w' = w_b0 w)
  (set_tx_enabled astlpc_tx w false false).
Proof.
  unfold set_tx_enabled. cbn [res negb]. destruct (negb _); [exact I|].
  eapply res_bind; [apply res_get_bus|]. intros b Hb. destruct (bus_st b) eqn:Es; cbn [res].
  - split; [|reflexivity]. unfold ost. rewrite Hb. cbn. rewrite Es. discriminate.
  - split; [|apply b0_set_bus]. unfold ost. rewrite (bget_set_bus _ _ _ _ _ _ Hb). cbn. discriminate.
  - split; [|reflexivity]. unfold ost. rewrite Hb. cbn. rewrite Es. discriminate.
Qed.

(** A BMC whose channel initialisation ends with channel-active clear does not
    transmit. *)
Theorem C42_bmc_disabled (w : world) e n w' n' t ok :
  run e n [] (init_channel w false) = Done w' n' t -> In (EvKWrite KStatus 129 ok) t ->
  ost w' false <> Some TxEnabled.
Proof.
  intros E. revert ok. refine (rest_run e (fun w' t => forall ok, In (EvKWrite KStatus 129 ok) t -> ost w' false <> Some TxEnabled) _ n [] w' n' t _ E).
  clear E. unfold init_channel. cbn [rest]. intros h. eapply rest_bind; [apply rest_kw, kw_assert|]. intros _ t1 (s1 & -> & H1). cbv zeta.
  eapply rest_bind; [apply rest_kw, kw_neg_bmc|]. intros [w2 rc] t2 (s2 & -> & H2).
  cbn [rest]. set (t3 := ((([] ++ _) ++ s1) ++ s2) ++ _).
  assert (forall r v ok, In (EvKWrite r v ok) t3 -> handoff r v) as H3.
  { intros r v ok. unfold t3. rewrite !in_app_iff. cbn. intros K. repeat destruct K as [K|K]; try contradiction; try discriminate; eauto. }
  clearbody t3. set (neg' := if rc <? 0 then _ else _). clearbody neg'.
  destruct (0 <? neg'); cbn [Z.lor Pos.lor].
  - eapply rest_bind with (Q := fun _ t' => forall ok, ~ In (EvKWrite KStatus 129 ok) t').
    { unfold kcs_set_status. cbn [rest].
      assert (forall ok s, (forall ok, ~ In (EvKWrite KStatus 129 ok) s) -> ~ In (EvKWrite KStatus 129 ok) (t3 ++ s)) as K.
      { intros ok s Hs Hi. apply in_app_or in Hi as [Hi|Hi]; [destruct (H3 _ _ _ Hi); discriminate|exact (Hs ok Hi)]. }
      intros [|]; cbn [negb rest]; [|intros ok; apply K; intros ok' [[=]|[]]].
      intros [|]; cbn [rest]; intros ok; rewrite <- app_assoc; apply K; intros ok' [[=]|[[=]|[]]]. }
    intros rc' t4 H4. eapply rest_mono; [|apply rest_kw, kw_set]. cbn beta. intros w5 t5 (s5 & -> & H5) ok Hi.
    apply in_app_or in Hi as [Hi|Hi]; [destruct (H4 ok Hi)|]. destruct (H5 _ _ _ Hi). discriminate.
  - eapply rest_bind; [apply rest_any|]. intros rc' t4 _. change (tst 129 ST_ACTIVE) with false.
    eapply rest_mono; [|apply rest_res, res_disable]. cbn beta. intros w5 t5 [[H5 _] _] ok _. exact H5.
Qed.

Lemma run_poll_cmd app (w : world) e n tr st d : pollfd_out (ast w false) = false ->
  kread_val (e_kread e n KStatus) = Some st -> kcs_read_ready (ast w false) st = true ->
  kread_val (e_kread e (S n) KData) = Some d ->
  run e n tr (poll app w false) =
  run e (S (S n)) (tr ++ [EvKRead KStatus (Some st); EvKRead KData (Some d)]) (poll_dispatch app w false st d).
Proof.
  intros Hp Hs Hr Hd.
  assert (poll_release_rx (ast w false) = Ret (ast w false) /\ poll_release_tx (ast w false) = Ret (ast w false)) as [R1 R2].
  { unfold poll_release_rx, poll_release_tx, pollfd_out in *.
    destruct (ab_st (a_rx (ast w false))), (ab_st (a_tx (ast w false))); try discriminate; split; reflexivity. }
  unfold poll. rewrite R1. cbn [bind]. rewrite R2. cbn [bind]. cbv zeta. rewrite Inv_same. cbn [run]. rewrite Hs, Hr.
  cbn [negb run]. rewrite Hd, <- app_assoc. reflexivity.
Qed.

(** A host whose last look at the status register found bmc-ready clear does not
    transmit. *)
Theorem C42_host_disabled app mtu eid l e n tr w :
  ast_reach app false mtu eid l e n tr w -> tst (a_kcs (ast w false)) 128 = false ->
  ost w false <> Some TxEnabled.
Proof.
  intros Hr Hk E. destruct (reach_inv _ _ _ _ _ _ _ _ _ Hr) as (_ & _ & Hao).
  pose proof (ao_host _ _ _ Hao eq_refl (or_introl E)) as H. unfold ast in Hk. cbn [bnd] in Hk. unfold ST_BMC_READY in H. congruence.
Qed.

Lemma res_update_down (w : world) st : tst st ST_BMC_READY = false ->
  res (fun r => a_kcs (ast (fst r) false) = st) (update_channel w false st).
Proof.
  intros Hst. unfold update_channel. eapply res_bind; [apply res_any|]. intros _ _. cbv zeta. rewrite Hst, andb_false_r.
  eapply res_bind; [apply res_any|]. intros w1 _. eapply res_bind; [apply res_any|]. intros v _.
  eapply res_bind; [apply res_any|]. intros [w2 rc] _. reflexivity.
Qed.

(** The loss of bmc-ready announced by the dummy value is seen by the next poll. *)
Theorem C42_host_seen app mtu eid l e n tr w st r n' t :
  ast_reach app false mtu eid l e n tr w -> pollfd_out (ast w false) = false ->
  kread_val (e_kread e n KStatus) = Some st -> tst st 1 = true -> tst st 128 = false ->
  kread_val (e_kread e (S n) KData) = Some 255 ->
  run e n tr (poll app w false) = Done r n' t ->
  a_kcs (ast (fst r) false) = st /\ ost (fst r) false <> Some TxEnabled.
Proof.
  intros Hr Hp Hs Ho Hst Hd E. pose proof (reach_inv _ _ _ _ _ _ _ _ _ Hr) as HI. pose proof HI as (Hwf & _ & Hao).
  pose proof (ao_mode _ _ _ Hao) as Hb. change (a_bmc (bd_priv (w_b0 w))) with (a_bmc (ast w false)) in Hb.
  assert (a_kcs (ast (fst r) false) = st) as Ek.
  { rewrite (run_poll_cmd app w e n tr st 255) in E; try assumption.
    2:{ unfold kcs_read_ready, kcs_ready. rewrite Hb. cbn [xorb negb]. unfold ST_OBF. now rewrite Ho. }
    refine (res_run e (fun r => a_kcs (ast (fst r) false) = st) _ _ _ _ _ _ _ E). unfold poll_dispatch.
    eapply res_bind; [apply res_any|]. intros v _. unfold cmd_initialise, cmd_tx_begin, cmd_rx_complete, cmd_dummy_value.
    change (255 =? 0) with false. change (255 =? 255) with true. change (255 =? 1) with false. change (255 =? 2) with false.
    cbn [orb negb]. rewrite andb_false_r. cbv iota. rewrite Hb.
    eapply res_bind; [apply (res_update_down w st Hst)|]. intros [w1 rc] H1. cbn [fst] in H1.
    destruct (rc <? 0); [exact H1|]. unfold poll_tail, cmd_dummy_value. destruct (_ && _); [|exact H1].
    now apply res_update_down. }
  split; [exact Ek|].
  pose proof Hr as (_ & _ & He & _).
  destruct (adv_sound _ _ _ e n tr _ He (wp_poll app (ast_assm false) false (ast_oom false) (ast_kv false) w tr HI)) as (x & m & t' & E' & HI').
  rewrite E in E'. injection E' as <- <- <-. destruct HI' as (_ & _ & Hao').
  intros Eo. pose proof (ao_host _ _ _ Hao' eq_refl (or_introl Eo)) as H. unfold ST_BMC_READY in H.
  unfold ast in Ek. cbn [bnd] in Ek. congruence.
Qed.

(** But the host's buffers are then not idle: the channel is finalised once more. *)
Definition down_env : env :=
  mkEnv (fun _ => true)
    (fun n r => Some (match r with KData => 255
       | KStatus => nth n [128; 128; 128; 128; 128; 128; 128; 128; 193; 193; 193; 193; 1] 0 end))
    (fun _ => true) hdr_mem (fun _ => 1).
Lemma down_ok : env_ok sane_bmc down_env.
Proof.
  split; [reflexivity|]. split; [discriminate|]. split; [|discriminate].
  intros n r v. cbn [e_kread down_env kread_val]. intros [= <-]. cbn [kval_ok sane_bmc].
  destruct r; [reflexivity|]. do 20 (destruct n as [|n]; [reflexivity|]). reflexivity.
Qed.
Theorem C42_host_not_idle : exists e n tr w,
  ast_reach no_app false 64 9 [APoll false; APoll false] e n tr w /\
  tst (a_kcs (ast w false)) 128 = false /\ ab_st (a_rx (ast w false)) = Released /\ ab_st (a_tx (ast w false)) = Acquired.
Proof.
  exists down_env.
  destruct (run down_env 0 [] (ast_history no_app false 64 9 [APoll false; APoll false])) as [w n tr|f tr] eqn:E; [|vm_compute in E; discriminate].
  exists n, tr, w. pose proof E as E0. vm_compute in E. injection E as <- <- <-. split.
  { split; [cbn; lia|]. split; [repeat constructor|]. split; [apply down_ok|]. split; [exact E0|reflexivity]. }
  repeat split.
Qed.

(** And a BMC whose channel initialisation failed accepts packets. *)
Definition bad_window : list Z := Eval vm_compute in
  firstn 20 hdr_window ++ [0; 0; 0; 0] ++ skipn 24 hdr_window.
Definition bad_mem (_ : nat) (off : Z) : Z :=
  if off <? 32 then nth (Z.to_nat off) bad_window 0
  else nth (Z.to_nat (off - 332)) (protected demo_pkt) 0.
Definition bad_env : env :=
  mkEnv (fun _ => true)
    (fun n r => Some (match r with KStatus => 2 | KData => if (n <=? 6)%nat then 0 else 1 end))
    (fun _ => true) bad_mem (fun _ => 1).
Lemma bad_ok : env_ok no_oom bad_env.
Proof. repeat split; discriminate. Qed.
Fixpoint at12 (l : list event) : nat :=
  match l with
  | EvLWrite 12 _ :: _ => O
  | _ :: l' => S (at12 l')
  | [] => O
  end.
Theorem C42_bmc_accepts : exists e n tr w t1 t2,
  ast_reach no_app true 64 9 [ACore (OpSetRx true); APoll false; APoll false] e n tr w /\
  tr = t1 ++ EvLWrite 12 (be16 0) :: EvKWrite KStatus 129 true :: t2 /\
  In (EvBusRx false (Some 9) 0 demo_pkt) t2 /\ In (EvRx 8 true 0 [5; 77; 78]) t2.
Proof.
  exists bad_env.
  destruct (run bad_env 0 [] (ast_history no_app true 64 9 [ACore (OpSetRx true); APoll false; APoll false]))
    as [w n tr|f tr] eqn:E; [|vm_compute in E; discriminate].
  exists n, tr, w. pose proof E as E0. vm_compute in E. injection E as <- <- <-. eexists _, _. split.
  { split; [cbn; unfold usable_mtu; lia|]. split; [repeat constructor|]. split; [apply bad_ok|]. split; [exact E0|reflexivity]. }
  split.
  { match goal with |- ?tr = _ =>
      let i := eval vm_compute in (at12 tr) in
      let a := eval vm_compute in (firstn i tr) in let b := eval vm_compute in (skipn (S (S i)) tr) in
      instantiate (2 := a); instantiate (1 := b) end. reflexivity. }
  split; repeat (try (left; reflexivity); right).
Qed.

(** ** C41: protocol version 1 *)

Notation psz w := (bd_pkt_size (bnd w false)).

(** Channel initialisation that ends in version 1 leaves the packet size as it was:
    at the size requested, or at the size negotiated before. *)
Theorem C41_bmc_keeps (w : world) e n w' n' t :
  run e n [] (init_channel w false) = Done w' n' t -> a_proto (ast w' false) = Some 1 -> psz w' = psz w.
Proof.
  intros E. refine (res_run e (fun w' => a_proto (ast w' false) = Some 1 -> psz w' = psz w) _ n [] w' n' t _ E). clear E.
  unfold init_channel. cbn [res]. intros h. eapply res_bind; [apply res_any|]. intros _ _. cbv zeta.
  set (neg := negotiate_version _ _ _ _).
  eapply res_bind with (Q := fun r => a_proto (ast (fst r) false) = Some neg /\ (neg = 1 -> psz (fst r) = psz w)).
  - unfold negotiate_layout_bmc. cbv zeta. change (a_proto (ast (put_ast w false (a_set_proto (ast w false) neg)) false)) with (Some neg).
    cbn [deref bind]. destruct (neg =? 0); [split; reflexivity|].
    eapply res_bind; [apply res_any|]. intros pr _. eapply res_bind; [apply res_any|]. intros ok _.
    destruct (negb ok); [split; reflexivity|]. eapply res_bind; [apply res_any|]. intros mtu _.
    eapply res_bind; [apply res_any|]. intros sz _. eapply res_bind; [apply res_any|]. intros ok2 _.
    destruct (negb ok2); [split; reflexivity|]. eapply res_bind; [apply res_any|]. intros _ _. cbn [res fst].
    destruct (2 <=? neg) eqn:E2; split; try reflexivity. intros ->. discriminate.
  - intros [w2 rc] [H1 H2]. cbn [fst res] in *. eapply res_bind; [apply res_any|]. intros rc2 _.
    set (w3 := put_ast w2 false _).
    assert (a_proto (ast w3 false) = Some neg /\ psz w3 = psz w2) as [H3 H4] by (split; [exact H1|reflexivity]).
    clearbody w3. set (en := tst _ _). clearbody en.
    unfold set_tx_enabled. cbn [res]. destruct (negb _); [exact I|]. eapply res_bind; [apply res_any|]. intros b _.
    assert (forall w', w_b0 w' = w_b0 w3 -> a_proto (ast w' false) = Some 1 -> psz w' = psz w) as H5.
    { intros wx E. unfold ast in *. cbn [bnd] in *. rewrite E. intros Ep. rewrite H4. apply H2. congruence. }
    destruct (bus_st b), en; cbn [negb res]; try exact (H5 _ eq_refl); try exact (H5 _ (b0_set_bus _ _ _ _)).
    + destruct (_ <? _); [exact (H5 _ eq_refl)|exact (H5 _ (b0_set_bus _ _ _ _))].
    + eapply res_mono; [|apply res_send_tx_queue]. intros w4 ((_ & _ & F & _) & _ & K) Ep. rewrite K.
      apply H5; [apply b0_set_bus|]. now rewrite <- F.
Qed.
Theorem C41_host_keeps (w : world) e n r n' t :
  run e n [] (finalise_channel w false) = Done r n' t -> In (EvLRead 12 (be16 1)) t -> psz (fst r) = psz w.
Proof.
  intros E. refine (rest_run e (fun r t => In (EvLRead 12 (be16 1)) t -> psz (fst r) = psz w) _ n [] r n' t _ E). clear E.
  unfold finalise_channel. cbn [rest]. intros nb. cbn [Datatypes.app]. unfold OFF_negotiated.
  destruct (_ || _); [intros _; reflexivity|].
  eapply rest_bind with (Q := fun _ t' => t' = [EvLRead 12 nb]); [unfold assert_; destruct (_ <? _); [reflexivity|exact I]|].
  intros _ t1 ->. cbv zeta. unfold layout_read. cbn [bind rest]. intros h.
  eapply rest_bind with (Q := fun _ t' => t' = [EvLRead 12 nb] ++ [EvLRead 0 h]).
  { unfold layout_validate. set (rxb := ly_rx _). set (txb := ly_tx _). clearbody rxb txb.
    assert (forall b, rest (fun _ t' => t' = [EvLRead 12 nb] ++ [EvLRead 0 h])
      (buffer_validate (a_proto (a_set_proto (ast w false) (unbe16 nb))) b) ([EvLRead 12 nb] ++ [EvLRead 0 h])) as Hb.
    { intros b. unfold buffer_validate. destruct (_ <? _); [reflexivity|]. destruct (_ <? _); [reflexivity|].
      unfold packet_size. cbn [a_proto a_set_proto]. destruct (overhead _); [|exact I]. unfold assert_.
      destruct (_ <? _); [|exact I]. cbn [bind]. destruct (_ <? _); [reflexivity|]. destruct (_ <? _); reflexivity. }
    eapply rest_bind; [apply Hb|]. intros rv t' ->. eapply rest_bind; [apply Hb|]. intros tv t' ->.
    destruct (negb _); [reflexivity|]. destruct (_ || _); reflexivity. }
  intros ok t1 ->. destruct (negb ok); [intros _; reflexivity|].
  eapply rest_bind with (Q := fun w' t' => t' = [EvLRead 12 nb] ++ [EvLRead 0 h] /\ (unbe16 nb = 1 -> psz w' = psz w)).
  { destruct (2 <=? unbe16 nb) eqn:E2.
    - eapply rest_bind with (Q := fun _ t' => t' = [EvLRead 12 nb] ++ [EvLRead 0 h]).
      { unfold body_size. cbn [a_proto a_set_proto]. destruct (overhead _); [|exact I]. unfold assert_.
        destruct (_ <? _); [reflexivity|exact I]. }
      intros b t' ->. split; [reflexivity|]. lia.
    - split; reflexivity. }
  intros w' t1 [-> Hw']. cbn [rest fst]. intros [[= Hi]|[[= Hi]|[]]].
  - subst nb. apply Hw'. reflexivity.
Qed.

(** A BMC that asked for an MTU of 4096 and speaks version 1 with its host transmits
    packets longer than the 68 bytes the BTU allows. *)
Definition v1_window : list Z := Eval vm_compute in
  be32 ASTLPC_MCTP_MAGIC ++ be16 1 ++ be16 3 ++ be16 1 ++ be16 1 ++ be16 0 ++ be16 0
  ++ be32 256 ++ be32 4108 ++ be32 4364 ++ be32 4108.
Definition v1_env : env :=
  mkEnv (fun _ => true) (fun _ r => Some (match r with KStatus => 2 | KData => 0 end)) (fun _ => true)
    (fun _ off => nth (Z.to_nat off) v1_window 0) (fun _ => 1).
Lemma v1_ok : env_ok no_oom v1_env.
Proof. repeat split; discriminate. Qed.
Theorem C41_refuted : exists e n tr w bs,
  ast_reach no_app true 4096 9 [APoll false; ACore (OpTx 8 true 1 (repeat 7 100))] e n tr w /\
  a_proto (ast w false) = Some 1 /\ In (EvLWrite 12 (be16 1)) tr /\
  In (EvTxCall false 0 bs) tr /\ zlen bs = 104.
Proof.
  exists v1_env.
  destruct (run v1_env 0 [] (ast_history no_app true 4096 9 [APoll false; ACore (OpTx 8 true 1 (repeat 7 100))]))
    as [w n tr|f tr] eqn:E; [|vm_compute in E; discriminate].
  exists n, tr, w, ([1; 8; 9; 201] ++ repeat 7 100). pose proof E as E0. vm_compute in E. injection E as <- <- <-. split.
  { split; [cbn; unfold usable_mtu; lia|]. split; [repeat constructor|]. split; [apply v1_ok|]. split; [exact E0|reflexivity]. }
  split; [reflexivity|]. split; [repeat (try (left; reflexivity); right)|].
  split; [|reflexivity]. vm_compute. repeat (try (left; reflexivity); right).
Qed.

(** ** C40: a failed KCS access during transmission *)

(** Without one, binding->tx either accepts the packet or refuses it for its size, so
    the packet leaves the queue and is not tried again. *)
Theorem C40_no_error (x : astlpc) p e n tr x' p' rc (dis : bool) n' t :
  env_ok quiet e -> run e n tr (astlpc_tx x p) = Done (x', p', rc, dis) n' t -> rc = 0 \/ rc = - EMSGSIZE.
Proof.
  intros (_ & Hk & _) E. specialize (Hk eq_refl).
  unfold astlpc_tx in E. rewrite run_bind in E.
  destruct (run e n tr (body_size (a_proto x) (ab_size (a_tx x)))) as [mx n1 t1|] eqn:E1; [|discriminate].
  destruct (mx <? _); [injection E as _ _ <- _ _ _; now right|]. cbn [run] in E.
  destruct (in_window _ _); [|discriminate]. rewrite run_bind in E.
  destruct (run e _ _ (pktbuf_protect _ _)) as [p1 n2 t2|] eqn:E2; [|discriminate].
  destruct (rd _ _ _) as [bs|]; [|discriminate]. cbn [deref bind run] in E.
  destruct (in_window _ _); [|discriminate]. rewrite run_bind in E. unfold kcs_send in E. cbn [run] in E.
  destruct (Hk (S n2) KStatus) as [Hr _]. destruct (e_kread e (S n2) KStatus) as [st|]; [|congruence]. cbn [kread_val] in E.
  destruct (negb _).
  - cbn [run] in E. injection E as _ _ <- _ _ _. now left.
  - cbn [run] in E. destruct (Hk (S (S n2)) KData) as [_ Hw]. rewrite Hw in E. cbn [run] in E. injection E as _ _ <- _ _ _. now left.
Qed.

(** With one, the packet is transmitted again, with its own checksum as payload. *)
Definition err_env : env :=
  mkEnv (fun _ => true)
    (fun n r => Some (match r with
       | KStatus => if (n <=? 8)%nat then 193 else if (n <=? 16)%nat then 192 else 193
       | KData => if (n <=? 12)%nat then 255 else 2 end))
    (fun n => negb (n =? 16)%nat) hdr_mem (fun _ => 1).
Lemma err_ok : env_ok sane_bmc err_env.
Proof.
  split; [reflexivity|]. split; [discriminate|]. split; [|discriminate].
  intros n r v. cbn [e_kread err_env kread_val]. destruct r; intros [= <-]; cbn [kval_ok sane_bmc].
  - now destruct (n <=? 12)%nat.
  - destruct (n <=? 8)%nat; [reflexivity|]. now destruct (n <=? 16)%nat.
Qed.
Definition txcalls (t : list event) : list (list Z) :=
  flat_map (fun e => match e with EvTxCall _ _ bs => [bs] | _ => [] end) t.
Definition failed (e : event) : bool :=
  match e with EvKRead _ None => true | EvKWrite _ _ false => true | _ => false end.
Theorem C40_refuted : exists e n tr w (bs : list Z),
  ast_reach no_app false 64 9 [APoll false; ACore (OpTx 8 true 1 [5; 6; 7]); APoll false; APoll false] e n tr w /\
  bs = [1; 8; 9; 201; 5; 6; 7] /\ length (filter failed tr) = 1%nat /\
  txcalls tr = [bs; bs ++ be32 (crc32 bs)] /\
  (* both are put into the window with a correct checksum and announced *)
  In (EvLWrite 4368 (bs ++ be32 (crc32 bs))) tr /\
  In (EvLWrite 4368 ((bs ++ be32 (crc32 bs)) ++ be32 (crc32 (bs ++ be32 (crc32 bs))))) tr /\
  length (filter (fun e => match e with EvKWrite KData 1 true => true | _ => false end) tr) = 2%nat.
Proof.
  exists err_env.
  destruct (run err_env 0 [] (ast_history no_app false 64 9 [APoll false; ACore (OpTx 8 true 1 [5; 6; 7]); APoll false; APoll false]))
    as [w n tr|f tr] eqn:E; [|vm_compute in E; discriminate].
  exists n, tr, w. pose proof E as E0. vm_compute in E. injection E as <- <- <-. eexists. split.
  { split; [cbn; lia|]. split; [repeat constructor|]. split; [apply err_ok|]. split; [exact E0|reflexivity]. }
  split; [reflexivity|]. split; [reflexivity|]. split; [reflexivity|].
  split; [vm_compute; repeat (try (left; reflexivity); right)|].
  split; [vm_compute; repeat (try (left; reflexivity); right)|reflexivity].
Qed.
