(** Foot: what every event of every run satisfies, whether the run completes or ends in
    undefined behaviour, and whatever the environment does.  Used for the footprint of
    the LPC binding (PropFoot). *)
From Verif Require Import Base Lists Prog PktBuf Core Walk Trace.

(** What the environment may answer: values of the KCS registers, results of serial writes. *)
Record answers := mkAns { an_kread :> kreg -> Z -> bool; an_swrite : list Z -> Z -> Prop }.

(** [foot kv ok p g Q]: started after the events [g], every event of every run of [p] in
    which the environment's answers are allowed by [kv] satisfies [ok] (with the events
    before it), and if [p] completes, [Q] holds. *)
Fixpoint foot (kv : answers) (ok : list event -> event -> Prop) {A} (p : prog A) (g : list event)
  (Q : A -> list event -> Prop) : Prop :=
  match p with
  | Ret a => Q a g
  | Flt _ => True
  | KRead r k => forall v, (forall x, v = Some x -> kv r x = true) -> ok g (EvKRead r v) /\ foot kv ok (k v) (g ++ [EvKRead r v]) Q
  | KWrite r v k => forall b, ok g (EvKWrite r v b) /\ foot kv ok (k b) (g ++ [EvKWrite r v b]) Q
  | LRead off len k => in_window off len = true -> forall bs, zlen bs = len -> Forall is_byte bs ->
      ok g (EvLRead off bs) /\ foot kv ok (k bs) (g ++ [EvLRead off bs]) Q
  | LWrite off bs k => in_window off (zlen bs) = true ->
      ok g (EvLWrite off bs) /\ foot kv ok k (g ++ [EvLWrite off bs]) Q
  | SWrite bs k => forall r, an_swrite kv bs r -> ok g (EvSWrite bs r) /\ foot kv ok (k r) (g ++ [EvSWrite bs r]) Q
  | Malloc k => forall b, foot kv ok (k b) g Q
  | Emit e k => (~ io_ev e /\ ok g e) /\ foot kv ok k (g ++ [e]) Q
  end.

Lemma mem_bytes_ok m off len : 0 <= len -> zlen (mem_bytes m off len) = len /\ Forall is_byte (mem_bytes m off len).
Proof.
  intros H. unfold mem_bytes. split.
  - unfold zlen. rewrite map_length, seq_length. lia.
  - apply Forall_forall. intros x Hx. apply in_map_iff in Hx. destruct Hx as (k & <- & _).
    apply Z.mod_pos_bound. lia.
Qed.

Definition events {A} (o : outcome A) : list event :=
  match o with Done _ _ tr => tr | Fault _ tr => tr end.

Lemma foot_sound kv ok A (p : prog A) : forall g Q, foot kv ok p g Q -> each ok [] g -> forall e n,
  (forall n r v, kread_val (e_kread e n r) = Some v -> kv r v = true) ->
  (forall n bs, an_swrite kv bs (Z.min (e_swrite e n) (zlen bs))) ->
  each ok [] (events (run e n g p)) /\ match run e n g p with Done x _ tr => Q x tr | Fault _ _ => True end.
Proof.
  assert (forall g e, each ok [] g -> ok g e -> each ok [] (g ++ [e])) as Hs.
  { intros g e Hg He. apply each_app. split; [exact Hg|]. cbn [each app]. auto. }
  induction p as [x|f|r k IH|r v k IH|o l k IH|o bs k IH|bs k IH|k IH|ev k IH]; intros g Q Hf Hg e n He Hes;
    cbn [foot run] in *.
  - auto.
  - auto.
  - destruct (Hf (kread_val (e_kread e n r)) (fun x E => He n r x E)) as [H1 H2]. apply IH; auto.
  - destruct (Hf (e_kwrite e n)) as [H1 H2]. apply IH; auto.
  - destruct (in_window o l) eqn:E; [|auto]. unfold in_window in E.
    destruct (mem_bytes_ok (e_mem e n) o l) as [Z1 Z2]; [lia|].
    destruct (Hf eq_refl _ Z1 Z2) as [H1 H2]. apply IH; auto.
  - destruct (in_window o (zlen bs)); [|auto]. destruct (Hf eq_refl) as [H1 H2]. apply IH; auto.
  - destruct (Hf (Z.min (e_swrite e n) (zlen bs)) (Hes n bs)) as [H1 H2]. apply IH; auto.
  - apply IH; auto.
  - destruct Hf as [[_ H1] H2]. apply IH; auto.
Qed.

Lemma foot_mono kv ok A (p : prog A) : forall g (Q Q' : A -> list event -> Prop),
  (forall x g', (exists t, g' = g ++ t) -> Q x g' -> Q' x g') -> foot kv ok p g Q -> foot kv ok p g Q'.
Proof.
  assert (forall (Q Q' : A -> list event -> Prop) g e,
    (forall x g', (exists t, g' = g ++ t) -> Q x g' -> Q' x g') ->
    forall x g', (exists t, g' = (g ++ [e]) ++ t) -> Q x g' -> Q' x g') as Hs.
  { intros Q Q' g e H x g' (t & ->). apply H. exists ([e] ++ t). now rewrite app_assoc. }
  induction p as [x|f|r k IH|r v k IH|o l k IH|o bs k IH|bs k IH|k IH|ev k IH]; intros g Q Q' HQ Hf;
    cbn [foot] in *.
  - apply HQ; [|exact Hf]. exists []. now rewrite app_nil_r.
  - exact Hf.
  - intros v Hv. destruct (Hf v Hv) as [H1 H2]. split; [exact H1|]. eapply IH; [|exact H2]. now apply Hs.
  - intros b. destruct (Hf b) as [H1 H2]. split; [exact H1|]. eapply IH; [|exact H2]. now apply Hs.
  - intros E bs Z1 Z2. destruct (Hf E bs Z1 Z2) as [H1 H2]. split; [exact H1|]. eapply IH; [|exact H2]. now apply Hs.
  - intros E. destruct (Hf E) as [H1 H2]. split; [exact H1|]. eapply IH; [|exact H2]. now apply Hs.
  - intros r Hr. destruct (Hf r Hr) as [H1 H2]. split; [exact H1|]. eapply IH; [|exact H2]. now apply Hs.
  - intros b. eapply IH; [exact HQ|apply Hf].
  - destruct Hf as [H1 H2]. split; [exact H1|]. eapply IH; [|exact H2]. now apply Hs.
Qed.

Lemma foot_bind kv ok A C (p : prog A) (q : A -> prog C) : forall g Q,
  foot kv ok p g (fun x g' => foot kv ok (q x) g' Q) -> foot kv ok (bind p q) g Q.
Proof.
  induction p; intros g Q Hf; cbn [foot bind] in *; auto.
  - intros v Hv. destruct (Hf v Hv). auto.
  - intros b. destruct (Hf b). auto.
  - intros E bs Z1 Z2. destruct (Hf E bs Z1 Z2). auto.
  - intros E. destruct (Hf E). auto.
  - intros r Hr. destruct (Hf r Hr). auto.
  - destruct Hf. auto.
Qed.

(** Sequencing with an intermediate assertion. *)
Lemma foot_call kv ok A C (p : prog A) (q : A -> prog C) g (P : A -> list event -> Prop) Q :
  foot kv ok p g P -> (forall x t, P x (g ++ t) -> foot kv ok (q x) (g ++ t) Q) -> foot kv ok (bind p q) g Q.
Proof.
  intros Hp Hq. apply foot_bind. eapply foot_mono; [|exact Hp]. intros x g' (t & ->). apply Hq.
Qed.

(** Programs without I/O. *)
Fixpoint plainp {A} (p : prog A) : Prop :=
  match p with
  | Ret _ | Flt _ => True
  | Malloc k => forall b, plainp (k b)
  | Emit e k => ~ io_ev e /\ plainp k
  | _ => False
  end.
Lemma plainp_bind A C (p : prog A) (q : A -> prog C) :
  plainp p -> (forall x, plainp (q x)) -> plainp (bind p q).
Proof. induction p; cbn [plainp bind]; try tauto; intuition auto. Qed.

Create HintDb plain.
Lemma plainp_deref A f (o : option A) : plainp (deref f o).
Proof. destruct o; exact I. Qed.
Lemma plainp_assert c : plainp (assert_ c).
Proof. destruct c; exact I. Qed.
#[export] Hint Resolve plainp_deref plainp_assert : plain.
Ltac plain := cbv zeta;
  repeat first
  [ solve [auto with plain nocore]
  | exact I | exact (fun _ => I)
  | match goal with
    | |- plainp (bind _ _) => apply plainp_bind; [|intros ?; cbv zeta]
    | |- plainp (if ?c then _ else _) => destruct c
    | |- plainp (match ?c with _ => _ end) => destruct c
    | |- plainp (Malloc _) => cbn [plainp]; intros ?
    | |- plainp (Emit _ _) => split; [exact (fun x => x)|]
    end ].
Lemma plainp_get_bus m i : plainp (get_bus m i).
Proof. unfold get_bus. plain. Qed.
Lemma plainp_alloc a b c d e : plainp (pktbuf_alloc a b c d e).
Proof. unfold pktbuf_alloc. plain. Qed.
Lemma plainp_free p : plainp (pktbuf_free p).
Proof. unfold pktbuf_free. plain. Qed.
Lemma plainp_store p o bs : plainp (pktbuf_store p o bs).
Proof. unfold pktbuf_store. plain. Qed.
Lemma plainp_push_len p bs n : plainp (pktbuf_push_len p bs n).
Proof. unfold pktbuf_push_len. plain. Qed.
#[export] Hint Resolve plainp_get_bus plainp_alloc plainp_free plainp_store plainp_push_len : plain.
Lemma plainp_push p bs : plainp (pktbuf_push p bs).
Proof. unfold pktbuf_push. plain. Qed.
Lemma plainp_grow c n : plainp (ctx_grow c n).
Proof. unfold ctx_grow. plain. Qed.
Lemma plainp_append c p n : plainp (ctx_append c p n).
Proof. unfold ctx_append. plain. Qed.
#[export] Hint Resolve plainp_push plainp_grow plainp_append : plain.
Lemma plainp_add c p n : plainp (ctx_add_pkt c p n).
Proof. unfold ctx_add_pkt. plain. Qed.
Lemma plainp_ctx B (w : world B) n : plainp (get_ctx w n).
Proof. unfold get_ctx. plain. Qed.
#[export] Hint Resolve plainp_add plainp_ctx : plain.

Section Core.
Context {B : Type}.
Variable btx : B -> pktbuf -> prog (B * pktbuf * Z * bool).
Variable bstart : B -> prog (B * Z * bool).
Variable app : event -> list txreq.
Variable kv : answers.
Variable ok : list event -> event -> Prop.
(** What is known of a binding's private state, given the events so far. *)
Variable K : list event -> B -> Prop.
Hypothesis ok_core : forall g e, ~ io_ev e -> ok g e.
Hypothesis K_more : forall g t b, K g b -> K (g ++ t) b.
Hypothesis K_tx : forall g b p, K g b -> foot kv ok (btx b p) g (fun r g' => K g' (fst (fst (fst r)))).
Hypothesis K_start : forall g b, K g b -> foot kv ok (bstart b) g (fun r g' => K g' (fst (fst r))).
Notation world := (world B).

Definition W (g : list event) (w : world) : Prop := K g (bd_priv (w_b0 w)) /\ K g (bd_priv (w_b1 w)).

Lemma W_more g t w : W g w -> W (g ++ t) w.
Proof. intros [H1 H2]. split; now apply K_more. Qed.
Lemma W_bnd g w i : W g w -> K g (bd_priv (bnd w i)).
Proof. intros [H1 H2]. destruct i; assumption. Qed.
Lemma W_set_m g w m : W g w -> W g (set_m w m).
Proof. intros H. exact H. Qed.
Lemma W_set_bus g w i b : W g w -> W g (set_bus w i b).
Proof. unfold set_bus. destruct (m_busses _); intros H; exact H. Qed.
Lemma W_set_bnd g w i b : W g w -> K g (bd_priv b) -> W g (set_bnd w i b).
Proof. intros [H1 H2] H. destruct i; split; assumption. Qed.
Lemma W_put_ctx g w n c : W g w -> W g (put_ctx w n c).
Proof. intros H. exact H. Qed.

Lemma foot_plain A (p : prog A) : plainp p -> forall g, foot kv ok p g (fun _ _ => True).
Proof.
  induction p; cbn [plainp foot]; intros Hp g; try contradiction; auto.
  destruct Hp as [H1 H2]. auto.
Qed.
Lemma foot_pcall A C (p : prog A) (q : A -> prog C) g Q : plainp p ->
  (forall x t, foot kv ok (q x) (g ++ t) Q) -> foot kv ok (bind p q) g Q.
Proof. intros Hp Hq. eapply foot_call; [now apply foot_plain|]. intros x t _. apply Hq. Qed.
Lemma foot_emit A e (p : prog A) g Q : ~ io_ev e -> foot kv ok p (g ++ [e]) Q -> foot kv ok (Emit e p) g Q.
Proof. intros H1 H2. split; [split; [exact H1|now apply ok_core]|exact H2]. Qed.

Notation done := (fun w' g' => W g' w').
Notation done1 := (fun r g' => W g' (fst r)).

Ltac kt := cbn [bd_priv set_priv set_bdbus set_pkt_size]; repeat first [assumption | apply W_bnd; assumption | apply K_more].
Ltac wt := repeat first [assumption | apply W_set_bus | apply W_set_m | apply W_put_ctx
  | apply W_set_bnd; [|solve [kt]] | apply W_more].
Ltac ft := cbv zeta; repeat first
  [ match goal with
    | |- foot _ _ (Ret _) _ _ => cbn [foot fst snd]; solve [wt]
    | |- foot _ _ (Flt _) _ _ => exact I
    | |- foot _ _ (Emit _ _) _ _ => apply foot_emit; [exact (fun x => x)|]
    | |- foot _ _ (if ?c then _ else _) _ _ => destruct c
    | |- foot _ _ (bind (if ?c then _ else _) _) _ _ => destruct c; cbn [bind]
    | |- foot _ _ (match ?c with _ => _ end) _ _ => destruct c
    | |- foot _ _ (bind _ _) _ _ => apply foot_pcall; [solve [plain]|intros ? ?; cbv zeta]
    end ].

Lemma foot_packet_tx g w i p : W g w ->
  foot kv ok (packet_tx btx w i p) g (fun r g' => W g' (fst (fst r))).
Proof.
  intros Hw. unfold packet_tx. ft.
  all: eapply foot_call; [apply K_tx; apply W_bnd; wt|].
  all: intros [[[b' p'] rc] dis] t1 HK; cbn [fst] in HK; cbv zeta.
  all: destruct dis; cbn [bind]; ft.
Qed.

Lemma foot_send_loop n : forall g w i, W g w -> foot kv ok (send_loop btx n w i) g done.
Proof.
  induction n as [|n IH]; intros g w i Hw; cbn [send_loop]; ft.
  eapply foot_call; [apply foot_packet_tx; wt|]. intros [[w' p'] rc] t1 Hw'. cbn [fst] in Hw'. ft.
  apply IH. wt.
Qed.
Lemma foot_send_queue g w i : W g w -> foot kv ok (send_tx_queue btx w i) g done.
Proof. intros Hw. unfold send_tx_queue. ft. apply foot_send_loop. wt. Qed.
Lemma foot_set_tx g w i en : W g w -> foot kv ok (set_tx_enabled btx w i en) g done.
Proof. intros Hw. unfold set_tx_enabled. ft. apply foot_send_queue. wt. Qed.
Lemma foot_packetise n : forall g w i src dest to tag mtu k msg, W g w ->
  foot kv ok (packetise n w i src dest to tag mtu k msg) g done.
Proof.
  induction n as [|n IH]; intros g w i src dest to tag mtu k msg Hw; destruct msg; cbn [packetise]; ft.
  apply IH. wt.
Qed.
Lemma foot_on_bus g w i src dest to tag msg : W g w ->
  foot kv ok (message_tx_on_bus btx w i src dest to tag msg) g done1.
Proof.
  intros Hw. unfold message_tx_on_bus. ft.
  all: eapply foot_call; [apply foot_packetise; wt|]; intros w1 t1 Hw1;
    eapply foot_call; [apply foot_send_queue; exact Hw1|]; intros w2 t2 Hw2; ft.
Qed.
Lemma foot_message g w eid to tag msg : W g w -> foot kv ok (message_tx btx w eid to tag msg) g done1.
Proof. intros Hw. unfold message_tx. ft. apply foot_on_bus. wt. Qed.
Lemma foot_react l : forall g w, W g w -> foot kv ok (app_react btx w l) g done.
Proof.
  induction l as [|r l IH]; intros g w Hw; cbn [app_react]; ft.
  eapply foot_call; [apply foot_message; exact Hw|]. intros [w1 rc] t1 Hw1. apply IH. exact Hw1.
Qed.
Lemma foot_callback g w e : ~ io_ev e -> W g w -> foot kv ok (callback btx app w e) g done.
Proof. intros He Hw. unfold callback. apply foot_emit; [exact He|]. apply foot_react. wt. Qed.
Lemma foot_local g w i src to tag msg : W g w -> foot kv ok (rx_local btx app w i src to tag msg) g done.
Proof.
  intros Hw. unfold rx_local.
  eapply foot_call with (P := done1).
  - destruct (_ && _); [|exact Hw]. unfold ctrl_handle. destruct (_ && _); [|exact Hw].
    eapply foot_call; [apply foot_callback; [exact (fun x => x)|exact Hw]|]. intros w' t Hw'. exact Hw'.
  - intros [w' h] t Hw'. cbn [fst] in Hw'. destruct h; [exact Hw'|]. destruct (m_rx _); [|exact Hw'].
    apply foot_callback; [exact (fun x => x)|exact Hw'].
Qed.
Lemma foot_bridge g w i src dest to tag msg : W g w -> foot kv ok (rx_bridge btx w i src dest to tag msg) g done.
Proof.
  intros Hw. unfold rx_bridge. destruct (_ =? _); [|exact Hw].
  eapply foot_call; [apply foot_on_bus; exact Hw|]. intros [w' rc] t Hw'. exact Hw'.
Qed.
Lemma foot_mctp_rx g w i src dest to tag buf msg : W g w ->
  foot kv ok (mctp_rx btx app w i src dest to tag buf msg) g done.
Proof.
  intros Hw. unfold mctp_rx. apply foot_pcall; [plain|]. intros ? t. apply foot_emit; [exact (fun x => x)|].
  destruct (m_policy _).
  - apply foot_pcall; [plain|]. intros bs t1. destruct (dest_is_local _ _); [apply foot_local|cbn [foot]]; wt.
  - apply foot_bridge. wt.
Qed.
Lemma foot_bus_rx g w i p : W g w -> foot kv ok (bus_rx btx app w i p) g done.
Proof.
  intros Hw. unfold bus_rx. apply foot_pcall; [plain|]. intros ? t. apply foot_pcall; [plain|]. intros bs t1.
  apply foot_pcall; [plain|]. intros by0 t2. apply foot_emit; [exact (fun x => x)|].
  assert (W ((((g ++ t) ++ t1) ++ t2) ++
     [EvBusRx i match m_policy (w_m w) with RouteEndpoint => Some (bus_eid bs) | RouteBridge => None end (pk_id p) by0]) w) as Hw1
    by wt.
  revert Hw1. generalize ((((g ++ t) ++ t1) ++ t2) ++
     [EvBusRx i match m_policy (w_m w) with RouteEndpoint => Some (bus_eid bs) | RouteBridge => None end (pk_id p) by0]).
  clear g t t1 t2 Hw. intros g Hw.
  eapply foot_call with (P := done).
  2:{ intros w' t Hw'. apply foot_pcall; [plain|]. intros ? t1. cbn [foot]. wt. }
  destruct (_ <=? 4); [exact Hw|]. unfold bus_rx_body. apply foot_pcall; [plain|]. intros by1 t.
  apply foot_pcall; [plain|]. intros ? t1. apply foot_pcall; [plain|]. intros h t2. cbv zeta.
  destruct (_ && _); [cbn [foot]; wt|]. destruct (_ =? _).
  { apply foot_pcall; [plain|]. intros m t3. apply foot_mctp_rx. wt. }
  destruct (_ =? _).
  { unfold rx_som. ft. }
  destruct (_ =? _).
  { unfold rx_eom. destruct (ctx_lookup _ _ _ _); [|cbn [foot]; wt].
    apply foot_pcall; [plain|]. intros c t3. destruct (negb _); [cbn [foot]; wt|].
    destruct (_ <? _); [cbn [foot]; wt|]. apply foot_pcall; [plain|]. intros [c' rc] t4. cbv zeta.
    eapply foot_call with (P := done).
    - destruct (rc =? 0); [apply foot_mctp_rx|cbn [foot]]; wt.
    - intros w2 t5 Hw2. apply foot_pcall; [plain|]. intros c2 t6. cbn [foot]. wt. }
  unfold rx_mid. ft.
Qed.

Lemma foot_register g w eid : W g w -> foot kv ok (register_bus btx bstart w eid) g done1.
Proof.
  intros Hw. unfold register_bus. apply foot_pcall; [plain|]. intros ? t. cbn [foot]. intros al.
  destruct (negb al); [cbn [foot fst]; wt|]. apply foot_emit; [exact (fun x => x)|]. cbv zeta.
  match goal with |- context [bd_has_start (bnd ?x false)] => set (w1 := x) end.
  assert (forall t', W ((g ++ t) ++ t') w1) as Hw1 by (intros t'; subst w1; wt).
  destruct (bd_has_start _); [|cbn [foot fst]; apply Hw1].
  eapply foot_call; [apply K_start; apply W_bnd; apply Hw1|]. intros [[b' rc] en] t1 HK. cbn [fst] in HK. cbv zeta.
  eapply foot_call with (P := done).
  - specialize (Hw1 [EvAttach false eid]). apply (W_more _ t1) in Hw1. destruct en; [apply foot_set_tx|cbn [foot]]; wt.
  - intros w3 t2 Hw3. destruct (rc <? 0); [|exact Hw3]. apply foot_emit; [exact (fun x => x)|]. cbn [foot fst].
    wt.
Qed.
Lemma foot_bstart g w i : W g w -> foot kv ok (bridge_start btx bstart w i) g done1.
Proof.
  intros Hw. unfold bridge_start. destruct (bd_has_start _); [|exact Hw].
  eapply foot_call; [apply K_start; apply W_bnd; exact Hw|]. intros [[b' rc] en] t1 HK. cbn [fst] in HK. cbv zeta.
  eapply foot_call with (P := done).
  - destruct en; [apply foot_set_tx|cbn [foot]]; wt.
  - intros w3 t2 Hw3. exact Hw3.
Qed.
Lemma foot_bridge_busses g w : W g w -> foot kv ok (bridge_busses btx bstart w) g done1.
Proof.
  intros Hw. unfold bridge_busses. apply foot_pcall; [plain|]. intros ? t. cbn [foot]. intros al.
  destruct (negb al); [cbn [foot fst]; wt|]. do 2 (apply foot_emit; [exact (fun x => x)|]). cbv zeta.
  match goal with |- context [bridge_start _ _ ?x false] => set (w1 := x) end.
  assert (forall t', W ((g ++ t) ++ t') w1) as Hw1.
  { intros t'; subst w1. apply W_set_bnd; [wt|]. apply W_bnd. wt. }
  rewrite <- app_assoc. eapply foot_call; [apply foot_bstart; apply Hw1|]. intros [w2 rc] t2 Hw2. cbn [fst] in Hw2.
  destruct (rc <? 0); [exact Hw2|]. now apply foot_bstart.
Qed.
Lemma plainp_free_packets q : plainp (free_packets q).
Proof. induction q; cbn [free_packets]; plain. Qed.
Lemma plainp_free_ctx l : plainp (free_ctx_bufs l).
Proof. induction l; cbn [free_ctx_bufs]; plain. Qed.
Lemma plainp_destroy_busses m n : plainp (destroy_busses m n).
Proof. induction n; cbn [destroy_busses]; [exact I|]. pose proof plainp_free_packets. plain. Qed.

(** Everything but a foreign change of the binding's private state. *)
Definition keeps_priv (o : @op B) : Prop := match o with OpPriv _ _ => False | _ => True end.

Lemma foot_op g w o : keeps_priv o -> W g w -> foot kv ok (exec_op btx bstart app w o) g done.
Proof.
  intros Ho Hw. unfold exec_op. destruct (m_dead _); [exact I|].
  destruct o as [n|b|b|eid| | | |i p|eid to tag msg|i en|i b|i n]; cbn [keeps_priv] in Ho; try contradiction.
  1-3: exact Hw.
  - eapply foot_call; [apply foot_register; exact Hw|]. intros [w' rc] t Hw'. ft.
  - unfold unregister_bus. destruct (m_busses _); ft.
  - eapply foot_call; [apply foot_bridge_busses; exact Hw|]. intros [w' rc] t Hw'. ft.
  - unfold destroy. apply foot_pcall; [apply plainp_free_ctx|]. intros cs t.
    apply foot_pcall; [apply plainp_destroy_busses|]. intros ? t1. destruct (m_busses _); cbn [foot]; auto; wt.
  - apply foot_emit; [exact (fun x => x)|]. apply foot_bus_rx. wt.
  - eapply foot_call; [apply foot_message; exact Hw|]. intros [w' rc] t Hw'. ft.
  - now apply foot_set_tx.
  - cbn [foot]. wt.
Qed.
Lemma foot_exec l : forall g w, Forall keeps_priv l -> W g w -> foot kv ok (exec btx bstart app w l) g done.
Proof.
  induction l as [|o l IH]; intros g w Hl Hw; cbn [exec]; [exact Hw|]. inversion_clear Hl as [|? ? Ho Hl'].
  eapply foot_call; [apply foot_op; assumption|]. intros w' t Hw'. now apply IH.
Qed.
End Core.
