(** Walk: what every core operation does, for any binding and any environment.

    The core is run against an arbitrary effect handler [H] whose ghost state
    satisfies an invariant [J] over the bindings and the bus states.  The lemmas
    say that no operation faults, that [J] is kept, and describe the new state
    and the events of each operation by the step relations below. *)
From Verif Require Import Base Lists Prog PktBuf Core WP.

(** ** Views of the world *)

Definition bget {B} (w : world B) (i : bool) : option bus :=
  match m_busses (w_m w) with BLive l => nth_bus l i | _ => None end.
Definition ost {B} (w : world B) (i : bool) : option bus_state := option_map bus_st (bget w i).

Definition rest {B} (w : world B) :=
  (m_nb (w_m w), m_rx (w_m w), m_cap (w_m w), m_ctxs (w_m w), m_policy (w_m w),
   m_max (w_m w), m_dead (w_m w)).
Definition bconst {B} (b : binding B) :=
  (bd_version b, bd_pkt_size b, bd_header b, bd_trailer b, bd_bus b, bd_has_start b, bd_ctrl b).

Lemma bget_set_bus B (w : world B) i b b0 j :
  bget w i = Some b0 -> bget (set_bus w i b) j = if eqb i j then Some b else bget w j.
Proof.
  unfold bget, set_bus. destruct (m_busses (w_m w)) as [|l|] eqn:E; try discriminate.
  cbn. unfold nth_bus. destruct i, j; destruct l as [|x [|y t]]; cbn; intros; congruence.
Qed.

Lemma set_bus_same B (w : world B) i b : bget w i = Some b -> set_bus w i b = w.
Proof.
  unfold bget, set_bus. destruct (m_busses (w_m w)) as [|l|] eqn:E; try discriminate.
  intros Hb. assert (upd_bus l i b = l) as ->.
  { unfold nth_bus in Hb. destruct i; destruct l as [|x [|y t]]; cbn in *; congruence. }
  destruct w as [m b0 b1], m; cbn in *; subst. reflexivity.
Qed.

Lemma set_bus_twice B (w : world B) i b c : set_bus (set_bus w i b) i c = set_bus w i c.
Proof.
  unfold set_bus. destruct (m_busses (w_m w)) as [|l|] eqn:E; cbn; rewrite ?E; try reflexivity.
  unfold set_m, set_busses; cbn. f_equal. f_equal. f_equal.
  destruct i; destruct l as [|x [|y t]]; reflexivity.
Qed.

Lemma rest_set_bus B (w : world B) i b : rest (set_bus w i b) = rest w.
Proof. unfold set_bus. destruct (m_busses (w_m w)); reflexivity. Qed.
Lemma next_set_bus B (w : world B) i b : m_next (w_m (set_bus w i b)) = m_next (w_m w).
Proof. unfold set_bus. destruct (m_busses (w_m w)); reflexivity. Qed.
Lemma bnd_set_bus B (w : world B) i b j : bnd (set_bus w i b) j = bnd w j.
Proof. unfold set_bus. destruct (m_busses (w_m w)); reflexivity. Qed.
Lemma b0_set_bus B (w : world B) i b : w_b0 (set_bus w i b) = w_b0 w.
Proof. unfold set_bus. destruct (m_busses (w_m w)); reflexivity. Qed.
Lemma b1_set_bus B (w : world B) i b : w_b1 (set_bus w i b) = w_b1 w.
Proof. unfold set_bus. destruct (m_busses (w_m w)); reflexivity. Qed.
Lemma bget_set_bnd B (w : world B) i b j : bget (set_bnd w i b) j = bget w j.
Proof. destruct i; reflexivity. Qed.
Lemma rest_set_bnd B (w : world B) i b : rest (set_bnd w i b) = rest w.
Proof. destruct i; reflexivity. Qed.
Lemma wm_set_bnd B (w : world B) i b : w_m (set_bnd w i b) = w_m w.
Proof. destruct i; reflexivity. Qed.
Lemma bnd_set_bnd B (w : world B) i b j :
  bnd (set_bnd w i b) j = if eqb i j then b else bnd w j.
Proof. destruct i, j; reflexivity. Qed.
Lemma set_bus_bnd_comm B (w : world B) i b j x :
  set_bus (set_bnd w j x) i b = set_bnd (set_bus w i b) j x.
Proof. unfold set_bus. destruct j; cbn; destruct (m_busses (w_m w)); reflexivity. Qed.

Lemma get_bus_bget B (w : world B) i b G (H : handler G) A (k : bus -> prog A) g Q :
  bget w i = Some b -> wp H (k b) g Q -> wp H (bind (get_bus (w_m w) i) k) g Q.
Proof.
  unfold bget, get_bus. destruct (m_busses (w_m w)) as [|l|]; try discriminate.
  intros ->. exact (fun x => x).
Qed.

(** ** Well-formedness *)

Record wf_pkt (p : pktbuf) : Prop := mkWfPkt {
  wp_hdr : 0 <= pk_hdr p;
  wp_start : pk_start p = pk_hdr p;
  wp_end : pk_hdr p <= pk_end p;
  wp_size : pk_end p <= pk_size p;
  wp_len : pk_size p = zlen (pk_data p);
  wp_max : pk_size p < 2 ^ 64 }.

(** A reassembly context: the buffer holds what it claims to hold. *)
Record wf_ctx (c : mctx) : Prop := mkWfCtx {
  wc_buf : match c_buf c with
           | PNull => c_alloc c = 0 /\ c_data c = []
           | PLive => 4096 <= c_alloc c
           | PFreed => False end;
  wc_data : zlen (c_data c) <= c_alloc c;
  wc_alloc : c_alloc c < 2 ^ 64 }.

Definition dims_ok {B} (b : binding B) : Prop :=
  0 <= bd_pkt_size b < 2 ^ 63 /\ 0 <= bd_header b < 2 ^ 32 /\ 0 <= bd_trailer b < 2 ^ 32.

(** How much is asked of the binding and of queued packets. *)
Inductive strictness := Lax | Strict | Upto (n : Z).
Definition firm (s : strictness) : bool := match s with Lax => false | _ => true end.
Definition upto (s : strictness) (x : Z) : Prop := match s with Upto n => x <= n | _ => True end.

Lemma upto_le s x y : x <= y -> upto s y -> upto s x.
Proof. destruct s; cbn; auto. lia. Qed.

(** What becomes of a packet without a final verdict: it stays as it was; with [Upto]
    every verdict is final. *)
Definition kept (s : strictness) (p p' : pktbuf) : Prop :=
  match s with Lax => True | Strict => p' = p | Upto _ => False end.

(** [firm]: the binding leaves a packet alone unless its verdict is final, and
    queued packets keep room for the trailer and begin with the binding's version.  [upto]: they
    are at most that long. *)
Definition ver_of (p : pktbuf) : Z := nth (Z.to_nat (pk_hdr p)) (pk_data p) 0.
Definition qwf (strict : strictness) {B} (bd : binding B) (p : pktbuf) : Prop :=
  wf_pkt p /\ 4 < pktbuf_size p /\ pk_size p < 2 ^ 63 + 2 ^ 33 /\ upto strict (pktbuf_size p) /\
  (firm strict = true -> pk_end p + bd_trailer bd <= pk_size p /\ ver_of p = Z.land (bd_version bd) 15).

Record WF (strict : strictness) {B} (w : world B) : Prop := mkWF {
  wf_dead : m_dead (w_m w) = false;
  wf_nb : m_nb (w_m w) = match m_policy (w_m w) with RouteEndpoint => 1 | RouteBridge => 2 end;
  wf_b0 : bget w false <> None;
  wf_b1 : bget w true <> None <-> m_policy (w_m w) = RouteBridge;
  wf_bd : forall i b, bget w i = Some b -> bd_bus (bnd w i) = true;
  wf_q : forall i b, bget w i = Some b -> Forall (qwf strict (bnd w i)) (bus_q b);
  wf_size : forall i b, bget w i = Some b -> bus_st b <> Constructed -> 68 <= bd_pkt_size (bnd w i);
  wf_dims : forall i, dims_ok (bnd w i);
  wf_ctxs : Forall wf_ctx (m_ctxs (w_m w));
  wf_max : 0 <= m_max (w_m w) < 2 ^ 64;
  wf_cap : forall i b, bget w i = Some b -> bus_st b <> Constructed -> upto strict (bd_pkt_size (bnd w i)) }.

(** ** Step relations *)

Definition final (rc : Z) : bool := (rc =? 0) || (rc =? - EMSGSIZE).

Definition io_ev (e : event) : Prop :=
  match e with
  | EvKRead _ _ | EvKWrite _ _ _ | EvLRead _ _ | EvLWrite _ _ | EvSWrite _ _ => True
  | _ => False
  end.
Definition core_ev (e : event) : Prop :=
  match e with
  | EvTxCall _ _ _ | EvBusRx _ _ _ _ => False
  | _ => ~ io_ev e
  end.
(** Events that go with no change of the state described by the steps. *)
Definition note_ev (e : event) : Prop :=
  match e with
  | EvRx _ _ _ _ | EvCtrl _ _ _ _ _ | EvCapture _ _ | EvMsg _ _ _ _ _ _ => True
  | _ => False
  end.

Section Steps.
Context {B : Type} (strict : strictness).
Notation world := (world B).
Notation qwf := (qwf strict).

Definition capev (w : world) (out : bool) (bytes : list Z) : list event :=
  if m_cap (w_m w) then [EvCapture out bytes] else [].

(** One packet with contents [bytes] is appended to the queue of bus [i]. *)
Inductive enq_step (i : bool) (w : world) (bytes : list Z) : list event -> world -> Prop :=
| EnqStep b p :
    bget w i = Some b -> bus_st b <> Constructed ->
    pk_id p = m_next (w_m w) -> pktbuf_bytes p = Some bytes ->
    qwf (bnd w i) p ->
    enq_step i w bytes [EvAlloc (pk_id p); EvEnq i (pk_id p) bytes]
      (set_bus (set_m w (set_next (w_m w) (m_next (w_m w) + 1))) i (set_q b (bus_q b ++ [p]))).

(** One call of binding->tx on the packet at the head of the queue of bus [i]. *)
Inductive tx_step (i : bool) (w : world) : Z -> list event -> world -> Prop :=
| TxStep b p q p' b' rc dis bytes io :
    bget w i = Some b -> bus_st b = TxEnabled -> bus_q b = p :: q ->
    pktbuf_bytes p = Some bytes -> Forall io_ev io ->
    pk_id p' = pk_id p ->
    (final rc = false -> qwf (bnd w i) p' /\ kept strict p p') ->
    tx_step i w rc
      (capev w true bytes ++ EvTxCall i (pk_id p) bytes :: io
       ++ (if dis : bool then [EvSetTx i false] else [])
       ++ EvTxRet i (pk_id p) bytes rc :: (if final rc then [EvFree (pk_id p)] else []))
      (set_bus (set_bnd w i (set_priv (bnd w i) b')) i
         (mkBus (bus_eid b) (if dis : bool then TxDisabled else TxEnabled)
                (if final rc then q else p' :: q))).

(** The transmit loop: calls with a final verdict, until the queue is empty, the
    bus is no longer enabled, or a call ends without final verdict. *)
Inductive txs (i : bool) : world -> list event -> world -> Prop :=
| TxsStop w b : bget w i = Some b -> bus_q b = [] \/ bus_st b <> TxEnabled -> txs i w [] w
| TxsRefused w rc t w' : tx_step i w rc t w' -> final rc = false -> txs i w t w'
| TxsMore w rc t1 w1 t2 w2 :
    tx_step i w rc t1 w1 -> final rc = true -> txs i w1 t2 w2 -> txs i w (t1 ++ t2) w2.

Inductive enqs (i : bool) : world -> list (list Z) -> list event -> world -> Prop :=
| EnqsNil w : enqs i w [] [] w
| EnqsCons w bs t1 w1 l t2 w2 :
    enq_step i w bs t1 w1 -> enqs i w1 l t2 w2 -> enqs i w (bs :: l) (t1 ++ t2) w2.

(** Any number of elementary steps; none of them touches the contexts. *)
Inductive steps : world -> list event -> world -> Prop :=
| StNil w : steps w [] w
| StNote w e t w' : note_ev e -> steps w t w' -> steps w (e :: t) w'
| StEnq i w bs t1 w1 t2 w2 : enq_step i w bs t1 w1 -> steps w1 t2 w2 -> steps w (t1 ++ t2) w2
| StTx i w rc t1 w1 t2 w2 : tx_step i w rc t1 w1 -> steps w1 t2 w2 -> steps w (t1 ++ t2) w2.

Lemma steps_app w t1 w1 t2 w2 : steps w t1 w1 -> steps w1 t2 w2 -> steps w (t1 ++ t2) w2.
Proof.
  induction 1; intros Hs; cbn [app]; [exact Hs| | |].
  - apply StNote; auto.
  - rewrite <- app_assoc. eapply StEnq; eauto.
  - rewrite <- app_assoc. eapply StTx; eauto.
Qed.

Lemma txs_steps i w t w' : txs i w t w' -> steps w t w'.
Proof.
  induction 1; [constructor| |].
  - rewrite <- (app_nil_r t). eapply StTx; [eassumption|constructor].
  - eapply StTx; eassumption.
Qed.

Lemma enqs_steps i w l t w' : enqs i w l t w' -> steps w t w'.
Proof. induction 1; [constructor|]. eapply StEnq; eassumption. Qed.

(** What the steps keep. *)
Definition stable (w w' : world) : Prop :=
  rest w' = rest w /\
  (forall i, bconst (bnd w' i) = bconst (bnd w i)) /\
  (forall i, option_map bus_eid (bget w' i) = option_map bus_eid (bget w i)) /\
  (forall i, ost w i = Some Constructed <-> ost w' i = Some Constructed) /\
  m_next (w_m w) <= m_next (w_m w').

Lemma stable_refl w : stable w w.
Proof. unfold stable; intuition lia. Qed.
Lemma stable_trans a b c : stable a b -> stable b c -> stable a c.
Proof.
  intros (H1 & H2 & H3 & H4 & H5) (K1 & K2 & K3 & K4 & K5). repeat split; intros.
  - congruence.
  - now rewrite K2.
  - now rewrite K3.
  - apply K4, H4; assumption.
  - apply H4, K4; assumption.
  - lia.
Qed.

Lemma enq_stable i w bs t w' : enq_step i w bs t w' -> stable w w'.
Proof.
  destruct 1 as [b p Hb Hst Hid Hby Hq].
  assert (bget (set_m w (set_next (w_m w) (m_next (w_m w) + 1))) i = Some b) as Hb' by exact Hb.
  repeat split; intros.
  - now rewrite rest_set_bus.
  - now rewrite bnd_set_bus.
  - rewrite (bget_set_bus _ _ _ _ _ _ Hb'). destruct (Bool.eqb_spec i i0); [|reflexivity].
    subst. rewrite Hb. reflexivity.
  - revert H. unfold ost. rewrite (bget_set_bus _ _ _ _ _ _ Hb').
    destruct (Bool.eqb_spec i i0); [subst; rewrite Hb; exact (fun x => x)|exact (fun x => x)].
  - revert H. unfold ost. rewrite (bget_set_bus _ _ _ _ _ _ Hb').
    destruct (Bool.eqb_spec i i0); [subst; rewrite Hb; exact (fun x => x)|exact (fun x => x)].
  - rewrite next_set_bus. cbn. lia.
Qed.

Lemma tx_stable i w rc t w' : tx_step i w rc t w' -> stable w w'.
Proof.
  destruct 1 as [b p q p' b' rc dis bytes io Hb Hst Hqu Hby Hio Hid Hq].
  assert (bget (set_bnd w i (set_priv (bnd w i) b')) i = Some b) as Hb'
    by (rewrite bget_set_bnd; exact Hb).
  repeat split; intros.
  - now rewrite rest_set_bus, rest_set_bnd.
  - rewrite bnd_set_bus, bnd_set_bnd. destruct (Bool.eqb_spec i i0); [subst|]; reflexivity.
  - rewrite (bget_set_bus _ _ _ _ _ _ Hb'). destruct (Bool.eqb_spec i i0).
    + subst. rewrite Hb. reflexivity.
    + now rewrite bget_set_bnd.
  - revert H. unfold ost. rewrite (bget_set_bus _ _ _ _ _ _ Hb'). rewrite bget_set_bnd.
    destruct (Bool.eqb_spec i i0); [subst; rewrite Hb; cbn; destruct dis; congruence|exact (fun x => x)].
  - revert H. unfold ost. rewrite (bget_set_bus _ _ _ _ _ _ Hb'). rewrite bget_set_bnd.
    destruct (Bool.eqb_spec i i0); [subst; rewrite Hb; cbn; destruct dis; congruence|exact (fun x => x)].
  - rewrite next_set_bus, wm_set_bnd. lia.
Qed.

Lemma steps_stable w t w' : steps w t w' -> stable w w'.
Proof.
  induction 1; [apply stable_refl|assumption| |].
  - eapply stable_trans; [eapply enq_stable; eassumption|assumption].
  - eapply stable_trans; [eapply tx_stable; eassumption|assumption].
Qed.

Lemma bconst_dims (a b : binding B) : bconst a = bconst b -> dims_ok b -> dims_ok a.
Proof. unfold bconst, dims_ok. intros [=]. intuition congruence. Qed.

(** Well-formedness is kept by [stable] steps whose queues stay well formed. *)
Lemma stable_WF w w' : WF strict w -> stable w w' ->
  (forall i b, bget w' i = Some b -> Forall (qwf (bnd w' i)) (bus_q b)) ->
  WF strict w'.
Proof.
  intros [Hd Hn H0 H1 Hb Hq Hs Hdm Hc Hmx Hcap] (E1 & E2 & E3 & E4 & _) Hq'.
  unfold rest in E1. injection E1 as E11 E12 E13 E14 E15 E16 E17.
  assert (forall i, bget w' i <> None <-> bget w i <> None) as Hn'.
  { intros i. specialize (E3 i). destruct (bget w' i), (bget w i); cbn in E3; split; congruence. }
  constructor.
  - congruence.
  - rewrite E11, Hn, E15. reflexivity.
  - now apply Hn'.
  - rewrite Hn', H1. now rewrite E15.
  - intros i b Hi. specialize (E2 i). unfold bconst in E2. injection E2 as F1 F2 F3 F4 F5 F6 F7.
    rewrite F5. destruct (bget w i) as [b0|] eqn:Eb; [eapply Hb; exact Eb|].
    exfalso. destruct (Hn' i) as [F _]. rewrite Hi in F. apply F; congruence.
  - exact Hq'.
  - intros i b Hi Hst. specialize (E2 i). unfold bconst in E2. injection E2 as F1 F2 F3 F4 F5 F6 F7.
    rewrite F2. destruct (bget w i) as [b0|] eqn:Eb.
    + apply (Hs i b0 Eb). intros Hc0. apply Hst. specialize (E4 i). unfold ost in E4.
      rewrite Eb, Hi in E4. cbn in E4. destruct E4 as [E4 _]. rewrite Hc0 in E4. specialize (E4 eq_refl).
      congruence.
    + exfalso. destruct (Hn' i) as [F _]. rewrite Hi in F. apply F; congruence.
  - intros i. eapply bconst_dims; [apply E2|apply Hdm].
  - congruence.
  - congruence.
  - intros i b Hi Hst. specialize (E2 i). unfold bconst in E2. injection E2 as F1 F2 F3 F4 F5 F6 F7.
    rewrite F2. destruct (bget w i) as [b0|] eqn:Eb.
    + apply (Hcap i b0 Eb). intros Hc0. apply Hst. specialize (E4 i). unfold ost in E4.
      rewrite Eb, Hi in E4. cbn in E4. destruct E4 as [E4 _]. rewrite Hc0 in E4. specialize (E4 eq_refl).
      congruence.
    + exfalso. destruct (Hn' i) as [F _]. rewrite Hi in F. apply F; congruence.
Qed.

Lemma enq_WF i w bs t w' : WF strict w -> enq_step i w bs t w' -> WF strict w'.
Proof.
  intros Hw He. eapply stable_WF; [eassumption|eapply enq_stable; eassumption|].
  destruct He as [b p Hb Hst Hid Hby Hq].
  assert (bget (set_m w (set_next (w_m w) (m_next (w_m w) + 1))) i = Some b) as Hb' by exact Hb.
  intros j c. rewrite (bget_set_bus _ _ _ _ _ _ Hb'), bnd_set_bus.
  destruct (Bool.eqb_spec i j).
  - subst. intros [= <-]. cbn. apply Forall_app. split; [|now constructor].
    exact (wf_q _ _ Hw _ _ Hb).
  - apply (wf_q _ _ Hw).
Qed.

Lemma tx_WF i w rc t w' : WF strict w -> tx_step i w rc t w' -> WF strict w'.
Proof.
  intros Hw He. eapply stable_WF; [eassumption|eapply tx_stable; eassumption|].
  destruct He as [b p q p' b' rc dis bytes io Hb Hst Hqu Hby Hio Hid Hq].
  assert (bget (set_bnd w i (set_priv (bnd w i) b')) i = Some b) as Hb'
    by (rewrite bget_set_bnd; exact Hb).
  intros j c. rewrite (bget_set_bus _ _ _ _ _ _ Hb'), bnd_set_bus, bnd_set_bnd.
  destruct (Bool.eqb_spec i j).
  - subst. intros [= <-]. cbn. pose proof (wf_q _ _ Hw _ _ Hb) as F. rewrite Hqu in F.
    inversion F; subst. destruct (final rc); [assumption|]. constructor; [|assumption].
    now apply Hq.
  - rewrite bget_set_bnd. apply (wf_q _ _ Hw).
Qed.

Lemma steps_WF w t w' : WF strict w -> steps w t w' -> WF strict w'.
Proof. intros Hw Hs. revert Hw. induction Hs; eauto using enq_WF, tx_WF. Qed.

End Steps.
