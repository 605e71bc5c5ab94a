(** Trace: trace invariants over histories of the core. *)
From Coq Require Import Permutation.
From Verif Require Import Base Lists Prog PktBuf Core WP Walk CoreRel WalkCore CoreHist Spec.

(** ** Predicates over every event *)

Fixpoint each (P : list event -> event -> Prop) (pre t : list event) : Prop :=
  match t with
  | [] => True
  | e :: t' => P pre e /\ each P (pre ++ [e]) t'
  end.

Lemma each_app P pre a b : each P pre (a ++ b) <-> each P pre a /\ each P (pre ++ a) b.
Proof.
  revert pre. induction a as [|e a IH]; intros pre; cbn [app each].
  - rewrite app_nil_r. tauto.
  - rewrite IH. rewrite <- app_assoc. cbn [app]. tauto.
Qed.

Lemma each_at_each P t : each P [] t -> at_each P t.
Proof.
  intros Ht before e after ->. apply each_app in Ht. cbn in Ht. tauto.
Qed.

Lemma each_trivial (P : list event -> event -> Prop) t : forall pre,
  (forall pre e, In e t -> P pre e) -> each P pre t.
Proof.
  induction t as [|e t IH]; intros pre Hp; cbn; [exact I|]. split; [apply Hp; left; reflexivity|].
  apply IH. intros; apply Hp; right; assumption.
Qed.

Lemma enqueued_app i a b : enqueued i (a ++ b) = enqueued i a ++ enqueued i b.
Proof. apply flat_map_app. Qed.
Lemma settled_app i a b : settled i (a ++ b) = settled i a ++ settled i b.
Proof. apply flat_map_app. Qed.
Lemma allocs_app a b : allocs (a ++ b) = allocs a ++ allocs b.
Proof. apply flat_map_app. Qed.
Lemma frees_app a b : frees (a ++ b) = frees a ++ frees b.
Proof. apply flat_map_app. Qed.
Lemma last_set_snoc i tr e : last_set i (tr ++ [e]) =
  match e with EvSetTx j b => if Bool.eqb i j then Some b else last_set i tr | _ => last_set i tr end.
Proof. unfold last_set. rewrite fold_left_app. reflexivity. Qed.
Lemma last_set_app_other i a b :
  (forall j x, In (EvSetTx j x) b -> i <> j) -> last_set i (a ++ b) = last_set i a.
Proof.
  revert a. induction b as [|e b IH]; intros a Hb; [now rewrite app_nil_r|].
  change (e :: b) with ([e] ++ b). rewrite app_assoc, IH by (intros; apply (Hb j x); right; assumption).
  rewrite last_set_snoc. destruct e; try reflexivity.
  destruct (Bool.eqb_spec i bus) as [E|]; [|reflexivity]. exfalso. exact (Hb _ _ (or_introl eq_refl) E).
Qed.

Lemma io_enqueued i t : Forall io_ev t -> enqueued i t = [].
Proof. unfold enqueued. induction 1 as [|e t He Ht IH]; [reflexivity|]. cbn [flat_map]. rewrite IH. destruct e; cbn in *; tauto || reflexivity. Qed.
Lemma io_settled i t : Forall io_ev t -> settled i t = [].
Proof. unfold settled. induction 1 as [|e t He Ht IH]; [reflexivity|]. cbn [flat_map]. rewrite IH. destruct e; cbn in *; tauto || reflexivity. Qed.
Lemma io_allocs t : Forall io_ev t -> allocs t = [].
Proof. unfold allocs. induction 1 as [|e t He Ht IH]; [reflexivity|]. cbn [flat_map]. rewrite IH. destruct e; cbn in *; tauto || reflexivity. Qed.
Lemma io_frees t : Forall io_ev t -> frees t = [].
Proof. unfold frees. induction 1 as [|e t He Ht IH]; [reflexivity|]. cbn [flat_map]. rewrite IH. destruct e; cbn in *; tauto || reflexivity. Qed.
Lemma io_noset t : Forall io_ev t -> forall j x, ~ In (EvSetTx j x) t.
Proof. intros Ht j x Hi. rewrite Forall_forall in Ht. exact (Ht _ Hi). Qed.

Section Inv.
Context {B : Type}.
Notation world := (world B).

Definition pk (p : pktbuf) : Z * list Z :=
  (pk_id p, match pktbuf_bytes p with Some x => x | None => [] end).
Lemma queued_bget (w : world) i :
  queued w i = match bget w i with Some b => map pk (bus_q b) | None => [] end.
Proof. unfold queued, bget. destruct (m_busses (w_m w)); reflexivity. Qed.

Lemma queued_set_bus (w : world) i b b0 j : bget w i = Some b0 ->
  queued (set_bus w i b) j = if Bool.eqb i j then map pk (bus_q b) else queued w j.
Proof.
  intros Hb. rewrite !queued_bget, (bget_set_bus _ _ _ _ _ _ Hb).
  destruct (Bool.eqb_spec i j); reflexivity.
Qed.
Lemma queued_set_bnd (w : world) i x j : queued (set_bnd w i x) j = queued w j.
Proof. destruct i; reflexivity. Qed.

(** The general shape: an invariant [I] over trace and state, and a property [P]
    of each event, kept by each kind of step. *)
Variable I : list event -> world -> Prop.
Variable P : list event -> event -> Prop.

Definition plain_ev (e : event) : Prop :=
  match e with EvRet _ => True | _ => note_ev e end.

Hypothesis Inote : forall tr w e, plain_ev e -> I tr w -> P tr e /\ I (tr ++ [e]) w.
Section Steps.
Context {st : strictness}.
Hypothesis Ienq : forall tr w i bs t w', I tr w -> enq_step st i w bs t w' -> each P tr t /\ I (tr ++ t) w'.
Hypothesis Itx : forall tr w i rc t w', I tr w -> tx_step st i w rc t w' -> each P tr t /\ I (tr ++ t) w'.
Lemma inv_steps w t w' : steps st w t w' -> forall tr, I tr w -> each P tr t /\ I (tr ++ t) w'.
Proof.
  induction 1 as [w|w e t w' He Hs IH|i w bs t1 w1 t2 w2 H1 Hs IH|i w rc t1 w1 t2 w2 H1 Hs IH];
    intros tr Hi.
  - rewrite app_nil_r. split; [exact Logic.I|exact Hi].
  - destruct (Inote tr w e) as [Hp Hi']; [destruct e; cbn in *; tauto|exact Hi|].
    destruct (IH _ Hi') as [He' Hi'']. cbn [each]. rewrite <- app_assoc in Hi''. auto.
  - destruct (Ienq tr w i bs t1 w1 Hi H1) as [Hp Hi']. destruct (IH _ Hi') as [He' Hi''].
    rewrite app_assoc. split; [apply each_app; auto|exact Hi''].
  - destruct (Itx tr w i rc t1 w1 Hi H1) as [Hp Hi']. destruct (IH _ Hi') as [He' Hi''].
    rewrite app_assoc. split; [apply each_app; auto|exact Hi''].
Qed.

End Steps.
Hypothesis Ienq : forall tr w i bs t w', I tr w -> enq_step Strict i w bs t w' -> each P tr t /\ I (tr ++ t) w'.
Hypothesis Itx : forall tr w i rc t w', I tr w -> tx_step Strict i w rc t w' -> each P tr t /\ I (tr ++ t) w'.
(** Changes of configuration, contexts and bindings. *)
Hypothesis Icfg : forall tr w m x0 x1, I tr w ->
  m_busses m = m_busses (w_m w) -> m_next m = m_next (w_m w) -> I tr (mkWorld m x0 x1).

(** Packet reception: the buffer's identity is taken and given back. *)
Hypothesis Irx : forall tr w t w' cs i b bs, I tr w ->
  let w1 := set_m w (set_next (w_m w) (m_next (w_m w) + 1)) in
  let n := m_next (w_m w) in
  bget w i = Some b -> WF Strict w1 ->
  steps Strict (setc w1 cs) t w' ->
  let t' := EvAlloc n :: EvBusRx i (busrx_local w1 b) n bs :: t ++ [EvFree n] in
  each P tr t' /\ I (tr ++ t') w'.
Hypothesis Iset : forall tr w i en b st, I tr w -> bget w i = Some b ->
  st = bus_st b \/ (st = TxEnabled /\ en = true) \/ (st = TxDisabled /\ en = false) ->
  (st = TxEnabled -> en = true) ->
  P tr (EvSetTx i en) /\ I (tr ++ [EvSetTx i en]) (set_bus w i (set_st b st)).

Lemma set_st_same b : set_st b (bus_st b) = b.
Proof. destruct b; reflexivity. Qed.

Lemma inv_set w i en t w' : set_rel Strict w i en t w' -> forall tr, I tr w ->
  each P tr t /\ I (tr ++ t) w'.
Proof.
  intros Hr tr Hi. destruct Hr as [b en Hb Hc|b Hb Hst Hsz|b Hb Hst|b t w' Hb Hst Ht].
  - destruct (Iset tr w i en b (bus_st b) Hi Hb) as [Hp Hi']; [auto| |].
    { intros E. destruct Hc as [[Hst Hc]|[[Hst ->]|[Hst ->]]]; congruence. }
    rewrite set_st_same, (set_bus_same _ _ _ _ Hb) in Hi'. cbn. auto.
  - destruct (Iset tr w i true b TxEnabled Hi Hb) as [Hp Hi']; auto. cbn. auto.
  - destruct (Iset tr w i false b TxDisabled Hi Hb) as [Hp Hi']; auto; [congruence|]. cbn. auto.
  - destruct (Iset tr w i true b TxEnabled Hi Hb) as [Hp Hi']; auto.
    destruct (inv_steps Ienq Itx _ _ _ (txs_steps _ _ _ _ _ Ht) _ Hi') as [He Hi''].
    cbn [each]. rewrite <- app_assoc in Hi''. auto.
Qed.

Lemma inv_op w o t w' : WF Strict w -> op_rel w o t w' -> forall tr, I tr w ->
  each P tr t /\ I (tr ++ t) w'.
Proof.
  intros Hw Hr tr Hi.
  destruct Hr as [n|b|b|i b|i n|eid to tag msg rc t w' Hr|i en t w' Hr|i p bytes ap t w' Hby Hr].
  1-5: rewrite app_nil_r; split; [exact Logic.I|].
  - eapply Icfg; [exact Hi|reflexivity|reflexivity].
  - eapply Icfg; [exact Hi|reflexivity|reflexivity].
  - eapply Icfg; [exact Hi|reflexivity|reflexivity].
  - destruct i; eapply Icfg; try exact Hi; reflexivity.
  - destruct i; eapply Icfg; try exact Hi; reflexivity.
  - destruct (inv_steps Ienq Itx _ _ _ (message_rel_steps _ _ _ _ _ _ _ _ _ Hr) _ Hi) as [He Hi'].
    destruct (Inote (tr ++ t) w' (EvRet rc)) as [Hp Hi'']; [exact Logic.I|exact Hi'|].
    rewrite app_assoc. split; [|exact Hi'']. apply each_app. cbn. auto.
  - eapply inv_set; eassumption.
  - destruct (rx_rel_steps _ _ _ _ _ _ Hr) as (cs & b & t1 & Hs & Hb & ->).
    eapply (Irx tr w t1 w' cs i b bytes); [exact Hi|exact Hb| |exact Hs].
    now apply WF_next.
Qed.

Lemma inv_hist w l t w' : WF Strict w -> hist w l t w' -> forall tr, I tr w ->
  each P tr t /\ I (tr ++ t) w'.
Proof.
  intros Hw Hh. revert Hw. induction Hh as [w|w o t1 w1 l t2 w2 Hr Hw1 Hh IH]; intros Hw tr Hi.
  - rewrite app_nil_r. split; [exact Logic.I|exact Hi].
  - destruct (inv_op _ _ _ _ Hw Hr tr Hi) as [He Hi']. destruct (IH Hw1 _ Hi') as [He' Hi''].
    rewrite app_assoc. split; [apply each_app; auto|exact Hi''].
Qed.
End Inv.
