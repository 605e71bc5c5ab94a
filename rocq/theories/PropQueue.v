(** PropQueue (C58): the linked transmit queue of core.c refines the list of
    Core.v: the same calls, in the same order, with the same results. *)
From Coq Require Import FinFun.
From Verif Require Import Base Lists Prog PktBuf Core Walk Queue.

(** ** Two programs that an environment cannot tell apart, with related results *)
Inductive same {A C : Type} (R : A -> C -> Prop) : prog A -> prog C -> Prop :=
| s_ret a c : R a c -> same R (Ret a) (Ret c)
| s_flt f : same R (Flt f) (Flt f)
| s_kread r k k' : (forall v, same R (k v) (k' v)) -> same R (KRead r k) (KRead r k')
| s_kwrite r v k k' : (forall o, same R (k o) (k' o)) -> same R (KWrite r v k) (KWrite r v k')
| s_lread o n k k' : (forall b, same R (k b) (k' b)) -> same R (LRead o n k) (LRead o n k')
| s_lwrite o bs k k' : same R k k' -> same R (LWrite o bs k) (LWrite o bs k')
| s_swrite bs k k' : (forall r, same R (k r) (k' r)) -> same R (SWrite bs k) (SWrite bs k')
| s_malloc k k' : (forall b, same R (k b) (k' b)) -> same R (Malloc k) (Malloc k')
| s_emit e k k' : same R k k' -> same R (Emit e k) (Emit e k').

Lemma same_bind A C A' C' (R : A -> C -> Prop) (R' : A' -> C' -> Prop) p q f g :
  same R p q -> (forall a c, R a c -> same R' (f a) (g c)) -> same R' (bind p f) (bind q g).
Proof.
  intros Hpq Hk. induction Hpq; cbn [bind]; try constructor; auto.
Qed.

Lemma same_refl A (p : prog A) : same eq p p.
Proof. induction p; constructor; auto. Qed.

(** Same trace, same fault if any, same time, related results. *)
Definition agree {A C} (R : A -> C -> Prop) (x : outcome A) (y : outcome C) : Prop :=
  match x, y with
  | Done a n tr, Done c n' tr' => R a c /\ n = n' /\ tr = tr'
  | Fault f tr, Fault f' tr' => f = f' /\ tr = tr'
  | _, _ => False
  end.

Lemma same_run A C (R : A -> C -> Prop) p q : same R p q ->
  forall e n tr, agree R (run e n tr p) (run e n tr q).
Proof.
  induction 1; intros e0 n0 tr; cbn [run]; try (cbn; auto; fail); auto.
  - destruct (in_window o n); [auto|cbn; auto].
  - destruct (in_window o (zlen bs)); [auto|cbn; auto].
Qed.

Section Sim.
Context {B : Type}.
Variable btx : B -> pktbuf -> prog (B * pktbuf * Z * bool).
Variable place : heap -> Z.
Hypothesis place_free : forall h, ~ In (place h) (map fst h).
Variable i : bool.

(** [w] is the core with a list as the queue of bus [i], [w'] and [s] the same
    core with the linked list (the list in [w'] is unused and empty). *)
Definition linked (w w' : world B) (s : lqueue) : Prop :=
  exists b, bget w i = Some b /\ w' = set_bus w i (set_q b []) /\ holds s (bus_q b).
Definition linked2 (w : world B) (x : world B * lqueue) : Prop := linked w (fst x) (snd x).

Lemma get_bus_some (w : world B) b : bget w i = Some b -> get_bus (w_m w) i = Ret b.
Proof. unfold bget, get_bus. destruct (m_busses (w_m w)); try discriminate. now intros ->. Qed.

Lemma linked_get w w' s : linked w w' s ->
  exists b, get_bus (w_m w) i = Ret b /\ get_bus (w_m w') i = Ret (set_q b [])
    /\ bget w i = Some b /\ bget w' i = Some (set_q b []) /\ holds s (bus_q b)
    /\ w' = set_bus w i (set_q b []).
Proof.
  intros (b & Hb & -> & Hh). exists b. rewrite (get_bus_some _ _ Hb).
  assert (Hb' : bget (set_bus w i (set_q b [])) i = Some (set_q b [])).
  { rewrite (bget_set_bus _ _ _ _ _ i Hb), eqb_reflx. reflexivity. }
  rewrite (get_bus_some _ _ Hb'). auto 6.
Qed.

Lemma linked_bnd w w' s j : linked w w' s -> bnd w' j = bnd w j /\ m_cap (w_m w') = m_cap (w_m w)
  /\ m_next (w_m w') = m_next (w_m w).
Proof.
  intros (b & Hb & -> & _). unfold bget in Hb. unfold set_bus.
  destruct (m_busses (w_m w)); try discriminate. cbn. auto.
Qed.

Definition tx_same (p : pktbuf) (l : list pktbuf) (s : lqueue)
  (x : world B * pktbuf * Z) (y : world B * pktbuf * Z) : Prop :=
  let '(w, p1, rc) := x in let '(w', p1', rc') := y in
  p1 = p1' /\ rc = rc' /\ exists b, bget w i = Some b /\ bus_q b = p :: l
    /\ w' = set_bus w i (set_q b []).

Lemma set_bus_bnd (w : world B) b x : set_bus (set_bnd w i x) i b = set_bnd (set_bus w i b) i x.
Proof.
  unfold set_bus. replace (w_m (set_bnd w i x)) with (w_m w) by (destruct i; reflexivity).
  destruct (m_busses (w_m w)); destruct i; reflexivity.
Qed.

Lemma same_packet w w' s p l b : linked w w' s -> bget w i = Some b -> bus_q b = p :: l ->
  same (tx_same p l s) (packet_tx btx w i p) (packet_tx btx w' i p).
Proof.
  intros Hl Hb Hq. destruct (linked_bnd _ _ _ i Hl) as (Hbn & Hcap & _).
  destruct (linked_get _ _ _ Hl) as (b0 & G & G' & Hb0 & Hb' & Hh & Hw').
  rewrite Hb in Hb0. injection Hb0 as <-.
  unfold packet_tx. rewrite G, G'. cbn [bind].
  replace (bus_st (set_q b [])) with (bus_st b) by reflexivity.
  destruct (bus_st b) eqn:Est.
  1,3: apply s_ret; repeat split; exists b; auto.
  rewrite Hbn, Hcap. eapply same_bind; [apply same_refl|]. intros by1 ? <-.
  eapply same_bind; [apply same_refl|]. intros [] ? _. apply s_emit.
  eapply same_bind; [apply same_refl|]. intros [[[b' p'] rc] dis] ? <-.
  eapply same_bind with (R := fun w2 w2' => exists b2, bget w2 i = Some b2 /\ bus_q b2 = p :: l
                               /\ w2' = set_bus w2 i (set_q b2 [])).
  2:{ intros w2 w2' Hx. apply s_emit, s_ret. repeat split. exact Hx. }
  assert (Hbb : bget (set_bnd w i (set_priv (bnd w i) b')) i = Some b) by (rewrite bget_set_bnd; exact Hb).
  destruct dis.
  - apply s_emit, s_ret. exists (disable_bus b). split; [|split].
    + rewrite (bget_set_bus _ _ _ _ _ i Hbb), eqb_reflx. reflexivity.
    + unfold disable_bus. rewrite Est. exact Hq.
    + rewrite Hw', set_bus_bnd, set_bus_bnd, !set_bus_twice.
      unfold disable_bus. cbn [set_q bus_st]. rewrite Est.
      rewrite set_bus_bnd, !set_bus_twice. reflexivity.
  - apply s_ret. exists b. split; [exact Hbb|]. split; [exact Hq|].
    rewrite Hw'. symmetry. apply set_bus_bnd.
Qed.

Lemma same_send n : forall w w' s b, linked w w' s -> bget w i = Some b -> length (bus_q b) = n ->
  same linked2 (send_loop btx n w i) (ll_send_loop btx n w' i s).
Proof.
  induction n as [|n IH]; intros w w' s b Hl Hb Hn.
  all: destruct (linked_get _ _ _ Hl) as (b0 & G & G' & Hb0 & Hb' & Hh & Hw');
    rewrite Hb in Hb0; injection Hb0 as <-; cbn [send_loop ll_send_loop];
    rewrite G; cbn [bind]; destruct (bus_q b) as [|p l] eqn:Eq; try discriminate Hn.
  1:{ destruct Hh as (cells & Hm & Hc & Ht & Hd). destruct cells; [|discriminate Hm].
      cbn in Hc. rewrite Hc. apply s_ret. exists b. split; [exact Hb|]. split; [exact Hw'|].
      exists []. unfold ll_cleanup. cbn [snd]. rewrite Hc. rewrite Eq. cbn. repeat split; try reflexivity; apply Hd. }
  destruct (pop_holds place _ _ _ Hh) as (a & nx & Hhd & Hlk & Hpop).
  rewrite Hhd, Hlk. cbn [deref bind n_pkt n_next].
  eapply same_bind; [eapply same_packet; eassumption|].
  intros [[w1 p1] rc] [[w1' p1'] rc'] (<- & <- & b1 & Hb1 & Hq1 & ->).
  destruct (Hpop p1) as (L1 & H1 & s' & Hs' & H2 & Hlen & H3 & H4). cbv zeta.
  rewrite (get_bus_some _ _ Hb1). cbn [bind].
  destruct ((rc =? 0) || (rc =? - EMSGSIZE)) eqn:Erc.
  - rewrite L1. cbn [deref bind n_pkt n_next]. unfold pktbuf_free. cbn [bind]. apply s_emit.
    rewrite <- Hs'. assert (Hb2 : bget (set_bus w1 i (set_q b1 l)) i = Some (set_q b1 l)).
    { rewrite (bget_set_bus _ _ _ _ _ i Hb1), eqb_reflx. reflexivity. }
    destruct l as [|p2 l'].
    + specialize (H4 eq_refl). subst nx s'. cbn in Hn. assert (n = O) as -> by lia.
      cbn [send_loop ll_send_loop lq_head].
      rewrite (get_bus_some _ _ Hb2). cbn [bind set_q bus_q]. apply s_ret.
      exists (set_q b1 []). cbn [fst snd]. split; [exact Hb2|]. split; [|exact H2].
      cbn [set_q bus_eid bus_st]. rewrite set_bus_twice. reflexivity.
    + eapply IH; [|exact Hb2|cbn in Hn |- *; lia]. exists (set_q b1 (p2 :: l')).
      split; [exact Hb2|]. split; [|apply H3; discriminate].
      cbn [set_q bus_eid bus_st]. rewrite set_bus_twice. reflexivity.
  - apply s_ret. cbn [ll_cleanup lq_head]. exists (set_q b1 (p1 :: l)). cbn [fst snd].
    split; [rewrite (bget_set_bus _ _ _ _ _ i Hb1), eqb_reflx; reflexivity|]. split.
    + rewrite set_bus_twice. reflexivity.
    + rewrite <- Hhd. exact H1.
Qed.

Lemma set_bus_next (w : world B) b n :
  set_bus (set_m w (set_next (w_m w) n)) i b
  = set_m (set_bus w i b) (set_next (w_m (set_bus w i b)) n).
Proof. unfold set_bus. cbn [w_m set_m m_busses set_next]. destruct (m_busses (w_m w)); reflexivity. Qed.
Lemma bget_next (w : world B) n : bget (set_m w (set_next (w_m w) n)) i = bget w i.
Proof. reflexivity. Qed.

Lemma same_packetise fuel : forall w w' s src dest to tag mtu k msg, linked w w' s ->
  same linked2 (packetise fuel w i src dest to tag mtu k msg)
               (ll_packetise place fuel w' i s src dest to tag mtu k msg).
Proof.
  induction fuel as [|fuel IH]; intros w w' s src dest to tag mtu k msg Hl;
    destruct msg as [|c msg]; cbn [packetise ll_packetise]; try (now apply s_flt);
    try (now apply s_ret).
  destruct (linked_bnd _ _ _ i Hl) as (-> & _ & ->).
  eapply same_bind; [apply same_refl|]. intros o ? <-.
  eapply same_bind; [apply same_refl|]. intros pkt ? <-.
  eapply same_bind; [apply same_refl|]. intros pkt1 ? <-.
  eapply same_bind; [apply same_refl|]. intros pkt2 ? <-.
  destruct (linked_get _ _ _ Hl) as (b & _ & _ & Hb & Hb' & Hh & Hw').
  rewrite (get_bus_some (set_m w (set_next (w_m w) (m_next (w_m w) + 1))) b) by (rewrite bget_next; exact Hb).
  rewrite (get_bus_some (set_m w' (set_next (w_m w') (m_next (w_m w) + 1))) (set_q b []))
    by (rewrite bget_next; exact Hb').
  cbn [bind]. eapply same_bind; [apply same_refl|]. intros by1 ? <-. apply s_emit.
  destruct (append_holds place place_free s (bus_q b) pkt2 Hh) as (s' & -> & Hs'). cbn [bind].
  apply IH. exists (set_q b (bus_q b ++ [pkt2])). split; [|split].
  - erewrite bget_set_bus by (rewrite bget_next; exact Hb). rewrite eqb_reflx. reflexivity.
  - rewrite Hw', set_bus_twice, set_bus_next. reflexivity.
  - exact Hs'.
Qed.

Lemma linked_len w w' s b : linked w w' s -> bget w i = Some b ->
  length (lq_heap s) = length (bus_q b).
Proof.
  intros (b0 & Hb0 & _ & cells & Hm & _ & _ & _ & _ & Hlen & _) Hb. rewrite Hb in Hb0.
  injection Hb0 as <-. rewrite Hlen, <- Hm, map_length. reflexivity.
Qed.

Definition linked3 (x : world B * Z) (y : world B * lqueue * Z) : Prop :=
  linked2 (fst x) (fst y) /\ snd x = snd y.

Lemma same_message w w' s src dest to tag msg : linked w w' s ->
  same linked3 (message_tx_on_bus btx w i src dest to tag msg)
               (ll_message_tx_on_bus btx place w' i s src dest to tag msg).
Proof.
  intros Hl. destruct (linked_get _ _ _ Hl) as (b & G & G' & Hb & Hb' & Hh & Hw').
  destruct (linked_bnd _ _ _ i Hl) as (Hbn & _ & _).
  unfold message_tx_on_bus, ll_message_tx_on_bus. rewrite G, G'. cbn [bind].
  replace (bus_st (set_q b [])) with (bus_st b) by reflexivity.
  assert (Hm : same linked3
    (if negb (Z.land tag 7 =? tag) then Ret (w, - EINVAL) else
       let mtu := MCTP_BODY_SIZE (bd_pkt_size (bnd w i)) in
       _ <- assert_ (MCTP_BTU <=? mtu) ;;
       w1 <- packetise (length msg) w i src dest to tag mtu 0 msg ;;
       w2 <- send_tx_queue btx w1 i ;; Ret (w2, 0))
    (if negb (Z.land tag 7 =? tag) then Ret (w', s, - EINVAL) else
       let mtu := MCTP_BODY_SIZE (bd_pkt_size (bnd w' i)) in
       _ <- assert_ (MCTP_BTU <=? mtu) ;;
       '(w1, s1) <- ll_packetise place (length msg) w' i s src dest to tag mtu 0 msg ;;
       '(w2, s2) <- ll_send_loop btx (length (lq_heap s1)) w1 i s1 ;; Ret (w2, s2, 0))).
  { destruct (negb (Z.land tag 7 =? tag)); [apply s_ret; split; auto|]. cbv zeta. rewrite Hbn.
    eapply same_bind; [apply same_refl|]. intros [] ? _.
    eapply same_bind; [apply same_packetise; exact Hl|]. intros w1 [w1' s1] Hl1.
    unfold linked2 in Hl1. cbn [fst snd] in Hl1.
    destruct (linked_get _ _ _ Hl1) as (b1 & G1 & _ & Hb1 & _).
    rewrite (linked_len _ _ _ _ Hl1 Hb1).
    unfold send_tx_queue. rewrite G1. cbn [bind].
    eapply same_bind; [eapply same_send; eauto|]. intros w2 [w2' s2] Hl2.
    apply s_ret. split; auto. }
  destruct (bus_st b); [apply s_ret; split; auto|exact Hm|exact Hm].
Qed.

Lemma linked_set_st w w' s b x : linked w w' s -> bget w i = Some b ->
  linked (set_bus w i (set_st b x)) (set_bus w' i (set_st (set_q b []) x)) s.
Proof.
  intros (b0 & Hb0 & -> & Hh) Hb. rewrite Hb in Hb0. injection Hb0 as <-.
  exists (set_st b x). split; [|split; [|exact Hh]].
  - rewrite (bget_set_bus _ _ _ _ _ i Hb), eqb_reflx. reflexivity.
  - rewrite !set_bus_twice. reflexivity.
Qed.

Lemma same_settx w w' s en : linked w w' s ->
  same linked2 (set_tx_enabled btx w i en) (ll_set_tx_enabled btx w' i s en).
Proof.
  intros Hl. destruct (linked_get _ _ _ Hl) as (b & G & G' & Hb & Hb' & Hh & Hw').
  destruct (linked_bnd _ _ _ i Hl) as (Hbn & _ & _).
  unfold set_tx_enabled, ll_set_tx_enabled. apply s_emit. rewrite Hbn.
  destruct (negb (bd_bus (bnd w i))); [apply s_flt|]. rewrite G, G'. cbn [bind].
  replace (bus_st (set_q b [])) with (bus_st b) by reflexivity.
  destruct (bus_st b), en; cbn [negb]; try (apply s_ret; exact Hl);
    try (apply s_ret; apply linked_set_st; assumption).
  - destruct (bd_pkt_size (bnd w i) <? MCTP_PACKET_SIZE MCTP_BTU);
      [apply s_ret; exact Hl|apply s_ret; apply linked_set_st; assumption].
  - unfold send_tx_queue.
    assert (Hb2 : bget (set_bus w i (set_st b TxEnabled)) i = Some (set_st b TxEnabled)).
    { rewrite (bget_set_bus _ _ _ _ _ i Hb), eqb_reflx. reflexivity. }
    rewrite (get_bus_some _ _ Hb2). cbn [bind].
    rewrite (linked_len _ _ _ _ Hl Hb). eapply same_send; [|exact Hb2|reflexivity].
    apply linked_set_st; assumption.
Qed.

Lemma same_destroy : forall l s, holds s l ->
  same (fun _ s' => lq_heap s' = []) (free_packets l) (ll_destroy (length (lq_heap s)) s).
Proof.
  enough (H : forall l n s, n = length l ->
     (l <> [] -> holds s l) -> (l = [] -> lq_head s = None /\ lq_heap s = []) ->
     same (fun _ s' => lq_heap s' = []) (free_packets l) (ll_destroy n s)).
  { intros l s Hh. apply H; [|auto|].
    - destruct Hh as (cells & Hm & _ & _ & _ & _ & Hlen & _). rewrite Hlen, <- Hm, map_length. reflexivity.
    - intros ->. destruct Hh as (cells & Hm & Hc & _ & _ & _ & Hlen & _).
      destruct cells; [|discriminate Hm]. split; [exact Hc|]. now destruct (lq_heap s). }
  induction l as [|p l IH]; intros n s Hn H1 H2.
  - destruct (H2 eq_refl) as [Hhd Hhp]. subst n. cbn. rewrite Hhd. apply s_ret. exact Hhp.
  - subst n. cbn [length ll_destroy free_packets].
    destruct (pop_holds place _ _ _ (H1 ltac:(discriminate))) as (a & nx & Hhd & Hlk & Hpop).
    rewrite Hhd, Hlk. cbn [deref bind n_pkt n_next]. unfold pktbuf_free. cbn [bind]. apply s_emit.
    destruct (Hpop p) as (_ & _ & s' & Hs' & _ & Hlen & H3 & H4).
    assert (Hsame : store_node (lq_heap s) a (mkNode p nx) = lq_heap s).
    { clear -Hlk. induction (lq_heap s) as [|[x m] t IH]; [reflexivity|]. cbn [store_node look] in *.
      destruct (x =? a); [congruence|]. f_equal. auto. }
    rewrite Hsame in *. rewrite <- Hs'. apply IH; [reflexivity|exact H3|].
    intros ->. split; [rewrite Hs'; cbn; auto|]. rewrite Hs'. cbn [lq_heap]. now destruct (release (lq_heap s) a).
Qed.

(** ** Histories of calls *)

(** The calls through which the core touches the queue of a bus:
    mctp_message_tx_on_bus (from mctp_message_tx, from a reply inside a receive
    callback, from bridging) and mctp_binding_set_tx_enabled. *)
Inductive qcall :=
| QMessage (src dest : Z) (to : bool) (tag : Z) (msg : list Z)
| QSetTx (enable : bool).

Fixpoint list_calls (w : world B) (l : list qcall) : prog (world B) :=
  match l with
  | [] => Ret w
  | QMessage src dest to tag msg :: t =>
      '(w', rc) <- message_tx_on_bus btx w i src dest to tag msg ;;
      Emit (EvRet rc) (list_calls w' t)
  | QSetTx en :: t => w' <- set_tx_enabled btx w i en ;; list_calls w' t
  end.
Fixpoint linked_calls (w : world B) (s : lqueue) (l : list qcall) : prog (world B * lqueue) :=
  match l with
  | [] => Ret (w, s)
  | QMessage src dest to tag msg :: t =>
      '(w', s', rc) <- ll_message_tx_on_bus btx place w i s src dest to tag msg ;;
      Emit (EvRet rc) (linked_calls w' s' t)
  | QSetTx en :: t => '(w', s') <- ll_set_tx_enabled btx w i s en ;; linked_calls w' s' t
  end.

Lemma same_calls l : forall w w' s, linked w w' s ->
  same linked2 (list_calls w l) (linked_calls w' s l).
Proof.
  induction l as [|[src dest to tag msg|en] t IH]; intros w w' s Hl; cbn [list_calls linked_calls].
  - apply s_ret. exact Hl.
  - eapply same_bind; [apply same_message; exact Hl|].
    intros [w1 rc] [[w1' s1] rc'] [H1 H2]. cbn in H2. subst rc'. apply s_emit. apply IH. exact H1.
  - eapply same_bind; [apply same_settx; exact Hl|]. intros w1 [w1' s1] H1. apply IH. exact H1.
Qed.

Definition empty_queue : lqueue := mkLq [] None None.

(** C58.  A bus starts with an empty queue.  For every binding, every allocator
    placement, every sequence of messages and enable/disable calls and every
    behaviour of the environment, the linked list and the list produce the same
    events (packets offered to the binding, released, ...), the same results and
    the same faults if any, in the same order -- so the linked list is never
    followed through a released packet -- and at the end the list still holds
    exactly the pending packets: [next] pointers, head and tail are consistent,
    and no packet is lost on the heap. *)
Theorem C58_linked w b l e :
  bget w i = Some b -> bus_q b = [] ->
  agree (fun w1 x => exists b1, bget w1 i = Some b1 /\ holds (snd x) (bus_q b1))
        (run e 0 [] (list_calls w l)) (run e 0 [] (linked_calls w empty_queue l)).
Proof.
  intros Hb Hq. assert (Hl : linked w w empty_queue).
  { exists b. split; [exact Hb|]. split.
    - symmetry. apply set_bus_same. rewrite Hb. destruct b; cbn in *; subst; reflexivity.
    - rewrite Hq. exists []. repeat split; try reflexivity; try constructor. auto. }
  pose proof (same_run _ _ _ _ _ (same_calls l _ _ _ Hl) e 0%nat []) as Hr.
  destruct (run e 0 [] (list_calls w l)) as [w1 n1 t1|f1 t1], (run e 0 [] (linked_calls w empty_queue l));
    cbn [agree] in *; auto.
  destruct Hr as (Hl1 & -> & ->). split; [|auto].
  destruct Hl1 as (b1 & Hb1 & _ & Hh). exists b1. auto.
Qed.

(** mctp_destroy releases every pending packet once, oldest first, and leaves
    nothing on the heap. *)
Theorem C58_destroy s l : holds s l -> forall e,
  exists s' , run e 0 [] (ll_destroy (length (lq_heap s)) s)
    = Done s' 0 (map (fun p => EvFree (pk_id p)) l) /\ lq_heap s' = [].
Proof.
  intros Hh e. pose proof (same_run _ _ _ _ _ (same_destroy l s Hh) e 0%nat []) as Hr.
  assert (Hf : forall l tr, run e 0 tr (free_packets l)
     = Done tt 0 (tr ++ map (fun p => EvFree (pk_id p)) l)).
  { clear. induction l as [|p l IH]; intros tr; cbn [free_packets map].
    - cbn. now rewrite app_nil_r.
    - unfold pktbuf_free. cbn [bind run]. rewrite IH, <- app_assoc. reflexivity. }
  rewrite Hf in Hr. cbn [app] in Hr.
  destruct (run e 0 [] (ll_destroy (length (lq_heap s)) s)); cbn [agree] in Hr; [|contradiction].
  destruct Hr as (Hh' & <- & <-). eauto.
Qed.

(** ** Re-entry from binding->tx *)

Definition sent (p : pktbuf) : event := EvTxCall i (pk_id p) (pk_data p).

Lemma reentrant_drain l : forall n s tr e, (length l <= n)%nat ->
  (l <> [] -> holds s l) -> (l = [] -> lq_head s = None /\ lq_heap s = []) ->
  exists s', run e 0 tr (reentrant_send place n i s None)
    = Done s' 0 (tr ++ flat_map (fun p => [sent p; EvFree (pk_id p)]) l) /\ lq_heap s' = [].
Proof.
  induction l as [|p l IH]; intros n s tr e Hn H1 H2.
  - destruct (H2 eq_refl) as [Hhd Hhp]. exists (ll_cleanup s).
    destruct n; cbn [reentrant_send]; rewrite Hhd; cbn [run flat_map]; rewrite app_nil_r;
      unfold ll_cleanup; rewrite Hhd; auto.
  - destruct n as [|n]; [cbn in Hn; lia|].
    destruct (pop_holds place _ _ _ (H1 ltac:(discriminate))) as (a & nx & Hhd & Hlk & Hpop).
    cbn [reentrant_send]. rewrite Hhd, Hlk. cbn [deref bind n_pkt n_next run].
    rewrite Hlk. cbn [deref bind n_pkt n_next run]. unfold pktbuf_free. cbn [bind run].
    destruct (Hpop p) as (_ & _ & s' & Hs' & _ & Hlen & H3 & H4).
    assert (Hsame : store_node (lq_heap s) a (mkNode p nx) = lq_heap s).
    { clear -Hlk. induction (lq_heap s) as [|[x m] t IH]; [reflexivity|]. cbn [store_node look] in *.
      destruct (x =? a); [congruence|]. f_equal. auto. }
    rewrite Hsame in *. rewrite <- Hs'.
    destruct (IH n s' ((tr ++ [sent p]) ++ [EvFree (pk_id p)]) e) as (s2 & Hr & Hh).
    + cbn in Hn. lia.
    + exact H3.
    + intros ->. split; [rewrite Hs'; cbn; auto|]. rewrite Hs'. cbn [lq_heap].
      now destruct (release (lq_heap s) a).
    + exists s2. split; [|exact Hh]. unfold sent in *. rewrite Hr. f_equal.
      rewrite <- !app_assoc. reflexivity.
Qed.

(** The property one would want: a transmit function that hands a packet to the
    core while it runs is served, whatever is queued. *)
Definition C59_wanted : Prop :=
  forall s p l r e, holds s (p :: l) ->
  exists s' n tr, run e 0 [] (reentrant_send place (length l + 3) i s (Some r)) = Done s' n tr.

(** C59.  It never is: for every queue content, the packet being transmitted is
    transmitted a second time by the inner call and released there; the outer call
    then reads its [next] pointer. *)
Theorem C59_reentry s p l r e : holds s (p :: l) ->
  run e 0 [] (reentrant_send place (length l + 3) i s (Some r))
  = Fault UseAfterFree (sent p :: flat_map (fun q => [sent q; EvFree (pk_id q)]) (p :: l ++ [r])).
Proof.
  intros Hh. destruct (pop_holds place _ _ _ Hh) as (a & nx & Hhd & Hlk & _).
  destruct (append_holds place place_free s _ r Hh) as (s1 & Ha & H1).
  replace (length l + 3)%nat with (S (length l + 2)) by lia. cbn [reentrant_send].
  rewrite Hhd, Hlk. cbn [deref bind n_pkt n_next run]. rewrite Ha. cbn [bind app].
  destruct (reentrant_drain ((p :: l) ++ [r]) (length l + 2) s1 [sent p] e) as (s2 & Hr & He).
  { cbn [app length]. rewrite app_length. cbn. lia. } { auto. } { discriminate. }
  assert (Hb : forall A C (q : prog A) (k : A -> prog C) tr, run e 0 tr (bind q k) =
     match run e 0 tr q with Done x n t => run e n t (k x) | Fault f t => Fault f t end).
  { clear. intros A C q k. generalize 0%nat at 1 2. revert k.
    induction q; intros k0 n0 tr; cbn [bind run]; auto.
    - destruct (in_window off len); auto.
    - destruct (in_window off (zlen bs)); auto. }
  rewrite Hb. unfold sent in *. rewrite Hr, He. cbn [look deref bind run]. reflexivity.
Qed.

Theorem C59_violated s p l : holds s (p :: l) -> ~ C59_wanted.
Proof.
  intros Hh W. destruct (W s p l p (mkEnv (fun _ => true) (fun _ _ => None) (fun _ => true)
    (fun _ _ => 0) (fun _ => 0)) Hh) as (s' & n & tr & Hr).
  rewrite (C59_reentry s p l p _ Hh) in Hr. discriminate Hr.
Qed.

End Sim.

(** ** Non-vacuity *)

(** An allocator that always reuses the lowest free address from 1. *)
Fixpoint lowest (n : nat) (a : Z) (h : heap) : Z :=
  match n with
  | O => a
  | S n' => match look h a with Some _ => lowest n' (a + 1) h | None => a end
  end.
(** ... and one that never reuses an address in use: one beyond the largest. *)
Definition beyond (h : heap) : Z := 1 + fold_right (fun x m => Z.max (fst x) m) 0 h.

Lemma beyond_free h : ~ In (beyond h) (map fst h).
Proof.
  assert (H : forall l a, In a (map fst l) -> a <= fold_right (fun (x : Z * node) m => Z.max (fst x) m) 0 l).
  { induction l as [|[x n] t IH]; cbn [map fst In fold_right]; [intros ? []|].
    intros a [<-|Hi]; [lia|]. specialize (IH _ Hi). lia. }
  intros Hi. apply H in Hi. unfold beyond in Hi. lia.
Qed.

Lemma lowest_free h : ~ In (lowest (length h) 1 h) (map fst h).
Proof.
  (* the addresses a, a+1, ... are pairwise different, so one of the first
     length h + 1 is free *)
  assert (Hgen : forall n a, (forall b, 1 <= b < a -> In b (map fst h)) -> 1 <= a ->
     Z.of_nat n + (a - 1) = Z.of_nat (length h) -> ~ In (lowest n a h) (map fst h)).
  { induction n as [|n IH]; intros a Hb Ha Hn; cbn [lowest].
    - intros Hi.
      assert (Hinc : incl (map (fun k => Z.of_nat k + 1) (seq 0 (S (length h)))) (map fst h)).
      { intros x Hx. apply in_map_iff in Hx as (k & <- & Hk). apply in_seq in Hk.
        destruct (Z.eq_dec (Z.of_nat k + 1) a) as [->|]; [exact Hi|]. apply Hb. lia. }
      apply NoDup_incl_length in Hinc.
      + rewrite !map_length, seq_length in Hinc. lia.
      + apply FinFun.Injective_map_NoDup; [intros x y E; lia|apply seq_NoDup].
    - destruct (look h a) eqn:El.
      + apply IH; [|lia|lia]. intros b Hbb. destruct (Z.eq_dec b a) as [->|]; [eapply look_in; eauto|].
        apply Hb. lia.
      + intros Hi. apply in_look in Hi as [m Hm]. congruence. }
  apply Hgen; [intros; lia|lia|lia].
Qed.
