(** PropLife: life cycle (C20). *)
From Coq Require Import Permutation.
From Verif Require Import Base Lists Prog PktBuf Core WP Walk CoreRel WalkCore CoreHist Spec Trace PropTx.

Lemma run_bind A C (p : prog A) (k : A -> prog C) e : forall n tr,
  run e n tr (bind p k) =
  match run e n tr p with
  | Done x n' tr' => run e n' tr' (k x)
  | Fault x tr' => Fault x tr'
  end.
Proof.
  induction p as [a|x|r k' IH|r v k' IH|o len k' IH|o bs k' IH|bs k' IH|k' IH|ev k' IH]; intros n tr;
    cbn [bind run]; try reflexivity; try apply IH.
  - destruct (in_window o len); [apply IH|reflexivity].
  - destruct (in_window o (zlen bs)); [apply IH|reflexivity].
Qed.

Lemma run_exec_app B (btx : B -> pktbuf -> prog (B * pktbuf * Z * bool)) bst app e l1 l2 : forall w n tr,
  run e n tr (exec btx bst app w (l1 ++ l2)) =
  match run e n tr (exec btx bst app w l1) with
  | Done w' n' tr' => run e n' tr' (exec btx bst app w' l2)
  | Fault x tr' => Fault x tr'
  end.
Proof.
  induction l1 as [|o l1 IH]; intros w n tr; [reflexivity|]. cbn [List.app exec].
  rewrite !run_bind. destruct (run e n tr (exec_op btx bst app w o)); [apply IH|reflexivity].
Qed.

Section Life.
Context {B : Type} (f : txfun B) (s : startfun B) (appl : event -> list txreq).
Context (m : mode) (b0 b1 : binding B).
Notation world := (world B).

Lemma run_free_packets e n q : forall tr,
  run e n tr (free_packets q) = Done tt n (tr ++ map (fun p => EvFree (pk_id p)) q).
Proof.
  induction q as [|p q IH]; intros tr; cbn [free_packets map]; [now rewrite app_nil_r|].
  cbn [pktbuf_free bind run]. rewrite IH, <- app_assoc. reflexivity.
Qed.

Lemma run_free_ctx_bufs e n tr cs : Forall wf_ctx cs ->
  exists cs', run e n tr (free_ctx_bufs cs) = Done cs' n tr /\ Forall (fun c => c_buf c <> PLive) cs'.
Proof.
  induction 1 as [|c cs [Hb _ _] _ IH]; cbn [free_ctx_bufs]; [exists []; auto|].
  destruct IH as (cs' & Hr & Hf).
  assert (exists c', (match c_buf c with
             | PNull => Ret c | PLive => Ret (ctx_set_buf c PFreed (c_alloc c)) | PFreed => Flt DoubleFree
             end) = Ret c' /\ c_buf c' <> PLive) as (c' & -> & Hc').
  { destruct (c_buf c) eqn:E; [exists c|eexists|contradiction]; split; try reflexivity; cbn; congruence. }
  cbn [bind]. rewrite run_bind, Hr. cbn [run]. exists (c' :: cs'). split; [reflexivity|]. constructor; assumption.
Qed.

Lemma frees_packets q : frees (map (fun p => EvFree (pk_id p)) q) = map pk_id q.
Proof. unfold frees. induction q as [|p q IH]; [reflexivity|]. cbn. now rewrite IH. Qed.
Lemma allocs_packets q : allocs (map (fun p => EvFree (pk_id p)) q) = [].
Proof. unfold allocs. induction q as [|p q IH]; [reflexivity|exact IH]. Qed.

Lemma run_destroy e n tr (w : world) : WF Strict w ->
  exists w' t, run e n tr (destroy w) = Done w' n (tr ++ t) /\ allocs t = [] /\
    Permutation (frees t) (map fst (queued w false) ++ map fst (queued w true)) /\
    Forall (fun c => c_buf c <> PLive) (m_ctxs (w_m w')) /\ m_busses (w_m w') = BFreed /\ m_dead (w_m w') = true.
Proof.
  intros Hw. unfold destroy. destruct (run_free_ctx_bufs e n tr _ (wf_ctxs _ _ Hw)) as (cs & Hcs & Hf).
  rewrite run_bind, Hcs, run_bind.
  pose proof (wf_nb _ _ Hw) as Hnb. pose proof (wf_b0 _ _ Hw) as H0. pose proof (wf_b1 _ _ Hw) as H1.
  unfold bget in H0, H1. unfold queued.
  destruct (m_busses (w_m w)) as [|l|] eqn:El; try congruence.
  destruct l as [|x0 l]; [cbn in H0; congruence|].
  assert (map fst (map (fun p => (pk_id p, match pktbuf_bytes p with Some x => x | None => [] end)) (bus_q x0))
          = map pk_id (bus_q x0)) as E0 by now rewrite map_map.
  destruct (m_policy (w_m w)) eqn:Ep.
  - rewrite Hnb. change (Z.to_nat 1) with 1%nat. cbn [destroy_busses]. rewrite El. cbn [nth_error deref bind].
    rewrite run_bind, run_free_packets. cbn [run].
    assert (l = []) as ->.
    { destruct l as [|x1 l]; [reflexivity|]. exfalso.
      assert (RouteEndpoint = RouteBridge) as E; [|discriminate]. apply H1. cbn. discriminate. }
    eexists _, _. split; [reflexivity|]. rewrite frees_packets. split; [apply allocs_packets|].
    split; [cbn [nth_error]; rewrite E0, app_nil_r; reflexivity|].
    split; [exact Hf|]. split; reflexivity.
  - rewrite Hnb. change (Z.to_nat 2) with 2%nat. cbn [destroy_busses]. rewrite El.
    destruct l as [|x1 l]; [exfalso; apply (proj2 H1 eq_refl); reflexivity|].
    cbn [nth_error deref bind]. rewrite run_bind, run_free_packets. rewrite run_bind, run_free_packets. cbn [run].
    eexists _, _. split; [rewrite <- app_assoc; reflexivity|]. rewrite allocs_app, frees_app.
    rewrite !frees_packets, !allocs_packets. split; [reflexivity|]. cbn [nth_error].
    rewrite E0, map_map. split; [apply Permutation_app_comm|].
    split; [exact Hf|]. split; reflexivity.
Qed.

(** Registration, any traffic, mctp_destroy: every object is released, once. *)
Theorem C20_destroy l : legal f s m b0 b1 l ->
  always no_oom (xops f s appl (fresh b0 b1) (boot_op m :: l ++ [OpDestroy])) (fun w tr =>
    NoDup (frees tr) /\ Permutation (allocs tr) (frees tr) /\
    Forall (fun c => c_buf c <> PLive) (m_ctxs (w_m w)) /\ m_busses (w_m w) = BFreed /\ m_dead (w_m w) = true).
Proof.
  intros Hl e He. unfold xops.
  change (boot_op m :: l ++ [OpDestroy]) with ((boot_op m :: l) ++ [@OpDestroy B]).
  rewrite run_exec_app.
  pose proof (C13_buffers f s appl m b0 b1 l Hl e He) as H13.
  pose proof (history_spec f s appl m b0 b1 l Hl e He) as Hsp.
  unfold history, xops in H13, Hsp.
  destruct (run e 0 [] _) as [w n tr|]; [|contradiction].
  destruct H13 as (_ & Hna & Hnf & Hp & _). destruct Hsp as (t0 & w0 & t & _ & _ & _ & Hw).
  cbn [exec]. rewrite run_bind. unfold exec_op. rewrite (wf_dead _ _ Hw).
  destruct (run_destroy e n tr w Hw) as (w' & t' & Hr & Ha & Hf & Hc & Hb & Hd). rewrite Hr. cbn [run].
  rewrite allocs_app, frees_app, Ha, app_nil_r.
  assert (Permutation (allocs tr) (frees tr ++ frees t')) as Hp'.
  { rewrite Hp. apply Permutation_app_head. now symmetry. }
  split; [eapply Permutation_NoDup; eassumption|]. auto.
Qed.

(** If binding->start fails the registration is undone: the object is as new and
    the binding is detached (only its private state may have changed). *)
Theorem C20_failed_start eid :
  bd_has_start b0 = true -> bd_bus b0 = false -> snd (fst (s (bd_priv b0))) < 0 ->
  always no_oom (xop f s appl (fresh b0 b1) (OpRegister eid)) (fun w tr =>
    w = fresh (set_priv b0 (fst (fst (s (bd_priv b0))))) b1 /\
    In (EvRet (snd (fst (s (bd_priv b0))))) tr).
Proof.
  intros Hst Hbd Hrc. apply adv_always. unfold xop, exec_op. cbn [fresh w_m mctp_init m_dead].
  unfold register_bus. cbn [w_m fresh mctp_init m_nb Z.eqb assert_ bind wp h_alloc adv].
  split; [|cbn; discriminate]. cbn [negb bind wp h_emit adv].
  set (w1 := set_bnd _ false _).
  assert (bd_has_start (bnd w1 false) = true) as E1 by exact Hst. rewrite E1.
  assert (bd_priv (bnd w1 false) = bd_priv b0) as E2 by reflexivity. rewrite E2.
  destruct (s (bd_priv b0)) as [[b' rc] en] eqn:Es. unfold scripted_start. rewrite Es. cbn [bind fst snd] in *.
  set (w2 := set_bnd w1 false _).
  assert (forall w3 g, (w3 = w2 \/ w3 = set_bus w2 false (set_st (mkBus eid Constructed []) TxEnabled)) ->
    wp (adv no_oom)
      (if rc <? 0 then Emit EvDetach (let w4 := set_bnd w3 false (set_bdbus (bnd w3 false) false) in
          Ret (set_m w4 (set_busses (w_m w4) 0 BNull), rc)) else Ret (w3, rc)) g
      (fun x g => wp (adv no_oom) (let '(w', rc0) := x in Emit (EvRet rc0) (Ret w')) g
      (fun w tr => w = fresh (set_priv b0 b') b1 /\ In (EvRet rc) tr))) as Hend.
  { intros w3 g Hw3. replace (rc <? 0) with true by lia. cbn [bind wp h_emit adv].
    split; [|apply in_or_app; right; left; reflexivity].
    assert (set_bdbus (set_priv (set_bdbus b0 true) b') false = set_priv b0 b') as Eb.
    { destruct b0. cbn in *. subst. reflexivity. }
    destruct Hw3 as [-> | ->]; unfold fresh; rewrite <- Eb; reflexivity. }
  eapply wp_bind; [apply adv_mono|]. destruct en.
  - eapply wp_bind; [apply adv_mono|].
    eapply (set_tx_first f no_oom w2 false (mkBus eid Constructed [])); [reflexivity|reflexivity|reflexivity|].
    apply Hend. destruct (_ <? 68); auto.
  - cbn [bind]. apply (Hend w2). auto.
Qed.
End Life.
