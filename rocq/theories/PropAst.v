(** PropAst: safety of the astlpc binding against an arbitrary peer (C35). *)
From Verif Require Import Base Lists Prog PktBuf Core WP Walk CoreRel WalkCore CoreHist Crc Astlpc SpecAst AstBasic
  AstWalk Concrete.

Local Notation world := (world astlpc).

(** A freshly registered world, whatever the binding's state. *)
Definition registered (bmc : bool) (mtu eid : Z) (x : astlpc) : world :=
  set_bnd (set_bnd (set_m (astlpc_world bmc mtu)
    (set_policy (set_busses mctp_init 1 (BLive [mkBus eid Constructed []])) RouteEndpoint))
    false (set_bdbus (astlpc_init bmc mtu) true)) false (set_priv (set_bdbus (astlpc_init bmc mtu) true) x).

Lemma wf_ctx0 : wf_ctx ctx0.
Proof. constructor; cbn; try lia; auto. Qed.

Lemma WF_registered bmc mtu eid x : u32 mtu -> WF Lax (registered bmc mtu eid x).
Proof.
  intros Hu. unfold u32 in Hu.
  assert (68 <= bd_pkt_size (astlpc_init bmc mtu) < 2 ^ 33) as Hp.
  { cbn. unfold MCTP_PACKET_SIZE, MCTP_BTU. destruct (64 <? mtu) eqn:E; lia. }
  constructor; try reflexivity; try (cbn; lia).
  - discriminate.
  - split; [intros H; now destruct H|discriminate].
  - intros i b. destruct i; [discriminate|reflexivity].
  - intros i b. destruct i; [discriminate|]. intros [= <-]. constructor.
  - intros i b. destruct i; [discriminate|]. intros _ _. exact (proj1 Hp).
  - intros i. unfold dims_ok. destruct i; cbn in *; lia.
  - apply Forall_forall. intros c Hc. apply repeat_spec in Hc. subst c. apply wf_ctx0.
  - change (0 <= MCTP_MAX_MESSAGE_SIZE < 2 ^ 64). unfold MCTP_MAX_MESSAGE_SIZE. lia.
Qed.

Definition init_ast (bmc : bool) (mtu : Z) : astlpc :=
  mkAst bmc (mkLayout (mkBuf 0 0 Idle) (mkBuf 0 0 Idle)) mtu None 0.

(** Registration: what the binding's start function leaves. *)
Lemma wp_ast_register app a (bmc : bool) mtu eid (Q : world -> list event -> Prop) : may_oom a = false ->
  wp (adv a) (if bmc then start_bmc (init_ast bmc mtu) else init_host (init_ast bmc mtu)) [EvAttach false eid]
     (fun r g => if snd r <? 0 then forall w, bd_bus (bnd w false) = false -> Q w (g ++ [EvDetach] ++ [EvRet (snd r)])
                 else Q (registered bmc mtu eid (fst r)) (g ++ [EvRet (snd r)])) ->
  wp (adv a) (ast_register app bmc mtu eid) [] Q.
Proof.
  intros Ha Hs. unfold ast_register, aexec_op, exec_op, astlpc_world, register_bus.
  cbn [w_m mctp_init m_dead m_nb Z.eqb assert_ bind wp h_alloc adv negb].
  split; [|rewrite Ha; discriminate]. cbn [negb bind wp h_emit adv Datatypes.app].
  set (w1 := set_bnd _ false _). change (bd_has_start (bnd w1 false)) with true. cbv iota.
  change (bd_priv (bnd w1 false)) with (init_ast bmc mtu). unfold astlpc_start.
  change (a_bmc (init_ast bmc mtu)) with bmc.
  apply wp_bind; [apply adv_mono|]. apply wp_bind; [apply adv_mono|]. apply wp_bind; [apply adv_mono|].
  eapply wp_mono; [apply adv_mono| |exact Hs].
  intros [x rc] g Hr. cbn [wp fst snd bind] in *. destruct (rc <? 0); cbn [wp h_emit adv].
  - rewrite <- app_assoc. apply Hr. reflexivity.
  - exact Hr.
Qed.

Lemma sane_kv : kv_host sane_bmc.
Proof.
  intros u. cbn [kval_ok sane_bmc]. unfold cmd_initialise. split; [lia|].
  intros H1 H2. rewrite H2 in H1. exact H1.
Qed.
Lemma ast_oom bmc : may_oom (ast_assm bmc) = false.
Proof. destruct bmc; reflexivity. Qed.
Lemma ast_kv bmc : bmc = false -> kv_host (ast_assm bmc).
Proof. intros ->. apply sane_kv. Qed.

(** Every history of a registered binding keeps the invariant. *)
Lemma wp_hist_bmc app mtu eid l : usable_mtu mtu -> Forall ast_traffic l ->
  wp (adv no_oom) (ast_history app true mtu eid l) [] (fun w _ => bd_bus (bnd w false) = true -> Inv true w).
Proof.
  intros Hus Hl. assert (u32 mtu) as Hu by (unfold u32, usable_mtu in *; lia).
  unfold ast_history. apply wp_bind; [apply adv_mono|].
  apply wp_ast_register; [reflexivity|]. cbv iota.
  destruct (init_bmc_usable (init_ast true mtu) mtu eq_refl eq_refl Hu Hus) as [E V]. cbn zeta in E, V.
  rewrite E. cbn [wp h_lwrite adv]. split; [reflexivity|].
  apply wp_bind; [apply adv_mono|]. apply wp_set_status. intros rc g _. cbn [wp fst snd].
  destruct (rc <? 0) eqn:Er; [intros w Eb; rewrite Eb; cbn [wp]; rewrite Eb; discriminate|]. cbn [bnd registered set_bnd set_priv bd_bus set_bdbus w_b0].
  eapply wp_mono; [apply adv_mono| |eapply (wp_aexec app no_oom true)]; [auto|reflexivity|discriminate| |exact Hl].
  split; [apply WF_registered; exact Hu|]. split; [reflexivity|].
  assert (bmclay (a_layout (a_set_layout (a_set_proto (init_ast true mtu) 3)
    (mkLayout (mkBuf (256 + (bmc_mtu mtu + 12)) (bmc_mtu mtu + 12) Idle) (mkBuf 256 (bmc_mtu mtu + 12) Idle))))) as Hlay.
  { exists (bmc_mtu mtu + 12). cbn [a_layout a_set_layout ly_tx ly_rx ab_off ab_size].
    unfold bmc_mtu, usable_mtu in *. destruct (mtu =? 0) eqn:E0; lia. }
  unfold u32, usable_mtu in *.
  constructor; try reflexivity.
  - cbn. unfold MCTP_PACKET_SIZE, MCTP_BTU. destruct (64 <? mtu) eqn:E0; lia.
  - cbn. lia.
  - exists 3. split; [reflexivity|]. split; [lia|discriminate].
  - intros _. apply bmc_goodlay. exact Hlay.
  - discriminate.
  - discriminate.
  - intros _. split; [exact Hus|exact Hlay].
Qed.

Lemma wp_hist_host app mtu eid l : 0 <= mtu <= 2 ^ 32 - 13 -> Forall ast_traffic l ->
  wp (adv sane_bmc) (ast_history app false mtu eid l) [] (fun w _ => bd_bus (bnd w false) = true -> Inv false w).
Proof.
  intros Hm Hl. assert (u32 mtu) as Hu by (unfold u32; lia).
  unfold ast_history. apply wp_bind; [apply adv_mono|].
  apply wp_ast_register; [reflexivity|]. cbv iota.
  eapply wp_mono; [apply adv_mono| |apply (wp_init_host sane_bmc false eq_refl (fun _ => sane_kv)); [reflexivity|exact Hm]].
  intros [x rc] g (k & Hx). cbn [fst snd] in *.
  destruct (rc <? 0) eqn:Er; [intros w Eb; rewrite Eb; cbn [wp]; rewrite Eb; discriminate|].
  destruct Hx as [[N _]|(v & Hv & ->)]; [lia|].
  cbn [bnd registered set_bnd set_priv bd_bus set_bdbus w_b0].
  eapply wp_mono; [apply adv_mono| |eapply (wp_aexec app sane_bmc false eq_refl (fun _ => sane_kv))]; [auto| |exact Hl].
  split; [apply WF_registered; exact Hu|]. split; [reflexivity|].
  constructor; try reflexivity.
  - cbn. unfold MCTP_PACKET_SIZE, MCTP_BTU. destruct (64 <? mtu) eqn:E0; lia.
  - exact Hm.
  - exists v. split; [reflexivity|]. split; [exact Hv|discriminate].
  - intros [N|[N|N]]; [now destruct N|now destruct N|discriminate].
  - intros _ [N|[N|N]]; discriminate.
  - discriminate.
  - discriminate.
Qed.

Lemma reach_inv app bmc mtu eid l e n tr w : ast_reach app bmc mtu eid l e n tr w -> Inv bmc w.
Proof.
  intros (Hm & Hl & He & Hr & Hb).
  assert (wp (adv (ast_assm bmc)) (ast_history app bmc mtu eid l) []
            (fun w _ => bd_bus (bnd w false) = true -> Inv bmc w)) as Hw.
  { destruct bmc; [now apply wp_hist_bmc|now apply wp_hist_host]. }
  destruct (adv_sound _ _ _ e 0%nat [] _ He Hw) as (x & n' & tr' & Hr' & HQ).
  rewrite Hr in Hr'. injection Hr' as <- <- <-. auto.
Qed.

(** ** C35 *)

(** The BMC: whatever the peer does, at every access, nothing goes wrong. *)
Theorem C35_bmc app mtu eid l : usable_mtu mtu -> Forall ast_traffic l ->
  always no_oom (ast_history app true mtu eid l) (fun _ _ => True).
Proof.
  intros Hus Hl. apply adv_always. eapply wp_mono; [apply adv_mono| |now apply wp_hist_bmc]. auto.
Qed.

(** The host, for every peer that never sends it Initialise and shows channel-active
    only together with bmc-ready. *)
Theorem C35_host app mtu eid l : 0 <= mtu <= 2 ^ 32 - 13 -> Forall ast_traffic l ->
  always sane_bmc (ast_history app false mtu eid l) (fun _ _ => True).
Proof.
  intros Hus Hl. apply adv_always. eapply wp_mono; [apply adv_mono| |now apply wp_hist_host]. auto.
Qed.

(** ** The host against any BMC: two ways to crash it *)

(** The window as a BMC with 4096-byte packets publishes it, with the host's versions
    and a negotiated version 3 in place. *)
Definition hdr_window : list Z := Eval vm_compute in
  be32 1296258128 ++ be16 1 ++ be16 3 ++ be16 1 ++ be16 3 ++ be16 3 ++ be16 0
  ++ be32 256 ++ be32 4108 ++ be32 4364 ++ be32 4108.
Definition hdr_mem (_ : nat) (off : Z) : Z := nth (Z.to_nat off) hdr_window 0.
(** KCS reads: what the [n]-th effect sees. *)
Definition kcs_env (ks : nat -> Z) : env :=
  mkEnv (fun _ => true) (fun n _ => Some (ks n)) (fun _ => true) hdr_mem (fun _ => 1).
Lemma kcs_env_ok ks : env_ok no_oom (kcs_env ks).
Proof. repeat split; discriminate. Qed.

Lemma by_fault {X} a e (p : prog X) f : env_ok a e ->
  match run e 0 [] p with Fault f' _ => f' = f | _ => False end -> can_fault a p f.
Proof.
  intros He. unfold can_fault. destruct (run e 0 [] p) as [x n tr|f' tr] eqn:E; [intros []|].
  intros <-. eauto.
Qed.

(** The BMC sends Initialise to the host: an assertion fails. *)
Theorem C35_host_initialise : can_fault no_oom (ast_history no_app false 64 9 [APoll false]) AssertFail.
Proof.
  apply (by_fault _ (kcs_env (fun n => if Nat.ltb n 8 then 128 else if Nat.eqb n 8 then 129 else 0)));
    [apply kcs_env_ok|]. vm_compute. reflexivity.
Qed.

(** The BMC shows channel-active without bmc-ready, then bmc-ready: the host's next
    transmission calls a null function pointer. *)
Theorem C35_host_null_op :
  let l := [APoll false; APoll false; ACore (OpTx 8 true 0 [1; 2; 3])] in
  Forall ast_traffic l /\ can_fault no_oom (ast_history no_app false 64 9 l) NullDeref.
Proof.
  split; [repeat constructor|].
  apply (by_fault _ (kcs_env (fun n => nth n [0; 128; 0; 0; 0; 0; 0; 0; 65; 255; 0; 0; 193; 255; 193] 0)));
    [apply kcs_env_ok|]. vm_compute. reflexivity.
Qed.

(** Histories exist in which the channel comes up and packets are sent: the theorems
    are not about registrations that fail. *)
Example C35_case :
  let l := [APoll false; ACore (OpTx 8 true 0 [1; 2; 3])] in
  (0 <= 64 <= 2 ^ 32 - 13) /\ Forall ast_traffic l /\
  can_finish sane_bmc (ast_history no_app false 64 9 l) (fun w tr =>
    ost w false = Some TxDisabled /\ In (EvKWrite KData 1 true) tr).
Proof.
  cbv zeta. split; [lia|]. split; [repeat constructor|].
  apply (by_run _ (kcs_env (fun n => nth n [128; 128; 128; 128; 128; 128; 128; 128; 193; 255] 192))).
  - split; [reflexivity|]. split; [discriminate|]. split; [|discriminate].
    intros n r v. cbn [e_kread kcs_env kread_val]. intros [= <-]. cbn [kval_ok sane_bmc].
    do 20 (destruct n as [|n]; [destruct r; reflexivity|]). destruct r; reflexivity.
  - vm_compute. split; [reflexivity|]. repeat (try (left; reflexivity); right).
Qed.
