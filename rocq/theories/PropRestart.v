(** PropRestart: C72, what brings an astlpc channel back after a crash and what does not. *)
From Verif Require Import Base Lists Prog PktBuf Core WP Walk CoreHist Crc Astlpc SpecAst AstBasic AstWalk PropAst AstDown Concrete
  TwoParty DuoInv PropDuo SpecLive ExamplesDuo LostWakeup Lives PropLives ExamplesLives.

(** ** A cold restart *)

(** Only side [s] moves. *)
Inductive alone (s : bool) (d : duo) : duo -> Prop :=
| AlRefl : alone s d d
| AlStep d1 d2 : alone s d d1 -> dstep s d1 d2 -> alone s d d2.
(** Both sides have been killed and are started again as [p]. *)
Definition cold (p : bool -> party) (d : duo) : duo :=
  mkDuo (d_sh d) (fun s => boot s (p s)) (fun _ => []).

Fixpoint turns (n : nat) (s : bool) (d : duo) : duo := match n with O => d | S n' => turn s (turns n' s d) end.

Lemma alone_turns s d d' : alone s d d' -> exists n, d' = turns n s d.
Proof.
  induction 1 as [|d1 d2 _ (n & ->) (sh & p & t & Ea & ->)]; [now exists O|]. exists (S n). cbn [turns]. unfold turn. now rewrite Ea.
Qed.
Lemma turns_more n m s d : turns (n + m) s d = turns n s (turns m s d).
Proof. induction n as [|n IH]; cbn [turns Nat.add]; [reflexivity|now rewrite IH]. Qed.
Lemma turns_ret n s d w : d_prog d s = Ret w -> turns n s d = d.
Proof. intros E. induction n as [|n IH]; cbn [turns]; [reflexivity|]. rewrite IH. unfold turn. now rewrite E. Qed.
Lemma turns_moves n s p d p1 d1 : moves p d p1 d1 -> moves p d p1 (turns n s d1).
Proof.
  intros H. induction n as [|n IH]; cbn [turns]; [exact H|]. unfold turn at 1. destruct (advance _ _ _) as [[[sh r] t]|] eqn:Ea; [|exact IH].
  eapply MvStep; [exact IH|]. exists sh, r, t. split; [exact Ea|reflexivity].
Qed.

(** What the registration of the BMC does. *)
Lemma boot_shape q : usable_mtu (p_mtu q) -> exists k0 e bs k1 k2 e2 w, zlen bs = 32 /\
  boot true q = Malloc k0 /\ k0 true = Emit e (LWrite 0 bs (KWrite KStatus 128 k1)) /\
  k1 true = KWrite KData 255 k2 /\ k2 true = Emit e2 (Ret w).
Proof.
  intros Hu. assert (0 <= p_mtu q < 2 ^ 32) as Hm by (unfold usable_mtu in Hu; lia).
  destruct (init_bmc_usable (init_ast true (p_mtu q)) (p_mtu q) eq_refl eq_refl Hm Hu) as [E _]. cbn zeta in E.
  unfold boot, ast_history, ast_register, aexec_op, exec_op, astlpc_world, register_bus.
  cbn [w_m mctp_init m_dead m_nb Z.eqb assert_ bind negb].
  do 2 eexists. exists (published (bmc_mtu (p_mtu q) + 12)). do 4 eexists. split; [reflexivity|]. split; [reflexivity|]. cbn beta. cbn [negb bind].
  set (w1 := set_bnd _ false _). change (bd_has_start (bnd w1 false)) with true. cbv iota.
  change (bd_priv (bnd w1 false)) with (init_ast true (p_mtu q)). unfold astlpc_start.
  change (a_bmc (init_ast true (p_mtu q))) with true. cbv iota. rewrite E. unfold kcs_set_status. cbn [bind].
  split; [reflexivity|]. cbn beta. cbn [negb bind]. split; [reflexivity|]. cbn beta. cbn [negb bind Z.ltb Z.compare].
  match goal with |- context [bd_bus ?b] => change (bd_bus b) with true end. cbn [aexec]. reflexivity.
Qed.

(** After it the registers do not tell what they held before, except what the host has
    written. *)
Lemma turn_to s d sh r t : advance s (d_sh d) (d_prog d s) = Some (sh, r, t) ->
  turn s d = mkDuo sh (upd (d_prog d) s r) (upd (d_tr d) s (d_tr d s ++ t)).
Proof. intros E. unfold turn. now rewrite E. Qed.
Lemma boot_alone q P T mem kc kc' : usable_mtu (p_mtu q) -> P true = boot true q -> k_idr kc = k_idr kc' -> k_ibf kc = k_ibf kc' ->
  (exists w, d_prog (turns 6 true (mkDuo (mkShared kc mem) P T)) true = Ret w) /\
  turns 6 true (mkDuo (mkShared kc mem) P T) = turns 6 true (mkDuo (mkShared kc' mem) P T).
Proof.
  intros Hu HP E1 E2. destruct (boot_shape q Hu) as (k0 & e & bs & k1 & k2 & e2 & w & Hz & S0 & S1 & S2 & S3).
  rewrite S0 in HP.
  assert (in_window 0 (zlen bs) = true) as Hw by (rewrite Hz; reflexivity).
  assert (forall kc, turns 6 true (mkDuo (mkShared kc mem) P T) =
    let P1 := upd P true (k0 true) in let P2 := upd P1 true (LWrite 0 bs (KWrite KStatus 128 k1)) in
    let P3 := upd P2 true (KWrite KStatus 128 k1) in let P4 := upd P3 true (k1 true) in
    let P5 := upd P4 true (k2 true) in let P6 := upd P5 true (Ret w) in
    let more := fun T t => upd T true (T true ++ t) in
    mkDuo (mkShared (mkKcs (k_idr kc) 255 (k_ibf kc) true 128) (store mem 0 bs)) P6
      (more (more (more (more (more (more T []) [e]) [EvLWrite 0 bs]) [EvKWrite KStatus 128 true]) [EvKWrite KData 255 true]) [e2])) as H.
  { clear kc kc' E1 E2. intros kc. cbn zeta. cbn [turns].
    erewrite (turn_to true (mkDuo (mkShared kc mem) P T)) by (cbn [d_prog d_sh]; rewrite HP; cbn [advance]; reflexivity). cbn [d_prog d_sh d_tr].
    erewrite (turn_to true (mkDuo _ (upd P true _) _)) by (cbn [d_prog d_sh]; rewrite upd_same, S1; cbn [advance]; reflexivity). cbn [d_prog d_sh d_tr].
    erewrite (turn_to true (mkDuo _ (upd (upd P _ _) true _) _)) by (cbn [d_prog d_sh]; rewrite upd_same; cbn [advance]; rewrite Hw; reflexivity). cbn [d_prog d_sh d_tr s_kcs s_mem].
    erewrite (turn_to true (mkDuo _ (upd (upd (upd P _ _) _ _) true _) _)) by (cbn [d_prog d_sh]; rewrite upd_same; cbn [advance]; reflexivity). cbn [d_prog d_sh d_tr s_kcs s_mem].
    erewrite (turn_to true (mkDuo _ (upd (upd (upd (upd P _ _) _ _) _ _) true _) _)) by (cbn [d_prog d_sh]; rewrite upd_same, S2; cbn [advance]; reflexivity). cbn [d_prog d_sh d_tr s_kcs s_mem].
    erewrite (turn_to true (mkDuo _ (upd (upd (upd (upd (upd P _ _) _ _) _ _) _ _) true _) _)) by (cbn [d_prog d_sh]; rewrite upd_same, S3; cbn [advance]; reflexivity).
    reflexivity. }
  rewrite !H. cbn zeta. rewrite E1, E2. split; [exists w; cbn [d_prog]; apply upd_same|reflexivity].
Qed.

Definition fresh (q : party) : party := mkParty (p_app q) (p_mtu q) (p_eid q) [].

(** Whatever state the two sides, the registers and the window were left in: if both are
    started again, the BMC first, and no command of the host is pending, then the result is a
    state of a session as from power-on (so what holds of sessions holds from then on). *)
Theorem C72_cold_restart q d d1 w : let p := fun s => fresh (q s) in usable_mtu (p_mtu (p true)) ->
  k_ibf (s_kcs (d_sh d)) = false -> alone true (cold p d) d1 -> d_prog d1 true = Ret w -> session p d1.
Proof.
  intros p Hu Hi Ha Hr. apply alone_turns in Ha as (n & ->).
  destruct d as [[kc mem] P0 T0]. cbn [d_sh s_kcs] in Hi. unfold cold in *. cbn [d_sh] in *.
  set (P := fun s => boot s (p s)) in *.
  destruct (boot_alone (p true) P (fun _ => []) mem kc (mkKcs (k_idr kc) (k_odr kc) false false 0) Hu eq_refl eq_refl Hi) as [(w6 & E6) EE].
  set (D := mkDuo (mkShared kc mem) P (fun _ => [])) in *.
  assert (turns n true D = turns 6 true D) as ->.
  { rewrite <- (turns_ret 6 true (turns n true D) w Hr), <- (turns_ret n true (turns 6 true D) w6 E6).
    now rewrite <- !turns_more, Nat.add_comm. }
  rewrite EE. exists p, (k_idr kc), (k_odr kc), mem. split; [intros s; reflexivity|]. split; [exact Hu|]. apply turns_moves. apply MvRefl.
Qed.

(** ** A crash of the BMC *)

(** What can happen without a restart of the host and without an orderly shutdown of the
    BMC: accesses and calls of both sides, and more crashes of the BMC. *)
Inductive limps (p : bool -> party) (d : duo) : (bool -> party) -> duo -> Prop :=
| LiRefl : limps p d p d
| LiStep s p1 d1 d2 : limps p d p1 d1 -> dstep s d1 d2 -> limps p d p1 (bytewise d2)
| LiCall s o w p1 d1 : limps p d p1 d1 -> d_prog d1 s = Ret w -> bd_bus (bnd w false) = true ->
    ast_traffic o -> limps p d p1 (begin_call s w o p1 d1)
| LiCrash q p1 d1 : limps p d p1 d1 -> usable_mtu (p_mtu q) -> limps p d (upd p1 true q) (reborn true q d1).
Lemma limps_goes p d q e : limps p d q e -> goes ast_mtu p d q e.
Proof.
  induction 1 as [|s p1 d1 d2 _ IH H|s o w p1 d1 _ IH E Eb Ho|q p1 d1 _ IH Hq]; [apply GoRefl|..].
  - eapply GoStep; eassumption.
  - eapply GoCall; eassumption.
  - apply GoRestart; assumption.
Qed.

(** A BMC that is never asked to initialise the channel. *)
Definition hushed (e : event) : Prop :=
  match e with EvTxCall _ _ _ | EvBusRx _ _ _ _ | EvSetTx _ _ => False | EvKWrite KStatus v _ => v = 128 | _ => True end.
Fixpoint hush {A} (P : A -> Prop) (p : prog A) : Prop :=
  match p with
  | Ret a => P a
  | Flt _ => True
  | KRead r k => forall v, (r = KData -> v <> Some 0) -> hush P (k v)
  | KWrite r v k => (r = KStatus -> v = 128) /\ forall ok, hush P (k ok)
  | LRead _ _ k => forall bs, hush P (k bs)
  | LWrite _ _ k => hush P k
  | SWrite _ k => forall r, hush P (k r)
  | Malloc k => forall ok, hush P (k ok)
  | Emit e k => hushed e /\ hush P k
  end.
Lemma hush_bind {A B} (Q : A -> Prop) (P : B -> Prop) : forall (p : prog A) (f : A -> prog B),
  hush Q p -> (forall a, Q a -> hush P (f a)) -> hush P (bind p f).
Proof. induction p; intros F Hp Hf; cbn [bind hush] in *; auto; destruct Hp; auto. Qed.

Definition calm (w : world astlpc) : Prop := bd_bus (bnd w false) = true ->
  a_bmc (ast w false) = true /\ ab_st (a_rx (ast w false)) = Idle /\ ab_st (a_tx (ast w false)) = Idle /\
  forall b, bget w false = Some b -> bus_st b = Constructed.

Lemma hush_boot q : usable_mtu (p_mtu q) -> hush calm (boot true q).
Proof.
  intros Hu. assert (0 <= p_mtu q < 2 ^ 32) as Hm by (unfold usable_mtu in Hu; lia).
  destruct (init_bmc_usable (init_ast true (p_mtu q)) (p_mtu q) eq_refl eq_refl Hm Hu) as [E _]. cbn zeta in E.
  unfold boot, ast_history, ast_register, aexec_op, exec_op, astlpc_world, register_bus.
  cbn [w_m mctp_init m_dead m_nb Z.eqb assert_ bind negb hush].
  intros [|]; cbn [negb bind hush]; [|split; [exact I|]; intros N; discriminate N].
  split; [exact I|]. set (w1 := set_bnd _ false _). change (bd_has_start (bnd w1 false)) with true. cbv iota.
  change (bd_priv (bnd w1 false)) with (init_ast true (p_mtu q)). unfold astlpc_start.
  change (a_bmc (init_ast true (p_mtu q))) with true. cbv iota. rewrite E. unfold kcs_set_status. cbn [bind hush].
  split; [reflexivity|]. intros [|]; cbn [negb bind hush Z.ltb Z.compare].
  2:{ split; [exact I|]. split; [exact I|]. intros N. discriminate N. }
  split; [discriminate|]. intros [|]; cbn [negb bind hush Z.ltb Z.compare].
  2:{ split; [exact I|]. split; [exact I|]. intros N. discriminate N. }
  split; [exact I|]. match goal with |- hush _ (if bd_bus ?b then _ else _) => change (bd_bus b) with true end. cbn [aexec hush]. intros _.
  split; [reflexivity|]. split; [reflexivity|]. split; [reflexivity|]. intros b [= <-]. reflexivity.
Qed.
Lemma hush_bus m i (P : bus -> Prop) : (forall l b, m_busses m = BLive l -> nth_bus l i = Some b -> P b) -> hush P (get_bus m i).
Proof. intros H. unfold get_bus. destruct (m_busses m) as [| |l] eqn:E; try exact I. destruct (nth_bus l i) as [b|] eqn:Eb; [exact (H _ _ eq_refl Eb)|exact I]. Qed.
Lemma hush_call ap w o : bd_bus (bnd w false) = true -> ast_traffic o -> calm w -> hush calm (aexec_op ap w o).
Proof.
  intros Hb Ho Hc. pose proof (Hc Hb) as (C1 & C2 & C3 & C4). destruct o as [o|i]; cbn [aexec_op].
  - unfold exec_op. destruct (m_dead _); [exact I|]. destruct o; cbn [ast_traffic] in Ho; try contradiction; try exact Hc.
    apply hush_bind with (Q := fun r => fst r = w); [|intros [w1 rc] H; cbn [fst] in H; subst w1; split; [exact I|exact Hc]].
    unfold message_tx. destruct (negb _); [reflexivity|]. destruct (_ =? 0); [reflexivity|].
    apply hush_bind with (Q := fun _ => True); [apply hush_bus; auto|]. intros b0 _. unfold message_tx_on_bus.
    apply hush_bind with (Q := fun b => bus_st b = Constructed).
    + apply hush_bus. intros l b El Eb. apply C4. unfold bget. now rewrite El.
    + intros b ->. reflexivity.
  - cbn in Ho. subst i. destruct (m_dead _); [exact I|].
    apply hush_bind with (Q := fun r => calm (fst r)); [|intros [w1 rc] H; split; [exact I|exact H]].
    unfold poll, poll_release_rx, poll_release_tx. rewrite C2. cbn [bind]. rewrite C3. cbn [bind]. cbv zeta. set (w2 := put_ast w false (ast w false)).
    assert (calm w2) as Hc2 by exact Hc. assert (ast w2 false = ast w false) as Ea by reflexivity. clearbody w2.
    cbn [hush]. intros [st|] _; [|exact Hc2]. destruct (negb _); [exact Hc2|]. cbn [hush]. intros [x|] Hx; [|exact Hc2].
    unfold poll_dispatch. rewrite Ea. destruct (a_proto _); cbn [deref bind]; [|exact I]. destruct (_ && _); [exact Hc2|].
    assert (x <> 0) as Hx0 by (intros ->; apply (Hx eq_refl); reflexivity).
    unfold cmd_initialise. replace (x =? 0) with false by lia. rewrite C2, C3, C1.
    unfold poll_tail. rewrite Ea, C1. cbn [negb andb].
    destruct (x =? cmd_tx_begin); [exact Hc2|]. destruct (x =? cmd_rx_complete); [exact Hc2|]. destruct (x =? cmd_dummy_value); exact Hc2.
Qed.

Lemma okrun_ret {A} R W (P : A -> Prop) (p : prog A) : okrun R W P (bind p Ret) -> okrun R W P p.
Proof.
  induction p; cbn [bind okrun]; auto; try (intros [H1 H2]; split; auto; fail); try (intros H ?; auto; fail). 
Qed.

(** *** The invariant *)
Definition ibf_seen (g : list event) : Prop := exists st, In (EvKRead KStatus (Some st)) g /\ tst st 2 = true.
Record cinv (p : bool -> party) (d : duo) : Prop := mkCinv {
  ci_linv : linv p d;
  ci_up : k_up (s_kcs (d_sh d)) <> 0;
  ci_host : okrun upst handoff (fun w => bd_bus (bnd w false) = true -> sess w) (d_prog d false);
  ci_bmc : hush calm (d_prog d true);
  ci_tr : Forall hushed (d_tr d true);
  ci_idr : k_ibf (s_kcs (d_sh d)) = true -> k_idr (s_kcs (d_sh d)) <> 0;
  ci_seen : ibf_seen (d_tr d true) -> k_idr (s_kcs (d_sh d)) <> 0 }.

Lemma hush_advance A (P : A -> Prop) (p p' : prog A) sh sh' t : advance true sh p = Some (sh', p', t) -> hush P p ->
  answer_ok (fun r v => r = KData -> v <> 0) true sh p -> hush P p' /\ Forall hushed t.
Proof.
  intros Ha Hp Hk. destruct p as [x|f|r k|r v k|off len k|off bs k|bs k|k|e k]; cbn [advance hush answer_ok] in *; try discriminate.
  - destruct (kread true r (s_kcs sh)) as [v k'] eqn:E. injection Ha as <- <- <-. cbn [fst] in Hk.
    split; [apply Hp; intros -> [= ->]; now apply Hk|repeat constructor].
  - injection Ha as <- <- <-. destruct Hp as [H1 H2]. split; [apply H2|]. constructor; [|constructor]. destruct r; [exact I|exact (H1 eq_refl)].
  - destruct (in_window off len); injection Ha as <- <- <-; (split; [first [apply Hp|exact I]|repeat constructor]).
  - destruct (in_window off (zlen bs)); injection Ha as <- <- <-; (split; [first [apply Hp|exact I]|repeat constructor]).
  - injection Ha as <- <- <-. split; [apply Hp|repeat constructor].
  - injection Ha as <- <- <-. split; [apply Hp|constructor].
  - injection Ha as <- <- <-. destruct Hp as [H1 H2]. split; [exact H2|]. now constructor.
Qed.
Lemma okrun_advance A R W (P : A -> Prop) (p p' : prog A) sh sh' t : advance false sh p = Some (sh', p', t) -> okrun R W P p ->
  answer_ok (fun r v => R r (Some v)) false sh p ->
  okrun R W P p' /\ forall r v b, In (EvKWrite r v b) t -> W r v.
Proof.
  intros Ha Hp Hk. destruct p as [x|f|r k|r v k|off len k|off bs k|bs k|k|e k]; cbn [advance okrun answer_ok] in *; try discriminate.
  - destruct (kread false r (s_kcs sh)) as [v k'] eqn:E. injection Ha as <- <- <-. cbn [fst] in Hk.
    split; [now apply Hp|]. intros ? ? ? [N|[]]; discriminate N.
  - injection Ha as <- <- <-. destruct Hp as [H1 H2]. split; [apply H2|]. intros ? ? ? [[= <- <- _]|[]]. exact H1.
  - destruct (in_window off len); injection Ha as <- <- <-; (split; [first [apply Hp|exact I]|]); [intros ? ? ? [N|[]]; discriminate N|intros ? ? ? []].
  - destruct (in_window off (zlen bs)); injection Ha as <- <- <-; (split; [first [apply Hp|exact I]|]); [intros ? ? ? [N|[]]; discriminate N|intros ? ? ? []].
  - injection Ha as <- <- <-. split; [apply Hp|]. intros ? ? ? [N|[]]; discriminate N.
  - injection Ha as <- <- <-. split; [apply Hp|]. intros ? ? ? [].
  - injection Ha as <- <- <-. destruct Hp as [H1 H2]. split; [exact H2|]. intros ? ? ? [->|[]]. exact (False_ind _ H1).
Qed.
Lemma status_bits k : k_up k = 0 \/ k_up k = 128 \/ k_up k = 192 ->
  tst (kstatus k) 128 = negb (k_up k =? 0) /\ tst (kstatus k) 2 = k_ibf k /\ tst (kstatus k) 64 = (k_up k =? 192).
Proof. unfold kstatus. intros [-> | [-> | ->]]; destruct (k_ibf k), (k_obf k); repeat split; reflexivity. Qed.

Lemma cinv_step p d s d2 : cinv p d -> dstep s d d2 -> cinv p (bytewise d2).
Proof.
  intros [HL Hup Hh Hb Ht Hi Hs] Hd. pose proof (answers_ok p d s HL) as [A1 A2].
  pose proof HL as [_ _ Hfb _ _ (K1 & K2 & K3 & K4) _]. destruct (status_bits _ K3) as (B1 & B2 & _).
  destruct (linv_step p d s d2 HL Hd) as (sh' & t & Hfx & Esh & Etr & Hok & HL2).
  destruct Hd as (sh & r & t0 & Ea & ->). cbn [d_tr bytewise d_sh] in *.
  assert (t0 = t) as ->.
  { apply (f_equal (fun f => f s)) in Etr. rewrite !upd_same in Etr. now apply app_inv_head in Etr. }
  clear Etr. assert (s_kcs sh = s_kcs sh') as Ek by (apply (f_equal s_kcs) in Esh; exact Esh).
  destruct s.
  - assert (answer_ok (fun r v => r = KData -> v <> 0) true (d_sh d) (d_prog d true)) as Hans.
    { destruct (d_prog d true) as [| |r0 k| | | | | |] eqn:E; try exact I. intros ->. cbn [kread fst].
      destruct (foot_reads _ _ _ _ _ _ _ Hfb) as (v & [Hr|(b & N)] & _); [|discriminate N].
      destruct Hr as (b & st & Eb & Et). apply Hs. exists st. split; [rewrite Eb; apply in_or_app; right; now left|exact Et]. }
    destruct (hush_advance _ _ _ _ _ _ _ Ea Hb Hans) as [Hb' Ht'].
    constructor; cbn [bytewise d_sh d_prog d_tr narrow s_kcs]; [exact HL2|..]; rewrite ?Ek; cbn [upd Bool.eqb].
    + destruct Hfx as [r0|r0 v|off len Hl|off bs|e He|]; cbn [s_kcs]; try exact Hup; destruct r0; cbn [kread kwrite snd k_up]; try exact Hup.
      apply Forall_inv in Ht'. cbn in Ht'. subst v. discriminate.
    + exact Hh.
    + exact Hb'.
    + apply Forall_app. auto.
    + destruct Hfx as [r0|r0 v|off len Hl|off bs|e He|]; cbn [s_kcs]; try exact Hi; destruct r0; cbn [kread kwrite snd k_idr k_ibf]; try exact Hi; discriminate.
    + intros (st & Hin & Est). apply in_app_or in Hin.
      assert (ibf_seen (d_tr d true) -> k_idr (s_kcs sh') <> 0) as Hold.
      { intros H. specialize (Hs H). destruct Hfx as [r0|r0 v|off len Hl|off bs|e He|]; cbn [s_kcs]; try exact Hs; destruct r0; exact Hs. }
      destruct Hin as [Hin|Hin]; [apply Hold; exists st; auto|].
      destruct Hfx as [r0|r0 v|off len Hl|off bs|e He|]; cbn [In] in Hin; try (destruct Hin as [Hin|[]]; try discriminate); try contradiction.
      * injection Hin as -> <-. cbn [kread fst snd s_kcs] in *. apply Hi. congruence.
      * subst e. exfalso. apply He. exact I.
  - assert (answer_ok (fun r v => upst r (Some v)) false (d_sh d) (d_prog d false)) as Hans.
    { destruct (d_prog d false) as [| |r0 k| | | | | |] eqn:E; try exact I. cbn [answer_ok] in *. destruct r0; cbn [upst kread fst] in *.
      - intros E0. cbn in A2. rewrite E0 in A2. discriminate A2.
      - change ST_BMC_READY with 128. rewrite B1. destruct (Z.eqb_spec (k_up (s_kcs (d_sh d))) 0); [contradiction|reflexivity]. }
    destruct (okrun_advance _ _ _ _ _ _ _ _ _ Ea Hh Hans) as [Hh' Hw].
    constructor; cbn [bytewise d_sh d_prog d_tr narrow s_kcs]; [exact HL2|..]; rewrite ?Ek; cbn [upd Bool.eqb].
    + destruct Hfx as [r0|r0 v|off len Hl|off bs|e He|]; cbn [s_kcs]; try exact Hup; destruct r0; exact Hup.
    + exact Hh'.
    + exact Hb.
    + exact Ht.
    + destruct Hfx as [r0|r0 v|off len Hl|off bs|e He|]; cbn [s_kcs]; try exact Hi; destruct r0; cbn [kread kwrite snd k_idr k_ibf]; try exact Hi.
      intros _. destruct (Hw KData v true (or_introl eq_refl)) as [_ [-> | ->]]; discriminate.
    + intros H. specialize (Hs H). destruct Hfx as [r0|r0 v|off len Hl|off bs|e He|]; cbn [s_kcs]; try exact Hs; destruct r0; cbn [kread kwrite snd k_idr k_ibf]; try exact Hs.
      destruct (Hw KData v true (or_introl eq_refl)) as [_ [-> | ->]]; discriminate.
Qed.
Lemma sess_call ap w o : bd_bus (bnd w false) = true -> ast_traffic o -> sess w ->
  okrun upst handoff (fun w' => bd_bus (bnd w' false) = true -> sess w') (aexec_op ap w o).
Proof.
  intros Hb Ho Hs. eapply okrun_mono; [|apply okrun_ret, (ok_aexec ap [o] w Hs); repeat constructor; exact Ho]. intros w' H _. exact H.
Qed.
Lemma cinv_limps p d q e : limps p d q e -> cinv p d -> cinv q e.
Proof.
  intros H Hc. induction H as [|s p1 d1 d2 _ IH Hd|s o w p1 d1 _ IH E Eb Ho|q p1 d1 _ IH Hq].
  - exact Hc.
  - eapply cinv_step; eassumption.
  - destruct IH as [HL Hup Hh Hb Ht Hi Hs]. constructor; cbn [begin_call d_sh d_prog d_tr]; try assumption.
    + eapply linv_call; eassumption.
    + destruct s; cbn [upd Bool.eqb]; [exact Hh|]. rewrite E in Hh. apply sess_call; auto.
    + destruct s; cbn [upd Bool.eqb]; [|exact Hb]. rewrite E in Hb. apply hush_call; auto.
  - destruct IH as [HL Hup Hh Hb Ht Hi Hs]. constructor; cbn [reborn d_sh d_prog d_tr]; try assumption.
    + now apply linv_reborn.
    + cbn [upd Bool.eqb]. now apply hush_boot.
    + cbn [upd Bool.eqb]. constructor.
    + cbn [upd Bool.eqb]. intros (st & [] & _).
Qed.

(** Once the BMC has crashed without taking its binding down, nothing brings the channel
    back, whatever the two sides call and however they are scheduled, until the host is
    restarted or the BMC shut down in order: the status register never shows the BMC
    missing, so that the host does not ask for the channel again, and the BMC never brings
    its bus up, writes a status other than "ready, not active", transmits a packet or
    receives one. *)
Theorem C72_bmc_crash p d q p' e wh : lives ast_mtu p d ->
  (* the host is between calls and has noted that the BMC is ready, as it is *)
  d_prog d false = Ret wh -> bd_bus (bnd wh false) = true -> tst (a_kcs (ast wh false)) 128 = true ->
  tst (kstatus (s_kcs (d_sh d))) 128 = true ->
  (* no Initialise of the host is pending *)
  unread false (s_kcs (d_sh d)) <> Some 0 ->
  (* the BMC is started again *)
  usable_mtu (p_mtu q) -> limps (upd p true q) (reborn true q d) p' e ->
  (forall w b, d_prog e true = Ret w -> bd_bus (bnd w false) = true -> bget w false = Some b -> bus_st b = Constructed) /\
  offered (d_tr e true) = [] /\ received (d_tr e true) = [] /\
  (forall i en, ~ In (EvSetTx i en) (d_tr e true)) /\
  (forall v ok, In (EvKWrite KStatus v ok) (d_tr e true) -> v = 128) /\
  tst (kstatus (s_kcs (d_sh e))) 128 = true.
Proof.
  intros HL Ep Eb Ek Er Eu Hq Hl.
  pose proof (linv_lives _ _ _ (fun s m x => x) HL) as HI. pose proof HI as [_ Hw _ _ _ (_ & _ & K3 & _) _].
  destruct (status_bits _ K3) as (B1 & _). rewrite B1 in Er.
  assert (cinv (upd p true q) (reborn true q d)) as Hc.
  { constructor; cbn [reborn d_sh d_prog d_tr upd Bool.eqb].
    - now apply linv_reborn.
    - destruct (Z.eqb_spec (k_up (s_kcs (d_sh d))) 0); [discriminate Er|assumption].
    - rewrite Ep. cbn [okrun]. intros _. specialize (Hw false). rewrite Ep in Hw. cbn [wp] in Hw.
      destruct (Hw Eb) as (_ & _ & Hao). split; [exact (ao_mode _ _ _ Hao)|exact Ek].
    - now apply hush_boot.
    - constructor.
    - intros E. cbn [unread] in Eu. rewrite E in Eu. congruence.
    - intros (st & [] & _). }
  apply (cinv_limps _ _ _ _ Hl) in Hc. destruct Hc as [HL' Hup _ Hb Ht _ _]. pose proof HL' as [_ _ _ _ _ (_ & _ & K3' & _) _].
  destruct (status_bits _ K3') as (B1' & _). rewrite Forall_forall in Ht. split; [|split; [|split; [|split; [|split]]]].
  - intros w b E Eb' Ebus. rewrite E in Hb. destruct (Hb Eb') as (_ & _ & _ & H). exact (H b Ebus).
  - unfold offered. destruct (flat_map _ _) as [|x l] eqn:E; [reflexivity|exfalso].
    assert (In x (x :: l)) as Hx by now left. rewrite <- E in Hx. apply in_flat_map in Hx as (ev & H1 & H2). specialize (Ht ev H1).
    destruct ev; cbn in Ht, H2; contradiction.
  - unfold received. destruct (flat_map _ _) as [|x l] eqn:E; [reflexivity|exfalso].
    assert (In x (x :: l)) as Hx by now left. rewrite <- E in Hx. apply in_flat_map in Hx as (ev & H1 & H2). specialize (Ht ev H1).
    destruct ev; cbn in Ht, H2; contradiction.
  - intros i en H. exact (Ht _ H).
  - intros v ok H. exact (Ht _ H).
  - rewrite B1'. destruct (Z.eqb_spec (k_up (s_kcs (d_sh e))) 0); [contradiction|reflexivity].
Qed.

(** ** Concrete cases *)

(** The scripts of ExamplesLives without a restart of the host and without an orderly
    shutdown. *)
Definition crashes (l : list act) : Prop :=
  Forall (fun a => match a with Kill s q => s = true /\ usable_mtu (p_mtu q) | Bye _ => False | _ => True end) l.
Lemma limps_steps p d q e s n : limps p d q e -> limps p d q (stepn n s e).
Proof.
  revert e. induction n as [|n IH]; intros e H; cbn [stepn]; [exact H|]. apply IH. unfold step1.
  destruct (advance s (d_sh e) (d_prog e s)) as [[[sh p'] t]|] eqn:E; [|exact H].
  eapply LiStep; [exact H|]. exists sh, p', t. split; [exact E|reflexivity].
Qed.
Lemma limps_call p d s o c : ast_traffic o -> limps p d (fst c) (snd c) ->
  limps p d (fst (start_call s o c)) (snd (start_call s o c)).
Proof.
  intros Ho H. unfold start_call. destruct (d_prog (snd c) s) as [w| | | | | | | |] eqn:E; try exact H.
  destruct (bd_bus (bnd w false)) eqn:Eb; [|exact H]. cbn [fst snd]. eapply LiCall; eassumption.
Qed.
Lemma limps_script p d l : forall c, limps p d (fst c) (snd c) -> crashes l ->
  limps p d (fst (script l c)) (snd (script l c)).
Proof.
  induction l as [|a l IH]; intros c H Hs; cbn [script]; [exact H|]. inversion_clear Hs as [|? ? Ha Hl]. apply IH; [|exact Hl].
  destruct a as [s n|s|s|s eid msg|s q|s]; cbn [do].
  - now apply limps_steps.
  - now apply limps_steps.
  - now apply limps_call.
  - now apply limps_call.
  - destruct Ha as [-> Hq]. now apply LiCrash.
  - contradiction.
Qed.
Definition retb (d : duo) (s : bool) (f : world astlpc -> bool) : bool := match d_prog d s with Ret w => f w | _ => false end.

(** The channel is up, the BMC is killed in the middle of sending a message and started
    again; both go on polling, and both try to send. The premises of [C72_bmc_crash] hold,
    and the channel is down on both sides. *)
Definition busy := script (come_up ++ [Send true 9 [1;2;3;4]; Steps true 3]) (begin (pair bmc200 host64)).
Definition after_crash : list act := [Rest true; Poll false; Rest false; Poll true; Rest true; Send true 9 [5;6;7]; Rest true;
  Send false 8 [5;6;7]; Rest false; Poll true; Rest true; Poll false; Rest false].
Definition crashed := script after_crash (upd (fst busy) true bmc200, reborn true bmc200 (snd busy)).
Example C72_bmc_crash_case :
  enabledb (snd busy) false = true /\ lives ast_mtu (fst busy) (snd busy) /\ usable_mtu (p_mtu bmc200) /\
  retb (snd busy) false (fun w => bd_bus (bnd w false) && tst (a_kcs (ast w false)) 128) = true /\
  tst (kstatus (s_kcs (d_sh (snd busy)))) 128 = true /\ unread false (s_kcs (d_sh (snd busy))) = None /\
  limps (upd (fst busy) true bmc200) (reborn true bmc200 (snd busy)) (fst crashed) (snd crashed) /\
  retb (snd crashed) true (fun w => negb (enabledb (snd crashed) true)) = true /\
  retb (snd crashed) false (fun w => negb (enabledb (snd crashed) false)) = true.
Proof.
  assert (usable_mtu 200) as Hu by (right; split; vm_compute; congruence).
  split; [vm_compute; reflexivity|]. split.
  { apply script_lives; [intros [|]; [exact Hu|split; vm_compute; congruence]|repeat constructor]. }
  split; [exact Hu|]. split; [vm_compute; reflexivity|]. split; [vm_compute; reflexivity|]. split; [vm_compute; reflexivity|].
  split; [apply limps_script; [apply LiRefl|repeat constructor]|]. split; vm_compute; reflexivity.
Qed.

(** The other two ways out do work: an orderly shutdown of the BMC that the host polls before
    the BMC is started again, and a restart of the host. *)
Definition orderly := script (come_up ++ [Bye true; Rest true; Poll false; Rest false; Kill true bmc200; Rest true;
  Poll false; Rest false; Poll true; Rest true; Poll false; Rest false]) (begin (pair bmc200 host64)).
Definition both := script (come_up ++ [Kill true bmc200; Rest true; Kill false host64; Rest false;
  Poll true; Rest true; Poll false; Rest false]) (begin (pair bmc200 host64)).
Example C72_recovers : (enabledb (snd orderly) true = true /\ enabledb (snd orderly) false = true) /\
  (enabledb (snd both) true = true /\ enabledb (snd both) false = true).
Proof. split; split; vm_compute; reflexivity. Qed.
(** A shutdown between two polls of the host is a crash as far as the host can tell: after
    that, too, the channel stays down. *)
Definition hasty := script (come_up ++ [Bye true; Rest true; Kill true bmc200; Rest true;
  Poll false; Rest false; Poll true; Rest true; Poll false; Rest false; Poll true; Rest true]) (begin (pair bmc200 host64)).
Example C72_hasty : enabledb (snd hasty) true = false /\ enabledb (snd hasty) false = false /\
  s_kcs (d_sh (snd hasty)) = mkKcs 0 255 false false 128.
Proof. split; [|split]; vm_compute; reflexivity. Qed.

(** [C72_cold_restart] after such a crash: both sides are killed, nothing is pending, and the
    BMC is the first to start. *)
Definition restarted := turns 6 true (cold (pair bmc200 host64) (snd crashed)).
Example C72_cold_case : k_ibf (s_kcs (d_sh (snd crashed))) = false /\
  alone true (cold (pair bmc200 host64) (snd crashed)) restarted /\ retb restarted true (fun _ => true) = true.
Proof.
  split; [vm_compute; reflexivity|]. split; [|vm_compute; reflexivity].
  unfold restarted. generalize (cold (pair bmc200 host64) (snd crashed)). intros d. generalize 6%nat. intros n.
  induction n as [|n IH]; cbn [turns]; [apply AlRefl|]. unfold turn. destruct (advance true _ _) as [[[sh r] t]|] eqn:Ea; [|exact IH].
  eapply AlStep; [exact IH|]. exists sh, r, t. split; [exact Ea|reflexivity].
Qed.
