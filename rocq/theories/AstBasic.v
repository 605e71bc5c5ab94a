(** AstBasic: version negotiation, layout validation and BMC start-up (C31-C33). *)
From Verif Require Import Base Lists Prog PktBuf Core WP Crc Astlpc SpecAst.

(** ** C31 *)

(** The negotiated version is the largest common one; it is 0 exactly if a bound is 0
    or there is no common version. *)
Theorem C31_negotiate bmin bcur hmin hcur :
  0 <= bmin < 65536 -> 0 <= bcur < 65536 -> 0 <= hmin < 65536 -> 0 <= hcur < 65536 ->
  let r := negotiate_version bmin bcur hmin hcur in
  (r <> 0 -> common bmin bcur hmin hcur r /\ forall v, common bmin bcur hmin hcur v -> v <= r) /\
  (r = 0 <-> (bmin = 0 \/ bcur = 0 \/ hmin = 0 \/ hcur = 0 \/ forall v, ~ common bmin bcur hmin hcur v)).
Proof.
  intros Hb1 Hb2 Hh1 Hh2. cbn zeta. unfold negotiate_version, validate_version, ASTLPC_VER_BAD, common.
  destruct (negb (negb (bmin =? 0) && negb (bcur =? 0) && negb (hmin =? 0) && negb (hcur =? 0))) eqn:E0.
  { cbn [negb]. split; [lia|]. split; [lia|reflexivity]. }
  destruct (bcur <? bmin) eqn:E1.
  { cbn [negb]. split; [lia|]. split; [|reflexivity]. intros _. do 4 right. lia. }
  destruct (hcur <? hmin) eqn:E2.
  { cbn [negb]. split; [lia|]. split; [|reflexivity]. intros _. do 4 right. lia. }
  destruct ((hcur <? bmin) || (bcur <? hmin)) eqn:E3.
  { cbn [negb]. split; [lia|]. split; [|reflexivity]. intros _. do 4 right. lia. }
  cbn [negb]. destruct (bcur <? hcur) eqn:E4.
  - split; [split; lia|]. split; [lia|].
    intros [?|[?|[?|[?|H]]]]; try lia. exfalso. apply (H bcur). lia.
  - split; [split; lia|]. split; [lia|].
    intros [?|[?|[?|[?|H]]]]; try lia. exfalso. apply (H hcur). lia.
Qed.

(** Whatever the peer advertises, either side's result is an index of the protocol
    table (entries 0 to 3). *)
Theorem C31_index lo hi :
  0 <= lo < 65536 -> 0 <= hi < 65536 ->
  0 <= negotiate_version lo hi ASTLPC_VER_MIN ASTLPC_VER_CUR <= 3 /\
  0 <= negotiate_version ASTLPC_VER_MIN ASTLPC_VER_CUR lo hi <= 3.
Proof.
  intros Hl Hh. unfold negotiate_version, validate_version, ASTLPC_VER_BAD, ASTLPC_VER_MIN, ASTLPC_VER_CUR.
  split; repeat match goal with |- context [if ?b then _ else _] => let E := fresh in destruct b eqn:E end; lia.
Qed.

Example C31_case : negotiate_version 2 5 1 3 = 3 /\ negotiate_version 1 2 2 9 = 2 /\ negotiate_version 4 5 1 3 = 0.
Proof. repeat split. Qed.

(** ** C32 *)

Lemma overhead_extra v : 1 <= v <= 3 -> overhead v = Some (extra v).
Proof. intros H. assert (v = 1 \/ v = 2 \/ v = 3) as [-> | [-> | ->]] by lia; reflexivity. Qed.
Lemma extra_range v : extra v = 4 \/ extra v = 8.
Proof. unfold extra. destruct (v =? 3); auto. Qed.

Lemma packet_size_ok v body : 1 <= v <= 3 -> 0 <= body -> body + extra v < 2 ^ 32 ->
  packet_size (Some v) body = Ret (body + extra v).
Proof.
  intros Hv Hb Hl. unfold packet_size. rewrite (overhead_extra v Hv).
  destruct (extra_range v) as [E|E]; rewrite E in *; rewrite w32_id by lia.
  - replace (body <? body + 4) with true by lia. reflexivity.
  - replace (body <? body + 8) with true by lia. reflexivity.
Qed.
Lemma body_size_ok v packet : 1 <= v <= 3 -> extra v <= packet < 2 ^ 32 ->
  body_size (Some v) packet = Ret (packet - extra v).
Proof.
  intros Hv Hl. unfold body_size. rewrite (overhead_extra v Hv).
  destruct (extra_range v) as [E|E]; rewrite E in *; rewrite w32_id by lia.
  - replace (packet - 4 <? packet) with true by lia. reflexivity.
  - replace (packet - 8 <? packet) with true by lia. reflexivity.
Qed.

Lemma buffer_validate_ok v b : 1 <= v <= 3 -> u32 (ab_off b) -> u32 (ab_size b) ->
  exists r, buffer_validate (Some v) b = Ret r /\ (r = true <-> fits v b).
Proof.
  intros Hv Ho Hs. unfold u32, buffer_validate, fits, LPC_WIN_SIZE, control_size, MCTP_PACKET_SIZE, MCTP_BTU in *.
  change (64 + 4) with 68.
  assert (w32 (ab_off b + ab_size b) = ab_off b + ab_size b \/
          2 ^ 32 <= ab_off b + ab_size b /\ w32 (ab_off b + ab_size b) = ab_off b + ab_size b - 2 ^ 32) as Hw.
  { destruct (Z.ltb_spec (ab_off b + ab_size b) (2 ^ 32)); [left; apply w32_id; lia|right].
    split; [assumption|]. unfold w32. symmetry. apply (Z.mod_unique _ _ 1); lia. }
  destruct (w32 (ab_off b + ab_size b) <? ab_off b) eqn:E1.
  { exists false. split; [reflexivity|]. split; [discriminate|lia]. }
  destruct (1048576 <? w32 (ab_off b + ab_size b)) eqn:E2.
  { exists false. split; [reflexivity|]. split; [discriminate|lia]. }
  destruct (extra_range v) as [E|E]; rewrite packet_size_ok by lia; cbn [bind]; rewrite E.
  - destruct (ab_size b <? 68 + 4) eqn:E3; [exists false; split; [reflexivity|]; split; [discriminate|lia]|].
    destruct (ab_off b <? 256) eqn:E4; [exists false; split; [reflexivity|]; split; [discriminate|lia]|].
    exists true. split; [reflexivity|]. lia.
  - destruct (ab_size b <? 68 + 8) eqn:E3; [exists false; split; [reflexivity|]; split; [discriminate|lia]|].
    destruct (ab_off b <? 256) eqn:E4; [exists false; split; [reflexivity|]; split; [discriminate|lia]|].
    exists true. split; [reflexivity|]. lia.
Qed.

(** The two buffers, as the validation compares them. *)
Lemma disjoint_iff (a b : abuf) : 0 < ab_size a -> 0 < ab_size b ->
  (forall x, ~ (inside a x /\ inside b x)) <->
  ~ ((ab_off a <= ab_off b < ab_off a + ab_size a) \/ (ab_off b <= ab_off a < ab_off b + ab_size b)).
Proof.
  intros Ha Hb. unfold inside. split.
  - intros H [K|K]; [apply (H (ab_off b))|apply (H (ab_off a))]; lia.
  - intros H x K. apply H. lia.
Qed.

Theorem C32_validate v l : 1 <= v <= 3 -> layout_u32 l ->
  exists r, layout_validate (Some v) l = Ret r /\ (r = true <-> valid_layout v l).
Proof.
  intros Hv (H1 & H2 & H3 & H4). unfold layout_validate, valid_layout.
  destruct (buffer_validate_ok v (ly_rx l) Hv H1 H2) as (r1 & -> & I1).
  destruct (buffer_validate_ok v (ly_tx l) Hv H3 H4) as (r2 & -> & I2). cbn [bind].
  destruct r1, r2; cbn [negb andb].
  2-4: exists false; split; [reflexivity|]; split; [discriminate|];
       intros (K1 & K2 & _); apply I1 in K1; apply I2 in K2; congruence.
  destruct I1 as [I1 _]. specialize (I1 eq_refl). destruct I2 as [I2 _]. specialize (I2 eq_refl).
  assert (0 < ab_size (ly_rx l) /\ 0 < ab_size (ly_tx l)) as [P1 P2].
  { unfold fits in *. destruct (extra_range v) as [E|E]; rewrite E in *; lia. }
  pose proof (disjoint_iff (ly_rx l) (ly_tx l) P1 P2) as Hd.
  unfold fits in I1, I2. rewrite !w32_id by lia.
  match goal with |- context [if ?b then Ret false else Ret true] => destruct b eqn:E end.
  - exists false. split; [reflexivity|]. split; [discriminate|]. intros (_ & _ & K). apply Hd in K. lia.
  - exists true. split; [reflexivity|]. split; [|reflexivity]. intros _. split; [exact I1|]. split; [exact I2|].
    apply Hd. lia.
Qed.

Example C32_case :
  layout_validate (Some 3) (mkLayout (mkBuf 256 76 Idle) (mkBuf 332 1048244 Idle)) = Ret true /\
  layout_validate (Some 3) (mkLayout (mkBuf 256 77 Idle) (mkBuf 332 1048244 Idle)) = Ret false /\
  layout_validate (Some 2) (mkLayout (mkBuf 4294967040 512 Idle) (mkBuf 256 512 Idle)) = Ret false.
Proof. repeat split. Qed.

(** ** C33 *)

(** What init_bmc computes before it touches the window. *)
Lemma init_bmc_usable a mtu : a_bmc a = true -> a_mtu a = mtu -> u32 mtu -> usable_mtu mtu ->
  let sz := bmc_mtu mtu + 12 in
  let a1 := a_set_layout (a_set_proto a 3)
              (mkLayout (mkBuf (256 + sz) sz (ab_st (a_rx a))) (mkBuf 256 sz (ab_st (a_tx a)))) in
  start_bmc a = LWrite 0 (published sz) (rc <- kcs_set_status 128 ;; Ret (a1, rc)) /\
  valid_layout 3 (a_layout a1).
Proof.
  intros Hb Em Hu Hus. cbn zeta. unfold start_bmc, init_bmc, ASTLPC_VER_CUR.
  cbn [a_set_proto a_proto a_mtu a_tx a_rx a_layout].
  rewrite body_size_ok by (unfold LPC_WIN_SIZE, control_size; cbn; lia).
  unfold LPC_WIN_SIZE, control_size. change ((1048576 - 256) / 2 - extra 3) with 524152. cbn [bind].
  change (Z.land (w32 (MCTP_BODY_SIZE 524152)) (2 ^ 32 - 16)) with 524144.
  change (w32 (MCTP_PACKET_SIZE 524144)) with 524148. change (packet_size (Some 3) 524148) with (Ret (A := Z) 524156).
  cbn [bind]. rewrite Em.
  assert (Hsz : (if mtu =? 0 then Ret 524156
       else rpkt <- packet_size (Some 3) (w32 (MCTP_PACKET_SIZE mtu)) ;; Ret (Z.min 524156 rpkt))
       = Ret (bmc_mtu mtu + 12)).
  { unfold bmc_mtu. destruct (mtu =? 0) eqn:E0; [reflexivity|]. unfold u32, usable_mtu, MCTP_PACKET_SIZE in *.
    rewrite w32_id by lia. rewrite packet_size_ok by (change (extra 3) with 8; lia). cbn [bind].
    change (extra 3) with 8. f_equal. lia. }
  rewrite Hsz. cbn [bind]. set (sz := bmc_mtu mtu + 12) in *.
  assert (76 <= sz <= 524156) as Hr.
  { unfold sz, bmc_mtu, usable_mtu in *. destruct (mtu =? 0) eqn:E0; lia. }
  rewrite w32_id by lia. cbn zeta. unfold a_set_layout, a_set_proto. cbn [a_layout a_proto].
  match goal with |- context [layout_validate (Some 3) ?l] => set (lay := l) end.
  assert (valid_layout 3 lay) as Hv.
  { unfold valid_layout, fits, inside, lay. cbn [ly_rx ly_tx ab_off ab_size]. change (extra 3) with 8.
    split; [lia|]. split; [lia|]. intros x. lia. }
  destruct (C32_validate 3 lay) as (r & -> & Hr'); [lia|unfold layout_u32, u32, lay; cbn [ly_rx ly_tx ab_off ab_size]; lia|].
  pose proof Hv as Hv'. apply Hr' in Hv'. subst r. cbn [bind negb]. split; [reflexivity|exact Hv].
Qed.

Theorem C33_published app mtu eid : u32 mtu -> usable_mtu mtu ->
  let sz := bmc_mtu mtu + 12 in
  always no_oom (ast_register app true mtu eid) (fun w tr =>
    exists ok1 ok2, let ok := ok1 && ok2 in
    tr = [EvAttach false eid; EvLWrite 0 (published sz); EvKWrite KStatus 128 ok1]
         ++ (if ok1 then [EvKWrite KData 255 ok2] else [])
         ++ (if ok then [] else [EvDetach]) ++ [EvRet (if ok then 0 else -1)] /\
    a_rx (ast w false) = mkBuf (256 + sz) sz Idle /\ a_tx (ast w false) = mkBuf 256 sz Idle) /\
  valid_layout 3 (mkLayout (mkBuf (256 + sz) sz Idle) (mkBuf 256 sz Idle)) /\
  (sz - 12 = mtu \/ sz - 12 = 524144).
Proof.
  intros Hu Hus. cbn zeta.
  set (a0 := mkAst true (mkLayout (mkBuf 0 0 Idle) (mkBuf 0 0 Idle)) mtu None 0).
  destruct (init_bmc_usable a0 mtu eq_refl eq_refl Hu Hus) as [E V]. cbn zeta in E, V.
  set (sz := bmc_mtu mtu + 12) in *. split; [|split; [exact V|]].
  2:{ unfold sz, bmc_mtu. destruct (mtu =? 0); lia. }
  apply adv_always. unfold ast_register, aexec_op, exec_op, astlpc_world, register_bus.
  cbn [w_m mctp_init m_dead m_nb Z.eqb assert_ bind wp h_alloc adv negb].
  split; [|discriminate]. cbn [negb bind wp h_emit adv].
  set (w1 := set_bnd _ false _). change (bd_has_start (bnd w1 false)) with true. cbv iota.
  change (bd_priv (bnd w1 false)) with a0. unfold astlpc_start. change (a_bmc a0) with true. cbv iota.
  rewrite E. cbn [bind wp h_lwrite adv]. split; [reflexivity|]. unfold kcs_set_status. cbn [bind wp h_kwrite adv].
  split; [split|]; [| |intros _]; cbn [negb bind wp h_kwrite h_emit adv].
  - exists true, true. cbn zeta. cbn [andb Datatypes.app]. repeat split.
  - intros _. cbn [negb bind wp h_kwrite h_emit adv].
    exists true, false. cbn zeta. cbn [andb Datatypes.app]. repeat split.
  - exists false, false. cbn zeta. cbn [andb Datatypes.app]. repeat split.
Qed.

(** 524144 is the largest multiple of 16 for which two buffers fit beside the control
    space. *)
Theorem C33_largest m :
  (m mod 16 = 0 /\ 256 + 2 * (m + 4 + extra 3) <= 1048576 -> m <= 524144) /\
  524144 mod 16 = 0 /\ 256 + 2 * (524144 + 4 + extra 3) <= 1048576.
Proof.
  change (extra 3) with 8. split; [|split; [reflexivity|lia]].
  intros [Hm Hl]. apply Z.mod_divide in Hm; [|lia]. destruct Hm as (k & ->). lia.
Qed.

Lemma init_bmc_small a mtu : a_bmc a = true -> a_mtu a = mtu -> 0 < mtu < 2 ^ 32 ->
  (mtu < 64 \/ 2 ^ 32 - 4 <= mtu ->
    exists a1, start_bmc a = Ret (a1, - EINVAL)) /\
  (2 ^ 32 - 12 <= mtu < 2 ^ 32 - 4 -> start_bmc a = Flt AssertFail).
Proof.
  intros Hb Em Hu. unfold start_bmc, init_bmc, ASTLPC_VER_CUR.
  cbn [a_set_proto a_proto a_mtu a_tx a_rx a_layout].
  rewrite body_size_ok by (unfold LPC_WIN_SIZE, control_size; cbn; lia).
  unfold LPC_WIN_SIZE, control_size. change ((1048576 - 256) / 2 - extra 3) with 524152. cbn [bind].
  change (Z.land (w32 (MCTP_BODY_SIZE 524152)) (2 ^ 32 - 16)) with 524144.
  change (w32 (MCTP_PACKET_SIZE 524144)) with 524148. change (packet_size (Some 3) 524148) with (Ret (A := Z) 524156).
  cbn [bind]. rewrite Em. replace (mtu =? 0) with false by lia. unfold MCTP_PACKET_SIZE.
  split.
  - intros Hr.
    assert (exists b, w32 (mtu + 4) = b /\ 0 <= b < 68) as (b & -> & Hbr).
    { destruct Hr as [Hr|Hr].
      - exists (mtu + 4). rewrite w32_id by lia. lia.
      - exists (mtu + 4 - 2 ^ 32). unfold w32. split; [symmetry; apply (Z.mod_unique _ _ 1)|]; lia. }
    rewrite packet_size_ok by (change (extra 3) with 8; lia). change (extra 3) with 8. cbn [bind].
    rewrite Z.min_r by lia. rewrite w32_id by lia. cbn zeta. unfold a_set_layout, a_set_proto. cbn [a_layout a_proto].
    match goal with |- context [layout_validate (Some 3) ?l] => set (lay := l) end.
    destruct (C32_validate 3 lay) as (r & -> & Hr'); [lia|unfold layout_u32, u32, lay; cbn [ly_rx ly_tx ab_off ab_size]; lia|].
    destruct r.
    + exfalso. destruct Hr' as [Hr' _]. specialize (Hr' eq_refl). destruct Hr' as ((_ & _ & K) & _).
      unfold lay in K. cbn [ly_rx ly_tx ab_off ab_size] in K. change (extra 3) with 8 in K. lia.
    + cbn [bind negb]. eauto.
  - intros Hr. rewrite (w32_id (mtu + 4)) by lia. unfold packet_size. change (overhead 3) with (Some 8). cbv iota.
    assert (w32 (mtu + 4 + 8) = mtu + 12 - 2 ^ 32) as ->.
    { unfold w32. symmetry. apply (Z.mod_unique _ _ 1); lia. }
    replace (mtu + 4 <? mtu + 12 - 2 ^ 32) with false by lia. reflexivity.
Qed.

(** A request below the baseline transmission unit, or one that wraps around to such a
    value, is refused before anything is published. *)
Theorem C33_refused app mtu eid : 0 < mtu < 64 \/ 2 ^ 32 - 4 <= mtu < 2 ^ 32 ->
  always no_oom (ast_register app true mtu eid) (fun _ tr =>
    tr = [EvAttach false eid; EvDetach; EvRet (- EINVAL)]).
Proof.
  intros Hm. set (a0 := mkAst true (mkLayout (mkBuf 0 0 Idle) (mkBuf 0 0 Idle)) mtu None 0).
  destruct (init_bmc_small a0 mtu eq_refl eq_refl ltac:(lia)) as [E _].
  destruct E as (a1 & E); [lia|].
  apply adv_always. unfold ast_register, aexec_op, exec_op, astlpc_world, register_bus.
  cbn [w_m mctp_init m_dead m_nb Z.eqb assert_ bind wp h_alloc adv negb].
  split; [|discriminate]. cbn [negb bind wp h_emit adv].
  set (w1 := set_bnd _ false _). change (bd_has_start (bnd w1 false)) with true. cbv iota.
  change (bd_priv (bnd w1 false)) with a0. unfold astlpc_start. change (a_bmc a0) with true. cbv iota.
  rewrite E. cbn [bind wp h_emit adv]. reflexivity.
Qed.

(** The eight remaining values trip an assertion. *)
Theorem C33_asserts app mtu eid e : 2 ^ 32 - 12 <= mtu < 2 ^ 32 - 4 -> env_ok no_oom e ->
  run e 0 [] (ast_register app true mtu eid) = Fault AssertFail [EvAttach false eid].
Proof.
  intros Hm He. set (a0 := mkAst true (mkLayout (mkBuf 0 0 Idle) (mkBuf 0 0 Idle)) mtu None 0).
  destruct (init_bmc_small a0 mtu eq_refl eq_refl ltac:(lia)) as [_ E]. specialize (E ltac:(lia)).
  unfold ast_register, aexec_op, exec_op, astlpc_world, register_bus.
  cbn [w_m mctp_init m_dead m_nb Z.eqb assert_ bind negb run].
  destruct He as [He _]. rewrite (He eq_refl). cbn [negb bind run].
  set (w1 := set_bnd _ false _). change (bd_has_start (bnd w1 false)) with true. cbv iota.
  change (bd_priv (bnd w1 false)) with a0. unfold astlpc_start. change (a_bmc a0) with true. cbv iota.
  rewrite E. reflexivity.
Qed.

(** The hypotheses are met by the default request and by 4096. *)
Example C33_case : (u32 0 /\ usable_mtu 0) /\ (u32 4096 /\ usable_mtu 4096) /\ (0 < 63 < 64) /\
  (2 ^ 32 - 12 <= 4294967285 < 2 ^ 32 - 4) /\ bmc_mtu 4096 = 4096 /\ bmc_mtu 0 = 524144.
Proof. unfold u32, usable_mtu. repeat split; try lia; reflexivity. Qed.
