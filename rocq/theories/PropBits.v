(** PropBits: the receivers reject a packet with up to three flipped bits (C62). *)
From Verif Require Import Base Lists Prog PktBuf Core WP Walk CoreRel WalkCore CoreHist Spec SpecRx Trace PropTx PropMsg
  Reasm PropRx PropRound Crc Serial SpecSer SerRx SerWalk PropSer PropSerTx PropSerRound Astlpc SpecAst AstBasic AstWalk PropAst PropCrc CrcSpan CrcDist AstRx Concrete ExamplesSer.

Lemma bit_errors_len_0 a : bit_errors a a = 0%nat.
Proof. unfold bit_errors. induction (msg_bits a) as [|x l IH]; [reflexivity|]. cbn [flips]. rewrite eqb_reflx. exact IH. Qed.
Lemma bit_errors_app a b a' b' : length a = length b -> bit_errors (a ++ a') (b ++ b') = (bit_errors a b + bit_errors a' b')%nat.
Proof. intros L. unfold bit_errors. rewrite !msg_bits_app. apply flips_app. rewrite !msg_bits_length. lia. Qed.

(** *** LPC: what is shown in the window differs from the packet with its checksum in
    one to three bits (one or two, for packets of more than 11450 bytes). *)
Theorem C62_lpc app bmc mtu eid l e n tr w r n' t bs d :
  ast_reach app bmc mtu eid l e n tr w ->
  a_proto (ast w false) = Some 3 -> ab_st (a_rx (ast w false)) = Released ->
  zlen bs + 8 <= ab_size (a_rx (ast w false)) -> zlen bs <= bd_pkt_size (bnd w false) ->
  Forall is_byte bs -> Forall is_byte d -> length d = (length bs + 4)%nat ->
  (1 <= bit_errors (bs ++ be32 (crc32 bs)) d <= 3)%nat ->
  (zlen bs <= 11450 \/ (bit_errors (bs ++ be32 (crc32 bs)) d <= 2)%nat /\ zlen bs <= 536870000) ->
  shows e n (ab_off (a_rx (ast w false))) (be32 (zlen bs) ++ d) ->
  run e n tr (poll app w false) = Done r n' (tr ++ t) -> In (EvKRead KData (Some 1)) t ->
  Forall quiet_ev t /\ forall id, In (EvAlloc id) t -> In (EvFree id) t.
Proof.
  intros Hr Ev Hrel Hsz Hps Hby Hbd Hl He Hbig Hsh Hrun Hin.
  assert (zlen d = zlen bs + extra 3 - 4) as Hz' by (change (extra 3) with 8; unfold zlen; lia).
  assert (zlen bs <= ab_size (a_rx (ast w false)) - extra 3) as Hsz' by (change (extra 3) with 8; lia).
  destruct (rx_shown _ _ _ _ _ _ _ _ _ _ _ _ (zlen bs) d 3 Hr Ev ltac:(lia) Hrel (zlen_pos _ bs)
    Hsz' Hps Hz' Hsh Hrun Hin)
    as (t0 & id & io & t1 & t2 & -> & H0 & H2 & Hio & Hc).
  assert (~ acceptable 3 (zlen bs) d) as Hna.
  { intros [_ Hcrc]. specialize (Hcrc eq_refl).
    pose proof (firstn_skipn (Z.to_nat (zlen bs)) d) as Ed. rewrite Hcrc in Ed.
    set (bs' := firstn (Z.to_nat (zlen bs)) d) in *.
    assert (Forall is_byte bs') as Hb'.
    { rewrite <- (firstn_skipn (Z.to_nat (zlen bs)) d) in Hbd. rewrite Forall_app in Hbd. tauto. }
    assert (length bs = length bs') as Ll. { unfold bs'. rewrite firstn_length. unfold zlen. lia. }
    rewrite <- Ed in He, Hbig.
    assert (bs <> bs') as N. { intros <-. rewrite bit_errors_len_0 in He. lia. }
    destruct Hbig as [Hs|[H2e Hs]].
    - pose proof (C62_distance32 bs bs' Hby Hb' Ll N Hs). lia.
    - pose proof (C62_distance32_large bs bs' Hby Hb' Ll N Hs). lia. }
  destruct Hc as [[Ha _]|[_ ->]]; [contradiction|].
  split.
  - apply Forall_app. split; [now apply plain_quiet|]. do 4 (constructor; [exact I|]).
    apply Forall_app. split; [eapply Forall_impl; [|exact Hio]; intros [] Hi; cbn in *; try contradiction; exact I|].
    constructor; [exact I|]. now apply plain_quiet.
  - intros id' Hi. apply in_app_or in Hi. destruct Hi as [Hi|Hi].
    { rewrite Forall_forall in H0. destruct (H0 _ Hi) as [_ []]. }
    destruct Hi as [Hi|[Hi|[Hi|[Hi|Hi]]]]; try discriminate.
    + injection Hi as ->. apply in_or_app. right. do 4 right. apply in_or_app. right. now left.
    + apply in_app_or in Hi. destruct Hi as [Hi|[Hi|Hi]]; [|discriminate|].
      * rewrite Forall_forall in Hio. destruct (Hio _ Hi).
      * rewrite Forall_forall in H2. destruct (H2 _ Hi) as [_ []].
Qed.

(** *** Serial: an idle receiver is fed a frame whose body and check sequence, once
    unescaped, differ from those of the packet [body] in one to three bits. *)
Theorem C62_serial fuel app m w tr l i body body' raw hi lo :
  (256 <= fuel)%nat -> ser_reaches fuel app m w tr -> idle w i -> Forall (ser_traffic m) l ->
  4 <= zlen body <= 68 -> Forall is_byte body -> Forall is_byte body' -> is_byte hi -> is_byte lo ->
  length body' = length body -> unescaped raw body' ->
  (1 <= bit_errors (body ++ [fcs body / 256; fcs body mod 256]%Z) (body' ++ [hi; lo]) <= 3)%nat ->
  fed i l = [126; 1; zlen body] ++ raw ++ [hi; lo; 126] ->
  always no_oom (sexec fuel app w l) (fun w' t => handed i t = [] /\ idle w' i).
Proof.
  intros Hfuel Hr Hi Hl Hz Hb Hb' Hhi Hlo Ll Hu He Ef.
  assert (zlen body' = zlen body) as Hz' by (unfold zlen; lia).
  eapply always_mono; [|exact (ser_continue fuel app m Hfuel w tr l Hr Hl)].
  intros w' t [Hh _]. destruct (mhist_rst _ _ _ _ _ i Hh) as [E1 E2]. rewrite mfed_micro in *.
  apply idle_rst in Hi. rewrite Hi, Ef in *. rewrite <- Hz' in *.
  destruct (rrun_header (zlen body') Hz) as [F1 F2]. destruct (rrun_rest raw body' hi lo 126 Hu Hz) as [F3 F4].
  rewrite rrun_app, F1, F3 in E1. rewrite routs_app, F1, F2, F4 in E2.
  assert ((hi * 256 + lo =? fcs body') = false) as N.
  { apply Z.eqb_neq. intros Q.
    set (a := 1 :: zlen body' :: body). set (b := 1 :: zlen body' :: body').
    assert (fcs body = crc16 65535 a) as Ea by (unfold fcs, a; now rewrite Hz').
    assert (fcs body' = crc16 65535 b) as Eb by reflexivity.
    assert (forall s, Forall is_byte s -> 0 <= crc16 65535 s < 2 ^ 16) as HR.
    { intros s Hs. rewrite crc16_steps by (assumption || (split; vm_compute; congruence)).
      apply (steps_small 15 P16 P16_small P16_top). split; vm_compute; congruence. }
    assert (Forall is_byte a) as Ba by (constructor; [unfold is_byte; lia|]; constructor; [unfold is_byte; lia|exact Hb]).
    assert (Forall is_byte b) as Bb by (constructor; [unfold is_byte; lia|]; constructor; [unfold is_byte; lia|exact Hb']).
    pose proof (HR a Ba) as Ra. pose proof (HR b Bb) as Rb. rewrite <- Ea in Ra. rewrite <- Eb in Rb.
    assert ([fcs body / 256; fcs body mod 256] = be16 (crc16 65535 a)) as E1'.
    { rewrite <- Ea. unfold be16. change (2 ^ 8) with 256. rewrite (Z.mod_small (fcs body / 256)); [reflexivity|].
      split; [apply Z.div_pos; lia|apply Z.div_lt_upper_bound; lia]. }
    assert ([hi; lo] = be16 (crc16 65535 b)) as E2'.
    { rewrite <- Eb, <- Q. unfold be16. change (2 ^ 8) with 256. unfold is_byte in *.
      rewrite Z.div_add_l, (Z.div_small lo) by lia. rewrite Z.add_0_r, (Z.mod_small hi) by lia.
      rewrite Z.add_comm, Z.mod_add, (Z.mod_small lo) by lia. reflexivity. }
    rewrite E1', E2' in He.
    assert (bit_errors (a ++ be16 (crc16 65535 a)) (b ++ be16 (crc16 65535 b)) =
            bit_errors (body ++ be16 (crc16 65535 a)) (body' ++ be16 (crc16 65535 b))) as EE.
    { change a with ([1; zlen body'] ++ body) at 1. change b with ([1; zlen body'] ++ body') at 1. rewrite <- !app_assoc.
      rewrite bit_errors_app by reflexivity. now rewrite bit_errors_len_0. }
    rewrite <- EE in He.
    assert (a <> b) as N. { intros E. rewrite E, bit_errors_len_0 in He. lia. }
    pose proof (C62_distance16 65535 a b ltac:(lia) Ba Bb ltac:(cbn; lia) ltac:(cbn [length a]; unfold zlen in Hz; lia) N). lia. }
  rewrite N in E2. cbn [andb Datatypes.app] in E2. split; [congruence|]. apply idle_rst. congruence.
Qed.

(** A damaged frame that meets the hypotheses: two bits of the body and one of the check
    sequence flipped. *)
Example C62_case : exists body body' raw hi lo,
  4 <= zlen body <= 68 /\ Forall is_byte body /\ Forall is_byte body' /\ is_byte hi /\ is_byte lo /\
  length body' = length body /\ unescaped raw body' /\
  bit_errors (body ++ [fcs body / 256; fcs body mod 256]) (body' ++ [hi; lo]) = 3%nat /\
  exists w tr, ser_reaches 256 no_app (Endpoint 8) w tr /\ idle w false /\
    Forall (ser_traffic (Endpoint 8)) [SRx false ([126; 1; zlen body] ++ raw); SRx false [hi; lo; 126]] /\
    fed false [SRx false ([126; 1; zlen body] ++ raw); SRx false [hi; lo; 126]]
      = [126; 1; zlen body] ++ raw ++ [hi; lo; 126].
Proof.
  exists [1; 8; 9; 200; 124; 7], [1; 8; 9; 201; 125; 7], [1; 8; 9; 201; 125; 93; 7].
  let x := eval vm_compute in (fcs [1; 8; 9; 200; 124; 7] / 256) in exists x.
  let x := eval vm_compute in (Z.lxor (fcs [1; 8; 9; 200; 124; 7] mod 256) 4) in exists x.
  split; [vm_compute; split; discriminate|]. split; [repeat constructor; unfold is_byte; lia|].
  split; [repeat constructor; unfold is_byte; lia|]. split; [unfold is_byte; lia|]. split; [unfold is_byte; lia|].
  split; [reflexivity|]. split.
  { do 4 (apply UPlain; [lia|]). change 125 with (Z.lxor 93 32) at 2. apply UEsc. repeat (apply UPlain; [lia|]). constructor. }
  split; [vm_compute; reflexivity|].
  destruct (ser_reach_by_run (Endpoint 8) [] (fun w _ => idle w false)) as (w & tr & Hr & Hi); [constructor|vm_compute; reflexivity|].
  exists w, tr. split; [exact Hr|]. split; [exact Hi|]. split; [|reflexivity].
  change (zlen [1; 8; 9; 200; 124; 7]) with 6. cbn [Datatypes.app]. ser_ops.
Qed.

(** The window of a host shows a packet with three bits flipped: in the body twice and
    in the checksum once. *)
Definition bad_pkt : list Z := Eval vm_compute in
  match demo_pkt ++ be32 (crc32 demo_pkt) with
  | a :: b :: c :: d :: r => a :: b :: c :: Z.lxor d 1 :: firstn 2 r ++ Z.lxor (nth 2 r 0) 128 :: Z.lxor (nth 3 r 0) 8 :: skipn 4 r
  | _ => [] end.
Definition bad_env : env :=
  mkEnv (fun _ => true)
    (fun n _ => Some (nth n [128; 128; 128; 128; 128; 128; 128; 128; 193; 255; 192; 193; 193; 1; 192] 192))
    (fun _ => true)
    (fun _ off => if off <? 32 then nth (Z.to_nat off) hdr_window 0 else nth (Z.to_nat (off - 256)) (be32 7 ++ bad_pkt) 0) (fun _ => 1).
Lemma bad_ok : env_ok sane_bmc bad_env.
Proof.
  split; [reflexivity|]. split; [discriminate|]. split; [|discriminate].
  intros n r v. cbn [e_kread bad_env kread_val]. intros [= <-]. cbn [kval_ok sane_bmc].
  do 20 (destruct n as [|n]; [destruct r; reflexivity|]). destruct r; reflexivity.
Qed.
Example C62_lpc_case : exists n tr w r n' t,
  ast_reach no_app false 64 9 [ACore (OpSetRx true); APoll false] bad_env n tr w /\
  a_proto (ast w false) = Some 3 /\ ab_st (a_rx (ast w false)) = Released /\
  zlen demo_pkt + 8 <= ab_size (a_rx (ast w false)) /\ zlen demo_pkt <= bd_pkt_size (bnd w false) /\
  Forall is_byte demo_pkt /\ Forall is_byte bad_pkt /\ length bad_pkt = (length demo_pkt + 4)%nat /\
  bit_errors (demo_pkt ++ be32 (crc32 demo_pkt)) bad_pkt = 3%nat /\
  shows bad_env n (ab_off (a_rx (ast w false))) (be32 (zlen demo_pkt) ++ bad_pkt) /\
  run bad_env n tr (poll no_app w false) = Done r n' (tr ++ t) /\ In (EvKRead KData (Some 1)) t.
Proof.
  destruct (run bad_env 0 [] (ast_history no_app false 64 9 [ACore (OpSetRx true); APoll false])) as [w n tr|f tr] eqn:E; [|vm_compute in E; discriminate].
  exists n, tr, w. pose proof E as E0. vm_compute in E. injection E as <- <- <-.
  eexists _, _, _. split.
  { split; [cbn; lia|]. split; [repeat constructor|]. split; [apply bad_ok|]. split; [exact E0|reflexivity]. }
  split; [reflexivity|]. split; [reflexivity|]. split; [vm_compute; discriminate|]. split; [vm_compute; discriminate|].
  split; [repeat constructor; unfold is_byte; lia|]. split; [repeat constructor; unfold is_byte; lia|].
  split; [reflexivity|]. split; [vm_compute; reflexivity|].
  split; [intros k _; vm_compute; reflexivity|].
  split; [|].
  { match goal with |- run ?e ?n ?tr ?p = Done ?r ?n' (?t0 ++ ?t) =>
      let q := eval vm_compute in (run e n tr p) in
      match q with Done ?r' ?m ?l => 
        let s := eval vm_compute in (skipn (length t0) l) in
        instantiate (1 := s) end end.
    vm_compute. reflexivity. }
  vm_compute. repeat (try (left; reflexivity); right).
Qed.
