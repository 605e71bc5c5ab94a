(** PropDestroy: C55.  Taking the BMC side down is announced to the host. *)
From Verif Require Import Base Lists Prog PktBuf Core WP Walk CoreRel WalkCore CoreHist Crc Astlpc SpecAst AstBasic
  CrcSpan AstWalk PropAst AstDown Concrete TwoParty DuoInv DuoWalk PropDuo ExamplesDuo LostWakeup.

(** Whatever the state of the KCS device and the window, destroying the BMC's binding
    clears bmc-ready and channel-active and leaves the dummy value for the host; what the
    host has sent and the window stay as they are.  Destroying the host's binding touches
    neither registers nor window. *)
Theorem C55_destroy_bmc a sh : a_bmc a = true -> exists sh',
  part 10 true sh (astlpc_destroy a) = (sh', Ret tt, [EvKWrite KStatus 0 true; EvKWrite KData 255 true]) /\
  tst (kstatus (s_kcs sh')) ST_BMC_READY = false /\ tst (kstatus (s_kcs sh')) ST_ACTIVE = false /\
  unread true (s_kcs sh') = Some 255 /\ unread false (s_kcs sh') = unread false (s_kcs sh) /\
  s_mem sh' = s_mem sh.
Proof.
  intros Hb. unfold astlpc_destroy. rewrite Hb. cbn. eexists. split; [reflexivity|].
  destruct sh as [[idr odr ibf obf up] mem]; cbn. destruct ibf, obf; cbn; repeat split; reflexivity.
Qed.
Theorem C55_destroy_host a : a_bmc a = false -> astlpc_destroy a = Ret tt.
Proof. intros Hb. unfold astlpc_destroy. now rewrite Hb. Qed.

(** The poll with which the host notices: it sees no bmc-ready, reads the dummy value, and
    stops transmitting. *)
Theorem C55_host_notices ap mtu eid l e n tr w sh a sh' r n' t :
  ast_reach ap false mtu eid l e n tr w -> pollfd_out (ast w false) = false ->
  a_bmc a = true -> part 10 true sh (astlpc_destroy a) = (sh', Ret tt, [EvKWrite KStatus 0 true; EvKWrite KData 255 true]) ->
  (* what the host's poll reads is what the device holds *)
  kread_val (e_kread e n KStatus) = Some (fst (kread false KStatus (s_kcs sh'))) ->
  kread_val (e_kread e (S n) KData) = Some (fst (kread false KData (s_kcs sh'))) ->
  run e n tr (poll ap w false) = Done r n' t ->
  ost (fst r) false <> Some TxEnabled /\ tst (a_kcs (ast (fst r) false)) ST_BMC_READY = false.
Proof.
  intros Hr Hp Ha Hd H1 H2 E. destruct (C55_destroy_bmc a sh Ha) as (s2 & Hd2 & T1 & T2 & U1 & U2 & _).
  rewrite Hd in Hd2. injection Hd2 as <-. cbn [kread fst] in H1, H2.
  assert (k_odr (s_kcs sh') = 255 /\ tst (kstatus (s_kcs sh')) 1 = true) as (Eo & E1).
  { unfold unread in U1. destruct (k_obf (s_kcs sh')) eqn:Eo; [|discriminate]. split; [congruence|].
    clear -Hd Eo Ha. unfold astlpc_destroy in Hd. rewrite Ha in Hd. cbn in Hd. injection Hd as <-.
    destruct sh as [[idr odr ibf obf up] mem]; cbn in *. destruct ibf; reflexivity. }
  rewrite Eo in H2.
  destruct (C42_host_seen ap mtu eid l e n tr w _ r n' t Hr Hp H1 E1 T1 H2 E) as (K1 & K2).
  split; [exact K2|]. rewrite K1. exact T1.
Qed.

(** From power-on to the end: the channel comes up, the BMC's binding is destroyed, the
    host polls. *)
Definition short : bool -> party :=
  pair (mkParty no_app 64 8 [poll1]) (mkParty no_app 64 9 [poll1; poll1]).
Definition down_ok : bool :=
  let d := calls [true; false; true; false] (d0 short) in
  match d_prog d true with
  | Ret wb =>
      match part 10 true (d_sh d) (astlpc_destroy (ast wb false)) with
      | (sh, Ret _, _) =>
          match part 100 false sh (d_prog d false) with
          | (_, Ret wh, t) =>
              match bget wh false with
              | Some b => match bus_st b with TxDisabled => true | _ => false end
              | None => false
              end
          | _ => false
          end
      | _ => false
      end
  | _ => false
  end.
Example C55_case : duo_reach short (calls [true; false; true; false] (d0 short)) /\ compatible short /\ down_ok = true.
Proof.
  split; [apply calls_reach; [intros [|]; cbn; repeat constructor|right; cbn; lia]|].
  split; [unfold compatible; cbn; lia|]. vm_compute. reflexivity.
Qed.
