(** Refute: properties one would expect but that are false of the code.  Each is
    stated in full and refuted by a concrete history of the modelled program. *)
From Coq Require Import Permutation.
From Verif Require Import Base Lists Prog PktBuf Core WP Walk CoreRel WalkCore CoreHist Spec SpecRx
  Trace PropTx PropMsg Reasm PropRx PropRound Concrete.

Ltac traffics := repeat constructor; cbn; try lia; try discriminate.

(** ** C10: control_rx gets the tag-owner bit and the tag *)

Definition control_args_right : Prop :=
  forall (B : Type) (f : txfun B) s appl m b0 b1 l, legal f s m b0 b1 l ->
  always no_oom (history f s appl m b0 b1 l) (fun w tr =>
    forall d j src to tag msg, In d (deliveries tr) -> d_cb d = Some (EvCtrl j src to tag msg) ->
      to = d_to d /\ tag = d_tag d).

Definition control_request : list Z := packet 8 9 true true 0 true 3 [0; 128; 240; 1].

Theorem C10_refuted : ~ control_args_right.
Proof.
  intros H. assert (legal_node [OpSetRx true; rx control_request]) as Hl by (apply legal_node_intro; traffics).
  specialize (H _ _ _ no_app _ _ _ _ Hl calm calm_no_oom). vm_compute in H.
  destruct (H _ false 9 true 1 [0; 128; 240; 1] (or_introl eq_refl) eq_refl) as [_ E]. discriminate.
Qed.

(** ** C12: every message within the limit is reassembled *)

(** When the limit is [L] throughout and no packet carries more than [mtu] bytes, a
    message of at most [L] bytes whose packets arrive in order is delivered. *)
Definition accepts (cond : Z -> Z -> Prop) : Prop :=
  forall (B : Type) (f : txfun B) s appl (b0 b1 : binding B) m L ver src dest to tag mtu msg pkts w tr i p l first,
  cond L mtu -> zlen msg <= L ->
  packetised ver src dest to tag mtu msg pkts -> 0 <= tag <= 7 -> src <> 0 ->
  reaches_by (fun past => limited (fun n bs => n = L /\ zlen bs <= mtu + 4) 65536 (past ++ OpRx i p :: l))
             f s appl m b0 b1 w tr ->
  Forall (traffic m) (OpRx i p :: l) -> no_config (OpRx i p :: l) ->
  packets_for (mode_local m) (src, dest, tag) (OpRx i p :: l) = pkts ->
  nth_error pkts 0 = Some first -> pkt_is p first ->
  (length pkts = 1%nat \/ room w (src, dest, tag)) ->
  always no_oom (xops f s appl w (OpRx i p :: l)) (fun w' t =>
    exists d, deliveries_for (src, dest, tag) t = [d] /\ d_msg d = msg /\ d_to d = to).

Lemma limited_mono B (P Q : Z -> list Z -> Prop) : (forall n bs, P n bs -> Q n bs) ->
  forall (l : list (@op B)) cur, limited P cur l -> limited Q cur l.
Proof.
  intros H. induction l as [|o l IH]; intros cur; [auto|]. destruct o; cbn [limited]; auto.
  intros [H1 H2]. auto.
Qed.

Theorem C12_accepts : accepts (fun L mtu => exists J, 0 <= J /\ L = 4096 * 2 ^ J /\ L < 2 ^ 64 /\ mtu <= 4096).
Proof.
  intros B f s appl b0 b1 m L ver src dest to tag mtu msg pkts w tr i p l first (J & HJ & HL & HL64 & Hmtu).
  intros Hsz Hpk Htag Hsrc (past & e & n & H1 & H2 & H3) Ht Hc Hpf Hf Hp Hroom.
  eapply always_mono; [|eapply (C06_reassembly_complete f s appl b0 b1 m J L); try eassumption].
  - intros w' t (d & E1 & E2 & E3 & _). eauto.
  - exists past, e, n. split; [exact H1|]. split; [|exact H3].
    eapply limited_mono; [|exact H2]. cbn. intros k bs [-> Hb]. split; [reflexivity|lia].
Qed.

(** The history used for the refutations: set the limit, then receive the packets of
    a message of [n] bytes from endpoint 9, [mtu] bytes each. *)
Definition big (n : nat) : list Z := repeat 0 n.
Definition big_pkts (n : nat) (mtu : Z) : list (list Z) := frags n 1 9 8 false 0 mtu 0 (big n).

Lemma frags_len ver src dest to tag mtu : forall fuel k msg, 0 <= mtu ->
  Forall (fun p => zlen p <= mtu + 4) (frags fuel ver src dest to tag mtu k msg).
Proof.
  induction fuel as [|fuel IH]; intros k msg Hm; destruct msg as [|x msg]; cbn [frags]; try constructor.
  - set (pl := if mtu <? zlen (x :: msg) then mtu else zlen (x :: msg)).
    assert (0 <= pl <= mtu) as Hpl by (unfold pl; pose proof (zlen_pos _ (x :: msg)); destruct (_ <? _) eqn:E; lia).
    unfold zlen at 1. rewrite app_length, firstn_length. cbn [tx_hdr length]. lia.
  - now apply IH.
Qed.

Lemma packets_for_rx local k pkts : Forall (fun p => zlen p < 2 ^ 64) pkts ->
  @packets_for unit local k (map rx pkts) = filter (fun bs => taken local bs && key_eqb (h_key bs) k) pkts.
Proof.
  induction 1 as [|p pkts Hp _ IH]; [reflexivity|]. cbn [map packets_for flat_map filter].
  unfold rx at 1. rewrite (pkt_pkt_is p Hp). change (flat_map _ (map rx pkts)) with (@packets_for unit local k (map rx pkts)).
  rewrite IH. destruct (_ && _); reflexivity.
Qed.

Lemma limited_rx P cur pkts : Forall (fun p => zlen p < 2 ^ 64 /\ P cur p) pkts ->
  @limited unit P cur (map rx pkts).
Proof.
  induction 1 as [|p pkts [Hp HP] _ IH]; [exact I|]. cbn [map limited rx]. split; [|exact IH].
  intros bs Hb. pose proof (pkt_pkt_is p Hp) as E. unfold pkt_is in *. rewrite E in Hb. injection Hb as <-. exact HP.
Qed.

Lemma refute_accepts0 (cond : Z -> Z -> Prop) n L mtu w k tr first rest w' k' tr' :
  cond L mtu -> 0 <= L < 2 ^ 64 -> 1 <= mtu <= 2 ^ 20 -> Z.of_nat n <= L ->
  big_pkts n mtu = first :: rest ->
  run calm 0 [] (node [OpSetMax L]) = Done w k tr ->
  forallb (fun bs => taken (Some 8) bs && key_eqb (h_key bs) (9, 8, 0)) (first :: rest) = true ->
  length (partials w) = 0%nat ->
  run calm 0 [] (xops accept ok_start no_app w (map rx (first :: rest))) = Done w' k' tr' ->
  deliveries_for (9, 8, 0) tr' = [] ->
  ~ accepts cond.
Proof.
  intros Hc HL Hmtu Hn Hpk Hrun Hall Hpar Hrun' Hdel H.
  assert (Forall (fun p => zlen p <= mtu + 4) (first :: rest)) as Hlen.
  { rewrite <- Hpk. apply frags_len. lia. }
  assert (Forall (fun p => zlen p < 2 ^ 64) (first :: rest)) as Hlen'.
  { eapply Forall_impl; [|exact Hlen]. cbn. intros. lia. }
  specialize (H unit accept ok_start no_app (plain_binding tt) (plain_binding tt) (Endpoint 8) L 1 9 8 false 0 mtu
    (big n) (first :: rest) w tr false (pkt first) (map rx rest) first Hc).
  assert (zlen (big n) = Z.of_nat n) as Hzn by (unfold zlen, big; now rewrite repeat_length).
  rewrite Hzn in H. specialize (H Hn).
  assert (packetised 1 9 8 false 0 mtu (big n) (first :: rest)) as Hp.
  { rewrite <- Hpk. unfold big_pkts.
    pose proof (frags_packetised 1 9 8 false 0 mtu (big n)) as Hp. assert (length (big n) = n) as El by apply repeat_length.
    rewrite El in Hp. apply Hp; lia. }
  specialize (H Hp ltac:(lia) ltac:(lia)).
  assert (forall ps, Forall (fun p => zlen p < 2 ^ 64) ps -> Forall (@traffic unit (Endpoint 8)) (map rx ps)) as Htr.
  { intros ps Hps. apply Forall_map. eapply Forall_impl; [|exact Hps]. intros. now apply traffic_rx. }
  specialize (H) as H'. clear H. rename H' into H.
  assert (legal_node [OpSetMax L]) as Hleg.
  { apply legal_node_intro. repeat constructor; cbn; lia. }
  assert (always no_oom (xops accept ok_start no_app w (map rx (first :: rest))) (fun w' t =>
    exists d, deliveries_for (9, 8, 0) t = [d] /\ d_msg d = big n /\ d_to d = false)) as Ha.
  { apply H.
    - exists [OpSetMax L], calm, k. split; [exact Hleg|]. split; [|split; [apply calm_no_oom|exact Hrun]].
      apply (limited_rx (fun n bs => n = L /\ zlen bs <= mtu + 4) L (first :: rest)). rewrite Forall_forall in *. intros p Hin. auto.
    - exact (Htr (first :: rest) Hlen').
    - unfold no_config. apply Forall_forall. intros o Ho.
      change (In o (map (@rx unit) (first :: rest))) in Ho. apply in_map_iff in Ho. destruct Ho as (q & <- & _). exact I.
    - change (OpRx false (pkt first) :: map rx rest) with (map (@rx unit) (first :: rest)).
      rewrite packets_for_rx by exact Hlen'. cbn [mode_local].
      rewrite forallb_forall in Hall. clear - Hall. induction (first :: rest) as [|x l IH]; [reflexivity|].
      cbn [filter]. rewrite (Hall x) by now left. f_equal. apply IH. intros y Hy. apply Hall. now right.
    - reflexivity.
    - inversion Hlen'; subst. now apply pkt_pkt_is.
    - right. right. rewrite Hpar. lia. }
  specialize (Ha calm calm_no_oom). rewrite Hrun' in Ha. destruct Ha as (d & E & _). rewrite Hdel in E. discriminate.
Qed.

(** The message of [n] bytes in packets of [mtu] bytes is not delivered. *)
Definition lost (n L mtu : Z) : bool :=
  match run calm 0 [] (node [OpSetMax L]) with
  | Done w _ _ =>
      match big_pkts (Z.to_nat n) mtu with
      | first :: rest =>
          forallb (fun bs => taken (Some 8) bs && key_eqb (h_key bs) (9, 8, 0)) (first :: rest) &&
          Nat.eqb (length (partials w)) 0 &&
          match run calm 0 [] (xops accept ok_start no_app w (map rx (first :: rest))) with
          | Done _ _ tr => match deliveries_for (9, 8, 0) tr with [] => true | _ => false end
          | Fault _ _ => false
          end
      | [] => false
      end
  | Fault _ _ => false
  end.

Lemma refute_accepts (cond : Z -> Z -> Prop) n L mtu :
  cond L mtu -> 0 <= n <= L -> L < 2 ^ 64 -> 1 <= mtu <= 2 ^ 20 -> lost n L mtu = true -> ~ accepts cond.
Proof.
  intros Hc Hn HL Hm Hl. unfold lost in Hl.
  destruct (run calm 0 [] (node [OpSetMax L])) as [w k tr|] eqn:E1; [|discriminate].
  destruct (big_pkts (Z.to_nat n) mtu) as [|first rest] eqn:E2; [discriminate|].
  apply andb_true_iff in Hl. destruct Hl as [Hl H3]. apply andb_true_iff in Hl. destruct Hl as [H1 H2].
  destruct (run calm 0 [] (xops _ _ _ w _)) as [w' k' tr'|] eqn:E3; [|discriminate].
  destruct (deliveries_for (9, 8, 0) tr') eqn:E4; [|discriminate].
  eapply refute_accepts0; eauto; lia || (now apply Nat.eqb_eq) || idtac.
Qed.

(** A limit below 4096: even a 100-byte message in two packets is lost. *)
Theorem C12_refuted_small_limit : ~ accepts (fun L mtu => L = 4095 /\ mtu = 64).
Proof. apply (refute_accepts _ 100 4095 64); try lia. vm_compute. reflexivity. Qed.

(** A limit that is not 4096 times a power of two. *)
Theorem C12_refuted_odd_limit : ~ accepts (fun L mtu => L = 5000 /\ mtu = 1000).
Proof. apply (refute_accepts _ 4500 5000 1000); try lia. vm_compute. reflexivity. Qed.

(** The default limit, but packets of more than 4096 bytes. *)
Theorem C12_refuted_large_fragments : ~ accepts (fun L mtu => L = 65536 /\ mtu = 5000).
Proof. apply (refute_accepts _ 45000 65536 5000); try lia. vm_compute. reflexivity. Qed.

(** ** C15: out of memory is survived *)

Definition oom_survived : Prop :=
  forall (B : Type) (f : txfun B) s appl m b0 b1 l, legal f s m b0 b1 l ->
  (forall o, In o l -> exists i p, o = OpRx i p) ->
  always oom (xops f s appl (fresh b0 b1) (boot_op m :: l ++ [OpDestroy])) (fun _ _ => True).

Definition grow_twice : list (@op unit) :=
  [rx (packet 8 9 true false 0 false 0 (repeat 1 4000));
   rx (packet 8 9 false false 1 false 0 (repeat 2 4000))].
Definition next_message : list (@op unit) := [rx (packet 8 10 true false 0 false 1 [1; 2; 3])].

Lemma grow_twice_legal : legal_node (grow_twice ++ next_message).
Proof. apply legal_node_intro. repeat (apply Forall_cons; [apply traffic_rx; vm_compute; reflexivity|]). constructor. Qed.

(** After a failed growth the next message is written into freed memory ... *)
Theorem C15_use_after_free :
  legal_node (grow_twice ++ next_message) /\ can_fault oom (node (grow_twice ++ next_message)) UseAfterFree.
Proof.
  split; [exact grow_twice_legal|]. exists (oom_at 2). eexists. split; [apply oom_at_ok|]. vm_compute. reflexivity.
Qed.

(** ... and mctp_destroy frees the buffer a second time. *)
Theorem C15_double_free : can_fault oom (node (grow_twice ++ [OpDestroy])) DoubleFree.
Proof. exists (oom_at 2). eexists. split; [apply oom_at_ok|]. vm_compute. reflexivity. Qed.

Theorem C15_refuted : ~ oom_survived.
Proof.
  intros H. specialize (H _ accept ok_start no_app (Endpoint 8) (plain_binding tt) (plain_binding tt) _ grow_twice_legal).
  assert (forall o, In o (grow_twice ++ next_message) -> exists i p, o = OpRx i p) as Ho.
  { cbn [grow_twice next_message app In]. unfold rx. intros o [<-|[<-|[<-|[]]]]; eauto. }
  specialize (H Ho (oom_at 2) (oom_at_ok 2)). vm_compute in H. exact H.
Qed.

(** ** C16: a message is delivered only after its own first packet *)

Definition own_som_first : Prop :=
  forall (B : Type) (f : txfun B) s appl m b0 b1 l, legal f s m b0 b1 l ->
  always no_oom (history f s appl m b0 b1 l) (fun w tr =>
    at_each (fun before e => match e with
      | EvMsg i src dest to tag msg =>
          exists p, In p (rx_log before) /\ h_key p = (src, dest, tag) /\ h_som p = true
      | _ => True end) tr).

(** Endpoint 9 starts a message, its second packet has the wrong sequence number, so
    the message is dropped; then a packet from EID 0 arrives. *)
Definition resurrect : list (@op unit) :=
  [OpSetRx true;
   rx (packet 8 9 true false 0 false 0 [115; 101; 99; 114; 101; 116]);
   rx (packet 8 9 false true 3 false 0 [1]);
   rx (packet 8 0 false true 1 false 0 [33])].

Theorem C16_resurrected : legal_node resurrect /\
  can_finish no_oom (node resurrect) (fun w tr => In (EvRx 0 false 0 [115; 101; 99; 114; 101; 116; 33]) tr).
Proof.
  split.
  - apply legal_node_intro. apply Forall_cons; [exact I|].
    repeat (apply Forall_cons; [apply traffic_rx; vm_compute; reflexivity|]). constructor.
  - exists calm. do 3 eexists. split; [apply calm_no_oom|]. split; [vm_compute; reflexivity|]. vm_compute. tauto.
Qed.

(** The first event of a trace that satisfies a test. *)
Lemma at_each_in P tr e : at_each P tr -> In e tr -> exists before after, tr = before ++ e :: after /\ P before e.
Proof. intros H Hin. apply in_split in Hin. destruct Hin as (a & b & ->). exists a, b. eauto. Qed.

Theorem C16_refuted : ~ own_som_first.
Proof.
  intros H. specialize (H _ _ _ no_app _ _ _ _ (proj1 C16_resurrected) calm calm_no_oom).
  change (history accept ok_start no_app (Endpoint 8) (plain_binding tt) (plain_binding tt) resurrect)
    with (node resurrect) in H.
  destruct (run calm 0 [] (node resurrect)) as [w n tr|] eqn:E; [|exact H].
  assert (exists src dest to tag msg, In (EvMsg false src dest to tag msg) tr /\ (src, dest, tag) = (0, 8, 0)) as Hin.
  { exists 0, 8, false, 0, [115; 101; 99; 114; 101; 116; 33]. split; [|reflexivity].
    revert E. vm_compute. intros [= <- <- <-]. cbn. tauto. }
  destruct Hin as (sr & d & to & tag & msg & Hin & Hk).
  destruct (at_each_in _ _ _ H Hin) as (a & b & Etr & p & Hp & Hkey & Hsom).
  assert (forall q, In q (rx_log tr) -> h_key q = (0, 8, 0) -> h_som q = false) as Hno.
  { revert E. clear. vm_compute. intros [= <- <- <-]. cbn. intros q Hq.
    repeat (destruct Hq as [<-|Hq]; [vm_compute; congruence|]). contradiction. }
  specialize (Hno p). rewrite Etr, rx_log_app in Hno. rewrite Hno in Hsom; [discriminate| |congruence].
  apply in_or_app. now left.
Qed.

(** ** C17: messages that differ only in the tag-owner bit are kept apart *)

Definition tag_owner_kept_apart : Prop :=
  forall (B : Type) (f : txfun B) s appl m b0 b1 l, legal f s m b0 b1 l ->
  always no_oom (history f s appl m b0 b1 l) (fun w tr =>
    at_each (fun before e => match e with
      | EvMsg i src dest to tag msg => src <> 0 ->
          (exists p, In p (rx_log before) /\ h_som p = true /\ h_eom p = true /\ payload p = msg) \/
          exists old pk, keyed (src, dest, tag) (rx_log before) = old ++ pk /\ whole pk msg /\
                         Forall (fun p => h_to p = to) pk
      | _ => True end) tr).

Definition mixed : list (@op unit) :=
  [OpSetRx true; rx (packet 8 9 true false 0 true 0 [1; 2; 3]); rx (packet 8 9 false true 1 false 0 [4; 5; 6])].

Lemma mixed_legal : legal_node mixed.
Proof.
  apply legal_node_intro. apply Forall_cons; [exact I|].
  repeat (apply Forall_cons; [apply traffic_rx; vm_compute; reflexivity|]). constructor.
Qed.

Theorem C17_refuted : ~ tag_owner_kept_apart.
Proof.
  intros H. specialize (H _ _ _ no_app _ _ _ _ mixed_legal calm calm_no_oom).
  change (history accept ok_start no_app (Endpoint 8) (plain_binding tt) (plain_binding tt) mixed)
    with (node mixed) in H.
  destruct (run calm 0 [] (node mixed)) as [w n tr|] eqn:E; [|exact H].
  assert (In (EvMsg false 9 8 false 0 [1; 2; 3; 4; 5; 6]) tr) as Hin.
  { revert E. clear. vm_compute. intros [= <- <- <-]. cbn. tauto. }
  destruct (at_each_in _ _ _ H Hin) as (a & b & Etr & Hp). specialize (Hp ltac:(lia)).
  assert (exists c, keyed (9, 8, 0) (rx_log tr) = keyed (9, 8, 0) (rx_log a) ++ c) as (c & Hkt).
  { exists (keyed (9, 8, 0) (rx_log (EvMsg false 9 8 false 0 [1; 2; 3; 4; 5; 6] :: b))).
    rewrite <- keyed_app, <- rx_log_app, <- Etr. reflexivity. }
  assert (forall q, In q (rx_log tr) -> h_som q && h_eom q = false) as Hno.
  { revert E. clear. vm_compute. intros [= <- <- <-]. cbn. intros q Hq.
    repeat (destruct Hq as [<-|Hq]; [reflexivity|]). contradiction. }
  destruct Hp as [(p & Hp & H1 & H2 & _)|(old & pk & Hk & Hw & Hto)].
  { specialize (Hno p). rewrite H1, H2 in Hno. cut (true = false); [discriminate|]. apply Hno.
    rewrite Etr, rx_log_app. apply in_or_app. now left. }
  destruct Hw as (first & mids & last & Epk & _ & _ & _ & _ & _ & _).
  assert (exists p q, keyed (9, 8, 0) (rx_log tr) = [p; q] /\ h_to p = true) as (p & q & Hpq & Hpt).
  { revert E. clear. vm_compute. intros [= <- <- <-]. do 2 eexists. split; vm_compute; reflexivity. }
  rewrite Hpq, Hk, Epk in Hkt. rewrite Epk in Hto.
  destruct old as [|o1 old].
  - cbn in Hkt. injection Hkt as <- _. inversion Hto; subst. congruence.
  - apply (f_equal (@length _)) in Hkt. cbn in Hkt. rewrite !app_length in Hkt. cbn in Hkt. rewrite app_length in Hkt. cbn in Hkt. lia.
Qed.

(** ** C20: unsafe life cycles *)

(** mctp_unregister_bus leaves a dangling pointer that mctp_destroy frees again. *)
Theorem C20_unregister_destroy_double_free : can_fault no_oom (node [OpUnregister; OpDestroy]) DoubleFree.
Proof. exists calm. eexists. split; [apply calm_no_oom|]. vm_compute. reflexivity. Qed.

(** A failed registration leaves the object claiming one bus: the next transmission
    dereferences null. *)
Theorem C20_register_oom_null_deref : can_fault oom (node [OpTx 9 true 0 [1; 2; 3]]) NullDeref.
Proof. exists (oom_at 0). eexists. split; [apply oom_at_ok|]. vm_compute. reflexivity. Qed.

(** Packets still queued when the bus is unregistered are never released. *)
Theorem C20_unregister_leaks :
  can_finish no_oom (node [OpSetTx false true; OpSetTx false false; OpTx 9 true 0 [1; 2; 3]; OpUnregister])
    (fun w tr => exists n, In n (allocs tr) /\ ~ In n (frees tr) /\ queued w false = [] /\ queued w true = []).
Proof.
  exists calm. do 3 eexists. split; [apply calm_no_oom|]. split; [vm_compute; reflexivity|].
  exists 0. vm_compute. intuition discriminate.
Qed.

(** Running out of memory in mctp_message_tx dereferences null. *)
Theorem C15_tx_null_deref :
  legal_node [OpSetTx false true; OpTx 9 true 0 [1; 2; 3]] /\
  can_fault oom (node [OpSetTx false true; OpTx 9 true 0 [1; 2; 3]]) NullDeref.
Proof.
  split; [apply legal_node_intro; traffics|].
  exists (oom_at 1). eexists. split; [apply oom_at_ok|]. vm_compute. reflexivity.
Qed.
