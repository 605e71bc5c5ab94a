(** ExamplesMany: concrete cases for C75, and why its bound of 16 senders is sharp. *)
From Verif Require Import Base Lists Prog PktBuf Core WP Walk CoreRel WalkCore CoreHist Spec SpecRx Trace PropTx PropMsg
  Reasm PropRx PropRound PropBridge PropSerRound SpecDuo DuoMsg PropDuoMsg PropSerStream Many PropMany Concrete ExamplesCore.

Ltac limited_solve := cbn [app limited];
    repeat match goal with
    | |- _ /\ _ => split
    | |- True => exact I
    | |- forall bs, pkt_is _ _ -> _ => let Hb := fresh in intros bs Hb; revert Hb; vm_compute; intros [= <-]; split; [reflexivity|discriminate]
    end.

(** An endpoint that listens and has received one message. *)
Definition hearing : list (@op unit) := [OpSetRx true; rx (packet 8 9 true true 0 true 3 [1; 2; 3])].

(** Endpoints 9 and 10 ask for these messages: the first of each takes several packets, and one
    of endpoint 10's is for somebody else. *)
Definition asks (x : Z) : list txreq :=
  if x =? 9 then [mkReq 8 true 5 (repeat 11 130); mkReq 255 false 2 (repeat 12 70)]
  else if x =? 10 then [mkReq 8 true 5 (repeat 13 200); mkReq 33 true 5 [1; 2]; mkReq 8 true 5 [14]]
  else [].
Definition cut (x : Z) : list (list Z) :=
  flat_map (fun r => frags (length (r_msg r)) 1 x (r_eid r) (r_to r) (r_tag r) 64 0 (r_msg r)) (asks x).
Fixpoint shuffle {A} (a b : list A) : list A :=
  match a, b with x :: a', y :: b' => x :: y :: shuffle a' b' | [], b => b | a, [] => a end.

Lemma cut_packs x : packs 68 x (asks x) (cut x).
Proof.
  unfold cut. assert (Forall (fun r => 0 <= r_tag r <= 7) (asks x)) as H.
  { unfold asks. destruct (x =? 9); [repeat constructor; cbn; lia|]. destruct (x =? 10); repeat constructor; cbn; lia. }
  induction H as [|r l Hr Hl IH]; [apply packs_nil|]. cbn [flat_map]. apply (packs_app _ _ [r]); [|exact IH].
  eexists [_]. split; [|cbn [concat]; now rewrite app_nil_r]. constructor; [|constructor]. split; [exact Hr|].
  exists 1, 64. split; [lia|]. apply frags_packetised; lia.
Qed.

(** The hypotheses of C75_receive hold of their packets shuffled (the last one is still to come), and
    what it says is heard is this. *)
Definition party_line : list (@op unit) := OpTx 9 false 0 [1] :: map rx (removelast (shuffle (cut 9) (cut 10))).
Lemma rx_traffic l : forallb (fun bs => zlen bs <? 2 ^ 64) l = true -> Forall (@traffic unit (Endpoint 8)) (map rx l).
Proof.
  intros H. apply Forall_map, Forall_forall. intros bs Hin. apply traffic_rx. rewrite forallb_forall in H. specialize (H _ Hin). lia.
Qed.
Lemma party_traffic : Forall (traffic (Endpoint 8)) party_line.
Proof. apply Forall_cons; [exact I|]. apply rx_traffic. vm_compute. reflexivity. Qed.
Lemma party_quiet : no_config party_line.
Proof. apply Forall_cons; [exact I|]. apply Forall_map, Forall_forall. intros; exact I. Qed.
Lemma party_members bs : In bs (arrivals party_line) -> taken (Some 8) bs = true -> In (h_src bs) [9; 10].
Proof.
  assert (forallb (fun bs => (h_src bs =? 9) || (h_src bs =? 10)) (arrivals party_line) = true) as Hall by (vm_compute; reflexivity).
  intros Hin _. rewrite forallb_forall in Hall. specialize (Hall _ Hin). cbn [In]. lia.
Qed.
Example C75_receive_case : exists w tr,
  settled_at accept ok_start no_app (plain_binding tt) (plain_binding tt) (4096 * 2 ^ 4) (Endpoint 8) w tr /\ m_rx (w_m w) = true /\
  Forall (traffic (Endpoint 8)) party_line /\ no_config party_line /\
  (forall bs, In bs (arrivals party_line) -> taken (Some 8) bs = true -> In (h_src bs) [9; 10]) /\
  (forall x, In x [9; 10] -> packs 68 x (asks x) (from x (arrivals party_line) ++ (if x =? 9 then [] else [last (cut 10) []])) /\
     Forall (fun r => zlen (r_msg r) <= 4096 * 2 ^ 4 /\ forall j, bd_ctrl (bnd w j) && transport_request (r_msg r) = false) (asks x)) /\
  can_finish no_oom (xops accept ok_start no_app w party_line) (fun _ t =>
    heard_from 9 t = map (as_heard 9) (asks 9) /\ heard_from 10 t = [(10, true, 5, repeat 13 200)]).
Proof.
  do 2 eexists. split; [split; [exists hearing, calm; eexists|]|].
  - split; [apply legal_node_intro; repeat (apply Forall_cons; [exact I || (apply traffic_rx; vm_compute; reflexivity)|]); constructor|].
    split; [|split; [apply calm_no_oom|vm_compute; reflexivity]]. unfold hearing, rx. limited_solve.
  - split; vm_compute; reflexivity.
  - split; [vm_compute; reflexivity|]. split; [exact party_traffic|]. split; [exact party_quiet|]. split; [exact party_members|]. split.
    + intros x [<-|[<-|[]]]; (split; [|repeat constructor; try (vm_compute; discriminate); intros [|]; vm_compute; reflexivity]).
      * pose proof (cut_packs 9) as H. revert H. generalize (packs 68 9). intros P. vm_compute. auto.
      * pose proof (cut_packs 10) as H. revert H. generalize (packs 68 10). intros P. vm_compute. auto.
    + apply (by_run no_oom calm); [apply calm_no_oom|]. vm_compute. auto.
Qed.

(** End to end: 9 and 10 on bus 0 and 11 on bus 1 of a bridge; 8 listens on bus 1. *)
Definition asks3 (x : Z) : list txreq := if x =? 11 then [mkReq 8 true 1 (repeat 15 100)] else asks x.
Definition cut3 (x : Z) : list (list Z) :=
  flat_map (fun r => frags (length (r_msg r)) 1 x (r_eid r) (r_to r) (r_tag r) 64 0 (r_msg r)) (asks3 x).
Definition req_op (r : txreq) : @op unit := OpTx (r_eid r) (r_to r) (r_tag r) (r_msg r).
Definition far (bs : list Z) : @op unit := OpRx true (pkt bs).

Lemma cut3_transmits x : In x [9; 10; 11] -> transmits x 68 (asks3 x) (cut3 x).
Proof.
  intros Hx.
  assert (exists w n tr, run calm 0 [] (history accept ok_start no_app (Endpoint x) (plain_binding tt) (plain_binding tt) [OpSetTx false true]) = Done w n tr /\
    forallb (fun j => match bus_state_of w j with Some Constructed => false | _ => true end &&
             (bd_pkt_size (bnd w j) <=? 68)) [false; true] = true /\
    exists w' n' t, run calm 0 [] (xops accept ok_start no_app w (map req_op (asks3 x))) = Done w' n' t /\
      asks3 x = asked no_app (calls (map req_op (asks3 x))) t /\ cut3 x = put false t) as (w & n & tr & Hr & Hb & w' & n' & t & Hr' & E1 & E2).
  { destruct Hx as [<-|[<-|[<-|[]]]]; do 3 eexists; (split; [vm_compute; reflexivity|]); (split; [vm_compute; reflexivity|]);
      do 3 eexists; (split; [vm_compute; reflexivity|]); vm_compute; auto. }
  rewrite forallb_forall in Hb.
  exists unit, accept, ok_start, no_app, (plain_binding tt), (plain_binding tt), w, tr, (map req_op (asks3 x)), calm, w', n', t.
  split. { exists [OpSetTx false true], calm, n. split; [|split; [apply calm_no_oom|exact Hr]].
    apply legal_intro; [apply accept_polite|apply ok_start_starts|apply plain_dims|apply plain_dims|]. apply Forall_cons; [discriminate|constructor]. }
  assert (forall j, In j [false; true]) as Hj by (intros [|]; cbn; auto).
  split. { intros j E. specialize (Hb j (Hj j)). rewrite E in Hb. discriminate. }
  split. { split; [intros j; specialize (Hb j (Hj j)); lia|].
    apply Forall_map, Forall_forall. intros; exact I. }
  split; [apply Forall_map, Forall_forall; intros; exact I|]. split; [apply calm_no_oom|]. auto.
Qed.

Definition crossing : list (@op unit) := shuffle (map rx (shuffle (cut3 9) (cut3 10))) (map far (cut3 11)).
(** The computed runs. *)
Definition run_w (p : prog (world unit)) : world unit :=
  match run calm 0 [] p with Done w _ _ => w | _ => fresh (plain_binding tt) (plain_binding tt) end.
Definition run_t {X} (p : prog X) : list event := match run calm 0 [] p with Done _ _ t => t | _ => [] end.
Definition bridge_up : list (@op unit) := [OpSetTx false true; OpSetTx true true].
Definition ends_done {X} (p : prog X) : bool := match run calm 0 [] p with Done _ _ _ => true | _ => false end.
Lemma run_done {X} (p : prog X) : ends_done p = true -> exists w n, run calm 0 [] p = Done w n (run_t p).
Proof. unfold ends_done, run_t. destruct (run calm 0 [] p) as [w n t|]; [eauto|discriminate]. Qed.
Lemma run_done_w p : ends_done p = true -> exists n, run calm 0 [] p = Done (run_w p) n (run_t p).
Proof. unfold ends_done, run_t, run_w. destruct (run calm 0 [] p) as [w n t|]; [eauto|discriminate]. Qed.
Definition bridge_hist := history accept ok_start no_app Bridge (plain_binding tt) (plain_binding tt) bridge_up.
Definition bridge_w : world unit := run_w bridge_hist.
Definition bridge_t : list event := run_t (xops accept ok_start no_app bridge_w crossing).
Definition ear_hist := node hearing.
Definition ear_w : world unit := run_w ear_hist.
Definition crossed : list (@op unit) := map rx (removelast (put true bridge_t)).

Lemma bridge_settled : settled_at accept ok_start no_app (plain_binding tt) (plain_binding tt) (4096 * 2 ^ 4) Bridge bridge_w (run_t bridge_hist).
Proof.
  split; [|split; vm_compute; reflexivity].
  destruct (run_done_w bridge_hist) as (n & Hn); [vm_compute; reflexivity|]. exists bridge_up, calm, n.
  split. { apply legal_intro; [apply accept_polite|apply ok_start_starts|apply plain_dims|apply plain_dims|].
    apply Forall_cons; [discriminate|]. apply Forall_cons; [intros _; reflexivity|]. constructor. }
  split; [exact I|]. split; [apply calm_no_oom|exact Hn].
Qed.
Lemma ear_settled : settled_at accept ok_start no_app (plain_binding tt) (plain_binding tt) (4096 * 2 ^ 4) (Endpoint 8) ear_w (run_t ear_hist).
Proof.
  split; [|split; vm_compute; reflexivity].
  destruct (run_done_w ear_hist) as (n & Hn); [vm_compute; reflexivity|]. exists hearing, calm, n.
  split. { apply legal_node_intro. apply Forall_cons; [exact I|]. apply Forall_cons; [|constructor]. apply traffic_rx. vm_compute. reflexivity. }
  split; [unfold hearing, rx; limited_solve|]. split; [apply calm_no_oom|exact Hn].
Qed.
Lemma crossing_ops (P : @op unit -> Prop) :
  (forall i bs, zlen bs < 2 ^ 64 -> P (OpRx i (pkt bs))) -> Forall P crossing.
Proof.
  intros H. assert (forall a b, Forall P a -> Forall P b -> Forall P (shuffle a b)) as Hs.
  { induction a as [|x a IH]; intros [|y b] Ha Hb; cbn [shuffle]; auto. inversion Ha; inversion Hb; subst. auto. }
  apply Hs; apply Forall_map, Forall_forall; intros bs Hin; apply H.
  - assert (forallb (fun bs => zlen bs <? 2 ^ 64) (shuffle (cut3 9) (cut3 10)) = true) as Ha by (vm_compute; reflexivity).
    rewrite forallb_forall in Ha. specialize (Ha _ Hin). lia.
  - assert (forallb (fun bs => zlen bs <? 2 ^ 64) (cut3 11) = true) as Ha by (vm_compute; reflexivity).
    rewrite forallb_forall in Ha. specialize (Ha _ Hin). lia.
Qed.

Example C75_across_case : exists w1 n1 later,
  (forall x, In x [9; 10; 11] ->
     transmits x 68 (asks3 x) (from x (arrivals_on (x =? 11) crossing) ++ []) /\ from x (arrivals_on (negb (x =? 11)) crossing) = [] /\
     Forall (fun r => zlen (r_msg r) <= 4096 * 2 ^ 4 /\ forall j, bd_ctrl (bnd ear_w j) && transport_request (r_msg r) = false) (asks3 x)) /\
  (forall bs, In bs (arrivals crossing) -> 4 < zlen bs -> In (h_src bs) [9; 10; 11]) /\
  settled_at accept ok_start no_app (plain_binding tt) (plain_binding tt) (4096 * 2 ^ 4) Bridge bridge_w (run_t bridge_hist) /\
  (forall j, bus_state_of bridge_w j <> Some Constructed) /\ sized 68 bridge_w crossing /\
  Forall (traffic Bridge) crossing /\ no_config crossing /\ calls crossing = [] /\
  run calm 0 [] (xops accept ok_start no_app bridge_w crossing) = Done w1 n1 bridge_t /\
  settled_at accept ok_start no_app (plain_binding tt) (plain_binding tt) (4096 * 2 ^ 4) (Endpoint 8) ear_w (run_t ear_hist) /\
  m_rx (w_m ear_w) = true /\
  Forall (traffic (Endpoint 8)) crossed /\ no_config crossed /\ arrivals crossed ++ later = put true bridge_t /\
  can_finish no_oom (xops accept ok_start no_app ear_w crossed) (fun _ t2 =>
    heard_from 9 t2 = map (as_heard 9) (asks 9) /\ heard_from 10 t2 = [(10, true, 5, repeat 13 200)] /\ heard_from 11 t2 = []).
Proof.
  destruct (run_done (xops accept ok_start no_app bridge_w crossing)) as (w1 & n1 & Hrun); [vm_compute; reflexivity|].
  exists w1, n1, [last (put true bridge_t) []].
  split; [|split; [|split; [exact bridge_settled|]]].
  - intros x Hx. split; [|split].
    + pose proof (cut3_transmits x Hx) as H. rewrite app_nil_r.
      replace (from x (arrivals_on (x =? 11) crossing)) with (cut3 x); [exact H|].
      clear H. destruct Hx as [<-|[<-|[<-|[]]]]; vm_compute; reflexivity.
    + destruct Hx as [<-|[<-|[<-|[]]]]; vm_compute; reflexivity.
    + assert (forallb (fun r => (zlen (r_msg r) <=? 4096 * 2 ^ 4) && negb (transport_request (r_msg r))) (asks3 x) = true) as Hs
        by (destruct Hx as [<-|[<-|[<-|[]]]]; vm_compute; reflexivity).
      rewrite forallb_forall in Hs. apply Forall_forall. intros r Hr. specialize (Hs r Hr).
      apply andb_true_iff in Hs. destruct Hs as [H1 H2].
      split; [lia|]. intros j. destruct (transport_request _); [discriminate|apply andb_false_r].
  - assert (forallb (fun bs => (h_src bs =? 9) || (h_src bs =? 10) || (h_src bs =? 11)) (arrivals crossing) = true) as Hall
      by (vm_compute; reflexivity).
    intros bs Hin _. rewrite forallb_forall in Hall. specialize (Hall _ Hin). cbn [In]. lia.
  - split; [intros [|]; vm_compute; discriminate|].
    split; [split; [intros [|]; vm_compute; discriminate|apply crossing_ops; intros; exact I]|].
    split; [apply crossing_ops; intros i bs H; split; [intros _; reflexivity|exact (pkt_wf bs H)]|].
    split; [apply crossing_ops; intros; exact I|]. split; [vm_compute; reflexivity|]. split; [exact Hrun|]. split; [exact ear_settled|].
    split; [vm_compute; reflexivity|].
    split; [apply rx_traffic; vm_compute; reflexivity|]. split; [apply Forall_map, Forall_forall; intros; exact I|].
    split; [vm_compute; reflexivity|]. apply (by_run no_oom calm); [apply calm_no_oom|]. vm_compute. auto.
Qed.

(** With 17 senders the bound is passed: everything else that C75_receive asks for holds, no packet
    is lost, and yet the seventeenth sender is not heard. *)
Definition crowd : list Z := map Z.of_nat (seq 9 17).
Definition shout (x : Z) : list (list Z) := frags 100 1 x 8 true 0 64 0 (repeat x 100).
Definition crowded : list (@op unit) :=
  map rx (map (fun x => nth 0 (shout x) []) crowd ++ map (fun x => nth 1 (shout x) []) crowd).
Theorem C75_seventeen :
  settled_at accept ok_start no_app (plain_binding tt) (plain_binding tt) (4096 * 2 ^ 4) (Endpoint 8) ear_w (run_t ear_hist) /\
  m_rx (w_m ear_w) = true /\ Forall (traffic (Endpoint 8)) crowded /\ no_config crowded /\
  length crowd = 17%nat /\ ~ In 0 crowd /\
  (forall bs, In bs (arrivals crowded) -> In (h_src bs) crowd) /\
  (forall x, In x crowd -> packs 68 x [mkReq 8 true 0 (repeat x 100)] (from x (arrivals crowded))) /\
  can_finish no_oom (xops accept ok_start no_app ear_w crowded) (fun _ t =>
    heard_from 25 t = [] /\ forall x, 9 <= x <= 24 -> heard_from x t = [(x, true, 0, repeat x 100)]).
Proof.
  split; [exact ear_settled|]. split; [vm_compute; reflexivity|].
  split. { apply rx_traffic. vm_compute. reflexivity. }
  split. { apply Forall_map, Forall_forall. intros; exact I. }
  split; [reflexivity|]. split; [vm_compute; intuition discriminate|].
  split. { assert (forallb (fun bs => existsb (Z.eqb (h_src bs)) crowd) (arrivals crowded) = true) as H by (vm_compute; reflexivity).
    intros bs Hin. rewrite forallb_forall in H. specialize (H _ Hin). apply existsb_exists in H. destruct H as (x & Hx & E).
    apply Z.eqb_eq in E. rewrite E. exact Hx. }
  split.
  { intros x Hx. assert (from x (arrivals crowded) = shout x) as ->.
    { assert (forallb (fun x => if list_eq_dec (list_eq_dec Z.eq_dec) (from x (arrivals crowded)) (shout x) then true else false) crowd = true) as H
        by (vm_compute; reflexivity).
      rewrite forallb_forall in H. specialize (H _ Hx). destruct (list_eq_dec _ _ _); [assumption|discriminate]. }
    eexists [_]. split; [|cbn [concat]; now rewrite app_nil_r]. constructor; [|constructor]. split; [cbn; lia|].
    exists 1, 64. split; [lia|]. apply (frags_packetised 1 x 8 true 0 64 (repeat x 100)); lia. }
  apply (by_run no_oom calm); [apply calm_no_oom|]. unfold run_sat.
  destruct (run_done (xops accept ok_start no_app ear_w crowded)) as (w1 & n1 & ->); [vm_compute; reflexivity|].
  split; [vm_compute; reflexivity|]. intros x Hx.
  assert (forallb (fun x => match heard_from x (run_t (xops accept ok_start no_app ear_w crowded)) with
     [(a, true, 0, m)] => (a =? x) && if list_eq_dec Z.eq_dec m (repeat x 100) then true else false | _ => false end) (map Z.of_nat (seq 9 16)) = true) as H
    by (vm_compute; reflexivity).
  rewrite forallb_forall in H. specialize (H x).
  assert (In x (map Z.of_nat (seq 9 16))) as Hin.
  { apply in_map_iff. exists (Z.to_nat x). split; [lia|]. apply in_seq. lia. }
  specialize (H Hin). destruct (heard_from x _) as [|[[[a [|]] [|?|?]] m] [|]]; try discriminate.
  apply andb_true_iff in H. destruct H as [H1 H2]. destruct (list_eq_dec Z.eq_dec m (repeat x 100)) as [->|]; [|discriminate].
  apply Z.eqb_eq in H1. now subst.
Qed.
