(** PropServe: C67: requests and answers over the astlpc channel.  The BMC's application
    answers each message in its message handler, as utils/mctp-astlpc-daemon.c does. *)
From Verif Require Import Base Lists Prog PktBuf Core WP Walk CoreRel WalkCore CoreHist Spec SpecRx Trace PropTx PropMsg
  Reasm PropRx PropRound PropSerRound Crc Astlpc SpecAst AstBasic
  AstWalk PropAst TwoParty DuoInv DuoPast DuoWalk PropDuo SpecDuo DuoMsg PropDuoMsg SpecLive DuoLive PropLive.

(** An application that answers what it hears with [reply], from its message handler. *)
Definition server (reply : Z * bool * Z * list Z -> list txreq) (e : event) : list txreq :=
  match e with EvRx src to tag msg => reply (src, to, tag, msg) | _ => [] end.
(** utils/mctp-astlpc-daemon.c:24-49: an echo request (first byte 1) is answered with the
    same contents and first byte 2, with the tag owner bit clear and tag 1
    (MCTP_MESSAGE_TO_SRC = true passed for the tag, libmctp.h:40); anything else is ignored. *)
Definition echo_daemon (m : Z * bool * Z * list Z) : list txreq :=
  match m with
  | (src, _, _, 1 :: rest) => [mkReq src false 1 (2 :: rest)]
  | _ => []
  end.
(** The side sets its message handler and then only polls
    (utils/mctp-astlpc-daemon.c:69,97-102). *)
Definition serving (l : list aop) : Prop :=
  exists c, l = ACore (OpSetRx true) :: c /\ Forall (fun o => match o with APoll _ => True | _ => False end) c.
(** The answers to [l] that reach the application of endpoint [to], as it hears them from [from]. *)
Definition answers (reply : Z * bool * Z * list Z -> list txreq) (from to : Z) (l : list (Z * bool * Z * list Z)) :
  list (Z * bool * Z * list Z) := map (as_heard from) (filter (meant_for to) (flat_map reply l)).

Lemma serving_listening l : serving l -> listening l.
Proof.
  intros (c & -> & H). exists c. split; [reflexivity|]. eapply Forall_impl; [|exact H]. intros [|]; [contradiction|auto].
Qed.
Lemma serving_requests l : serving l -> Forall (fun r => r = None) (requests l).
Proof.
  intros (c & -> & H). unfold requests. cbn [flat_map Datatypes.app]. induction H as [|o c Ho Hc IH]; [constructor|].
  destruct o; [contradiction|]. cbn [flat_map Datatypes.app]. now constructor.
Qed.

(** Nothing is heard before transmission has been enabled. *)
Definition is_on (e : event) : bool := match e with EvSetTx _ true => true | _ => false end.
Definition hears (e : event) : bool := match e with EvRx _ _ _ _ => true | _ => false end.
Fixpoint late (u : bool) (tr : list event) : Prop :=
  match tr with
  | [] => True
  | e :: t => (hears e = true -> u = true) /\ late (u || is_on e) t
  end.
Lemma late_app a : forall u b, late u (a ++ b) <-> late u a /\ late (u || existsb is_on a) b.
Proof.
  induction a as [|e a IH]; intros u b; cbn [late Datatypes.app existsb]; [rewrite orb_false_r; tauto|].
  rewrite IH, orb_assoc. tauto.
Qed.
Lemma late_dull u t : existsb hears t = false -> late u t.
Proof.
  revert u. induction t as [|e t IH]; intros u H; [exact I|]. cbn [existsb] in H. apply orb_false_elim in H as [H1 H2].
  cbn [late]. split; [congruence|]. now apply IH.
Qed.
Lemma late_true t : forall u, u = true -> late u t.
Proof. induction t as [|e t IH]; intros u ->; [exact I|]. cbn [late]. split; [reflexivity|]. now apply IH. Qed.
Lemma mums_hear t : Forall mum_ev t -> existsb hears t = false.
Proof. induction 1 as [|e t He Ht IH]; [reflexivity|]. cbn [existsb]. rewrite IH. destruct e; try reflexivity; contradiction. Qed.

Lemma talk_up app t : forall k, t_up (fold_left (talk_step app) t k) = t_up k || existsb is_on t.
Proof.
  induction t as [|e t IH]; intros k; cbn [fold_left existsb]; [now rewrite orb_false_r|].
  rewrite IH, orb_assoc. f_equal. destruct e; cbn [talk_step is_on t_up]; try (now rewrite orb_false_r).
  - match goal with |- _ = _ || (if ?b then _ else _) => destruct b; reflexivity end.
  - destruct (t_next k) as [|[r|] l]; cbn [t_up]; now rewrite orb_false_r.
Qed.

(** *** Of the past of the BMC *)
Lemma past_late app N eid (HN : 68 <= N) b ops w tr : past true app N eid b ops w tr -> late false tr.
Proof.
  induction 1 as [s mtu x t Hb|ops w tr Hp IH|ops w tr t Hp IH Ht|ops w tr x n Hp IH Hw|ops w tr en t w' Hp IH Hw Hn Hr
    |ops w tr x n io bs t w' Hp IH Hw Hio Hg Hbm Hr|ops w tr rc Hp IH|ops w tr dest to tag msg rc t w' Hp IH Hw Hr|ops w tr o w' Hp IH Hc];
    try exact IH; try (apply late_app; split; [try exact IH|]).
  - apply late_dull, mums_hear. destruct (boots_off _ Hb) as (B1 & _). now apply dull_mums.
  - apply late_dull. reflexivity.
  - apply late_dull, mums_hear, dull_mums. now destruct (wires_off _ Ht).
  - apply late_dull. destruct Hr as [| | |? ? ? ? ? Htx]; try reflexivity.
    cbn [existsb hears]. apply mums_hear, dull_mums. eapply txs_dull; eassumption.
  - apply late_true. destruct (past_Sinv N HN eid app true _ _ _ _ Hp) as [_ _ _ _ (acc & _ & Hs)].
    destruct (Hs [APoll false]) as [Ht _]; [intros _; eexists; reflexivity|].
    specialize (Hbm eq_refl). rewrite Hbm in Ht. apply (f_equal t_up) in Ht. unfold talked in Ht. rewrite talk_up in Ht. exact Ht.
  - apply late_dull. reflexivity.
  - apply late_dull. rewrite existsb_app. cbn [existsb hears]. rewrite orb_false_r. apply mums_hear, dull_mums. eapply message_dull; eassumption.
Qed.

(** *** What a server has said is what it answered *)
Section Server.
Variable reply : Z * bool * Z * list Z -> list txreq.
Hypothesis Htag : forall m, Forall (fun r => 0 <= r_tag r <= 7) (reply m).

Lemma reply_ok m : filter tag_ok (reply m) = reply m.
Proof.
  specialize (Htag m). induction Htag as [|r l Hr Hl IH]; [reflexivity|]. cbn [filter]. unfold tag_ok at 1.
  replace ((0 <=? r_tag r) && (r_tag r <=? 7)) with true by lia. now rewrite IH.
Qed.

Lemma server_said tr : forall k, late (t_up k) tr -> Forall (fun r => r = None) (t_next k) ->
  t_said (fold_left (talk_step (server reply)) tr k) = t_said k ++ flat_map reply (heard tr).
Proof.
  induction tr as [|e tr IH]; intros k Hl Hn; [cbn; now rewrite app_nil_r|]. cbn [late] in Hl. destruct Hl as [H1 H2].
  cbn [fold_left]. change (e :: tr) with ([e] ++ tr). rewrite heard_app, flat_map_app, app_assoc.
  assert (t_up (talk_step (server reply) k e) = t_up k || is_on e) as Eu by (exact (talk_up (server reply) [e] k) || (rewrite <- (orb_false_r (is_on e)); exact (talk_up (server reply) [e] k))).
  rewrite IH.
  - f_equal. destruct e; cbn [talk_step server heard flat_map t_said hears Datatypes.app] in *; try (now rewrite !app_nil_r).
    + rewrite H1 by reflexivity. rewrite reply_ok, app_nil_r. reflexivity.
    + destruct (t_up k); cbn [filter]; rewrite ?app_nil_r; reflexivity.
    + rewrite app_nil_r. destruct (t_next k) as [|r l]; [reflexivity|]. inversion Hn as [|? ? E _]; subst x l0. rewrite E. reflexivity.
  - rewrite Eu. exact H2.
  - destruct e; cbn [talk_step t_next]; try exact Hn.
    destruct (t_next k) as [|r l] eqn:E; [rewrite E; exact Hn|]. inversion Hn as [|? ? E1 E2]; subst x l0. rewrite E1. exact E2.
Qed.

Lemma serve_said l tr : late false tr -> serving l -> said (server reply) l tr = flat_map reply (heard tr).
Proof. intros Hl Hs. unfold said, talked. rewrite server_said; [reflexivity|exact Hl|]. now apply serving_requests. Qed.

(** ** Order *)

(** At every moment of every interleaving, what the host's application has heard is the
    first of the answers to what the BMC's application has heard, and this in turn is the
    first of what the host has asked for. *)
Lemma bmc_serves p d : duo_reach p d -> compatible p -> p_mtu (p false) <= 4096 ->
  p_eid (p false) <> 0 -> p_eid (p true) <> 0 ->
  p_app (p true) = server reply -> serving (p_calls (p true)) -> listening (p_calls (p false)) ->
  Forall (fun r => zlen (r_msg r) <= 65536) (said_by p d false) ->
  Forall (fun m => Forall (fun r => zlen (r_msg r) <= 65536) (reply m)) (heard (d_tr d true)) ->
  exists unheard unanswered,
    due p d false = heard (d_tr d true) ++ unheard /\
    answers reply (p_eid (p true)) (p_eid (p false)) (heard (d_tr d true)) = heard (d_tr d false) ++ unanswered.
Proof.
  intros Hd Hc Hm E0 E1 Ha Hs Hl Z0 Z1.
  assert (68 <= p_mtu (p false) + 4) as HN by (unfold compatible in Hc; lia).
  assert (said_by p d true = flat_map reply (heard (d_tr d true))) as Es.
  { destruct (side_past p d true Hd Hc) as (w & t & [Hp|Hp]).
    - unfold said_by. rewrite Ha. apply serve_said; [|exact Hs]. apply past_late in Hp; [|exact HN].
      apply late_app in Hp. apply Hp.
    - apply Forall_app in Hp as [Hp _]. unfold said_by. rewrite Ha. apply serve_said; [|exact Hs].
      apply late_dull. clear - Hp. induction Hp as [|e t He Ht IH]; [reflexivity|]. cbn [existsb]. rewrite IH.
      destruct e; try reflexivity; contradiction. }
  destruct (C56_in_order p d false Hd Hc Hm E0) as (r0 & R0); [apply serving_listening; exact Hs|exact Z0|].
  destruct (C56_in_order p d true Hd Hc Hm E1) as (r1 & R1); [exact Hl| |].
  { rewrite Es. clear - Z1. induction Z1 as [|m l H1 H2 IH]; [constructor|]. cbn [flat_map]. apply Forall_app. now split. }
  exists r0, r1. split; [exact R0|]. unfold due in R1. rewrite Es in R1. exact R1.
Qed.

(** ** Every request is answered *)

(** Whatever the host has asked for at [d1] has been answered, and the host's application
    has been given the answers, at [d3]: after enough periods in which both sides poll, and
    again enough periods. *)
Theorem C67_answered p1 d1 n2 p2 d2 n3 p3 d3 w1 w2 w3 :
  session p1 d1 -> compatible p1 -> (forall i, enabled d1 i) -> p_mtu (p1 false) <= 4096 ->
  p_eid (p1 false) <> 0 -> p_eid (p1 true) <> 0 ->
  p_app (p1 true) = server reply -> serving (p_calls (p2 true)) -> listening (p_calls (p3 false)) ->
  Forall (fun r => zlen (r_msg r) <= 65536) (said_by p1 d1 false) ->
  Forall (fun m => Forall (fun r => zlen (r_msg r) <= 65536) (reply m)) (heard (d_tr d2 true)) ->
  d_prog d1 false = Ret w1 -> rounds p1 d1 n2 p2 d2 -> 5 * (passed d2 - passed d1) + 32 < Z.of_nat n2 ->
  d_prog d2 true = Ret w2 -> rounds p2 d2 n3 p3 d3 -> 5 * (passed d3 - passed d2) + 32 < Z.of_nat n3 ->
  d_prog d3 false = Ret w3 ->
  exists rest, heard (d_tr d3 false) = answers reply (p_eid (p1 true)) (p_eid (p1 false)) (due p1 d1 false) ++ rest.
Proof.
  intros Hse Hc Hen Hm E0 E1 Ha Hs Hl Z0 Z1 R1 H12 N2 R2 H23 N3 R3.
  assert (68 <= p_mtu (p1 false) + 4) as HN by (unfold compatible in Hc; lia).
  destruct (C57_heard p1 d1 n2 p2 d2 false w1 w2 Hse Hc Hen Hm E0 Z0 R1 H12 N2 R2 (serving_listening _ Hs)) as (r & Hr).
  cbn [negb] in Hr. pose proof (rounds_moves _ _ _ _ _ H12) as M.
  pose proof (session_moves _ _ _ _ Hse M) as Hse2. pose proof (compatible_moves _ _ _ _ Hc M) as Hc2.
  assert (forall i, enabled d2 i) as Hen2 by (intros i; exact (enabled_more _ _ _ _ i M (Hen i))).
  destruct (moves_setup _ _ _ _ M false) as (_ & Em & Ef). destruct (moves_setup _ _ _ _ M true) as (Ea & _ & Et).
  assert (said_by p2 d2 true = flat_map reply (heard (d_tr d2 true))) as Es.
  { unfold said_by. rewrite Ea, Ha. apply serve_said; [|exact Hs].
    destruct (kept_session _ _ Hse2 Hc2) as [_ (gb & gh & (W & _ & T) & _)].
    specialize (W true). rewrite R2 in W. cbn [wp] in W. unfold Fin_ok in W. destruct (bd_bus (bnd w2 false)).
    - destruct W as (W & _). rewrite (T true) in W. apply past_late in W; [exact W|]. unfold Nsz. rewrite Em. exact HN.
    - exfalso. rewrite (T true) in W. specialize (Hen2 true). unfold enabled in Hen2. rewrite Forall_forall in W. exact (W _ Hen2). }
  destruct (C57_heard p2 d2 n3 p3 d3 true w2 w3 Hse2 Hc2 Hen2) as (r' & Hr'); try assumption.
  - rewrite Em. exact Hm.
  - rewrite Et. exact E1.
  - rewrite Es. clear - Z1. induction Z1 as [|m l H1 H2 IH]; [constructor|]. cbn [flat_map]. apply Forall_app. now split.
  - cbn [negb] in Hr'. unfold due in Hr'. rewrite Es, Hr, flat_map_app, filter_app, map_app, <- app_assoc in Hr'.
    cbn [negb] in Hr'. rewrite Ef, Et in Hr'. eexists. exact Hr'.
Qed.
End Server.

(** Side [s] serves the other one: at every moment of every interleaving, what the client's
    application has heard is the first of the answers to what the server's application has
    heard, and this in turn is the first of what the client has asked for: an answer is
    never wrong, lost in between, duplicated or out of order. *)
Definition serves_in_order (s : bool) : Prop := forall reply p d,
  (forall m, Forall (fun r => 0 <= r_tag r <= 7) (reply m)) ->
  duo_reach p d -> compatible p -> p_mtu (p false) <= 4096 -> (forall i, p_eid (p i) <> 0) ->
  p_app (p s) = server reply -> serving (p_calls (p s)) -> listening (p_calls (p (negb s))) ->
  Forall (fun r => zlen (r_msg r) <= 65536) (said_by p d (negb s)) ->
  Forall (fun m => Forall (fun r => zlen (r_msg r) <= 65536) (reply m)) (heard (d_tr d s)) ->
  exists unheard unanswered,
    due p d (negb s) = heard (d_tr d s) ++ unheard /\
    answers reply (p_eid (p s)) (p_eid (p (negb s))) (heard (d_tr d s)) = heard (d_tr d (negb s)) ++ unanswered.

Theorem C67_in_order : serves_in_order true.
Proof. intros reply p d Ht Hd Hc Hm He Ha Hs Hl Z0 Z1. now apply bmc_serves. Qed.
