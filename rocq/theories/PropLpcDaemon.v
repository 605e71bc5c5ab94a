(** PropLpcDaemon: C83, the host's stack and the clients of the BMC's demultiplexing daemon, across the LPC channel. *)
From Verif Require Import Base Lists Prog PktBuf Core WP Walk CoreRel WalkCore CoreHist Spec SpecRx Trace
  Astlpc SpecAst AstBasic AstWalk PropAst TwoParty DuoInv DuoPast DuoWalk PropDuo SpecDuo DuoMsg PropDuoMsg.
From Verif Require Daemon PropDaemon DaemonRun DaemonBugs PropClients PropLink.
Import Daemon.

(** ** Specification *)

(** The operations of the MCTP stack that the calls of the daemon are: mctp_message_tx, and
    binding->process, which for this binding is mctp_astlpc_poll (mctp-demux-daemon.c:82-88, 250-253). *)
Inductive calls : list ev -> list aop -> Prop :=
| calls_none : calls [] []
| calls_tx d o tag msg rc tr l : calls tr l ->
    calls (Ev (CTx d o tag msg) rc :: tr) (ACore (OpTx d o tag msg) :: l)
| calls_process a tr l : calls tr l -> calls (Ev CProcess a :: tr) (APoll false :: l)
| calls_other c a tr l : match c with CTx _ _ _ _ | CProcess => False | _ => True end -> calls tr l ->
    calls (Ev c a :: tr) l.

(** A message as it is handed over the socket: the source, then the contents. *)
Definition framed (h : Z * bool * Z * list Z) : list Z := match h with (s, _, _, msg) => s :: msg end.

(** The BMC's side of the channel ([true]) is the stack of a demultiplexing daemon: [tr] is what the
    daemon did.  The message handler is set before the loop and sends nothing itself
    (mctp-demux-daemon.c:486, 129-190); what the stack delivers is what the daemon is given.  The capture
    handler is set along with the message handler (the code sets it before registering the bus,
    mctp-demux-daemon.c:663; nothing passes in between). *)
Record serving (p : bool -> party) (d : duo) (tr : list ev) : Prop := Serving {
  sv_daemon : exists n cap r, exec (run_daemon n (start (p_eid (p true)) cap) false) tr r;
  sv_app : forall e, p_app (p true) e = [];
  sv_calls : exists cb ops, p_calls (p true) = ACore (OpSetRx true) :: ACore (OpSetCapture cb) :: ops /\ calls tr ops;
  sv_given : PropLink.processed tr = map (fun h => match h with (s, _, _, msg) => Msg s msg end) (heard (d_tr d true)) }.

(** How many calls began before transmission was first enabled: a return begins the next call. *)
Fixpoint before_up (tr : list event) : nat :=
  match tr with
  | [] => 0
  | EvSetTx _ true :: _ => 0
  | EvRet _ :: t => S (before_up t)
  | _ :: t => before_up t
  end.
(** The transmissions among calls. *)
Definition transmissions (l : list (option txreq)) : list txreq :=
  flat_map (fun o => match o with Some r => [r] | None => [] end) l.
Definition as_req (x : Z * bool * Z * list Z) : txreq := match x with (d, o, tag, msg) => mkReq d o tag msg end.

(** Both sides have returned from all their calls, nothing waits in the queue of the BMC and
    nothing is in the channel. *)
Definition settled (d : duo) : Prop :=
  exists ws wr, d_prog d true = Prog.Ret ws /\ d_prog d false = Prog.Ret wr /\ bd_bus (bnd ws false) = true /\
    queued ws false = [] /\ offered (d_tr d true) = received (d_tr d false).

(** ** What a silent side has said *)
Section Silent.
Context (app : event -> list txreq) (Happ : forall e, app e = []).

Lemma talk_up tr : forall k, t_up k = true -> Forall (fun o => match o with Some r => tag_ok r = true | None => True end) (t_next k) ->
  t_said k ++ transmissions (t_next k) =
  t_said (fold_left (talk_step app) tr k) ++ transmissions (t_next (fold_left (talk_step app) tr k)).
Proof.
  induction tr as [|e tr IH]; intros [u nx sd] Hu Hn; [reflexivity|]. cbn [t_up t_next t_said] in *. subst u.
  cbn [fold_left]. destruct e; cbn [talk_step t_up t_next t_said orb];
    try (apply (IH (mkTalk true nx sd)); [reflexivity|exact Hn]);
    try (rewrite Happ; cbn [filter]; rewrite app_nil_r; apply (IH (mkTalk true nx sd)); [reflexivity|exact Hn]).
  destruct nx as [|[r|] l].
  - apply (IH (mkTalk true [] sd)); [reflexivity|exact Hn].
  - inversion Hn as [|? ? H1 H2]; subst. rewrite H1. cbn [andb]. rewrite <- IH by (try reflexivity; exact H2). cbn [t_said t_next].
    unfold transmissions. cbn [flat_map]. now rewrite <- app_assoc.
  - inversion Hn as [|? ? H1 H2]; subst. rewrite <- IH by (try reflexivity; exact H2). reflexivity.
Qed.
Lemma talk_split tr : forall nx, Forall (fun o => match o with Some r => tag_ok r = true | None => True end) nx ->
  let k := fold_left (talk_step app) tr (mkTalk false nx []) in
  transmissions nx = transmissions (firstn (before_up tr) nx) ++ t_said k ++ transmissions (t_next k).
Proof.
  induction tr as [|e tr IH]; intros nx Hn; [reflexivity|]. cbn [fold_left].
  destruct e; cbn [talk_step t_up t_next t_said orb andb before_up]; rewrite ?app_nil_r; try exact (IH nx Hn).
  - match goal with |- context [orb false ?b] => destruct b | |- context [if ?b then _ else _] => destruct b end; cbn [orb]; [|exact (IH nx Hn)]. rewrite <- talk_up by (try reflexivity; exact Hn). reflexivity.
  - destruct nx as [|[r|] l].
    + rewrite firstn_nil. specialize (IH [] Hn). rewrite firstn_nil in IH. exact IH.
    + inversion Hn as [|? ? H1 H2]; subst. cbn [firstn]. rewrite ?app_nil_r. specialize (IH l H2). cbv zeta in IH.
      change (transmissions (Some r :: l)) with (r :: transmissions l).
      change (transmissions (Some r :: firstn (before_up tr) l)) with (r :: transmissions (firstn (before_up tr) l)).
      cbn [Datatypes.app]. f_equal. exact IH.
    + inversion Hn as [|? ? H1 H2]; subst. exact (IH l H2).
Qed.
End Silent.

(** ** Proof *)
Lemma calls_requests tr l : calls tr l -> transmissions (requests l) = map as_req (PropDaemon.txs tr).
Proof.
  induction 1 as [|d o tag msg rc tr l H IH|a tr l H IH|c a tr l Hc H IH]; [reflexivity| |exact IH|].
  - change (requests (ACore (OpTx d o tag msg) :: l)) with (Some (mkReq d o tag msg) :: requests l).
    change (transmissions (Some (mkReq d o tag msg) :: requests l)) with (mkReq d o tag msg :: transmissions (requests l)). rewrite IH. reflexivity.
  - change (PropDaemon.txs (Ev c a :: tr)) with (PropDaemon.txd (Ev c a) ++ PropDaemon.txs tr).
    destruct c; try destruct Hc; exact IH.
Qed.
Lemma calls_plain tr l : calls tr l -> Forall (fun o => match o with ACore (OpSetRx _) | ACore (OpSetMax _) => False | _ => True end) l.
Proof. induction 1; auto; constructor; auto. Qed.
Lemma calls_tags tr l : calls tr l -> Forall (fun r => tag_ok r = true) (transmissions (requests l)) ->
  Forall (fun o => match o with Some r => tag_ok r = true | None => True end) (requests l).
Proof.
  intros _. induction (requests l) as [|[r|] q IH]; intros H; [constructor| |].
  - change (transmissions (Some r :: q)) with (r :: transmissions q) in H. inversion H; subst. constructor; auto.
  - constructor; [exact I|]. apply IH. exact H.
Qed.

(** Each thing a client sends is at most one transmission. *)
Lemma cut a : forall (l : list (list Z)) (x y : list (Z * bool * Z * list Z)), flat_map (DaemonRun.outgoing a) l = x ++ y ->
  exists l1 l2, l = l1 ++ l2 /\ flat_map (DaemonRun.outgoing a) l1 = x /\ flat_map (DaemonRun.outgoing a) l2 = y.
Proof.
  induction l as [|bs l IH]; intros x y E; cbn [flat_map] in E.
  - symmetry in E. apply app_eq_nil in E. destruct E as [-> ->]. exists [], []. auto.
  - assert (DaemonRun.outgoing a bs = [] \/ exists o, DaemonRun.outgoing a bs = [o]) as [H|(o & H)].
    { destruct bs as [|d msg]; [left; reflexivity|]. cbn [DaemonRun.outgoing]. destruct (d =? a); [left|right]; eauto. }
    + rewrite H in E. cbn [Datatypes.app] in E. destruct (IH _ _ E) as (l1 & l2 & -> & E1 & E2). exists (bs :: l1), l2.
      split; [reflexivity|]. split; [cbn [flat_map]; rewrite H; exact E1|exact E2].
    + destruct x as [|o' x].
      * exists [], (bs :: l). split; [reflexivity|]. split; [reflexivity|exact E].
      * rewrite H in E. cbn [Datatypes.app] in E. injection E as -> E. destruct (IH _ _ E) as (l1 & l2 & -> & E1 & E2). exists (bs :: l1), l2.
        split; [reflexivity|]. split; [cbn [flat_map]; rewrite H; cbn; now rewrite E1|exact E2].
Qed.
Lemma map_cut {A B} (f : A -> B) : forall l x y, map f l = x ++ y -> exists l1 l2, l = l1 ++ l2 /\ map f l1 = x /\ map f l2 = y.
Proof.
  induction l as [|a l IH]; intros x y E; cbn [map] in E.
  - symmetry in E. apply app_eq_nil in E. destruct E as [-> ->]. exists [], []. auto.
  - destruct x as [|b x].
    + exists [], (a :: l). split; [reflexivity|]. split; [reflexivity|exact E].
    + injection E as <- E. destruct (IH _ _ E) as (l1 & l2 & -> & E1 & E2). exists (a :: l1), l2. split; [reflexivity|].
      split; [cbn; now rewrite E1|exact E2].
Qed.
Lemma crossing a b l :
  map framed (map (as_heard a) (filter (meant_for b) (map as_req (flat_map (DaemonRun.outgoing a) l)))) =
  map (PropLink.came_from a) (filter (PropLink.crosses a b) l).
Proof. exact (PropLink.crossing a b l). Qed.


(** *** From the clients to the host *)
(** A host that listens and whose packets are of at most 4096 bytes; the clients send at most
    65536 bytes each time.  What the clients had sent, not to the BMC itself, before the channel
    first came up is lost; of the rest, what is meant for the host is given to its
    application in order, each once, whole, behind the EID of the BMC, up to what has not
    arrived; and all of it once the channel has settled. *)
Theorem C83_to_host : forall p d tr,
  duo_reach p d -> compatible p -> p_mtu (p false) <= 4096 -> p_eid (p true) <> 0 -> listening (p_calls (p false)) ->
  serving p d tr -> Forall (fun bs => zlen bs <= 65537) (PropDaemon.received tr) ->
  exists early late rest, PropDaemon.received tr = early ++ late /\
    map as_req (flat_map (DaemonRun.outgoing (p_eid (p true))) early) =
      transmissions (firstn (before_up (d_tr d true)) (requests (p_calls (p true)))) /\
    map (PropLink.came_from (p_eid (p true))) (filter (PropLink.crosses (p_eid (p true)) (p_eid (p false))) late) =
      map framed (heard (d_tr d false)) ++ rest /\
    (settled d -> rest = []).
Proof.
  intros p d tr Hd Hc Hm He Hl [(n & cap & r & D) Happ (cb & ops & Hcalls & Hops) _] Hsz.
  apply DaemonRun.C52_transmits in D. set (a := p_eid (p true)) in *. set (b := p_eid (p false)) in *.
  pose proof (calls_requests _ _ Hops) as Hreq.
  assert (requests (p_calls (p true)) = requests ops) as Er by (rewrite Hcalls; reflexivity).
  assert (Forall (fun r => tag_ok r = true /\ zlen (r_msg r) <= 65536) (transmissions (requests ops))) as Hok.
  { rewrite Hreq, D. apply Forall_forall. intros x Hx. apply in_map_iff in Hx. destruct Hx as ([[[dd o] tag] msg] & <- & Hx).
    apply in_flat_map in Hx. destruct Hx as ([|d' msg'] & Hin & Hx); [destruct Hx|]. cbn in Hx. destruct (d' =? a); [destruct Hx|].
    destruct Hx as [[= -> <- <- ->]|[]]. split; [reflexivity|]. cbn [as_req r_msg]. rewrite Forall_forall in Hsz. specialize (Hsz _ Hin).
    rewrite zlen_cons in Hsz. lia. }
  assert (Forall (fun r => tag_ok r = true) (transmissions (requests ops))) as Htag
    by (eapply Forall_impl; [|exact Hok]; cbn; tauto).
  pose proof (talk_split (p_app (p true)) Happ (d_tr d true) (requests ops) (calls_tags _ _ Hops Htag)) as Hsp. cbv zeta in Hsp.
  assert (said_by p d true = t_said (fold_left (talk_step (p_app (p true))) (d_tr d true) (mkTalk false (requests ops) []))) as Es.
  { unfold said_by, said, talked. rewrite Er. reflexivity. }
  rewrite <- Es in Hsp. rewrite Er.
  set (later := transmissions (t_next (fold_left (talk_step (p_app (p true))) (d_tr d true) (mkTalk false (requests ops) [])))) in *.
  assert (Forall (fun r => zlen (r_msg r) <= 65536) (said_by p d true)) as Hsz'.
  { rewrite Hsp in Hok. apply Forall_app in Hok. destruct Hok as [_ Hok]. apply Forall_app in Hok. destruct Hok as [Hok _].
    eapply Forall_impl; [|exact Hok]. cbn. tauto. }
  destruct (C56_in_order p d true Hd Hc Hm He Hl Hsz') as (r0 & Hin). cbn [negb] in Hin.
  assert (exists early late, PropDaemon.received tr = early ++ late /\
    map as_req (flat_map (DaemonRun.outgoing a) early) = transmissions (firstn (before_up (d_tr d true)) (requests ops)) /\
    map as_req (flat_map (DaemonRun.outgoing a) late) = said_by p d true ++ later) as (early & late & E1 & E2 & E3).
  { rewrite Hreq, D in Hsp. apply map_cut in Hsp. destruct Hsp as (x & y & Exy & Ex & Ey). apply cut in Exy.
    destruct Exy as (l1 & l2 & -> & E1 & E2). exists l1, l2. rewrite E1, E2. auto. }
  exists early, late. rewrite <- crossing, E3, filter_app, !map_app.
  change (map (as_heard a) (filter (meant_for b) (said_by p d true))) with (due p d true). rewrite Hin, map_app, <- !app_assoc.
  eexists. split; [exact E1|]. split; [exact E2|]. split; [reflexivity|].
  intros (ws & wr & W1 & W2 & W3 & W4 & W5).
  pose proof (C56_all p d true Hd Hc Hm He Hl Hsz' ws wr W1 W2 W4 W5) as Hall. cbn [negb] in Hall. rewrite Hall in Hin.
  assert (r0 = []) as -> by (apply (app_inv_head (due p d true)); rewrite app_nil_r; symmetry; exact Hin).
  assert (later = []) as ->; [|reflexivity].
  assert (68 <= p_mtu (p false) + 4) as HN by (unfold compatible in Hc; lia).
  destruct (duo_inv p d Hd Hc) as (gb & gh & W & _ & T). specialize (W true). rewrite W1 in W. cbn [wp] in W.
  unfold Fin_ok in W. rewrite W3 in W. destruct W as [Hpast _]. 
  assert (past true (p_app (p true)) (p_mtu (p false) + 4) (p_eid (p true)) false (p_calls (p true)) ws (d_tr d true)) as Hp.
  { destruct (ret_past p d true ws Hd Hc W1) as [H|H]; [exact H|]. rewrite <- (T true). exact Hpast. }
  destruct (past_Sinv _ HN _ _ _ _ _ _ _ Hp) as [_ _ _ _ (acc & _ & Hsp')].
  destruct (Hsp' [] ltac:(discriminate)) as [Ht _]. rewrite app_nil_r in Ht. unfold talked in Ht. rewrite Er in Ht.
  unfold later. rewrite Ht. reflexivity.
Qed.

(** *** From the host to a client *)
(** What the stack of the BMC gives to its daemon is what the host's application sent and is meant
    for the BMC, in order, each once, whole, up to what has not arrived. *)
Theorem C83_to_daemon : forall p d tr,
  duo_reach p d -> compatible p -> p_mtu (p false) <= 4096 -> p_eid (p false) <> 0 ->
  serving p d tr -> Forall (fun r => zlen (r_msg r) <= 65536) (said_by p d false) ->
  exists rest, map framed (due p d false) = PropLink.given tr ++ rest.
Proof.
  intros p d tr Hd Hc Hm He [_ _ (cb & ops & Hcalls & Hops) Hg] Hsz.
  assert (listening (p_calls (p true))) as Hl.
  { exists (ACore (OpSetCapture cb) :: ops). split; [exact Hcalls|]. constructor; [exact I|]. exact (calls_plain _ _ Hops). }
  destruct (C56_in_order p d false Hd Hc Hm He Hl Hsz) as (rest & H). cbn [negb] in H. exists (map framed rest).
  rewrite H, map_app. f_equal. unfold PropLink.given. rewrite Hg, map_map. apply map_ext. intros [[[s o] tag] msg]. reflexivity.
Qed.
(** A client of the daemon that announced type [t] and behaves (C79) is sent, of the messages
    that then arrive from the host, exactly those of type [t]. *)
Theorem C83_to_client : forall p d t1 fd t t2,
  duo_reach p d -> compatible p -> p_mtu (p false) <= 4096 -> p_eid (p false) <> 0 -> p_eid (p false) <> p_eid (p true) ->
  serving p d (t1 ++ Ev (CRead1 fd) (inl t) :: t2) -> Forall (fun r => zlen (r_msg r) <= 65536) (said_by p d false) ->
  0 <= fd -> PropClients.behaves fd PropClients.Absent (t1 ++ Ev (CRead1 fd) (inl t) :: t2) ->
  exists late rest, map framed (due p d false) = PropLink.given t1 ++ late ++ rest /\
    filter (fun bs => hd 0 bs =? p_eid (p false)) (PropClients.to fd t2) =
      filter (fun bs => (3 <=? zlen bs) && (nth 1 bs 0 =? t)) late.
Proof.
  intros p d t1 fd t t2 Hd Hc Hm He Hab SB Hsz Hfd Hbe.
  destruct (C83_to_daemon _ _ _ Hd Hc Hm He SB Hsz) as (rest & E).
  destruct SB as [(n & cap & r & DB) _ _ _].
  pose proof (PropClients.C79_type _ cap n t1 t t2 r fd DB Hfd Hbe) as Ht.
  assert (forall x y, PropLink.given (x ++ y) = PropLink.given x ++ PropLink.given y) as Ga.
  { intros x y. unfold PropLink.given, PropLink.processed. now rewrite flat_map_app, map_app. }
  rewrite Ga in E. change (PropLink.given (Ev (CRead1 fd) (inl t) :: t2)) with (PropLink.given t2) in E. rewrite <- app_assoc in E.
  exists (PropLink.given t2), rest. split; [exact E|]. rewrite Ht.
  apply PropLink.from_peer; [exact Hab|].
  apply Forall_forall. intros x Hx. assert (In x (PropLink.given t1 ++ PropLink.given t2 ++ rest)) as Hin.
  { apply in_or_app. right. apply in_or_app. now left. }
  rewrite <- E in Hin. unfold due in Hin. rewrite map_map in Hin. apply in_map_iff in Hin. destruct Hin as (y & <- & _). reflexivity.
Qed.

(** *** A case *)
From Verif Require Import Concrete ExamplesDuo.
(** A client announces type 5 and sends 5,0 to the host before the channel is up, and 5,1 afterwards; the
    host sends 5,7. *)
Definition serves : DaemonBugs.oracle := fun n c =>
  match c return answer c with
  | CClose _ => tt | CSend _ bs => zlen bs | CRead1 _ => inl 5 | CPeek _ => 3 | CGrow _ => true
  | CRecv _ k => if 3 <=? k then Some (if Nat.ltb n 8 then [9; 5; 0] else [9; 5; 1]) else None
  | CCapture _ _ => tt | CTx _ _ _ _ => 0 | CAccept => 4
  | CPoll fds => Some (Ready false (Nat.leb 8 n && negb (Nat.eqb n 10)) (Nat.eqb n 0) (map (fun _ => Nat.ltb n 8 || Nat.eqb n 10)%bool fds))
  | CProcess => (if Nat.ltb n 16 then [] else [Msg 9 [5; 7]], 0)
  | CUninit => false
  end.
Lemma serves_ok : forall n c, allowed c (serves n c).
Proof.
  intros n []; cbn; try exact I; try lia.
  - unfold is_byte. lia.
  - destruct (3 <=? n0) eqn:E; [|exact I]. repeat match goal with |- context [if ?b then _ else _] => destruct b end; (split; [cbn; lia|repeat constructor; unfold is_byte; lia]).
  - rewrite map_length. reflexivity.
  - match goal with |- context [if ?b then _ else _] => destruct b end; repeat constructor; cbn; unfold is_byte; lia.
Qed.
Definition lpc : bool -> party :=
  pair (mkParty no_app 64 8 [ACore (OpSetRx true); ACore (OpSetCapture false); ACore (OpTx 9 true 0 [5; 0]); poll1; ACore (OpTx 9 true 0 [5; 1]); poll1; poll1])
       (mkParty no_app 64 9 [ACore (OpSetRx true); poll1; poll1; tx1 8 [5; 7]; poll1]).
Definition dl : duo := ExamplesDuo.calls [true; false; true; true; false; true; false; true; false; true; false] (d0 lpc).

Example C83_case : exists t1 t2,
  duo_reach lpc dl /\ compatible lpc /\ p_mtu (lpc false) <= 4096 /\ p_eid (lpc true) <> 0 /\ listening (p_calls (lpc false)) /\
  serving lpc dl (t1 ++ Ev (CRead1 4) (inl 5) :: t2) /\ settled dl /\
  PropClients.behaves 4 PropClients.Absent (t1 ++ Ev (CRead1 4) (inl 5) :: t2) /\
  Forall (fun bs => zlen bs <= 65537) (PropDaemon.received (t1 ++ Ev (CRead1 4) (inl 5) :: t2)) /\
  Forall (fun r => zlen (r_msg r) <= 65536) (said_by lpc dl false) /\
  PropDaemon.received (t1 ++ Ev (CRead1 4) (inl 5) :: t2) = [[9; 5; 0]; [9; 5; 1]] /\
  before_up (d_tr dl true) = 2%nat /\ map framed (heard (d_tr dl false)) = [[8; 5; 1]] /\ PropClients.to 4 t2 = [[9; 5; 7]].
Proof.
  destruct (DaemonBugs.play serves 0 (run_daemon 7 (start 8 false) false)) as [[trB rB]|] eqn:EB; [|vm_compute in EB; discriminate].
  pose proof (DaemonBugs.play_exec _ serves serves_ok _ _ _ _ EB) as XB. vm_compute in EB. injection EB as <- <-.
  match type of XB with exec _ (?e1 :: ?e2 :: ?e3 :: ?e4 :: ?t) _ => exists [e1; e2; e3], t end.
  cbn [Datatypes.app].
  assert (forall pr : Prog.prog (world astlpc),
    match pr with Prog.Ret w => bd_bus (bnd w false) && match queued w false with [] => true | _ => false end | _ => false end = true ->
    exists w, pr = Prog.Ret w /\ bd_bus (bnd w false) = true /\ queued w false = []) as Hq.
  { intros [w| | | | | | | |] H; try discriminate. apply andb_true_iff in H. destruct H as [H1 H2]. exists w. split; [reflexivity|].
    split; [exact H1|]. now destruct (queued w false). }
  split. { apply calls_reach; [intros [|]; cbn; repeat constructor; cbn; lia|]. right. cbn. lia. }
  split. { unfold compatible. cbn. lia. }
  split; [cbn; lia|]. split; [cbn; lia|].
  split. { eexists. split; [reflexivity|]. repeat constructor. }
  split. { constructor; [eexists _, _, _; exact XB|reflexivity| |vm_compute; reflexivity].
    eexists _, _. split; [reflexivity|].
    repeat first [apply calls_tx|apply calls_process|apply calls_none|apply calls_other; [exact I|]]. }
  split. { destruct (Hq (d_prog dl true)) as (ws & W1 & W2 & W3); [vm_compute; reflexivity|].
    destruct (Hq (d_prog dl false)) as (wr & R1 & _); [vm_compute; reflexivity|]. exists ws, wr.
    split; [exact W1|]. split; [exact R1|]. split; [exact W2|]. split; [exact W3|vm_compute; reflexivity]. }
  split. { cbn. repeat split; auto; try lia; try discriminate; eauto. exists 5. split; [reflexivity|lia]. }
  split. { match goal with |- Forall _ ?l => change l with [[9; 5; 0]; [9; 5; 1]] end.
    repeat (apply Forall_cons; [cbn; lia|]). apply Forall_nil. }
  split. { assert (forallb (fun r => zlen (r_msg r) <=? 65536) (said_by lpc dl false) = true) as H by (vm_compute; reflexivity).
    rewrite forallb_forall in H. apply Forall_forall. intros r Hr. specialize (H r Hr). lia. }
  split; [reflexivity|]. split; [vm_compute; reflexivity|]. split; vm_compute; reflexivity.
Qed.
