(** PropMany: many endpoints talk at once, directly or across a bridge (C75). *)
From Verif Require Import Base Lists Prog PktBuf Core WP Walk CoreRel WalkCore CoreHist Spec SpecRx Trace PropTx PropMsg
  Reasm PropRx PropRound PropBridge PropSerRound SpecDuo DuoMsg PropDuoMsg PropSerStream Many.

(** ** Vocabulary *)
Section Words.
Context {B : Type}.
(** The packets handed to mctp_bus_rx during [l], those of bus [i], and whether there
    are any other calls of a kind. *)
Definition arrivals (l : list (@op B)) : list (list Z) :=
  flat_map (fun o => match o with OpRx _ p => match pktbuf_bytes p with Some bs => [bs] | None => [] end | _ => [] end) l.
Definition arrivals_on (i : bool) (l : list (@op B)) : list (list Z) :=
  arrivals (filter (fun o => match o with OpRx j _ => Bool.eqb i j | _ => false end) l).
(** The packet size of the bindings stays at most [N]. *)
Definition sized (N : Z) (w : world B) (l : list (@op B)) : Prop :=
  (forall j, bd_pkt_size (bnd w j) <= N) /\ Forall (fun o => match o with OpPktSize _ n => n <= N | _ => True end) l.
(** The transmissions among [l] (each shows its return). *)
Definition calls (l : list (@op B)) : list txreq :=
  flat_map (fun o => match o with OpTx eid to tag msg => [mkReq eid to tag msg] | _ => [] end) l.
End Words.

(** The messages an application asks for, by its calls [rs] and from its callbacks: those
    with a valid tag.  A return shows the end of a call. *)
Fixpoint asked (appl : event -> list txreq) (rs : list txreq) (t : list event) : list txreq :=
  match t with
  | [] => []
  | (EvRx _ _ _ _ as e) :: t' | (EvCtrl _ _ _ _ _ as e) :: t' => filter tag_ok (appl e) ++ asked appl rs t'
  | EvRet _ :: t' => match rs with r :: rs' => filter tag_ok [r] ++ asked appl rs' t' | [] => asked appl [] t' end
  | _ :: t' => asked appl rs t'
  end.

(** What the application has been given that came from [x]. *)
Definition heard_from (x : Z) (t : list event) : list (Z * bool * Z * list Z) :=
  filter (fun h => let '(src, _, _, _) := h in src =? x) (heard t).
(** The packets put on bus [i]. *)
Definition put (i : bool) (t : list event) : list (list Z) := map snd (enqueued i t).

Lemma put_app i a b : put i (a ++ b) = put i a ++ put i b.
Proof. unfold put. now rewrite enqueued_app, map_app. Qed.

Lemma filter_split {A} (P : A -> bool) l : forall a b, filter P l = a ++ b ->
  exists l1 l2, l = l1 ++ l2 /\ filter P l1 = a /\ filter P l2 = b.
Proof.
  induction l as [|x l IH]; intros a b E.
  - symmetry in E. apply app_eq_nil in E. destruct E as [-> ->]. exists [], []. auto.
  - cbn [filter] in E. destruct (P x) eqn:Ex.
    + destruct a as [|y a].
      * exists [], (x :: l). cbn [app filter] in *. rewrite Ex. auto.
      * injection E as <- E. destruct (IH _ _ E) as (l1 & l2 & -> & H1 & H2). exists (x :: l1), l2.
        cbn [filter app]. rewrite Ex, H1. auto.
    + destruct (IH _ _ E) as (l1 & l2 & -> & H1 & H2). exists (x :: l1), l2. cbn [filter app]. rewrite Ex. auto.
Qed.

(** The part of a stream that concerns a node. *)
Lemma packs_taken N src local msgs pk : packs N src msgs pk ->
  packs N src (filter (fun r => for_us local (r_eid r)) msgs) (filter (taken local) pk).
Proof.
  intros (pkl & Hpk & ->). induction Hpk as [|r ps l pkl (Htag & ver & mtu & Hmtu & Hp) Hpk IH]; [apply packs_nil|].
  assert (Forall (fun p => 4 < zlen p /\ h_dest p = r_eid r) ps) as Hall.
  { apply Forall_forall. intros p Hin. apply In_nth_error in Hin. destruct Hin as (n & Hn).
    destruct (packetised_no _ _ _ _ _ _ _ _ Htag Hp n p Hn) as [N1 _ _ _ _ N2]. unfold h_key in N1. injection N1 as _ N1 _.
    split; [|exact N1]. destruct (Nat.eqb (S n) (length ps)); lia. }
  cbn [concat filter]. rewrite filter_app. destruct (for_us local (r_eid r)) eqn:Eu.
  - assert (filter (taken local) ps = ps) as ->.
    { clear - Hall Eu. induction Hall as [|p ps [H1 H2] Hall IH]; [reflexivity|]. cbn [filter]. unfold taken at 1.
      rewrite H2, Eu. replace (4 <? zlen p) with true by lia. cbn [andb]. now rewrite IH. }
    apply (packs_app _ _ [r]); [|exact IH]. exists [ps]. split; [|cbn [concat]; now rewrite app_nil_r].
    constructor; [|constructor]. split; [exact Htag|]. exists ver, mtu. auto.
  - assert (filter (taken local) ps = []) as ->; [|exact IH].
    { clear - Hall Eu. induction Hall as [|p ps [H1 H2] Hall IH]; [reflexivity|]. cbn [filter]. unfold taken at 1.
      rewrite H2, Eu, andb_false_r. exact IH. }
Qed.

(** Messages that are empty make no packets. *)
Lemma packs_nonempty N src msgs pk : 68 <= N -> Forall (fun r => tag_ok r = true) msgs ->
  packs N src (filter nonempty msgs) pk -> packs N src msgs pk.
Proof.
  intros HN Hall. revert pk. induction Hall as [|r msgs Hr Hall IH]; intros pk Hp; [exact Hp|].
  cbn [filter] in Hp. destruct (nonempty r) eqn:En.
  - destruct (packs_cons _ _ _ _ _ Hp) as (ver & mtu & ps & pk' & Ht & Hm & Hps & Hpk & ->).
    apply (packs_app _ _ [r]); [|apply IH; exact Hpk]. exists [ps]. split; [|cbn [concat]; now rewrite app_nil_r].
    constructor; [|constructor]. split; [exact Ht|]. exists ver, mtu. auto.
  - apply (packs_app _ _ [r] []); [|apply IH; exact Hp]. exists [[]]. split; [|reflexivity].
    constructor; [|constructor]. unfold tag_ok in Hr. split; [lia|]. exists 0, 1. split; [lia|].
    unfold nonempty in En. pose proof (zlen_pos _ (r_msg r)) as Hz. destruct (r_msg r) as [|c m] eqn:E.
    + split; [reflexivity|]. intros [|k] p H; discriminate.
    + rewrite zlen_cons in *. pose proof (zlen_pos _ m). lia.
Qed.
Lemma packs_tags N src msgs pk : packs N src msgs pk -> Forall (fun r => tag_ok r = true) msgs.
Proof.
  intros (pkl & Hp & _). induction Hp as [|r ps l pkl (Ht & _) Hp IH]; constructor; [|exact IH]. unfold tag_ok. lia.
Qed.
Lemma packs_src N src msgs pk : packs N src msgs pk -> Forall (fun p => h_src p = src) pk.
Proof.
  intros (pkl & Hpk & ->). induction Hpk as [|r ps l pkl (Htag & ver & mtu & Hmtu & Hp) Hpk IH]; [constructor|].
  cbn [concat]. apply Forall_app. split; [|exact IH]. apply Forall_forall. intros p Hin. apply In_nth_error in Hin.
  destruct Hin as (n & Hn). destruct (packetised_no _ _ _ _ _ _ _ _ Htag Hp n p Hn) as [N1 _ _ _ _ _].
  unfold h_key in N1. congruence.
Qed.

(** ** Histories *)
Section Hist.
Context {B : Type} (f : txfun B) (s : startfun B) (appl : event -> list txreq).
Context (b0 b1 : binding B).
Notation world := (world B).

Definition sign (d : delivery) : Z * Z * bool * Z * list Z := (d_src d, d_dest d, d_to d, d_tag d, d_msg d).
Definition sign_of (o : list Z * list Z) : Z * Z * bool * Z * list Z :=
  (h_src (fst o), h_dest (fst o), h_to (fst o), h_tag (fst o), snd o).

Lemma hist_run m (w : world) l t w' : hist w l t w' -> WF Strict w -> mode_ok m w -> no_config l ->
  let run := rx_run (m_ctxs (w_m w)) (m_max (w_m w)) (filter (taken (mode_local m)) (arrivals l)) in
  m_ctxs (w_m w') = fst run /\ map sign (deliveries t) = map sign_of (snd run).
Proof.
  cbn zeta. induction 1 as [w|w o t1 w1 l t2 w2 Ho Hw1 Hh IH]; intros Hw Hm Hc; [split; reflexivity|].
  inversion Hc as [|? ? Hc1 Hc2]; subst.
  destruct (op_effect appl _ _ _ _ _ Hw Hm Ho) as (He & Hne & Hmx).
  assert (m_max (w_m w1) = m_max (w_m w)) as Emax by (rewrite Hmx; destruct o; try reflexivity; contradiction).
  specialize (IH Hw1 (op_rel_mode _ _ _ _ _ Hm Ho) Hc2). rewrite Emax in IH. destruct IH as [I1 I2].
  unfold arrivals. cbn [flat_map]. fold (arrivals l). rewrite filter_app, rx_run_app. cbn [fst snd].
  rewrite deliveries_app, !map_app by exact Hne. rewrite I1, I2.
  destruct (op_eff_inv _ _ _ _ _ He) as [(E2 & E3 & H0')|(i & p & bs & out & -> & Hp & Ht & Hpure & E2)].
  - rewrite E2, E3.
    assert (filter (taken (mode_local m))
      match o with OpRx _ p => match pktbuf_bytes p with Some bs => [bs] | None => [] end | _ => [] end = []) as ->.
    { destruct o as [| | | | | | |i p| | | |]; try reflexivity. destruct (pktbuf_bytes p) as [bs|] eqn:Ep; [|reflexivity].
      cbn [filter]. rewrite (H0' i p bs eq_refl Ep). reflexivity. }
    split; reflexivity.
  - rewrite E2. unfold pkt_is in Hp. rewrite Hp. cbn [filter]. rewrite Ht. cbn [rx_run]. rewrite Hpure. cbn [fst snd].
    split; [reflexivity|]. f_equal. destruct out as [[[? ?] ms]|]; reflexivity.
Qed.

(** What a listening endpoint's application is given. *)
Lemma hist_told eid (w : world) l t w' : hist w l t w' -> WF Strict w -> mode_ok (Endpoint eid) w -> no_config l ->
  m_rx (w_m w) = true ->
  (forall d, In d (deliveries t) -> forall j, bd_ctrl (bnd w j) && transport_request (d_msg d) = false) ->
  heard t = map (fun d => (d_src d, d_to d, d_tag d, d_msg d)) (deliveries t).
Proof.
  induction 1 as [w|w o t1 w1 l t2 w2 Ho Hw1 Hh IH]; intros Hw Hm Hc Hrx Hct; [reflexivity|].
  inversion Hc as [|? ? Hc1 Hc2]; subst.
  destruct (op_effect appl _ _ _ _ _ Hw Hm Ho) as (He & Hne & _).
  destruct (op_rx_flag _ _ _ _ Hw Ho) as [Erx Ect].
  assert (m_rx (w_m w1) = true) as Erx1 by (rewrite <- Hrx; destruct o; try exact Erx; contradiction).
  rewrite deliveries_app in Hct by exact Hne.
  rewrite heard_app, deliveries_app, map_app by exact Hne.
  rewrite (IH Hw1 (op_rel_mode _ _ _ _ _ Hm Ho) Hc2 Erx1).
  2:{ intros d Hd j. rewrite Ect. apply Hct. apply in_or_app. auto. }
  f_equal.
  assert ((exists i p, o = OpRx i p) \/ forall i p, o <> OpRx i p) as [(i & p & ->)|Hno].
  { destruct o; eauto; right; discriminate. }
  2:{ destruct (op_other _ _ _ _ Ho Hno) as (_ & Hq & _). rewrite heard_quiet by exact Hq.
      rewrite <- (app_nil_r t1), deliveries_quiet by exact Hq. reflexivity. }
  assert (exists bs, pkt_is p bs) as (bs & Hp). { inversion Ho; subst. unfold pkt_is. eauto. }
  destruct (rx_cases _ _ _ _ _ _ _ Hw Hm Hp Ho) as (t3 & Et & Hcs).
  pose proof (rx_case_deliveries appl _ _ _ _ _ _ (EvAlloc (m_next (w_m w))) (EvBusRx i (mode_local (Endpoint eid)) (m_next (w_m w)) bs)
     (m_next (w_m w)) Hcs I I) as Hd. rewrite <- Et in Hd.
  pose proof (rx_case_heard _ _ _ _ _ _ (m_next (w_m w)) Hcs) as Hhd.
  rewrite Et at 1. change (heard (_ :: _ :: t3 ++ [EvFree (m_next (w_m w))])) with (heard (t3 ++ [EvFree (m_next (w_m w))])).
  rewrite Hhd. replace (deliveries (t3 ++ [EvFree (m_next (w_m w))])) with (deliveries t1) by (rewrite Et; reflexivity).
  assert (Forall (fun d => told d = [(d_src d, d_to d, d_tag d, d_msg d)]) (deliveries t1)) as Hall.
  { rewrite Forall_forall. intros d Hin. pose proof (Hct d (in_or_app _ _ _ (or_introl Hin)) i) as Hk. rewrite Hd in Hin.
    destruct (taken (mode_local (Endpoint eid)) bs); [|contradiction].
    destruct (snd (rx_pure (m_ctxs (w_m w)) (m_max (w_m w)) bs)) as [[[? ?] ms]|]; [|contradiction].
    destruct Hin as [<-|[]]. unfold told. cbn [d_cb d_src d_to d_tag d_msg] in *. unfold cb_of, local_event.
    rewrite transport_request_spec, andb_comm, Hk, Hrx. reflexivity. }
  clear - Hall. induction Hall as [|d l Hd Hl IH]; [reflexivity|]. cbn [flat_map map]. rewrite Hd, IH. reflexivity.
Qed.

(** A node that has received only small packets under limit [L]. *)
Definition settled_at (L : Z) (m : mode) (w : world) (tr : list event) : Prop :=
  reaches_by (limited (fun n bs => n = L /\ zlen bs <= 4100) 65536) f s appl m b0 b1 w tr /\
  m_max (w_m w) = L /\ partials w = [].

Lemma settled_ok J L m (w : world) tr : 0 <= J -> L = 4096 * 2 ^ J -> L < 2 ^ 64 -> settled_at L m w tr ->
  reaches f s appl m b0 b1 w tr /\ okctx J (m_ctxs (w_m w)) /\ allfree (m_ctxs (w_m w)).
Proof.
  intros HJ HL HL64 ((past & e & n0 & Hleg & Hlim & He & Hrun) & Hmax & Hpa).
  assert (reaches f s appl m b0 b1 w tr) as Hr by (exists past, e, n0; auto).
  split; [exact Hr|]. pose proof (reaches_CI f s appl b0 b1 _ _ _ Hr) as Hci.
  destruct (reaches_spec _ _ _ _ _ _ _ _ Hr) as (Hw & _).
  split; [constructor|].
  - eauto.
  - exact (wf_ctxs _ _ Hw).
  - pose proof (history_limited f s appl b0 b1 m past (fun n bs => n = L /\ zlen bs <= 4100)
      (Forall (good J)) (fun _ _ => True)) as Hlm.
    assert (always no_oom (history f s appl m b0 b1 past)
              (fun w tr => at_each (on_msg (fun _ _ => True)) tr /\ Forall (good J) (m_ctxs (w_m w)))) as Ha.
    { apply Hlm; auto.
      - intros cs max bs cs' out Hg Hwf _ [-> Hbl] Hbs Hpu. eapply (rx_pure_good J cs L bs); eauto.
      - apply Forall_forall. intros c Hc. apply repeat_spec in Hc. subst. left. reflexivity. }
    specialize (Ha e He). rewrite Hrun in Ha. exact (proj2 Ha).
  - apply Forall_forall. intros c Hc. destruct (Z.eq_dec (c_src c) 0) as [E|E]; [exact E|exfalso].
    apply In_nth_error in Hc. destruct Hc as (n & Hn).
    assert (In (c_key c, c_data c) (partials w)) as Hin by (apply partials_in; eauto 10).
    rewrite Hpa in Hin. contradiction.
Qed.

(** The deliveries of a history fed by up to 16 sources. *)
Lemma hist_streams m J L N S (more : Z -> list (list Z)) (msgs : Z -> list txreq) (w : world) tr l t w' :
  0 <= J -> L = 4096 * 2 ^ J -> L < 2 ^ 64 -> 68 <= N <= 4100 -> (length S <= 16)%nat -> ~ In 0 S ->
  settled_at L m w tr -> hist w l t w' -> no_config l ->
  (forall bs, In bs (arrivals l) -> taken (mode_local m) bs = true -> In (h_src bs) S) ->
  (forall x, In x S -> packs N x (msgs x) (from x (arrivals l) ++ more x) /\ Forall (fun r => zlen (r_msg r) <= L) (msgs x)) ->
  Forall (fun d => In (d_src d) S) (deliveries t) /\
  forall x, In x S -> exists dn rest, msgs x = dn ++ rest /\
    map (fun d => mkReq (d_dest d) (d_to d) (d_tag d) (d_msg d)) (filter (fun d => d_src d =? x) (deliveries t))
      = filter (fun r => nonempty r && for_us (mode_local m) (r_eid r)) dn /\
    (more x = [] -> filter (fun r => nonempty r && for_us (mode_local m) (r_eid r)) rest = []).
Proof.
  intros HJ HL HL64 HN Hlen H0 Hset Hh Hc Hin Hst.
  destruct (settled_ok _ _ _ _ _ HJ HL HL64 Hset) as (Hr & Hok & Hfree). destruct Hset as (_ & Hmax & _).
  destruct (reaches_spec _ _ _ _ _ _ _ _ Hr) as (Hw & Hm & _).
  destruct (hist_run m _ _ _ _ Hh Hw Hm Hc) as [_ Hd]. rewrite Hmax in Hd.
  set (local := mode_local m) in *. set (us := fun r => for_us local (r_eid r)).
  assert (L - 4096 * 2 ^ J = 0) as HL0 by lia.
  destruct (streams_run J HJ L HL0 HL64 N HN S (fun x => filter (taken local) (more x)) Hlen H0
    (filter (taken local) (arrivals l)) (m_ctxs (w_m w)) (fun x => filter us (msgs x)) Hok) as [Hsm Hres].
  - eapply Forall_impl; [|exact Hfree]. cbn. auto.
  - apply Forall_forall. intros bs Hbs. apply filter_In in Hbs. apply Hin; tauto.
  - intros x Hx. destruct (Hst x Hx) as [Hp Hsz]. split.
    + apply ExIdle.
      * eapply Forall_impl; [|exact Hfree]. cbn. intros c E E2. apply H0. rewrite <- E, E2. exact Hx.
      * rewrite from_filter, <- filter_app. apply packs_taken. exact Hp.
    + rewrite Forall_forall in *. intros r Hin'. apply filter_In in Hin'. apply Hsz; tauto.
  - set (os := snd (rx_run (m_ctxs (w_m w)) L (filter (taken local) (arrivals l)))) in *.
    split.
    + assert (Forall (fun o => In (h_src (fst o)) S) os) as Hos.
      { apply Forall_forall. intros [bs ms] Ho. cbn [fst].
        assert (forall ps cs, In (bs, ms) (snd (rx_run cs L ps)) -> In bs ps) as Hx.
        { induction ps as [|b ps IH]; intros cs; cbn [rx_run]; [contradiction|].
          destruct (rx_pure cs L b) as [cs1 out]. specialize (IH cs1). destruct (rx_run cs1 L ps) as [cs2 o2]. cbn [snd] in *.
          destruct out as [[[? ?] m0]|]; [intros [[= <- <-]|H]; [now left|right; auto]|right; auto]. }
        apply Hx in Ho. apply filter_In in Ho. apply Hin; tauto. }
      assert (Forall (fun q : Z * Z * bool * Z * list Z => In (let '(a, _, _, _, _) := q in a) S) (map sign (deliveries t))) as Hq.
      { rewrite Hd. apply Forall_map. exact Hos. }
      rewrite Forall_map in Hq. exact Hq.
    + intros x Hx. destruct (Hres x Hx) as (dn & rest & E1 & E2 & E3).
      destruct (filter_split _ _ _ _ E1) as (l1 & l2 & F1 & F2 & F3). exists l1, l2. split; [exact F1|].
      assert (forall k, filter (fun r => nonempty r && us r) k = filter nonempty (filter us k)) as Hff.
      { induction k as [|r k IHk]; [reflexivity|]. cbn [filter]. destruct (us r) eqn:Eu; rewrite ?andb_true_r, ?andb_false_r;
          [|exact IHk]. cbn [filter]. rewrite IHk. reflexivity. }
      fold us. rewrite !Hff, F2, F3, <- E2. split.
      * unfold requests_of. clear - Hd. revert Hd. generalize (deliveries t) os. clear.
        induction l as [|d l IH]; intros [|o os] E; try discriminate; [reflexivity|].
        injection E as E1 E2 E3 E4 E5 E6. specialize (IH _ E6). cbn [filter]. rewrite E1.
        destruct (h_src (fst o) =? x); [|exact IH]. cbn [map]. rewrite IH. congruence.
      * intros Em. eapply expects_nil; [exact E3|]. rewrite Em. reflexivity.
Qed.

(** ** C75: an endpoint hears each of up to 16 peers, however their packets are interleaved *)
Theorem C75_receive eid J L N S (msgs : Z -> list txreq) (more : Z -> list (list Z)) w tr l :
  0 <= J -> L = 4096 * 2 ^ J -> L < 2 ^ 64 -> 68 <= N <= 4100 -> (length S <= 16)%nat -> ~ In 0 S ->
  settled_at L (Endpoint eid) w tr -> m_rx (w_m w) = true ->
  Forall (traffic (Endpoint eid)) l -> no_config l ->
  (forall bs, In bs (arrivals l) -> taken (Some eid) bs = true -> In (h_src bs) S) ->
  (forall x, In x S -> packs N x (msgs x) (from x (arrivals l) ++ more x) /\
     Forall (fun r => zlen (r_msg r) <= L /\ forall j, bd_ctrl (bnd w j) && transport_request (r_msg r) = false) (msgs x)) ->
  always no_oom (xops f s appl w l) (fun w' t =>
    Forall (fun h => let '(src, _, _, _) := h in In src S) (heard t) /\
    forall x, In x S -> exists dn rest, msgs x = dn ++ rest /\
      heard_from x t = map (as_heard x) (filter (meant_for eid) dn) /\
      (more x = [] -> filter (meant_for eid) rest = [])).
Proof.
  intros HJ HL HL64 HN Hlen H0 Hset Hrx Htr Hc Hin Hst.
  destruct (settled_ok _ _ _ _ _ HJ HL HL64 Hset) as (Hr & _).
  destruct (reaches_spec _ _ _ _ _ _ _ _ Hr) as (Hw & Hm & _).
  eapply always_mono; [|eapply always_ops; [exact Hr|exact Htr]]. intros w' t Hh.
  destruct (hist_streams (Endpoint eid) J L N S more msgs w tr l t w' HJ HL HL64 HN Hlen H0 Hset Hh Hc Hin) as [Hs Hres].
  { intros x Hx. destruct (Hst x Hx) as [H1 H2]. split; [exact H1|]. eapply Forall_impl; [|exact H2]. cbn. tauto. }
  cbn [mode_local] in Hres.
  assert (heard t = map (fun d => (d_src d, d_to d, d_tag d, d_msg d)) (deliveries t)) as Eh.
  { eapply (hist_told eid w l t w' Hh Hw Hm Hc Hrx). intros d Hd j. rewrite Forall_forall in Hs. pose proof (Hs d Hd) as Hx.
    destruct (Hres _ Hx) as (dn & rest & E1 & E2 & _). destruct (Hst _ Hx) as [_ Hall].
    assert (In (mkReq (d_dest d) (d_to d) (d_tag d) (d_msg d)) (msgs (d_src d))) as Hin'.
    { rewrite E1. apply in_or_app. left. eapply (proj1 (filter_In _ _ _)). rewrite <- E2. apply (in_map (fun d => mkReq (d_dest d) (d_to d) (d_tag d) (d_msg d))).
      apply filter_In. split; [exact Hd|]. apply Z.eqb_refl. }
    rewrite Forall_forall in Hall. exact (proj2 (Hall _ Hin') j). }
  split.
  - rewrite Eh. apply Forall_map. exact Hs.
  - intros x Hx. destruct (Hres x Hx) as (dn & rest & E1 & E2 & E3). exists dn, rest. split; [exact E1|]. split; [|exact E3].
    change (filter (meant_for eid) dn) with (filter (fun r => nonempty r && for_us (Some eid) (r_eid r)) dn).
    rewrite <- E2, map_map. unfold heard_from. rewrite Eh. clear.
    induction (deliveries t) as [|d l IH]; [reflexivity|]. cbn [map filter]. destruct (Z.eqb_spec (d_src d) x) as [E|E]; [|exact IH].
    cbn [map]. rewrite IH. unfold as_heard. cbn [r_to r_tag r_msg]. rewrite E. reflexivity.
Qed.

(** ** What a node puts on its busses *)
Definition awake (w : world) : Prop := forall j, ost w j <> Some Constructed.

Lemma op_awake (w : world) o t w' i : op_rel w o t w' -> ost w i <> Some Constructed -> ost w' i <> Some Constructed.
Proof.
  intros Hrel Hst.
  assert (forall w1 w2 : world, stable w1 w2 -> ost w1 i <> Some Constructed -> ost w2 i <> Some Constructed)
    as Hstab. { intros w1 w2 (_ & _ & _ & H & _). rewrite (H i). auto. }
  destruct Hrel as [n|b|b|j b|j n|eid to tag msg rc t w' Hrel|j en t w' Hrel|j p bytes ap t w' Hby Hrel].
  1-3: exact Hst.
  - unfold ost. rewrite bget_set_bnd. exact Hst.
  - unfold ost. rewrite bget_set_bnd. exact Hst.
  - eapply Hstab; [|exact Hst]. eapply steps_stable, message_rel_steps; exact Hrel.
  - assert (forall b x, bget w j = Some b -> x <> Constructed ->
              ost (set_bus w j (set_st b x)) i <> Some Constructed) as Hset.
    { intros b x Hb Hx. unfold ost. rewrite (bget_set_bus _ _ _ _ _ _ Hb).
      destruct (Bool.eqb_spec j i); [cbn; congruence|exact Hst]. }
    destruct Hrel as [b en Hb Hc|b Hb Hst' Hsz|b Hb Hst'|b t w' Hb Hst' Ht]; try (apply Hset; congruence).
    + exact Hst.
    + eapply Hstab; [eapply steps_stable, txs_steps; exact Ht|]. apply Hset; congruence.
  - destruct (rx_rel_steps _ _ _ _ _ _ Hrel) as (cs & b & t1 & Hs & _).
    eapply Hstab; [eapply steps_stable; exact Hs|]. exact Hst.
Qed.

Lemma op_sized N (w : world) o l t w' : op_rel w o t w' -> sized N w (o :: l) -> sized N w' l.
Proof.
  intros Hr [Hs Hl]. inversion Hl as [|? ? Ho Hl']; subst. split; [|exact Hl'].
  assert (forall w1 w2 : world, stable w1 w2 -> forall j, bd_pkt_size (bnd w2 j) = bd_pkt_size (bnd w1 j)) as Hst.
  { intros w1 w2 (_ & H2 & _) j. specialize (H2 j). unfold bconst in H2. congruence. }
  assert (forall b st j, bd_pkt_size (bnd (set_bus w b st) j) = bd_pkt_size (bnd w j)) as Hb.
  { intros b st j. unfold set_bus. destruct (m_busses (w_m w)); destruct j; reflexivity. }
  destruct Hr as [n|b|b|i b|i n|eid to' tag' msg rc t w' Hr|i en t w' Hr|i p bytes ap t w' Hby Hr]; intros j.
  1-3: apply (Hs j).
  - pose proof (Hs j). destruct i, j; exact H.
  - pose proof (Hs j). destruct i, j; cbn in *; assumption.
  - rewrite (Hst _ _ (steps_stable _ _ _ _ (message_rel_steps _ _ _ _ _ _ _ _ _ Hr))). apply Hs.
  - destruct Hr as [b en Hb' Hc|b Hb' Hst' Hsz|b Hb' Hst'|b t w' Hb' Hst' Ht]; rewrite ?Hb; try apply Hs.
    rewrite (Hst _ _ (steps_stable _ _ _ _ (txs_steps _ _ _ _ _ Ht))), Hb. apply Hs.
  - destruct (rx_rel_steps _ _ _ _ _ _ Hr) as (cs & b & t1 & Hss & _ & _).
    rewrite (Hst _ _ (steps_stable _ _ _ _ Hss)). apply (Hs j).
Qed.

(** A transmission. *)
Lemma message_put N (w : world) r rc t w' eid : 68 <= N -> WF Strict w -> option_map bus_eid (bget w false) = Some eid ->
  awake w -> bd_pkt_size (bnd w false) <= N -> message_rel Strict w (r_eid r) (r_to r) (r_tag r) (r_msg r) rc t w' ->
  packs N eid (filter tag_ok [r]) (put false t) /\ put true t = [].
Proof.
  intros HN Hw He Ha Hz Hr. destruct Hr as [Ht|b rc t w' Ht Hb Hr].
  { cbn [filter]. replace (tag_ok r) with false; [split; [apply packs_nil|reflexivity]|].
    destruct (tag_ok r) eqn:E; [|reflexivity]. apply tag_ok_land in E. contradiction. }
  cbn [filter]. assert (tag_ok r = true) as -> by (now apply tag_ok_land).
  rewrite Hb in He. injection He as He. specialize (Ha false). unfold ost in Ha. rewrite Hb in Ha. cbn in Ha.
  destruct Hr as [b' Hb' Hs|b' Hb' Hs Htag|t w' Hr].
  - exfalso. rewrite Hb in Hb'. injection Hb' as <-. congruence.
  - contradiction.
  - destruct (msg_rel_enqueued _ _ _ _ _ _ _ _ _ Hw Hr) as [H1 H2]. cbn in H2. unfold put. rewrite H2. split; [|reflexivity].
    assert (bus_st b <> Constructed) as Hnc by congruence.
    pose proof (wf_size _ _ Hw _ _ Hb Hnc) as Hsz.
    eexists [_]. split; [|cbn [concat]; rewrite app_nil_r; reflexivity]. constructor; [|constructor].
    split; [now apply tag_range|]. eexists _, _. split; [|rewrite He in H1; exact H1]. lia.
Qed.

Lemma put_quiet j t : Forall (fun e => match e with EvEnq _ _ _ => False | _ => True end) t -> put j t = [].
Proof.
  unfold put, enqueued. induction 1 as [|e t He Ht IH]; [reflexivity|]. cbn [flat_map]. rewrite map_app, IH, app_nil_r.
  destruct e; try reflexivity; contradiction.
Qed.

(** The calls that are neither a reception nor a transmission put nothing on a bus. *)
Lemma other_put (w : world) o t w' j : op_rel w o t w' ->
  match o with OpRx _ _ | OpTx _ _ _ _ => True | _ => put j t = [] end.
Proof.
  intros Hr. destruct Hr as [n|b|b|i b|i n|eid to' tag' msg rc t w' Hr|i en t w' Hr|i p bytes ap t w' Hby Hr]; try reflexivity; try exact I.
  destruct Hr as [b en Hb' Hc|b Hb' Hst' Hsz|b Hb' Hst'|b t w' Hb' Hst' Ht]; try reflexivity.
  change (EvSetTx i true :: t) with ([EvSetTx i true] ++ t). rewrite put_app. unfold put at 2.
  rewrite (txs_enqueued _ _ _ _ j Ht). reflexivity.
Qed.

(** A reception of a bridge. *)
Lemma bridge_rx N (w : world) i p t w' : 68 <= N -> WF Strict w -> mode_ok Bridge w -> awake w ->
  (forall j, bd_pkt_size (bnd w j) <= N) -> op_rel w (OpRx i p) t w' ->
  put i t = [] /\ (deliveries t = [] /\ put (negb i) t = [] \/
    exists d bs, deliveries t = [d] /\ pkt_is p bs /\ d_src d = h_src bs /\
      packs N (d_src d) [mkReq (d_dest d) (d_to d) (d_tag d) (d_msg d)] (put (negb i) t)).
Proof.
  intros HN Hw Hm Ha Hz Hr.
  assert (exists bs, pkt_is p bs) as (bs & Hp). { inversion Hr; subst. unfold pkt_is. eauto. }
  destruct (rx_cases _ _ _ _ _ _ _ Hw Hm Hp Hr) as (t1 & -> & Hc).
  pose proof (rx_case_deliveries appl Bridge w i bs w' t1 (EvAlloc (m_next (w_m w)))
    (EvBusRx i (mode_local Bridge) (m_next (w_m w)) bs) (m_next (w_m w)) Hc I I) as Hd.
  rewrite Hd. clear Hd.
  assert (forall j n e e', match e with EvEnq _ _ _ => False | _ => True end ->
            match e' with EvEnq _ _ _ => False | _ => True end ->
            put j (e :: e' :: t1 ++ [EvFree n]) = put j t1) as Henq.
  { intros j n e e' He He'. unfold put. f_equal. change (e :: e' :: t1 ++ [EvFree n]) with ([e; e'] ++ t1 ++ [EvFree n]).
    rewrite !enqueued_app, app_nil_r. destruct e; try contradiction; destruct e'; try contradiction; reflexivity. }
  rewrite !Henq by exact I. clear Henq.
  destruct Hc as [Hl Hw'|Hl Hf Hw'|cs Ht Hpu Hw'|cs msg t2 Ht Hpu Hw' Hmsg].
  - unfold taken. replace (4 <? zlen bs) with false by lia. split; [reflexivity|]. left. split; reflexivity.
  - discriminate.
  - unfold put. rewrite !enqueued_capev, Ht, Hpu. split; [reflexivity|]. left. split; reflexivity.
  - destruct Hmsg as (rc & Hob). rewrite Ht, Hpu. cbn [snd].
    assert (forall j, put j (capev w false bs ++ EvMsg i (h_src bs) (h_dest bs) (h_to bs) (h_tag bs) msg :: t2) = put j t2) as Hput.
    { intros j. rewrite put_app. unfold put at 1. rewrite enqueued_capev. reflexivity. }
    rewrite !Hput. clear Hput.
    assert (WF Strict (setc (nextw w) cs)) as Hw2.
    { apply WF_setc; [apply WF_next; exact Hw|].
      pose proof (rx_pure_wf (m_ctxs (w_m w)) (m_max (w_m w)) bs (wf_ctxs _ _ Hw)) as Hc.
      rewrite Hpu in Hc. apply Hc; [|exact (wf_max _ _ Hw)].
      unfold taken in Ht. apply andb_true_iff in Ht. lia. }
    assert (forall b, bget (setc (nextw w) cs) (negb i) = Some b -> ost w (negb i) = Some (bus_st b)) as Host.
    { intros b Hb. change (bget w (negb i) = Some b) in Hb. unfold ost. rewrite Hb. reflexivity. }
    assert (bnd (setc (nextw w) cs) (negb i) = bnd w (negb i)) as Eb by (destruct i; reflexivity).
    destruct Hob as [b Hb Hst|b Hb Hst Htag|t w' Hmr].
    + exfalso. apply (Ha (negb i)). rewrite (Host b Hb), Hst. reflexivity.
    + exfalso. apply Htag, tag_range, key_tag.
    + pose proof (msg_rel_enqueued _ _ _ _ _ _ _ _ _ Hw2 Hmr) as [H1 H2]. rewrite Eb in H1.
      rewrite negb_involutive in H2. unfold put. rewrite H2. split; [reflexivity|]. right.
      eexists _, bs. split; [reflexivity|]. split; [exact Hp|]. split; [reflexivity|]. cbn [d_src d_dest d_to d_tag d_msg].
      assert (68 <= bd_pkt_size (bnd w (negb i))) as Hsz.
      { destruct Hmr as [b t1 w1 t2 w' Hb Hst _ _ _]. rewrite <- Eb. exact (proj1 (wf_size _ _ Hw2 _ _ Hb Hst)) || exact (wf_size _ _ Hw2 _ _ Hb Hst). }
      eexists [_]. split; [|cbn [concat]; rewrite app_nil_r; reflexivity]. constructor; [|constructor].
      split; [apply key_tag|]. eexists _, _. split; [|exact H1]. specialize (Hz (negb i)). lia.
Qed.

Definition as_req (d : delivery) : txreq := mkReq (d_dest d) (d_to d) (d_tag d) (d_msg d).

Lemma hist_bridge N x i (w : world) l t w' : 68 <= N -> x <> 0 -> hist w l t w' -> WF Strict w -> mode_ok Bridge w -> awake w ->
  sized N w l -> from x (arrivals_on (negb i) l) = [] ->
  packs N x (map as_req (filter (fun d => d_src d =? x) (deliveries t))) (from x (put (negb i) t)) /\ from x (put i t) = [].
Proof.
  intros HN Hx. induction 1 as [w|w o t1 w1 l t2 w2 Ho Hw1 Hh IH]; intros Hw Hm Ha Hs Hf; [split; [apply packs_nil|reflexivity]|].
  destruct (op_effect appl _ _ _ _ _ Hw Hm Ho) as (He & Hne & _).
  assert (from x (arrivals_on (negb i) l) = [] /\
    forall bs p, o = OpRx (negb i) p -> pkt_is p bs -> h_src bs <> x) as [Hf2 Hf1].
  { unfold arrivals_on in Hf. cbn [filter] in Hf. destruct o as [| | | | | | |j p| | | |]; try (split; [exact Hf|discriminate]).
    destruct (Bool.eqb_spec (negb i) j) as [<-|Hj].
    - unfold arrivals in Hf. cbn [flat_map] in Hf. rewrite from_app in Hf. apply app_eq_nil in Hf. destruct Hf as [Hf1 Hf].
      split; [exact Hf|]. intros bs q [= <-] Hq E. unfold pkt_is in Hq. rewrite Hq in Hf1. unfold from in Hf1. cbn [filter] in Hf1.
      rewrite E, Z.eqb_refl in Hf1. discriminate.
    - split; [exact Hf|]. intros bs q [= E] _. congruence. }
  destruct (IH Hw1 (op_rel_mode _ _ _ _ _ Hm Ho) (fun j => op_awake _ _ _ _ _ Ho (Ha j)) (op_sized _ _ _ _ _ _ Ho Hs) Hf2) as [I1 I2].
  rewrite !put_app, !from_app, deliveries_app, filter_app, map_app, I2, app_nil_r by exact Hne.
  assert (packs N x (map as_req (filter (fun d => d_src d =? x) (deliveries t1))) (from x (put (negb i) t1)) /\ from x (put i t1) = []) as [O1 O2];
    [|split; [apply packs_app; assumption|exact O2]].
  pose proof (fun j => other_put _ _ _ _ j Ho) as Hoth.
  assert ((forall i p, o <> OpRx i p) -> deliveries t1 = []) as Hnd.
  { intros Hno. destruct (op_other _ _ _ _ Ho Hno) as (_ & Hq & _). rewrite <- (app_nil_r t1), deliveries_quiet by exact Hq. reflexivity. }
  destruct o as [| | | | | | |j p|eid to tag msg| | |];
    try (rewrite Hnd, !Hoth by discriminate; split; [apply packs_nil|reflexivity]).
  - destruct (bridge_rx N _ _ _ _ _ HN Hw Hm Ha (proj1 Hs) Ho) as [P1 [[P2 P3]|(d & bs & P2 & Hp & P3 & P4)]].
    + assert (forall k, put k t1 = []) as Hk by (intros k; destruct k, j; assumption).
      rewrite P2, !Hk. split; [apply packs_nil|reflexivity].
    + rewrite P2. cbn [filter map]. pose proof (packs_src _ _ _ _ P4) as Hsrc.
      destruct (Bool.eqb_spec j i) as [->|Hji].
      * rewrite P1. split; [|reflexivity]. destruct (Z.eqb_spec (d_src d) x) as [E|E]; cbn [map].
        -- rewrite E in *. rewrite from_all by exact Hsrc. exact P4.
        -- rewrite from_none; [apply packs_nil|]. eapply Forall_impl; [|exact Hsrc]. cbn. congruence.
      * assert (j = negb i) as -> by (destruct i, j; congruence || reflexivity). rewrite negb_involutive in *. rewrite P1.
        pose proof (Hf1 bs p eq_refl Hp) as Hb. destruct (Z.eqb_spec (d_src d) x) as [E|E]; [congruence|]. cbn [map].
        split; [apply packs_nil|]. apply from_none. eapply Forall_impl; [|exact Hsrc]. cbn. congruence.
  - rewrite Hnd by discriminate. inversion Ho as [| | | | |eid' to' tag' msg' rc t' w'' Hr| |]; subst.
    destruct (message_put N w (mkReq eid to tag msg) rc t' w1 0 HN Hw (proj1 (proj2 Hm)) Ha (proj1 Hs false) Hr) as [P1 P2].
    assert (forall k, put k (t' ++ [EvRet rc]) = put k t') as Hk by (intros k; rewrite put_app; apply app_nil_r).
    assert (from x (put false t') = []) as P3.
    { apply from_none. eapply Forall_impl; [|exact (packs_src _ _ _ _ P1)]. cbn. congruence. }
    rewrite !Hk. cbn [filter map]. destruct i; cbn [negb]; rewrite P2, P3; split; try reflexivity; apply packs_nil.
Qed.

(** Everything put on the busses of a bridge that sends nothing itself came in as a message. *)
Lemma hist_bridge_src N j (w : world) l t w' : 68 <= N -> hist w l t w' -> WF Strict w -> mode_ok Bridge w -> awake w ->
  sized N w l -> calls l = [] -> Forall (fun p => exists d, In d (deliveries t) /\ d_src d = h_src p) (put j t).
Proof.
  intros HN. induction 1 as [w|w o t1 w1 l t2 w2 Ho Hw1 Hh IH]; intros Hw Hm Ha Hs Hc; [constructor|].
  destruct (op_effect appl _ _ _ _ _ Hw Hm Ho) as (He & Hne & _).
  unfold calls in Hc. cbn [flat_map] in Hc. apply app_eq_nil in Hc. destruct Hc as [Hc1 Hc2].
  specialize (IH Hw1 (op_rel_mode _ _ _ _ _ Hm Ho) (fun j => op_awake _ _ _ _ _ Ho (Ha j)) (op_sized _ _ _ _ _ _ Ho Hs) Hc2).
  rewrite put_app, deliveries_app by exact Hne. apply Forall_app. split.
  2:{ eapply Forall_impl; [|exact IH]. cbn. intros p (d & H1 & H2). exists d. split; [apply in_or_app; auto|exact H2]. }
  pose proof (other_put _ _ _ _ j Ho) as Hoth.
  destruct o as [| | | | | | |k p|eid to tag msg| | |]; try (rewrite Hoth; constructor); [|discriminate].
  destruct (bridge_rx N _ _ _ _ _ HN Hw Hm Ha (proj1 Hs) Ho) as [P1 [[P2 P3]|(d & bs & P2 & Hp & P3 & P4)]].
  + assert (put j t1 = []) as -> by (destruct j, k; assumption). constructor.
  + destruct (Bool.eqb_spec j k) as [<-|Hjk]; [rewrite P1; constructor|].
    assert (j = negb k) as -> by (destruct j, k; congruence || reflexivity).
    eapply Forall_impl; [|exact (packs_src _ _ _ _ P4)]. cbn. intros q Hq. exists d. split; [|congruence].
    rewrite P2. now left.
Qed.

Lemma arrivals_side x i (l : list (@op B)) : from x (arrivals_on (negb i) l) = [] -> from x (arrivals l) = from x (arrivals_on i l).
Proof.
  induction l as [|o l IH]; intros H; [reflexivity|].
  unfold arrivals_on, arrivals in *. cbn [filter flat_map] in *. rewrite from_app.
  destruct o as [| | | | | | |j p| | | |]; try (apply IH; exact H).
  destruct (Bool.eqb_spec i j) as [<-|Hij].
  - replace (Bool.eqb (negb i) i) with false in H by (destruct i; reflexivity). cbn [flat_map]. rewrite from_app, (IH H). reflexivity.
  - assert (j = negb i) as -> by (destruct i, j; congruence || reflexivity). rewrite Bool.eqb_reflx in H. cbn [flat_map] in H.
    rewrite from_app in H. apply app_eq_nil in H. destruct H as [H1 H2]. rewrite H1. exact (IH H2).
Qed.

(** ** C75: a bridge passes on what each of up to 16 endpoints sends, however their
    packets are interleaved: whole messages, unchanged, once and in the order of each
    sender, packetised anew for the other bus. *)
Theorem C75_bridge J L N M S (side : Z -> bool) (msgs : Z -> list txreq) (more : Z -> list (list Z)) w tr l :
  0 <= J -> L = 4096 * 2 ^ J -> L < 2 ^ 64 -> 68 <= N <= 4100 -> 68 <= M -> (length S <= 16)%nat -> ~ In 0 S ->
  settled_at L Bridge w tr -> (forall j, bus_state_of w j <> Some Constructed) -> sized M w l ->
  Forall (traffic Bridge) l -> no_config l ->
  (forall bs, In bs (arrivals l) -> 4 < zlen bs -> In (h_src bs) S) ->
  (forall x, In x S -> from x (arrivals_on (negb (side x)) l) = [] /\
     packs N x (msgs x) (from x (arrivals_on (side x) l) ++ more x) /\ Forall (fun r => zlen (r_msg r) <= L) (msgs x)) ->
  always no_oom (xops f s appl w l) (fun w' t =>
    (forall x, In x S -> exists dn rest, msgs x = dn ++ rest /\
      packs M x dn (from x (put (negb (side x)) t)) /\ from x (put (side x) t) = [] /\
      (more x = [] -> filter nonempty rest = [])) /\
    (calls l = [] -> forall j p, In p (put j t) -> In (h_src p) S)).
Proof.
  intros HJ HL HL64 HN HM Hlen H0 Hset Hst Hsz Htr Hc Hin Hstr.
  destruct (settled_ok _ _ _ _ _ HJ HL HL64 Hset) as (Hr & _).
  destruct (reaches_spec _ _ _ _ _ _ _ _ Hr) as (Hw & Hm & _).
  assert (awake w) as Ha by (intros j; rewrite <- bus_state_ost; apply Hst).
  eapply always_mono; [|eapply always_ops; [exact Hr|exact Htr]]. intros w' t Hh.
  destruct (hist_streams Bridge J L N S more msgs w tr l t w' HJ HL HL64 HN Hlen H0 Hset Hh Hc) as [Hs Hres].
  { intros bs Hb Ht. apply Hin; [exact Hb|]. unfold taken in Ht. apply andb_true_iff in Ht. lia. }
  { intros x Hx. destruct (Hstr x Hx) as (H1 & H2 & H3). split; [|exact H3]. rewrite (arrivals_side x (side x)) by exact H1. exact H2. }
  split.
  - intros x Hx. destruct (Hres x Hx) as (dn & rest & E1 & E2 & E3). destruct (Hstr x Hx) as (H1 & H2 & _).
    assert (x <> 0) as Hx0 by (intros ->; contradiction).
    destruct (hist_bridge M x (side x) w l t w' HM Hx0 Hh Hw Hm Ha Hsz H1) as [P1 P2].
    cbn [mode_local for_us] in E2, E3.
    assert (forall k, filter (fun r => nonempty r && true) k = filter nonempty k) as Ef.
    { intros k. apply filter_ext. intros r. apply andb_true_r. }
    rewrite Ef in E2, E3. exists dn, rest. split; [exact E1|]. split; [|auto].
    apply packs_nonempty; [exact HM| |rewrite <- E2; exact P1].
    pose proof (packs_tags _ _ _ _ H2) as Hall. rewrite E1 in Hall. apply Forall_app in Hall. tauto.
  - intros Hca j p Hp. pose proof (hist_bridge_src M j w l t w' HM Hh Hw Hm Ha Hsz Hca) as Hall.
    rewrite Forall_forall in Hall, Hs. destruct (Hall p Hp) as (d & Hd & <-). exact (Hs d Hd).
Qed.

(** ** The sender *)

(** [op_rel] with the reactions of this application. *)
Definition tied (w : world) (o : @op B) (t : list event) (w' : world) : Prop :=
  op_rel w o t w' /\
  match o with
  | OpRx i p => exists bytes t', pktbuf_bytes p = Some bytes /\ t = EvAlloc (m_next (w_m w)) :: t' /\
      rx_rel Strict appl (set_m w (set_next (w_m w) (m_next (w_m w) + 1))) i (m_next (w_m w)) bytes t' w'
  | _ => True
  end.
Inductive thist : world -> list (@op B) -> list event -> world -> Prop :=
| THNil w : thist w [] [] w
| THCons w o t1 w1 l t2 w2 : tied w o t1 w1 -> WF Strict w1 -> thist w1 l t2 w2 -> thist w (o :: l) (t1 ++ t2) w2.

Lemma wp_tied (Hf : polite f) m (w : world) o g : WF Strict w -> mode_ok m w -> traffic m o ->
  wp (adv no_oom) (xop f s appl w o) g (fun w' g' => exists t, g' = g ++ t /\ tied w o t w' /\ WF Strict w').
Proof.
  intros Hw Hmo Ht.
  assert ((exists i p, o = OpRx i p) \/ forall i p, o <> OpRx i p) as [(i & p & ->)|Hno].
  { destruct o; eauto; right; discriminate. }
  - unfold xop, exec_op. rewrite (wf_dead _ _ Hw).
    destruct Ht as [Hi Hp]. destruct (mode_bget m w i Hw Hmo Hi) as (b & Hb).
    destruct (pktbuf_bytes_wf p Hp) as (bytes & Hby & _).
    cbn [wp h_emit adv]. set (n := m_next (w_m w)). set (w1 := set_m w (set_next (w_m w) (n + 1))).
    assert (WF Strict w1) as Hw1 by now apply WF_next.
    eapply wp_mono; [apply adv_mono| |
      eapply (wp_bus_rx (scripted f) appl (adv no_oom) (adv_mono no_oom) id Strict Jt (fun e w g Q => Jt_emit no_oom e w g Q)
        (Jt_alloc no_oom eq_refl) (Jt_btx f no_oom Hf) w1 i b (set_id p n) bytes);
      [exact Hw1|exact Hb| |exact Hby|intros lo Q HQ; apply HQ; [exact I|reflexivity]]].
    + intros w' g' (t & Ht & Hr & _). exists (EvAlloc n :: t).
      unfold id in Ht. split; [rewrite Ht, <- app_assoc; reflexivity|].
      split; [|eapply rx_rel_WF; eassumption]. split; [eapply ORRx; eassumption|]. exists bytes, t. auto.
    + destruct Hp; constructor; assumption.
  - eapply wp_mono; [apply adv_mono| |eapply (wp_exec_op f s appl no_oom eq_refl Hf m w o g Hw Hmo Ht)].
    intros w' g' (t & -> & Hr & Hw'). exists t. split; [reflexivity|]. split; [|exact Hw']. split; [exact Hr|].
    destruct o; try exact I. exfalso. eapply Hno. reflexivity.
Qed.

Lemma wp_thist (Hf : polite f) m : forall l (w : world) g, WF Strict w -> mode_ok m w -> Forall (traffic m) l ->
  wp (adv no_oom) (xops f s appl w l) g (fun w' g' => exists t, g' = g ++ t /\ thist w l t w').
Proof.
  induction l as [|o l IH]; intros w g Hw Hmo Hl; unfold xops; cbn [exec].
  - cbn [wp]. exists []. rewrite app_nil_r. split; [reflexivity|]. constructor.
  - inversion Hl as [|? ? Ho Hl']; subst.
    eapply wp_call; [apply adv_mono|eapply (wp_tied Hf m w o g Hw Hmo Ho)|].
    intros w1 g1 (t1 & -> & Hr & Hw1).
    eapply wp_mono; [apply adv_mono| |eapply (IH w1); [exact Hw1|eapply op_rel_mode; [exact Hmo|exact (proj1 Hr)]|exact Hl']].
    intros w2 g2 (t2 & -> & Hh). exists (t1 ++ t2). rewrite app_assoc.
    split; [reflexivity|]. eapply THCons; eassumption.
Qed.

Lemma asked_tx_ev rs t t' : Forall tx_ev t -> asked appl rs (t ++ t') = asked appl rs t'.
Proof.
  intros Ht. revert rs. induction Ht as [|e t He Ht IH]; intros rs; [reflexivity|]. cbn [app asked]. rewrite IH.
  destruct e; cbn in He; try contradiction; reflexivity.
Qed.

Lemma msgs_put N eid (w : world) l t w' : 68 <= N -> msgs_rel Strict w l t w' -> WF Strict w ->
  option_map bus_eid (bget w false) = Some eid -> awake w -> bd_pkt_size (bnd w false) <= N ->
  packs N eid (filter tag_ok l) (put false t).
Proof.
  intros HN. induction 1 as [w|w r rs rc t1 w1 t2 w2 H1 H2 IH]; intros Hw He Ha Hz; [apply packs_nil|].
  pose proof (message_put N _ _ _ _ _ _ HN Hw He Ha Hz H1) as [P1 _].
  pose proof (message_rel_steps _ _ _ _ _ _ _ _ _ H1) as Hs. pose proof (steps_stable _ _ _ _ Hs) as (S1 & S2 & S3 & S4 & _).
  rewrite put_app. change (r :: rs) with ([r] ++ rs). rewrite filter_app. apply packs_app; [exact P1|]. apply IH.
  - eapply steps_WF; eassumption.
  - rewrite S3. exact He.
  - intros j E. apply S4 in E. exact (Ha j E).
  - specialize (S2 false). unfold bconst in S2. congruence.
Qed.

Lemma rx_asked N eid (w : world) i id bytes t w' : 68 <= N -> rx_rel Strict appl w i id bytes t w' -> WF Strict w ->
  mode_ok (Endpoint eid) w -> awake w -> bd_pkt_size (bnd w false) <= N ->
  exists q, packs N eid q (put false t) /\ forall rs x, asked appl rs (t ++ x) = q ++ asked appl rs x.
Proof.
  intros HN Hr Hw [Hpol He] Ha Hz.
  destruct Hr as [b Hb Hl|b t w' Hb Hl Hbody].
  { exists []. split; [apply packs_nil|]. reflexivity. }
  enough (exists q, packs N eid q (put false t) /\ forall rs x, asked appl rs (t ++ x) = q ++ asked appl rs x) as (q & Q1 & Q2).
  { exists q. split.
    - change (EvBusRx i (busrx_local w b) id bytes :: capev w false bytes ++ t ++ [EvFree id])
        with ([EvBusRx i (busrx_local w b) id bytes] ++ capev w false bytes ++ t ++ [EvFree id]).
      rewrite !put_app. unfold put at 1 2 4. rewrite enqueued_capev. cbn [map app]. rewrite app_nil_r. exact Q1.
    - intros rs x. rewrite <- app_comm_cons, <- !app_assoc. cbn [asked].
      assert (forall y, asked appl rs (capev w false bytes ++ y) = asked appl rs y) as ->.
      { intros y. unfold capev. destruct (m_cap (w_m w)); reflexivity. }
      rewrite Q2. reflexivity. }
  assert (exists q, packs N eid q (put false []) /\ forall rs x, asked appl rs ([] ++ x) = q ++ asked appl rs x) as Hnil.
  { exists []. split; [apply packs_nil|reflexivity]. }
  destruct Hbody as [b' Hb' Hp Hd|b' cs Hb' Hp Hpu|b' cs sr d m t w' Hb' Hp Hpu Hrt]; [exact Hnil|exact Hnil|].
  destruct Hrt as [b2 Hb2 Hp2 Hd2|b2 e t w' Hb2 Hp2 Hd2 Hev Hms|rc t w' Hp2 _].
  - exists []. split; [apply packs_nil|]. reflexivity.
  - exists (filter tag_ok (appl e)).
    assert (WF Strict (setc w cs)) as Hw2.
    { apply WF_setc; [exact Hw|].
      pose proof (rx_pure_wf (m_ctxs (w_m w)) (m_max (w_m w)) bytes (wf_ctxs _ _ Hw)) as Hc.
      rewrite Hpu in Hc. apply Hc; [|exact (wf_max _ _ Hw)]. exact Hl. }
    pose proof (msgs_put N eid _ _ _ _ HN Hms Hw2 He Ha Hz) as P.
    assert (match e with EvRx _ _ _ _ | EvCtrl _ _ _ _ _ => True | _ => False end) as Hek.
    { destruct (local_event_shape _ _ _ _ _ _ _ Hev) as [-> | ->]; exact I. }
    split.
    + change (EvMsg i sr d (p_to bytes) (p_tag bytes) m :: e :: t) with ([EvMsg i sr d (p_to bytes) (p_tag bytes) m; e] ++ t).
      rewrite put_app. replace (put false [EvMsg i sr d (p_to bytes) (p_tag bytes) m; e]) with (@nil (list Z)); [exact P|].
      destruct e; try contradiction; reflexivity.
    + intros rs x. cbn [app asked]. destruct e; try contradiction; rewrite asked_tx_ev by (eapply msgs_ev; exact Hms); reflexivity.
  - exfalso. change (m_policy (w_m w) = RouteBridge) in Hp2. congruence.
Qed.

Lemma thist_put N eid (w : world) l t w' : 68 <= N -> thist w l t w' -> WF Strict w -> mode_ok (Endpoint eid) w -> awake w ->
  sized N w l -> packs N eid (asked appl (calls l) t) (put false t).
Proof.
  intros HN. induction 1 as [w|w o t1 w1 l t2 w2 [Ho Hti] Hw1 Hh IH]; intros Hw Hm Ha Hs; [apply packs_nil|].
  specialize (IH Hw1 (op_rel_mode _ _ _ _ _ Hm Ho) (fun j => op_awake _ _ _ _ _ Ho (Ha j)) (op_sized _ _ _ _ _ _ Ho Hs)).
  pose proof (other_put _ _ _ _ false Ho) as Hoth.
  unfold calls. cbn [flat_map]. fold (calls l). rewrite put_app.
  assert (option_map bus_eid (bget w false) = Some eid) as He by exact (proj2 Hm).
  destruct Ho as [n|b|b|i b|i n|dst to tag msg rc t w' Hr|i en t w' Hr|i p bytes ap t w' Hby Hr]; cbn [app]; try exact IH.
  - (* a transmission *)
    pose proof (message_put N w (mkReq dst to tag msg) rc t w' eid HN Hw He Ha (proj1 Hs false) Hr) as [P1 _].
    rewrite <- app_assoc, asked_tx_ev by (eapply message_ev; exact Hr). cbn [app asked].
    rewrite put_app. change (put false [EvRet rc]) with (@nil (list Z)). rewrite app_nil_r. apply packs_app; assumption.
  - (* enabling or disabling *)
    rewrite Hoth. cbn [app].
    replace (asked appl (calls l) (t ++ t2)) with (asked appl (calls l) t2); [exact IH|]. symmetry.
    destruct Hr as [b en Hb' Hc|b Hb' Hst' Hsz|b Hb' Hst'|b t w' Hb' Hst' Ht]; try reflexivity.
    cbn [app asked]. apply asked_tx_ev. eapply txs_ev; exact Ht.
  - (* a reception *)
    clear Hr Hby ap. destruct Hti as (by0 & t' & Hby & Et & Hr). injection Et as <-. clear bytes.
    set (wn := set_m w (set_next (w_m w) (m_next (w_m w) + 1))) in *.
    assert (WF Strict wn) as Hwn by now apply WF_next.
    destruct (rx_asked N eid wn i (m_next (w_m w)) by0 t w' HN Hr Hwn Hm Ha (proj1 Hs false)) as (q & Q1 & Q2).
    cbn [app asked]. rewrite Q2. apply packs_app; [exact Q1|exact IH].
Qed.

(** ** C75: what an endpoint's application asks for is what it puts on its bus *)
Theorem C75_send src N w tr l : 68 <= N ->
  reaches f s appl (Endpoint src) b0 b1 w tr -> (forall j, bus_state_of w j <> Some Constructed) -> sized N w l ->
  Forall (traffic (Endpoint src)) l ->
  always no_oom (xops f s appl w l) (fun w' t => packs N src (asked appl (calls l) t) (put false t)).
Proof.
  intros HN Hr Hst Hs Htr. destruct (reaches_spec _ _ _ _ _ _ _ _ Hr) as (Hw & Hm & Hf & _).
  apply adv_always. eapply wp_mono; [apply adv_mono| |eapply (wp_thist Hf _ l w [] Hw Hm Htr)].
  intros w' g (t & -> & Hh). eapply thist_put; try eassumption. intros j. rewrite <- bus_state_ost. apply Hst.
Qed.
End Hist.

(** ** End to end *)

(** Some endpoint [src], whatever its binding and application, puts the packets [pks] of
    at most [N] bytes on its bus while its application asks for [msgs]. *)
Definition transmits (src N : Z) (msgs : list txreq) (pks : list (list Z)) : Prop :=
  exists (B : Type) (f : txfun B) (s : startfun B) (appl : event -> list txreq) (b0 b1 : binding B) w tr l e w' n t,
    reaches f s appl (Endpoint src) b0 b1 w tr /\ (forall j, bus_state_of w j <> Some Constructed) /\ sized N w l /\
    Forall (traffic (Endpoint src)) l /\ env_ok no_oom e /\ run e 0 [] (xops f s appl w l) = Done w' n t /\
    msgs = asked appl (calls l) t /\ pks = put false t.

Lemma transmits_packs src N msgs pks : 68 <= N -> transmits src N msgs pks -> packs N src msgs pks.
Proof.
  intros HN (B & f & s & appl & b0 & b1 & w & tr & l & e & w' & n & t & Hr & Hst & Hs & Htr & He & Hrun & -> & ->).
  pose proof (C75_send f s appl b0 b1 src N w tr l HN Hr Hst Hs Htr e He) as H. rewrite Hrun in H. exact H.
Qed.

Lemma pick {A} (d : A) (P : Z -> A -> Prop) (S : list Z) : (forall x, In x S -> exists a, P x a) ->
  exists g, forall x, In x S -> P x (g x).
Proof.
  induction S as [|y S IH]; intros H; [exists (fun _ => d); intros x []|].
  destruct IH as (g & Hg); [intros x Hx; apply H; now right|]. destruct (H y (or_introl eq_refl)) as (a & Ha).
  exists (fun x => if Z.eq_dec x y then a else g x). intros x Hx. destruct (Z.eq_dec x y) as [->|Hne]; [exact Ha|].
  destruct Hx as [->|Hx]; [congruence|auto].
Qed.

Section Across.
(** The bridge *)
Context {B : Type} (f : txfun B) (s : startfun B) (appl : event -> list txreq) (b0 b1 : binding B).
(** The receiver *)
Context {B' : Type} (f' : txfun B') (s' : startfun B') (appl' : event -> list txreq) (c0 c1 : binding B').

Theorem C75_across J L N M S (side : Z -> bool) (msgs : Z -> list txreq) (more : Z -> list (list Z))
    (w : world B) tr l e w1 n1 t1 j eid (v : world B') trv l' later :
  0 <= J -> L = 4096 * 2 ^ J -> L < 2 ^ 64 -> 68 <= N <= 4100 -> 68 <= M <= 4100 -> (length S <= 16)%nat -> ~ In 0 S ->
  (* each of the endpoints [S] sends its messages, and the bridge gets the first of its packets *)
  (forall x, In x S ->
     transmits x N (msgs x) (from x (arrivals_on (side x) l) ++ more x) /\ from x (arrivals_on (negb (side x)) l) = [] /\
     Forall (fun r => zlen (r_msg r) <= L /\ forall j, bd_ctrl (bnd v j) && transport_request (r_msg r) = false) (msgs x)) ->
  (forall bs, In bs (arrivals l) -> 4 < zlen bs -> In (h_src bs) S) ->
  (* the bridge *)
  settled_at f s appl b0 b1 L Bridge w tr -> (forall j, bus_state_of w j <> Some Constructed) -> sized M w l ->
  Forall (traffic Bridge) l -> no_config l -> calls l = [] ->
  env_ok no_oom e -> run e 0 [] (xops f s appl w l) = Done w1 n1 t1 ->
  (* the receiver, on bus [j], gets the first of the packets that the bridge puts there *)
  settled_at f' s' appl' c0 c1 L (Endpoint eid) v trv -> m_rx (w_m v) = true ->
  Forall (traffic (Endpoint eid)) l' -> no_config l' -> arrivals l' ++ later = put j t1 ->
  always no_oom (xops f' s' appl' v l') (fun v' t2 =>
    forall x, In x S ->
      (side x = j -> heard_from x t2 = []) /\
      (side x <> j -> exists dn rest, msgs x = dn ++ rest /\
         heard_from x t2 = map (as_heard x) (filter (meant_for eid) dn) /\
         (more x = [] -> later = [] -> filter (meant_for eid) rest = []))).
Proof.
  intros HJ HL HL64 HN HM Hlen H0 Hsrc Hin Hset Hst Hsz Htr Hc Hca He Hrun Hset' Hrx Htr' Hc' Harr.
  pose proof (C75_bridge f s appl b0 b1 J L N M S side msgs more w tr l HJ HL HL64 HN (proj1 HM) Hlen H0 Hset Hst Hsz Htr Hc Hin) as Hb.
  assert (forall x, In x S -> from x (arrivals_on (negb (side x)) l) = [] /\
     packs N x (msgs x) (from x (arrivals_on (side x) l) ++ more x) /\ Forall (fun r => zlen (r_msg r) <= L) (msgs x)) as Hs1.
  { intros x Hx. destruct (Hsrc x Hx) as (H1 & H2 & H3). split; [exact H2|].
    split; [apply transmits_packs; [lia|exact H1]|]. eapply Forall_impl; [|exact H3]. cbn. tauto. }
  specialize (Hb Hs1 e He). rewrite Hrun in Hb. destruct Hb as [Hb Hin2]. specialize (Hin2 Hca).
  destruct (pick ([], []) (fun x (p : list txreq * list txreq) => msgs x = fst p ++ snd p /\
      packs M x (fst p) (from x (put (negb (side x)) t1)) /\ from x (put (side x) t1) = [] /\
      (more x = [] -> filter nonempty (snd p) = [])) S) as (g & Hg).
  { intros x Hx. destruct (Hb x Hx) as (dn & rest & H). exists (dn, rest). exact H. }
  eapply always_mono; [|eapply (C75_receive f' s' appl' c0 c1 eid J L M S
    (fun x => if Bool.eqb (side x) j then [] else fst (g x)) (fun x => from x later) v trv l'); try eassumption].
  - intros v' t2 [_ Hres] x Hx. destruct (Hres x Hx) as (dn & rest & E1 & E2 & E3).
    destruct (Bool.eqb_spec (side x) j) as [Ej|Ej].
    + split; [|congruence]. intros _. symmetry in E1. apply app_eq_nil in E1. destruct E1 as [-> ->]. exact E2.
    + split; [congruence|]. intros _. destruct (Hg x Hx) as (G1 & _ & _ & G4).
      exists dn, (rest ++ snd (g x)). split; [rewrite G1, E1, app_assoc; reflexivity|]. split; [exact E2|].
      intros Hm Hl. rewrite filter_app, E3 by (rewrite Hl; reflexivity). cbn [app].
      assert (forall k, filter nonempty k = [] -> filter (meant_for eid) k = []) as Hk.
      { induction k as [|r k IH]; [reflexivity|]. cbn [filter]. unfold meant_for at 1. unfold nonempty at 1.
        destruct (0 <? zlen (r_msg r)); [discriminate|exact IH]. }
      apply Hk, G4, Hm.
  - intros bs Hb1 _. apply (Hin2 j). rewrite <- Harr. apply in_or_app. now left.
  - intros x Hx. rewrite <- from_app, Harr. destruct (Hg x Hx) as (G1 & G2 & G3 & _). destruct (Hsrc x Hx) as (_ & _ & Hall).
    destruct (Bool.eqb_spec (side x) j) as [Ej|Ej].
    + rewrite <- Ej, G3. split; [apply packs_nil|constructor].
    + assert (j = negb (side x)) as -> by (destruct (side x), j; congruence || reflexivity). split; [exact G2|].
      rewrite G1 in Hall. apply Forall_app in Hall. tauto.
Qed.
End Across.
