(** DuoLive: sessions keep the two-party invariant, and the ghost state of a side is
    determined by the exchanges in its trace. *)
From Verif Require Import Base Lists Prog PktBuf Core WP Walk CoreRel WalkCore CoreHist Spec SpecRx Crc Astlpc SpecAst AstBasic
  AstWalk PropAst TwoParty DuoInv DuoPast DuoWalk PropDuo SpecDuo DuoMsg SpecLive.

Local Notation world := (world astlpc).

(** ** Counting *)
Definition cnt (f : event -> bool) (tr : list event) : Z := zlen (filter f tr).
Lemma cnt_app f a b : cnt f (a ++ b) = cnt f a + cnt f b.
Proof. unfold cnt. now rewrite filter_app, zlen_app. Qed.
Lemma cnt_pos f a : 0 <= cnt f a.
Proof. apply zlen_pos. Qed.
Lemma cnt1 f e : cnt f [e] = if f e then 1 else 0.
Proof. unfold cnt. cbn [filter]. destruct (f e); reflexivity. Qed.

Definition is_w (v : Z) (e : event) : bool := match e with EvKWrite KData u _ => u =? v | _ => false end.
Definition is_r (v : Z) (e : event) : bool := match e with EvKRead KData (Some u) => u =? v | _ => false end.
Definition is_call (e : event) : bool := match e with EvTxCall _ _ _ => true | _ => false end.
Definition is_rx (e : event) : bool := match e with EvBusRx _ _ _ _ => true | _ => false end.
Definition is_hs (e : event) : bool :=
  match e with EvKWrite KData u _ => negb ((u =? 1) || (u =? 2)) | EvKWrite KStatus _ _ => true | _ => false end.
Definition is_wd (e : event) : bool := match e with EvKWrite KData _ _ => true | _ => false end.
Definition is_rd (e : event) : bool := match e with EvKRead KData _ => true | _ => false end.

Lemma offered_cnt tr : zlen (offered tr) = cnt is_call tr.
Proof.
  induction tr as [|e tr IH]; [reflexivity|]. unfold cnt, offered in *. cbn [filter flat_map]. rewrite zlen_app, IH.
  destruct e; cbn [is_call]; unfold zlen; cbn [length]; lia.
Qed.
Lemma received_cnt tr : zlen (received tr) = cnt is_rx tr.
Proof.
  induction tr as [|e tr IH]; [reflexivity|]. unfold cnt, received in *. cbn [filter flat_map]. rewrite zlen_app, IH.
  destruct e; cbn [is_rx]; unfold zlen; cbn [length]; lia.
Qed.

(** Where the buffers are, from the trace of their owner. *)
Definition tally (g : gst) : Prop :=
  let t := g_tr g in
  match g_tx g with
  | TNo => cnt is_call t = cnt (is_w 1) t /\ cnt (is_w 1) t = cnt (is_r 2) t + 1
  | TFree => cnt is_call t = cnt (is_w 1) t /\ cnt (is_w 1) t = cnt (is_r 2) t
  | _ => cnt is_call t = cnt (is_w 1) t + 1 /\ cnt (is_w 1) t = cnt (is_r 2) t
  end /\
  cnt (is_r 1) t = cnt (is_w 2) t + match g_rx g with RNo => 0 | _ => 1 end /\
  cnt (is_r 1) t = cnt is_rx t + match g_rx g with RGot _ => 1 | _ => 0 end + zlen (out (g_dl g)) /\
  cnt is_hs t <= g_ph g.

Ltac tally_solve :=
  unfold tally in *; cbn zeta in *; proj; rewrite ?cnt_app, ?cnt1;
  cbn [is_w is_r is_call is_rx is_hs]; 
  repeat match goal with |- context [?a =? ?b] => let v := eval compute in (a =? b) in change (a =? b) with v end;
  cbn [negb orb out] in *; unfold zlen in *; cbn [length] in *.

Ltac tally_done HT g := tally_solve; clear -HT; destruct (g_tx g), (g_rx g); lia.
Ltac tally_done2 HT E g := tally_solve; clear -HT E; destruct (g_tx g), (g_rx g); lia.

Section One.
Variables S N : Z.
Variable bmc : bool.
Local Notation H := (duo_h S N bmc).

Lemma tally_kread r g Q : h_kread H r g Q -> tally g -> h_kread H r g (fun v g' => Q v g' /\ tally g').
Proof.
  intros HQ HT. cbn [duo_h h_kread] in *. destruct r.
  - destruct HQ as [Hi HQ]. split; [exact Hi|]. cbn zeta in *.
    assert (forall rx p, g_rx g = RNo -> Q (Some 1) rx -> rx = log (sr (sif g false) (RGot p) (g_dl g)) [EvKRead KData (Some 1)] ->
      Q (Some 1) rx /\ tally rx) as H1.
    { intros rx p E HQ' ->. split; [exact HQ'|]. tally_solve. rewrite E in HT. clear -HT. destruct (g_tx g); lia. }
    assert (forall gx, g_tx g = TNo -> Q (Some 2) gx -> gx = log (sx (sif g false) TFree) [EvKRead KData (Some 2)] ->
      Q (Some 2) gx /\ tally gx) as H2.
    { intros rx E HQ' ->. split; [exact HQ'|]. tally_solve. rewrite E in HT. clear -HT. destruct (g_rx g); lia. }
    destruct bmc.
    + destruct HQ as (A & B & C). split; [exact A|]. split.
      * intros E. split; [exact (B E)|]. tally_done2 HT E g.
      * intros E. destruct (C E) as [C1 C2]. split.
        -- intros E' p Gp. eapply H1; [exact E'|exact (C1 E' p Gp)|reflexivity].
        -- intros E'. eapply H2; [exact E'|exact (C2 E')|reflexivity].
    + destruct HQ as (A & B & C). split; [|split].
      * split; [exact A|]. tally_done HT g.
      * split; [exact B|]. tally_done HT g.
      * intros E. destruct (C E) as [C1 C2]. split.
        -- intros E' p Gp. eapply H1; [exact E'|exact (C1 E' p Gp)|reflexivity].
        -- intros E'. eapply H2; [exact E'|exact (C2 E')|reflexivity].
  - intros st H1 H2 H3 H4. split; [exact (HQ st H1 H2 H3 H4)|]. tally_done HT g.
Qed.

Lemma tally_kwrite r v g Q : h_kwrite H r v g Q -> tally g -> h_kwrite H r v g (fun b g' => Q b g' /\ tally g').
Proof.
  intros HQ HT. cbn [duo_h h_kwrite] in *. destruct r.
  - destruct HQ as [(-> & B & [[C D]|[C D]])|[(-> & B & C & D)|(A & B & [(-> & (p & D) & F)|(-> & D & F)])]].
    + left. split; [reflexivity|]. split; [exact B|]. left. split; [exact C|]. split; [exact D|]. tally_done2 HT C g.
    + left. split; [reflexivity|]. split; [exact B|]. right. split; [exact C|]. split; [exact D|]. tally_done2 HT C g.
    + right. left. split; [reflexivity|]. split; [exact B|]. split; [exact C|]. split; [exact D|]. tally_done2 HT C g.
    + right. right. split; [exact A|]. split; [exact B|]. left. split; [reflexivity|]. split; [exists p; exact D|]. split; [exact F|].
      tally_solve. rewrite D in HT. clear -HT. destruct (g_rx g); lia.
    + right. right. split; [exact A|]. split; [exact B|]. right. split; [reflexivity|]. split; [exact D|]. split; [exact F|].
      tally_solve. rewrite D in HT. clear -HT. destruct (g_tx g); lia.
  - destruct HQ as [A [(-> & C & D)|(-> & C & D)]]; (split; [exact A|]); [left|right]; (split; [reflexivity|]); (split; [exact C|]);
      (split; [exact D|]); tally_done2 HT C g.
Qed.

Lemma tally_lread o n g Q : h_lread H o n g Q -> tally g -> h_lread H o n g (fun b g' => Q b g' /\ tally g').
Proof.
  intros HQ HT. cbn [duo_h h_lread] in *.
  destruct HQ as [(p & A & B & C & D)|[(p & A & B & C & D & F)|[(A & B & C & D & F)|
      [(A & B & C & D & F & K)|[(A & B & C & D & F)|(A & B & C & D & F & K)]]]]].
  - left. exists p. split; [exact A|]. split; [exact B|]. split; [exact C|]. split; [exact D|]. tally_done HT g.
  - right. left. exists p. split; [exact A|]. split; [exact B|]. split; [exact C|]. split; [exact D|]. split; [exact F|].
    tally_solve. rewrite A, D in HT. cbn [out length] in HT. clear -HT. destruct (g_tx g); lia.
  - do 2 right. left. repeat (split; [assumption|]). tally_done HT g.
  - do 3 right. left. repeat (split; [assumption|]). tally_done HT g.
  - do 4 right. left. repeat (split; [assumption|]). tally_done HT g.
  - do 5 right. repeat (split; [assumption|]). split.
    + intros E. split; [exact (F E)|]. tally_done HT g.
    + split; [exact K|]. tally_done HT g.
Qed.

Lemma tally_lwrite o bs g Q : h_lwrite H o bs g Q -> tally g -> h_lwrite H o bs g (fun g' => Q g' /\ tally g').
Proof.
  intros HQ HT. cbn [duo_h h_lwrite] in *.
  destruct HQ as [(p & A & B & C & D)|[(p & A & B & C & D)|[(A & B & C & D & F)|[(A & B & C & D & F)|
      [(A & B & C & D & F)|[(A & B & C & D & F & K)|[(A & B & C & D & F)|(A & B & C & D & F)]]]]]]].
  - left. exists p. repeat (split; [assumption|]). tally_solve. rewrite A in HT. clear -HT. destruct (g_rx g); lia.
  - right. left. exists p. repeat (split; [assumption|]). tally_solve. rewrite A in HT. clear -HT. destruct (g_rx g); lia.
  - do 2 right. left. repeat (split; [assumption|]). tally_done2 HT D g.
  - do 3 right. left. repeat (split; [assumption|]). tally_done2 HT D g.
  - do 4 right. left. repeat (split; [assumption|]). tally_done2 HT D g.
  - do 5 right. left. repeat (split; [assumption|]). tally_done2 HT D g.
  - do 6 right. left. repeat (split; [assumption|]). tally_done2 HT D g.
  - do 7 right. repeat (split; [assumption|]). tally_done2 HT D g.
Qed.

Lemma tally_emit e g Q : h_emit H e g Q -> tally g -> h_emit H e g (fun g' => Q g' /\ tally g').
Proof.
  intros HQ HT. cbn [duo_h h_emit] in *.
  assert (cnt is_call [e] = 0 -> cnt (is_w 1) [e] = 0 -> cnt (is_w 2) [e] = 0 -> cnt (is_r 1) [e] = 0 -> cnt (is_r 2) [e] = 0 ->
    cnt is_rx [e] = 0 -> cnt is_hs [e] = 0 -> tally (log g [e])) as Hq.
  { intros E1 E2 E3 E4 E5 E6 E7. unfold tally in *. cbn zeta in *. proj. rewrite !cnt_app, E1, E2, E3, E4, E5, E6, E7.
    destruct (g_tx g), (g_rx g); lia. }
  destruct e; try contradiction; try (split; [exact HQ|]; apply Hq; reflexivity).
  - destruct HQ as [A B]. split; [exact A|]. split; [exact B|]. tally_solve. rewrite A in HT. cbn [out length] in HT. clear -HT.
    destruct (g_tx g), (g_rx g); lia.
  - destruct HQ as (A & B & C). split; [exact A|]. split; [exact B|]. split; [exact C|]. tally_solve. rewrite A in HT. clear -HT.
    destruct (g_rx g); lia.
Qed.

(** One effect of a program. *)
Definition one {A} (p : prog A) : prog (prog A) :=
  match p with
  | Ret a => Ret (Ret a)
  | Flt f => Flt f
  | KRead r k => KRead r (fun v => Ret (k v))
  | KWrite r v k => KWrite r v (fun b => Ret (k b))
  | LRead o n k => LRead o n (fun b => Ret (k b))
  | LWrite o bs k => LWrite o bs (Ret k)
  | SWrite bs k => SWrite bs (fun n => Ret (k n))
  | Malloc k => Malloc (fun b => Ret (k b))
  | Emit e k => Emit e (Ret k)
  end.

Lemma wp_one A (p : prog A) g Q : wp H p g Q -> tally g ->
  wp H (one p) g (fun q g' => wp H q g' Q /\ tally g').
Proof.
  intros W T. destruct p; cbn [one wp] in *; auto.
  - exact (tally_kread _ _ _ W T).
  - exact (tally_kwrite _ _ _ _ W T).
  - exact (tally_lread _ _ _ _ W T).
  - exact (tally_lwrite _ _ _ _ W T).
  - split; [exact W|exact T].
  - exact (tally_emit _ _ _ W T).
Qed.

Lemma advance_one A (p q : prog A) sh sh' t : advance bmc sh p = Some (sh', q, t) ->
  (advance bmc sh (one p) = Some (sh', Ret q, t)) \/
  (exists f, advance bmc sh (one p) = Some (sh', Flt f, t)).
Proof.
  destruct p; cbn [one advance]; try discriminate; try (intros [= <- <- <-]; left; reflexivity).
  - destruct (kread bmc r (s_kcs sh)). intros [= <- <- <-]. left. reflexivity.
  - destruct (in_window _ _); intros [= <- <- <-]; [left; reflexivity|right; eexists; reflexivity].
  - destruct (in_window _ _); intros [= <- <- <-]; [left; reflexivity|right; eexists; reflexivity].
Qed.
End One.

Definition tallied (gb gh : gst) : Prop := tally gb /\ tally gh.

Lemma tally0 : tally g0.
Proof. unfold tally, g0. cbn. lia. Qed.

Lemma tallied_step S N (HN : 68 <= N) (HS : N + 8 <= S <= 524156) Q d d' s gb gh : dstep s d d' -> sys S N Q d gb gh -> tallied gb gh ->
  exists gb' gh', sys S N Q d' gb' gh' /\ tallied gb' gh'.
Proof.
  intros (sh & p & t & Ha & ->) (W & L & T) (Tb & Th). destruct s.
  - pose proof (wp_one S N true _ _ _ _ (W true) Tb) as W1.
    destruct (advance_one true _ _ _ _ _ _ Ha) as [Ha1|[f Ha1]];
      destruct (step_bmc S N HN HS _ _ _ _ _ _ _ _ _ Ha1 W1 L) as (g' & W' & L' & T'); cbn [wp] in W'; [|contradiction].
    destruct W' as [W' Tg]. exists g', gh. split; [|split; assumption].
    split; [|split; [exact L'|]]; intros [|]; cbn [gpick d_prog d_tr upd Bool.eqb].
    + exact W'.
    + exact (W false).
    + rewrite T'. f_equal. exact (T true).
    + exact (T false).
  - pose proof (wp_one S N false _ _ _ _ (W false) Th) as W1.
    destruct (advance_one false _ _ _ _ _ _ Ha) as [Ha1|[f Ha1]];
      destruct (step_host S N HN HS _ _ _ _ _ _ _ _ _ Ha1 W1 L) as (g' & W' & L' & T'); cbn [wp] in W'; [|contradiction].
    destruct W' as [W' Tg]. exists gb, g'. split; [|split; assumption].
    split; [|split; [exact L'|]]; intros [|]; cbn [gpick d_prog d_tr upd Bool.eqb].
    + exact (W true).
    + exact W'.
    + exact (T true).
    + rewrite T'. f_equal. exact (T false).
Qed.

(** ** Sessions *)
Definition same_setup (p q : bool -> party) : Prop :=
  forall s, p_app (q s) = p_app (p s) /\ p_mtu (q s) = p_mtu (p s) /\ p_eid (q s) = p_eid (p s).

Lemma moves_setup p d q e : moves p d q e -> same_setup p q.
Proof.
  induction 1 as [|s q d1 d2 _ IH _|s o w q d1 _ IH _ _ _]; [intros s; auto|exact IH|].
  intros s'. destruct (IH s') as (A & B & C). unfold upd. destruct (Bool.eqb s s') eqn:E; [|auto].
  apply eqb_prop in E. subst s'. cbn. auto.
Qed.

Lemma moves_trans p d q e r f : moves p d q e -> moves q e r f -> moves p d r f.
Proof. intros H1 H2. induction H2; [exact H1|eapply MvStep; eassumption|eapply MvCall; eassumption]. Qed.

Definition Ssz (p : bool -> party) : Z := bmc_mtu (p_mtu (p true)) + 12.
Definition Nsz (p : bool -> party) : Z := p_mtu (p false) + 4.
Definition kept_inv (p : bool -> party) (d : duo) : Prop :=
  exists gb gh, sys (Ssz p) (Nsz p) (Fin_ok p (Ssz p) (Nsz p)) d gb gh /\ tallied gb gh.

Definition sized (p : bool -> party) : Prop := compatible p /\ usable_mtu (p_mtu (p true)).
Lemma sized_range p : sized p -> 68 <= Nsz p /\ Nsz p + 8 <= Ssz p <= 524156.
Proof. intros [C U]. unfold compatible, Nsz, Ssz in *. pose proof (bmc_mtu_range _ U). lia. Qed.

Lemma kept_step p d d' s : sized p -> dstep s d d' -> kept_inv p d -> kept_inv p d'.
Proof.
  intros Hs Hd (gb & gh & HY & HT). destruct (sized_range p Hs) as [HN HS]. exact (tallied_step _ _ HN HS _ _ _ _ _ _ Hd HY HT).
Qed.

Lemma kept_call p d s o w : sized p -> kept_inv p d -> d_prog d s = Ret w -> bd_bus (bnd w false) = true -> ast_traffic o ->
  kept_inv (upd p s (more (p s) o)) (begin_call s w o p d).
Proof.
  intros Hs (gb & gh & (W & L & T) & HT) E Eb Ho. destruct (sized_range p Hs) as [HN HS].
  assert (Ssz (upd p s (more (p s) o)) = Ssz p) as E1 by (unfold Ssz, upd; destruct s; reflexivity).
  assert (Nsz (upd p s (more (p s) o)) = Nsz p) as E2 by (unfold Nsz, upd; destruct s; reflexivity).
  exists gb, gh. rewrite E1, E2. split; [|exact HT]. split; [|split; [exact L|exact T]].
  intros s'. unfold begin_call, upd at 1. cbn [d_prog]. destruct (Bool.eqb s s') eqn:Es.
  - apply eqb_prop in Es. subst s'. specialize (W s). rewrite E in W. cbn [wp] in W. unfold Fin_ok in W. rewrite Eb in W.
    assert (if s then usable_mtu (p_mtu (p s)) /\ Ssz p = bmc_mtu (p_mtu (p s)) + 12 else p_mtu (p s) = Nsz p - 4) as Hmt.
    { destruct s; [split; [apply Hs|reflexivity]|unfold Nsz; lia]. }
    eapply wp_mono; [apply duo_mono| |apply (wp_aop (p_app (p s)) (Ssz p) (Nsz p) HN HS s (p_mtu (p s)) Hmt (p_eid (p s)) (p_calls (p s)) w o _ W Ho)].
    intros w' g' HR. unfold Fin_ok, upd. rewrite eqb_reflx. cbn [more p_app p_mtu p_eid p_calls].
    pose proof HR as (_ & HW & _). destruct (bget w' false) as [b|] eqn:Eb'; [|destruct (wf_b0 _ _ HW Eb')].
    rewrite (wf_bd _ _ HW _ _ Eb'). exact HR.
  - eapply wp_mono; [apply duo_mono| |exact (W s')]. intros w' g' HR. unfold Fin_ok, upd in *. rewrite Es. exact HR.
Qed.

Lemma sized_setup p q : same_setup p q -> sized p -> sized q.
Proof. intros H [C U]. destruct (H true) as (_ & A & _), (H false) as (_ & B & _). unfold sized, compatible in *. rewrite A, B. auto. Qed.
Lemma setup_sym p q : same_setup p q -> same_setup q p.
Proof. intros H s. destruct (H s) as (A & B & C). auto. Qed.

Lemma kept_moves p d q e : moves p d q e -> sized p -> kept_inv p d -> kept_inv q e.
Proof.
  intros M. induction M as [|s q d1 d2 M IH Hd|s o w q d1 M IH E Eb Ho]; intros Hs HK; [exact HK| |].
  - eapply kept_step; [exact (sized_setup _ _ (moves_setup _ _ _ _ M) Hs)|exact Hd|auto].
  - eapply kept_call; [exact (sized_setup _ _ (moves_setup _ _ _ _ M) Hs)|auto|exact E|exact Eb|exact Ho].
Qed.

Lemma kept_session p d : session p d -> compatible p -> sized p /\ kept_inv p d.
Proof.
  intros (p0 & idr & odr & mem & Hc & Hu & M) Hcp. pose proof (moves_setup _ _ _ _ M) as Hst.
  assert (sized p0) as Hs.
  { destruct (Hst true) as (_ & A & _), (Hst false) as (_ & B & _). split; [|exact Hu]. unfold compatible in *. now rewrite <- A, <- B. }
  split; [exact (sized_setup _ _ Hst Hs)|]. apply (kept_moves _ _ _ _ M Hs). destruct (sized_range _ Hs) as [HN HS].
  exists g0, g0. split; [|split; exact tally0]. split; [|split; [apply link_start|intros []; reflexivity]].
  intros s. cbn [duo_start d_prog].
  assert (if s then usable_mtu (p_mtu (p0 s)) /\ Ssz p0 = bmc_mtu (p_mtu (p0 s)) + 12 else p_mtu (p0 s) = Nsz p0 - 4) as Hmt.
  { destruct s; [split; [apply Hs|reflexivity]|unfold Nsz; lia]. }
  replace (gpick g0 g0 s) with g0 by (destruct s; reflexivity).
  apply (wp_history (p_app (p0 s)) _ _ HN HS s (p_mtu (p0 s)) Hmt). rewrite Hc. constructor.
Qed.

(** ** A bus that is enabled has nothing queued *)
Definition clear (w : world) : Prop :=
  forall b, bget w false = Some b -> bus_st b <> TxDisabled -> bus_q b = [].
Definition upb (w : world) : Prop := forall b, bget w false = Some b -> bus_st b <> Constructed.

Section Clear.
Variable bmc : bool.
Variable app : event -> list txreq.
Variable N eid : Z.
Local Notation St := (Upto N).

Lemma txs_clear (w : world) t w' : txs St false w t w' -> upb w -> clear w'.
Proof.
  induction 1 as [w b Hb Hq|w rc t w' Ht Hf|w rc t1 w1 t2 w2 Ht Hf Hx IH]; intros Hu.
  - intros b' Hb' Hst. assert (b' = b) by congruence. subst b'. destruct Hq as [Hq|Hq]; [exact Hq|].
    specialize (Hu b Hb). destruct (bus_st b); congruence.
  - destruct Ht as [b p q p' b' rc dis bytes io Hb Hst Hq Hby Hio Hid Hk]. destruct (Hk Hf) as [_ []].
  - apply IH. destruct Ht as [b p q p' b' rc dis bytes io Hb Hst Hq Hby Hio Hid Hk]. intros b2 Hb2.
    rewrite (bget_set_bus _ _ _ _ b) in Hb2 by (rewrite bget_set_bnd; exact Hb). cbn [eqb] in Hb2.
    injection Hb2 as <-. cbn [bus_st]. now destruct dis.
Qed.
Lemma enqs_upb (w : world) l t w' : enqs St false w l t w' -> upb w -> upb w'.
Proof.
  induction 1 as [w|w bs t1 w1 l t2 w2 He Hx IH]; intros Hu; [exact Hu|]. apply IH.
  destruct He as [b p Hb Hst Hid Hby Hq]. intros b2 Hb2.
  rewrite (bget_set_bus _ _ _ _ b) in Hb2 by exact Hb. cbn [eqb] in Hb2. injection Hb2 as <-. exact Hst.
Qed.
Lemma message_clear (w : world) d to tag m rc t w' : message_rel St w d to tag m rc t w' -> clear w -> clear w'.
Proof.
  destruct 1 as [|b rc t w' Ht Hb Hr]; intros Hc; [exact Hc|]. destruct Hr as [b0 B1 B2|b0 B1 B2 B3|t w' Hm]; try exact Hc.
  destruct Hm as [b1 t1 w1 t2 w' M1 M2 M3 M4 M5]. apply (txs_clear _ _ _ M5). apply (enqs_upb _ _ _ _ M4).
  intros b2 E. congruence.
Qed.
Lemma msgs_clear (w : world) l t w' : msgs_rel St w l t w' -> clear w -> clear w'.
Proof.
  induction 1 as [|w r rs rc t1 w1 t2 w2 Hm Hms IH]; intros Hc; [exact Hc|]. apply IH. exact (message_clear _ _ _ _ _ _ _ _ Hm Hc).
Qed.

Hypothesis HN : 68 <= N.
Lemma past_clear b ops (w : world) tr : past bmc app N eid b ops w tr -> clear w.
Proof.
  induction 1 as [s mtu x t Hb|ops w tr Hp IH|ops w tr t Hp IH Ht|ops w tr x n Hp IH Hw|ops w tr en t w' Hp IH Hw Hn Hr
    |ops w tr x n io bs t w' Hp IH Hw Hio Hg Hbm Hr|ops w tr rc Hp IH|ops w tr dest to tag msg rc t w' Hp IH Hw Hr|ops w tr o w' Hp IH Hc];
    try exact IH.
  - intros b [= <-] _. reflexivity.
  - destruct Hr as [b en Hb Hs|b Hb Hs Hn1 Hn2|b Hb Hs|b t w' Hb Hs Ht].
    + exact IH.
    + intros b2 Hb2 _. rewrite (bget_set_bus _ _ _ _ b) in Hb2 by exact Hb. cbn [eqb] in Hb2. injection Hb2 as <-.
      cbn [set_st bus_q]. apply (IH b Hb). rewrite Hs. discriminate.
    + intros b2 Hb2 Hs2. rewrite (bget_set_bus _ _ _ _ b) in Hb2 by exact Hb. cbn [eqb] in Hb2. injection Hb2 as <-. now destruct Hs2.
    + apply (txs_clear _ _ _ Ht). intros b2 Hb2. rewrite (bget_set_bus _ _ _ _ b) in Hb2 by exact Hb. cbn [eqb] in Hb2.
      injection Hb2 as <-. discriminate.
  - pose proof (past_Sinv _ HN _ _ _ _ _ _ _ Hp) as [_ _ I3 _ _]. set (v := putb (nextw w) x n) in *.
    assert (clear v) as Hv by exact IH. assert (m_policy (w_m v) = RouteEndpoint) as Hpo by exact I3. clearbody v.
    destruct Hr as [b Hb Hz|b t w' Hb Hz Hr]; [exact Hv|]. destruct Hr as [b0 B1 B2 B3|b0 cs B1 B2 B3|b0 cs s d m t w' B1 B2 B3 Hr]; try exact Hv.
    assert (clear (setc v cs)) as Hv' by exact Hv. destruct Hr as [b1 C1 C2 C3|b1 e t w' C1 C2 C3 C4 C5|rc t w' C1 C2]; try exact Hv'.
    + exact (msgs_clear _ _ _ _ C5 Hv').
    + change (m_policy (w_m (setc v cs))) with (m_policy (w_m v)) in C1. congruence.
  - exact (message_clear _ _ _ _ _ _ _ _ Hr IH).
  - destruct o as [o|i]; [|discriminate]. destruct o; try discriminate; injection Hc as <-; exact IH.
Qed.

Lemma talk_up t : forall k, In (EvSetTx false true) t -> t_up (fold_left (talk_step app) t k) = true.
Proof.
  assert (forall t k, t_up k = true -> t_up (fold_left (talk_step app) t k) = true) as Hk.
  { clear. induction t as [|e t IH]; intros k Hk; [exact Hk|]. cbn [fold_left]. apply IH.
    destruct e; cbn [talk_step t_up]; rewrite ?Hk; auto. destruct (t_next k) as [|[r|] l]; cbn [t_up]; assumption || reflexivity. }
  induction t as [|e t IH]; intros k [].
  - subst e. cbn [fold_left talk_step]. apply Hk. cbn [t_up]. apply orb_true_r.
  - cbn [fold_left]. now apply IH.
Qed.
Lemma past_up b ops (w : world) tr : past bmc app N eid b ops w tr -> In (EvSetTx false true) tr -> up w = true.
Proof.
  intros Hp Hin. destruct (past_Sinv _ HN _ _ _ _ _ _ _ Hp) as [_ _ _ _ (acc & _ & Hs)].
  destruct (Hs [APoll false]) as [Ht _]; [intros _; exists []; reflexivity|].
  pose proof (talk_up tr (mkTalk false (requests (ops ++ [APoll false])) []) Hin) as Hu.
  fold (talked app (ops ++ [APoll false]) tr) in Hu. rewrite Ht in Hu. exact Hu.
Qed.
End Clear.

(** ** A poll during which the channel does not change *)
Definition quiet_h (st : Z) : handler unit := mkH
  (fun r g Q => match r with KStatus => Q (Some st) g | KData => True end)
  (fun _ _ _ _ => True)
  (fun _ _ _ _ => False)
  (fun _ _ _ _ => False)
  (fun _ _ _ => False)
  (fun g Q => Q true g)
  (fun e g Q => match e with EvTxCall _ _ _ => True | _ => Q g end).

Lemma quiet_mono st : hmono (quiet_h st).
Proof. constructor; cbn; auto; intros; [destruct r|destruct e]; auto. Qed.

Lemma write_ready' s x st : a_bmc x = s -> kcs_write_ready x st = negb (oflag s st).
Proof.
  intros E. unfold kcs_write_ready, kcs_ready, oflag. rewrite E. destruct s; cbn [xorb negb].
  - now destruct (tst st ST_OBF).
  - now destruct (tst st ST_IBF).
Qed.
Lemma read_ready' s x st : a_bmc x = s -> kcs_read_ready x st = iflag s st.
Proof.
  intros E. unfold kcs_read_ready, kcs_ready, iflag, oflag. rewrite E. destruct s; cbn [xorb negb].
  - now destruct (tst st ST_IBF).
  - now destruct (tst st ST_OBF).
Qed.

Definition settled_poll (s : bool) (st : Z) (x : astlpc) : Prop :=
  iflag s st = false /\ (ab_st (a_rx x) = Prepared \/ ab_st (a_tx x) = Prepared -> oflag s st = true).

Lemma wp_quiet_poll app s st (w : world) : m_dead (w_m w) = false -> a_bmc (ast w false) = s ->
  wp (quiet_h st) (aexec_op app w (APoll false)) tt (fun _ _ => settled_poll s st (ast w false)).
Proof.
  intros Hd Hs. cbn [aexec_op]. rewrite Hd. unfold poll.
  set (x := ast w false) in *.
  assert (forall a c (k : Z -> prog astlpc) (Q : astlpc -> unit -> Prop), a_bmc a = s ->
     (oflag s st = true -> wp (quiet_h st) (k (- EBUSY)) tt Q) -> wp (quiet_h st) (bind (kcs_send a c) k) tt Q) as Hsend.
  { intros a c k Q Ha Hk. unfold kcs_send. cbn [bind wp quiet_h h_kread]. rewrite (write_ready' s a st Ha).
    destruct (oflag s st); cbn [negb bind wp quiet_h h_kwrite]; [apply Hk; reflexivity|exact I]. }
  apply wp_bind; [apply quiet_mono|].
  eapply wp_mono with (Q := fun r _ => settled_poll s st x); [apply quiet_mono|intros [w' rc] g HG; exact HG|].
  apply wp_bind; [apply quiet_mono|].
  eapply wp_mono with (Q := fun a _ => a = x /\ (ab_st (a_rx x) = Prepared -> oflag s st = true)); [apply quiet_mono| |].
  2:{ unfold poll_release_rx. destruct (ab_st (a_rx x)) eqn:E; try (cbn [wp]; split; [reflexivity|discriminate]).
      apply Hsend; [exact Hs|]. intros Ho. cbn [wp]. change (- EBUSY =? 0) with false. cbv iota. auto. }
  intros a u [-> Ho1]. destruct u. apply wp_bind; [apply quiet_mono|].
  eapply wp_mono with (Q := fun a _ => a = x /\ (ab_st (a_tx x) = Prepared -> oflag s st = true)); [apply quiet_mono| |].
  2:{ unfold poll_release_tx. destruct (ab_st (a_tx x)) eqn:E; try (cbn [wp]; split; [reflexivity|discriminate]).
      apply Hsend; [exact Hs|]. intros Ho. cbn [wp]. change (- EBUSY =? 0) with false. cbv iota. auto. }
  intros a u [-> Ho2]. destruct u. cbv zeta. cbn [wp quiet_h h_kread]. rewrite (read_ready' s x st Hs).
  destruct (iflag s st) eqn:Ei; cbn [negb wp]; [exact I|]. split; [exact Ei|]. intros [H|H]; auto.
Qed.

(** ** Moves without an exchange *)
Lemma acts_app a b : acts (a ++ b) = acts a + acts b.
Proof. unfold acts. now rewrite filter_app, zlen_app. Qed.
Lemma acts_pos a : 0 <= acts a.
Proof. apply zlen_pos. Qed.

Lemma moves_tr p d q e : moves p d q e -> forall s, exists t, d_tr e s = d_tr d s ++ t.
Proof.
  induction 1 as [|s q d1 d2 M IH (sh & pr & t & Ha & ->)|s o w q d1 M IH E Eb Ho]; intros s'.
  - exists []. now rewrite app_nil_r.
  - destruct (IH s') as (t' & Et). unfold upd. cbn [d_tr]. destruct (Bool.eqb s s') eqn:Es.
    + apply eqb_prop in Es. subst s'. exists (t' ++ t). now rewrite Et, app_assoc.
    + exists t'. exact Et.
  - exact (IH s').
Qed.
Lemma moves_acts p d q e : moves p d q e -> forall s, acts (d_tr d s) <= acts (d_tr e s).
Proof. intros M s. destruct (moves_tr _ _ _ _ M s) as (t & ->). rewrite acts_app. pose proof (acts_pos t). lia. Qed.
Lemma moves_calls p d q e : moves p d q e -> forall s, exists l, p_calls (q s) = p_calls (p s) ++ l.
Proof.
  induction 1 as [|s q d1 d2 M IH Hd|s o w q d1 M IH E Eb Ho]; intros s'.
  - exists []. now rewrite app_nil_r.
  - exact (IH s').
  - destruct (IH s') as (l & El). unfold upd. destruct (Bool.eqb s s') eqn:Es; [|exists l; exact El].
    apply eqb_prop in Es. subst s'. exists (l ++ [o]). cbn [more p_calls]. now rewrite El, app_assoc.
Qed.

Definition still (d e : duo) : Prop := forall s, acts (d_tr e s) = acts (d_tr d s).

Lemma step_still s d e : dstep s d e -> still d e -> s_kcs (d_sh e) = s_kcs (d_sh d).
Proof.
  intros (sh & pr & t & Ha & ->) Hs. specialize (Hs s). cbn [d_tr d_sh] in *. unfold upd in Hs. rewrite eqb_reflx, acts_app in Hs.
  assert (acts t = 0) as Ht by lia. clear Hs.
  destruct (d_prog d s) as [x|f|r k|r v k|off len k|off bs k|bs k|k|ev k]; cbn [advance] in Ha; try discriminate.
  - destruct r; cbn [kread] in Ha; [|injection Ha as <- <- <-; reflexivity].
    destruct s; injection Ha as <- <- <-; discriminate Ht.
  - injection Ha as <- <- <-. discriminate Ht.
  - destruct (in_window _ _); injection Ha as <- <- <-; reflexivity.
  - destruct (in_window _ _); injection Ha as <- <- <-; reflexivity.
  - injection Ha as <- <- <-. reflexivity.
  - injection Ha as <- <- <-. reflexivity.
  - injection Ha as <- <- <-. reflexivity.
Qed.
Lemma step_quiet s d e st (Q : world -> unit -> Prop) : dstep s d e -> still d e -> kstatus (s_kcs (d_sh d)) = st ->
  wp (quiet_h st) (d_prog d s) tt Q -> wp (quiet_h st) (d_prog e s) tt Q.
Proof.
  intros (sh & pr & t & Ha & ->) Hs Hst W. specialize (Hs s). cbn [d_tr d_sh d_prog] in *. unfold upd in *. rewrite eqb_reflx in *.
  rewrite acts_app in Hs. assert (acts t = 0) as Ht by lia. clear Hs.
  destruct (d_prog d s) as [x|f|r k|r v k|off len k|off bs k|bs k|k|ev k]; cbn [advance] in Ha; try discriminate.
  - destruct r; cbn [kread] in Ha; [destruct s; injection Ha as <- <- <-; discriminate Ht|].
    injection Ha as <- <- <-. cbn [wp quiet_h h_kread] in W. rewrite Hst. exact W.
  - injection Ha as <- <- <-. discriminate Ht.
  - destruct W.
  - destruct W.
  - destruct W.
  - injection Ha as <- <- <-. exact W.
  - injection Ha as <- <- <-. cbn [wp quiet_h h_emit] in W. destruct ev; try exact W. discriminate Ht.
Qed.

Lemma moves_still p d q e : moves p d q e -> still d e -> s_kcs (d_sh e) = s_kcs (d_sh d).
Proof.
  intros M. induction M as [|s q d1 d2 M IH Hd|s o w q d1 M IH E Eb Ho]; intros Hs; [reflexivity| |exact (IH Hs)].
  assert (still d d1 /\ still d1 d2) as [H1 H2].
  { pose proof (moves_acts _ _ _ _ M) as A1. pose proof (moves_acts _ _ _ _ (MvStep q d1 s q d1 d2 (MvRefl _ _) Hd)) as A2.
    split; intros s'; specialize (A1 s'); specialize (A2 s'); specialize (Hs s'); lia. }
  rewrite (step_still _ _ _ Hd H2). exact (IH H1).
Qed.
Lemma moves_quiet p d q e s st (Q : world -> unit -> Prop) : moves p d q e -> still d e -> kstatus (s_kcs (d_sh d)) = st ->
  p_calls (q s) = p_calls (p s) ->
  wp (quiet_h st) (d_prog d s) tt Q -> wp (quiet_h st) (d_prog e s) tt Q.
Proof.
  intros M. induction M as [|s' q d1 d2 M IH Hd|s' o w q d1 M IH E Eb Ho]; intros Hs Hst Hcl W; [exact W| |].
  - assert (still d d1 /\ still d1 d2) as [H1 H2].
    { pose proof (moves_acts _ _ _ _ M) as A1. pose proof (moves_acts _ _ _ _ (MvStep q d1 s' q d1 d2 (MvRefl _ _) Hd)) as A2.
      split; intros s0; specialize (A1 s0); specialize (A2 s0); specialize (Hs s0); lia. }
    specialize (IH H1 Hst Hcl W). destruct (Bool.eqb s' s) eqn:Es.
    + apply eqb_prop in Es. subst s'. eapply step_quiet; [exact Hd|exact H2| |exact IH].
      rewrite (moves_still _ _ _ _ M H1). exact Hst.
    + destruct Hd as (sh & pr & t & Ha & ->). cbn [d_prog]. unfold upd. rewrite Es. exact IH.
  - unfold upd in Hcl. destruct (Bool.eqb s' s) eqn:Es.
    + apply eqb_prop in Es. subst s'. exfalso. destruct (moves_calls _ _ _ _ M s) as (l & El). cbn [more p_calls] in Hcl.
      apply (f_equal (@length _)) in Hcl. rewrite El, !app_length in Hcl. cbn [length] in Hcl. lia.
    + unfold begin_call, upd. cbn [d_prog]. rewrite Es. exact (IH Hs Hst Hcl W).
Qed.
