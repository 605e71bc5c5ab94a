(** PropLives: what holds however often either side of the astlpc channel is killed and
    started again (C70). *)
From Verif Require Import Base Lists Prog PktBuf Core WP Walk Trace CoreHist Crc Astlpc SpecAst CrcSpan AstBasic AstWalk PropAst Foot PropFoot
  TwoParty DuoInv PropDuo SpecLive Lives.

Local Notation world := (world astlpc).
Local Notation area := PropFoot.area.
Local Notation W := Foot.W.

(** ** Steps of a side, seen by the two program logics *)

(** What the device answers to the side's next access. *)
Definition answer_ok (P : kreg -> Z -> Prop) (s : bool) (sh : shared) {A} (p : prog A) : Prop :=
  match p with KRead r _ => P r (fst (kread s r (s_kcs sh))) | _ => True end.

Lemma cells_byte m o n : (forall x, is_byte (m x)) -> Forall is_byte (cells m o n).
Proof. intros H. unfold cells. apply Forall_forall. intros x Hx. apply in_map_iff in Hx. destruct Hx as (k & <- & _). apply H. Qed.

Lemma wp_advance s a A (p p' : prog A) sh sh' t g (Q : A -> list event -> Prop) :
  advance s sh p = Some (sh', p', t) -> wp (adv a) p g Q -> (forall x, is_byte (s_mem sh x)) ->
  answer_ok (fun r v => is_byte v /\ kval_ok a r v = true) s sh p -> may_stall a = false ->
  wp (adv a) p' (g ++ t) Q.
Proof.
  intros Ha Hw Hm Hk Hs. destruct p as [x|f|r k|r v k|off len k|off bs k|bs k|k|e k]; cbn [advance] in Ha; try discriminate.
  - cbn [wp adv h_kread answer_ok] in *. destruct (kread s r (s_kcs sh)) as [v k']. injection Ha as <- <- <-.
    destruct Hw as [Hw _]. destruct Hk as [K1 K2]. exact (Hw v K1 K2).
  - injection Ha as <- <- <-. apply Hw.
  - cbn [wp adv h_lread] in Hw. destruct Hw as [Hi Hw]. rewrite Hi in Ha. injection Ha as <- <- <-. apply Hw.
    + apply cells_len. unfold in_window in Hi. lia.
    + now apply cells_byte.
  - cbn [wp adv h_lwrite] in Hw. destruct Hw as [Hi Hw]. rewrite Hi in Ha. injection Ha as <- <- <-. exact Hw.
  - injection Ha as <- <- <-. apply Hw; [lia|]. intros _ Hb E. apply Hb. destruct bs; [reflexivity|]. rewrite zlen_cons in E. pose proof (zlen_pos _ bs). lia.
  - injection Ha as <- <- <-. rewrite app_nil_r. apply Hw.
  - injection Ha as <- <- <-. exact Hw.
Qed.

(** The access behind an event, and what it does to the shared state. *)
Inductive effect (s : bool) (sh : shared) : shared -> list event -> Prop :=
| FxKRead r : effect s sh (mkShared (snd (kread s r (s_kcs sh))) (s_mem sh)) [EvKRead r (Some (fst (kread s r (s_kcs sh))))]
| FxKWrite r v : effect s sh (mkShared (kwrite s r v (s_kcs sh)) (s_mem sh)) [EvKWrite r v true]
| FxLRead off len : 0 <= len -> effect s sh sh [EvLRead off (cells (s_mem sh) off len)]
| FxLWrite off bs : effect s sh (mkShared (s_kcs sh) (store (s_mem sh) off bs)) [EvLWrite off bs]
| FxOther e : match e with EvSWrite _ _ => True | _ => ~ io_ev e end -> effect s sh sh [e]
| FxNone : effect s sh sh [].

Lemma foot_advance s (kv : answers) ok A (p p' : prog A) sh sh' t g (Q : A -> list event -> Prop) :
  advance s sh p = Some (sh', p', t) -> foot kv ok p g Q -> (forall x, is_byte (s_mem sh x)) ->
  answer_ok (fun r v => kv r v = true) s sh p -> (forall bs r, an_swrite kv bs r) ->
  foot kv ok p' (g ++ t) Q /\ (forall e, In e t -> ok g e) /\ effect s sh sh' t.
Proof.
  intros Ha Hw Hm Hk Hs. destruct p as [x|f|r k|r v k|off len k|off bs k|bs k|k|e k]; cbn [advance] in Ha; try discriminate.
  - cbn [foot answer_ok] in *. destruct (kread s r (s_kcs sh)) as [v k'] eqn:Ek. injection Ha as <- <- <-.
    destruct (Hw (Some v)) as [H1 H2]; [intros x [= <-]; exact Hk|]. split; [exact H2|]. split; [intros e [<-|[]]; exact H1|].
    pose proof (FxKRead s sh r) as F. rewrite Ek in F. exact F.
  - injection Ha as <- <- <-. destruct (Hw true) as [H1 H2]. split; [exact H2|]. split; [intros e [<-|[]]; exact H1|constructor].
  - cbn [foot] in Hw. destruct (in_window off len) eqn:E; injection Ha as <- <- <-.
    + destruct (Hw eq_refl (cells (s_mem sh) off len)) as [H1 H2]; [apply cells_len; unfold in_window in E; lia|now apply cells_byte|].
      split; [exact H2|]. split; [intros e [<-|[]]; exact H1|constructor]. unfold in_window in E. lia.
    + split; [exact I|]. split; [intros e []|constructor].
  - cbn [foot] in Hw. destruct (in_window off (zlen bs)) eqn:E; injection Ha as <- <- <-.
    + destruct (Hw eq_refl) as [H1 H2]. split; [exact H2|]. split; [intros e [<-|[]]; exact H1|constructor].
    + split; [exact I|]. split; [intros e []|constructor].
  - injection Ha as <- <- <-. destruct (Hw (zlen bs) (Hs _ _)) as [H1 H2]. split; [exact H2|]. split; [intros e [<-|[]]; exact H1|constructor; exact I].
  - injection Ha as <- <- <-. rewrite app_nil_r. split; [apply Hw|]. split; [intros e []|constructor].
  - injection Ha as <- <- <-. destruct Hw as [[H0 H1] H2]. split; [exact H2|]. split; [intros e0 [<-|[]]; exact H1|].
    constructor. destruct e; exact H0 || exact I.
Qed.

(** A register is only read if [ok] allows it, whatever its value. *)
Lemma foot_reads kv ok A r (k : option Z -> prog A) g Q : foot kv ok (KRead r k) g Q -> exists v, ok g (EvKRead r v).
Proof. intros H. exists None. apply (H None). discriminate. Qed.

Lemma foot_ok kv (ok ok' : list event -> event -> Prop) A (p : prog A) : forall g Q, (forall t e, ok (g ++ t) e -> ok' (g ++ t) e) ->
  foot kv ok p g Q -> foot kv ok' p g Q.
Proof.
  assert (forall g e, (forall t x, ok (g ++ t) x -> ok' (g ++ t) x) -> forall t x, ok ((g ++ [e]) ++ t) x -> ok' ((g ++ [e]) ++ t) x) as Hs.
  { intros g e H t x. rewrite <- !app_assoc. apply H. }
  assert (forall g, (forall t x, ok (g ++ t) x -> ok' (g ++ t) x) -> forall x, ok g x -> ok' g x) as H0.
  { intros g H x. specialize (H [] x). now rewrite app_nil_r in H. }
  induction p as [x|f|r k IH|r v k IH|o l k IH|o bs k IH|bs k IH|k IH|ev k IH]; intros g Q Hok Hf; cbn [foot] in *; auto.
  - intros v Hv. destruct (Hf v Hv) as [H1 H2]. eauto.
  - intros b. destruct (Hf b) as [H1 H2]. eauto.
  - intros E bs Z1 Z2. destruct (Hf E bs Z1 Z2) as [H1 H2]. eauto.
  - intros E. destruct (Hf E) as [H1 H2]. eauto.
  - intros r Hr. destruct (Hf r Hr) as [H1 H2]. eauto.
  - destruct Hf as [[H3 H1] H2]. split; [split; [exact H3|now apply H0]|]; eauto.
Qed.
Lemma foot_and kv (ok1 ok2 : list event -> event -> Prop) A (p : prog A) : forall g Q1 Q2, foot kv ok1 p g Q1 -> foot kv ok2 p g Q2 ->
  foot kv (fun g e => ok1 g e /\ ok2 g e) p g (fun x g' => Q1 x g' /\ Q2 x g').
Proof.
  induction p as [x|f|r k IH|r v k IH|o l k IH|o bs k IH|bs k IH|k IH|ev k IH]; intros g Q1 Q2 H1 H2; cbn [foot] in *; auto.
  - intros v Hv. destruct (H1 v Hv), (H2 v Hv). auto.
  - intros b. destruct (H1 b), (H2 b). auto.
  - intros E bs Z1 Z2. destruct (H1 E bs Z1 Z2), (H2 E bs Z1 Z2). auto.
  - intros E. destruct (H1 E), (H2 E). auto.
  - intros r Hr. destruct (H1 r Hr), (H2 r Hr). auto.
  - destruct H1 as [[? ?] ?], H2 as [[? ?] ?]. auto.
Qed.

Lemma traffic_keeps o : ast_traffic o -> keeps o.
Proof. destruct o as [o|i]; [destruct o; cbn; tauto|cbn; auto]. Qed.

(** ** The BMC's footprint over a whole life *)

Definition headed (mtu : Z) (g : list event) : Prop := In (EvLWrite 0 (first_header mtu)) g.
Definition bmc_life (mtu : Z) (g : list event) (e : event) : Prop :=
  (bmc_footprint mtu g e \/ exists b, e = EvKWrite KStatus 0 b) /\
  forall v b, e = EvKWrite KStatus v b -> v = 0 \/ headed mtu g.
Notation akv := (mkAns any_kval (fun _ _ => True)).
Notation hkv := (mkAns no_initialise (fun _ _ => True)).

Lemma area_bmc mtu : usable_mtu mtu -> area mtu = bmc_mtu mtu + 12.
Proof. unfold usable_mtu, area, bmc_mtu. intros H. destruct (mtu =? 0) eqn:E; [reflexivity|]. rewrite w32_id by lia. lia. Qed.
Lemma header_published mtu : usable_mtu mtu -> first_header mtu = published (bmc_mtu mtu + 12).
Proof. intros H. unfold first_header. rewrite (area_bmc _ H). reflexivity. Qed.

Lemma foot_ast_register app (bmc : bool) mtu eid kv (ok : list event -> event -> Prop) (Q : world -> list event -> Prop) : (forall g e, ~ io_ev e -> ok g e) ->
  foot kv ok (if bmc then start_bmc (init_ast bmc mtu) else init_host (init_ast bmc mtu)) [EvAttach false eid]
     (fun r g => if snd r <? 0 then forall w, bd_bus (bnd w false) = false -> Q w (g ++ [EvDetach] ++ [EvRet (snd r)])
                 else Q (registered bmc mtu eid (fst r)) (g ++ [EvRet (snd r)])) ->
  (forall g w, bd_bus (bnd w false) = false -> Q w g) ->
  foot kv ok (ast_register app bmc mtu eid) [] Q.
Proof.
  intros Hok Hs Hn. unfold ast_register, aexec_op, exec_op, astlpc_world, register_bus.
  cbn [w_m mctp_init m_dead m_nb Z.eqb assert_ bind foot negb].
  assert (forall g e, ~ io_ev e -> ~ io_ev e /\ ok g e) as Hok' by auto.
  intros [|]; cbn [negb bind foot]; [|split; [apply Hok'; exact (fun x => x)|]; apply Hn; reflexivity]. split; [apply Hok'; exact (fun x => x)|]. cbn [Datatypes.app].
  set (w1 := set_bnd _ false _). change (bd_has_start (bnd w1 false)) with true. cbv iota.
  change (bd_priv (bnd w1 false)) with (init_ast bmc mtu). unfold astlpc_start.
  change (a_bmc (init_ast bmc mtu)) with bmc.
  apply foot_bind, foot_bind, foot_bind.
  eapply foot_mono; [|exact Hs].
  intros [x rc] g _ Hr. cbn [foot fst snd bind] in *. destruct (rc <? 0); cbn [foot].
  - split; [apply Hok'; exact (fun x => x)|]. cbn [foot]. split; [apply Hok'; exact (fun x => x)|]. rewrite <- app_assoc. apply Hr. reflexivity.
  - split; [apply Hok'; exact (fun x => x)|]. exact Hr.
Qed.

Lemma boot_bmc q : usable_mtu (p_mtu q) -> foot akv (bmc_life (p_mtu q)) (boot true q) []
  (fun w g => W (bK (p_mtu q)) g w /\ (bd_bus (bnd w false) = true -> headed (p_mtu q) g)).
Proof.
  intros Hu. assert (0 <= p_mtu q < 2 ^ 32) as Hm by (unfold usable_mtu in Hu; lia).
  unfold boot, ast_history. apply foot_bind.
  assert (forall (P : world -> list event -> Prop) w g, P w g -> foot akv (bmc_life (p_mtu q)) (if bd_bus (bnd w false) then aexec (p_app q) w [] else Ret w) g P) as Hend.
  { intros P w g H. destruct (bd_bus _); exact H. }
  eapply foot_mono; [intros w g _ H; apply Hend; exact H|].
  pose proof (bmc_call (p_app q) _ [] _ (ACore (OpRegister (p_eid q))) Hm I (bmc_blank _)) as H1.
  eapply foot_ok with (ok := fun g e => bok (p_mtu q) g e /\ forall v b, e = EvKWrite KStatus v b -> v = 0 \/ headed (p_mtu q) g);
    [intros t e [A B]; split; [left; exact A|exact B]|].
  apply foot_and; [exact H1|]. clear H1.
  apply foot_ast_register; [| |intros g w E; congruence].
  { intros g e He v b ->. exfalso. apply He. exact I. }
  destruct (init_bmc_usable (init_ast true (p_mtu q)) (p_mtu q) eq_refl eq_refl Hm Hu) as [E V]. cbn zeta in E, V. rewrite E.
  rewrite <- (header_published _ Hu). cbn [foot]. intros _. split; [intros; discriminate|].
  assert (forall t, headed (p_mtu q) (([EvAttach false (p_eid q)] ++ [EvLWrite 0 (first_header (p_mtu q))]) ++ t)) as Hh.
  { intros t. right. left. reflexivity. }
  unfold kcs_set_status. cbn [bind foot]. intros b. split; [intros v b' _; right; right; left; reflexivity|].
  destruct b; cbn [negb bind foot].
  - intros b. split; [intros; discriminate|]. rewrite <- app_assoc.
    destruct b; cbn [bind foot fst snd Z.ltb]; [intros _; rewrite <- app_assoc; apply Hh|].
    intros w Eb Ec. congruence.
  - intros w Eb Ec. congruence.
Qed.

Lemma boot_host q : foot hkv (host_footprint (p_mtu q)) (boot false q) [] (fun w g => W (hK (p_mtu q)) g w).
Proof.
  unfold boot, ast_history. apply foot_bind.
  eapply foot_mono; [|exact (host_call (p_app q) (p_mtu q) [] _ (ACore (OpRegister (p_eid q))) I (host_blank _))].
  intros w g _ H. destruct (bd_bus _); exact H.
Qed.

(** ** The invariant *)

Definition cmd_out (v : Z) : Prop := v = 1 \/ v = 2 \/ v = 255.
Definition kcs_ok (k : kcs) : Prop :=
  is_byte (k_idr k) /\ is_byte (k_odr k) /\ (k_up k = 0 \/ k_up k = 128 \/ k_up k = 192) /\
  (k_obf k = true -> cmd_out (k_odr k)).
(** A read of the status register has shown the output buffer full. *)
Definition full_seen (g : list event) : Prop := exists st, In (EvKRead KStatus (Some st)) g /\ tst st 1 = true.

Record linv (p : bool -> party) (d : duo) : Prop := mkLinv {
  li_mtu : forall s, ast_mtu s (p_mtu (p s));
  li_wp : forall s, wp (adv (ast_assm s)) (d_prog d s) (d_tr d s) (fun w _ => bd_bus (bnd w false) = true -> Inv s w);
  li_bmc : foot akv (bmc_life (p_mtu (p true))) (d_prog d true) (d_tr d true)
    (fun w g => W (bK (p_mtu (p true))) g w /\ (bd_bus (bnd w false) = true -> headed (p_mtu (p true)) g));
  li_host : foot hkv (host_footprint (p_mtu (p false))) (d_prog d false) (d_tr d false) (fun w g => W (hK (p_mtu (p false))) g w);
  li_mem : forall x, is_byte (s_mem (d_sh d) x);
  li_kcs : kcs_ok (s_kcs (d_sh d));
  li_full : full_seen (d_tr d false) -> cmd_out (k_odr (s_kcs (d_sh d))) }.

Lemma boot_wp s q : ast_mtu s (p_mtu q) ->
  wp (adv (ast_assm s)) (boot s q) [] (fun w _ => bd_bus (bnd w false) = true -> Inv s w).
Proof. intros H. destruct s; [now apply wp_hist_bmc|now apply wp_hist_host]. Qed.

Lemma linv_start p idr odr mem : (forall s, ast_mtu s (p_mtu (p s))) -> is_byte idr -> is_byte odr -> (forall x, is_byte (mem x)) ->
  linv p (power_on p idr odr mem).
Proof.
  intros Hm Hi Ho Hb. constructor; cbn [power_on d_prog d_tr d_sh s_kcs s_mem].
  - exact Hm.
  - intros s. now apply boot_wp.
  - apply boot_bmc. exact (Hm true).
  - apply boot_host.
  - exact Hb.
  - split; [exact Hi|]. split; [exact Ho|]. split; [now left|discriminate].
  - intros (st & [] & _).
Qed.

Lemma kstatus_obf k : tst (kstatus k) 1 = k_obf k \/ ~ (k_up k = 0 \/ k_up k = 128 \/ k_up k = 192).
Proof.
  destruct k as [idr odr ibf obf up]; cbn [k_up].
  destruct (Z.eq_dec up 0) as [->|]; [left; destruct ibf, obf; reflexivity|].
  destruct (Z.eq_dec up 128) as [->|]; [left; destruct ibf, obf; reflexivity|].
  destruct (Z.eq_dec up 192) as [->|]; [left; destruct ibf, obf; reflexivity|]. right. lia.
Qed.

(** What the device answers is what the program logics allow. *)
Lemma answers_ok p d s : linv p d ->
  answer_ok (fun r v => is_byte v /\ kval_ok (ast_assm s) r v = true) s (d_sh d) (d_prog d s) /\
  answer_ok (fun r v => (if s then akv else hkv) r v = true) s (d_sh d) (d_prog d s).
Proof.
  intros [_ _ _ Hh _ (K1 & K2 & K3 & K4) Hf].
  destruct (kstatus_bits _ K3) as (B1 & B2 & B3 & _).
  destruct (d_prog d s) as [| |r k| | | | | |] eqn:E; try (split; exact I). cbn [answer_ok].
  destruct r.
  - (* data *) destruct s; [split; [split; [exact K1|reflexivity]|reflexivity]|]. cbn [kread fst].
    rewrite E in Hh. destruct (foot_reads _ _ _ _ _ _ _ Hh) as (v & b & st & Eb & Et).
    destruct Hf as [Ho|[Ho|Ho]].
    { exists st. split; [rewrite Eb; apply in_or_app; right; now left|exact Et]. }
    all: rewrite Ho; split; [split; [unfold is_byte; lia|reflexivity]|reflexivity].
  - (* status *) cbn [kread fst]. split; [split; [exact B1|]|destruct s; reflexivity].
    destruct s; [reflexivity|]. cbn [ast_assm sane_bmc kval_ok]. rewrite B2, B3. destruct K3 as [-> | [-> | ->]]; reflexivity.
Qed.

Lemma narrow_id sh x : is_byte (s_mem sh x) -> s_mem (narrow sh) x = s_mem sh x.
Proof. intros H. cbn [narrow s_mem]. apply Z.mod_small. unfold is_byte in H. lia. Qed.
Lemma ast_stall s : may_stall (ast_assm s) = false.
Proof. destruct s; reflexivity. Qed.

(** One access: the events it is allowed to make, its effect, and the invariant after it. *)
Lemma linv_step p d s d2 : linv p d -> dstep s d d2 -> exists sh' t,
  effect s (d_sh d) sh' t /\ d_sh (bytewise d2) = narrow sh' /\ d_tr d2 = upd (d_tr d) s (d_tr d s ++ t) /\
  (forall e, In e t -> if s then bmc_life (p_mtu (p true)) (d_tr d true) e else host_footprint (p_mtu (p false)) (d_tr d false) e) /\
  linv p (bytewise d2).
Proof.
  intros HI (sh' & p' & t & Ha & ->). pose proof (answers_ok p d s HI) as [A1 A2]. destruct HI as [Hm Hw Hb Hh Hmem Hk Hf].
  exists sh', t. cbn [bytewise d_sh d_tr d_prog]. pose proof (wp_advance _ _ _ _ _ _ _ _ _ _ Ha (Hw s) Hmem A1 (ast_stall s)) as Hw'.
  assert (effect s (d_sh d) sh' t /\
    (forall e, In e t -> if s then bmc_life (p_mtu (p true)) (d_tr d true) e else host_footprint (p_mtu (p false)) (d_tr d false) e) /\
    (if s then foot akv (bmc_life (p_mtu (p true))) p' (d_tr d true ++ t)
       (fun w g => W (bK (p_mtu (p true))) g w /\ (bd_bus (bnd w false) = true -> headed (p_mtu (p true)) g))
     else foot hkv (host_footprint (p_mtu (p false))) p' (d_tr d false ++ t) (fun w g => W (hK (p_mtu (p false))) g w))) as (Hfx & Hok & Hft).
  { destruct s.
    - destruct (foot_advance _ _ _ _ _ _ _ _ _ _ _ Ha Hb Hmem A2 (fun _ _ => I)) as (F1 & F2 & F3). auto.
    - destruct (foot_advance _ _ _ _ _ _ _ _ _ _ _ Ha Hh Hmem A2 (fun _ _ => I)) as (F1 & F2 & F3). auto. }
  split; [exact Hfx|]. split; [reflexivity|]. split; [reflexivity|]. split; [exact Hok|]. constructor; cbn [bytewise d_prog d_tr d_sh].
  - exact Hm.
  - intros s'. destruct s, s'; cbn [upd Bool.eqb]; try exact Hw'; apply Hw.
  - destruct s; cbn [upd Bool.eqb]; [exact Hft|exact Hb].
  - destruct s; cbn [upd Bool.eqb]; [exact Hh|exact Hft].
  - intros x. cbn [narrow s_mem]. apply Z.mod_pos_bound. lia.
  - cbn [narrow s_kcs]. destruct Hk as (K1 & K2 & K3 & K4). destruct Hfx as [r|r v|off len Hl|off bs|e He|]; cbn [s_kcs]; try (split; auto; fail).
    + destruct r, s; cbn [kread snd]; (split; [exact K1|]); (split; [exact K2|]); split; auto; discriminate.
    + specialize (Hok _ (or_introl eq_refl)). destruct s.
      * destruct Hok as [[Hok|(b & [= -> -> <-])] _]; [|cbn [kwrite]; unfold kcs_ok; cbn; repeat split; try apply K1; try apply K2; auto; rewrite andb_false_r; discriminate].
        destruct r; cbn [kwrite]; unfold kcs_ok; cbn [k_idr k_odr k_up k_obf].
        -- cbn in Hok. split; [exact K1|]. split; [unfold is_byte; lia|]. split; [exact K3|]. intros _. exact Hok.
        -- split; [exact K1|]. split; [exact K2|]. split; [cbn in Hok; destruct Hok as [-> | [-> | ->]]; cbn; auto|].
           intros Eo. apply K4. destruct (k_obf (s_kcs (d_sh d))); [reflexivity|discriminate].
      * destruct r; [|contradiction]. cbn in Hok. cbn [kwrite]. unfold kcs_ok. cbn [k_idr k_odr k_up k_obf].
        split; [unfold is_byte; lia|auto].
  - intros Hs. cbn [narrow s_kcs]. destruct Hk as (K1 & K2 & K3 & K4).
    assert (cmd_out (k_odr (s_kcs (d_sh d))) -> cmd_out (k_odr (s_kcs sh'))) as Hkeep.
    { intros Hc. destruct Hfx as [r|r v|off len Hl|off bs|e He|]; cbn [s_kcs]; auto.
      - destruct r, s; exact Hc.
      - specialize (Hok _ (or_introl eq_refl)). destruct r, s; try exact Hc. cbn [kwrite k_odr]. destruct Hok as [[Hok|(b & N)] _]; [exact Hok|discriminate N]. }
    destruct s; cbn [upd Bool.eqb] in Hs; [apply Hkeep, Hf; exact Hs|].
    destruct Hs as (st & Hin & Et). apply in_app_or in Hin. destruct Hin as [Hin|Hin]; [apply Hkeep, Hf; exists st; auto|].
    destruct Hfx as [r|r v|off len Hl|off bs|e He|]; cbn [In] in Hin; try (destruct Hin as [Hin|[]]; try discriminate); try contradiction.
    + injection Hin as -> <-. apply Hkeep, K4. cbn [kread fst] in Et. destruct (kstatus_obf (s_kcs (d_sh d))) as [H|H]; [congruence|contradiction].
    + subst e. exfalso. apply He. exact I.
Qed.

Lemma linv_call p d s o w : linv p d -> d_prog d s = Ret w -> bd_bus (bnd w false) = true -> ast_traffic o ->
  linv p (begin_call s w o p d).
Proof.
  intros [Hm Hw Hb Hh Hmem Hk Hf] E Eb Ho. constructor; cbn [begin_call d_prog d_tr d_sh]; auto.
  - intros s'. destruct (Bool.eqb s s') eqn:Es; unfold upd; rewrite Es; [|apply Hw].
    apply Bool.eqb_prop in Es. subst s'. specialize (Hw s). rewrite E in Hw. cbn [wp] in Hw.
    eapply wp_mono; [apply adv_mono| |apply wp_aop; [apply ast_oom|exact (ast_kv s)|apply Hw; exact Eb|exact Ho]]. auto.
  - destruct s; cbn [upd Bool.eqb]; [|exact Hb]. rewrite E in Hb. destruct Hb as [Hb Hhd]. specialize (Hhd Eb).
    pose proof (Hm true) as Hu. cbn [ast_mtu] in Hu.
    eapply foot_ok; [|eapply foot_mono; [|apply (bmc_call _ (p_mtu (p true))); [unfold usable_mtu in Hu; lia|now apply traffic_keeps|exact Hb]]].
    + intros t e He. split; [left; exact He|]. intros v b _. right. apply in_or_app. now left.
    + intros w' g' (t & ->) Hw'. split; [exact Hw'|]. intros _. apply in_or_app. now left.
  - destruct s; cbn [upd Bool.eqb]; [exact Hh|]. rewrite E in Hh. apply host_call; [now apply traffic_keeps|exact Hh].
Qed.

Lemma linv_leave p d s w : linv p d -> d_prog d s = Ret w -> linv p (leave s w p d).
Proof.
  intros [Hm Hw Hb Hh Hmem Hk Hf] E. 
  assert (a_bmc (ast w false) = s) as Hrole.
  { destruct s; [rewrite E in Hb; destruct Hb as [[[R _] _] _]|rewrite E in Hh; destruct Hh as [[R _] _]]; exact R. }
  constructor; cbn [leave d_prog d_tr d_sh]; auto.
  - intros s'. destruct (Bool.eqb s s') eqn:Es; unfold upd; rewrite Es; [|apply Hw].
    apply Bool.eqb_prop in Es. subst s'. unfold astlpc_destroy. rewrite Hrole. destruct s; cbn [bind wp]; [|discriminate].
    unfold kcs_set_status. cbn [bind wp h_kwrite adv]. repeat split; intros; cbn [negb bind wp] in *; try discriminate.
  - destruct s; cbn [upd Bool.eqb]; [|exact Hb]. unfold astlpc_destroy. rewrite Hrole. unfold kcs_set_status. cbn [bind foot].
    assert (forall g, W (bK (p_mtu (p true))) g (astlpc_world true (p_mtu (p true)))) as Hbl.
    { intros g. apply (bmc_blank (p_mtu (p true))). }
    intros b. split; [split; [right; exists b; reflexivity|intros v b' [= <- <-]; now left]|].
    destruct b; cbn [negb bind foot]; [|split; [apply Hbl|discriminate]].
    intros b. split; [split; [left; cbn; unfold cmd_dummy_value; lia|intros; discriminate]|].
    destruct b; cbn [negb bind foot]; (split; [apply Hbl|discriminate]).
  - destruct s; cbn [upd Bool.eqb]; [exact Hh|]. unfold astlpc_destroy. rewrite Hrole. cbn [bind foot].
    apply (W_more _ (h_more (p_mtu (p false))) [] _ _ (host_blank (p_mtu (p false)))).
Qed.

Lemma linv_reborn p d s q : linv p d -> ast_mtu s (p_mtu q) -> linv (upd p s q) (reborn s q d).
Proof.
  intros [Hm Hw Hb Hh Hmem Hk Hf] Hq. constructor; cbn [reborn d_prog d_tr d_sh]; auto.
  - intros s'. unfold upd. destruct (Bool.eqb s s') eqn:Es; [|apply Hm]. apply Bool.eqb_prop in Es. now subst s'.
  - intros s'. unfold upd. destruct (Bool.eqb s s') eqn:Es; [|apply Hw]. apply Bool.eqb_prop in Es. subst s'. now apply boot_wp.
  - destruct s; cbn [upd Bool.eqb]; [now apply boot_bmc|exact Hb].
  - destruct s; cbn [upd Bool.eqb]; [exact Hh|apply boot_host].
  - destruct s; cbn [upd Bool.eqb]; [exact Hf|]. intros (st & [] & _).
Qed.

Lemma linv_goes (allowed : bool -> Z -> Prop) p d q e : (forall s m, allowed s m -> ast_mtu s m) -> goes allowed p d q e -> linv p d -> linv q e.
Proof.
  intros Ha Hg HI. induction Hg as [|s p1 d1 d2 Hg IH Hs|s o w p1 d1 Hg IH E Eb Ho|s w p1 d1 Hg IH E|s r p1 d1 Hg IH Hr].
  - exact HI.
  - destruct (linv_step _ _ _ _ IH Hs) as (sh' & t & _ & _ & _ & _ & H). exact H.
  - now apply linv_call.
  - now apply linv_leave.
  - apply linv_reborn; auto.
Qed.
Lemma linv_lives (allowed : bool -> Z -> Prop) p d : (forall s m, allowed s m -> ast_mtu s m) -> lives allowed p d -> linv p d.
Proof.
  intros Ha (p0 & idr & odr & mem & Hm & Hi & Ho & Hb & Hg). eapply linv_goes; [exact Ha|exact Hg|]. apply linv_start; auto.
Qed.

(** ** C70 *)

(** However often either side is killed, at whatever access, and started again with
    whatever configuration, and whatever the other side is doing meanwhile: neither side
    ever accesses memory out of bounds, trips an assertion or does anything else undefined. *)
Theorem C70_no_fault p d : lives ast_mtu p d -> forall s f, d_prog d s <> Flt f.
Proof.
  intros H s f E. pose proof (li_wp _ _ (linv_lives _ _ _ (fun s m x => x) H) s) as Hw. rewrite E in Hw. exact Hw.
Qed.

(** ** The areas stay apart *)

Section Areas.
Variable M : Z.
Hypothesis HM : usable_mtu M.

Definition hdr (m : Z -> Z) : Prop := exists n1 n2, 72 <= n1 <= area M /\ 72 <= n2 <= area M /\
  cells m 16 16 = layout_fields 256 n1 (256 + area M) n2.
Definition fields (h : list Z) : Prop :=
  fld32 h 16 = 256 /\ 72 <= fld32 h 20 <= area M /\ fld32 h 24 = 256 + area M /\ 72 <= fld32 h 28 <= area M.

Lemma area_M : 76 <= area M <= 524156.
Proof. rewrite (area_bmc _ HM). pose proof (bmc_mtu_range _ HM). lia. Qed.

Lemma hdr_fields m : hdr m -> fields (cells m 0 32).
Proof.
  pose proof area_M as HA. intros (n1 & n2 & H1 & H2 & E).
  assert (forall o, 16 <= o <= 28 -> fld32 (cells m 0 32) o = unbe32 (firstn 4 (skipn (Z.to_nat (o - 16)) (cells m 16 16)))) as Hf.
  { intros o Ho. unfold fld32. f_equal. change 4%nat with (Z.to_nat 4). rewrite <- (cells_sub m 0 32 o 4) by lia.
    rewrite <- (cells_sub m 16 16 (o - 16) 4) by lia. f_equal. lia. }
  unfold fields. rewrite !Hf by lia. rewrite E.
  change (firstn 4 (skipn (Z.to_nat (16 - 16)) (layout_fields 256 n1 (256 + area M) n2))) with (be32 256).
  change (firstn 4 (skipn (Z.to_nat (20 - 16)) (layout_fields 256 n1 (256 + area M) n2))) with (be32 n1).
  change (firstn 4 (skipn (Z.to_nat (24 - 16)) (layout_fields 256 n1 (256 + area M) n2))) with (be32 (256 + area M)).
  change (firstn 4 (skipn (Z.to_nat (28 - 16)) (layout_fields 256 n1 (256 + area M) n2))) with (be32 n2).
  rewrite !unbe32_be32 by lia. lia.
Qed.
Lemma hdr_ext m m' : (forall x, 16 <= x < 32 -> m x = m' x) -> hdr m -> hdr m'.
Proof.
  intros H (n1 & n2 & H1 & H2 & E). exists n1, n2. split; [exact H1|]. split; [exact H2|]. rewrite <- E.
  apply cells_ext. intros x Hx. symmetry. apply H. lia.
Qed.
Lemma be32_bytes n : Forall is_byte (be32 n).
Proof. unfold be32. repeat constructor; apply Z.mod_pos_bound; lia. Qed.
Lemma hdr_narrow m : hdr m -> hdr (fun x => m x mod 256).
Proof.
  intros H. pose proof H as (n1 & n2 & _ & _ & E). eapply hdr_ext; [|exact H]. intros x Hx. cbn beta.
  assert (is_byte (m x)) as Hb; [|symmetry; apply Z.mod_small; unfold is_byte in Hb; lia].
  assert (Forall is_byte (cells m 16 16)) as Hall.
  { rewrite E. unfold layout_fields. repeat (apply Forall_app; split; [apply be32_bytes|]). apply be32_bytes. }
  rewrite Forall_forall in Hall. apply Hall. unfold cells. apply in_map_iff. exists (Z.to_nat (x - 16)).
  split; [f_equal; lia|]. apply in_seq. lia.
Qed.
Lemma hdr_first m : hdr (store m 0 (first_header M)).
Proof.
  pose proof area_M as HA. exists (area M), (area M). split; [lia|]. split; [lia|].
  pose proof (cells_store_same m 0 (first_header M)) as E. change (zlen (first_header M)) with 32 in E.
  change (cells (store m 0 (first_header M)) 16 16) with (cells (store m 0 (first_header M)) (0 + 16) 16).
  rewrite (cells_sub _ 0 32 16 16) by lia. rewrite E. reflexivity.
Qed.
Lemma hdr_layout m n : 72 <= n <= area M -> hdr (store m 16 (layout_fields 256 n (256 + area M) n)).
Proof.
  intros Hn. exists n, n. split; [lia|]. split; [lia|]. exact (cells_store_same m 16 (layout_fields 256 n (256 + area M) n)).
Qed.
Lemma hdr_size m n : hdr m -> 72 <= n <= area M -> hdr (store m 20 (be32 n)).
Proof.
  intros (n1 & n2 & H1 & H2 & E) Hn. exists n, n2. split; [lia|]. split; [exact H2|].
  rewrite cells_store_in by (change (zlen (be32 n)) with 4; lia). rewrite E. reflexivity.
Qed.
Lemma hdr_store_off m off bs : off + zlen bs <= 16 \/ 32 <= off -> hdr m -> hdr (store m off bs).
Proof. intros Ho. apply hdr_ext. intros x Hx. symmetry. apply store_outside. lia. Qed.

Record ainv (p : bool -> party) (d : duo) : Prop := mkAinv {
  ai_inv : linv p d;
  ai_bmc : p_mtu (p true) = M;
  ai_hdr : k_up (s_kcs (d_sh d)) <> 0 \/ ready_seen (d_tr d false) \/ headed M (d_tr d true) -> hdr (s_mem (d_sh d));
  ai_read : forall h, In (EvLRead 0 h) (d_tr d false) -> zlen h = 32 -> fields h }.

Lemma ainv_step p d s d2 : ainv p d -> dstep s d d2 -> ainv p (bytewise d2).
Proof.
  intros [HI Hm Hh Hr] Hs. pose proof area_M as HA.
  destruct (linv_step _ _ _ _ HI Hs) as (sh' & t & Hfx & Esh & Etr & Hok & HI').
  pose proof (li_kcs _ _ HI) as (_ & _ & K3 & _). destruct (kstatus_bits _ K3) as (_ & B2 & _).
  assert (d_tr (bytewise d2) = d_tr d2) as Et0 by reflexivity.
  constructor; [exact HI'|exact Hm| |].
  - rewrite Esh. intros Hc. cbn [narrow s_mem]. apply hdr_narrow. cbn [narrow s_kcs] in Hc. rewrite Et0, Etr in Hc.
    destruct Hfx as [r|r v|off len Hl|off bs|e He|]; cbn [s_kcs s_mem] in *.
    + (* register read *) apply Hh. destruct Hc as [Hc|[Hc|Hc]].
      * left. destruct r, s; exact Hc.
      * destruct s; cbn [upd Bool.eqb] in Hc; [auto|]. destruct Hc as (st & Hin & Et). apply in_app_or in Hin.
        destruct Hin as [Hin|[Hin|[]]]; [right; left; exists st; auto|]. injection Hin as -> <-. cbn [kread fst] in Et.
        left. intros E0. change 128 with ST_BMC_READY in Et. rewrite B2, E0 in Et. discriminate.
      * destruct s; cbn [upd Bool.eqb] in Hc; [|auto]. apply in_app_or in Hc. destruct Hc as [Hc|[Hc|[]]]; [auto|discriminate].
    + (* register write *) apply Hh. specialize (Hok _ (or_introl eq_refl)). destruct Hc as [Hc|[Hc|Hc]].
      * destruct s; [|destruct r; left; exact Hc]. destruct r; [left; exact Hc|]. destruct Hok as [_ Hok].
        rewrite Hm in Hok. destruct (Hok _ _ eq_refl) as [->|Hd]; [cbn in Hc; congruence|auto].
      * destruct s; cbn [upd Bool.eqb] in Hc; [auto|]. destruct Hc as (st & Hin & Et). apply in_app_or in Hin.
        destruct Hin as [Hin|[Hin|[]]]; [right; left; exists st; auto|discriminate].
      * destruct s; cbn [upd Bool.eqb] in Hc; [|auto]. apply in_app_or in Hc. destruct Hc as [Hc|[Hc|[]]]; [auto|discriminate].
    + (* window read *) apply Hh. destruct Hc as [Hc|[Hc|Hc]]; [auto| |].
      * destruct s; cbn [upd Bool.eqb] in Hc; [auto|]. destruct Hc as (st & Hin & Et). apply in_app_or in Hin.
        destruct Hin as [Hin|[Hin|[]]]; [right; left; exists st; auto|discriminate].
      * destruct s; cbn [upd Bool.eqb] in Hc; [|auto]. apply in_app_or in Hc. destruct Hc as [Hc|[Hc|[]]]; [auto|discriminate].
    + (* window write *) specialize (Hok _ (or_introl eq_refl)). destruct s; cbn [upd Bool.eqb] in Hc.
      * destruct Hok as [[Hok|(b & N)] _]; [|discriminate N]. rewrite Hm in Hok. cbn in Hok.
        destruct Hok as [(-> & ->)|[(-> & v & _ & ->)|[(-> & n & Hn & ->)|[W1 W2]]]].
        -- apply hdr_first.
        -- apply hdr_store_off; [left; change (zlen (be16 v)) with 2; lia|]. apply Hh.
           destruct Hc as [Hc|[Hc|Hc]]; [auto|auto|]. apply in_app_or in Hc. destruct Hc as [Hc|[Hc|[]]]; [auto|discriminate].
        -- apply hdr_layout. exact Hn.
        -- apply hdr_store_off; [lia|]. apply Hh. destruct Hc as [Hc|[Hc|Hc]]; [auto|auto|].
           apply in_app_or in Hc. destruct Hc as [Hc|[Hc|[]]]; [auto|]. injection Hc as -> _. lia.
      * assert (k_up (s_kcs (d_sh d)) <> 0 \/ ready_seen (d_tr d false) \/ headed M (d_tr d true)) as Hc'.
        { destruct Hc as [Hc|[Hc|Hc]]; [auto| |auto]. destruct Hc as (st & Hin & Et). apply in_app_or in Hin.
          destruct Hin as [Hin|[Hin|[]]]; [right; left; exists st; auto|discriminate]. }
        specialize (Hh Hc'). cbn in Hok.
        destruct Hok as [(-> & ->)|[(-> & ->)|[(-> & k & h & b & Hk & Eb & Hacc & ->)|(h & rx & rxn & tx & txn & Hin & Han & W1 & W2)]]].
        -- apply hdr_store_off; [left; change (zlen (be16 1)) with 2; lia|exact Hh].
        -- apply hdr_store_off; [left; change (zlen (be16 3)) with 2; lia|exact Hh].
        -- apply hdr_size; [exact Hh|]. destruct Hacc as (Hz & [A1 A2] & A3 & A4).
           destruct (Hr h) as (F1 & F2 & F3 & F4); [rewrite Eb; apply in_or_app; right; now left|exact Hz|]. lia.
        -- apply hdr_store_off; [|exact Hh]. destruct Han as [_ _ _ _ _ _ [T1 T2] _ _]. lia.
    + (* other events *) apply Hh. destruct Hc as [Hc|[Hc|Hc]]; [auto| |].
      * destruct s; cbn [upd Bool.eqb] in Hc; [auto|]. destruct Hc as (st & Hin & Et). apply in_app_or in Hin.
        destruct Hin as [Hin|[->|[]]]; [right; left; exists st; auto|]. exfalso. apply He. exact I.
      * destruct s; cbn [upd Bool.eqb] in Hc; [|auto]. apply in_app_or in Hc. destruct Hc as [Hc|[->|[]]]; [auto|].
        exfalso. apply He. exact I.
    + apply Hh. rewrite app_nil_r in Hc. destruct s; exact Hc.
  - rewrite Et0, Etr. intros h Hin Hz. destruct s; cbn [upd Bool.eqb] in Hin; [auto|].
    apply in_app_or in Hin. destruct Hin as [Hin|Hin]; [auto|]. pose proof (Hok _ Hin) as Hev. cbn in Hev.
    destruct Hfx as [r|r v|off len Hl|off bs|e He|]; cbn [In] in Hin; try (destruct Hin as [Hin|[]]; try discriminate); try contradiction.
    + injection Hin as -> <-. rewrite cells_len in Hz by exact Hl. subst len. apply hdr_fields, Hh.
      destruct Hev as [[Hs' _]|(h & rx & rxn & tx & txn & _ & Han & W1 & _)]; [auto|].
      destruct Han as [_ _ _ _ _ [T1 T2] _ _ _]. lia.
    + subst e. exfalso. apply He. exact I.
Qed.

Lemma ainv_lives p d : lives (fun s m => if s then m = M else 0 <= m <= 2 ^ 32 - 13) p d -> ainv p d.
Proof.
  assert (forall (s : bool) (m : Z), (if s then m = M else 0 <= m <= 2 ^ 32 - 13) -> ast_mtu s m) as Ha.
  { intros [|] m H; cbn; [now subst m|exact H]. }
  intros (p0 & idr & odr & mem & Hm & Hi & Ho & Hb & Hg).
  induction Hg as [|s p1 d1 d2 Hg IH Hs|s o w p1 d1 Hg IH E Eb Ho'|s w p1 d1 Hg IH E|s r p1 d1 Hg IH Hr].
  - constructor.
    + apply linv_start; auto. intros s. apply Ha, Hm.
    + exact (Hm true).
    + cbn. intros [N|[(st & [] & _)|[]]]. now destruct N.
    + intros h [].
  - eapply ainv_step; eassumption.
  - destruct IH as [I1 I2 I3 I4]. constructor; [now apply linv_call|exact I2|exact I3|exact I4].
  - destruct IH as [I1 I2 I3 I4]. constructor; [now apply linv_leave|exact I2|exact I3|exact I4].
  - destruct IH as [I1 I2 I3 I4]. constructor.
    + apply linv_reborn; auto.
    + destruct s; cbn [upd Bool.eqb]; [exact Hr|exact I2].
    + cbn [reborn d_sh d_tr]. intros [H|[H|H]]; apply I3; destruct s; cbn [upd Bool.eqb] in H; auto; destruct H as (st & [] & _).
    + cbn [reborn d_tr]. intros h Hin Hz. destruct s; cbn [upd Bool.eqb] in Hin; [auto|destruct Hin].
Qed.
End Areas.

(** As long as the BMC is always started with the same MTU, whatever the MTUs of the hosts
    and however often and whenever either side is killed and started: the BMC only ever
    writes the header and the first packet area, the host only its fields in the header and
    the second packet area, and each reads only the header and the other's area. *)
Theorem C70_areas M p d : usable_mtu M -> lives (fun s m => if s then m = M else 0 <= m <= 2 ^ 32 - 13) p d ->
  let n := bmc_mtu M + 12 in forall s x,
  (touches (d_prog d s) true x ->
     if s then 0 <= x < 32 \/ 256 <= x < 256 + n else 8 <= x < 12 \/ 20 <= x < 24 \/ 256 + n <= x < 256 + 2 * n) /\
  (touches (d_prog d s) false x ->
     0 <= x < 32 \/ if s then 256 + n <= x < 256 + 2 * n else 256 <= x < 256 + n).
Proof.
  intros HM HL n s x. pose proof (ainv_lives M HM p d HL) as [HI Hb _ Hr]. pose proof (area_M M HM) as HA.
  assert (n = area M) as En by (unfold n; symmetry; now apply area_bmc). clearbody n. subst n. destruct HI as [_ Hw Hfb Hfh Hmem _ _]. specialize (Hw s). split; intros Ht.
  - destruct (d_prog d s) as [| | | | |off bs k| | |] eqn:E; cbn [touches] in Ht; try contradiction; [destruct Ht; discriminate|].
    destruct Ht as [_ Ht]. cbn [wp adv h_lwrite] in Hw. destruct Hw as [Hi _].
    destruct s.
    + rewrite E in Hfb. destruct (Hfb Hi) as [[[Hok|(b & N)] _] _]; [|discriminate N]. rewrite Hb in Hok. cbn [bok bmc_footprint] in Hok.
      destruct Hok as [(-> & ->)|[(-> & v & _ & ->)|[(-> & m & _ & ->)|[W1 W2]]]].
      * change (zlen (first_header M)) with 32 in Ht. clear - Ht. lia.
      * change (zlen (be16 v)) with 2 in Ht. clear - Ht. lia.
      * change (zlen (layout_fields 256 m (256 + area M) m)) with 16 in Ht. clear - Ht. lia.
      * clear - Ht W1 W2. lia.
    + rewrite E in Hfh. destruct (Hfh Hi) as [Hok _]. cbn [host_footprint] in Hok.
      destruct Hok as [(-> & ->)|[(-> & ->)|[(-> & k0 & h & b & _ & _ & _ & ->)|(h & rx & rxn & tx & txn & Hin & Han & W1 & W2)]]].
      * change (zlen (be16 1)) with 2 in Ht. clear - Ht. lia.
      * change (zlen (be16 3)) with 2 in Ht. clear - Ht. lia.
      * match type of Ht with context [be32 ?y] => change (zlen (be32 y)) with 4 in Ht end. clear - Ht. lia.
      * destruct (Hr h Hin (an_len _ _ _ _ _ Han)) as (F1 & F2 & F3 & F4). destruct Han as [_ _ _ E3 E4 _ _ _ _].
        clear - Ht W1 W2 E3 E4 F3 F4. lia.
  - destruct (d_prog d s) as [| | | |off len k| | | |] eqn:E; cbn [touches] in Ht; try contradiction; [|destruct Ht; discriminate].
    destruct Ht as [_ Ht]. cbn [wp adv h_lread] in Hw. destruct Hw as [Hi _].
    assert (0 <= len) as Hl by (clear - Hi; unfold in_window in Hi; lia). pose proof (cells_len (s_mem (d_sh d)) off len Hl) as Hz.
    destruct s.
    + rewrite E in Hfb. destruct (Hfb Hi _ Hz (cells_byte _ off len Hmem)) as [[[Hok|(b & N)] _] _]; [|discriminate N].
      rewrite Hb in Hok. cbn [bok bmc_footprint] in Hok. rewrite Hz in Hok. unfold within in *. clear - Ht Hok HA. lia.
    + rewrite E in Hfh. destruct (Hfh Hi _ Hz (cells_byte _ off len Hmem)) as [Hok _]. cbn [host_footprint] in Hok. rewrite Hz in Hok.
      destruct Hok as [[_ [W1 W2]]|(h & rx & rxn & tx & txn & Hin & Han & W1 & W2)]; [clear - Ht W1 W2; lia|].
      destruct (Hr h Hin (an_len _ _ _ _ _ Han)) as (F1 & F2 & F3 & F4). destruct Han as [_ E1 E2 _ _ _ _ _ _].
      clear - Ht W1 W2 E1 E2 F1 F2. lia.
Qed.
