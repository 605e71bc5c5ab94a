(** PropBytes: C69: splitting the window accesses into bytes is not observable. *)
From Verif Require Import Base Lists Prog PktBuf Core WP Walk CoreRel WalkCore CoreHist Spec SpecRx Crc Astlpc SpecAst AstBasic
  AstWalk PropAst TwoParty DuoInv DuoPast DuoWalk PropDuo SpecDuo DuoMsg PropDuoMsg SpecLive DuoLive PropLive PropPollfd TwoBytes.

Local Notation world := (world astlpc).

(** ** What a side may find when the other is in the middle of a write *)
Definition safe (d : duo) : Prop := forall s x wr, touches (d_prog d s) true x -> touches (d_prog d (negb s)) wr x ->
  s = true /\ wr = false /\ (exists k, d_prog d true = LWrite 12 [0; 3] k) /\ (exists k, d_prog d false = LRead 12 2 k) /\
  s_mem (d_sh d) 12 = 0.

Lemma sys_safe S N Q d gb gh : 68 <= N -> N + 8 <= S <= 524156 -> sys S N Q d gb gh -> safe d.
Proof.
  intros HN HS HY s x wr T1 T2. pose proof (exclusive_sys _ _ _ _ _ _ HN HS HY) as Hx.
  destruct s; cbn [negb] in T2.
  2:{ destruct (Hx _ _ _ T2 T1) as [_ [[_ H]|(_ & _ & H)]]; discriminate. }
  destruct (Hx _ _ _ T1 T2) as [_ [[H _]|(Hr & _ & ->)]]; [discriminate|]. split; [reflexivity|]. split; [reflexivity|].
  clear Hx. destruct HY as (W & (_ & _ & _ & _ & St) & _).
  pose proof (W true) as Wb. pose proof (W false) as Wh. cbn [gpick] in Wb, Wh. clear W.
  destruct St as [_ _ _ b4 b5 _ b7 _ b9 b10 _ _].
  destruct (d_prog d true) as [|f|r k|r v k|off len k|off bs k|bs k|k|ev k]; cbn [touches] in T1; try contradiction;
    try (destruct T1; discriminate).
  destruct T1 as [_ T1].
  destruct (d_prog d false) as [|f|r' k'|r' v' k'|off' len' k'|off' bs' k'|bs' k'|k'|ev' k']; cbn [touches] in T2; try contradiction;
    try (destruct T2; discriminate).
  destruct T2 as [_ T2].
  cbn [wp duo_h h_lread h_lwrite] in Wb, Wh. unfold txo, rxo, txo in *. cbn [negb] in *.
  assert (g_ph gb = 5 /\ off = 12 /\ bs = be16 3) as (E5 & -> & ->).
  { destruct Wb as [(p & _ & -> & _)|[(p & _ & -> & _)|[(_ & -> & -> & C & _)|[(_ & -> & -> & _)|
      [(_ & -> & -> & C & _)|[(H & _)|[(H & _)|(H & _)]]]]]]]; try discriminate H; try (exfalso; lia); auto.
    exfalso. destruct Wh as [(p & _ & -> & -> & _)|[(p & _ & -> & -> & _)|[(H & _)|
      [(_ & -> & -> & Cr & _)|[(_ & -> & -> & Cn & _)|(_ & -> & -> & Cp & _)]]]]]; try discriminate H; lia. }
  change (zlen (be16 3)) with 2 in T1.
  assert (off' = 12 /\ len' = 2) as [-> ->].
  { destruct Wh as [(p & _ & -> & -> & _)|[(p & _ & -> & -> & _)|[(H & _)|
      [(_ & -> & -> & Cr & Cp & _)|[(_ & -> & -> & Cn & _)|(_ & -> & -> & Cp & _)]]]]]; try discriminate H; try (exfalso; lia); auto. }
  split; [exists k; reflexivity|]. split; [exists k'; reflexivity|].
  specialize (b4 ltac:(lia)). rewrite (b10 ltac:(lia)), E5 in b4.
  pose proof (cells_nth (s_mem (d_sh d)) 0 32 12 ltac:(lia)) as Hc. rewrite b4 in Hc. cbn in Hc. symmetry. exact Hc.
Qed.

(** ** The simulation *)
Definition partly (p : prog world) (acc : list Z) (m : Z -> Z) : Z -> Z :=
  match p with LWrite off _ _ => store m off acc | _ => m end.
Definition acc_ok (m : Z -> Z) (p : prog world) (acc : list Z) : Prop :=
  match p with
  | LRead off len _ => acc = cells m off (zlen acc) /\ (acc = [] \/ (zlen acc < len /\ in_window off len = true))
  | LWrite off bs _ => exists rest, bs = acc ++ rest /\ (acc = [] \/ (rest <> [] /\ in_window off (zlen bs) = true))
  | _ => acc = []
  end.
Record sim (f : fine) (d : duo) : Prop := mkSim {
  sm_kcs : s_kcs (f_sh f) = s_kcs (d_sh d);
  sm_prog : forall s, f_prog f s = d_prog d s;
  sm_tr : forall s, f_tr f s = d_tr d s;
  sm_acc : forall s, acc_ok (s_mem (d_sh d)) (d_prog d s) (f_acc f s);
  sm_mem : forall x, s_mem (f_sh f) x =
    partly (d_prog d true) (f_acc f true) (partly (d_prog d false) (f_acc f false) (s_mem (d_sh d))) x }.

Lemma store_nil m o : forall x, store m o [] x = m x.
Proof. intros x. unfold store. replace ((o <=? x) && (x <? o + zlen [])) with false; [reflexivity|]. unfold zlen. cbn [length]. lia. Qed.
Lemma acc_nil m p : acc_ok m p [].
Proof. destruct p; cbn [acc_ok]; auto. exists bs. auto. Qed.
Lemma partly_nil p m x : partly p [] m x = m x.
Proof. destruct p; try reflexivity. apply store_nil. Qed.
Lemma partly_ext p acc m m' x : (forall y, m y = m' y) -> partly p acc m x = partly p acc m' x.
Proof. intros H. destruct p; cbn [partly]; auto. unfold store. destruct (_ && _); auto. Qed.
Lemma partly_off p acc m x : acc_ok m p acc -> ~ touches p true x -> partly p acc m x = m x.
Proof.
  intros Ha Hn. destruct p; try reflexivity. cbn [partly touches acc_ok] in *. destruct Ha as (rest & -> & _).
  unfold store. destruct ((off <=? x) && (x <? off + zlen acc)) eqn:E; [|reflexivity]. exfalso. apply Hn. split; [reflexivity|].
  rewrite zlen_app. pose proof (zlen_pos _ rest). lia.
Qed.

Lemma store_at m o bs x : o <= x < o + zlen bs -> store m o bs x = nth (Z.to_nat (x - o)) bs 0.
Proof. intros H. unfold store. replace ((o <=? x) && (x <? o + zlen bs)) with true by lia. reflexivity. Qed.
Lemma store_out m o bs x : ~ (o <= x < o + zlen bs) -> store m o bs x = m x.
Proof. intros H. unfold store. replace ((o <=? x) && (x <? o + zlen bs)) with false by lia. reflexivity. Qed.
Lemma store_comm m o a o' b x : ~ (o <= x < o + zlen a /\ o' <= x < o' + zlen b) ->
  store (store m o a) o' b x = store (store m o' b) o a x.
Proof.
  intros H. unfold store. destruct ((o' <=? x) && (x <? o' + zlen b)) eqn:E1, ((o <=? x) && (x <? o + zlen a)) eqn:E2; try reflexivity.
  exfalso. apply H. lia.
Qed.
Lemma store_snoc m o a v x : store (store m o a) (o + zlen a) [v] x = store m o (a ++ [v]) x.
Proof.
  pose proof (zlen_pos _ a) as Hp. assert (zlen [v] = 1) as E1 by reflexivity. assert (zlen (a ++ [v]) = zlen a + 1) as E2 by (rewrite zlen_app, E1; reflexivity).
  destruct (Z.eq_dec x (o + zlen a)) as [->|Hx].
  - rewrite !store_at by lia. replace (o + zlen a - (o + zlen a)) with 0 by lia. replace (o + zlen a - o) with (zlen a) by lia.
    rewrite app_nth2 by (unfold zlen; lia). unfold zlen. rewrite Nat2Z.id, Nat.sub_diag. reflexivity.
  - rewrite store_out by lia. destruct (Z_le_dec o x) as [H1|H1]; [destruct (Z_lt_dec x (o + zlen a)) as [H2|H2]|].
    + rewrite !store_at by lia. rewrite app_nth1; [reflexivity|]. unfold zlen in *. lia.
    + rewrite !store_out by lia. reflexivity.
    + rewrite !store_out by lia. reflexivity.
Qed.
Lemma store_ext m m' o a x : (forall y, m y = m' y) -> store m o a x = store m' o a x.
Proof. intros H. unfold store. destruct (_ && _); auto. Qed.

Lemma partly_comm p q a b m x : acc_ok m p a -> acc_ok m q b -> (touches p true x -> touches q true x -> False) ->
  partly p a (partly q b m) x = partly q b (partly p a m) x.
Proof.
  intros Ha Hb Hn. destruct p; try reflexivity. destruct q; try reflexivity. cbn [partly acc_ok touches] in *.
  destruct Ha as (r1 & -> & _), Hb as (r2 & -> & _). rewrite !zlen_app in Hn.
  pose proof (zlen_pos _ r1). pose proof (zlen_pos _ r2). symmetry. apply store_comm. intros H'. apply Hn; lia.
Qed.

Lemma no_both d s x : safe d -> touches (d_prog d s) true x -> touches (d_prog d (negb s)) true x -> False.
Proof. intros Hs T1 T2. destruct (Hs _ _ _ T1 T2) as (_ & H & _). discriminate. Qed.

Lemma sim_mem f d s x : sim f d -> safe d -> s_mem (f_sh f) x =
  partly (d_prog d s) (f_acc f s) (partly (d_prog d (negb s)) (f_acc f (negb s)) (s_mem (d_sh d))) x.
Proof.
  intros M Hs. rewrite (sm_mem _ _ M x). destruct s; cbn [negb]; [reflexivity|].
  apply partly_comm; try apply (sm_acc _ _ M). exact (no_both d true x Hs).
Qed.

(** A byte that a side reads is the same as in the machine with undivided accesses. *)
Lemma read_byte f d s x : sim f d -> safe d -> touches (d_prog d s) false x -> s_mem (f_sh f) x = s_mem (d_sh d) x.
Proof.
  intros M Hs T. rewrite (sim_mem _ _ s x M Hs). pose proof (sm_acc _ _ M (negb s)) as Ha.
  assert (forall m, partly (d_prog d s) (f_acc f s) m = m) as ->.
  { intros m. destruct (d_prog d s); try reflexivity. cbn [touches] in T. destruct T; discriminate. }
  destruct (d_prog d (negb s)) as [|g|r k|r v k|off len k|off bs k|bs k|k|ev k] eqn:E; try reflexivity.
  cbn [partly acc_ok] in *. destruct Ha as (rest & Eb & Hr). set (acc := f_acc f (negb s)) in *.
  destruct (Z_le_dec off x) as [H1|H1]; [destruct (Z_lt_dec x (off + zlen acc)) as [H2|H2]|]; try (apply store_out; lia).
  assert (zlen bs = zlen acc + zlen rest) as El by (rewrite Eb; apply zlen_app). pose proof (zlen_pos _ rest) as Hp.
  destruct (Hs (negb s) x false) as (Hn & _ & (k1 & W) & _ & Hz).
  { rewrite E. cbn [touches]. split; [reflexivity|lia]. }
  { rewrite negb_involutive. exact T. }
  rewrite Hn in E. rewrite E in W. injection W as -> W _. rewrite W in Eb.
  destruct acc as [|a1 [|a2 acc]]; [exfalso; unfold zlen in H2; cbn in H2; lia| |].
  - injection Eb as <- _. assert (x = 12) as -> by (unfold zlen in H2; cbn in H2; lia). rewrite Hz. reflexivity.
  - exfalso. injection Eb as <- <- Eb. symmetry in Eb. apply app_eq_nil in Eb as [-> ->]. destruct Hr as [Hr|[Hr _]]; congruence.
Qed.

(** Steps other than window accesses. *)
Lemma advance_other s sh sh' (p q : prog world) t shd : (forall off len k, p <> LRead off len k) -> (forall off bs k, p <> LWrite off bs k) ->
  s_kcs sh = s_kcs shd -> advance s sh p = Some (sh', q, t) ->
  s_mem sh' = s_mem sh /\ exists shd', advance s shd p = Some (shd', q, t) /\ s_kcs sh' = s_kcs shd' /\ s_mem shd' = s_mem shd.
Proof.
  intros H1 H2 Ek Ha. destruct p; cbn [advance] in *; try discriminate; try (exfalso; eapply H1; reflexivity); try (exfalso; eapply H2; reflexivity).
  - rewrite <- Ek. destruct (kread s r (s_kcs sh)). injection Ha as <- <- <-. split; [reflexivity|]. eexists. split; [reflexivity|]. auto.
  - rewrite <- Ek. injection Ha as <- <- <-. split; [reflexivity|]. eexists. split; [reflexivity|]. auto.
  - injection Ha as <- <- <-. split; [reflexivity|]. exists shd. auto.
  - injection Ha as <- <- <-. split; [reflexivity|]. exists shd. auto.
  - injection Ha as <- <- <-. split; [reflexivity|]. exists shd. auto.
Qed.

Lemma upd_eq {A} (f : bool -> A) s x : upd f s x s = x.
Proof. unfold upd. now rewrite Bool.eqb_reflx. Qed.
Lemma upd_neq {A} (f : bool -> A) s x : upd f s x (negb s) = f (negb s).
Proof. unfold upd. now destruct s. Qed.
Lemma by_side (P : bool -> Prop) s : P s -> P (negb s) -> forall i, P i.
Proof. destruct s; intros H1 H2 []; assumption. Qed.

(** Building the relation after a step of side [s]. *)
Lemma sim_after f d s sh q acc t shd :
  sim f d -> s_kcs sh = s_kcs shd ->
  acc_ok (s_mem shd) q acc -> acc_ok (s_mem shd) (d_prog d (negb s)) (f_acc f (negb s)) ->
  (acc = [] \/ forall x, touches q true x -> touches (d_prog d (negb s)) true x -> False) ->
  (forall x, s_mem sh x = partly q acc (partly (d_prog d (negb s)) (f_acc f (negb s)) (s_mem shd)) x) ->
  sim (mkFine sh (upd (f_prog f) s q) (upd (f_acc f) s acc) (upd (f_tr f) s (f_tr f s ++ t)))
      (mkDuo shd (upd (d_prog d) s q) (upd (d_tr d) s (d_tr d s ++ t))).
Proof.
  intros M Ek Ha Hb Hn Hm. constructor; cbn [f_sh f_prog f_acc f_tr d_sh d_prog d_tr].
  - exact Ek.
  - apply (by_side _ s); rewrite ?upd_eq, ?upd_neq; [reflexivity|apply (sm_prog _ _ M)].
  - apply (by_side _ s); rewrite ?upd_eq, ?upd_neq; [now rewrite (sm_tr _ _ M)|apply (sm_tr _ _ M)].
  - apply (by_side _ s); rewrite ?upd_eq, ?upd_neq; assumption.
  - intros x. rewrite Hm. destruct s; cbn [negb] in *.
    + unfold upd. cbn [Bool.eqb]. reflexivity.
    + unfold upd. cbn [Bool.eqb]. destruct Hn as [->|Hn].
      * rewrite partly_nil. apply partly_ext. intros y. now rewrite partly_nil.
      * apply partly_comm; auto. apply Hn.
Qed.

Lemma sim_step f d s f' : sim f d -> safe d -> fstep s f f' -> exists d', (d' = d \/ dstep s d d') /\ sim f' d'.
Proof.
  intros M Hs (sh & q & acc & t & Ha & ->). rewrite (sm_prog _ _ M s) in Ha.
  pose proof (sm_acc _ _ M s) as Hacc. pose proof (sm_acc _ _ M (negb s)) as Hother.
  pose proof (fun x => sim_mem f d s x M Hs) as Hmem. pose proof (sm_kcs _ _ M) as Hk.
  (* nothing happens in the machine with undivided accesses *)
  assert (forall shf a, s_kcs shf = s_kcs (d_sh d) -> acc_ok (s_mem (d_sh d)) (d_prog d s) a ->
    (forall x, s_mem shf x = partly (d_prog d s) a (partly (d_prog d (negb s)) (f_acc f (negb s)) (s_mem (d_sh d))) x) ->
    sim (mkFine shf (upd (f_prog f) s (d_prog d s)) (upd (f_acc f) s a) (upd (f_tr f) s (f_tr f s ++ []))) d) as Hstay.
  { intros shf a E1 E2 E3. constructor; cbn [f_sh f_prog f_acc f_tr].
    - exact E1.
    - apply (by_side _ s); rewrite ?upd_eq, ?upd_neq; [reflexivity|apply (sm_prog _ _ M)].
    - apply (by_side _ s); rewrite ?upd_eq, ?upd_neq, ?app_nil_r; apply (sm_tr _ _ M).
    - apply (by_side _ s); rewrite ?upd_eq, ?upd_neq; assumption.
    - intros x. rewrite E3. destruct s; unfold upd; cbn [negb Bool.eqb] in *; [reflexivity|].
      apply partly_comm; auto. exact (fun A B => no_both d true x Hs B A). }
  assert ((forall off len k, d_prog d s <> LRead off len k) -> (forall off bs k, d_prog d s <> LWrite off bs k) ->
    exists d', (d' = d \/ dstep s d d') /\
      sim (mkFine sh (upd (f_prog f) s q) (upd (f_acc f) s acc) (upd (f_tr f) s (f_tr f s ++ t))) d') as Hgen.
  { intros N1 N2.
    assert (fadvance s (f_sh f) (d_prog d s) (f_acc f s) =
      match advance s (f_sh f) (d_prog d s) with Some (sh', p', t0) => Some (sh', p', [], t0) | None => None end) as Hf.
    { destruct (d_prog d s); try reflexivity; [exfalso; eapply N1; reflexivity|exfalso; eapply N2; reflexivity]. }
    rewrite Hf in Ha. clear Hf. destruct (advance s (f_sh f) (d_prog d s)) as [[[sh' p'] t']|] eqn:Hadv; [|discriminate Ha].
    injection Ha as <- <- <- <-. destruct (advance_other _ _ _ _ _ _ (d_sh d) N1 N2 Hk Hadv) as (Em & shd & Hd & Ek & Em').
    eexists. split; [right; exists shd, p', t'; split; [exact Hd|reflexivity]|].
    apply sim_after; [exact M|exact Ek|apply acc_nil|rewrite Em'; exact Hother|left; reflexivity|].
    intros x. rewrite partly_nil, Em, Em', Hmem.
    destruct (d_prog d s); try reflexivity. exfalso. eapply N2. reflexivity. }
  destruct (d_prog d s) as [y|g|r k|r v k|off len k|off bs k|bs k|k|ev k] eqn:Ep;
    try (apply Hgen; intros; discriminate); clear Hgen.
  - (* read *)
    cbn [fadvance] in Ha. cbn [acc_ok] in Hacc. destruct Hacc as [Hc Hl]. set (a := f_acc f s) in *.
    cbn [partly] in Hmem. destruct (in_window off len) eqn:Ew.
    2:{ injection Ha as <- <- <- <-. eexists. split; [right; exists (d_sh d), (Flt OutOfBounds), []; split; [rewrite Ep; cbn [advance]; now rewrite Ew|reflexivity]|].
        apply sim_after; [exact M|exact Hk|reflexivity|exact Hother|left; reflexivity|]. exact Hmem. }
    assert (0 <= len) as Hlen by (unfold in_window in Ew; lia). pose proof (zlen_pos _ a) as Hpa.
    cbn zeta in Ha. set (a' := if zlen a <? len then a ++ [s_mem (f_sh f) (off + zlen a)] else a) in *.
    assert (a' = cells (s_mem (d_sh d)) off (zlen a') /\ zlen a' <= len /\ (zlen a < len -> zlen a' = zlen a + 1)) as (Hc' & Hl' & Hi).
    { unfold a'. destruct (zlen a <? len) eqn:El.
      - rewrite zlen_app. change (zlen [s_mem (f_sh f) (off + zlen a)]) with 1. split; [|lia].
        rewrite cells_app by lia. rewrite <- Hc. f_equal.
        assert (forall m o, cells m o 1 = [m o]) as -> by (intros m o; unfold cells; change (seq 0 (Z.to_nat 1)) with [O]; cbn [map]; change (Z.of_nat 0) with 0; now rewrite Z.add_0_r).
        f_equal. apply (read_byte f d s); auto. rewrite Ep. cbn [touches]. split; [reflexivity|lia].
      - split; [exact Hc|]. destruct Hl as [Hl|[Hl _]]; [|lia]. rewrite Hl in *. unfold zlen in *. cbn in *. lia. }
    destruct (zlen a' <? len) eqn:El'; injection Ha as <- <- <- <-.
    + exists d. split; [left; reflexivity|]. apply Hstay; [exact Hk| |exact Hmem]. cbn [acc_ok]. split; [exact Hc'|]. right. split; [lia|exact Ew].
    + assert (zlen a' = len) as El by lia. rewrite El in Hc'.
      eexists. split; [right; exists (d_sh d), (k a'), [EvLRead off a']; split; [rewrite Ep; cbn [advance]; rewrite Ew, Hc'; reflexivity|reflexivity]|].
      apply sim_after; [exact M|exact Hk|apply acc_nil|exact Hother|left; reflexivity|]. intros x. rewrite partly_nil. exact (Hmem x).
  - (* write *)
    cbn [fadvance] in Ha. cbn [acc_ok] in Hacc. destruct Hacc as (rest & Eb & Hl). set (a := f_acc f s) in *.
    cbn [partly] in Hmem. destruct (in_window off (zlen bs)) eqn:Ew.
    2:{ injection Ha as <- <- <- <-. eexists. split; [right; exists (d_sh d), (Flt OutOfBounds), []; split; [rewrite Ep; cbn [advance]; now rewrite Ew|reflexivity]|].
        apply sim_after; [exact M|exact Hk|reflexivity|exact Hother|left; reflexivity|]. destruct Hl as [Hl|[_ Hl]]; [|discriminate].
        rewrite Hl in Hmem. intros x. rewrite Hmem. apply store_nil. }
    assert (skipn (length a) bs = rest) as Esk by (rewrite Eb, skipn_app, skipn_all, Nat.sub_diag; reflexivity).
    rewrite Esk in Ha.
    (* the write is complete *)
    assert (forall shf, s_kcs shf = s_kcs (d_sh d) ->
      (forall x, s_mem shf x = store (partly (d_prog d (negb s)) (f_acc f (negb s)) (s_mem (d_sh d))) off bs x) ->
      exists d', (d' = d \/ dstep s d d') /\
        sim (mkFine shf (upd (f_prog f) s k) (upd (f_acc f) s []) (upd (f_tr f) s (f_tr f s ++ [EvLWrite off bs]))) d') as Hdone.
    { intros shf E1 E2.
      eexists. split; [right; exists (mkShared (s_kcs (d_sh d)) (store (s_mem (d_sh d)) off bs)), k, [EvLWrite off bs];
        split; [rewrite Ep; cbn [advance]; rewrite Ew; reflexivity|reflexivity]|].
      assert (forall x, off <= x < off + zlen bs -> touches (d_prog d s) true x) as Htw by (intros x Hx; rewrite Ep; cbn [touches]; auto).
      apply sim_after; cbn [s_kcs s_mem]; [exact M|exact E1|apply acc_nil| |left; reflexivity|].
      - destruct (d_prog d (negb s)) as [y|g|r' k'|r' v' k'|off' len' k'|off' bs' k'|bs' k'|k'|ev' k'] eqn:Eo; try exact Hother.
        cbn [acc_ok] in *. destruct Hother as [Hc Hr]. split; [|exact Hr]. rewrite Hc at 1. apply cells_ext. intros x Hx.
        destruct (Z_le_dec off x) as [H1|H1]; [destruct (Z_lt_dec x (off + zlen bs)) as [H2|H2]|]; try (symmetry; apply store_out; lia).
        destruct Hr as [Hr|[Hr _]]; [rewrite Hr in Hx; unfold zlen in Hx; cbn in Hx; lia|].
        destruct (Hs s x false) as (-> & _ & (k1 & W1) & (k2 & W2) & Hz); [apply Htw; lia|rewrite Eo; cbn [touches]; split; [reflexivity|lia]|].
        cbn [negb] in *. rewrite Ep in W1. injection W1 as -> -> _. rewrite Eo in W2. injection W2 as -> -> _.
        change (zlen [0; 3]) with 2 in H2. assert (x = 12) as -> by lia. rewrite Hz. reflexivity.
      - intros x. rewrite partly_nil, E2. destruct (d_prog d (negb s)) as [y|g|r' k'|r' v' k'|off' len' k'|off' bs' k'|bs' k'|k'|ev' k'] eqn:Eo; try reflexivity.
        cbn [partly acc_ok] in *. destruct Hother as (rest' & Eb' & _). apply store_comm. intros [H1 H2].
        apply (no_both d s x Hs); [apply Htw; lia|]. rewrite Eo. cbn [touches]. split; [reflexivity|].
        rewrite Eb', zlen_app. pose proof (zlen_pos _ rest'). lia. }
    destruct rest as [|v rest'].
    + injection Ha as <- <- <- <-. assert (a = []) as Ea by (destruct Hl as [Hl|[Hl _]]; congruence).
      apply Hdone; [exact Hk|]. intros x. rewrite Hmem. rewrite Eb, Ea. reflexivity.
    + assert (forall x, store (s_mem (f_sh f)) (off + zlen a) [v] x =
        store (partly (d_prog d (negb s)) (f_acc f (negb s)) (s_mem (d_sh d))) off (a ++ [v]) x) as Hsn.
      { intros x. rewrite <- store_snoc. apply store_ext. exact Hmem. }
      destruct rest' as [|v' rest'']; cbn zeta in Ha; injection Ha as <- <- <- <-.
      * apply Hdone; [exact Hk|]. cbn [s_mem]. rewrite Eb. exact Hsn.
      * exists d. split; [left; reflexivity|]. apply Hstay; [exact Hk| |exact Hsn]. cbn [acc_ok]. exists (v' :: rest'').
        split; [rewrite Eb, <- app_assoc; reflexivity|]. right. split; [discriminate|exact Ew].
Qed.

(** ** Sessions *)
Lemma sim_call f d s w o p : sim f d -> f_prog f s = Ret w -> sim (fbegin s w o p f) (begin_call s w o p d).
Proof.
  intros M E. rewrite (sm_prog _ _ M) in E. pose proof (sm_acc _ _ M s) as Ha. rewrite E in Ha. cbn [acc_ok] in Ha.
  unfold fbegin, begin_call. constructor; cbn [f_sh f_prog f_acc f_tr d_sh d_prog d_tr].
  - exact (sm_kcs _ _ M).
  - apply (by_side _ s); rewrite ?upd_eq, ?upd_neq; [reflexivity|apply (sm_prog _ _ M)].
  - exact (sm_tr _ _ M).
  - apply (by_side _ s); rewrite ?upd_eq, ?upd_neq; [rewrite Ha; apply acc_nil|apply (sm_acc _ _ M)].
  - intros x. rewrite (sm_mem _ _ M x). destruct s; unfold upd; cbn [Bool.eqb]; rewrite E, Ha; cbn [partly].
    + now rewrite partly_nil.
    + apply partly_ext. intros y. now rewrite partly_nil.
Qed.

Lemma kept_safe p d : sized p -> kept_inv p d -> safe d.
Proof. intros Hs (gb & gh & HY & _). destruct (sized_range p Hs) as [HN HS]. exact (sys_safe _ _ _ _ _ _ HN HS HY). Qed.

Lemma sim_moves p f q g d : fmoves p f q g -> sim f d -> sized p -> kept_inv p d -> exists e, moves p d q e /\ sim g e.
Proof.
  intros F M Hs HK. induction F as [|s q f1 f2 F IH Hf|s o w q f1 F IH E Eb Ho].
  - exists d. split; [apply MvRefl|exact M].
  - destruct IH as (e & Me & Se).
    assert (safe e) as He by exact (kept_safe q e (sized_setup _ _ (moves_setup _ _ _ _ Me) Hs) (kept_moves _ _ _ _ Me Hs HK)).
    destruct (sim_step _ _ _ _ Se He Hf) as (e' & [->|H] & S'); [exists e; auto|].
    exists e'. split; [eapply MvStep; eassumption|exact S'].
  - destruct IH as (e & Me & Se). exists (begin_call s w o q e). split; [|now apply sim_call].
    eapply MvCall; [exact Me| |exact Eb|exact Ho]. now rewrite <- (sm_prog _ _ Se).
Qed.

Lemma sim_start p idr odr mem : sim (fine_start p idr odr mem) (duo_start p idr odr mem).
Proof.
  unfold fine_start. constructor; cbn [f_sh f_prog f_acc f_tr]; intros.
  1-3: reflexivity.
  - apply acc_nil.
  - now rewrite !partly_nil.
Qed.

Lemma sim_session p f : fsession p f -> compatible p -> exists d, session p d /\ sim f d.
Proof.
  intros (p0 & idr & odr & mem & Hc & Hu & F) Hcp.
  assert (forall q g, fmoves p0 (fine_start p0 idr odr mem) q g -> p_mtu (q true) = p_mtu (p0 true) /\ p_mtu (q false) = p_mtu (p0 false)) as Hm.
  { clear. induction 1 as [|s q f1 f2 F IH Hf|s o w q f1 F IH E Eb Ho]; auto. destruct s; unfold upd; cbn; exact IH. }
  destruct (Hm _ _ F) as [E1 E2].
  assert (compatible p0) as Hc0 by (unfold compatible in *; now rewrite <- E1, <- E2).
  assert (session p0 (duo_start p0 idr odr mem)) as H0.
  { exists p0, idr, odr, mem. split; [exact Hc|]. split; [exact Hu|apply MvRefl]. }
  destruct (kept_session _ _ H0 Hc0) as [Hs HK].
  destruct (sim_moves _ _ _ _ _ F (sim_start p0 idr odr mem) Hs HK) as (e & Me & Se).
  exists e. split; [|exact Se]. exact (session_moves _ _ _ _ H0 Me).
Qed.

(** ** C69 *)

(** Every state that can arise when window accesses take effect byte by byte corresponds to
    one that arises when they are undivided: the same is left to do, the same has been
    done, the registers are the same, and so is every byte of the window that nobody is
    in the middle of writing. *)
Theorem C69_refines p f : fsession p f -> compatible p -> exists d, session p d /\
  (forall s, f_prog f s = d_prog d s) /\ (forall s, f_tr f s = d_tr d s) /\ s_kcs (f_sh f) = s_kcs (d_sh d) /\
  forall x, (forall s, ~ touches (d_prog d s) true x) -> s_mem (f_sh f) x = s_mem (d_sh d) x.
Proof.
  intros F Hc. destruct (sim_session p f F Hc) as (d & Hd & M). exists d. split; [exact Hd|].
  split; [exact (sm_prog _ _ M)|]. split; [exact (sm_tr _ _ M)|]. split; [exact (sm_kcs _ _ M)|].
  intros x Hx. rewrite (sm_mem _ _ M x).
  pose proof (sm_acc _ _ M true) as Ha. pose proof (sm_acc _ _ M false) as Hb.
  assert (forall m, partly (d_prog d true) (f_acc f true) m x = m x) as ->.
  { intros m. specialize (Hx true). destruct (d_prog d true); try reflexivity. cbn [partly touches acc_ok] in *.
    destruct Ha as (rest & -> & _). rewrite zlen_app in Hx. pose proof (zlen_pos _ rest) as Hp. apply store_out.
    intros Hin. apply Hx. split; [reflexivity|lia]. }
  apply partly_off; [exact Hb|apply Hx].
Qed.

(** The vocabulary of the other statements, applied to a state of this machine. *)
Definition seen (f : fine) : duo := mkDuo (f_sh f) (f_prog f) (f_tr f).

Theorem C69_no_fault p f : fsession p f -> compatible p -> forall s e, f_prog f s <> Flt e.
Proof.
  intros F Hc s e E. destruct (sim_session p f F Hc) as (d & Hd & M). rewrite (sm_prog _ _ M) in E.
  destruct (kept_session _ _ Hd Hc) as [_ (gb & gh & (W & _) & _)]. specialize (W s). rewrite E in W. exact W.
Qed.

(** As C38_delivery. *)
Theorem C69_delivery p f : fsession p f -> compatible p -> forall s,
  exists rest, offered (f_tr f s) = received (f_tr f (negb s)) ++ rest /\ zlen rest <= 2.
Proof.
  intros F Hc s. destruct (sim_session p f F Hc) as (d & Hd & M). rewrite !(sm_tr _ _ M).
  destruct (kept_session _ _ Hd Hc) as [_ (gb & gh & HY & _)]. exact (delivery_sys _ _ _ _ _ _ HY s).
Qed.

(** As C37_exclusive; a side that has done some bytes of an access still counts as
    accessing all of them. *)
Theorem C69_exclusive p f : fsession p f -> compatible p -> forall x wb wh,
  touches (f_prog f true) wb x -> touches (f_prog f false) wh x ->
  x < 256 /\ (wb = false /\ wh = false \/ (12 <= x < 14 /\ wb = true /\ wh = false)).
Proof.
  intros F Hc x wb wh. destruct (sim_session p f F Hc) as (d & Hd & M). rewrite !(sm_prog _ _ M).
  destruct (kept_session _ _ Hd Hc) as [Hs (gb & gh & HY & _)]. destruct (sized_range p Hs) as [HN HS].
  exact (exclusive_sys _ _ _ _ _ _ HN HS HY x wb wh).
Qed.

Lemma session_runs p d e : session p d -> runs d e -> session p e.
Proof. intros H R. induction R as [|s d a b R IH Hd]; [exact H|]. eapply session_moves; [exact (IH H)|]. eapply MvStep; [apply MvRefl|exact Hd]. Qed.

Lemma session_past p d i : session p d -> compatible p -> has_past p d i.
Proof.
  intros Hd Hc. destruct (finish i (d_prog d i) d eq_refl) as (e & w & t & R & E & Et).
  { intros d' R f E. destruct (kept_session _ _ (session_runs _ _ _ Hd R) Hc) as [_ (gb & gh & (W & _) & _)].
    specialize (W i). rewrite E in W. exact W. }
  exists w, t. rewrite <- Et. destruct (kept_session _ _ (session_runs _ _ _ Hd R) Hc) as [_ (gb & gh & (W & _ & T) & _)].
  specialize (W i). rewrite E in W. cbn [wp] in W. unfold Fin_ok in W. rewrite <- (T i).
  destruct (bd_bus (bnd w false)); [left; exact (proj1 W)|right; exact W].
Qed.

(** As C56_in_order: the messages the application of a side has been given are the first of
    those the other has asked to transmit to it. *)
Theorem C69_in_order p f s : fsession p f -> compatible p -> p_mtu (p false) <= 4096 -> p_eid (p s) <> 0 ->
  listening (p_calls (p (negb s))) -> Forall (fun r => zlen (r_msg r) <= 65536) (said_by p (seen f) s) ->
  exists rest, due p (seen f) s = heard (f_tr f (negb s)) ++ rest.
Proof.
  intros F Hc Hmtu Heid Hl Hsz. destruct (sim_session p f F Hc) as (d & Hd & M).
  unfold due, said_by, seen in *. cbn [d_tr] in *. rewrite !(sm_tr _ _ M) in *.
  destruct (kept_session _ _ Hd Hc) as [_ (gb & gh & HY & _)]. destruct (delivery_sys _ _ _ _ _ _ HY s) as (rest & Hr & _).
  exact (in_order p d s Hc Hmtu Heid Hl Hsz rest (fun i => session_past p d i Hd Hc) Hr).
Qed.

(** As C68_asleep and C68_heard. *)
Lemma sim_sleeps f d s : sim f d -> sleeps (seen f) s -> sleeps d s.
Proof.
  intros M (w & E & Eb & Hr). unfold seen in *. cbn [d_prog d_sh] in *. rewrite (sm_prog _ _ M) in E. rewrite (sm_kcs _ _ M) in Hr.
  exists w. auto.
Qed.
Theorem C69_asleep p f : fsession p f -> compatible p -> (forall s, enabled (seen f) s) -> (forall s, sleeps (seen f) s) ->
  forall s, received (f_tr f (negb s)) = accepted (seen f) s /\ offered (f_tr f s) = accepted (seen f) s /\
            unread s (s_kcs (f_sh f)) = None.
Proof.
  intros F Hc Hen Hsl s. destruct (sim_session p f F Hc) as (d & Hd & M).
  assert (forall i, enabled d i) as Hen' by (intros i; unfold enabled; rewrite <- (sm_tr _ _ M); apply Hen).
  assert (forall i, sleeps d i) as Hsl' by (intros i; exact (sim_sleeps _ _ _ M (Hsl i))).
  unfold accepted, seen. cbn [d_tr]. rewrite !(sm_tr _ _ M), (sm_kcs _ _ M). exact (C68_asleep p d Hd Hc Hen' Hsl' s).
Qed.
Theorem C69_heard p f s : fsession p f -> compatible p -> (forall i, enabled (seen f) i) -> (forall i, sleeps (seen f) i) ->
  p_mtu (p false) <= 4096 -> p_eid (p s) <> 0 -> Forall (fun r => zlen (r_msg r) <= 65536) (said_by p (seen f) s) ->
  listening (p_calls (p (negb s))) ->
  heard (f_tr f (negb s)) = due p (seen f) s.
Proof.
  intros F Hc Hen Hsl Hmtu Heid Hsz Hl. destruct (sim_session p f F Hc) as (d & Hd & M).
  assert (forall i, enabled d i) as Hen' by (intros i; unfold enabled; rewrite <- (sm_tr _ _ M); apply Hen).
  assert (forall i, sleeps d i) as Hsl' by (intros i; exact (sim_sleeps _ _ _ M (Hsl i))).
  unfold due, said_by, seen in *. cbn [d_tr] in *. rewrite !(sm_tr _ _ M) in *.
  exact (C68_heard p d s Hd Hc Hen' Hsl' Hmtu Heid Hsz Hl).
Qed.
