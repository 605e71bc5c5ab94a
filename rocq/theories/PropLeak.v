(** PropLeak: a damaged serial frame costs exactly one packet buffer (C89). *)
From Coq Require Import Permutation.
From Verif Require Import Base Lists Prog PktBuf Core WP Walk CoreRel WalkCore CoreHist Spec Trace PropTx
  Crc Serial SpecSer SerRx SerWalk PropSer.

Local Notation world := (world serial).

(** ** Specification *)
(** [s] is noise without flags, repeated flags and complete frames; [n] of the frames have
    a wrong check value or something else than a flag at the end. *)
Inductive damaged_in : list Z -> nat -> Prop :=
| DNone gap : ~ In 126 gap -> damaged_in gap 0
| DFrame gap k raw body hi lo c rest n : ~ In 126 gap -> unescaped raw body -> 4 <= zlen body <= 68 ->
    damaged_in rest n ->
    damaged_in (gap ++ repeat 126 k ++ ([126; 1; zlen body] ++ raw ++ [hi; lo; c]) ++ rest)
               (if (hi * 256 + lo =? fcs body) && (c =? 126) then n else S n).

(** ** The same for the byte machine *)
Definition lost1 (r : rcv) (c : Z) : nat :=
  match r with End bs f => if (f =? fcs bs) && (c =? 126) then 0%nat else 1%nat | _ => 0%nat end.
Fixpoint damaged (r : rcv) (s : list Z) : nat :=
  match s with [] => 0%nat | c :: s => (lost1 r c + damaged (rnext r c) s)%nat end.
Definition inside (r : rcv) : nat := match r with Idle | Rev | Len => 0%nat | _ => 1%nat end.

Lemma damaged_app a b : forall r, damaged r (a ++ b) = (damaged r a + damaged (rrun r a) b)%nat.
Proof.
  induction a as [|c a IH]; intros r; [reflexivity|]. cbn [Datatypes.app damaged rrun fold_left]. rewrite IH. unfold rrun. lia.
Qed.

Lemma damaged_gap gap : ~ In 126 gap -> damaged Idle gap = 0%nat.
Proof.
  induction gap as [|c gap IH]; intros Hn; [reflexivity|]. cbn [damaged lost1 rnext].
  replace (c =? 126) with false by (symmetry; apply Z.eqb_neq; intros ->; apply Hn; left; reflexivity).
  apply IH. intros Hin. apply Hn. right. exact Hin.
Qed.
Lemma damaged_flags k s : damaged Idle (repeat 126 k ++ 126 :: s) = damaged Idle (126 :: s).
Proof.
  induction k as [|k IH]; [reflexivity|]. cbn [repeat Datatypes.app]. destruct k as [|k]; [reflexivity|].
  cbn [repeat Datatypes.app] in *. rewrite <- IH. reflexivity.
Qed.
Lemma damaged_body len raw rest : unescaped raw rest -> forall done, zlen (done ++ rest) = len ->
  rest <> [] -> damaged (Data len done false) raw = 0%nat.
Proof.
  assert (Hpush : forall raw rest x done, unescaped raw rest ->
     (forall done, zlen (done ++ rest) = len -> rest <> [] -> damaged (Data len done false) raw = 0%nat) ->
     zlen (done ++ x :: rest) = len -> damaged (rpush len done x) raw = 0%nat).
  { intros r0 rest0 x done Hu IH Hl. unfold rpush. destruct rest0 as [|c' rest0].
    - inversion Hu; subst. reflexivity.
    - replace (zlen (done ++ [x]) =? len) with false.
      2:{ rewrite <- Hl, !zlen_app, !zlen_cons. pose proof (zlen_pos _ rest0). cbn [zlen length Z.of_nat]. lia. }
      specialize (IH (done ++ [x])). rewrite <- app_assoc in IH. cbn [app] in IH.
      apply IH; [exact Hl|discriminate]. }
  induction 1 as [|c raw rest Hc Hu IH|c raw rest Hu IH]; intros done Hl Hne; [congruence| |].
  - cbn [damaged lost1 rnext]. replace (c =? 125) with false by lia. apply (Hpush raw rest c done); auto.
  - cbn [damaged lost1 rnext]. change (125 =? 125) with true. cbv iota. cbn [lost1 rnext].
    apply (Hpush raw rest (Z.lxor c 32) done); auto.
Qed.
Lemma damaged_frame raw body hi lo c : unescaped raw body -> 4 <= zlen body <= 68 ->
  damaged Idle ([126; 1; zlen body] ++ raw ++ [hi; lo; c]) = if (hi * 256 + lo =? fcs body) && (c =? 126) then 0%nat else 1%nat.
Proof.
  intros Hu Hl. assert (body <> []) as Hne by (intros ->; cbn in Hl; lia).
  destruct (rrun_header (zlen body) Hl) as [E1 _]. destruct (rrun_body (zlen body) raw body Hu [] eq_refl Hne) as [E2 _].
  pose proof (damaged_body _ raw body Hu [] eq_refl Hne) as E3. change (zlen ([] ++ body)) with (zlen body) in E3.
  rewrite damaged_app, E1, damaged_app, E2, E3. cbn [Datatypes.app].
  cbn [damaged lost1 rnext]. change (rnext Idle 126) with Rev. cbn. lia.
Qed.

Lemma damaged_spec s n : damaged_in s n -> damaged Idle s = n /\ rrun Idle s = Idle.
Proof.
  induction 1 as [gap Hg|gap k raw body hi lo c rest n Hg Hu Hl Hd [IH1 IH2]].
  - split; [now apply damaged_gap|]. apply rrun_gap, Hg.
  - destruct (rrun_gap gap Hg) as [E1 _]. rewrite damaged_app, rrun_app, E1, (damaged_gap gap Hg).
    change (([126; 1; zlen body] ++ raw ++ [hi; lo; c]) ++ rest) with (126 :: ([1; zlen body] ++ raw ++ [hi; lo; c]) ++ rest).
    rewrite damaged_flags. destruct (rrun_flags k (([1; zlen body] ++ raw ++ [hi; lo; c]) ++ rest)) as [-> _].
    change (126 :: ([1; zlen body] ++ raw ++ [hi; lo; c]) ++ rest) with (([126; 1; zlen body] ++ raw ++ [hi; lo; c]) ++ rest).
    assert (rrun Idle ([126; 1; zlen body] ++ raw ++ [hi; lo; c]) = Idle) as E.
    { rewrite rrun_app, (proj1 (rrun_header (zlen body) Hl)). apply rrun_rest; assumption. }
    rewrite damaged_app, (rrun_app Idle _ rest), !E, damaged_frame, IH1 by assumption. split; [|exact IH2].
    destruct ((hi * 256 + lo =? fcs body) && (c =? 126)); reflexivity.
Qed.

(** ** The receiver *)
Lemma rof_inside s : swf s -> length (opt_ids (pid s)) = inside (rof s).
Proof.
  intros Hs. apply rof_pid in Hs. destruct (rof s); cbn [inside]; (rewrite Hs; reflexivity) || (destruct Hs as (n & ->); reflexivity).
Qed.
Lemma leaves r c : rout r c = [] -> (inside r = inside (rnext r c) + lost1 r c \/ inside r = 0 /\ lost1 r c = 0)%nat.
Proof.
  destruct r as [| | |len bs [|]|bs|bs hi|bs f]; cbn [rout lost1 inside rnext]; intros Ho; auto.
  - left. unfold rpush. destruct (_ =? _); reflexivity.
  - left. destruct (c =? 125); [reflexivity|]. unfold rpush. destruct (_ =? _); reflexivity.
  - left. destruct ((f =? fcs bs) && (c =? 126)); [discriminate|reflexivity].
Qed.

Section Leak.
Context (fuel : nat) (app : event -> list txreq) (m : mode) (Hfuel : (256 <= fuel)%nat).

Definition lossm (w : world) (o : mop) : nat := match o with MByte i c => lost1 (rst w i) c | MOp _ => 0%nat end.

Lemma I26_mrel_n (w : world) o t w' : SI m w -> mtraffic m o -> mrel w o t w' -> forall L tr, I26 L tr w ->
  exists L', I26 (L' ++ L) (tr ++ t) w' /\ length L' = lossm w o.
Proof.
  intros Hsi Ht Hr L tr Hi. destruct Hr as [o t w' Hr Hp|i c t w' Hr].
  - destruct (I13_op m _ _ _ _ _ Hr Ht tr Hi) as [P1 I1]. exists []. split; [|reflexivity].
    unfold I26. rewrite (rx_ids_same _ _ Hp). exact I1.
  - pose proof (si_swf _ _ Hsi i) as Hsw. cbn [lossm].
    destruct Hr as [s' s S1 S2 S3 S4|s' s S1 S2 S3 S4 S5|p bs ap t w1 s' s Ep Hp Hr Hsp S1 S2 S3 S4]; fold s in Hsw;
      change (rst w i) with (rof s).
    + rewrite app_nil_r. pose proof (rof_inside _ Hsw) as H1. pose proof (rof_inside _ S1) as H2. rewrite S2 in H2.
      pose proof (leaves _ _ S3) as H3. destruct S4 as [S4|S4].
      * exists []. split.
        -- unfold I26. cbn [Datatypes.app]. apply I13_put. eapply I13_perm; [|exact Hi].
           apply Permutation_app_head. rewrite rx_ids_put, (rx_ids_get w i). fold s. rewrite S4. reflexivity.
        -- rewrite S4 in H2. cbn [length]. lia.
      * exists (opt_ids (pid s)). split.
        -- unfold I26. apply I13_put. eapply I13_perm; [|exact Hi].
           rewrite rx_ids_put, (rx_ids_get w i). fold s. rewrite S4. cbn [opt_ids Datatypes.app].
           rewrite <- !app_assoc. rewrite Permutation_app_swap_app. reflexivity.
        -- rewrite S4 in H2. cbn [opt_ids length] in H2. lia.
    + destruct (I13_next fuel Hfuel _ _ _ Hi) as [Hf I1]. exists []. split.
      * unfold I26. cbn [Datatypes.app]. apply I13_put. eapply I13_perm; [|exact I1].
        rewrite rx_ids_put, (rx_ids_get w i). fold s. rewrite S4, S5. cbn [opt_ids Datatypes.app].
        rewrite bnd_nextw. apply Permutation_middle.
      * pose proof (rof_inside _ Hsw) as H1. rewrite S4 in H1. cbn [opt_ids length] in *.
        destruct (rof s); cbn in *; congruence.
    + destruct (rx_rel_steps _ _ _ _ _ _ Hr) as (cs & b & t1 & Hs & Hb & ->).
      set (L0 := L ++ opt_ids (pid (bd_priv (bnd w (negb i))))).
      assert (I13 L0 (Some (pk_id p)) tr w) as I1.
      { destruct Hi as [H1 H2 H3 H4]. constructor; auto.
        - rewrite H1. apply Permutation_app_head. apply Permutation_app_tail. unfold held, L0. cbn [held_ids].
          rewrite app_nil_r, <- app_assoc. apply Permutation_app_head. rewrite (rx_ids_get w i). fold s.
          unfold pid at 1. rewrite Ep. cbn [option_map opt_ids Datatypes.app]. apply Permutation_cons_append.
        - intros j lo n b0 Hin. destruct (H4 _ _ _ _ Hin) as [?|?]; [auto|discriminate]. }
      set (e1 := EvBusRx i (busrx_local w b) (pk_id p) bs).
      assert (I13 L0 (Some (pk_id p)) (tr ++ [e1]) w) as I2.
      { eapply I13_quiet; [exact I1| | | | |]; try reflexivity. unfold e1. congruence. }
      assert (I13 L0 (Some (pk_id p)) (tr ++ [e1]) (setc w cs)) as I3.
      { eapply I13_cfg; [exact I2|reflexivity|reflexivity]. }
      destruct (inv_steps _ _ (I13_note L0 _) (I13_enq L0 _) (I13_tx L0 _) _ _ _ Hs _ I3) as [P4 I4].
      destruct (I13_free _ _ _ _ I4) as [P5 I5].
      { exists i, (busrx_local w b), bs. rewrite !in_app_iff. cbn. auto. }
      exists []. split.
      * unfold I26. cbn [Datatypes.app]. apply I13_put. rewrite <- !app_assoc in I5. cbn [Datatypes.app] in I5.
        eapply I13_perm; [|exact I5]. unfold L0. apply Permutation_app_head. rewrite rx_ids_put, S4.
        rewrite Hsp. reflexivity.
      * cbn [length]. destruct (rof s); cbn in S3 |- *; try reflexivity. destruct (_ && _); [reflexivity|discriminate].
Qed.

Lemma I26_mhist_n (w : world) l t w' : mhist m w l t w' -> forall L tr, I26 L tr w ->
  exists L', I26 (L' ++ L) (tr ++ t) w' /\
    length L' = (damaged (rst w false) (mfed false l) + damaged (rst w true) (mfed true l))%nat.
Proof.
  induction 1 as [w|w o t1 w1 l t2 w2 Hw Ho Hr Hw1 Hh IH]; intros L tr Hi.
  - exists []. rewrite app_nil_r. split; [exact Hi|reflexivity].
  - destruct (I26_mrel_n _ _ _ _ Hw Ho Hr _ _ Hi) as (L1 & I1 & N1).
    destruct (IH _ _ I1) as (L2 & I2 & N2).
    exists (L2 ++ L1). rewrite <- app_assoc, app_assoc with (l := tr). split; [exact I2|].
    assert (forall i, mfed i (o :: l) = mfed i [o] ++ mfed i l) as Ef.
    { intros i. unfold mfed. cbn [flat_map]. now rewrite app_nil_r. }
    rewrite !Ef, !damaged_app, app_length, N1, N2.
    destruct (mrel_rst m _ _ _ _ false Ho Hr) as [<- _]. destruct (mrel_rst m _ _ _ _ true Ho Hr) as [<- _].
    assert (lossm w o = damaged (rst w false) (mfed false [o]) + damaged (rst w true) (mfed true [o]))%nat as ->; [|lia].
    destruct o as [o|[] c]; cbn [lossm mfed flat_map Bool.eqb Datatypes.app damaged]; lia.
Qed.

(** Whatever arrives: buffers allocated are freed, lost, holding the frame being received,
    or queued; as many are lost as frames were damaged. *)
Lemma books l : Forall (ser_traffic m) l ->
  always no_oom (ser_history fuel app m l) (fun w tr =>
    exists lost half, Permutation (allocs tr) (frees tr ++ lost ++ half ++ map fst (queued w false) ++ map fst (queued w true)) /\
      length lost = (damaged Idle (fed false l) + damaged Idle (fed true l))%nat /\
      length half = (inside (rrun Idle (fed false l)) + inside (rrun Idle (fed true l)))%nat).
Proof.
  intros Hl. eapply always_mono; [|exact (ser_history_spec fuel app m Hfuel l Hl)].
  intros w tr (t & -> & Hh & Hsi). destruct (I26_mhist_n _ _ _ _ Hh [] _ (I26_boot m)) as (L & [Hp _ _ _] & N).
  exists L, (rx_ids w). rewrite !mfed_micro in N.
  assert (forall i, rst (ser_booted m) i = Idle) as E0 by (destruct m, i; reflexivity).
  rewrite !E0 in N. split; [|split; [exact N|]].
  - rewrite Hp. unfold held, queued_ids. cbn [held_ids]. rewrite !app_nil_r, <- !app_assoc. reflexivity.
  - unfold rx_ids. rewrite app_length, !(rof_inside _ (si_swf _ _ Hsi _)).
    destruct (mhist_rst _ _ _ _ _ false Hh) as [E1 _]. destruct (mhist_rst _ _ _ _ _ true Hh) as [E2 _].
    rewrite !mfed_micro, E0 in *. unfold rst in *. rewrite E1, E2. reflexivity.
Qed.

(** *** C89.  An endpoint or bridge has been fed complete frames, with noise and repeated flags between
    them, in any chunks, while it did anything else; [n0] frames on line 0 and [n1] on line 1
    were damaged.  Every packet buffer allocated so far has been freed or is queued, except exactly
    [n0 + n1] of them. *)
Theorem C89_leak l n0 n1 : Forall (ser_traffic m) l -> damaged_in (fed false l) n0 -> damaged_in (fed true l) n1 ->
  always no_oom (ser_history fuel app m l) (fun w tr => exists lost,
    Permutation (allocs tr) (frees tr ++ lost ++ map fst (queued w false) ++ map fst (queued w true)) /\
    length lost = (n0 + n1)%nat).
Proof.
  intros Hl H0 H1. eapply always_mono; [|exact (books l Hl)]. intros w tr (lost & half & Hp & N & M).
  destruct (damaged_spec _ _ H0) as [D0 R0]. destruct (damaged_spec _ _ H1) as [D1 R1].
  rewrite R0, R1 in M. destruct half; [|discriminate]. exists lost. split; [exact Hp|]. rewrite N, D0, D1. reflexivity.
Qed.

(** In particular nothing is lost if every frame was intact. *)
Theorem C89_clean l : Forall (ser_traffic m) l -> damaged_in (fed false l) 0 -> damaged_in (fed true l) 0 ->
  always no_oom (ser_history fuel app m l) (fun w tr =>
    Permutation (allocs tr) (frees tr ++ map fst (queued w false) ++ map fst (queued w true))).
Proof.
  intros Hl H0 H1. eapply always_mono; [|exact (C89_leak l 0 0 Hl H0 H1)]. intros w tr (lost & Hp & N).
  destruct lost; [exact Hp|discriminate].
Qed.

(** At most one buffer per line is held by a frame that has begun and not ended: no byte
    stream makes the receiver keep more. *)
Theorem C89_half l : Forall (ser_traffic m) l ->
  always no_oom (ser_history fuel app m l) (fun w tr => exists lost half,
    Permutation (allocs tr) (frees tr ++ lost ++ half ++ map fst (queued w false) ++ map fst (queued w true)) /\
    (length half <= 2)%nat /\ (length lost <= length (fed false l) + length (fed true l))%nat).
Proof.
  intros Hl. eapply always_mono; [|exact (books l Hl)]. intros w tr (lost & half & Hp & N & M).
  exists lost, half. split; [exact Hp|].
  assert (forall s r, damaged r s <= length s)%nat as Hd.
  { induction s as [|c s IH]; intros r; [reflexivity|]. cbn [damaged length]. specialize (IH (rnext r c)).
    assert (lost1 r c <= 1)%nat by (destruct r; cbn; try lia; destruct (_ && _); lia). lia. }
  pose proof (Hd (fed false l) Idle). pose proof (Hd (fed true l) Idle).
  assert (forall r, inside r <= 1)%nat as Hin by (intros []; cbn; lia).
  pose proof (Hin (rrun Idle (fed false l))). pose proof (Hin (rrun Idle (fed true l))). lia.
Qed.
End Leak.
