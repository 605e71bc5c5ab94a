(** SerRx: the serial receiver as a state machine over the bytes of the stream, and
    its facts (pure part). *)
From Verif Require Import Base Lists Prog PktBuf Core CoreHist Crc Serial SpecSer.

Inductive rcv :=
| Idle | Rev | Len
| Data (len : Z) (bs : list Z) (esc : bool)
| Fcs1 (bs : list Z) | Fcs2 (bs : list Z) (hi : Z) | End (bs : list Z) (f : Z).

Definition rpush (len : Z) (bs : list Z) (c : Z) : rcv :=
  if zlen (bs ++ [c]) =? len then Fcs1 (bs ++ [c]) else Data len (bs ++ [c]) false.

Definition rnext (r : rcv) (c : Z) : rcv :=
  match r with
  | Idle => if c =? 126 then Rev else Idle
  | Rev => if c =? 1 then Len else if c =? 126 then Rev else Idle
  | Len => if (68 <? c) || (c <? 4) then Idle else Data c [] false
  | Data len bs false => if c =? 125 then Data len bs true else rpush len bs c
  | Data len bs true => rpush len bs (Z.lxor c 32)
  | Fcs1 bs => Fcs2 bs c
  | Fcs2 bs hi => End bs (hi * 256 + c)
  | End _ _ => Idle
  end.
Definition rout (r : rcv) (c : Z) : list (list Z) :=
  match r with
  | End bs f => if (f =? fcs bs) && (c =? 126) then [bs] else []
  | _ => []
  end.
Definition rrun (r : rcv) (s : list Z) : rcv := fold_left rnext s r.
Fixpoint routs (r : rcv) (s : list Z) : list (list Z) :=
  match s with [] => [] | c :: s => rout r c ++ routs (rnext r c) s end.

Lemma rrun_app r a b : rrun r (a ++ b) = rrun (rrun r a) b.
Proof. apply fold_left_app. Qed.
Lemma routs_app r a b : routs r (a ++ b) = routs r a ++ routs (rrun r a) b.
Proof.
  revert r. induction a as [|c a IH]; intros r; [reflexivity|]. cbn [app routs]. rewrite IH, app_assoc. reflexivity.
Qed.

(** ** Receiving a frame *)
Lemma zlen_snoc A (l : list A) x : zlen (l ++ [x]) = zlen l + 1.
Proof. rewrite zlen_app. reflexivity. Qed.

Lemma rrun_body len raw rest : unescaped raw rest -> forall done, zlen (done ++ rest) = len ->
  rest <> [] ->
  rrun (Data len done false) raw = Fcs1 (done ++ rest) /\
  routs (Data len done false) raw = [].
Proof.
  assert (Hpush : forall raw rest x done, unescaped raw rest ->
     (forall done, zlen (done ++ rest) = len -> rest <> [] ->
        rrun (Data len done false) raw = Fcs1 (done ++ rest) /\ routs (Data len done false) raw = []) ->
     zlen (done ++ x :: rest) = len ->
     rrun (rpush len done x) raw = Fcs1 (done ++ x :: rest) /\ routs (rpush len done x) raw = []).
  { intros r0 rest0 x done Hu IH Hl. unfold rpush. destruct rest0 as [|c' rest0].
    - inversion Hu; subst. rewrite Z.eqb_refl. auto.
    - replace (zlen (done ++ [x]) =? len) with false.
      2:{ rewrite <- Hl, !zlen_app, !zlen_cons. pose proof (zlen_pos _ rest0). cbn [zlen length Z.of_nat]. lia. }
      specialize (IH (done ++ [x])). rewrite <- app_assoc in IH. cbn [app] in IH |- *.
      apply IH; [exact Hl|discriminate]. }
  induction 1 as [|c raw rest Hc Hu IH|c raw rest Hu IH]; intros done Hl Hne; [congruence| |].
  - cbn [rrun fold_left routs rnext rout app]. replace (c =? 125) with false by lia. apply Hpush; auto.
  - cbn [rrun fold_left routs rnext rout app]. change (125 =? 125) with true. cbv iota. cbn [rnext].
    apply Hpush; auto.
Qed.

(** Up to and including the last byte of a frame, whatever its check value and end
    byte. *)
Lemma rrun_header len : 4 <= len <= 68 ->
  rrun Idle [126; 1; len] = Data len [] false /\ routs Idle [126; 1; len] = [].
Proof.
  intros Hl. split; [|reflexivity]. cbn [rrun fold_left]. change (rnext (rnext Idle 126) 1) with Len. cbn [rnext].
  replace ((68 <? len) || (len <? 4)) with false by lia. reflexivity.
Qed.
Lemma rrun_rest raw body hi lo c : unescaped raw body -> 4 <= zlen body <= 68 ->
  rrun (Data (zlen body) [] false) (raw ++ [hi; lo; c]) = Idle /\
  routs (Data (zlen body) [] false) (raw ++ [hi; lo; c]) =
    if (hi * 256 + lo =? fcs body) && (c =? 126) then [body] else [].
Proof.
  intros Hu Hl. destruct (rrun_body (zlen body) raw body Hu [] eq_refl) as [H1 H2].
  { intros ->. cbn in Hl. lia. }
  cbn [app] in H1. rewrite !rrun_app, !routs_app, H1, H2. cbn [rrun fold_left routs rnext rout app].
  split; [reflexivity|]. destruct ((hi * 256 + lo =? fcs body) && (c =? 126)); reflexivity.
Qed.

Lemma rrun_frame f body : frame f body -> rrun Idle f = Idle /\ routs Idle f = [body].
Proof.
  intros (raw & hi & lo & -> & Hu & Hl & Hf).
  destruct (rrun_header (zlen body) Hl) as [E1 E2]. destruct (rrun_rest raw body hi lo 126 Hu Hl) as [E3 E4].
  rewrite !rrun_app, !routs_app, E1, E2. rewrite rrun_app in E3. rewrite routs_app in E4.
  rewrite E3, E4, Hf, Z.eqb_refl. auto.
Qed.

Lemma unescaped_esc body : unescaped (flat_map esc body) body.
Proof.
  induction body as [|c body IH]; [constructor|]. cbn [flat_map]. unfold esc at 1.
  destruct ((c =? 126) || (c =? 125)) eqn:E; cbn [app].
  - pose proof (UEsc (Z.lxor c 32) _ _ IH) as H.
    rewrite Z.lxor_assoc, Z.lxor_nilpotent, Z.lxor_0_r in H. exact H.
  - apply UPlain; [lia|exact IH].
Qed.
Lemma wire_frame body : 4 <= zlen body <= 68 -> frame (wire body) body.
Proof.
  intros Hl. exists (flat_map esc body), (fcs body / 256), (fcs body mod 256).
  split; [reflexivity|]. split; [apply unescaped_esc|]. split; [exact Hl|].
  rewrite (Z.div_mod (fcs body) 256) at 3; lia.
Qed.

Lemma rrun_gap gap : ~ In 126 gap -> rrun Idle gap = Idle /\ routs Idle gap = [].
Proof.
  induction gap as [|c gap IH]; intros Hn; [auto|]. cbn [rrun fold_left routs rnext rout].
  replace (c =? 126) with false by (symmetry; apply Z.eqb_neq; intros ->; apply Hn; left; reflexivity).
  apply IH. intros Hin. apply Hn. right. exact Hin.
Qed.

Lemma rrun_flags k s : rrun Idle (repeat 126 k ++ 126 :: s) = rrun Idle (126 :: s) /\
  routs Idle (repeat 126 k ++ 126 :: s) = routs Idle (126 :: s).
Proof.
  assert (forall s, rrun Rev (126 :: s) = rrun Idle (126 :: s) /\ routs Rev (126 :: s) = routs Idle (126 :: s)) as H
    by (intros; split; reflexivity).
  induction k as [|k [IH1 IH2]]; [auto|]. cbn [repeat app].
  destruct k as [|k].
  - cbn [repeat app]. split; reflexivity.
  - cbn [repeat app] in *. split; [rewrite <- IH1|rewrite <- IH2]; reflexivity.
Qed.

Lemma rrun_clean s ps : clean s ps -> rrun Idle s = Idle /\ routs Idle s = ps.
Proof.
  induction 1 as [gap Hg|gap k f body rest ps Hg Hf Hc [E5 E6]].
  - now apply rrun_gap.
  - destruct (rrun_gap gap Hg) as [E1 E2]. destruct (rrun_frame f body Hf) as [E3 E4].
    rewrite rrun_app, routs_app, E1, E2.
    assert (exists f', f ++ rest = 126 :: f') as (f' & Ef) by (destruct Hf as (raw & hi & lo & -> & _); eexists; reflexivity).
    rewrite Ef. destruct (rrun_flags k f') as [-> ->]. rewrite <- Ef.
    rewrite rrun_app, routs_app, E3, E4, E5, E6. auto.
Qed.

Lemma clean_wires ps : Forall (fun p => 4 <= zlen p <= 68) ps -> clean (flat_map wire ps) ps.
Proof.
  induction 1 as [|p ps Hp Hps IH]; [apply ClNil; auto|]. cbn [flat_map].
  exact (ClFrame [] 0 (wire p) p _ _ (fun x => x) (wire_frame p Hp) IH).
Qed.

(** ** What has been received so far *)

(** [cur] is the piece of the stream since the last point at which the receiver was
    idle. *)
Inductive since : rcv -> list Z -> Prop :=
| SiIdle : since Idle []
| SiRev : since Rev [126]
| SiLen : since Len [126; 1]
| SiData len raw bs : unescaped raw bs -> zlen bs < len -> 4 <= len <= 68 ->
    since (Data len bs false) ([126; 1; len] ++ raw)
| SiEsc len raw bs : unescaped raw bs -> zlen bs < len -> 4 <= len <= 68 ->
    since (Data len bs true) ([126; 1; len] ++ raw ++ [125])
| SiFcs1 raw bs : unescaped raw bs -> 4 <= zlen bs <= 68 ->
    since (Fcs1 bs) ([126; 1; zlen bs] ++ raw)
| SiFcs2 raw bs hi : unescaped raw bs -> 4 <= zlen bs <= 68 ->
    since (Fcs2 bs hi) ([126; 1; zlen bs] ++ raw ++ [hi])
| SiEnd raw bs hi lo : unescaped raw bs -> 4 <= zlen bs <= 68 ->
    since (End bs (hi * 256 + lo)) ([126; 1; zlen bs] ++ raw ++ [hi; lo]).

Lemma unescaped_snoc raw bs c : unescaped raw bs -> c <> 125 -> unescaped (raw ++ [c]) (bs ++ [c]).
Proof. induction 1; intros Hc; cbn [app]; [apply UPlain; [exact Hc|constructor]|apply UPlain; auto|apply UEsc; auto]. Qed.
Lemma unescaped_snoc_esc raw bs c : unescaped raw bs ->
  unescaped (raw ++ [125; c]) (bs ++ [Z.lxor c 32]).
Proof. induction 1; cbn [app]; [apply UEsc; constructor|apply UPlain; auto|apply UEsc; auto]. Qed.

(** One byte: the current piece grows, or ends (as junk or as a frame). *)
Lemma rnext_since r cur c : since r cur ->
  exists junk rest, cur ++ [c] = junk ++ rest /\ since (rnext r c) rest /\
    match rout r c with [] => True | body :: t => t = [] /\ rest = [] /\ frame junk body end.
Proof.
  intros Hs.
  assert (Hpush : forall len raw bs raw' x, unescaped raw bs -> zlen bs < len -> 4 <= len <= 68 ->
            unescaped raw' (bs ++ [x]) ->
            since (rpush len bs x) ([126; 1; len] ++ raw')).
  { intros len raw bs raw' x Hu Hl Hr Hu'. unfold rpush. destruct (Z.eqb_spec (zlen (bs ++ [x])) len) as [E|E].
    - rewrite <- E. apply SiFcs1; [exact Hu'|lia].
    - apply SiData; [exact Hu'| |exact Hr]. rewrite zlen_snoc in *. lia. }
  destruct Hs as [| | |len raw bs Hu Hl Hr|len raw bs Hu Hl Hr|raw bs Hu Hr|raw bs hi Hu Hr|raw bs hi lo Hu Hr];
    cbn [rnext rout].
  - destruct (Z.eqb_spec c 126) as [->|Hc].
    + exists [], [126]. repeat split. constructor.
    + exists [c], []. repeat split. constructor.
  - destruct (Z.eqb_spec c 1) as [->|Hc].
    + exists [], [126; 1]. repeat split. constructor.
    + destruct (Z.eqb_spec c 126) as [->|Hc'].
      * exists [126], [126]. repeat split. constructor.
      * exists [126; c], []. repeat split. constructor.
  - destruct ((68 <? c) || (c <? 4)) eqn:E.
    + exists [126; 1; c], []. repeat split. constructor.
    + exists [], [126; 1; c]. repeat split. apply (SiData c [] []); [constructor|cbn; lia|lia].
  - destruct (Z.eqb_spec c 125) as [->|Hc].
    + exists [], ([126; 1; len] ++ raw ++ [125]). split; [reflexivity|]. split; [|exact I]. now apply SiEsc.
    + exists [], ([126; 1; len] ++ raw ++ [c]). split; [reflexivity|]. split; [|exact I].
      eapply Hpush; eauto. now apply unescaped_snoc.
  - exists [], ([126; 1; len] ++ raw ++ [125; c]). split; [cbn; rewrite <- app_assoc; reflexivity|].
    split; [|exact I]. eapply Hpush; eauto. now apply unescaped_snoc_esc.
  - exists [], ([126; 1; zlen bs] ++ raw ++ [c]). split; [reflexivity|]. split; [|exact I]. now apply SiFcs2.
  - exists [], ([126; 1; zlen bs] ++ raw ++ [hi; c]). split; [cbn; rewrite <- app_assoc; reflexivity|].
    split; [|exact I]. now apply SiEnd.
  - exists ([126; 1; zlen bs] ++ raw ++ [hi; lo; c]), [].
    split; [cbn; rewrite <- app_assoc, app_nil_r; reflexivity|]. split; [constructor|].
    destruct ((hi * 256 + lo =? fcs bs) && (c =? 126)) eqn:E; [|exact I].
    apply andb_true_iff in E. destruct E as [E1 E2]. apply Z.eqb_eq in E1, E2. subst c.
    split; [reflexivity|]. split; [reflexivity|]. exists raw, hi, lo. auto.
Qed.

Lemma contains_junk j s ps : contains s ps -> contains (j ++ s) ps.
Proof.
  intros [junk|junk f rest body ps' Hf Hc]; [constructor|].
  rewrite app_assoc. apply CFrame; assumption.
Qed.
Lemma contains_app a b p q : contains a p -> contains b q -> contains (a ++ b) (p ++ q).
Proof.
  induction 1 as [junk|junk f rest body ps Hf Hc IH]; intros Hb; cbn [app].
  - now apply contains_junk.
  - rewrite <- !app_assoc. apply CFrame; auto.
Qed.

(** The stream so far: what is behind, and the current piece. *)
Lemma rrun_contains s : forall r cur, since r cur ->
  exists old rest, cur ++ s = old ++ rest /\ since (rrun r s) rest /\ contains old (routs r s).
Proof.
  induction s as [|c s IH]; intros r cur Hs.
  - exists [], cur. rewrite app_nil_r. split; [reflexivity|]. split; [exact Hs|constructor].
  - destruct (rnext_since r cur c Hs) as (junk & rest & E & Hs' & Ho).
    destruct (IH _ _ Hs') as (old & rest' & E' & Hs'' & Hc).
    exists (junk ++ old), rest'. split; [|split; [exact Hs''|]].
    + change (c :: s) with ([c] ++ s). rewrite app_assoc, E, <- app_assoc, E', app_assoc. reflexivity.
    + cbn [routs]. destruct (rout r c) as [|body t]; [apply contains_junk; exact Hc|].
      destruct Ho as (-> & _ & Hf). cbn [app]. apply (CFrame [] junk old); assumption.
Qed.

Lemma stream_contains s : contains s (routs Idle s).
Proof.
  destruct (rrun_contains s Idle [] SiIdle) as (old & rest & E & _ & Hc). cbn in E. subst s.
  rewrite <- (app_nil_r (routs Idle (old ++ rest))). apply contains_app; [exact Hc|constructor].
Qed.

(** ** Resynchronisation *)

(** An upper bound on the bytes other than 7E until the receiver is idle. *)
Definition measure (r : rcv) : Z :=
  match r with
  | Idle => 0
  | Rev => 141
  | Len => 140
  | Data len bs e => 2 * (len - zlen bs) + 3 - (if e then 1 else 0)
  | Fcs1 _ => 3 | Fcs2 _ _ => 2 | End _ _ => 1
  end.
Definition rwf (r : rcv) : Prop :=
  match r with
  | Data len bs _ => zlen bs < len <= 68
  | _ => True
  end.
Lemma rnext_wf r c : rwf r -> rwf (rnext r c).
Proof.
  assert (forall len bs x, zlen bs < len <= 68 -> rwf (rpush len bs x)) as Hp.
  { intros len bs x H. unfold rpush. destruct (Z.eqb_spec (zlen (bs ++ [x])) len); cbn; [exact I|].
    rewrite zlen_snoc in *. lia. }
  destruct r as [| | |len bs [|]|bs|bs hi|bs f]; cbn [rwf rnext]; intros Hr; auto.
  - destruct (c =? 126); exact I.
  - destruct (c =? 1); [exact I|]. destruct (c =? 126); exact I.
  - destruct ((68 <? c) || (c <? 4)) eqn:E; cbn; [exact I|]. lia.
  - destruct (c =? 125); [exact Hr|auto].
Qed.
Lemma rnext_measure r c : rwf r -> c <> 126 -> measure (rnext r c) <= Z.max 0 (measure r - 1) /\ rout r c = [].
Proof.
  assert (forall len bs x, zlen bs < len <= 68 -> measure (rpush len bs x) <= 2 * (len - zlen bs) + 1) as Hp.
  { intros len bs x H. unfold rpush. destruct (Z.eqb_spec (zlen (bs ++ [x])) len); cbn [measure]; [lia|].
    rewrite zlen_snoc in *. lia. }
  intros Hr Hc. split.
  - destruct r as [| | |len bs [|]|bs|bs hi|bs f]; cbn [rwf rnext measure] in *; try lia.
    + replace (c =? 126) with false by lia. cbn. lia.
    + destruct (c =? 1); [cbn; lia|]. replace (c =? 126) with false by lia. cbn. lia.
    + destruct ((68 <? c) || (c <? 4)) eqn:E; cbn [measure zlen length Z.of_nat]; lia.
    + specialize (Hp len bs (Z.lxor c 32) Hr). lia.
    + destruct (c =? 125); [cbn [measure]; lia|]. specialize (Hp len bs c Hr). lia.
  - destruct r; try reflexivity. cbn. replace (c =? 126) with false by lia. rewrite andb_false_r. reflexivity.
Qed.
Lemma measure_nonneg r : rwf r -> 0 <= measure r.
Proof. destruct r as [| | |len bs [|]|bs|bs hi|bs f]; cbn [rwf measure]; lia. Qed.
Lemma measure_idle r : rwf r -> measure r <= 0 -> r = Idle.
Proof. destruct r as [| | |len bs [|]|bs|bs hi|bs f]; cbn [rwf measure]; intros; try lia; reflexivity. Qed.
Lemma measure_max r cur : since r cur -> measure r <= 141.
Proof. destruct 1; cbn [measure]; try lia; pose proof (zlen_pos _ bs); lia. Qed.
Lemma rrun_measure s : forall r, rwf r -> ~ In 126 s ->
  measure (rrun r s) <= Z.max 0 (measure r - zlen s) /\ rwf (rrun r s) /\ routs r s = [].
Proof.
  induction s as [|c s IH]; intros r Hr Hn.
  - cbn [rrun fold_left routs]. pose proof (measure_nonneg r Hr). cbn [zlen length Z.of_nat]. split; [lia|auto].
  - assert (c <> 126) as Hc by (intros ->; apply Hn; left; reflexivity).
    destruct (rnext_measure r c Hr Hc) as [H1 H2].
    destruct (IH (rnext r c) (rnext_wf r c Hr)) as (H3 & H4 & H5).
    { intros Hin. apply Hn. right. exact Hin. }
    cbn [routs]. rewrite H2, H5, zlen_cons. split; [|auto]. change (rrun r (c :: s)) with (rrun (rnext r c) s).
    pose proof (zlen_pos _ s). lia.
Qed.
Lemma since_wf r cur : since r cur -> rwf r.
Proof. destruct 1; cbn; try exact I; lia. Qed.
Lemma rrun_resync r s : rwf r -> measure r <= 141 -> ~ In 126 s -> 141 <= zlen s ->
  rrun r s = Idle /\ routs r s = [].
Proof.
  intros Hr Hm Hn Hz. destruct (rrun_measure s r Hr Hn) as (H1 & H2 & H3).
  split; [|exact H3]. apply measure_idle; [exact H2|lia].
Qed.
