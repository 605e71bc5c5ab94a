(** Lists: facts about byte ranges used by the proofs. *)
From Verif Require Import Base.

Lemma zlen_nil A : zlen (@nil A) = 0. Proof. reflexivity. Qed.
Lemma zlen_cons A (a : A) l : zlen (a :: l) = zlen l + 1.
Proof. unfold zlen. cbn [length]. lia. Qed.
Lemma zlen_app A (a b : list A) : zlen (a ++ b) = zlen a + zlen b.
Proof. unfold zlen. rewrite app_length. lia. Qed.
Lemma zlen_pos A (l : list A) : 0 <= zlen l.
Proof. unfold zlen. lia. Qed.
Lemma zlen_repeat A (x : A) n : zlen (repeat x n) = Z.of_nat n.
Proof. unfold zlen. now rewrite repeat_length. Qed.
Lemma zlen_firstn A n (l : list A) : zlen (firstn n l) = Z.min (Z.of_nat n) (zlen l).
Proof. unfold zlen. rewrite firstn_length. lia. Qed.
Lemma zlen_skipn A n (l : list A) : zlen (skipn n l) = Z.max 0 (zlen l - Z.of_nat n).
Proof. unfold zlen. rewrite skipn_length. lia. Qed.
Lemma zlen_0_nil A (l : list A) : zlen l = 0 -> l = [].
Proof. destruct l; [reflexivity|]. rewrite zlen_cons. pose proof (zlen_pos _ l). lia. Qed.

Lemma skipn_skipn A (x y : nat) (l : list A) : skipn x (skipn y l) = skipn (x + y) l.
Proof.
  revert l; induction y; intros l; [now rewrite Nat.add_0_r|].
  rewrite Nat.add_succ_r. destruct l; [now rewrite !skipn_nil|]. cbn [skipn]. apply IHy.
Qed.

Lemma rd_spec l off n r :
  rd l off n = Some r <-> exists x z, l = x ++ r ++ z /\ zlen x = off /\ zlen r = n.
Proof.
  unfold rd. split.
  - destruct ((0 <=? off) && (0 <=? n) && (off + n <=? zlen l)) eqn:E; [|discriminate].
    intros [= <-].
    exists (firstn (Z.to_nat off) l), (skipn (Z.to_nat n) (skipn (Z.to_nat off) l)).
    rewrite firstn_skipn, firstn_skipn. split; [reflexivity|].
    rewrite !zlen_firstn, zlen_skipn. lia.
  - intros (x & z & -> & <- & <-).
    replace ((0 <=? zlen x) && (0 <=? zlen r) && (zlen x + zlen r <=? zlen (x ++ r ++ z))) with true.
    2:{ symmetry. rewrite !zlen_app. pose proof (zlen_pos _ x). pose proof (zlen_pos _ r).
        pose proof (zlen_pos _ z). lia. }
    f_equal. unfold zlen. rewrite !Nat2Z.id.
    rewrite skipn_app, skipn_all, Nat.sub_diag. cbn [app skipn].
    rewrite firstn_app, firstn_all, Nat.sub_diag. cbn [firstn]. now rewrite app_nil_r.
Qed.

Lemma rd_some l off n : 0 <= off -> 0 <= n -> off + n <= zlen l ->
  exists r, rd l off n = Some r /\ zlen r = n.
Proof.
  intros H1 H2 H3. unfold rd.
  replace ((0 <=? off) && (0 <=? n) && (off + n <=? zlen l)) with true by lia.
  eexists; split; [reflexivity|]. rewrite zlen_firstn, zlen_skipn. lia.
Qed.

Lemma app_inv_zlen A (a b c d : list A) : a ++ b = c ++ d -> zlen a = zlen c -> a = c /\ b = d.
Proof.
  intros E H. assert (length a = length c) as L by (unfold zlen in H; lia). clear H.
  revert c E L. induction a; destruct c; cbn; intros E L; try discriminate; [auto|].
  injection E as -> E. destruct (IHa c E) as [-> ->]; [lia|auto].
Qed.

Lemma rd_app l off a b ra rb :
  rd l off a = Some ra -> rd l (off + a) b = Some rb -> rd l off (a + b) = Some (ra ++ rb).
Proof.
  rewrite !rd_spec. intros (x & z & E & Hx & Ha) (x' & z' & E' & Hx' & Hb).
  assert (x' = x ++ ra).
  { rewrite E, app_assoc in E'. apply app_inv_zlen in E'; [|rewrite zlen_app; lia].
    destruct E' as [E' _]. congruence. }
  subst x'. exists x, z'. rewrite E', <- !app_assoc. split; [reflexivity|].
  rewrite zlen_app. lia.
Qed.

Lemma rd_split l off a b r : 0 <= a -> 0 <= b ->
  rd l off (a + b) = Some r ->
  rd l off a = Some (firstn (Z.to_nat a) r) /\ rd l (off + a) b = Some (skipn (Z.to_nat a) r).
Proof.
  intros Ha Hb. rewrite !rd_spec. intros (x & z & E & Hx & Hr). split.
  - exists x, (skipn (Z.to_nat a) r ++ z). rewrite app_assoc with (m := skipn _ _), firstn_skipn.
    rewrite zlen_firstn. split; [exact E|]. split; lia.
  - exists (x ++ firstn (Z.to_nat a) r), z. rewrite <- app_assoc, (app_assoc (firstn _ _)), firstn_skipn.
    rewrite zlen_app, zlen_firstn, zlen_skipn. split; [exact E|]. split; lia.
Qed.

Lemma rd_byte l off n r : Forall is_byte l -> rd l off n = Some r -> Forall is_byte r.
Proof.
  rewrite rd_spec. intros Hl (x & z & -> & _). rewrite !Forall_app in Hl. tauto.
Qed.

Lemma wr_spec l off bs l' :
  wr l off bs = Some l' <->
  exists x y z, l = x ++ y ++ z /\ zlen x = off /\ zlen y = zlen bs /\ l' = x ++ bs ++ z.
Proof.
  unfold wr. split.
  - destruct ((0 <=? off) && (off + zlen bs <=? zlen l)) eqn:E; [|discriminate].
    intros [= <-].
    exists (firstn (Z.to_nat off) l), (firstn (length bs) (skipn (Z.to_nat off) l)),
           (skipn (length bs) (skipn (Z.to_nat off) l)).
    rewrite firstn_skipn, firstn_skipn, !zlen_firstn, zlen_skipn.
    pose proof (zlen_pos _ bs).
    split; [reflexivity|]. split; [lia|]. split; [unfold zlen in *; lia|].
    f_equal. f_equal. rewrite skipn_skipn. f_equal. lia.
  - intros (x & y & z & -> & <- & Hy & ->).
    replace ((0 <=? zlen x) && (zlen x + zlen bs <=? zlen (x ++ y ++ z))) with true.
    2:{ symmetry. rewrite !zlen_app. pose proof (zlen_pos _ x). pose proof (zlen_pos _ z). lia. }
    f_equal. unfold zlen in *. rewrite Nat2Z.id.
    assert (length y = length bs) as Hl by lia.
    rewrite firstn_app, firstn_all, Nat.sub_diag. cbn [firstn]. rewrite app_nil_r. f_equal. f_equal.
    rewrite skipn_app, skipn_all2 by lia. cbn [app].
    replace (length x + length bs - length x)%nat with (length y) by lia.
    rewrite skipn_app, skipn_all, Nat.sub_diag. reflexivity.
Qed.

Lemma wr_some l off bs : 0 <= off -> off + zlen bs <= zlen l -> exists l', wr l off bs = Some l'.
Proof.
  intros. unfold wr. replace ((0 <=? off) && (off + zlen bs <=? zlen l)) with true by lia. eauto.
Qed.

Lemma wr_zlen l off bs l' : wr l off bs = Some l' -> zlen l' = zlen l.
Proof. rewrite wr_spec. intros (x & y & z & -> & _ & Hy & ->). rewrite !zlen_app. lia. Qed.

Lemma rd_wr_same l off bs l' : wr l off bs = Some l' -> rd l' off (zlen bs) = Some bs.
Proof.
  rewrite wr_spec, rd_spec. intros (x & y & z & -> & Hx & Hy & ->). eauto.
Qed.

Lemma rd_wr_before l off bs l' o n : wr l off bs = Some l' -> o + n <= off -> rd l' o n = rd l o n.
Proof.
  rewrite wr_spec. intros (x & y & z & -> & Hx & Hy & ->) Hle.
  unfold rd. rewrite !zlen_app, Hy.
  destruct ((0 <=? o) && (0 <=? n) && (o + n <=? zlen x + (zlen bs + zlen z))) eqn:E; [|reflexivity].
  f_equal. rewrite !skipn_app, !firstn_app.
  assert (Z.to_nat n - length (skipn (Z.to_nat o) x) = 0)%nat as ->.
  { rewrite skipn_length. unfold zlen in *. lia. }
  reflexivity.
Qed.

Lemma firstn_skipn_nonnil A (l : list A) n : (0 < n)%nat -> l <> [] -> firstn n l <> [].
Proof. destruct n, l; cbn; try lia; congruence. Qed.

Lemma w64_id x : 0 <= x < 2 ^ 64 -> w64 x = x.
Proof. intros. unfold w64. apply Z.mod_small. lia. Qed.
Lemma w32_id x : 0 <= x < 2 ^ 32 -> w32 x = x.
Proof. intros. unfold w32. apply Z.mod_small. lia. Qed.
Lemma w64_range x : 0 <= w64 x < 2 ^ 64.
Proof. unfold w64. apply Z.mod_pos_bound. lia. Qed.
Lemma w32_range x : 0 <= w32 x < 2 ^ 32.
Proof. unfold w32. apply Z.mod_pos_bound. lia. Qed.
