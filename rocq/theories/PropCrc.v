(** PropCrc: the check-value routines (C29, C30). *)
From Verif Require Import Base Lists Crc.

(** ** Specification: polynomials over GF(2)

    A polynomial is a non-negative integer, bit [i] being the coefficient of
    [x^i]; addition is [Z.lxor], multiplication by [x] is doubling. *)

(** The bits of a number, least significant first: the order in which a byte is
    sent. *)
Fixpoint bits_of (n : nat) (x : Z) : list bool :=
  match n with O => [] | S n => Z.odd x :: bits_of n (Z.div2 x) end.
Definition msg_bits (bs : list Z) : list bool := flat_map (bits_of 8) bs.

(** The polynomial whose coefficients are [l], highest power first. *)
Definition poly (l : list bool) : Z := fold_left (fun a (b : bool) => 2 * a + (if b then 1 else 0)) l 0.

(** [q * g], [q] given by its coefficients, lowest power first. *)
Fixpoint pmul (q : list bool) (g : Z) : Z :=
  match q with
  | [] => 0
  | c :: q => Z.lxor (if c : bool then g else 0) (2 * pmul q g)
  end.

(** [r] is the remainder of [m] by the polynomial [g] of degree [k]. *)
Definition remainder (k m g r : Z) : Prop :=
  0 <= r < 2 ^ k /\ exists q, m = Z.lxor (pmul q g) r.

(** x^16 + x^12 + x^5 + 1 *)
Definition G16 : Z := 2 ^ 16 + 2 ^ 12 + 2 ^ 5 + 1.
(** x^32 + x^26 + x^23 + x^22 + x^16 + x^12 + x^11 + x^10 + x^8 + x^7 + x^5 + x^4 + x^2 + x + 1 *)
Definition G32 : Z := 2 ^ 32 + 2 ^ 26 + 2 ^ 23 + 2 ^ 22 + 2 ^ 16 + 2 ^ 12 + 2 ^ 11 + 2 ^ 10
  + 2 ^ 8 + 2 ^ 7 + 2 ^ 5 + 2 ^ 4 + 2 ^ 2 + 2 + 1.

(** [reflected k x y]: [y] is [x] with its [k] bits in reverse order. *)
Definition reflected (k : nat) (x y : Z) : Prop := bits_of k y = rev (bits_of k x).

(** ** Bits *)

Lemma bits_of_nth : forall n x i, (i < n)%nat -> nth i (bits_of n x) false = Z.testbit x (Z.of_nat i).
Proof.
  induction n; intros x i Hi; [lia|]. cbn [bits_of]. destruct i.
  - cbn [nth]. now rewrite Z.bit0_odd.
  - cbn [nth]. rewrite IHn by lia. rewrite Z.div2_spec, Z.shiftr_spec by lia. f_equal. lia.
Qed.
Lemma bits_of_length n x : length (bits_of n x) = n.
Proof. revert x. induction n; intros; cbn; auto. Qed.

Lemma reflected_iff k x y :
  reflected k x y <-> forall i, (i < k)%nat -> Z.testbit y (Z.of_nat i) = Z.testbit x (Z.of_nat (k - 1 - i)).
Proof.
  unfold reflected. split.
  - intros E i Hi. rewrite <- !(bits_of_nth k) by lia. rewrite E, rev_nth by (rewrite bits_of_length; lia).
    rewrite bits_of_length. f_equal. lia.
  - intros H. apply (nth_ext _ _ false false); [rewrite rev_length, !bits_of_length; reflexivity|].
    intros i Hi. rewrite bits_of_length in Hi. rewrite rev_nth by (rewrite bits_of_length; lia).
    rewrite bits_of_length. rewrite !bits_of_nth by lia. rewrite H by lia. f_equal. lia.
Qed.

(** Numbers below [2^k] are determined by their first [k] bits. *)
Definition small (k : nat) (x : Z) : Prop := 0 <= x < 2 ^ Z.of_nat k.
Lemma small_high k x i : small k x -> Z.of_nat k <= i -> Z.testbit x i = false.
Proof.
  intros [H0 H1] Hi. destruct (Z.eq_dec x 0) as [->|]; [apply Z.bits_0|].
  apply Z.bits_above_log2; [lia|]. apply Z.log2_lt_pow2; [lia|].
  eapply Z.lt_le_trans; [exact H1|]. apply Z.pow_le_mono_r; lia.
Qed.
Lemma small_of_bits k x : 0 <= x -> (forall i, Z.of_nat k <= i -> Z.testbit x i = false) -> small k x.
Proof.
  intros H0 H. split; [exact H0|]. destruct (Z.eq_dec x 0) as [->|]; [apply Z.pow_pos_nonneg; lia|].
  apply Z.log2_lt_pow2; [lia|]. destruct (Z_lt_ge_dec (Z.log2 x) (Z.of_nat k)); [assumption|].
  specialize (H (Z.log2 x)). rewrite Z.bit_log2 in H by lia. discriminate H. lia.
Qed.
Lemma small_ext k x y : small k x -> small k y ->
  (forall i, (i < k)%nat -> Z.testbit x (Z.of_nat i) = Z.testbit y (Z.of_nat i)) -> x = y.
Proof.
  intros Hx Hy H. apply Z.bits_inj'. intros n Hn.
  destruct (Z_lt_ge_dec n (Z.of_nat k)).
  - specialize (H (Z.to_nat n)). rewrite Z2Nat.id in H by lia. apply H. lia.
  - rewrite !(small_high k) by (assumption || lia). reflexivity.
Qed.
Lemma small_lxor k x y : small k x -> small k y -> small k (Z.lxor x y).
Proof.
  intros Hx Hy. apply small_of_bits.
  - apply Z.lxor_nonneg. unfold small in *. lia.
  - intros i Hi. rewrite Z.lxor_spec, !(small_high k) by assumption. reflexivity.
Qed.
Lemma small_mono j k x : (j <= k)%nat -> small j x -> small k x.
Proof. intros H [? ?]. split; [lia|]. eapply Z.lt_le_trans; [eassumption|]. apply Z.pow_le_mono_r; lia. Qed.
Lemma small_div2 k x : small (S k) x -> small k (Z.div2 x).
Proof.
  intros [? ?]. unfold small. rewrite Z.div2_div.
  replace (Z.of_nat (S k)) with (Z.of_nat k + 1) in * by lia. rewrite Z.pow_add_r in * by lia.
  split; [apply Z.div_pos; lia|]. apply Z.div_lt_upper_bound; lia.
Qed.

(** The reversal itself, to have a witness. *)
Fixpoint refl (k : nat) (x : Z) : Z :=
  match k with O => 0 | S k => (if Z.odd x then 2 ^ Z.of_nat k else 0) + refl k (Z.div2 x) end.
Lemma refl_small : forall k x, small k (refl k x).
Proof.
  induction k; intros x; cbn [refl]; [split; cbn; lia|].
  destruct (IHk (Z.div2 x)). unfold small in *. replace (Z.of_nat (S k)) with (Z.of_nat k + 1) by lia.
  rewrite Z.pow_add_r by lia. destruct (Z.odd x); lia.
Qed.
Lemma testbit_add_pow k r i : small k r -> Z.testbit (2 ^ Z.of_nat k + r) i = if i =? Z.of_nat k then true else Z.testbit r i.
Proof.
  intros Hr. rewrite Z.add_nocarry_lxor.
  - rewrite Z.lxor_spec. destruct (Z.eqb_spec i (Z.of_nat k)) as [->|N].
    + rewrite Z.pow2_bits_true by lia. rewrite (small_high k) by (assumption || lia). reflexivity.
    + rewrite Z.pow2_bits_false by congruence. apply xorb_false_l.
  - apply Z.bits_inj'. intros n Hn. rewrite Z.land_spec, Z.bits_0.
    destruct (Z.eq_dec n (Z.of_nat k)) as [->|N].
    + rewrite (small_high k r) by (assumption || lia). apply andb_false_r.
    + rewrite Z.pow2_bits_false by congruence. reflexivity.
Qed.
Lemma refl_bit : forall k x i, (i < k)%nat -> Z.testbit (refl k x) (Z.of_nat i) = Z.testbit x (Z.of_nat (k - 1 - i)).
Proof.
  induction k; intros x i Hi; [lia|]. cbn [refl].
  assert (Z.testbit (refl k (Z.div2 x)) (Z.of_nat i) = if Nat.eqb i k then false else Z.testbit x (Z.of_nat (S k - 1 - i))) as E.
  { destruct (Nat.eqb_spec i k) as [->|N].
    - apply (small_high k); [apply refl_small|lia].
    - rewrite IHk by lia. rewrite Z.div2_spec, Z.shiftr_spec by lia. f_equal. lia. }
  destruct (Z.odd x) eqn:O.
  - rewrite testbit_add_pow by apply refl_small. rewrite E.
    destruct (Nat.eqb_spec i k) as [->|N].
    + rewrite Z.eqb_refl. replace (S k - 1 - k)%nat with 0%nat by lia. now rewrite Z.bit0_odd.
    + replace (Z.of_nat i =? Z.of_nat k) with false by lia. reflexivity.
  - cbn [Z.add]. rewrite E. destruct (Nat.eqb_spec i k) as [->|N]; [|reflexivity].
    replace (S k - 1 - k)%nat with 0%nat by lia. now rewrite Z.bit0_odd.
Qed.
Lemma refl_reflected k x : reflected k x (refl k x).
Proof. apply reflected_iff. apply refl_bit. Qed.
Lemma refl_unique k x y : small k y -> reflected k x y -> y = refl k x.
Proof.
  intros Hy H. rewrite reflected_iff in H. apply (small_ext k); [exact Hy|apply refl_small|].
  intros i Hi. rewrite refl_bit by exact Hi. now apply H.
Qed.
Lemma reflected_sym k x y : reflected k x y -> reflected k y x.
Proof. unfold reflected. intros ->. now rewrite rev_involutive. Qed.

(** ** The remainder is determined *)
Lemma pmul_nonneg q g : 0 <= g -> 0 <= pmul q g.
Proof. intros Hg. induction q as [|c q IH]; cbn [pmul]; [lia|]. apply Z.lxor_nonneg. destruct c; lia. Qed.

Lemma pmul_small k q r : small k r -> small k (pmul q (2 ^ Z.of_nat k + r)) -> pmul q (2 ^ Z.of_nat k + r) = 0.
Proof.
  intros Hr. set (g := 2 ^ Z.of_nat k + r).
  assert (0 < 2 ^ Z.of_nat k) as Hp by (apply Z.pow_pos_nonneg; lia).
  assert (0 <= g) as Hg by (unfold g, small in *; lia).
  assert (small (S k) g) as Hgs.
  { unfold small, g in *. replace (Z.of_nat (S k)) with (Z.of_nat k + 1) by lia. rewrite Z.pow_add_r by lia. lia. }
  induction q as [|c q IH]; cbn [pmul]; [reflexivity|]. intros Hs.
  destruct (Z.eq_dec (pmul q g) 0) as [E|N].
  - rewrite E in *. rewrite Z.mul_0_r, Z.lxor_0_r in *. destruct c; [|reflexivity].
    unfold small, g in Hs, Hr. lia.
  - exfalso. assert (2 ^ Z.of_nat k <= pmul q g) as Hge.
    { destruct (Z_lt_ge_dec (pmul q g) (2 ^ Z.of_nat k)); [|lia]. exfalso. apply N, IH. split; [now apply pmul_nonneg|lia]. }
    set (m := pmul q g) in *. set (t := Z.log2 m).
    assert (Z.of_nat k <= t) as Ht by (unfold t; apply Z.log2_le_pow2; lia).
    assert (Z.testbit (Z.lxor (if c then g else 0) (2 * m)) (t + 1) = true) as Hb.
    { rewrite Z.lxor_spec.
      replace (2 * m) with (Z.shiftl m 1) by (rewrite Z.shiftl_mul_pow2; lia).
      rewrite Z.shiftl_spec by lia. replace (t + 1 - 1) with t by lia. unfold t at 2. rewrite Z.bit_log2 by lia.
      replace (Z.testbit (if c then g else 0) (t + 1)) with false; [reflexivity|].
      destruct c; [symmetry; apply (small_high (S k)); [exact Hgs|lia]|symmetry; apply Z.bits_0]. }
    rewrite (small_high k) in Hb by (assumption || lia). discriminate.
Qed.

Lemma pmul_xor : forall q1 q2 g, exists q3, pmul q3 g = Z.lxor (pmul q1 g) (pmul q2 g).
Proof.
  induction q1 as [|c1 q1 IH]; intros q2 g.
  - exists q2. cbn [pmul]. now rewrite Z.lxor_0_l.
  - destruct q2 as [|c2 q2].
    + exists (c1 :: q1). cbn [pmul]. now rewrite Z.lxor_0_r.
    + destruct (IH q2 g) as (q3 & E). exists (xorb c1 c2 :: q3). cbn [pmul]. rewrite E.
      replace (2 * Z.lxor (pmul q1 g) (pmul q2 g)) with (Z.lxor (2 * pmul q1 g) (2 * pmul q2 g)).
      2:{ rewrite !(Z.mul_comm 2). change 2 with (2 ^ 1). rewrite <- !Z.shiftl_mul_pow2 by lia. symmetry. apply Z.shiftl_lxor. }
      generalize (2 * pmul q1 g) (2 * pmul q2 g). intros x y.
      apply Z.bits_inj'. intros n _. rewrite !Z.lxor_spec.
      destruct c1, c2; cbn [xorb]; rewrite ?Z.bits_0; destruct (Z.testbit g n), (Z.testbit x n), (Z.testbit y n); reflexivity.
Qed.

Lemma remainder_unique k m g r r' :
  small k (g - 2 ^ Z.of_nat k) -> remainder (Z.of_nat k) m g r -> remainder (Z.of_nat k) m g r' -> r = r'.
Proof.
  intros Hg [Hr [q E]] [Hr' [q' E']]. destruct (pmul_xor q q' g) as (q3 & E3).
  assert (Z.lxor (pmul q g) (pmul q' g) = Z.lxor r r') as X.
  { rewrite E in E'. apply Z.bits_inj'. intros n _. apply (f_equal (fun z => Z.testbit z n)) in E'.
    rewrite !Z.lxor_spec in *. revert E'. destruct (Z.testbit (pmul q g) n), (Z.testbit (pmul q' g) n), (Z.testbit r n), (Z.testbit r' n); intros; cbn in *; congruence. }
  apply Z.lxor_eq. rewrite <- X, <- E3.
  replace g with (2 ^ Z.of_nat k + (g - 2 ^ Z.of_nat k)) at 1 by lia.
  apply pmul_small; [exact Hg|]. replace (2 ^ Z.of_nat k + (g - 2 ^ Z.of_nat k)) with g by lia.
  rewrite E3, X. now apply small_lxor.
Qed.

Fixpoint num (l : list bool) : Z := match l with [] => 0 | b :: l => (if b then 1 else 0) + 2 * num l end.
Lemma num_small : forall l, small (length l) (num l).
Proof.
  induction l as [|b l IH]; cbn [num length]; [split; cbn; lia|]. unfold small in *.
  replace (Z.of_nat (S (length l))) with (Z.of_nat (length l) + 1) by lia. rewrite Z.pow_add_r by lia. destruct b; lia.
Qed.
Lemma num_inj : forall l l', length l = length l' -> num l = num l' -> l = l'.
Proof.
  induction l as [|b l IH]; destruct l' as [|b' l']; cbn [num length]; intros L E; try discriminate; [reflexivity|].
  assert (b = b' /\ num l = num l') as [-> E'] by (destruct b, b'; split; try reflexivity; lia).
  f_equal. apply IH; [lia|exact E'].
Qed.
Lemma odd_lxor a b : Z.odd (Z.lxor a b) = xorb (Z.odd a) (Z.odd b).
Proof. rewrite <- !Z.bit0_odd. apply Z.lxor_spec. Qed.
Lemma div2_lxor a b : Z.div2 (Z.lxor a b) = Z.lxor (Z.div2 a) (Z.div2 b).
Proof. rewrite !Z.div2_spec. apply Z.shiftr_lxor. Qed.
Lemma num_odd b l : Z.odd (num (b :: l)) = b.
Proof. cbn [num]. rewrite Z.odd_add_mul_2. now destruct b. Qed.
Lemma num_div2 b l : Z.div2 (num (b :: l)) = num l.
Proof. cbn [num]. rewrite Z.div2_div. rewrite (Z.mul_comm 2), Z.div_add by lia. now destruct b. Qed.
Lemma poly_app l b : poly (l ++ [b]) = 2 * poly l + (if b then 1 else 0).
Proof. unfold poly. now rewrite fold_left_app. Qed.
Lemma poly_nonneg l : 0 <= poly l.
Proof.
  induction l using rev_ind; [cbn; lia|]. rewrite poly_app. destruct x; lia.
Qed.
Lemma double_lxor a b : 2 * Z.lxor a b = Z.lxor (2 * a) (2 * b).
Proof. rewrite !(Z.mul_comm 2). change 2 with (2 ^ 1). rewrite <- !Z.shiftl_mul_pow2 by lia. apply Z.shiftl_lxor. Qed.

(** ** The shift register, reflected, generic in width and polynomial *)
Section Reg.
Variable k : nat.            (* width - 1 *)
Variable P : Z.              (* the reflected polynomial without its leading term *)
Hypothesis P_small : small (S k) P.
Hypothesis P_top : Z.testbit P (Z.of_nat k) = true.

Definition step (s : Z) (b : bool) : Z :=
  Z.lxor (Z.div2 s) (if xorb (Z.odd s) b then P else 0).
Definition steps (s : Z) (l : list bool) : Z := fold_left step l s.

Lemma step_small s b : small (S k) s -> small (S k) (step s b).
Proof.
  intros Hs. unfold step. apply small_lxor.
  - apply (small_mono k); [lia|]. now apply small_div2.
  - destruct (xorb _ _); [exact P_small|]. split; [lia|]. apply Z.pow_pos_nonneg; lia.
Qed.
Lemma steps_small : forall l s, small (S k) s -> small (S k) (steps s l).
Proof. induction l; intros; cbn; [assumption|]. apply IHl, step_small. assumption. Qed.

(** *** Division *)
Let G := 2 ^ Z.of_nat (S k) + refl (S k) P.

Lemma refl_step s b : small (S k) s ->
  Z.lxor (refl (S k) (step s b)) (if xorb (Z.odd s) b then G else 0) =
  Z.lxor (2 * refl (S k) s) (if b then 2 ^ Z.of_nat (S k) else 0).
Proof.
  intros Hs. apply Z.bits_inj'. intros n Hn. rewrite !Z.lxor_spec.
  assert (Z.testbit (2 * refl (S k) s) n =
          if n =? 0 then false else if n <=? Z.of_nat (S k) then Z.testbit s (Z.of_nat (S k) - n) else false) as E1.
  { replace (2 * refl (S k) s) with (Z.shiftl (refl (S k) s) 1) by (rewrite Z.shiftl_mul_pow2; lia).
    rewrite Z.shiftl_spec by lia. destruct (Z.eqb_spec n 0) as [->|N0]; [reflexivity|].
    destruct (Z.leb_spec n (Z.of_nat (S k))) as [L|L].
    - replace (n - 1) with (Z.of_nat (Z.to_nat (n - 1))) by lia. rewrite refl_bit by lia. f_equal. lia.
    - apply (small_high (S k)); [apply refl_small|lia]. }
  assert (forall (c : bool), Z.testbit (if c then G else 0) n =
            c && (if n =? Z.of_nat (S k) then true else if n <? Z.of_nat (S k) then Z.testbit P (Z.of_nat k - n) else false)) as E2.
  { intros c. destruct c; cbn [andb]; [|apply Z.bits_0]. unfold G. rewrite testbit_add_pow by apply refl_small.
    destruct (Z.eqb_spec n (Z.of_nat (S k))) as [->|N]; [reflexivity|].
    destruct (Z.ltb_spec n (Z.of_nat (S k))) as [L|L].
    - replace n with (Z.of_nat (Z.to_nat n)) at 1 by lia. rewrite refl_bit by lia. f_equal. lia.
    - apply (small_high (S k)); [apply refl_small|lia]. }
  assert (Z.testbit (refl (S k) (step s b)) n =
            if n <? Z.of_nat (S k) then Z.testbit (step s b) (Z.of_nat k - n) else false) as E3.
  { destruct (Z.ltb_spec n (Z.of_nat (S k))) as [L|L].
    - replace n with (Z.of_nat (Z.to_nat n)) at 1 by lia. rewrite refl_bit by lia. f_equal. lia.
    - apply (small_high (S k)); [apply refl_small|lia]. }
  rewrite E1, E2, E3. unfold step.
  assert (Z.testbit (if b then 2 ^ Z.of_nat (S k) else 0) n = b && (n =? Z.of_nat (S k))) as ->.
  { destruct b; cbn [andb]; [|apply Z.bits_0]. destruct (Z.eqb_spec n (Z.of_nat (S k))) as [->|N].
    - apply Z.pow2_bits_true. lia. - apply Z.pow2_bits_false. congruence. }
  destruct (Z.eqb_spec n (Z.of_nat (S k))) as [->|N].
  - replace (Z.of_nat (S k) <? Z.of_nat (S k)) with false by lia.
    replace (Z.of_nat (S k) =? 0) with false by lia. replace (Z.of_nat (S k) <=? Z.of_nat (S k)) with true by lia.
    rewrite Z.sub_diag, Z.bit0_odd, !andb_true_r, xorb_false_l. reflexivity.
  - rewrite andb_false_r, xorb_false_r. destruct (Z.ltb_spec n (Z.of_nat (S k))) as [L|L].
    + rewrite Z.lxor_spec, Z.div2_spec, Z.shiftr_spec by lia.
      replace (Z.testbit (if xorb (Z.odd s) b then P else 0) (Z.of_nat k - n)) with
        (xorb (Z.odd s) b && Z.testbit P (Z.of_nat k - n)) by (destruct (xorb _ _); [reflexivity|now rewrite Z.bits_0]).
      rewrite xorb_assoc, xorb_nilpotent, xorb_false_r.
      destruct (Z.eqb_spec n 0) as [->|N0].
      * apply (small_high (S k)); [exact Hs|lia].
      * replace (n <=? Z.of_nat (S k)) with true by lia. f_equal. lia.
    + replace (n =? 0) with false by lia. replace (n <=? Z.of_nat (S k)) with false by lia.
      now rewrite andb_false_r.
Qed.



(** The register after the bits [l] is the reflected remainder of
    [l * x^width + init * x^|l|]. *)
Lemma steps_division s l : small (S k) s ->
  exists q, Z.lxor (poly l * 2 ^ Z.of_nat (S k)) (refl (S k) s * 2 ^ zlen l)
            = Z.lxor (pmul q G) (refl (S k) (steps s l)).
Proof.
  intros Hs. induction l as [|b l IH] using rev_ind.
  - exists []. cbn [pmul]. rewrite zlen_nil, Z.pow_0_r, Z.mul_1_r. change (poly []) with 0. rewrite Z.mul_0_l, !Z.lxor_0_l. reflexivity.
  - destruct IH as (q & IH). unfold steps in *. rewrite fold_left_app. cbn [fold_left].
    set (s' := fold_left step l s) in *.
    assert (small (S k) s') as Hs' by (apply steps_small; exact Hs).
    exists (xorb (Z.odd s') b :: q). cbn [pmul].
    pose proof (refl_step s' b Hs') as E.
    rewrite poly_app. rewrite zlen_app, zlen_cons, zlen_nil.
    assert (0 <= zlen l) as Hl by apply zlen_pos.
    assert (refl (S k) s * 2 ^ (zlen l + (0 + 1)) = 2 * (refl (S k) s * 2 ^ zlen l)) as ->.
    { rewrite Z.pow_add_r by lia. change (2 ^ (0 + 1)) with 2. ring. }
    assert ((2 * poly l + (if b then 1 else 0)) * 2 ^ Z.of_nat (S k) =
            Z.lxor (2 * (poly l * 2 ^ Z.of_nat (S k))) (if b then 2 ^ Z.of_nat (S k) else 0)) as ->.
    { destruct b; [|rewrite Z.lxor_0_r; ring].
      rewrite <- Z.add_nocarry_lxor; [ring|]. apply Z.bits_inj'. intros n Hn. rewrite Z.land_spec, Z.bits_0.
      destruct (Z.eq_dec n (Z.of_nat (S k))) as [->|N]; [|rewrite (Z.pow2_bits_false (Z.of_nat (S k))) by congruence; apply andb_false_r].
      replace (2 * (poly l * 2 ^ Z.of_nat (S k))) with (Z.shiftl (poly l) (Z.of_nat (S k) + 1)).
      - rewrite Z.shiftl_spec_low by lia. reflexivity.
      - rewrite Z.shiftl_mul_pow2, Z.pow_add_r by lia. change (2 ^ 1) with 2. ring. }
    apply (f_equal (Z.mul 2)) in IH. rewrite !double_lxor in IH.
    revert IH E. generalize (2 * (poly l * 2 ^ Z.of_nat (S k))) (2 * (refl (S k) s * 2 ^ zlen l)) (2 * pmul q G)
      (2 * refl (S k) s') (refl (S k) (step s' b)) (if b then 2 ^ Z.of_nat (S k) else 0) (if xorb (Z.odd s') b then G else 0).
    intros x1 x2 x3 x4 x5 x6 x7 IH E. apply Z.bits_inj'. intros n _.
    apply (f_equal (fun z => Z.testbit z n)) in IH. apply (f_equal (fun z => Z.testbit z n)) in E.
    rewrite !Z.lxor_spec in *.
    destruct (Z.testbit x1 n), (Z.testbit x2 n), (Z.testbit x3 n), (Z.testbit x4 n), (Z.testbit x5 n), (Z.testbit x6 n), (Z.testbit x7 n); cbn in *; congruence.
Qed.

(** *** Linearity and injectivity *)
Lemma step_inj s s' b : small (S k) s -> small (S k) s' -> step s b = step s' b -> s = s'.
Proof.
  intros Hs Hs' E. pose proof (small_div2 _ _ Hs) as D. pose proof (small_div2 _ _ Hs') as D'.
  assert (Z.odd s = Z.odd s') as O.
  { apply (f_equal (fun z => Z.testbit z (Z.of_nat k))) in E. unfold step in E. rewrite !Z.lxor_spec in E.
    rewrite (small_high k _ _ D), (small_high k _ _ D') in E by lia. rewrite !xorb_false_l in E.
    destruct (Z.odd s), (Z.odd s'), b; cbn [xorb] in E; rewrite ?P_top, ?Z.bits_0 in E; congruence. }
  rewrite (Z.div2_odd s), (Z.div2_odd s'), O. f_equal. f_equal.
  unfold step in E. rewrite O in E. apply (f_equal (fun z => Z.lxor z (if xorb (Z.odd s') b then P else 0))) in E.
  now rewrite !Z.lxor_assoc, !Z.lxor_nilpotent, !Z.lxor_0_r in E.
Qed.
Lemma steps_inj : forall l s s', small (S k) s -> small (S k) s' -> steps s l = steps s' l -> s = s'.
Proof.
  induction l as [|b l IH]; cbn; intros s s' Hs Hs' E; [exact E|].
  apply IH in E; [|now apply step_small..]. now apply step_inj in E.
Qed.

(** Feeding up to [k+1] bits is xoring them in and feeding zeros. *)
Lemma steps_num : forall l s, steps s l = steps (Z.lxor s (num l)) (repeat false (length l)).
Proof using.
  induction l as [|b l IH]; intros s; [cbn; now rewrite Z.lxor_0_r|].
  cbn [steps fold_left repeat length]. change (fold_left step l (step s b)) with (steps (step s b) l).
  rewrite IH. unfold steps. f_equal.
  unfold step. rewrite odd_lxor, div2_lxor, num_odd, num_div2, xorb_false_r.
  rewrite !Z.lxor_assoc. f_equal. apply Z.lxor_comm.
Qed.

(** Strings of bits that differ, but only inside [k+1] consecutive bits. *)
Lemma steps_burst s x y y' z : small (S k) s -> length y = length y' -> (length y <= S k)%nat -> y <> y' ->
  steps s (x ++ y ++ z) <> steps s (x ++ y' ++ z).
Proof.
  intros Hs L Lk N E. unfold steps in E. rewrite !fold_left_app in E.
  change (fold_left step x s) with (steps s x) in E. set (t := steps s x) in *.
  assert (small (S k) t) as Ht by now apply steps_small.
  apply (steps_inj z) in E; [|now apply steps_small..].
  change (steps t y = steps t y') in E. rewrite (steps_num y), (steps_num y') in E. rewrite <- L in E.
  pose proof (small_mono _ _ _ Lk (num_small y)) as S1.
  assert (small (S k) (num y')) as S2. { apply (small_mono (length y')); [lia|apply num_small]. }
  apply steps_inj in E; [|now apply small_lxor..].
  apply (f_equal (Z.lxor t)) in E. rewrite <- !Z.lxor_assoc, !Z.lxor_nilpotent, !Z.lxor_0_l in E.
  apply num_inj in E; [contradiction|exact L].
Qed.

End Reg.

(** ** The two routines as shift registers *)
Definition P16 : Z := 33800.        (* 0x8408 *)
Definition P32 : Z := 3988292384.   (* 0xEDB88320 *)
Lemma P16_small : small 16 P16. Proof. split; vm_compute; congruence. Qed.
Lemma P32_small : small 32 P32. Proof. split; vm_compute; congruence. Qed.
Lemma P16_top : Z.testbit P16 (Z.of_nat 15) = true. Proof. reflexivity. Qed.
Lemma P32_top : Z.testbit P32 (Z.of_nat 31) = true. Proof. reflexivity. Qed.

Lemma crc32_bit_step s : crc32_bit s = step P32 s false.
Proof.
  unfold crc32_bit, step. rewrite xorb_false_r, Z.div2_spec. f_equal.
  replace (Z.land s 1) with (Z.b2z (Z.odd s)); [destruct (Z.odd s); reflexivity|].
  change 1 with (Z.ones 1). rewrite Z.land_ones by lia. change (2 ^ 1) with 2. now rewrite Zmod_odd; destruct (Z.odd s).
Qed.
Lemma bits8_num b : is_byte b -> num (bits_of 8 b) = b.
Proof.
  intros Hb. apply (small_ext 8); [apply (num_small (bits_of 8 b))|unfold is_byte in Hb; split; cbn; lia|].
  assert (forall n x i, (i < n)%nat -> Z.testbit (num (bits_of n x)) (Z.of_nat i) = Z.testbit x (Z.of_nat i)) as H.
  { induction n; intros x i Hi; [lia|]. cbn [bits_of]. destruct i.
    - rewrite !Z.bit0_odd. apply num_odd.
    - replace (Z.of_nat (S i)) with (Z.succ (Z.of_nat i)) by lia. rewrite <- (Z.div2_bits x), <- (Z.div2_bits (num (Z.odd x :: bits_of n (Z.div2 x)))) by lia.
      rewrite <- !Z.div2_div, num_div2. apply IHn. lia. }
  intros i Hi. now apply H.
Qed.
Lemma crc32_byte_steps s b : small 32 s -> is_byte b -> crc32_byte s b = steps P32 s (bits_of 8 b).
Proof.
  intros Hs Hb. rewrite (steps_num P32 (bits_of 8 b) s), bits8_num by exact Hb.
  unfold crc32_byte. change (length (bits_of 8 b)) with 8%nat. generalize (Z.lxor s b). intros x.
  cbn. now rewrite !crc32_bit_step.
Qed.

Lemma table16 : forallb (fun i => nth i crc16_table 0 =? steps P16 (Z.of_nat i) (repeat false 8)) (seq 0 256) = true.
Proof. vm_compute. reflexivity. Qed.
Lemma table16_ok i : 0 <= i < 256 -> nth (Z.to_nat i) crc16_table 0 = steps P16 i (repeat false 8).
Proof.
  intros Hi. pose proof table16 as T. rewrite forallb_forall in T. specialize (T (Z.to_nat i)).
  rewrite in_seq in T. rewrite Z2Nat.id in T by lia. apply Z.eqb_eq, T. lia.
Qed.
Lemma steps_lxor P : forall n a b, steps P (Z.lxor a b) (repeat false n) = Z.lxor (steps P a (repeat false n)) (steps P b (repeat false n)).
Proof.
  induction n; intros a b; [reflexivity|]. cbn [repeat steps fold_left].
  change (fold_left (step P) (repeat false n)) with (fun s => steps P s (repeat false n)). cbn beta.
  rewrite <- IHn. f_equal. unfold step. rewrite div2_lxor, odd_lxor, !xorb_false_r.
  apply Z.bits_inj'. intros i _. rewrite !Z.lxor_spec.
  destruct (Z.odd a), (Z.odd b); cbn [xorb]; rewrite ?Z.bits_0;
    destruct (Z.testbit (Z.div2 a) i), (Z.testbit (Z.div2 b) i), (Z.testbit P i); reflexivity.
Qed.
Lemma steps_shift P : forall n a, steps P (a * 2 ^ Z.of_nat n) (repeat false n) = a.
Proof.
  induction n; intros a; [cbn; lia|]. cbn [repeat steps fold_left].
  change (fold_left (step P) (repeat false n)) with (fun s => steps P s (repeat false n)). cbn beta.
  replace (step P (a * 2 ^ Z.of_nat (S n)) false) with (a * 2 ^ Z.of_nat n); [apply IHn|].
  replace (Z.of_nat (S n)) with (Z.of_nat n + 1) by lia. rewrite Z.pow_add_r by lia. change (2 ^ 1) with 2.
  unfold step. rewrite Z.div2_div, Z.mul_assoc, Z.div_mul by lia.
  rewrite Z.odd_mul. change (Z.odd 2) with false. rewrite andb_false_r. cbn [xorb]. now rewrite Z.lxor_0_r.
Qed.
Lemma crc16_byte_steps s b : small 16 s -> is_byte b -> crc16_byte s b = steps P16 s (bits_of 8 b).
Proof.
  intros Hs Hb. rewrite (steps_num P16 (bits_of 8 b) s), bits8_num by exact Hb.
  change (length (bits_of 8 b)) with 8%nat. unfold crc16_byte. unfold is_byte in Hb.
  set (x := Z.lxor s b). rewrite table16_ok.
  2:{ change 255 with (Z.ones 8). rewrite Z.land_ones by lia. apply Z.mod_pos_bound. lia. }
  assert (small 16 x) as Hx by (apply small_lxor; [exact Hs|split; cbn; lia]).
  assert (Z.shiftr s 8 = Z.shiftr x 8) as ->.
  { unfold x. rewrite Z.shiftr_lxor. rewrite (Z.shiftr_div_pow2 b) by lia. rewrite (Z.div_small b) by (cbn; lia). now rewrite Z.lxor_0_r. }
  rewrite <- (steps_shift P16 8 (Z.shiftr x 8)) at 1. rewrite <- steps_lxor. f_equal.
  change (Z.of_nat 8) with 8. rewrite <- Z.shiftl_mul_pow2 by lia.
  apply Z.bits_inj'. intros n Hn. rewrite Z.lxor_spec, Z.land_spec. change 255 with (Z.ones 8).
  destruct (Z_lt_ge_dec n 8).
  - rewrite Z.shiftl_spec_low by lia. rewrite Z.ones_spec_low by lia. rewrite andb_true_r. now destruct (Z.testbit x n).
  - rewrite Z.shiftl_spec, Z.shiftr_spec by lia. rewrite Z.ones_spec_high by lia. rewrite andb_false_r, xorb_false_r. f_equal. lia.
Qed.

Lemma crc16_steps : forall bs s, small 16 s -> Forall is_byte bs -> crc16 s bs = steps P16 s (msg_bits bs).
Proof.
  induction bs as [|b bs IH]; intros s Hs Hb; [reflexivity|]. inversion Hb; subst.
  cbn [crc16 fold_left]. change (fold_left crc16_byte bs (crc16_byte s b)) with (crc16 (crc16_byte s b) bs).
  rewrite crc16_byte_steps by assumption. rewrite IH; [|now apply (steps_small 15 P16 P16_small P16_top)|assumption].
  unfold steps. cbn [msg_bits flat_map]. now rewrite fold_left_app.
Qed.
Lemma crc32_steps : forall bs s, small 32 s -> Forall is_byte bs -> fold_left crc32_byte bs s = steps P32 s (msg_bits bs).
Proof.
  induction bs as [|b bs IH]; intros s Hs Hb; [reflexivity|]. inversion Hb; subst. cbn [fold_left].
  rewrite crc32_byte_steps by assumption. rewrite IH; [|now apply (steps_small 31 P32 P32_small P32_top)|assumption].
  unfold steps. cbn [msg_bits flat_map]. now rewrite fold_left_app.
Qed.
Lemma msg_bits_zlen bs : zlen (msg_bits bs) = 8 * zlen bs.
Proof.
  induction bs as [|b bs IH]; [reflexivity|]. cbn [msg_bits flat_map]. rewrite zlen_app, zlen_cons.
  change (flat_map (bits_of 8) bs) with (msg_bits bs). rewrite IH.
  unfold zlen at 1. rewrite bits_of_length. lia.
Qed.
Lemma msg_bits_app a b : msg_bits (a ++ b) = msg_bits a ++ msg_bits b.
Proof. apply flat_map_app. Qed.

(** ** C29 *)

(** crc_16_ccitt(fcs, bs): the remainder of [bs * x^16 + fcs * x^(8 |bs|)] by
    [G16], bits reflected; the initial value enters reflected too.  The frame check
    sequence starts from 0xffff, which is its own reflection. *)
Theorem C29_crc16 fcs bs : 0 <= fcs < 2 ^ 16 -> Forall is_byte bs ->
  exists init r, reflected 16 fcs init /\
    remainder 16 (Z.lxor (poly (msg_bits bs) * 2 ^ 16) (init * 2 ^ (8 * zlen bs))) G16 r /\
    reflected 16 r (crc16 fcs bs) /\ 0 <= crc16 fcs bs < 2 ^ 16.
Proof.
  intros Hf Hb. assert (small 16 fcs) as Hs by exact Hf.
  rewrite crc16_steps by assumption.
  destruct (steps_division 15 P16 P16_small P16_top fcs (msg_bits bs) Hs) as (q & E).
  exists (refl 16 fcs), (refl 16 (steps P16 fcs (msg_bits bs))).
  split; [apply refl_reflected|]. split; [split; [apply (refl_small 16)|]|split].
  - exists q. rewrite msg_bits_zlen in E. exact E.
  - apply reflected_sym, refl_reflected.
  - exact (steps_small 15 P16 P16_small P16_top (msg_bits bs) fcs Hs).
Qed.

(** crc32(bs): initial value and final complement 0xffffffff. *)
Theorem C29_crc32 bs : Forall is_byte bs ->
  exists r, remainder 32 (Z.lxor (poly (msg_bits bs) * 2 ^ 32) ((2 ^ 32 - 1) * 2 ^ (8 * zlen bs))) G32 r /\
    reflected 32 r (Z.lxor (crc32 bs) (2 ^ 32 - 1)) /\ 0 <= crc32 bs < 2 ^ 32.
Proof.
  intros Hb. assert (small 32 (2 ^ 32 - 1)) as Hs by (split; vm_compute; congruence). unfold crc32.
  change 4294967295 with (2 ^ 32 - 1). rewrite crc32_steps by assumption.
  destruct (steps_division 31 P32 P32_small P32_top _ (msg_bits bs) Hs) as (q & E).
  exists (refl 32 (steps P32 (2 ^ 32 - 1) (msg_bits bs))).
  split; [split; [apply (refl_small 32)|]|split].
  - exists q. rewrite msg_bits_zlen in E. exact E.
  - rewrite Z.lxor_assoc, Z.lxor_nilpotent, Z.lxor_0_r. apply reflected_sym, refl_reflected.
  - apply (small_lxor 32); [exact (steps_small 31 P32 P32_small P32_top (msg_bits bs) _ Hs)|exact Hs].
Qed.

(** The remainder in the two statements is determined by the message: they
    specify the check value uniquely. *)
Theorem C29_unique16 m r r' : remainder 16 m G16 r -> remainder 16 m G16 r' -> r = r'.
Proof. apply (remainder_unique 16). split; vm_compute; congruence. Qed.
Theorem C29_unique32 m r r' : remainder 32 m G32 r -> remainder 32 m G32 r' -> r = r'.
Proof. apply (remainder_unique 32). split; vm_compute; congruence. Qed.

(** Incremental computation. *)
Theorem C29_incremental fcs a b : crc16 fcs (a ++ b) = crc16 (crc16 fcs a) b.
Proof. apply fold_left_app. Qed.

(** The check values of "123456789" are the published ones of CRC-16/MCRF4XX and
    CRC-32. *)
Theorem C29_check : crc16 FCS_INIT_16 [49; 50; 51; 52; 53; 54; 55; 56; 57] = 28561 /\
  crc32 [49; 50; 51; 52; 53; 54; 55; 56; 57] = 3421780262.
Proof. vm_compute. auto. Qed.

(** ** C30 *)

(** Two bit strings differ, but only inside a window of [n] consecutive bits. *)
Definition burst (n : nat) (a b : list bool) : Prop :=
  exists x y y' z, a = x ++ y ++ z /\ b = x ++ y' ++ z /\ length y = length y' /\ (length y <= n)%nat /\ y <> y'.

(** Any error burst of up to 16 (32) bits, in the order in which the bits are
    sent, changes the check value; whatever the messages and their lengths. *)
Theorem C30_burst16 fcs a b : 0 <= fcs < 2 ^ 16 -> Forall is_byte a -> Forall is_byte b ->
  burst 16 (msg_bits a) (msg_bits b) -> crc16 fcs a <> crc16 fcs b.
Proof.
  intros Hf Ha Hb (x & y & y' & z & Ea & Eb & L & Ln & N).
  rewrite !crc16_steps by assumption. rewrite Ea, Eb.
  now apply (steps_burst 15 P16 P16_small P16_top).
Qed.
Theorem C30_burst32 a b : Forall is_byte a -> Forall is_byte b ->
  burst 32 (msg_bits a) (msg_bits b) -> crc32 a <> crc32 b.
Proof.
  intros Ha Hb (x & y & y' & z & Ea & Eb & L & Ln & N) E. unfold crc32 in E.
  change 4294967295 with (2 ^ 32 - 1) in E. assert (small 32 (2 ^ 32 - 1)) as Hs by (split; vm_compute; congruence).
  rewrite !crc32_steps in E by assumption.
  apply (f_equal (fun t => Z.lxor t (2 ^ 32 - 1))) in E.
  rewrite !Z.lxor_assoc, !Z.lxor_nilpotent, !Z.lxor_0_r in E. rewrite Ea, Eb in E.
  revert E. now apply (steps_burst 31 P32 P32_small P32_top).
Qed.

(** In bytes: strings that differ only in 2 (4) consecutive bytes. *)
Lemma bits8_inj a b : is_byte a -> is_byte b -> bits_of 8 a = bits_of 8 b -> a = b.
Proof. intros Ha Hb E. apply (f_equal num) in E. now rewrite !bits8_num in E. Qed.
Lemma msg_bits_inj : forall a b, Forall is_byte a -> Forall is_byte b -> msg_bits a = msg_bits b -> a = b.
Proof.
  induction a as [|x a IH]; intros b Ha Hb E.
  - destruct b; [reflexivity|]. apply (f_equal (@length bool)) in E. cbn in E. discriminate.
  - destruct b as [|y b]; [apply (f_equal (@length bool)) in E; cbn in E; discriminate|].
    inversion Ha; inversion Hb; subst. cbn [msg_bits flat_map] in E.
    apply app_inv_zlen in E; [|unfold zlen; now rewrite !bits_of_length]. destruct E as [E1 E2].
    f_equal; [now apply bits8_inj|now apply IH].
Qed.
Lemma window_burst n x y y' z : Forall is_byte y -> Forall is_byte y' -> length y = length y' -> (length y <= n)%nat -> y <> y' ->
  burst (8 * n) (msg_bits (x ++ y ++ z)) (msg_bits (x ++ y' ++ z)).
Proof.
  intros Hy Hy' L Ln N. exists (msg_bits x), (msg_bits y), (msg_bits y'), (msg_bits z).
  rewrite !msg_bits_app. pose proof (msg_bits_zlen y) as E. pose proof (msg_bits_zlen y') as E'. unfold zlen in *.
  repeat split; try lia. intros F. now apply msg_bits_inj in F.
Qed.
Theorem C30_window16 fcs x y y' z : 0 <= fcs < 2 ^ 16 -> Forall is_byte (x ++ y ++ z) -> Forall is_byte (x ++ y' ++ z) ->
  length y = length y' -> (length y <= 2)%nat -> y <> y' -> crc16 fcs (x ++ y ++ z) <> crc16 fcs (x ++ y' ++ z).
Proof.
  intros Hf Ha Hb L Ln N. apply C30_burst16; [assumption..|]. rewrite !Forall_app in *.
  apply (window_burst 2); tauto.
Qed.
Theorem C30_window32 x y y' z : Forall is_byte (x ++ y ++ z) -> Forall is_byte (x ++ y' ++ z) ->
  length y = length y' -> (length y <= 4)%nat -> y <> y' -> crc32 (x ++ y ++ z) <> crc32 (x ++ y' ++ z).
Proof.
  intros Ha Hb L Ln N. apply C30_burst32; [assumption..|]. rewrite !Forall_app in *.
  apply (window_burst 4); tauto.
Qed.

(** The limit is sharp: a 17-bit burst equal to the generator goes unnoticed. *)
Theorem C30_sharp16 : crc16 FCS_INIT_16 [0; 0; 0] = crc16 FCS_INIT_16 [17; 8; 1] /\ [0; 0; 0] <> [17; 8; 1].
Proof. split; [vm_compute; reflexivity|discriminate]. Qed.
Example C30_case : crc16 FCS_INIT_16 ([1; 8] ++ [0; 9] ++ [7]) <> crc16 FCS_INIT_16 ([1; 8] ++ [255; 1] ++ [7]).
Proof. apply C30_window16; [unfold FCS_INIT_16; lia| | |reflexivity|cbn; lia|discriminate]; repeat constructor; unfold is_byte; lia. Qed.
