(** CrcDist: how many flipped bits the two check sequences are sure to notice (C62). *)
From Coq Require Import FSets.FSetPositive Znumtheory.
From Verif Require Import Base Lists Crc PropCrc CrcSpan.

(** ** Specification *)

(** The number of places in which two bit strings differ. *)
Fixpoint flips (a b : list bool) : nat :=
  match a, b with
  | x :: a, y :: b => ((if Bool.eqb x y then 0 else 1) + flips a b)%nat
  | _, _ => 0%nat
  end.
(** The same for byte strings. *)
Definition bit_errors (a b : list Z) : nat := flips (msg_bits a) (msg_bits b).

(** ** Error strings *)
Fixpoint diff (a b : list bool) : list bool :=
  match a, b with x :: a, y :: b => xorb x y :: diff a b | _, _ => [] end.
Fixpoint ones (l : list bool) : nat := match l with [] => 0%nat | b :: l => ((if b then 1 else 0) + ones l)%nat end.
Lemma flips_ones : forall a b, flips a b = ones (diff a b).
Proof. induction a as [|x a IH]; destruct b as [|y b]; cbn; try reflexivity. rewrite IH. destruct x, y; reflexivity. Qed.
Lemma diff_len : forall a b, length a = length b -> length (diff a b) = length a.
Proof. induction a as [|x a IH]; destruct b as [|y b]; cbn; try discriminate; auto. Qed.
Lemma flips_app : forall a b a' b', length a = length b -> flips (a ++ a') (b ++ b') = (flips a b + flips a' b')%nat.
Proof.
  induction a as [|x a IH]; destruct b as [|y b]; cbn [length app flips]; intros a' b' L; try discriminate; [reflexivity|].
  rewrite IH by (injection L; auto). lia.
Qed.
Lemma flips_0 : forall a b, length a = length b -> flips a b = 0%nat -> a = b.
Proof.
  induction a as [|x a IH]; destruct b as [|y b]; cbn [length flips]; intros L E; try discriminate; [reflexivity|].
  destruct (Bool.eqb_spec x y); [|lia]. subst. f_equal. apply IH; [injection L; auto|lia].
Qed.

(** The exponents of an error string: how many bits follow each error. *)
Fixpoint expo (l : list bool) : list nat :=
  match l with [] => [] | b :: l => if b then length l :: expo l else expo l end.
Lemma expo_ones l : length (expo l) = ones l.
Proof. induction l as [|[] l IH]; cbn; auto. Qed.
(** Strictly decreasing, and below [n]. *)
Fixpoint down (n : nat) (l : list nat) : Prop := match l with [] => True | p :: l => (p < n)%nat /\ down p l end.
Lemma down_mono l : forall n m, (n <= m)%nat -> down n l -> down m l.
Proof. destruct l as [|p l]; cbn; intros n m H; [auto|]. intros [? ?]; split; [lia|auto]. Qed.
Lemma expo_down l : down (length l) (expo l).
Proof.
  induction l as [|b l IH]; [exact I|]. cbn [length expo]. destruct b.
  - cbn [down]. split; [lia|exact IH].
  - eapply down_mono; [|exact IH]. lia.
Qed.

Lemma iter_r {A} (f : A -> A) n x : Nat.iter (S n) f x = Nat.iter n f (f x).
Proof. change (f (Nat.iter n f x) = Nat.iter n f (f x)). induction n as [|n IH]; cbn; [reflexivity|]. exact (f_equal f IH). Qed.
Lemma iter_plus {A} (f : A -> A) n m x : Nat.iter (n + m) f x = Nat.iter n f (Nat.iter m f x).
Proof. induction n as [|n IH]; cbn; [reflexivity|]. exact (f_equal f IH). Qed.

Lemma iter_S {A} (f : A -> A) n x : Nat.iter (S n) f x = f (Nat.iter n f x).
Proof. reflexivity. Qed.

Section Code.
Variable k : nat.
Variable P : Z.
Hypothesis P_small : small (S k) P.
Hypothesis P_top : Z.testbit P (Z.of_nat k) = true.
Let u : Z := 2 ^ Z.of_nat k.
Notation T := (fun s => step P s false).

Definition xors (l : list Z) : Z := fold_right Z.lxor 0 l.
Definition at_ (n : nat) : Z := Nat.iter n T u.

Lemma u_small : small (S k) u.
Proof. split; [apply Z.pow_nonneg; lia|]. apply Z.pow_lt_mono_r; lia. Qed.
Lemma iter_small n s : small (S k) s -> small (S k) (Nat.iter n T s).
Proof. intros Hs. induction n; [exact Hs|]. rewrite iter_S. now apply step_small. Qed.
Lemma at_small n : small (S k) (at_ n).
Proof. apply iter_small, u_small. Qed.
Lemma iter_steps n s : Nat.iter n T s = steps P s (repeat false n).
Proof.
  revert s. induction n as [|n IH]; intros s; [reflexivity|]. rewrite iter_r, IH. reflexivity.
Qed.
Lemma iter_inj n s s' : small (S k) s -> small (S k) s' -> Nat.iter n T s = Nat.iter n T s' -> s = s'.
Proof. rewrite !iter_steps. now apply (steps_inj k P P_small P_top). Qed.
Lemma iter_lxor n a b : Nat.iter n T (Z.lxor a b) = Z.lxor (Nat.iter n T a) (Nat.iter n T b).
Proof. rewrite !iter_steps. apply steps_lxor. Qed.
Lemma at_add n m : at_ (n + m) = Nat.iter n T (at_ m).
Proof. unfold at_. now rewrite iter_plus. Qed.
Lemma at_bit : forall j, (j <= k)%nat -> at_ (k - j) = 2 ^ Z.of_nat j.
Proof.
  intros j Hj. remember (k - j)%nat as d eqn:E. revert j Hj E. induction d as [|d IH]; intros j Hj E.
  - replace j with k by lia. reflexivity.
  - unfold at_ in *. rewrite iter_S. rewrite (IH (S j)) by lia. unfold step.
    replace (2 ^ Z.of_nat (S j)) with (2 * 2 ^ Z.of_nat j) by (rewrite Nat2Z.inj_succ, Z.pow_succ_r by lia; reflexivity).
    rewrite Z.odd_mul. cbn [Z.odd andb xorb]. rewrite Z.lxor_0_r. rewrite Z.div2_div, Z.mul_comm. apply Z.div_mul. lia.
Qed.
Lemma at_P : at_ (S k) = P.
Proof.
  unfold at_. rewrite iter_S. change (Nat.iter k T u) with (at_ k). replace k with (k - 0)%nat at 1 by lia.
  rewrite at_bit by lia. unfold step. cbn. apply Z.lxor_0_l || reflexivity.
Qed.
Lemma steps_expo : forall e s, steps P s e = Z.lxor (Nat.iter (length e) T s) (xors (map (fun d => at_ (S k + d)) (expo e))).
Proof.
  induction e as [|b e IH]; intros s; cbn [expo length map xors fold_right].
  - cbn. now rewrite Z.lxor_0_r.
  - change (steps P s (b :: e)) with (steps P (step P s b) e). rewrite IH, iter_r.
    assert (step P s b = Z.lxor (step P s false) (if b then P else 0)) as ->.
    { unfold step. rewrite Z.lxor_assoc. f_equal. destruct (Z.odd s), b; cbn [xorb];
        rewrite ?Z.lxor_0_l, ?Z.lxor_0_r, ?Z.lxor_nilpotent; reflexivity. }
    rewrite iter_lxor, Z.lxor_assoc. f_equal. destruct b.
    + cbn [map fold_right]. f_equal. replace (S k + length e)%nat with (length e + S k)%nat by lia. rewrite at_add, at_P. reflexivity.
    + assert (forall n, Nat.iter n T 0 = 0) as ->. { induction n as [|n I0]; [reflexivity|]. rewrite iter_S. rewrite I0. reflexivity. }
      now rewrite Z.lxor_0_l.
Qed.
Lemma steps_diff : forall a b s s', length a = length b ->
  Z.lxor (steps P s a) (steps P s' b) = steps P (Z.lxor s s') (diff a b).
Proof.
  induction a as [|x a IH]; destruct b as [|y b]; intros s s' L; try discriminate; [reflexivity|].
  cbn [diff]. change (steps P s (x :: a)) with (steps P (step P s x) a). change (steps P s' (y :: b)) with (steps P (step P s' y) b).
  rewrite IH by (injection L; auto). unfold steps at 2. cbn [fold_left]. fold (steps P (step P (Z.lxor s s') (xorb x y)) (diff a b)).
  f_equal. unfold step. rewrite odd_lxor, div2_lxor.
  destruct (Z.odd s), (Z.odd s'), x, y; cbn [xorb]; rewrite ?Z.lxor_0_r;
    try reflexivity; apply Z.bits_inj'; intros n _; rewrite ?Z.lxor_spec;
    destruct (Z.testbit (Z.div2 s) n), (Z.testbit (Z.div2 s') n), (Z.testbit P n); reflexivity.
Qed.

Lemma expo_app a b : expo (a ++ b) = map (fun d => (length b + d)%nat) (expo a) ++ expo b.
Proof.
  induction a as [|x a IH]; [reflexivity|]. cbn [app expo]. rewrite app_length, IH, (Nat.add_comm (length a)).
  destruct x; reflexivity.
Qed.
Lemma xors_app a b : xors (a ++ b) = Z.lxor (xors a) (xors b).
Proof. induction a as [|x a IH]; cbn [app xors fold_right]; [now rewrite Z.lxor_0_l|]. unfold xors in IH. now rewrite IH, Z.lxor_assoc. Qed.

(** A register value is the sum of the contributions of its bits, lowest bit first. *)
Lemma reg_expo : forall l, (length l <= S k)%nat ->
  num l * 2 ^ Z.of_nat (S k - length l) = xors (map at_ (expo l)).
Proof.
  induction l as [|b l IH]; intros L; [cbn; lia|]. cbn [length] in *. cbn [num expo].
  specialize (IH ltac:(lia)). set (m := (S k - S (length l))%nat) in *.
  replace (S k - length l)%nat with (S m) in IH by (unfold m; lia).
  rewrite Nat2Z.inj_succ, Z.pow_succ_r in IH by lia.
  destruct b; [|cbn [map]; rewrite <- IH; ring].
  cbn [map xors fold_right]. unfold xors in IH. rewrite <- IH.
  replace (length l) with (k - m)%nat by (unfold m; lia). rewrite at_bit by (unfold m; lia).
  rewrite <- Z.add_nocarry_lxor; [ring|].
  apply Z.bits_inj'. intros n Hn. rewrite Z.land_spec, Z.bits_0.
  destruct (Z.eq_dec n (Z.of_nat m)) as [->|N]; [|rewrite (Z.pow2_bits_false (Z.of_nat m)) by congruence; reflexivity].
  replace (num l * (2 * 2 ^ Z.of_nat m)) with (Z.shiftl (num l) (Z.of_nat m + 1)).
  - rewrite Z.shiftl_spec_low by lia. apply andb_false_r.
  - rewrite Z.shiftl_mul_pow2, Z.pow_add_r by lia. change (2 ^ 1) with 2. ring.
Qed.
Lemma num_bits_of n x : small n x -> num (bits_of n x) = x.
Proof.
  revert x. induction n as [|n IH]; intros x Hx; cbn [bits_of].
  - destruct Hx as [A B]. change (2 ^ Z.of_nat 0) with 1 in B. cbn. lia.
  - cbn [num]. rewrite IH by now apply small_div2. rewrite (Z.div2_odd x) at 3. destruct (Z.odd x); cbn [Z.b2z]; lia.
Qed.
Lemma bits_diff : forall n x y, diff (bits_of n x) (bits_of n y) = bits_of n (Z.lxor x y).
Proof. induction n as [|n IH]; intros x y; cbn [bits_of diff]; [reflexivity|]. now rewrite IH, odd_lxor, div2_lxor. Qed.

(** The error string of two messages with their check values adds up to nothing. *)
Lemma codeword a b s : length a = length b -> small (S k) s ->
  xors (map at_ (expo (diff a b ++ diff (bits_of (S k) (steps P s a)) (bits_of (S k) (steps P s b))))) = 0.
Proof.
  intros L Hs. rewrite bits_diff, steps_diff, Z.lxor_nilpotent by exact L.
  set (x := steps P 0 (diff a b)).
  assert (small (S k) x) as Hx.
  { apply (steps_small k P P_small P_top). split; [lia|apply Z.pow_pos_nonneg; lia]. }
  rewrite expo_app, map_app, xors_app, bits_of_length, map_map.
  pose proof (reg_expo (bits_of (S k) x)) as R. rewrite bits_of_length in R. specialize (R ltac:(lia)).
  rewrite <- R, num_bits_of, Nat.sub_diag, Z.mul_1_r by exact Hx.
  unfold x. rewrite (steps_expo (diff a b) 0).
  assert (forall n, Nat.iter n T 0 = 0) as ->. { induction n as [|n I0]; [reflexivity|]. rewrite iter_S. rewrite I0. reflexivity. }
  rewrite Z.lxor_0_l. apply Z.lxor_nilpotent.
Qed.

(** ** Few errors *)
Definition no_pair (N : nat) : Prop := forall i, (0 < i < N)%nat -> at_ i <> u.
Definition no_triple (N : nat) : Prop := forall i j, (0 < i < N)%nat -> (j < N)%nat -> at_ j <> Z.lxor u (at_ i).

Lemma at_pos n : at_ n <> 0.
Proof.
  intros E. assert (Nat.iter n T u = Nat.iter n T 0) as E'.
  { transitivity 0; [exact E|]. symmetry. clear. induction n as [|n I0]; [reflexivity|]. rewrite iter_S. rewrite I0. reflexivity. }
  apply iter_inj in E'; [|apply u_small|split; [lia|apply Z.pow_pos_nonneg; lia]].
  unfold u in E'. pose proof (Z.pow_pos_nonneg 2 (Z.of_nat k)). lia.
Qed.
Lemma at_sub p q : (q <= p)%nat -> at_ p = Nat.iter q T (at_ (p - q)).
Proof. intros H. rewrite <- at_add. f_equal. lia. Qed.
Lemma lxor_eq0 a b : Z.lxor a b = 0 -> a = b.
Proof. apply Z.lxor_eq. Qed.

Lemma not_one c : ones c = 1%nat -> xors (map at_ (expo c)) <> 0.
Proof.
  intros H E. pose proof (expo_ones c) as L. rewrite H in L. destruct (expo c) as [|p [|]]; try discriminate.
  cbn in E. rewrite Z.lxor_0_r in E. now apply at_pos in E.
Qed.
Lemma not_two N c : no_pair N -> (length c <= N)%nat -> ones c = 2%nat -> xors (map at_ (expo c)) <> 0.
Proof.
  intros HN HL H E. pose proof (expo_ones c) as L. pose proof (expo_down c) as D. rewrite H in L.
  destruct (expo c) as [|p [|q [|]]]; try discriminate. cbn [map xors fold_right down] in *. destruct D as (D1 & D2 & _).
  rewrite Z.lxor_0_r in E. apply lxor_eq0 in E. rewrite (at_sub p q) in E by lia.
  apply iter_inj in E; [|apply at_small|apply u_small]. apply (HN (p - q)%nat); [lia|exact E].
Qed.
Lemma not_three N c : no_triple N -> (length c <= N)%nat -> ones c = 3%nat -> xors (map at_ (expo c)) <> 0.
Proof.
  intros HN HL H E. pose proof (expo_ones c) as L. pose proof (expo_down c) as D. rewrite H in L.
  destruct (expo c) as [|p [|q [|r [|]]]]; try discriminate. cbn [map xors fold_right down] in *. destruct D as (D1 & D2 & D3 & _).
  rewrite Z.lxor_0_r in E. apply lxor_eq0 in E. rewrite (at_sub p r), (at_sub q r) in E by lia.
  change (at_ r) with (Nat.iter r T u) in E. rewrite <- iter_lxor in E.
  apply iter_inj in E; [|apply at_small|apply small_lxor; [apply at_small|apply u_small]].
  rewrite Z.lxor_comm in E. apply (HN (q - r)%nat (p - r)%nat); [lia|lia|exact E].
Qed.

(** If the polynomial has an odd number of terms below the top - it is divisible by
    x + 1 - the register's parity never changes. *)
Fixpoint parity (n : nat) (x : Z) : bool := match n with O => false | S n => xorb (Z.odd x) (parity n (Z.div2 x)) end.
Lemma parity_lxor : forall n x y, parity n (Z.lxor x y) = xorb (parity n x) (parity n y).
Proof.
  induction n as [|n IH]; intros x y; cbn [parity]; [reflexivity|]. rewrite odd_lxor, div2_lxor, IH.
  destruct (Z.odd x), (Z.odd y), (parity n (Z.div2 x)), (parity n (Z.div2 y)); reflexivity.
Qed.
Lemma parity_0 n : parity n 0 = false.
Proof. induction n as [|n IH]; [reflexivity|]. change (xorb false (parity n 0) = false). now rewrite IH. Qed.
Lemma parity_S : forall n x, small n x -> parity (S n) x = parity n x.
Proof.
  induction n as [|n IH]; intros x Hx.
  - destruct Hx as [A B]. change (2 ^ Z.of_nat 0) with 1 in B. replace x with 0 by lia. reflexivity.
  - cbn [parity]. f_equal. apply (IH (Z.div2 x)). now apply small_div2.
Qed.
Lemma parity_T s : parity (S k) P = true -> small (S k) s -> parity (S k) (T s) = parity (S k) s.
Proof.
  intros HP Hs. unfold step. rewrite parity_lxor, xorb_false_r.
  rewrite (parity_S k (Z.div2 s)) by now apply small_div2. cbn [parity].
  destruct (Z.odd s); [change (xorb (Z.odd P) (parity k (Z.div2 P))) with (parity (S k) P); rewrite HP|rewrite parity_0];
    cbn [parity]; destruct (parity k (Z.div2 s)); reflexivity.
Qed.
Lemma parity_at n : parity (S k) P = true -> parity (S k) (at_ n) = parity (S k) u.
Proof.
  intros HP. induction n as [|n IH]; [reflexivity|]. rewrite <- IH. unfold at_. rewrite iter_S.
  apply parity_T; [exact HP|apply at_small].
Qed.
Lemma not_odd c : parity (S k) P = true -> parity (S k) u = true -> Nat.odd (ones c) = true -> xors (map at_ (expo c)) <> 0.
Proof.
  intros HP Hu. rewrite <- expo_ones. intros Ho E.
  assert (forall l, parity (S k) (xors (map at_ l)) = Nat.odd (length l)) as Hl.
  { induction l as [|p l IH]; cbn [map xors fold_right length]; [apply parity_0|].
    rewrite parity_lxor, parity_at, Hu by exact HP. unfold xors in IH. rewrite IH.
    rewrite Nat.odd_succ, <- Nat.negb_odd. destruct (Nat.odd (length l)); reflexivity. }
  specialize (Hl (expo c)). rewrite E, parity_0, Ho in Hl. discriminate.
Qed.

(** ** The period of the register *)
Fixpoint mapp (M : list Z) (s : Z) : Z :=
  match M with [] => 0 | c :: M => Z.lxor (if Z.odd s then c else 0) (mapp M (Z.div2 s)) end.
Definition cols (n : nat) : list Z := map (fun j => Nat.iter n T (2 ^ Z.of_nat j)) (seq 0 (S k)).
Lemma iter_0 n : Nat.iter n T 0 = 0.
Proof. induction n as [|n I0]; [reflexivity|]. rewrite iter_S, I0. reflexivity. Qed.
Lemma mapp_gen n : forall m j s, small m s ->
  mapp (map (fun j => Nat.iter n T (2 ^ Z.of_nat j)) (seq j m)) s = Nat.iter n T (s * 2 ^ Z.of_nat j).
Proof.
  induction m as [|m IH]; intros j s Hs.
  - destruct Hs as [A B]. change (2 ^ Z.of_nat 0) with 1 in B. replace s with 0 by lia. cbn [seq map mapp].
    rewrite Z.mul_0_l. symmetry. apply iter_0.
  - cbn [seq map mapp]. rewrite IH by now apply small_div2.
    assert (s * 2 ^ Z.of_nat j = Z.lxor (if Z.odd s then 2 ^ Z.of_nat j else 0) (Z.div2 s * 2 ^ Z.of_nat (S j))) as ->.
    { rewrite Nat2Z.inj_succ, Z.pow_succ_r by lia. rewrite (Z.div2_odd s) at 1. destruct (Z.odd s); cbn [Z.b2z].
      - rewrite <- Z.add_nocarry_lxor; [ring|].
        apply Z.bits_inj'. intros i Hi. rewrite Z.land_spec, Z.bits_0.
        destruct (Z.eq_dec i (Z.of_nat j)) as [->|N]; [|rewrite (Z.pow2_bits_false (Z.of_nat j)) by congruence; reflexivity].
        replace (Z.div2 s * (2 * 2 ^ Z.of_nat j)) with (Z.shiftl (Z.div2 s) (Z.of_nat j + 1)).
        + rewrite Z.shiftl_spec_low by lia. apply andb_false_r.
        + rewrite Z.shiftl_mul_pow2, Z.pow_add_r by lia. change (2 ^ 1) with 2. ring.
      - rewrite Z.lxor_0_l. ring. }
    rewrite iter_lxor. f_equal. destruct (Z.odd s); [reflexivity|]. symmetry. apply iter_0.
Qed.
Lemma mapp_cols n s : small (S k) s -> mapp (cols n) s = Nat.iter n T s.
Proof. intros Hs. unfold cols. rewrite mapp_gen by exact Hs. f_equal. change (2 ^ Z.of_nat 0) with 1. lia. Qed.
Lemma cols_add n m : cols (n + m) = map (mapp (cols n)) (cols m).
Proof.
  unfold cols at 1 3. rewrite map_map. apply map_ext_in. intros j Hj. apply in_seq in Hj.
  rewrite iter_plus, mapp_cols; [reflexivity|]. apply iter_small. split; [apply Z.pow_nonneg; lia|apply Z.pow_lt_mono_r; lia].
Qed.
Fixpoint pcols (p : positive) : list Z :=
  match p with
  | xH => cols 1
  | xO p => let M := pcols p in map (mapp M) M
  | xI p => let M := pcols p in map (mapp (cols 1)) (map (mapp M) M)
  end.
Lemma pcols_ok p : pcols p = cols (Pos.to_nat p).
Proof.
  induction p as [p IH|p IH|]; cbn [pcols]; [| |reflexivity].
  - rewrite IH, <- !cols_add. f_equal. lia.
  - rewrite IH, <- cols_add. f_equal. lia.
Qed.
Definition period (p : positive) : bool := mapp (pcols p) u =? u.
Lemma period_iff p : period p = true <-> at_ (Pos.to_nat p) = u.
Proof. unfold period. rewrite pcols_ok, mapp_cols by apply u_small. apply Z.eqb_eq. Qed.

Definition Per (n : nat) : Prop := at_ n = u.
Lemma Per_add n m : Per n -> Per m -> Per (n + m).
Proof. unfold Per. intros Hn Hm. rewrite at_add, Hm. exact Hn. Qed.
Lemma Per_sub n m : Per (n + m) -> Per n -> Per m.
Proof.
  unfold Per. intros Hs Hn. apply (iter_inj n); [apply at_small|apply u_small|].
  rewrite <- at_add, Hs. symmetry. exact Hn.
Qed.
Lemma Per_mul c n : Per n -> Per (c * n).
Proof. intros Hn. induction c as [|c IH]; [reflexivity|]. cbn [Nat.mul]. now apply Per_add. Qed.
Lemma Per_gcd n m : n <> O -> Per n -> Per m -> Per (Nat.gcd n m).
Proof.
  intros N Hn Hm. destruct (Nat.gcd_bezout_pos n m ltac:(lia)) as (a & b & E).
  apply (Per_sub (b * m)); [|now apply Per_mul]. rewrite Nat.add_comm, <- E. now apply Per_mul.
Qed.

(** [q] has no divisors but 1 and itself. *)
Fixpoint upfrom (z : Z) (n : nat) : list Z := match n with O => [] | S n => z :: upfrom (z + 1) n end.
Lemma in_upfrom : forall n z x, z <= x < z + Z.of_nat n -> In x (upfrom z n).
Proof.
  induction n as [|n IH]; intros z x H; cbn [upfrom]; [lia|]. destruct (Z.eq_dec z x); [now left|]. right. apply IH. lia.
Qed.
Definition primeb (q : positive) : bool :=
  (1 <? Zpos q) && forallb (fun h => negb (Zpos q mod h =? 0)) (upfrom 2 (Pos.to_nat q - 2)).
Definition order_check (M : positive) (qs : list positive) : bool :=
  period M && (Zpos M =? fold_right (fun q a => Zpos q * a) 1 qs) &&
  forallb (fun q => primeb q && negb (period (Z.to_pos (Zpos M / Zpos q)))) qs.

Lemma prime_divisor q c : primeb q = true -> Z.gcd c (Zpos q) <> 1 -> (Zpos q | c).
Proof.
  unfold primeb. rewrite andb_true_iff, forallb_forall. intros [Hq Hf] Hg.
  pose proof (Z.gcd_nonneg c (Zpos q)) as G0. pose proof (Z.gcd_divide_r c (Zpos q)) as Gr. pose proof (Z.gcd_divide_l c (Zpos q)) as Gl.
  set (h := Z.gcd c (Zpos q)) in *. assert (h <> 0) as H0 by (intros E; rewrite E in Gr; destruct Gr; lia).
  pose proof (Z.divide_pos_le h (Zpos q) ltac:(lia) Gr) as Hle.
  destruct (Z.eq_dec h (Zpos q)) as [E|N]; [rewrite <- E; exact Gl|]. exfalso.
  assert (In h (upfrom 2 (Pos.to_nat q - 2))) as Hin by (apply in_upfrom; lia). specialize (Hf h Hin).
  apply Z.mod_divide in Gr; [|lia]. rewrite Gr in Hf. discriminate.
Qed.
Lemma coprime_all c qs : (forall q, In q qs -> Z.gcd c (Zpos q) = 1) -> Z.gcd c (fold_right (fun q a => Zpos q * a) 1 qs) = 1.
Proof.
  induction qs as [|q qs IH]; intros H; cbn [fold_right]; [apply Z.gcd_1_r|].
  assert (Z.gcd c (Zpos q) = 1) as H1 by (apply H; now left).
  assert (Z.gcd c (fold_right (fun q a => Zpos q * a) 1 qs) = 1) as H2 by (apply IH; intros; apply H; now right).
  apply Zgcd_1_rel_prime. apply rel_prime_mult; apply Zgcd_1_rel_prime; assumption.
Qed.
Lemma order_ok M qs : order_check M qs = true -> no_pair (Pos.to_nat M).
Proof.
  unfold order_check. rewrite !andb_true_iff, forallb_forall. intros [[HM Hprod] Hqs] d Hd Hu.
  apply period_iff in HM. apply Z.eqb_eq in Hprod.
  pose proof (Per_gcd d (Pos.to_nat M) ltac:(lia) Hu HM) as Hg.
  pose proof (Nat.gcd_divide_l d (Pos.to_nat M)) as Dl. pose proof (Nat.gcd_divide_r d (Pos.to_nat M)) as Dr.
  set (g := Nat.gcd d (Pos.to_nat M)) in *. apply Nat.divide_pos_le in Dl; [|lia]. destruct Dr as (c & Ec).
  assert ((exists q, In q qs /\ Z.gcd (Z.of_nat c) (Zpos q) <> 1) \/ (forall q, In q qs -> Z.gcd (Z.of_nat c) (Zpos q) = 1)) as [(q & Hq & Hc)|Hall].
  { clear. induction qs as [|q qs IH]; [right; intros ? []|]. destruct (Z.eq_dec (Z.gcd (Z.of_nat c) (Zpos q)) 1) as [E|N].
    - destruct IH as [(q' & H1 & H2)|H]; [left; exists q'; split; [now right|exact H2]|].
      right. intros q' [<-|H1]; auto.
    - left. exists q. split; [now left|exact N]. }
  - specialize (Hqs _ Hq). apply andb_true_iff in Hqs. destruct Hqs as [Hp Hn].
    destruct (prime_divisor q _ Hp Hc) as (c' & Ec').
    assert (0 < c') as Hc' by nia.
    assert (Zpos M / Zpos q = c' * Z.of_nat g) as Eq.
    { replace (Zpos M) with (c' * Z.of_nat g * Zpos q).
      - apply Z.div_mul. lia.
      - rewrite <- (positive_nat_Z M), Ec, Nat2Z.inj_mul, Ec'. ring. }
    assert (0 < Z.of_nat g) as Hg0 by nia.
    apply negb_true_iff in Hn. apply Bool.not_true_iff_false in Hn. apply Hn. apply period_iff.
    rewrite Eq. replace (Pos.to_nat (Z.to_pos (c' * Z.of_nat g))) with (Z.to_nat c' * g)%nat.
    + now apply Per_mul.
    + rewrite <- Z2Nat.inj_pos, Z2Pos.id by nia. rewrite Z2Nat.inj_mul, Nat2Z.id by lia. reflexivity.
  - apply coprime_all in Hall. rewrite <- Hprod in Hall.
    assert ((Z.of_nat c | Zpos M)) as Hdv. { exists (Z.of_nat g). rewrite <- (positive_nat_Z M), Ec. lia. }
    apply Z.divide_gcd_iff in Hdv; [|lia]. rewrite Hdv in Hall. assert (c = 1%nat) by lia. subst c. lia.
Qed.

(** ** No three *)
Fixpoint orbit (n : nat) (s : Z) (acc : list Z) : list Z := match n with O => acc | S n => orbit n (T s) (s :: acc) end.
Lemma orbit_in : forall n s acc x, In x (orbit n s acc) <-> In x acc \/ exists i, (i < n)%nat /\ x = Nat.iter i T s.
Proof.
  induction n as [|n IH]; intros s acc x; cbn [orbit].
  - split; [auto|]. intros [H|(i & H & _)]; [exact H|lia].
  - rewrite IH. cbn [In]. split.
    + intros [[H|H]|(i & Hi & ->)]; [right; exists O; split; [lia|now rewrite <- H]|auto|].
      right. exists (S i). split; [lia|]. now rewrite iter_r.
    + intros [H|([|i] & Hi & ->)]; [auto|left; now left|]. right. exists i. split; [lia|]. now rewrite iter_r.
Qed.
Definition in_set (l : list Z) : PositiveSet.t := fold_left (fun m x => PositiveSet.add (Z.to_pos x) m) l PositiveSet.empty.
Lemma in_set_ok l : forall x, In x l -> PositiveSet.mem (Z.to_pos x) (in_set l) = true.
Proof.
  unfold in_set. assert (forall l m x, PositiveSet.mem (Z.to_pos x) m = true \/ In x l ->
    PositiveSet.mem (Z.to_pos x) (fold_left (fun m x => PositiveSet.add (Z.to_pos x) m) l m) = true) as H.
  { clear. induction l as [|y l IH]; intros m x; cbn [fold_left]; [intros [H|[]]; exact H|].
    intros [H|[->|H]]; apply IH; [left|left|right; exact H].
    - apply PositiveSet.mem_1, PositiveSet.add_2, PositiveSet.mem_2, H.
    - apply PositiveSet.mem_1, PositiveSet.add_1. reflexivity. }
  intros x Hx. apply H. now right.
Qed.
Definition triple_check (N : Z) : bool :=
  let o := orbit (Z.to_nat N - 1) (T u) [] in
  let m := in_set (u :: o) in
  forallb (fun s => negb (PositiveSet.mem (Z.to_pos (Z.lxor u s)) m)) o.
Lemma triple_ok N : triple_check N = true -> no_triple (Z.to_nat N).
Proof.
  unfold triple_check. rewrite forallb_forall. intros H i j Hi Hj E.
  assert (In (at_ i) (orbit (Z.to_nat N - 1) (T u) [])) as Hin.
  { apply orbit_in. right. exists (i - 1)%nat. split; [lia|]. destruct i as [|i]; [lia|]. unfold at_. rewrite iter_r. f_equal. lia. }
  specialize (H _ Hin). rewrite <- E in H. rewrite in_set_ok in H; [discriminate|].
  destruct j as [|j]; [now left|]. right. apply orbit_in. right. exists j. split; [lia|]. unfold at_. now rewrite iter_r.
Qed.
Lemma not_three_Z N c : triple_check N = true -> Z.of_nat (length c) <= N -> ones c = 3%nat -> xors (map at_ (expo c)) <> 0.
Proof. intros HN HL. apply (not_three (Z.to_nat N)); [now apply triple_ok|lia]. Qed.
Lemma not_two_Z M qs c : order_check M qs = true -> Z.of_nat (length c) <= Zpos M -> ones c = 2%nat -> xors (map at_ (expo c)) <> 0.
Proof. intros HN HL. apply (not_two (Pos.to_nat M)); [exact (order_ok M qs HN)|lia]. Qed.
End Code.

Lemma order16 : order_check 15 P16 32767 [7; 31; 151]%positive = true.
Proof. vm_compute. reflexivity. Qed.
Lemma order32 : order_check 31 P32 4294967295 [3; 5; 17; 257; 65537]%positive = true.
Proof. vm_compute. reflexivity. Qed.
Lemma triple32 : triple_check 31 P32 91639 = true.
Proof. vm_compute. reflexivity. Qed.

(** ** Theorems *)
Lemma bits_split : forall n m x, bits_of (n + m) x = bits_of n x ++ bits_of m (x / 2 ^ Z.of_nat n).
Proof.
  induction n as [|n IH]; intros m x.
  - change (2 ^ Z.of_nat 0) with 1. rewrite Z.div_1_r. reflexivity.
  - cbn [Nat.add bits_of app]. rewrite IH. do 3 f_equal. rewrite Z.div2_div, Z.div_div by lia. f_equal.
    rewrite Nat2Z.inj_succ, Z.pow_succ_r by lia. reflexivity.
Qed.
Lemma bits8_mod x : bits_of 8 (x mod 256) = bits_of 8 x.
Proof.
  apply nth_ext with (d := false) (d' := false); [now rewrite !bits_of_length|]. intros n Hn. rewrite bits_of_length in Hn.
  rewrite !bits_of_nth by exact Hn. change 256 with (2 ^ 8). apply Z.mod_pow2_bits_low. lia.
Qed.
Lemma be16_flips x y : flips (msg_bits (be16 x)) (msg_bits (be16 y)) = flips (bits_of 16 x) (bits_of 16 y).
Proof.
  unfold be16, msg_bits. cbn [flat_map]. rewrite !app_nil_r, !bits8_mod.
  change 16%nat with (8 + 8)%nat. rewrite !(bits_split 8 8). rewrite !flips_app by now rewrite !bits_of_length.
  change (2 ^ Z.of_nat 8) with (2 ^ 8). lia.
Qed.
Lemma be32_flips x y : flips (msg_bits (be32 x)) (msg_bits (be32 y)) = flips (bits_of 32 x) (bits_of 32 y).
Proof.
  unfold be32, msg_bits. cbn [flat_map]. rewrite !app_nil_r, !bits8_mod.
  change 32%nat with (8 + (8 + (8 + 8)))%nat. rewrite !bits_split. rewrite !flips_app by now rewrite ?app_length, !bits_of_length.
  change (2 ^ Z.of_nat 8) with (2 ^ 8). rewrite !Z.div_div by lia. rewrite <- !Z.pow_add_r by lia. cbn [Z.add Pos.add]. lia.
Qed.
Lemma msg_bits_length bs : length (msg_bits bs) = (8 * length bs)%nat.
Proof. induction bs as [|b bs IH]; [reflexivity|]. cbn [msg_bits flat_map length]. rewrite app_length, bits_of_length. unfold msg_bits in IH. lia. Qed.

(** *** C62: up to three flipped bits, wherever they are *)

(** The serial check sequence: any two different byte strings of the same length
    (up to 4093 bytes; a frame has at most 257) differ, with their check sequences, in at
    least four bits. *)
Theorem C62_distance16 fcs a b : 0 <= fcs < 2 ^ 16 -> Forall is_byte a -> Forall is_byte b ->
  length a = length b -> (length a <= 4093)%nat -> a <> b ->
  (4 <= bit_errors (a ++ be16 (crc16 fcs a)) (b ++ be16 (crc16 fcs b)))%nat.
Proof.
  intros Hf Ha Hb L Hl N. unfold bit_errors. rewrite !msg_bits_app.
  assert (length (msg_bits a) = length (msg_bits b)) as LB by (rewrite !msg_bits_length; lia).
  rewrite flips_app, be16_flips by exact LB. rewrite !crc16_steps by assumption.
  set (d := bits_of 16 (steps P16 fcs (msg_bits a))). set (d' := bits_of 16 (steps P16 fcs (msg_bits b))).
  assert (length d = 16%nat) as L1 by apply bits_of_length. assert (length d' = 16%nat) as L2 by apply bits_of_length.
  pose proof (codeword 15 P16 P16_small P16_top _ _ fcs LB Hf) as HC. cbn [Nat.add] in HC. fold d d' in HC.
  assert (forall p q p' q', ones (diff p q ++ diff p' q') = (flips p q + flips p' q')%nat) as HO.
  { intros. rewrite !flips_ones. generalize (diff p q), (diff p' q'). clear. induction l as [|x l IH]; intros l'; cbn; [reflexivity|]. rewrite IH. lia. }
  set (c := diff (msg_bits a) (msg_bits b) ++ diff d d') in *.
  assert (length c = (8 * length a + 16)%nat) as Lc by (unfold c; rewrite app_length, !diff_len by lia; rewrite msg_bits_length; lia).
  pose proof (HO (msg_bits a) (msg_bits b) d d') as Hc. fold c in Hc. rewrite <- Hc.
  assert (ones c <> 0%nat) as N0.
  { intros E. apply N. apply msg_bits_inj; try assumption. apply flips_0; [exact LB|lia]. }
  assert (ones c <> 2%nat) as N2.
  { intros E. revert HC. apply (not_two_Z 15 P16 P16_small P16_top _ _ _ order16); [lia|exact E]. }
  assert (Nat.odd (ones c) = false) as N1.
  { destruct (Nat.odd (ones c)) eqn:E; [|reflexivity]. exfalso. revert HC.
    apply (not_odd 15 P16 P16_small P16_top); [reflexivity|reflexivity|exact E]. }
  destruct (ones c) as [|[|[|[|n]]]]; try discriminate; try congruence; lia.
Qed.
(** And an odd number of flipped bits is noticed at any length. *)
Theorem C62_odd16 fcs a b : 0 <= fcs < 2 ^ 16 -> Forall is_byte a -> Forall is_byte b -> length a = length b ->
  Nat.even (bit_errors (a ++ be16 (crc16 fcs a)) (b ++ be16 (crc16 fcs b))) = true.
Proof.
  intros Hf Ha Hb L. unfold bit_errors. rewrite !msg_bits_app.
  assert (length (msg_bits a) = length (msg_bits b)) as LB by (rewrite !msg_bits_length; lia).
  rewrite flips_app, be16_flips by exact LB. rewrite !crc16_steps by assumption.
  set (d := bits_of 16 (steps P16 fcs (msg_bits a))). set (d' := bits_of 16 (steps P16 fcs (msg_bits b))).
  pose proof (codeword 15 P16 P16_small P16_top _ _ fcs LB Hf) as HC. cbn [Nat.add] in HC. fold d d' in HC.
  assert (forall p q p' q', ones (diff p q ++ diff p' q') = (flips p q + flips p' q')%nat) as HO.
  { intros. rewrite !flips_ones. generalize (diff p q), (diff p' q'). clear. induction l as [|x l IH]; intros l'; cbn; [reflexivity|]. rewrite IH. lia. }
  rewrite <- HO. rewrite <- Nat.negb_odd. apply negb_true_iff.
  destruct (Nat.odd (ones _)) eqn:E; [|reflexivity]. exfalso. revert HC.
  apply (not_odd 15 P16 P16_small P16_top); [reflexivity|reflexivity|exact E].
Qed.

(** The LPC checksum: at least four bits for packets of up to 11450 bytes, at least
    three for packets of up to half a gigabyte. *)
Lemma distance32 a b : Forall is_byte a -> Forall is_byte b -> length a = length b -> a <> b ->
  exists c, bit_errors (a ++ be32 (crc32 a)) (b ++ be32 (crc32 b)) = ones c /\ ones c <> 0%nat /\
    length c = (8 * length a + 32)%nat /\ xors (map (at_ 31 P32) (expo c)) = 0.
Proof.
  intros Ha Hb L N. unfold bit_errors. rewrite !msg_bits_app.
  assert (length (msg_bits a) = length (msg_bits b)) as LB by (rewrite !msg_bits_length; lia).
  rewrite flips_app, be32_flips by exact LB. unfold crc32.
  assert (small 32 4294967295) as Hs by (split; vm_compute; congruence).
  rewrite !crc32_steps by assumption.
  set (x := steps P32 4294967295 (msg_bits a)). set (y := steps P32 4294967295 (msg_bits b)).
  assert (flips (bits_of 32 (Z.lxor x 4294967295)) (bits_of 32 (Z.lxor y 4294967295)) = flips (bits_of 32 x) (bits_of 32 y)) as ->.
  { rewrite !flips_ones, !bits_diff. do 2 f_equal. apply Z.bits_inj'. intros n _. rewrite !Z.lxor_spec.
    destruct (Z.testbit x n), (Z.testbit y n), (Z.testbit 4294967295 n); reflexivity. }
  set (d := bits_of 32 x). set (d' := bits_of 32 y).
  assert (length d = 32%nat) as L1 by apply bits_of_length. assert (length d' = 32%nat) as L2 by apply bits_of_length.
  pose proof (codeword 31 P32 P32_small P32_top _ _ 4294967295 LB Hs) as HC. cbn [Nat.add] in HC. fold x y d d' in HC.
  assert (forall p q p' q', ones (diff p q ++ diff p' q') = (flips p q + flips p' q')%nat) as HO.
  { intros. rewrite !flips_ones. generalize (diff p q), (diff p' q'). clear. induction l as [|z l IH]; intros l'; cbn; [reflexivity|]. rewrite IH. lia. }
  exists (diff (msg_bits a) (msg_bits b) ++ diff d d'). split; [now rewrite HO|]. split; [|split; [|exact HC]].
  - rewrite HO. intros E. apply N. apply msg_bits_inj; try assumption. apply flips_0; [exact LB|lia].
  - rewrite app_length, !diff_len by lia. rewrite msg_bits_length. lia.
Qed.
Theorem C62_distance32_large a b : Forall is_byte a -> Forall is_byte b -> length a = length b -> a <> b ->
  zlen a <= 536870000 -> (3 <= bit_errors (a ++ be32 (crc32 a)) (b ++ be32 (crc32 b)))%nat.
Proof.
  intros Ha Hb L N Hl. destruct (distance32 a b Ha Hb L N) as (c & -> & N0 & Lc & HC). unfold zlen in Hl.
  assert (ones c <> 1%nat) as N1 by (intros E; revert HC; now apply (not_one 31 P32 P32_small P32_top)).
  assert (ones c <> 2%nat) as N2.
  { intros E. revert HC. apply (not_two_Z 31 P32 P32_small P32_top _ _ _ order32); [lia|exact E]. }
  lia.
Qed.
Theorem C62_distance32 a b : Forall is_byte a -> Forall is_byte b -> length a = length b -> a <> b ->
  zlen a <= 11450 -> (4 <= bit_errors (a ++ be32 (crc32 a)) (b ++ be32 (crc32 b)))%nat.
Proof.
  intros Ha Hb L N Hl. pose proof (C62_distance32_large a b Ha Hb L N ltac:(lia)) as H3.
  destruct (distance32 a b Ha Hb L N) as (c & E & N0 & Lc & HC). rewrite E in *. unfold zlen in Hl.
  assert (ones c <> 3%nat) as N3.
  { intros E3. revert HC. apply (not_three_Z 31 P32 P32_small P32_top _ _ triple32); [lia|exact E3]. }
  lia.
Qed.

(** Both bounds are sharp. *)
Theorem C62_sharp16 : exists a b, Forall is_byte a /\ Forall is_byte b /\ length a = length b /\ a <> b /\
  bit_errors (a ++ be16 (crc16 FCS_INIT_16 a)) (b ++ be16 (crc16 FCS_INIT_16 b)) = 4%nat.
Proof.
  exists [0; 0; 0], [17; 8; 1]. repeat split; try discriminate; repeat constructor; try (unfold is_byte; lia).
Qed.
Definition far : list Z := 1 :: repeat 0 (Z.to_nat 6244) ++ 2 :: repeat 0 (Z.to_nat 5205).
Theorem C62_sharp32 : exists a b, Forall is_byte a /\ Forall is_byte b /\ length a = length b /\ a <> b /\
  zlen a = 11451 /\ bit_errors (a ++ be32 (crc32 a)) (b ++ be32 (crc32 b)) = 3%nat.
Proof.
  exists (repeat 0 (Z.to_nat 11451)), far.
  assert (forall l, forallb (fun x => (0 <=? x) && (x <? 256)) l = true -> Forall is_byte l) as HB.
  { intros l H. apply Forall_forall. intros x Hx. rewrite forallb_forall in H. specialize (H _ Hx). unfold is_byte. lia. }
  split; [apply HB; vm_compute; reflexivity|]. split; [apply HB; vm_compute; reflexivity|].
  split; [vm_compute; reflexivity|]. split; [unfold far; vm_compute; discriminate|]. split; [vm_compute; reflexivity|].
  vm_compute. reflexivity.
Qed.
