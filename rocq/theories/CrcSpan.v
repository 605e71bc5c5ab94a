(** The CRC-32 as the LPC binding uses it: appended most significant byte first. *)
From Coq Require Import List ZArith Lia Bool.
From Verif Require Import Base Lists Prog Crc PropCrc Astlpc.
Import ListNotations.
Local Open Scope Z_scope.

Lemma crc32_range bs : Forall is_byte bs -> 0 <= crc32 bs < 2 ^ 32.
Proof.
  intros Hb. unfold crc32. change 4294967295 with (2 ^ 32 - 1).
  assert (small 32 (2 ^ 32 - 1)) as Hs by (split; vm_compute; congruence).
  rewrite crc32_steps by assumption.
  apply (small_lxor 32); [|exact Hs]. now apply (steps_small 31 P32 P32_small P32_top).
Qed.

Lemma unbe32_be32 n : 0 <= n < 2 ^ 32 -> unbe32 (be32 n) = n.
Proof.
  intros Hn. unfold unbe32, be32.
  change (2 ^ 24) with (2 ^ 16 * 256). change (2 ^ 16) with (2 ^ 8 * 256). change (2 ^ 8) with 256.
  rewrite <- !Z.div_div by lia.
  pose proof (Z.div_mod n 256 ltac:(lia)). pose proof (Z.div_mod (n / 256) 256 ltac:(lia)).
  pose proof (Z.div_mod (n / 256 / 256) 256 ltac:(lia)).
  assert (n / 256 / 256 / 256 < 256) by (rewrite !Z.div_div by lia; apply Z.div_lt_upper_bound; lia).
  assert (0 <= n / 256 / 256 / 256) by (rewrite !Z.div_div by lia; apply Z.div_pos; lia).
  rewrite (Z.mod_small (n / 256 / 256 / 256)) by lia. lia.
Qed.
Lemma be32_inj x y : 0 <= x < 2 ^ 32 -> 0 <= y < 2 ^ 32 -> be32 x = be32 y -> x = y.
Proof. intros Hx Hy E. rewrite <- (unbe32_be32 x Hx), <- (unbe32_be32 y Hy). now rewrite E. Qed.

(** Feeding zeros to a shifted register. *)
Lemma steps_pad P a j n : steps P (a * 2 ^ Z.of_nat j) (repeat false (j + n)) = steps P a (repeat false n).
Proof.
  rewrite repeat_app. unfold steps at 1. rewrite fold_left_app.
  change (fold_left (step P) (repeat false j) (a * 2 ^ Z.of_nat j)) with (steps P (a * 2 ^ Z.of_nat j) (repeat false j)).
  now rewrite steps_shift.
Qed.

(** One byte: the low byte of the register cannot stay the same. *)
Lemma one_check : forallb (fun d => negb (steps P32 (Z.of_nat d) (repeat false 8) mod 256 =? 0)) (seq 1 255) = true.
Proof. vm_compute. reflexivity. Qed.
Lemma one_byte d : 0 < d < 256 -> steps P32 d (repeat false 8) mod 256 <> 0.
Proof.
  intros Hd E. pose proof one_check as T. rewrite forallb_forall in T. specialize (T (Z.to_nat d)).
  rewrite in_seq in T. rewrite Z2Nat.id in T by lia. rewrite E in T. specialize (T ltac:(lia)). discriminate.
Qed.

(** Three bytes: the low three bytes of the register cannot stay the same. *)
Definition unstep (s : Z) : Z := if Z.testbit s 31 then 2 * Z.lxor s P32 + 1 else 2 * s.
Definition origin (r : nat) : Z := Nat.iter 24 unstep (Z.of_nat r * 2 ^ 24).
Lemma three_check : forallb (fun r => (0 <=? origin r) && (origin r <? 2 ^ 32) && (2 ^ 24 <=? origin r)
   && (steps P32 (origin r) (repeat false 24) =? Z.of_nat r * 2 ^ 24)) (seq 1 255) = true.
Proof. vm_compute. reflexivity. Qed.
Lemma three_bytes d : 0 < d < 2 ^ 24 -> steps P32 d (repeat false 24) mod 2 ^ 24 <> 0.
Proof.
  intros Hd E. set (s := steps P32 d (repeat false 24)) in *.
  assert (small 32 d) as Hs by (split; cbn; lia).
  assert (small 32 s) as Hss by (now apply (steps_small 31 P32 P32_small P32_top)).
  pose proof (Z.div_mod s (2 ^ 24) ltac:(lia)) as Dm. rewrite E, Z.add_0_r in Dm.
  destruct Hss as [H0 H1]. change (2 ^ Z.of_nat 32) with (2 ^ 24 * 256) in H1.
  assert (0 <= s / 2 ^ 24 < 256) as Hr by (split; [apply Z.div_pos; lia|apply Z.div_lt_upper_bound; lia]).
  set (r := s / 2 ^ 24) in *. destruct (Z.eq_dec r 0) as [R0|Rn].
  - assert (s = 0) as S0 by lia. unfold s in S0.
    assert (steps P32 0 (repeat false 24) = 0) as Z0 by (vm_compute; reflexivity).
    rewrite <- Z0 in S0 at 1. apply (steps_inj 31 P32 P32_small P32_top) in S0; [lia|assumption|split; cbn; lia].
  - pose proof three_check as T. rewrite forallb_forall in T. specialize (T (Z.to_nat r)). rewrite in_seq in T.
    specialize (T ltac:(lia)). rewrite !andb_true_iff in T. destruct T as [[[T1 T2] T3] T4].
    apply Z.leb_le in T1. apply Z.ltb_lt in T2. apply Z.leb_le in T3. apply Z.eqb_eq in T4.
    rewrite Z2Nat.id in T4 by lia. rewrite (Z.mul_comm r), <- Dm in T4. unfold s in T4.
    apply (steps_inj 31 P32 P32_small P32_top) in T4; [lia|split; [exact T1|exact T2]|assumption].
Qed.

(** The check values of two strings with the same beginning. *)
Lemma crc32_diff x y y' : Forall is_byte x -> Forall is_byte y -> Forall is_byte y' -> length y = length y' ->
  Z.lxor (crc32 (x ++ y)) (crc32 (x ++ y')) =
  steps P32 (Z.lxor (num (msg_bits y)) (num (msg_bits y'))) (repeat false (8 * length y)).
Proof.
  intros Hx Hy Hy' L. unfold crc32. change 4294967295 with (2 ^ 32 - 1).
  assert (small 32 (2 ^ 32 - 1)) as Hs by (split; vm_compute; congruence).
  rewrite !crc32_steps by (auto; apply Forall_app; auto). rewrite !msg_bits_app.
  unfold steps at 1 2. rewrite !fold_left_app. fold (steps P32 (2 ^ 32 - 1) (msg_bits x)).
  set (s := steps P32 (2 ^ 32 - 1) (msg_bits x)).
  change (fold_left (step P32) ?l s) with (steps P32 s l). 
  change (fold_left (step P32) (msg_bits y') s) with (steps P32 s (msg_bits y')).
  rewrite (steps_num P32 (msg_bits y)), (steps_num P32 (msg_bits y')).
  assert (length (msg_bits y) = (8 * length y)%nat) as L1 by (pose proof (msg_bits_zlen y); unfold zlen in *; lia).
  assert (length (msg_bits y') = (8 * length y)%nat) as L2 by (pose proof (msg_bits_zlen y'); unfold zlen in *; lia).
  rewrite L1, L2. rewrite !steps_lxor.
  set (a := steps P32 s _). set (b := steps P32 (num (msg_bits y)) _). set (c := steps P32 (num (msg_bits y')) _).
  apply Z.bits_inj'. intros i _. rewrite !Z.lxor_spec.
  destruct (Z.testbit a i), (Z.testbit b i), (Z.testbit c i), (Z.testbit (2 ^ 32 - 1) i); reflexivity.
Qed.

Lemma lxor_mod n a b : 0 <= n -> a mod 2 ^ n = b mod 2 ^ n -> Z.lxor a b mod 2 ^ n = 0.
Proof.
  intros Hn E. apply Z.bits_inj'. intros i Hi. rewrite Z.bits_0.
  destruct (Z_lt_ge_dec i n).
  - rewrite Z.mod_pow2_bits_low by lia. rewrite Z.lxor_spec.
    apply (f_equal (fun q => Z.testbit q i)) in E. rewrite !Z.mod_pow2_bits_low in E by lia. rewrite E. apply xorb_nilpotent.
  - apply Z.mod_pow2_bits_high. lia.
Qed.
Lemma mod24 a b : a / 2 ^ 16 mod 256 = b / 2 ^ 16 mod 256 -> a / 2 ^ 8 mod 256 = b / 2 ^ 8 mod 256 -> a mod 256 = b mod 256 ->
  a mod 2 ^ 24 = b mod 2 ^ 24.
Proof.
  intros H2 H1 H0. change (2 ^ 16) with (256 * 256) in H2. change (2 ^ 8) with 256 in H1.
  change (2 ^ 24) with (256 * (256 * 256)). rewrite !(Z.rem_mul_r _ 256) by lia.
  rewrite <- !Z.div_div in H2 by lia. rewrite H0, H1, H2. reflexivity.
Qed.

(** Damage that reaches from the packet into the checksum. *)
Lemma straddle x y1 y1' y2 y2' z :
  Forall is_byte x -> Forall is_byte y1 -> Forall is_byte y1' -> length y1 = length y1' -> length y2 = length y2' ->
  (length (y1 ++ y2) <= 4)%nat -> (1 <= length y2)%nat -> ~ (length y1 = 2%nat /\ length y2 = 2%nat) ->
  be32 (crc32 (x ++ y1)) = y2 ++ z -> be32 (crc32 (x ++ y1')) = y2' ++ z -> y1 = y1'.
Proof.
  intros Hx Hy Hy' L L2 L4 Lp Nx E E'.
  destruct (list_eq_dec Z.eq_dec y1 y1') as [|Hne]; [assumption|exfalso].
  rewrite app_length in L4.
  pose proof (crc32_diff x y1 y1' Hx Hy Hy' L) as D.
  set (n := num (msg_bits y1)) in *. set (n' := num (msg_bits y1')) in *.
  assert (length (msg_bits y1) = (8 * length y1)%nat) as M1 by (pose proof (msg_bits_zlen y1); unfold zlen in *; lia).
  assert (length (msg_bits y1') = (8 * length y1)%nat) as M2 by (pose proof (msg_bits_zlen y1'); unfold zlen in *; lia).
  assert (small (8 * length y1) (Z.lxor n n')) as Hd.
  { apply small_lxor; [rewrite <- M1|rewrite <- M2]; apply num_small. }
  assert (Z.lxor n n' <> 0) as Hd0.
  { intros Q. apply Z.lxor_eq in Q. apply num_inj in Q; [|congruence]. apply msg_bits_inj in Q; auto. }
  set (d := Z.lxor n n') in *. destruct Hd as [Hdl Hdh].
  assert (length y1 <> 0%nat) as Ly. { intros Q. destruct y1, y1'; cbn in *; congruence. }
  assert (length y1 = 1%nat \/ (length y1 = 2%nat /\ length y2 = 1%nat) \/ (length y1 = 3%nat /\ length y2 = 1%nat)) as Lc by lia.
  destruct Lc as [K|Lc].
  - rewrite K in *. change (8 * 1)%nat with 8%nat in *. change (2 ^ Z.of_nat 8) with 256 in Hdh.
    apply (one_byte d); [lia|]. rewrite <- D. change 256 with (2 ^ 8). apply lxor_mod; [lia|]. change (2 ^ 8) with 256.
    unfold be32 in E, E'. 
    destruct y2 as [|p1 [|p2 [|p3 [|]]]]; cbn [length] in *; try lia; destruct y2' as [|q1 [|q2 [|q3 [|]]]]; cbn [length] in *; try lia;
      cbn [app] in E, E'; congruence.
  - assert (length y2 = 1%nat) as K2 by lia.
    assert (Z.lxor (crc32 (x ++ y1)) (crc32 (x ++ y1')) mod 2 ^ 24 = 0) as Q.
    { apply lxor_mod; [lia|]. unfold be32 in E, E'.
      destruct y2 as [|p1 [|]]; cbn [length] in *; try lia; destruct y2' as [|q1 [|]]; cbn [length] in *; try lia.
      cbn [app] in E, E'. apply mod24; congruence. }
    rewrite D in Q. destruct Lc as [[K _]|[K _]]; rewrite K in *.
    + change (8 * 2)%nat with 16%nat in *. change (2 ^ Z.of_nat 16) with 65536 in Hdh.
      rewrite <- (steps_pad P32 d 8 16) in Q. apply three_bytes in Q; [assumption|]. change (2 ^ Z.of_nat 8) with 256. lia.
    + change (8 * 3)%nat with 24%nat in *. change (2 ^ Z.of_nat 24) with (2 ^ 24) in Hdh.
      apply three_bytes in Q; [assumption|]. lia.
Qed.

(** A change within four consecutive bytes of a packet and its checksum leaves no
    packet with its checksum, unless it changes the last two bytes of the packet and
    the first two bytes of the checksum. *)
Theorem C30_protected bs bs' x y y' z :
  Forall is_byte bs -> Forall is_byte bs' -> zlen bs = zlen bs' ->
  bs ++ be32 (crc32 bs) = x ++ y ++ z -> bs' ++ be32 (crc32 bs') = x ++ y' ++ z ->
  length y = length y' -> (length y <= 4)%nat -> ~ (length y = 4%nat /\ zlen x + 2 = zlen bs) -> y = y'.
Proof.
  intros Hb Hb' Hl E E' L L4 Nx.
  assert (zlen y = zlen y') as Lz by (unfold zlen; lia).
  assert (zlen y <= 4) as L4z by (unfold zlen; lia).
  destruct (Z_le_gt_dec (zlen bs) (zlen x)) as [C|C].
  { destruct (app_eq_app _ _ _ _ E) as (l & [[Q1 Q2]|[Q1 Q2]]).
    - apply (f_equal (@zlen _)) in Q1 as Q3. rewrite zlen_app in Q3. pose proof (zlen_pos _ l).
      assert (zlen l = 0) as Z0 by lia. destruct l; [|rewrite zlen_cons in Z0; pose proof (zlen_pos _ l); lia].
      rewrite app_nil_r in Q1. cbn in Q2. subst x. apply app_inv_zlen in E'; [|lia]. destruct E' as [<- E'].
      rewrite <- Q2 in E'. apply app_inv_zlen in E'; [|lia]. tauto.
    - subst x. rewrite <- app_assoc in E'. apply app_inv_zlen in E'; [|lia]. destruct E' as [<- E']. rewrite Q2 in E'.
      apply app_inv_head in E'. apply app_inv_zlen in E'; [|lia]. tauto. }
  destruct (Z_le_gt_dec (zlen x + zlen y) (zlen bs)) as [B|B].
  { assert (exists z1, bs = x ++ y ++ z1 /\ z = z1 ++ be32 (crc32 bs)) as (z1 & E1 & E2).
    { rewrite app_assoc in E. destruct (app_eq_app _ _ _ _ E) as (l & [[Q1 Q2]|[Q1 Q2]]).
      - exists l. now rewrite <- app_assoc in Q1.
      - apply (f_equal (@zlen _)) in Q1 as Q3. rewrite !zlen_app in Q3. pose proof (zlen_pos _ l).
        assert (zlen l = 0) as Z0 by lia. destruct l; [|rewrite zlen_cons in Z0; pose proof (zlen_pos _ l); lia].
        rewrite app_nil_r in Q1. cbn in Q2. exists []. rewrite app_nil_r. now subst. }
    assert (exists z1', bs' = x ++ y' ++ z1' /\ z = z1' ++ be32 (crc32 bs')) as (z1' & E1' & E2').
    { rewrite app_assoc in E'. destruct (app_eq_app _ _ _ _ E') as (l & [[Q1 Q2]|[Q1 Q2]]).
      - exists l. now rewrite <- app_assoc in Q1.
      - apply (f_equal (@zlen _)) in Q1 as Q3. rewrite !zlen_app in Q3. pose proof (zlen_pos _ l).
        assert (zlen l = 0) as Z0 by lia. destruct l; [|rewrite zlen_cons in Z0; pose proof (zlen_pos _ l); lia].
        rewrite app_nil_r in Q1. cbn in Q2. exists []. rewrite app_nil_r. now subst. }
    pose proof (f_equal (@zlen _) E1) as S1. pose proof (f_equal (@zlen _) E1') as S2. rewrite !zlen_app in S1, S2.
    rewrite E2 in E2'. apply app_inv_zlen in E2'; [|lia]. destruct E2' as [<- Ec].
    apply be32_inj in Ec; [|now apply crc32_range..].
    destruct (list_eq_dec Z.eq_dec y y') as [|Hne]; [assumption|exfalso].
    apply (C30_window32 x y y' z1); try assumption; congruence. }
  assert (exists y1 y2, bs = x ++ y1 /\ y = y1 ++ y2 /\ be32 (crc32 bs) = y2 ++ z) as (y1 & y2 & E1 & E2 & E3).
  { destruct (app_eq_app _ _ _ _ E) as (l & [[Q1 Q2]|[Q1 Q2]]).
    - destruct (app_eq_app _ _ _ _ Q2) as (l' & [[Q3 Q4]|[Q3 Q4]]).
      + exists l, l'. auto.
      + exfalso. apply (f_equal (@zlen _)) in Q1. rewrite Q3, !zlen_app in Q1. pose proof (zlen_pos _ l'). lia.
    - exfalso. apply (f_equal (@zlen _)) in Q1. rewrite zlen_app in Q1. pose proof (zlen_pos _ l). lia. }
  assert (exists y1 y2, bs' = x ++ y1 /\ y' = y1 ++ y2 /\ be32 (crc32 bs') = y2 ++ z) as (y1' & y2' & E1' & E2' & E3').
  { destruct (app_eq_app _ _ _ _ E') as (l & [[Q1 Q2]|[Q1 Q2]]).
    - destruct (app_eq_app _ _ _ _ Q2) as (l' & [[Q3 Q4]|[Q3 Q4]]).
      + exists l, l'. auto.
      + exfalso. apply (f_equal (@zlen _)) in Q1. rewrite Q3, !zlen_app in Q1. pose proof (zlen_pos _ l'). lia.
    - exfalso. apply (f_equal (@zlen _)) in Q1. rewrite zlen_app in Q1. pose proof (zlen_pos _ l). lia. }
  subst bs bs' y y'. rewrite !zlen_app in *. rewrite !app_length in *. rewrite !Forall_app in *.
  destruct Hb as [Hx Hy]. destruct Hb' as [_ Hy'].
  assert (length y1 = length y1') as La by (unfold zlen in Hl; lia).
  assert (y1 = y1') as <-.
  { apply (straddle x y1 y1' y2 y2' z); auto; [lia|rewrite app_length; lia|unfold zlen in *; lia|].
    intros [N1 N2]. apply Nx. split; [lia|]. unfold zlen. lia. }
  rewrite E3 in E3'. apply app_inv_zlen in E3'; [|unfold zlen; lia]. destruct E3' as [-> _]. reflexivity.
Qed.

(** The exception is real. *)
Theorem C30_protected_sharp :
  exists bs bs' x y y' z, Forall is_byte bs /\ Forall is_byte bs' /\ zlen bs = zlen bs' /\
  bs ++ be32 (crc32 bs) = x ++ y ++ z /\ bs' ++ be32 (crc32 bs') = x ++ y' ++ z /\
  length y = 4%nat /\ length y' = 4%nat /\ y <> y'.
Proof.
  exists [1; 8; 9; 200; 0; 0], [1; 8; 9; 200; 97; 216], [1; 8; 9; 200].
  let a := eval vm_compute in (firstn 4 (skipn 4 ([1; 8; 9; 200; 0; 0] ++ be32 (crc32 [1; 8; 9; 200; 0; 0])))) in exists a.
  let a := eval vm_compute in (firstn 4 (skipn 4 ([1; 8; 9; 200; 97; 216] ++ be32 (crc32 [1; 8; 9; 200; 97; 216])))) in exists a.
  let a := eval vm_compute in (skipn 8 ([1; 8; 9; 200; 0; 0] ++ be32 (crc32 [1; 8; 9; 200; 0; 0]))) in exists a.
  repeat split; try (vm_compute; reflexivity); try discriminate; repeat constructor; unfold is_byte; lia.
Qed.
