(** Reasm: reassembly as a function of the packets received so far. *)
From Verif Require Import Base Lists Prog PktBuf Core WP Walk CoreRel WalkCore CoreHist Spec SpecRx.

(** ** Header fields *)

Lemma shiftr_land x n k : 0 <= n -> 0 <= k -> Z.land (Z.shiftr x n) (2 ^ k - 1) = (x / 2 ^ n) mod 2 ^ k.
Proof.
  intros Hn Hk. rewrite Z.shiftr_div_pow2 by exact Hn.
  replace (2 ^ k - 1) with (Z.ones k) by (rewrite Z.ones_equiv; lia). now rewrite Z.land_ones.
Qed.
Lemma p_tag_spec bs : p_tag bs = h_tag bs.
Proof.
  unfold p_tag, h_tag. change 7 with (2 ^ 3 - 1). rewrite shiftr_land by lia.
  change (2 ^ 0) with 1. now rewrite Z.div_1_r.
Qed.
Lemma p_seq_spec bs : p_seq bs = h_seq bs.
Proof. unfold p_seq, h_seq. change 3 with (2 ^ 2 - 1). now rewrite shiftr_land by lia. Qed.
Lemma p_to_spec bs : p_to bs = h_to bs.
Proof.
  unfold p_to, h_to. change 1 with (2 ^ 1 - 1). rewrite shiftr_land by lia.
  rewrite (Z.testbit_spec' _ 3) || idtac.
  pose proof (Z.testbit_spec' (nth 3 bs 0) 3 ltac:(lia)) as E. change (2 ^ 1) with 2.
  rewrite <- E. destruct (Z.testbit (nth 3 bs 0) 3); reflexivity.
Qed.
Lemma p_flags_spec bs : p_flags bs = (if h_som bs then 128 else 0) + (if h_eom bs then 64 else 0).
Proof.
  unfold p_flags, h_som, h_eom, FLAG_SOM, FLAG_EOM. change (Z.lor 128 64) with (Z.shiftl 3 6).
  set (b := nth 3 bs 0).
  assert (Z.land b (Z.shiftl 3 6) = Z.shiftl (Z.land (Z.shiftr b 6) 3) 6) as ->.
  { apply Z.bits_inj'. intros n Hn. rewrite Z.land_spec, !Z.shiftl_spec by lia.
    destruct (Z.leb_spec 6 n) as [H|H].
    - rewrite Z.land_spec, Z.shiftr_spec by lia. f_equal. f_equal. lia.
    - rewrite !(Z.testbit_neg_r _ (n - 6)) by lia. now rewrite andb_false_r. }
  change 3 with (2 ^ 2 - 1). rewrite shiftr_land by lia. rewrite Z.shiftl_mul_pow2 by lia.
  pose proof (Z.testbit_spec' b 7 ltac:(lia)) as E7. pose proof (Z.testbit_spec' b 6 ltac:(lia)) as E6.
  change (2 ^ 7) with (2 ^ 6 * 2) in E7. rewrite <- Z.div_div in E7 by lia.
  set (x := b / 2 ^ 6) in *. change (2 ^ 2) with 4. change (2 ^ 6) with 64.
  assert (x mod 4 = x mod 2 + 2 * ((x / 2) mod 2)) as ->.
  { rewrite (Z.mul_comm 2). change 4 with (2 * 2). rewrite Z.rem_mul_r by lia. lia. }
  destruct (Z.testbit b 7), (Z.testbit b 6); cbn [Z.b2z] in *; lia.
Qed.

Lemma key_eqb_spec a b : key_eqb a b = true <-> a = b.
Proof.
  destruct a as [[a1 a2] a3], b as [[b1 b2] b3]. unfold key_eqb.
  rewrite !andb_true_iff, !Z.eqb_eq. split; [intros [[-> ->] ->]; reflexivity|intros [= -> -> ->]; auto].
Qed.
Lemma key_eqb_refl k : key_eqb k k = true.
Proof. now apply key_eqb_spec. Qed.

(** ** The reassembly invariant *)

Definition c_key (c : mctx) : key := (c_src c, c_dest c, c_tag c).

(** [hist] are the multi-packet packets with the key of [c]. *)
Definition partial (hist : list (list Z)) (c : mctx) : Prop :=
  exists old first mids, hist = old ++ first :: mids /\ opened first mids /\
    consecutive (first :: mids) /\ c_data c = concat (map payload (first :: mids)) /\
    c_frag c = zlen first /\ c_seq c = h_seq (last (first :: mids) []).

Record CI (log : list (list Z)) (cs : list mctx) : Prop := mkCI {
  ci_len : length cs = 16%nat;
  ci_part : forall n c, nth_error cs n = Some c -> c_src c <> 0 -> partial (keyed (c_key c) log) c;
  ci_uniq : forall n1 n2 c1 c2, nth_error cs n1 = Some c1 -> nth_error cs n2 = Some c2 ->
            c_src c1 <> 0 -> c_key c1 = c_key c2 -> n1 = n2 }.

Lemma upd_nth_length A (l : list A) n x : length (upd_nth l n x) = length l.
Proof. revert n; induction l; intros [|n]; cbn; auto. Qed.
Lemma nth_error_upd A (l : list A) n x k : (n < length l)%nat ->
  nth_error (upd_nth l n x) k = if Nat.eqb k n then Some x else nth_error l k.
Proof.
  revert n k; induction l as [|a l IH]; intros [|n] [|k] H; cbn in *; try lia; try reflexivity.
  rewrite IH by lia. reflexivity.
Qed.

Lemma lookup_none cs src dest tag : ctx_lookup cs src dest tag = None ->
  forall n c, nth_error cs n = Some c -> c_key c <> (src, dest, tag).
Proof.
  induction cs as [|c0 cs IH]; cbn [ctx_lookup]; [intros _ [|n] c; discriminate|].
  destruct (_ && _ && _) eqn:E; [discriminate|]. destruct (ctx_lookup cs src dest tag); [discriminate|].
  intros _ [|n] c; cbn.
  - intros [= <-] [= H1 H2 H3]. subst. rewrite !Z.eqb_refl in E. discriminate.
  - apply IH. reflexivity.
Qed.
Lemma lookup_some cs src dest tag n : ctx_lookup cs src dest tag = Some n ->
  (n < length cs)%nat /\ nth_error cs n = Some (nth n cs ctx0) /\ c_key (nth n cs ctx0) = (src, dest, tag).
Proof.
  intros H. destruct (ctx_lookup_nth _ _ _ _ _ H) as (c & E & -> & <- & <- & <-).
  split; [apply nth_error_Some; congruence|]. auto.
Qed.
Lemma free_some cs n : ctx_free_slot cs = Some n ->
  (n < length cs)%nat /\ nth_error cs n = Some (nth n cs ctx0) /\ c_src (nth n cs ctx0) = 0.
Proof.
  intros H. destruct (ctx_free_nth _ _ H) as (c & E & -> & E').
  split; [apply nth_error_Some; congruence|]. auto.
Qed.
Lemma free_none cs : ctx_free_slot cs = None -> forall n c, nth_error cs n = Some c -> c_src c <> 0.
Proof.
  induction cs as [|c0 cs IH]; cbn [ctx_free_slot]; [intros _ [|n] c; discriminate|].
  destruct (c_src c0 =? 0) eqn:E; [discriminate|]. destruct (ctx_free_slot cs); [discriminate|].
  intros _ [|n] c; cbn; [intros [= <-]; lia|]. apply IH. reflexivity.
Qed.

Lemma keyed_app k a b : keyed k (a ++ b) = keyed k a ++ keyed k b.
Proof. apply filter_app. Qed.
Lemma keyed_other k bs : h_key bs <> k -> keyed k [bs] = [].
Proof.
  intros H. unfold keyed. cbn [filter]. destruct (key_eqb (h_key bs) k) eqn:E; [|reflexivity].
  apply key_eqb_spec in E. contradiction.
Qed.
Lemma keyed_same bs : h_som bs && h_eom bs = false -> keyed (h_key bs) [bs] = [bs].
Proof. intros H. unfold keyed. cbn [filter]. now rewrite key_eqb_refl, H. Qed.
Lemma keyed_both k bs : h_som bs && h_eom bs = true -> keyed k [bs] = [].
Proof. intros H. unfold keyed. cbn [filter]. now rewrite H, andb_false_r. Qed.

Lemma CI_both log cs bs : h_som bs && h_eom bs = true -> CI log cs -> CI (log ++ [bs]) cs.
Proof.
  intros Hb [Hl Hp Hu]. constructor; auto. intros n c Hn Hc.
  rewrite keyed_app, keyed_both, app_nil_r by exact Hb. eauto.
Qed.

Lemma CI_skip log cs bs : CI log cs ->
  (forall n c, nth_error cs n = Some c -> c_src c <> 0 -> c_key c <> h_key bs) -> CI (log ++ [bs]) cs.
Proof.
  intros [Hl Hp Hu] Hk. constructor; auto. intros n c Hn Hc.
  rewrite keyed_app, keyed_other, app_nil_r by (intros E; apply (Hk n c Hn Hc); auto). eauto.
Qed.

Lemma CI_upd log cs bs n c' : CI log cs -> (n < length cs)%nat ->
  (forall k c, k <> n -> nth_error cs k = Some c -> c_src c <> 0 -> c_key c <> h_key bs) ->
  (c_src c' <> 0 -> c_key c' = h_key bs /\ partial (keyed (h_key bs) (log ++ [bs])) c') ->
  CI (log ++ [bs]) (upd_nth cs n c').
Proof.
  intros [Hl Hp Hu] Hn Ho Hc'. constructor.
  - now rewrite upd_nth_length.
  - intros k c. rewrite nth_error_upd by exact Hn. destruct (Nat.eqb_spec k n).
    + intros [= <-] Hs. destruct (Hc' Hs) as [-> H]. exact H.
    + intros Hk Hs. rewrite keyed_app, keyed_other, app_nil_r by (intros E; apply (Ho k c); auto). eauto.
  - intros n1 n2 c1 c2. rewrite !nth_error_upd by exact Hn.
    destruct (Nat.eqb_spec n1 n), (Nat.eqb_spec n2 n); try congruence.
    + intros [= <-] H2 Hs E. exfalso. destruct (Hc' Hs) as [E' _]. apply (Ho n2 c2); try congruence.
      unfold c_key in *. congruence.
    + intros H1 [= <-] Hs E. exfalso. assert (c_src c' <> 0) as Hs' by (unfold c_key in *; congruence).
      destruct (Hc' Hs') as [E' _]. apply (Ho n1 c1); try congruence.
    + eauto.
Qed.

(** What appending does. *)
Lemma add_pure_fields c pl max c' ok : add_pure c pl max = (c', ok) ->
  c_src c' = c_src c /\ c_dest c' = c_dest c /\ c_tag c' = c_tag c /\ c_frag c' = c_frag c /\
  c_seq c' = c_seq c /\ (ok = true -> c_data c' = c_data c ++ pl) /\ (ok = false -> c' = c).
Proof.
  unfold add_pure. destruct (_ <=? _); [intros [= <- <-]; repeat split; auto; discriminate|].
  destruct (c_alloc c <? _).
  - destruct (max <? _); intros [= <- <-]; cbn; repeat split; auto; discriminate.
  - intros [= <- <-]; cbn; repeat split; auto; discriminate.
Qed.

Lemma consecutive_snoc pk a : pk <> [] -> consecutive pk ->
  h_seq a = (h_seq (last pk []) + 1) mod 4 -> consecutive (pk ++ [a]).
Proof.
  intros Hne Hc Ha n x y Hx Hy.
  assert (S n < length (pk ++ [a]))%nat as Hl by (apply nth_error_Some; congruence).
  rewrite app_length in Hl. cbn in Hl.
  rewrite nth_error_app1 in Hx by lia.
  destruct (Nat.eq_dec (S n) (length pk)) as [E|E].
  - rewrite nth_error_app2 in Hy by lia. rewrite E, Nat.sub_diag in Hy. injection Hy as <-.
    rewrite Ha. do 2 f_equal. f_equal.
    clear - Hx E Hne. destruct (exists_last Hne) as (l & z & ->). rewrite last_last.
    rewrite app_length in E. cbn in E. rewrite nth_error_app2 in Hx by lia.
    replace (n - length l)%nat with 0%nat in Hx by lia. injection Hx as <-. reflexivity.
  - rewrite nth_error_app1 in Hy by lia. eauto.
Qed.
Lemma consecutive_one a : consecutive [a].
Proof. intros [|n] x y; cbn; [discriminate|]. destruct n; discriminate. Qed.

Lemma opened_snoc first mids bs : opened first mids -> h_som bs = false -> h_eom bs = false ->
  zlen bs = zlen first -> opened first (mids ++ [bs]).
Proof.
  intros (H1 & H2 & H3) Hs He Hz. split; [exact H1|]. split; [exact H2|].
  apply Forall_app. auto.
Qed.

(** The start of a message in slot [n]. *)
Lemma start_CI log cs bs n c0 max : CI log cs -> (n < length cs)%nat ->
  (forall k c, k <> n -> nth_error cs k = Some c -> c_src c <> 0 -> c_key c <> h_key bs) ->
  c_data c0 = [] -> (c_src c0 <> 0 -> c_key c0 = h_key bs) ->
  h_som bs = true -> h_eom bs = false ->
  CI (log ++ [bs]) (start_pure cs n c0 max bs).
Proof.
  intros Hci Hn Ho Hd Hk Hs He. unfold start_pure.
  destruct (add_pure (ctx_set_frag c0 (zlen bs)) (p_payload bs) max) as [c2 ok] eqn:E.
  destruct (add_pure_fields _ _ _ _ _ E) as (E1 & E2 & E3 & E4 & E5 & E6 & E7). cbn in *.
  apply CI_upd; auto. intros Hsrc. destruct ok; cbn in Hsrc; [|congruence].
  split; [unfold c_key in *; cbn; rewrite E1, E2, E3 in *; apply Hk; congruence|].
  rewrite keyed_app, keyed_same by (rewrite Hs, He; reflexivity).
  exists (keyed (h_key bs) log), bs, []. split; [reflexivity|].
  split; [repeat split; auto|]. split; [apply consecutive_one|].
  cbn. rewrite E6, Hd by reflexivity. split; [symmetry; apply app_nil_r|]. split; [exact E4|].
  apply p_seq_spec.
Qed.

Lemma rx_pure_CI log cs max bs cs' out : CI log cs -> rx_pure cs max bs = (cs', out) ->
  CI (log ++ [bs]) cs' /\
  forall s d m, out = Some (s, d, m) ->
    s = h_src bs /\ d = h_dest bs /\
    ((h_som bs = true /\ h_eom bs = true /\ m = payload bs) \/
     (h_som bs = false /\ h_eom bs = true /\
      (s <> 0 -> exists old pk, keyed (h_key bs) (log ++ [bs]) = old ++ pk /\ whole pk m))).
Proof.
  intros Hci. unfold rx_pure. rewrite p_flags_spec.
  change (p_src bs) with (h_src bs). change (p_dest bs) with (h_dest bs). rewrite p_tag_spec.
  change (Z.lor FLAG_SOM FLAG_EOM) with 192. unfold FLAG_SOM, FLAG_EOM.
  change (p_payload bs) with (payload bs).
  (* which other contexts can have the key of the packet *)
  assert (forall n, ctx_lookup cs (h_src bs) (h_dest bs) (h_tag bs) = Some n ->
            forall k c, k <> n -> nth_error cs k = Some c -> c_src c <> 0 -> c_key c <> h_key bs) as Ho.
  { intros n Hl k c Hk Hc Hs E. destruct (lookup_some _ _ _ _ _ Hl) as (_ & Hn & Hkey).
    apply Hk. eapply (ci_uniq _ _ Hci k n c _ Hc Hn Hs). rewrite Hkey. exact E. }
  assert (ctx_lookup cs (h_src bs) (h_dest bs) (h_tag bs) = None ->
            forall n c, nth_error cs n = Some c -> c_key c <> h_key bs) as Hnone.
  { intros Hl. exact (lookup_none _ _ _ _ Hl). }
  destruct (h_som bs) eqn:Es, (h_eom bs) eqn:Ee; cbn [Z.add Z.eqb Pos.eqb Pos.add];
    cbn -[ctx_lookup start_pure add_pure Z.modulo].
  - (* both *)
    intros [= <- <-]. split; [apply CI_both; [rewrite Es, Ee; reflexivity|exact Hci]|].
    intros s d m E. assert (s = h_src bs /\ d = h_dest bs /\ m = payload bs) as (-> & -> & ->) by (repeat split; congruence). auto 10.
  - (* SOM *)
    destruct (ctx_lookup cs (h_src bs) (h_dest bs) (h_tag bs)) as [n|] eqn:El.
    + intros [= <- <-]. split; [|discriminate].
      destruct (lookup_some _ _ _ _ _ El) as (Hn & _ & Hkey).
      apply start_CI; auto. apply (Ho _ eq_refl).
    + destruct (ctx_free_slot cs) as [n|] eqn:Ef; intros [= <- <-]; (split; [|discriminate]).
      * destruct (free_some _ _ Ef) as (Hn & _ & _).
        apply start_CI; auto. intros k c _ Hk _. apply (Hnone eq_refl k c Hk).
      * apply CI_skip; [exact Hci|]. intros n c Hk _. eapply Hnone; [reflexivity|exact Hk].
  - (* EOM *)
    destruct (ctx_lookup cs (h_src bs) (h_dest bs) (h_tag bs)) as [n|] eqn:El.
    2:{ intros [= <- <-]. split; [|discriminate]. apply CI_skip; [exact Hci|].
        intros n c Hk _. eapply Hnone; [reflexivity|exact Hk]. }
    destruct (lookup_some _ _ _ _ _ El) as (Hn & Hnth & Hkey). set (c := nth n cs ctx0) in *.
    assert (forall c', c_src c' = 0 -> CI (log ++ [bs]) (upd_nth cs n c')) as Hdrop.
    { intros c' Hc'. apply CI_upd; auto; [apply (Ho _ eq_refl)|congruence]. }
    rewrite p_seq_spec. destruct (Z.eqb_spec ((c_seq c + 1) mod 4) (h_seq bs)) as [Hseq|]; cbn [negb].
    2:{ intros [= <- <-]. split; [now apply Hdrop|discriminate]. }
    destruct (c_frag c <? zlen bs) eqn:Efr.
    { intros [= <- <-]. split; [now apply Hdrop|discriminate]. }
    destruct (add_pure c (payload bs) max) as [c' ok] eqn:Ea.
    destruct (add_pure_fields _ _ _ _ _ Ea) as (E1 & E2 & E3 & E4 & E5 & E6 & E7).
    intros [= <- <-]. split; [now apply Hdrop|]. destruct ok; [|discriminate].
    intros s d m [= <- <- <-]. unfold c_key in Hkey. injection Hkey as K1 K2 K3.
    rewrite E1, E2. split; [exact K1|]. split; [exact K2|]. right. split; [reflexivity|].
    split; [reflexivity|]. intros Hsrc.
    destruct (ci_part _ _ Hci n c Hnth Hsrc) as (old & first & mids & Hh & Hop & Hco & Hda & Hfr & Hsq).
    assert (c_key c = h_key bs) as Hck by (unfold c_key, h_key; congruence).
    exists old, (first :: mids ++ [bs]). split.
    + rewrite keyed_app, keyed_same by (rewrite Es; reflexivity). rewrite <- Hck, Hh, <- app_assoc. reflexivity.
    + exists first, mids, bs. split; [reflexivity|]. split; [exact Hop|]. split; [exact Es|].
      split; [exact Ee|]. split; [lia|]. split.
      * apply (consecutive_snoc (first :: mids)); [discriminate|exact Hco|]. rewrite <- Hsq. auto.
      * rewrite E6, Hda by reflexivity. rewrite app_comm_cons, map_app, concat_app. cbn.
        now rewrite app_nil_r.
  - (* neither *)
    destruct (ctx_lookup cs (h_src bs) (h_dest bs) (h_tag bs)) as [n|] eqn:El.
    2:{ intros [= <- <-]. split; [|discriminate]. apply CI_skip; [exact Hci|].
        intros n c Hk _. eapply Hnone; [reflexivity|exact Hk]. }
    destruct (lookup_some _ _ _ _ _ El) as (Hn & Hnth & Hkey). set (c := nth n cs ctx0) in *.
    assert (forall c', c_src c' = 0 -> CI (log ++ [bs]) (upd_nth cs n c')) as Hdrop.
    { intros c' Hc'. apply CI_upd; auto; [apply (Ho _ eq_refl)|congruence]. }
    rewrite p_seq_spec. destruct (Z.eqb_spec ((c_seq c + 1) mod 4) (h_seq bs)) as [Hseq|]; cbn [negb].
    2:{ intros [= <- <-]. split; [now apply Hdrop|discriminate]. }
    destruct (Z.eqb_spec (zlen bs) (c_frag c)) as [Efr|]; cbn [negb].
    2:{ intros [= <- <-]. split; [now apply Hdrop|discriminate]. }
    destruct (add_pure c (payload bs) max) as [c' ok] eqn:Ea.
    destruct (add_pure_fields _ _ _ _ _ Ea) as (E1 & E2 & E3 & E4 & E5 & E6 & E7).
    intros [= <- <-]. split; [|discriminate]. destruct ok; [|now apply Hdrop].
    assert (c_key c = h_key bs) as Hck by exact Hkey.
    apply CI_upd; auto; [apply (Ho _ eq_refl)|]. cbn. rewrite E1. intros Hsrc.
    split; [unfold c_key in *; cbn; congruence|].
    destruct (ci_part _ _ Hci n c Hnth Hsrc) as (old & first & mids & Hh & Hop & Hco & Hda & Hfr & Hsq).
    exists old, first, (mids ++ [bs]). split.
    + rewrite keyed_app, keyed_same by (rewrite Es; reflexivity). rewrite <- Hck, Hh, <- app_assoc. reflexivity.
    + split; [apply opened_snoc; auto; congruence|]. split.
      * apply (consecutive_snoc (first :: mids)); [discriminate|exact Hco|]. rewrite <- Hsq. auto.
      * cbn. rewrite E6, Hda, E4 by reflexivity. split.
        { rewrite map_app, concat_app. cbn. now rewrite !app_nil_r, app_assoc. }
        split; [exact Hfr|]. destruct (mids ++ [bs]) eqn:Em; [destruct mids; discriminate|].
        rewrite <- Em, last_last. reflexivity.
Qed.

(** Contexts with another key and a non-null source are untouched. *)
Lemma rx_pure_other cs max bs cs' out n c : rx_pure cs max bs = (cs', out) ->
  nth_error cs n = Some c -> c_src c <> 0 -> c_key c <> h_key bs -> nth_error cs' n = Some c.
Proof.
  unfold rx_pure. change (p_src bs) with (h_src bs). change (p_dest bs) with (h_dest bs). rewrite p_tag_spec.
  intros Hr Hn Hs Hk.
  assert (forall k x, (k < length cs)%nat ->
            (forall c0, nth_error cs k = Some c0 -> c_src c0 = 0 \/ c_key c0 = h_key bs) ->
            nth_error (upd_nth cs k x) n = Some c) as Hu.
  { intros k x Hl Hc. rewrite nth_error_upd by exact Hl. destruct (Nat.eqb_spec n k); [|exact Hn].
    subst. destruct (Hc _ Hn); contradiction. }
  assert (forall k c0 x, (k < length cs)%nat ->
            (forall c0, nth_error cs k = Some c0 -> c_src c0 = 0 \/ c_key c0 = h_key bs) ->
            nth_error (start_pure cs k c0 x bs) n = Some c) as Hst.
  { intros k c0 x Hl Hc. unfold start_pure. destruct (add_pure _ _ _) as [c2 ok].
    apply Hu; assumption. }
  destruct (p_flags bs =? _); [congruence|].
  destruct (ctx_lookup cs (h_src bs) (h_dest bs) (h_tag bs)) as [k|] eqn:El.
  - destruct (lookup_some _ _ _ _ _ El) as (Hl & Hnth & Hkey).
    assert (forall c0, nth_error cs k = Some c0 -> c_src c0 = 0 \/ c_key c0 = h_key bs) as Hc0.
    { intros c0 H0. right. rewrite Hnth in H0. injection H0 as <-. exact Hkey. }
    destruct (p_flags bs =? FLAG_SOM); [injection Hr as <- <-; auto|].
    destruct (negb _); [injection Hr as <- <-; auto|].
    destruct (p_flags bs =? FLAG_EOM).
    + destruct (_ <? _); [injection Hr as <- <-; auto|].
      destruct (add_pure _ _ _) as [c2 ok]. injection Hr as <- <-; auto.
    + destruct (negb _); [injection Hr as <- <-; auto|].
      destruct (add_pure _ _ _) as [c2 ok]. injection Hr as <- <-; auto.
  - destruct (p_flags bs =? FLAG_SOM); [|congruence].
    destruct (ctx_free_slot cs) as [k|] eqn:Ef; [|congruence].
    destruct (free_some _ _ Ef) as (Hl & Hnth & H0). injection Hr as <- <-. apply Hst; [exact Hl|].
    intros c0 Hc0. left. congruence.
Qed.

(** The packet changes at most one context, which was free or had the key of the
    packet, and which is then free or has that key. *)
Lemma rx_pure_shape cs max bs cs' out : rx_pure cs max bs = (cs', out) ->
  cs' = cs \/
  exists n c', (n < length cs)%nat /\ cs' = upd_nth cs n c' /\
    (c_src c' = 0 \/ c_key c' = h_key bs) /\
    (forall c0, nth_error cs n = Some c0 -> c_src c0 = 0 \/ c_key c0 = h_key bs).
Proof.
  unfold rx_pure. change (p_src bs) with (h_src bs). change (p_dest bs) with (h_dest bs). rewrite p_tag_spec.
  intros Hr.
  assert (forall n c0 x, (n < length cs)%nat ->
            (forall c0, nth_error cs n = Some c0 -> c_src c0 = 0 \/ c_key c0 = h_key bs) ->
            c_key c0 = h_key bs ->
            exists c', start_pure cs n c0 x bs = upd_nth cs n c' /\ (c_src c' = 0 \/ c_key c' = h_key bs)) as Hst.
  { intros n c0 x Hl Hc Hk. unfold start_pure.
    destruct (add_pure (ctx_set_frag c0 (zlen bs)) (p_payload bs) x) as [c2 ok] eqn:E.
    destruct (add_pure_fields _ _ _ _ _ E) as (E1 & E2 & E3 & _).
    eexists. split; [reflexivity|]. destruct ok; [right|left; reflexivity].
    unfold c_key in *. cbn in *. congruence. }
  destruct (p_flags bs =? _); [left; congruence|].
  destruct (ctx_lookup cs (h_src bs) (h_dest bs) (h_tag bs)) as [k|] eqn:El.
  - destruct (lookup_some _ _ _ _ _ El) as (Hl & Hnth & Hkey).
    assert (forall c0, nth_error cs k = Some c0 -> c_src c0 = 0 \/ c_key c0 = h_key bs) as Hc0.
    { intros c0 H0. right. rewrite Hnth in H0. injection H0 as <-. exact Hkey. }
    assert (forall c', (c_src c' = 0 \/ c_key c' = h_key bs) -> cs' = upd_nth cs k c' ->
      cs' = cs \/
      exists n c', (n < length cs)%nat /\ cs' = upd_nth cs n c' /\ (c_src c' = 0 \/ c_key c' = h_key bs) /\
      (forall c0, nth_error cs n = Some c0 -> c_src c0 = 0 \/ c_key c0 = h_key bs)) as Hgo.
    { intros c' Hc' E. right. exists k, c'. auto. }
    destruct (p_flags bs =? FLAG_SOM).
    { injection Hr as <- <-. destruct (Hst k (ctx_reset (nth k cs ctx0)) max Hl Hc0 Hkey) as (c' & E & Hc').
      exact (Hgo c' Hc' E). }
    destruct (negb _); [injection Hr as <- <-; eapply Hgo; [|reflexivity]; auto|].
    destruct (p_flags bs =? FLAG_EOM).
    + destruct (_ <? _); [injection Hr as <- <-; eapply Hgo; [|reflexivity]; auto|].
      destruct (add_pure _ _ _) as [c2 ok]. injection Hr as <- <-; eapply Hgo; [|reflexivity]; auto.
    + destruct (negb _); [injection Hr as <- <-; eapply Hgo; [|reflexivity]; auto|].
      destruct (add_pure (nth k cs ctx0) (p_payload bs) max) as [c2 ok] eqn:Ea.
      destruct (add_pure_fields _ _ _ _ _ Ea) as (E1 & E2 & E3 & _).
      injection Hr as <- <-; eapply Hgo; [|reflexivity]. destruct ok; [right|auto].
      unfold c_key in *. cbn. rewrite E1, E2, E3. exact Hkey.
  - destruct (p_flags bs =? FLAG_SOM); [|left; congruence].
    destruct (ctx_free_slot cs) as [k|] eqn:Ef; [|left; congruence].
    destruct (free_some _ _ Ef) as (Hl & Hnth & H0). injection Hr as <- <-. right.
    assert (forall c0, nth_error cs k = Some c0 -> c_src c0 = 0 \/ c_key c0 = h_key bs) as Hc0.
    { intros c0 Hc0. left. congruence. }
    destruct (Hst k (ctx_create (nth k cs ctx0) (h_src bs) (h_dest bs) (h_tag bs)) max Hl Hc0 eq_refl)
      as (c' & E & Hc'). exists k, c'. auto.
Qed.

(** ** Buffer sizes *)

Lemma add_pure_alloc c pl max c' ok L : add_pure c pl max = (c', ok) ->
  c_alloc c <= L -> max <= L -> c_alloc c' <= L.
Proof.
  unfold add_pure. destruct (_ <=? _); [intros [= <- <-]; auto|].
  destruct (c_alloc c <? _).
  - destruct (max <? _) eqn:E; intros [= <- <-]; cbn; lia.
  - intros [= <- <-]; cbn; lia.
Qed.

Lemma rx_pure_alloc cs max bs cs' out L : rx_pure cs max bs = (cs', out) ->
  Forall (fun c => c_alloc c <= L) cs -> max <= L -> 0 <= L -> Forall (fun c => c_alloc c <= L) cs'.
Proof.
  unfold rx_pure. intros Hr Hc Hm HL.
  assert (forall n, c_alloc (nth n cs ctx0) <= L) as Hn.
  { intros n. destruct (nth_in_or_default n cs ctx0) as [H| ->]; [|cbn; lia].
    rewrite Forall_forall in Hc. auto. }
  assert (forall n c x, c_alloc c <= L -> x <= L -> Forall (fun c => c_alloc c <= L) (start_pure cs n c x bs)) as Hst.
  { intros n c x H1 H2. unfold start_pure.
    destruct (add_pure (ctx_set_frag c (zlen bs)) (p_payload bs) x) as [c2 ok] eqn:E.
    apply upd_nth_Forall; [exact Hc|].
    pose proof (add_pure_alloc _ _ _ _ _ L E H1 H2). destruct ok; cbn; assumption. }
  destruct (p_flags bs =? _); [congruence|].
  destruct (ctx_lookup cs _ _ _) as [k|].
  - destruct (p_flags bs =? FLAG_SOM); [injection Hr as <- <-; apply Hst; cbn; auto|].
    destruct (negb _); [injection Hr as <- <-; apply upd_nth_Forall; cbn; auto|].
    destruct (p_flags bs =? FLAG_EOM).
    + destruct (_ <? _); [injection Hr as <- <-; apply upd_nth_Forall; cbn; auto|].
      destruct (add_pure _ _ _) as [c2 ok] eqn:E. injection Hr as <- <-; apply upd_nth_Forall; auto.
      cbn. eapply add_pure_alloc; eauto.
    + destruct (negb _); [injection Hr as <- <-; apply upd_nth_Forall; cbn; auto|].
      destruct (add_pure _ _ _) as [c2 ok] eqn:E. injection Hr as <- <-; apply upd_nth_Forall; auto.
      pose proof (add_pure_alloc _ _ _ _ _ L E (Hn _) Hm). destruct ok; cbn; assumption.
  - destruct (p_flags bs =? FLAG_SOM); [|congruence].
    destruct (ctx_free_slot cs) as [k|]; [|congruence].
    injection Hr as <- <-. apply Hst; cbn; auto.
Qed.

Lemma rx_pure_out_alloc cs max bs cs' s d m L : rx_pure cs max bs = (cs', Some (s, d, m)) ->
  h_som bs = false -> Forall wf_ctx cs -> Forall (fun c => c_alloc c <= L) cs ->
  4 < zlen bs -> 0 <= max < 2 ^ 64 -> max <= L -> zlen m <= L.
Proof.
  unfold rx_pure. rewrite p_flags_spec. intros Hr Hsom Hw Hc Hb Hm HL. rewrite Hsom in Hr. revert Hr.
  change (Z.lor FLAG_SOM FLAG_EOM) with 192. unfold FLAG_SOM, FLAG_EOM.
  destruct (h_eom bs); cbn -[add_pure ctx_lookup Z.modulo p_payload].
  2:{ destruct (ctx_lookup cs _ _ _); [|discriminate]. destruct (negb _); [discriminate|].
      destruct (negb _); [discriminate|]. destruct (add_pure _ _ _); discriminate. }
  destruct (ctx_lookup cs _ _ _) as [k|] eqn:El; [|discriminate].
  destruct (ctx_lookup_nth _ _ _ _ _ El) as (c & Hn & -> & _).
  destruct (negb _); [discriminate|]. destruct (_ <? _); [discriminate|].
  destruct (add_pure c (p_payload bs) max) as [c' ok] eqn:E.
  pose proof (nth_error_Forall _ _ _ _ _ Hw Hn) as Hwc.
  pose proof (nth_error_Forall _ _ _ _ _ Hc Hn) as Hac. cbn in Hac.
  pose proof (add_pure_wf c (p_payload bs) max Hwc) as Hwf.
  rewrite payload_zlen in Hwf by lia. specialize (Hwf ltac:(lia) Hm). rewrite E in Hwf. cbn in Hwf.
  pose proof (add_pure_alloc _ _ _ _ _ L E Hac HL). destruct ok; [|discriminate].
  intros [= <- <- <- <-]. destruct Hwf; lia.
Qed.
