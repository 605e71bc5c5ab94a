(** Many: reassembly of several interleaved streams of messages (for C75). *)
From Verif Require Import Base Lists Prog PktBuf Core WP Walk CoreRel WalkCore CoreHist Spec SpecRx Trace PropTx PropMsg
  Reasm PropRx PropRound PropSerRound SpecDuo DuoMsg PropDuoMsg.

(** The packets that come from [src]. *)
Definition from (src : Z) (pks : list (list Z)) : list (list Z) := filter (fun bs => h_src bs =? src) pks.
(** The requests that make packets. *)
Definition nonempty (r : txreq) : bool := 0 <? zlen (r_msg r).

Lemma from_app src a b : from src (a ++ b) = from src a ++ from src b. Proof. apply filter_app. Qed.
Lemma from_all src l : Forall (fun p => h_src p = src) l -> from src l = l.
Proof. induction 1 as [|p l Hp Hl IH]; [reflexivity|]. unfold from in *. cbn [filter]. rewrite Hp, Z.eqb_refl, IH. reflexivity. Qed.
Lemma from_none src l : Forall (fun p => h_src p <> src) l -> from src l = [].
Proof.
  induction 1 as [|p l Hp Hl IH]; [reflexivity|]. unfold from in *. cbn [filter].
  destruct (Z.eqb_spec (h_src p) src); [contradiction|exact IH].
Qed.
Lemma from_filter src (P : list Z -> bool) l : from src (filter P l) = filter P (from src l).
Proof.
  induction l as [|p l IH]; [reflexivity|]. unfold from in *. cbn [filter].
  destruct (P p) eqn:E1; cbn [filter]; destruct (h_src p =? src); cbn [filter]; rewrite ?E1, IH; reflexivity.
Qed.

Lemma rx_pure_Forall (P : mctx -> Prop) cs max bs cs' out : rx_pure cs max bs = (cs', out) ->
  Forall P cs -> (forall c, c_src c = 0 \/ c_key c = h_key bs -> P c) -> Forall P cs'.
Proof.
  intros Hr Hc Hn. destruct (rx_pure_shape _ _ _ _ _ Hr) as [->|(n & c' & Hl & -> & Hc' & _)]; [exact Hc|].
  apply upd_nth_Forall; auto.
Qed.

(** An EOM packet that is not also SOM leaves no context with its key. *)
Lemma rx_pure_last log cs max bs cs' out : CI log cs -> h_src bs <> 0 -> h_som bs = false -> h_eom bs = true ->
  rx_pure cs max bs = (cs', out) -> Forall (fun c => c_key c <> h_key bs) cs'.
Proof.
  intros Hci Hnz Hs He Hr.
  assert (p_src bs = h_src bs /\ p_dest bs = h_dest bs) as [Ps Pd] by (split; reflexivity).
  revert Hr. unfold rx_pure. rewrite Ps, Pd, p_tag_spec, p_flags_spec, Hs, He.
  change (0 + 64 =? Z.lor FLAG_SOM FLAG_EOM) with false. change (0 + 64 =? FLAG_SOM) with false.
  change (0 + 64 =? FLAG_EOM) with true. cbv iota.
  destruct (ctx_lookup cs (h_src bs) (h_dest bs) (h_tag bs)) as [n|] eqn:El.
  - destruct (lookup_some _ _ _ _ _ El) as (Hn1 & Hn2 & Hn3). set (c := nth n cs ctx0) in *.
    assert (forall x, c_src x = 0 -> Forall (fun c => c_key c <> h_key bs) (upd_nth cs n x)) as Hu.
    { intros x Hx. apply Forall_forall. intros y Hy Hk. apply In_nth_error in Hy. destruct Hy as (j & Hj).
      rewrite nth_error_upd in Hj by exact Hn1. destruct (Nat.eqb_spec j n) as [Hjn|Hne].
      - injection Hj as Hj. subst y. unfold c_key, h_key in Hk. congruence.
      - apply Hne. eapply (ci_uniq _ _ Hci); [exact Hj|exact Hn2| |unfold h_key in Hk; congruence].
        unfold c_key, h_key in Hk. congruence. }
    destruct (negb _); [intros [= <- _]; apply Hu; reflexivity|].
    destruct (_ <? _); [intros [= <- _]; apply Hu; reflexivity|].
    destruct (add_pure c _ _) as [c2 ok]. intros [= <- _]; apply Hu; reflexivity.
  - intros [= <- _]. apply Forall_forall. intros y Hy Hk. apply In_nth_error in Hy. destruct Hy as (j & Hj).
    apply (lookup_none _ _ _ _ El _ _ Hj). exact Hk.
Qed.

(** ** Streams *)
Lemma packs_cons N src r msgs pk : packs N src (r :: msgs) pk ->
  exists ver mtu ps pk', 0 <= r_tag r <= 7 /\ 1 <= mtu <= N - 4 /\
    packetised ver src (r_eid r) (r_to r) (r_tag r) mtu (r_msg r) ps /\ packs N src msgs pk' /\ pk = ps ++ pk'.
Proof.
  intros (pkl & Hp & ->). inversion Hp as [|? ps ? pkl' (Ht & ver & mtu & Hm & Hpk) Hp']; subst.
  exists ver, mtu, ps, (concat pkl'). split; [exact Ht|]. split; [exact Hm|]. split; [exact Hpk|]. split; [|reflexivity].
  exists pkl'. auto.
Qed.

Section Streams.
Context (J : Z) (HJ : 0 <= J) (L : Z) (HL0 : L - 4096 * 2 ^ J = 0) (HL64 : L < 2 ^ 64).
Context (N : Z) (HN : 68 <= N <= 4100).
Lemma HL : L = 4096 * 2 ^ J. Proof. lia. Qed.

(** [pk] is what is still to come of the messages [msgs] of [src]. *)
Inductive expects (src : Z) (cs : list mctx) : list (list Z) -> list txreq -> Prop :=
| ExIdle pk msgs : Forall (fun c => c_src c <> src) cs -> packs N src msgs pk -> expects src cs pk msgs
| ExBusy r msgs ver mtu donep rest pk : 0 <= r_tag r <= 7 -> 1 <= mtu <= N - 4 ->
    packetised ver src (r_eid r) (r_to r) (r_tag r) mtu (r_msg r) (donep ++ rest) -> donep <> [] -> rest <> [] ->
    packs N src msgs pk -> Forall (fun c => c_src c = src -> c_key c = (src, r_eid r, r_tag r)) cs ->
    holds src (r_eid r) (r_tag r) cs (concat (map payload donep)) (mtu + 4) (Z.of_nat (length donep - 1) mod 4) ->
    expects src cs (rest ++ pk) (r :: msgs).

(** What reassembly passes on because of packet [bs]. *)
Definition passed (bs : list Z) (out : option (Z * Z * list Z)) : list txreq :=
  match out with Some (_, _, ms) => [mkReq (h_dest bs) (h_to bs) (h_tag bs) ms] | None => [] end.

Lemma expects_own src bs pk : forall msgs cs cs' out, src <> 0 -> okctx J cs -> expects src cs (bs :: pk) msgs ->
  Forall (fun r => zlen (r_msg r) <= L) msgs ->
  (Forall (fun c => c_src c <> src) cs -> exists n c, nth_error cs n = Some c /\ c_src c = 0) ->
  rx_pure cs L bs = (cs', out) ->
  small bs /\ h_src bs = src /\
  exists dn msgs', msgs = dn ++ msgs' /\ passed bs out = filter nonempty dn /\ expects src cs' pk msgs'.
Proof.
  intros msgs cs cs' out Hsrc Hok Hex Hsz Hfree Hr. destruct (ok_ci _ _ Hok) as (log & Hci).
  inversion Hex as [pk0 msgs0 Hid Hpk Epk|r msgs0 ver mtu donep rest pk0 Htag Hmtu Hp Hd Hre Hpk Hall Hho Epk]; subst.
  - (* nothing under assembly *)
    specialize (Hfree Hid). clear Hex. induction msgs as [|r msgs IH].
    { destruct Hpk as (pkl & Hp & E). inversion Hp; subst. discriminate. }
    inversion Hsz as [|? ? Hs1 Hs2]; subst.
    destruct (packs_cons _ _ _ _ _ Hpk) as (ver & mtu & ps & pk' & Htag & Hmtu & Hp & Hpk' & E).
    destruct ps as [|p ps].
    { (* an empty message *)
      cbn [app] in E. rewrite <- E in Hpk'. destruct (IH Hs2 Hpk') as (H1 & H2 & dn & msgs' & -> & H3 & H4).
      split; [exact H1|]. split; [exact H2|]. exists (r :: dn), msgs'. split; [reflexivity|]. split; [|exact H4].
      destruct Hp as [Hc _]. cbn in Hc. cbn [filter]. unfold nonempty at 1. rewrite <- Hc. exact H3. }
    clear IH. injection E as <- ->.
    pose proof (packetised_no _ _ _ _ _ _ _ _ Htag Hp 0%nat bs eq_refl) as Hno. destruct (Hno) as [N1 N2 N3 N4 N5 N6].
    assert (small bs) as Hsm by (unfold small; destruct (Nat.eqb 1 (length (bs :: ps))); lia).
    unfold h_key in N1. injection N1 as K1 K2 K3.
    split; [exact Hsm|]. split; [exact K1|]. 
    assert (nonempty r = true) as Hne.
    { unfold nonempty. destruct Hp as [Hc _]. rewrite <- Hc. cbn [map concat]. rewrite zlen_app.
      pose proof (payload_zlen bs ltac:(unfold small in Hsm; lia)) as Hz. unfold p_payload in Hz.
      pose proof (zlen_pos _ (concat (map (skipn 4) ps))). unfold small in Hsm. lia. }
    destruct ps as [|p ps].
    + exists [r], msgs. split; [reflexivity|]. revert Hr. unfold rx_pure. rewrite p_flags_spec, N3, N4.
      change (_ =? Z.lor FLAG_SOM FLAG_EOM) with true. cbv iota. intros [= <- <-].
      cbn [passed filter]. rewrite Hne, K2, K3, N2. split.
      * destruct Hp as [Hc _]. cbn [map concat] in Hc. rewrite app_nil_r in Hc. change (p_payload bs) with (skipn 4 bs). rewrite Hc.
        destruct r; reflexivity.
      * cbn [app]. apply ExIdle; assumption.
    + replace (Nat.eqb 1 (length (bs :: p :: ps))) with false in * by reflexivity.
      destruct (step_first J HJ L HL HL64 src (r_eid r) (r_tag r) (r_to r) mtu ltac:(lia) _ _ bs 0%nat Hci (ok_wf _ _ Hok) (ok_good _ _ Hok) Hno eq_refl
        ltac:(unfold small in Hsm; lia)) as (cs1 & Hpure & Hho).
      { destruct Hfree as (n & c & Hn & Hc). exists n, c. auto. }
      rewrite Hr in Hpure. injection Hpure as -> ->.
      exists [], (r :: msgs). split; [reflexivity|]. split; [reflexivity|].
      change (p :: ps ++ pk') with ((p :: ps) ++ pk').
      apply (ExBusy src cs1 r msgs ver mtu [bs] (p :: ps) pk'); try assumption; try discriminate.
      * eapply rx_pure_Forall; [exact Hr| |].
        -- eapply Forall_impl; [|exact Hid]. cbn. intros c H1 H2. contradiction.
        -- intros c [H0|H0] H1; [congruence|]. unfold h_key in H0. congruence.
      * cbn [map concat length Nat.sub]. rewrite app_nil_r. cbn [Nat.eqb] in N6. rewrite <- N6, <- N5. exact Hho.
  - (* in the middle of a message *)
    destruct rest as [|b0 rest]; [contradiction|]. injection Epk as -> <-. clear Hex.
    inversion Hsz as [|? ? Hs1 Hs2]; subst.
    assert (nth_error (donep ++ bs :: rest) (length donep) = Some bs) as Hn.
    { rewrite nth_error_app2, Nat.sub_diag by lia. reflexivity. }
    pose proof (packetised_no _ _ _ _ _ _ _ _ Htag Hp _ bs Hn) as Hno. destruct (Hno) as [N1 N2 N3 N4 N5 N6].
    set (lst := Nat.eqb (S (length donep)) (length (donep ++ bs :: rest))) in *.
    assert (small bs) as Hsm by (unfold small; destruct lst; lia).
    destruct (length donep) as [|no] eqn:El; [destruct donep; [contradiction|discriminate]|].
    replace (S no - 1)%nat with no in Hho by lia.
    assert (concat (map payload (donep ++ bs :: rest)) = r_msg r) as Hmsg by (exact (proj1 Hp)).
    assert (zlen (concat (map payload donep)) + zlen (payload bs) <= L) as Hfit.
    { rewrite <- Hmsg, map_app, concat_app, zlen_app in Hs1. cbn [map concat] in Hs1. rewrite zlen_app in Hs1.
      pose proof (zlen_pos _ (concat (map payload rest))). lia. }
    destruct (step_next J HJ L HL HL64 src (r_eid r) (r_tag r) Hsrc (r_to r) mtu ltac:(lia) _ _ bs no
                lst _ Hci (ok_wf _ _ Hok) (ok_good _ _ Hok) Hno ltac:(unfold small in Hsm; lia) Hho Hfit) as (cs1 & Hpure & Hnext).
    rewrite Hr in Hpure. injection Hpure as -> ->.
    unfold h_key in N1. injection N1 as K1 K2 K3.
    split; [exact Hsm|]. split; [exact K1|].
    assert (h_key bs = (src, r_eid r, r_tag r)) as Hk by (unfold h_key; congruence).
    assert (Forall (fun c => c_src c = src -> c_key c = (src, r_eid r, r_tag r)) cs1) as Hall1.
    { eapply rx_pure_Forall; [exact Hr|exact Hall|]. intros c [H0|H0] H1; [congruence|]. congruence. }
    cbn [Nat.eqb] in N3. subst lst.
    destruct (Nat.eqb_spec (S (S no)) (length (donep ++ bs :: rest))) as [Elast|Enl].
    + assert (rest = []) as ->.
      { rewrite app_length in Elast. cbn in Elast. rewrite El in Elast. destruct rest; [reflexivity|cbn in Elast; lia]. }
      exists [r], msgs0. split; [reflexivity|]. cbn [passed filter app].
      rewrite map_app, concat_app in Hmsg. cbn [map concat] in Hmsg. rewrite app_nil_r in Hmsg. rewrite Hmsg, K2, K3, N2. split.
      * replace (nonempty r) with true; [destruct r; reflexivity|]. symmetry. unfold nonempty. rewrite <- Hmsg, zlen_app.
        pose proof (payload_zlen bs ltac:(unfold small in Hsm; lia)) as Hz. change (p_payload bs) with (payload bs) in Hz.
        pose proof (zlen_pos _ (concat (map payload donep))). unfold small in Hsm. lia.
      * apply ExIdle; [|exact Hpk].
        pose proof (rx_pure_last _ cs L bs _ _ Hci ltac:(rewrite K1; exact Hsrc) N3 N4 Hr) as Hl. rewrite Hk in Hl.
        rewrite Forall_forall in *. intros c Hc E. exact (Hl c Hc (Hall1 c Hc E)).
    + assert (rest <> []) as Hr'. { intros ->. apply Enl. rewrite app_length. cbn. lia. }
      exists [], (r :: msgs0). split; [reflexivity|]. split; [reflexivity|].
      apply (ExBusy src cs1 r msgs0 ver mtu (donep ++ [bs]) rest pk0); try assumption.
      * rewrite <- app_assoc. exact Hp.
      * destruct donep; discriminate.
      * rewrite map_app, concat_app, app_length. cbn [map concat length].
        rewrite app_nil_r, El. replace (S no + 1 - 1)%nat with (S no) by lia. apply Hnext. reflexivity.
Qed.

Lemma expects_other src bs pk msgs cs cs' out : src <> 0 -> expects src cs pk msgs -> h_src bs <> src ->
  rx_pure cs L bs = (cs', out) -> expects src cs' pk msgs.
Proof.
  intros Hsrc Hex Hne Hr. destruct Hex as [pk msgs Hid Hpk|r msgs ver mtu donep rest pk Htag Hmtu Hp Hd Hre Hpk Hall Hho].
  - apply ExIdle; [|exact Hpk]. eapply rx_pure_Forall; [exact Hr|exact Hid|].
    intros c [H|H]; [congruence|]. unfold c_key, h_key in H. congruence.
  - eapply ExBusy; try eassumption.
    + eapply rx_pure_Forall; [exact Hr|exact Hall|]. intros c [H|H] E; [congruence|]. unfold c_key, h_key in H. congruence.
    + destruct Hho as (n & c & Hn & Hk & Hx). exists n, c. split; [|auto].
      eapply rx_pure_other; [exact Hr|exact Hn| |]; unfold c_key, h_key in *; congruence.
Qed.

(** The sources that may have messages under assembly. *)
Definition within (S : list Z) (cs : list mctx) : Prop := Forall (fun c => c_src c = 0 \/ In (c_src c) S) cs.

Lemma slot (S : list Z) (pk : Z -> list (list Z)) (msgs : Z -> list txreq) src cs log :
  (length S <= 16)%nat -> ~ In 0 S -> CI log cs -> within S cs ->
  (forall x, In x S -> expects x cs (pk x) (msgs x)) -> In src S -> Forall (fun c => c_src c <> src) cs ->
  exists n c, nth_error cs n = Some c /\ c_src c = 0.
Proof.
  intros Hlen H0 Hci Hw Hex Hin Hid.
  destruct (Exists_dec (fun c => c_src c = 0) cs (fun c => Z.eq_dec (c_src c) 0)) as [He|He].
  { apply Exists_exists in He. destruct He as (c & Hc & E). apply In_nth_error in Hc. destruct Hc as (n & Hn). eauto. }
  exfalso. rewrite <- Forall_Exists_neg in He.
  assert (NoDup (map c_src cs)) as Hnd.
  { apply NoDup_nth_error. intros i j Hi E. rewrite map_length in Hi.
    rewrite !nth_error_map in E. destruct (nth_error cs i) as [c|] eqn:Ei; [|apply nth_error_None in Ei; lia].
    destruct (nth_error cs j) as [c'|] eqn:Ej; [|discriminate]. cbn in E. injection E as E.
    pose proof (nth_error_Forall _ _ _ _ _ He Ei) as Hz. cbn in Hz.
    pose proof (nth_error_Forall _ _ _ _ _ Hw Ei) as Hi'. cbn in Hi'. destruct Hi' as [Hi'|Hi']; [contradiction|].
    eapply (ci_uniq _ _ Hci); [exact Ei|exact Ej|exact Hz|].
    specialize (Hex _ Hi'). remember (c_src c) as x eqn:Ex.
    destruct Hex as [pk0 msgs0 Hid0 _|r msgs0 ver mtu donep rest pk0 _ _ _ _ _ _ Hall _].
    - exfalso. pose proof (nth_error_Forall _ _ _ _ _ Hid0 Ei). cbn in H. congruence.
    - pose proof (nth_error_Forall _ _ _ _ _ Hall Ei) as A1. pose proof (nth_error_Forall _ _ _ _ _ Hall Ej) as A2. cbn in A1, A2.
      rewrite A1, A2; congruence. }
  assert (incl (map c_src cs) (remove Z.eq_dec src S)) as Hincl.
  { intros x Hx. apply in_map_iff in Hx. destruct Hx as (c & <- & Hc). unfold within in Hw. rewrite Forall_forall in *.
    apply in_in_remove; [apply Hid; exact Hc|]. destruct (Hw c Hc) as [H|H]; [|exact H]. exfalso. exact (He c Hc H). }
  pose proof (NoDup_incl_length Hnd Hincl) as Hle. rewrite map_length, (ci_len _ _ Hci) in Hle.
  pose proof (remove_length_lt Z.eq_dec S src Hin). lia.
Qed.

Definition requests_of (src : Z) (os : list (list Z * list Z)) : list txreq :=
  map (fun o => mkReq (h_dest (fst o)) (h_to (fst o)) (h_tag (fst o)) (snd o)) (filter (fun o => h_src (fst o) =? src) os).

(** Reassembly passes on what each of up to 16 sources sends, in the order of each. *)
Lemma streams_run (S : list Z) (more : Z -> list (list Z)) : (length S <= 16)%nat -> ~ In 0 S ->
  forall pks cs (msgs : Z -> list txreq), okctx J cs -> within S cs ->
  Forall (fun bs => In (h_src bs) S) pks ->
  (forall x, In x S -> expects x cs (from x pks ++ more x) (msgs x) /\ Forall (fun r => zlen (r_msg r) <= L) (msgs x)) ->
  Forall small pks /\
  forall x, In x S -> exists dn rest, msgs x = dn ++ rest /\
    requests_of x (snd (rx_run cs L pks)) = filter nonempty dn /\ expects x (fst (rx_run cs L pks)) (more x) rest.
Proof.
  intros Hlen H0. induction pks as [|bs pks IH]; intros cs msgs Hok Hw Hsrc Hex.
  - split; [constructor|]. intros x Hx. exists [], (msgs x). split; [reflexivity|]. split; [reflexivity|].
    exact (proj1 (Hex x Hx)).
  - inversion Hsrc as [|? ? Hb Hsrc']; subst x l.
    cbn [rx_run]. destruct (rx_pure cs L bs) as [cs1 out] eqn:Hr.
    set (y := h_src bs) in *.
    assert (y <> 0) as Hy0 by (intros E; rewrite E in Hb; contradiction).
    assert (from y (bs :: pks) = bs :: from y pks) as Efr by (unfold from; cbn [filter]; fold y; rewrite Z.eqb_refl; reflexivity).
    destruct (Hex y Hb) as [Hexy Hszy]. rewrite Efr in Hexy. cbn [app] in Hexy.
    destruct (ok_ci _ _ Hok) as (log & Hci).
    destruct (expects_own y bs _ _ cs cs1 out Hy0 Hok Hexy Hszy) as (Hsm & _ & dn & msgs' & Em & Ep & Hex1); [|exact Hr|].
    { intros Hid. apply (slot S (fun x => from x (bs :: pks) ++ more x) msgs y cs log); try assumption. intros x Hx. apply Hex, Hx. }
    destruct (IH cs1 (fun x => if x =? y then msgs' else msgs x)) as [Hsm' Hres].
    + eapply (okctx_step J HJ L HL HL64); eassumption.
    + eapply rx_pure_Forall; [exact Hr|exact Hw|]. intros c [H|H]; [auto|]. right.
      unfold c_key, h_key in H. fold y in H. replace (c_src c) with y by congruence. exact Hb.
    + exact Hsrc'.
    + intros x Hx. destruct (Z.eqb_spec x y) as [->|Hne].
      * split; [exact Hex1|]. rewrite Em in Hszy. apply Forall_app in Hszy. tauto.
      * destruct (Hex x Hx) as [Hexx Hszx]. split; [|exact Hszx].
        assert (from x (bs :: pks) = from x pks) as E.
        { unfold from. cbn [filter]. fold y. destruct (Z.eqb_spec y x); [congruence|reflexivity]. }
        rewrite E in Hexx. eapply (expects_other x bs); [|exact Hexx| |exact Hr]; [intros E0; rewrite E0 in Hx; contradiction|fold y; congruence].
    + split; [constructor; assumption|]. intros x Hx. destruct (Hres x Hx) as (dn2 & rest & E1 & E2 & E3).
      destruct (rx_run cs1 L pks) as [cs2 outs]. cbn [fst snd] in *.
      destruct (Z.eqb_spec x y) as [->|Hne].
      * exists (dn ++ dn2), rest. split; [rewrite Em, E1, app_assoc; reflexivity|]. split; [|exact E3].
        rewrite filter_app, <- Ep, <- E2. unfold requests_of, passed. destruct out as [[[? ?] ms]|]; [|reflexivity].
        cbn [filter fst]. fold y. rewrite Z.eqb_refl. reflexivity.
      * exists dn2, rest. split; [exact E1|]. split; [|exact E3]. rewrite <- E2. unfold requests_of.
        destruct out as [[[? ?] ms]|]; [|reflexivity]. cbn [filter fst]. fold y. destruct (Z.eqb_spec y x); [congruence|reflexivity].
Qed.

(** Nothing to come: only empty messages are left. *)
Lemma expects_nil src cs pk msgs : expects src cs pk msgs -> pk = [] -> filter nonempty msgs = [].
Proof.
  intros Hex. destruct Hex as [pk msgs Hid Hpk|r msgs0 ver mtu donep rest pk0 Htag Hmtu Hp Hd Hre Hpk Hall Hho]; intros E.
  - subst pk. induction msgs as [|r msgs IH]; [reflexivity|].
    destruct (packs_cons _ _ _ _ _ Hpk) as (ver & mtu & ps & pk' & Htag & Hmtu & Hp & Hpk' & E).
    symmetry in E. apply app_eq_nil in E. destruct E as [-> ->]. cbn [filter]. unfold nonempty at 1.
    destruct Hp as [Hc _]. cbn in Hc. rewrite <- Hc. exact (IH Hpk').
  - apply app_eq_nil in E. destruct E as [E _]. contradiction.
Qed.
End Streams.
