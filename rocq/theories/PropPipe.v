(** PropPipe: what mctp-pipe and mctp-in do with their input (C66). *)
From Verif Require Import Base Lists Prog PktBuf Core WP Walk CoreRel WalkCore CoreHist Spec SpecRx Trace PropTx PropMsg
  Reasm PropRx PropRound Crc Serial SpecSer SerRx SerWalk PropSer PropSerTx PropSerRound SpecDuo DuoMsg PropDuoMsg
  Concrete PropSerStream Pipe PropCrc Foot.

Local Notation world := (world serial).

(** ** How many bytes a message takes on the line *)
Lemma wire_bounds p : 6 + zlen p <= zlen (wire p) <= 6 + 2 * zlen p.
Proof.
  unfold wire. rewrite !zlen_app. cbn [zlen length]. change (zlen [126; 1; zlen p]) with 3.
  change (zlen [fcs p / 256; fcs p mod 256; 126]) with 3.
  assert (zlen p <= zlen (flat_map esc p) <= 2 * zlen p) as H; [|lia].
  induction p as [|c p IH]; [cbn; lia|]. cbn [flat_map]. rewrite zlen_app.
  assert (1 <= zlen (esc c) <= 2) by (unfold esc; destruct ((c =? 126) || (c =? 125)); cbn; lia).
  assert (zlen (c :: p) = 1 + zlen p) by (unfold zlen; cbn [length]; lia). lia.
Qed.

Lemma wires_bounds pk : Forall (fun p => 4 < zlen p <= 68) pk ->
  1184 * zlen (concat (map (skipn 4) pk)) <= 1024 * zlen (flat_map wire pk) /\
  zlen (flat_map wire pk) <= 16 * zlen (concat (map (skipn 4) pk)).
Proof.
  induction 1 as [|p pk Hp Hpk IH]; [cbn; lia|]. cbn [flat_map map concat]. rewrite !zlen_app.
  pose proof (wire_bounds p) as Hw.
  assert (zlen (skipn 4 p) = zlen p - 4) as E by (unfold zlen in *; rewrite skipn_length; lia). lia.
Qed.

Lemma packs_payload N src l pk : packs N src l pk -> concat (map (skipn 4) pk) = concat (map r_msg l).
Proof.
  intros (pkl & Hp & ->). induction Hp as [|r ps l pkl (Htag & ver & mtu & Hmtu & Hp) Hpk IH]; [reflexivity|].
  cbn [concat map]. rewrite map_app, concat_app, IH. destruct Hp as [-> _]. reflexivity.
Qed.

Lemma packs_bytes src l pk : packs 68 src l pk ->
  1184 * zlen (concat (map r_msg l)) <= 1024 * zlen (flat_map wire pk) /\
  zlen (flat_map wire pk) <= 16 * zlen (concat (map r_msg l)).
Proof. intros H. rewrite <- (packs_payload _ _ _ _ H). apply wires_bounds. eapply (packs_small 68); [lia|exact H]. Qed.

(** The bytes on the line are bytes. *)
Lemma crc16_range : forall bs r, 0 <= r < 2 ^ 16 -> Forall is_byte bs -> 0 <= crc16 r bs < 2 ^ 16.
Proof.
  intros bs r Hr Hb. destruct (C29_crc16 r bs Hr Hb) as (_ & _ & _ & _ & _ & H). exact H.
Qed.

Lemma flags_bits s e q to tag : 0 <= q < 4 -> 0 <= tag <= 7 -> is_byte (flags_byte s e q to tag).
Proof. intros. unfold is_byte, flags_byte. destruct s, e, to; lia. Qed.

Lemma packetised_bytes ver src dest to tag mtu msg pk : packetised ver src dest to tag mtu msg pk ->
  is_byte src -> is_byte dest -> 0 <= tag <= 7 -> Forall is_byte msg -> Forall (Forall is_byte) pk.
Proof.
  intros [Hc Hp] Hs Hd Htag Hm. apply Forall_forall. intros p Hin.
  pose proof (In_nth_error _ _ Hin) as (k & Hk). destruct (Hp k p Hk) as [Hf _].
  rewrite <- (firstn_skipn 4 p). apply Forall_app. split.
  - rewrite Hf. assert (is_byte (ver mod 16)) by (unfold is_byte; pose proof (Z.mod_pos_bound ver 16); lia).
    apply Forall_cons; [assumption|]. do 2 (apply Forall_cons; [assumption|]). apply Forall_cons; [|constructor]. apply flags_bits; [|exact Htag]. apply Z.mod_pos_bound. lia.
  - apply Forall_forall. intros x Hx. rewrite Forall_forall in Hm. apply Hm. rewrite <- Hc. apply in_concat.
    exists (skipn 4 p). split; [now apply in_map|exact Hx].
Qed.

Lemma wire_bytes p : zlen p <= 68 -> Forall is_byte p -> Forall is_byte (wire p).
Proof.
  intros Hz Hp. pose proof (zlen_pos _ p) as H0. unfold wire. apply Forall_app. split; [|apply Forall_app; split].
  - repeat constructor; lia.
  - apply Forall_flat_map. eapply Forall_impl; [|exact Hp]. intros c Hc. unfold esc.
    destruct (Z.eqb_spec c 126) as [->|]; [repeat constructor; cbn; lia|].
    destruct (Z.eqb_spec c 125) as [->|]; [repeat constructor; cbn; lia|]. repeat constructor; apply Hc.
  - assert (0 <= fcs p < 2 ^ 16) as Hr.
    { apply crc16_range; [lia|]. constructor; [unfold is_byte; lia|]. constructor; [unfold is_byte; lia|exact Hp]. }
    change (2 ^ 16) with 65536 in Hr.
    pose proof (Z.mod_pos_bound (fcs p) 256). pose proof (Z.div_pos (fcs p) 256). pose proof (Z.div_lt_upper_bound (fcs p) 256 256).
    repeat constructor; lia.
Qed.

(** ** The invariant *)
Section Pipe.
Context (fuel : nat) (Hfuel : (256 <= fuel)%nat).

Definition req (c : list Z) : txreq := mkReq 9 true 0 c.

Record PInv (s : pipe) : Prop := mkPInv {
  pi_byte : Forall is_byte (pp_sock s);
  pi_tx : SI (Endpoint 8) (pp_tx s);
  pi_eager : eager (pp_tx s);
  pi_rx : SI (Endpoint 9) (pp_rx s);
  pi_hist : exists w0 l t cs pk,
    mhist (Endpoint 9) w0 l t (pp_rx s) /\ Forall mconst l /\ rst w0 false = Idle /\ okctx 4 (m_ctxs (w_m w0)) /\
    allfree (m_ctxs (w_m w0)) /\ m_max (w_m w0) = 65536 /\ m_rx (w_m w0) = true /\ (forall j, bd_ctrl (bnd w0 j) = false) /\
    packs 68 8 (map req cs) pk /\ Forall (fun c => 1 <= zlen c <= 1024) cs /\ mfed false l ++ pp_sock s = flat_map wire pk /\
    pp_in s = concat cs /\ pp_out s = printed t }.

Lemma start_inv s : pipe_start fuel s -> PInv s.
Proof.
  intros (e0 & n0 & t0 & w0 & e1 & n1 & t1 & w1 & He0 & He1 & R0 & R1 & ->).
  assert (w0 = ser_booted (Endpoint 8)) as ->.
  { assert (always no_oom (ser_history fuel just_print (Endpoint 8) []) (fun w _ => w = ser_booted (Endpoint 8))) as H.
    { apply adv_always. unfold ser_history. cbn [sexec]. eapply wp_call; [apply adv_mono|apply (wp_ser_boot fuel just_print no_oom eq_refl)|].
      intros w g [-> _]. reflexivity. }
    specialize (H e0 He0). rewrite R0 in H. exact H. }
  set (v := set_m (ser_booted (Endpoint 9)) (mctp_set_rx_all (w_m (ser_booted (Endpoint 9))) true)).
  assert (w1 = v) as ->.
  { assert (always no_oom (ser_history fuel just_print (Endpoint 9) [SCore (OpSetRx true)]) (fun w _ => w = v)) as H.
    { apply adv_always. unfold ser_history. cbn [sexec]. eapply wp_call; [apply adv_mono|apply (wp_ser_boot fuel just_print no_oom eq_refl)|].
      intros w g [-> _]. reflexivity. }
    specialize (H e1 He1). rewrite R1 in H. exact H. }
  constructor; cbn [pp_tx pp_rx pp_sock pp_in pp_out].
  - constructor.
  - pose proof (ser_history_spec fuel just_print (Endpoint 8) Hfuel [] ltac:(constructor) e0 He0) as H. rewrite R0 in H.
    destruct H as (_ & _ & _ & H). exact H.
  - eexists. split; [reflexivity|]. split; reflexivity.
  - pose proof (ser_history_spec fuel just_print (Endpoint 9) Hfuel [SCore (OpSetRx true)] ltac:(repeat constructor) e1 He1) as H.
    rewrite R1 in H. destruct H as (_ & _ & _ & H). exact H.
  - exists v, [], [], [], []. split; [constructor|]. split; [constructor|]. split; [reflexivity|]. split.
    { constructor.
      - exists []. apply CI_fresh.
      - repeat constructor; cbn; lia.
      - repeat constructor; left; reflexivity. }
    split; [repeat constructor|]. split; [reflexivity|]. split; [reflexivity|].
    split; [intros []; reflexivity|]. split; [apply packs_nil|]. split; [constructor|]. auto.
Qed.

Lemma printed_app a b : printed (a ++ b) = printed a ++ printed b.
Proof. unfold printed. rewrite heard_app, map_app, concat_app. reflexivity. Qed.

Lemma firstn_byte k (l : list Z) : Forall is_byte l -> Forall is_byte (firstn k l).
Proof. intros H. rewrite <- (firstn_skipn k l) in H. apply Forall_app in H. tauto. Qed.

Lemma skipn_byte k (l : list Z) : Forall is_byte l -> Forall is_byte (skipn k l).
Proof. intros H. rewrite <- (firstn_skipn k l) in H. apply Forall_app in H. tauto. Qed.

Lemma read_rx s k e : PInv s -> env_ok no_oom e ->
  match run e 0 [] (sexec fuel just_print (pp_rx s) [SRx false (firstn k (pp_sock s))]) with
  | Done w n t => PInv (mkPipe (pp_tx s) w (skipn k (pp_sock s)) (pp_open s) (pp_fd1 s) (pp_in s) (pp_out s ++ printed t))
  | Fault _ _ => False
  end.
Proof.
  intros [Hb I1 I2 I3 I4] He.
  assert (Forall (ser_traffic (Endpoint 9)) [SRx false (firstn k (pp_sock s))]) as Ht.
  { constructor; [|constructor]. split; [discriminate|]. now apply firstn_byte. }
  pose proof (wp_sexec fuel just_print no_oom eq_refl eq_refl Hfuel (Endpoint 9) _ _ [] I3 Ht) as H.
  apply adv_always in H. specialize (H e He).
  destruct (run e 0 [] (sexec fuel just_print (pp_rx s) [SRx false (firstn k (pp_sock s))])) as [w n t|]; [|exact H].
  destruct H as (t' & -> & Hh & Hs). cbn [Datatypes.app] in *.
  constructor; cbn [pp_tx pp_rx pp_sock pp_in pp_out]; [now apply skipn_byte|exact I1|exact I2|exact Hs|].
  destruct I4 as (w0 & l & t & cs & pk & J1 & J2 & J3 & J4 & J5 & J6 & J7 & J8 & J9 & J10 & J11 & J12 & J13).
  exists w0, (l ++ micro [SRx false (firstn k (pp_sock s))]), (t ++ t'), cs, pk.
  split; [eapply mhist_app; eassumption|].
  split; [apply Forall_app; split; [exact J2|]; apply mconst_micro; repeat constructor|].
  repeat (split; [assumption|]). split.
  { unfold mfed in *. rewrite flat_map_app. fold (mfed false l). change (flat_map _ (micro ?x)) with (mfed false (micro x)).
    rewrite mfed_micro. cbn [fed flat_map Bool.eqb]. rewrite app_nil_r, <- app_assoc, firstn_skipn. exact J11. }
  split; [exact J12|]. rewrite printed_app. now f_equal.
Qed.

Lemma send_tx s c e : PInv s -> env_ok no_oom e -> 1 <= zlen c <= 1024 -> Forall is_byte c ->
  match run e 0 [] (sexec fuel just_print (pp_tx s) [pipe_send c]) with
  | Done w n t => writes_ok t -> PInv (mkPipe w (pp_rx s) (pp_sock s ++ sent t) (pp_open s) (pp_fd1 s) (pp_in s ++ c) (pp_out s)) /\
      1184 * zlen c <= 1024 * zlen (sent t) /\ zlen (sent t) <= 16 * zlen c
  | Fault _ _ => False
  end.
Proof.
  intros [Hb I1 I2 I3 I4] He Hc Hcb.
  assert (Forall (fun r => 0 <= r_tag r <= 7) [req c]) as Htag by (repeat constructor; cbn; lia).
  pose proof (adv_and _ _ _ _ _ _ (wp_says fuel just_print Hfuel 8 [req c] (pp_tx s) [] I1 Htag)
    (wp_sexec fuel just_print no_oom eq_refl eq_refl Hfuel (Endpoint 8) (map say [req c]) (pp_tx s) [] I1 ltac:(repeat constructor))) as H.
  apply adv_always in H. specialize (H e He). change (map say [req c]) with [pipe_send c] in H.
  destruct (run e 0 [] (sexec fuel just_print (pp_tx s) [pipe_send c])) as [w n t|]; [|exact H].
  destruct H as [(t1 & -> & H1) (t2 & E & _ & Hs)]. cbn [Datatypes.app] in *. intros Hw.
  destruct (H1 I2 Hw) as (pk & Hpk & Hsent & Heag). clear H1. 
  split.
  2:{ rewrite Hsent. pose proof (packs_bytes _ _ _ Hpk) as Hbb. cbn [map req r_msg concat] in Hbb. rewrite app_nil_r in Hbb. exact Hbb. }
  constructor; cbn [pp_tx pp_rx pp_sock pp_in pp_out]; [|exact Hs|exact Heag|exact I3|].
  { apply Forall_app. split; [exact Hb|]. rewrite Hsent. apply Forall_flat_map.
    pose proof (packs_small 68 _ _ _ ltac:(lia) Hpk) as Hsm. destruct Hpk as (pkl & Hp & ->).
    inversion Hp as [|? ps ? pkl' (_ & ver & mtu & _ & Hp1) Hp2]; subst. inversion Hp2; subst. cbn [concat] in *. rewrite app_nil_r in *.
    apply packetised_bytes in Hp1; [|unfold is_byte; cbn; lia|unfold is_byte; cbn; lia|cbn; lia|exact Hcb].
    clear - Hsm Hp1. induction Hp1 as [|p ps Hp Hps IH]; [constructor|]. inversion Hsm; subst.
    constructor; [apply wire_bytes; [lia|exact Hp]|now apply IH]. }
  destruct I4 as (w0 & l & t & cs & pk0 & J1 & J2 & J3 & J4 & J5 & J6 & J7 & J8 & J9 & J10 & J11 & J12 & J13).
  exists w0, l, t, (cs ++ [c]), (pk0 ++ pk). repeat (split; [assumption|]).
  split; [rewrite map_app; apply packs_app; assumption|].
  split; [apply Forall_app; split; [exact J10|repeat constructor; lia]|].
  split; [rewrite flat_map_app, <- J11, <- app_assoc, Hsent; reflexivity|].
  split; [|exact J13]. rewrite concat_app, J12. cbn [concat]. now rewrite app_nil_r.
Qed.

(** Output is a prefix of the input; all of it when the socket is empty. *)
Lemma inv_out s : PInv s -> exists rest, pp_in s = pp_out s ++ rest /\ (pp_sock s = [] -> rest = []).
Proof.
  intros [_ I1 I2 I3 (w0 & l & t & cs & pk & J1 & J2 & J3 & J4 & J5 & J6 & J7 & J8 & J9 & J10 & J11 & J12 & J13)].
  destruct (ser_hear 4 ltac:(lia) 65536 eq_refl ltac:(lia) 9 8 w0 l t (pp_rx s) (map req cs) pk (pp_sock s) J1 J2 J3 J4 J5 (fun _ => J6) J7 J8
    ltac:(lia) J9) as (rest & E & Hr); [|exact J11|].
  { apply Forall_forall. intros r Hr. apply in_map_iff in Hr. destruct Hr as (c & <- & Hin).
    rewrite Forall_forall in J10. specialize (J10 c Hin). cbn [req r_msg]. lia. }
  assert (filter (meant_for 9) (map req cs) = map req cs) as Ef.
  { clear - J10. induction J10 as [|c cs Hc Hcs IH]; [reflexivity|]. cbn [map filter]. rewrite IH.
    unfold meant_for at 1. cbn [req r_msg r_eid]. replace (0 <? zlen c) with true by lia. reflexivity. }
  rewrite Ef in E. exists (concat (map (fun d : Z * bool * Z * list Z => match d with (_, _, _, msg) => msg end) rest)).
  split; [|intros Hs; rewrite (Hr Hs); reflexivity].
  rewrite J12, J13. unfold printed. rewrite <- concat_app, <- map_app, <- E, !map_map. cbn [as_heard req r_msg].
  now rewrite map_id.
Qed.

Lemma inv_flags s o f : PInv s -> PInv (mkPipe (pp_tx s) (pp_rx s) (pp_sock s) o f (pp_in s) (pp_out s)).
Proof. intros [H1 H2 H3 H4 H5]. constructor; assumption. Qed.

Definition RInv (r : result) : Prop :=
  match r with Next s | Exit s => PInv s | Stuck s => exists rest, pp_in s = pp_out s ++ rest | Crash _ => False end.

(** How the socket fills: what is in it and what was read. *)
Lemma read_inv s r : PInv s -> read_step fuel s r -> exists s1, r = Next s1 /\ PInv s1 /\
  pp_in s1 = pp_in s /\ pp_open s1 = pp_open s /\ zlen (pp_sock s) - 1024 <= zlen (pp_sock s1) <= zlen (pp_sock s) /\
  (pp_fd1 s = true -> pp_open s = false ->
     (zlen (pp_sock s1) < zlen (pp_sock s) /\ pp_fd1 s1 = true) \/ (pp_sock s = [] /\ pp_fd1 s1 = false)) /\
  (pp_fd1 s1 = false -> pp_fd1 s = false \/ pp_sock s1 = [] /\ pp_open s1 = false).
Proof.
  intros Hi Hr. destruct Hr as [Hn|k e w n t Hf Hk Hk2 He Hrun|k e f t Hf Hk Hk2 He Hrun|Hf Hs Ho].
  - exists s. split; [reflexivity|]. split; [exact Hi|]. repeat (split; [reflexivity|]). split; [lia|].
    split; [intros E1 E2; destruct Hn as [Hn|[_ Hn]]; congruence|auto].
  - eexists. split; [reflexivity|]. pose proof (read_rx s k e Hi He) as H. rewrite Hrun in H. split; [exact H|].
    cbn [pp_in pp_open pp_sock pp_fd1]. repeat (split; [reflexivity|]).
    assert (zlen (skipn k (pp_sock s)) = zlen (pp_sock s) - Z.of_nat k) as E by (unfold zlen; rewrite skipn_length; lia).
    rewrite E. split; [lia|]. split; [intros _ _; left; split; [lia|exact Hf]|]. left. congruence.
  - pose proof (read_rx s k e Hi He) as H. rewrite Hrun in H. destruct H.
  - eexists. split; [reflexivity|]. rewrite <- Hs, <- Ho at 1. split; [now apply inv_flags|].
    cbn [pp_in pp_open pp_sock pp_fd1]. rewrite Hs. repeat (split; [congruence|]). split; [cbn; lia|].
    split; [intros; right; auto|auto].
Qed.

Lemma in_inv cap s i r : PInv s -> in_step fuel cap s i r -> RInv r.
Proof.
  intros Hi Hr. destruct Hr as [|Ho|c e w n t Ho Hc Hb He Hrun Hw Hcap|c e w n t Ho Hc Hb He Hrun Hw Hcap|c e f t Ho Hc Hb He Hrun];
    cbn [RInv].
  - exact Hi.
  - now apply inv_flags.
  - pose proof (send_tx s c e Hi He Hc Hb) as H. rewrite Hrun in H. destruct (H Hw) as [H1 _]. rewrite Ho in H1. exact H1.
  - destruct (inv_out s Hi) as (rest & E & _). cbn [pp_in pp_out]. exists (rest ++ c). now rewrite E, app_assoc.
  - pose proof (send_tx s c e Hi He Hc Hb) as H. rewrite Hrun in H. exact H.
Qed.

Lemma leave_inv r : RInv r -> RInv (leave r).
Proof. destruct r as [s|s|s|f]; try exact (fun x => x). cbn [leave]. destruct (_ && _); exact (fun x => x). Qed.

Lemma iter_inv cap s i r : PInv s -> iter fuel cap s i r -> RInv r.
Proof.
  intros Hi Hr. destruct Hr as [i f Hr|i s1 r Hr Hn].
  - destruct (read_inv _ _ Hi Hr) as (s1 & E & _). discriminate.
  - destruct (read_inv _ _ Hi Hr) as (s2 & [= <-] & Hi1 & _). apply leave_inv. eapply in_inv; eassumption.
Qed.

Lemma loops_inv cap s l r : loops fuel cap s l r -> PInv s -> RInv r.
Proof.
  intros H Hs. induction H as [|l s1 i r Hp IH Hi]; [exact Hs|]. eapply iter_inv; [exact IH|exact Hi].
Qed.
Lemma piped_inv cap l r : piped fuel cap l r -> RInv r.
Proof. intros (s & Hs & Hl). eapply loops_inv; [exact Hl|]. now apply start_inv. Qed.

(** What the iterations read from standard input. *)
Definition given (l : list input) : list Z :=
  flat_map (fun i => match i with Bytes c => c | _ => [] end) l.

Definition read_in (r : result) : option (list Z) :=
  match r with Next s | Exit s | Stuck s => Some (pp_in s) | Crash _ => None end.

Lemma loops_given cap s0 l r : PInv s0 -> loops fuel cap s0 l r -> read_in r = Some (pp_in s0 ++ given l).
Proof.
  intros H0 Hpd. induction Hpd as [|l s i r Hp IH Hi].
  - cbn. now rewrite app_nil_r.
  - cbn [read_in] in IH. injection IH as IH. unfold given in *. rewrite flat_map_app, app_assoc, <- IH. cbn [flat_map]. rewrite app_nil_r.
    pose proof (loops_inv _ _ _ _ Hp H0) as HI. cbn [RInv] in HI. destruct Hi as [i f Hr|i s1 r Hr Hn].
    + destruct (read_inv _ _ HI Hr) as (s1 & E & _). discriminate.
    + destruct (read_inv _ _ HI Hr) as (s2 & [= <-] & Hi1 & E & _). rewrite <- E.
      assert (forall x, read_in (leave x) = read_in x) as El by (intros [s'|s'|s'|f]; try reflexivity; cbn [leave]; destruct (_ && _); reflexivity).
      rewrite El. destruct Hn; cbn [read_in pp_in]; rewrite ?app_nil_r; try reflexivity.
      pose proof (send_tx s1 c e Hi1 ltac:(assumption) ltac:(assumption) ltac:(assumption)) as HH.
      match goal with E : run _ _ _ _ = _ |- _ => rewrite E in HH end. destruct HH.
Qed.

Lemma start_facts s : pipe_start fuel s -> pp_in s = [] /\ pp_open s = true /\ pp_fd1 s = true /\ pp_sock s = [].
Proof. intros (e0 & n0 & t0 & w0 & e1 & n1 & t1 & w1 & _ & _ & _ & _ & ->). auto. Qed.

Lemma piped_given cap l r : piped fuel cap l r -> read_in r = Some (given l).
Proof.
  intros (s & Hs & Hl). rewrite (loops_given _ _ _ _ (start_inv s Hs) Hl). destruct (start_facts s Hs) as [-> _]. reflexivity.
Qed.

(** The flags. *)
Definition FInv (r : result) : Prop :=
  match r with
  | Next s => pp_fd1 s = true
  | Exit s => pp_sock s = [] /\ pp_open s = false
  | _ => True
  end.

Lemma iter_flags cap s i r : PInv s -> pp_fd1 s = true -> iter fuel cap s i r -> FInv r.
Proof.
  intros Hi Hf Hr. destruct Hr as [i f Hr|i s1 r Hr Hn]; [exact I|].
  destruct (read_inv _ _ Hi Hr) as (s2 & [= <-] & Hi1 & _ & _ & _ & _ & E).
  assert (pp_fd1 s1 = false -> pp_sock s1 = [] /\ pp_open s1 = false) as Hx by (intros E1; destruct (E E1); [congruence|assumption]).
  destruct Hn; cbn [leave pp_open pp_fd1 pp_sock FInv]; try exact I.
  - destruct (pp_fd1 s1) eqn:Ef; [rewrite andb_false_r; exact Ef|]. destruct (Hx eq_refl) as [H1 H2]. rewrite H2. split; assumption.
  - destruct (pp_fd1 s1) eqn:Ef; [reflexivity|]. destruct (Hx eq_refl). congruence.
  - destruct (pp_fd1 s1) eqn:Ef; [reflexivity|]. destruct (Hx eq_refl). congruence.
Qed.

Lemma loops_flags cap s l r : PInv s -> pp_fd1 s = true -> loops fuel cap s l r -> FInv r.
Proof.
  intros Hi Hf H. induction H as [|l s1 i r Hp IH Hr]; [exact Hf|].
  eapply iter_flags; [exact (loops_inv _ _ _ _ Hp Hi)|exact IH|exact Hr].
Qed.

Lemma iter_open cap s i r : PInv s -> iter fuel cap s i r ->
  match r with Next s' | Exit s' => pp_open s' = false <-> pp_open s = false \/ i = Eof | _ => True end.
Proof.
  intros Hi Hr. destruct Hr as [i f Hr|i s1 r Hr Hn]; [exact I|].
  destruct (read_inv _ _ Hi Hr) as (s2 & [= <-] & Hi1 & _ & E & _). rewrite <- E.
  assert (match r with Next s' | Exit s' => pp_open s' = false <-> pp_open s1 = false \/ i = Eof | _ => True end) as H.
  { destruct Hn; cbn [pp_open]; try exact I; intuition congruence. }
  destruct r as [s'|s'|s'|f]; try exact H. cbn [leave]. destruct (_ && _); exact H.
Qed.

Lemma loops_open cap s l r : PInv s -> loops fuel cap s l r ->
  match r with Next s' | Exit s' => pp_open s' = false <-> pp_open s = false \/ In Eof l | _ => True end.
Proof.
  intros Hi H. induction H as [|l s1 i r Hp IH Hr]; [cbn; intuition|].
  pose proof (iter_open _ _ _ _ (loops_inv _ _ _ _ Hp Hi) Hr) as H.
  destruct r; try exact I; rewrite H, IH, in_app_iff; cbn [In]; intuition.
Qed.

(** An iteration can always take place: the model does not get stuck by itself. *)
Definition positive : answers := mkAns any_kval (fun bs r => r = Z.min 1 (zlen bs)).
Definition posev (g : list event) (e : event) : Prop := match e with EvSWrite _ r => 0 < r | _ => True end.

Lemma foot_write_all n : forall bs g, foot positive posev (write_all n bs) g (fun _ _ => True).
Proof.
  induction n as [|n IH]; intros bs g; destruct bs as [|c bs]; cbn [write_all foot]; try exact I.
  cbn [an_swrite positive]. intros r ->. split.
  - cbn [posev]. assert (zlen (c :: bs) = 1 + zlen bs) by (unfold zlen; cbn [length]; lia).
    pose proof (zlen_pos _ bs). lia.
  - destruct (_ <? 0); [exact I|]. apply IH.
Qed.

Lemma foot_ser_tx g (b : serial) p : foot positive posev (serial_tx fuel b p) g (fun _ _ => True).
Proof.
  unfold serial_tx. destruct (rd _ _ (w32 _)); cbn [deref bind foot]; [|exact I].
  destruct (rd _ _ (w8 _)); cbn [deref bind foot]; [|exact I]. cbv zeta. destruct (_ <? _); [exact I|].
  eapply foot_call; [apply foot_write_all|]. intros; exact I.
Qed.

Lemma calm_writes (w : world) c : match run calm 0 [] (sexec fuel just_print w [pipe_send c]) with
  | Done _ _ t => writes_ok t | Fault _ _ => True end.
Proof.
  assert (foot positive posev (sexec fuel just_print w [pipe_send c]) [] (fun _ _ => True)) as Hf.
  { cbn [sexec pipe_send]. eapply foot_call; [|intros; exact I].
    apply (foot_op (serial_tx fuel) serial_start just_print positive posev (fun _ _ => True)).
    - intros g e He. destruct e; try exact I. exfalso. apply He. exact I.
    - auto.
    - intros g b p _. eapply foot_mono; [|apply foot_ser_tx]. auto.
    - intros g b _. exact I.
    - exact I.
    - split; exact I. }
  destruct (foot_sound _ _ _ _ _ _ Hf I calm 0%nat (fun _ _ _ _ => eq_refl) (fun _ _ => eq_refl)) as [He _].
  destruct (run calm 0 [] (sexec fuel just_print w [pipe_send c])) as [x n t|]; [|exact I].
  cbn [events] in He. apply Forall_forall. intros ev Hin. apply in_split in Hin. destruct Hin as (x1 & y1 & ->).
  apply each_app in He. destruct He as [_ [He _]]. destruct ev; try exact I; exact He.
Qed.

Definition possible (s : pipe) (i : input) : Prop :=
  match i with
  | Nothing => True
  | Eof => pp_open s = true
  | Bytes c => pp_open s = true /\ 1 <= zlen c <= 1024 /\ Forall is_byte c
  end.

Lemma read_can s : PInv s -> exists s1, read_step fuel s (Next s1).
Proof.
  intros Hi. destruct (pp_fd1 s) eqn:Ef; [|exists s; apply RdNone; auto].
  destruct (pp_sock s) as [|c q] eqn:Es.
  - destruct (pp_open s) eqn:Eo; [exists s; apply RdNone; auto|]. eexists. apply RdEof; assumption.
  - pose proof (read_rx s 1 calm Hi calm_no_oom) as H.
    destruct (run calm 0 [] (sexec fuel just_print (pp_rx s) [SRx false (firstn 1 (pp_sock s))])) as [w n t|] eqn:Er; [|destruct H].
    eexists. eapply (RdData _ _ 1%nat calm); [exact Ef|lia|rewrite Es; cbn; lia|apply calm_no_oom|exact Er].
Qed.

Lemma iter_can cap s i : PInv s -> possible s i -> exists r, iter fuel cap s i r.
Proof.
  intros Hi Hp. destruct (read_can s Hi) as (s1 & Hr). destruct (read_inv _ _ Hi Hr) as (s2 & [= <-] & Hi1 & _ & Eo & _).
  destruct i as [|c|].
  - eexists. eapply ItNext; [exact Hr|apply InNone].
  - destruct Hp as (Ho & Hc & Hb). rewrite <- Eo in Ho. pose proof (send_tx s1 c calm Hi1 calm_no_oom Hc Hb) as H.
    pose proof (calm_writes (pp_tx s1) c) as Hw.
    destruct (run calm 0 [] (sexec fuel just_print (pp_tx s1) [pipe_send c])) as [w n t|] eqn:Er; [|destruct H].
    destruct (Z_le_gt_dec (zlen (pp_sock s1 ++ sent t)) cap) as [Hle|Hgt].
    + eexists. eapply ItNext; [exact Hr|]. eapply (InData _ _ _ c calm); eauto using calm_no_oom.
    + eexists. eapply ItNext; [exact Hr|]. eapply (InFull _ _ _ c calm); eauto using calm_no_oom. lia.
  - cbn [possible] in Hp. rewrite <- Eo in Hp. eexists. eapply ItNext; [exact Hr|]. now apply InEof.
Qed.

(** Once standard input has ended. *)
Lemma drain cap s i r : PInv s -> pp_open s = false -> pp_fd1 s = true -> iter fuel cap s i r ->
  exists s', (r = Next s' /\ pp_open s' = false /\ pp_fd1 s' = true /\ zlen (pp_sock s') < zlen (pp_sock s)) \/
             (r = Exit s' /\ pp_sock s' = []).
Proof.
  intros Hi Ho Hf Hr. destruct Hr as [i f Hr|i s1 r Hr Hn].
  - destruct (read_inv _ _ Hi Hr) as (s1 & E & _). discriminate.
  - destruct (read_inv _ _ Hi Hr) as (s2 & [= <-] & Hi1 & E & E2 & E3 & E4 & E5). rewrite Ho in E2.
    destruct Hn; try congruence. cbn [leave]. rewrite E2. cbn [negb andb].
    destruct (E4 Hf Ho) as [[H1 H2]|[H1 H2]]; rewrite H2; cbn [negb].
    + exists s1. left. auto.
    + exists s1. right. split; [reflexivity|]. destruct (E5 H2) as [?|[H _]]; [congruence|exact H].
Qed.

Lemma drain_loops cap s : PInv s -> pp_open s = false -> pp_fd1 s = true -> forall l r, loops fuel cap s l r ->
  exists s', (r = Next s' /\ pp_open s' = false /\ pp_fd1 s' = true /\ zlen (pp_sock s') + zlen l <= zlen (pp_sock s)) \/
             (r = Exit s' /\ pp_sock s' = [] /\ zlen l <= zlen (pp_sock s) + 1).
Proof.
  intros Hi Ho Hf l r H. induction H as [|l s1 i r Hp IH Hr].
  - exists s. left. repeat (split; [auto|]). cbn. lia.
  - destruct IH as (s' & [([= <-] & Ho1 & Hf1 & Hz)|([=] & _)]).
    assert (zlen (l ++ [i]) = zlen l + 1) as E by (rewrite zlen_app; reflexivity).
    pose proof (zlen_pos _ (pp_sock s1)). destruct (drain _ _ _ _ (loops_inv _ _ _ _ Hp Hi) Ho1 Hf1 Hr) as (s2 & [(-> & A & B & C)|(-> & A)]).
    + exists s2. left. repeat (split; [auto|]). lia.
    + exists s2. right. repeat (split; [auto|]). lia.
Qed.

Lemma sock_size s : PInv s -> zlen (pp_sock s) <= 16 * zlen (pp_in s).
Proof.
  intros [_ _ _ _ (w0 & l & t & cs & pk & J1 & J2 & J3 & J4 & J5 & J6 & J7 & J8 & J9 & J10 & J11 & J12 & J13)].
  destruct (packs_bytes _ _ _ J9) as [_ H]. rewrite <- J11, zlen_app in H. rewrite J12. pose proof (zlen_pos _ (mfed false l)).
  rewrite map_map in H. cbn [req r_msg] in H. rewrite map_id in H. lia.
Qed.

Lemma loops_app cap s l1 s1 : loops fuel cap s l1 (Next s1) -> forall l2 r, loops fuel cap s1 l2 r -> loops fuel cap s (l1 ++ l2) r.
Proof.
  intros H1 l2 r H2. induction H2 as [|l s2 i r H2 IH Hi]; [now rewrite app_nil_r|].
  rewrite app_assoc. eapply LIter; eassumption.
Qed.

(** *** C66: mctp-pipe.  Whatever the sizes of the reads and the timing, it does not crash, what
    it has written to standard output is the beginning of what it has read from standard
    input, and when it exits it is all of it. *)
Theorem C66_pipe cap l r : piped fuel cap l r ->
  match r with
  | Next s | Stuck s => exists rest, given l = pp_out s ++ rest
  | Exit s => pp_out s = given l /\ In Eof l
  | Crash _ => False
  end.
Proof.
  intros Hp. pose proof (piped_given _ _ _ Hp) as Hg. pose proof (piped_inv _ _ _ Hp) as Hi.
  destruct r as [s|s|s|f]; cbn [read_in RInv] in *; try injection Hg as <-.
  - destruct (inv_out s Hi) as (rest & E & _). eauto.
  - destruct Hp as (s0 & H0 & Hl). destruct (start_facts s0 H0) as (_ & F1 & F2 & _).
    destruct (loops_flags _ _ _ _ (start_inv _ H0) F2 Hl) as [E1 E2].
    destruct (inv_out s Hi) as (rest & E & Er). rewrite (Er E1), app_nil_r in E. split; [now rewrite E|].
    pose proof (loops_open _ _ _ _ (start_inv _ H0) Hl) as Ho. cbn in Ho. destruct (proj1 Ho E2) as [?|H]; [congruence|exact H].
  - exact Hi.
  - exact Hi.
Qed.

(** It can always go on, whatever standard input has for it; so the runs above do not end early. *)
Theorem C66_pipe_goes_on cap l s i : piped fuel cap l (Next s) ->
  match i with
  | Nothing => True
  | Eof => ~ In Eof l
  | Bytes c => ~ In Eof l /\ 1 <= zlen c <= 1024 /\ Forall is_byte c
  end -> exists r, piped fuel cap (l ++ [i]) r.
Proof.
  intros Hp Hpos. pose proof (piped_inv _ _ _ Hp) as Hi. destruct Hp as (s0 & H0 & Hl).
  destruct (start_facts s0 H0) as (_ & F1 & _).
  pose proof (loops_open _ _ _ _ (start_inv _ H0) Hl) as Ho. cbn in Ho.
  assert (~ In Eof l -> pp_open s = true) as Hop.
  { intros Hn. destruct (pp_open s); [reflexivity|]. destruct (proj1 Ho eq_refl); [congruence|contradiction]. }
  destruct (iter_can cap s i Hi) as (r & Hr); [destruct i; cbn [possible]; tauto|].
  exists r, s0. split; [exact H0|]. eapply LIter; eassumption.
Qed.

(** Once standard input has ended it exits, after at most as many iterations as there are
    bytes in the socket and one more. *)
Theorem C66_pipe_exits cap l s : piped fuel cap l (Next s) -> In Eof l ->
  (forall l' r, loops fuel cap s l' r -> zlen l' <= zlen (pp_sock s) + 1 /\
     ((exists s', r = Next s') \/ exists s', r = Exit s' /\ pp_out s' = given l)) /\
  exists l' s', loops fuel cap s l' (Exit s').
Proof.
  intros Hp He. pose proof (piped_inv _ _ _ Hp) as Hi. destruct Hp as (s0 & H0 & Hl).
  destruct (start_facts s0 H0) as (_ & F1 & F2 & _).
  pose proof (loops_open _ _ _ _ (start_inv _ H0) Hl) as Ho. cbn in Ho.
  assert (pp_open s = false) as Ho1 by (apply Ho; auto).
  pose proof (loops_flags _ _ _ _ (start_inv _ H0) F2 Hl) as Hf. cbn [FInv] in Hf.
  split.
  - intros l' r Hr. destruct (drain_loops cap s Hi Ho1 Hf l' r Hr) as (s' & [(-> & A & B & C)|(-> & A & B)]).
    + pose proof (zlen_pos _ (pp_sock s')). split; [lia|left; eauto].
    + split; [exact B|]. right. exists s'. split; [reflexivity|].
      assert (piped fuel cap (l ++ l') (Exit s')) as Hp by (exists s0; split; [exact H0|]; eapply loops_app; eassumption).
      destruct (C66_pipe _ _ _ Hp) as [-> _]. unfold given. rewrite flat_map_app.
      replace (flat_map (fun i => match i with Bytes c => c | _ => [] end) l') with (@nil Z); [now rewrite app_nil_r|].
      pose proof (loops_given _ _ _ _ Hi Hr) as Hg. cbn [read_in] in Hg. injection Hg as Hg.
      pose proof (loops_inv _ _ _ _ Hr Hi) as Hi'. cbn [RInv] in Hi'.
      clear - Hr Hi Ho1 Hfuel. remember (Exit s') as r eqn:Er. clear Er.
      assert (forall i, In i l' -> i = Nothing) as Hn.
      { induction Hr as [|l s1 i r Hp IH Hit]; [contradiction|]. intros j Hj. apply in_app_iff in Hj.
        destruct Hj as [Hj|[<-|[]]]; [auto|].
        pose proof (loops_open _ _ _ _ Hi Hp) as Ho. cbn in Ho. assert (pp_open s1 = false) as E by (apply Ho; auto).
        pose proof (loops_inv _ _ _ _ Hp Hi) as Hi1. cbn [RInv] in Hi1.
        destruct Hit as [i f Hrd|i s2 r Hrd Hin].
        - destruct (read_inv _ _ Hi1 Hrd) as (? & [=] & _).
        - destruct (read_inv _ _ Hi1 Hrd) as (? & [= <-] & _ & _ & E2 & _). destruct Hin; congruence. }
      clear - Hn. induction l' as [|i l' IH]; [reflexivity|]. cbn [flat_map]. rewrite (Hn i (or_introl eq_refl)).
      apply IH. intros j Hj. apply Hn. now right.
  - assert (forall n s, PInv s -> pp_open s = false -> pp_fd1 s = true -> zlen (pp_sock s) <= Z.of_nat n ->
       exists l' s', loops fuel cap s l' (Exit s')) as Hgo.
    { clear - Hfuel. induction n as [|n IH]; intros s Hi Ho Hf Hz;
        destruct (iter_can cap s Nothing Hi I) as (r & Hr);
        pose proof (iter_inv _ _ _ _ Hi Hr) as Hri;
        destruct (drain _ _ _ _ Hi Ho Hf Hr) as (s2 & [(-> & A & B & C)|(-> & A)]).
      - pose proof (zlen_pos _ (pp_sock s2)). lia.
      - exists [Nothing], s2. apply (LIter _ _ _ [] s); [constructor|exact Hr].
      - destruct (IH s2 Hri A B ltac:(lia)) as (l' & s' & Hl). exists ([Nothing] ++ l'), s'.
        eapply loops_app; [|exact Hl]. apply (LIter _ _ _ [] s); [constructor|exact Hr].
      - exists [Nothing], s2. apply (LIter _ _ _ [] s); [constructor|exact Hr]. }
    apply (Hgo (length (pp_sock s))); auto. unfold zlen. lia.
Qed.

(** It does not block if the socket holds 16 times its input. *)
Theorem C66_pipe_room cap l r : piped fuel cap l r -> 16 * zlen (given l) <= cap -> forall s, r <> Stuck s.
Proof.
  intros Hp Hcap s ->. pose proof (piped_given _ _ _ Hp) as Hg. cbn [read_in] in Hg. injection Hg as Hg.
  destruct Hp as (s0 & H0 & Hl). inversion Hl as [|l1 s1 i r Hl1 Hit]; subst.
  pose proof (loops_inv _ _ _ _ Hl1 (start_inv _ H0)) as Hi. cbn [RInv] in Hi.
  inversion Hit as [|i' s2 r Hrd Hin E1 E2]; subst.
  destruct (read_inv _ _ Hi Hrd) as (? & [= <-] & Hi2 & _).
  destruct r as [x|x|x|x]; cbn [leave] in E2; try discriminate; [destruct (_ && _); discriminate|]. injection E2 as ->.
  inversion Hin as [| | |c e w n t Ho Hc Hb He Hrun Hw Hx|]; subst. cbn [pp_in] in Hg.
  pose proof (send_tx s2 c e Hi2 He Hc Hb) as H. rewrite Hrun in H. destruct (H Hw) as [H1 _].
  apply sock_size in H1. cbn [pp_sock pp_in] in H1. rewrite Hg in H1. lia.
Qed.

(** A finding: with a socket of any size, input that is always ready (reads of 1024 bytes)
    makes it block forever: each iteration puts at least 1184 bytes into the socket
    and takes at most 1024 out of it. *)
Lemma greedy_fills cap s chunks s' : PInv s -> pp_open s = true -> Forall (fun c => zlen c = 1024) chunks ->
  loops fuel cap s (map Bytes chunks) (Next s') ->
  160 * zlen chunks <= zlen (pp_sock s') /\ (chunks <> [] -> zlen (pp_sock s') <= cap).
Proof.
  intros Hi Ho Hc. revert s'. induction chunks as [|c chunks IH] using rev_ind; intros s' Hl.
  - split; [cbn; pose proof (zlen_pos _ (pp_sock s')); lia|congruence].
  - apply Forall_app in Hc. destruct Hc as [Hc1 Hc2]. inversion Hc2 as [|? ? Hc3 _]; subst.
    rewrite map_app in Hl. cbn [map] in Hl. inversion Hl as [E|l1 s1 i r Hl1 Hit E1 E2].
    { destruct (map Bytes chunks); discriminate. }
    apply app_inj_tail in E1. destruct E1 as [-> ->]. subst r. destruct (IH Hc1 s1 Hl1) as [I1 _].
    pose proof (loops_inv _ _ _ _ Hl1 Hi) as Hi1. cbn [RInv] in Hi1.
    inversion Hit as [|i' s2 r Hrd Hin E1 E2]; subst.
    destruct (read_inv _ _ Hi1 Hrd) as (? & [= <-] & Hi2 & _ & _ & Hz & _).
    inversion Hin as [| |c' e w n t Hop Hcc Hb He Hrun Hw Hx| |]; subst; try discriminate.
    cbn [leave pp_open negb andb] in E2. injection E2 as <-. cbn [pp_sock].
    pose proof (send_tx s2 c e Hi2 He Hcc Hb) as H. rewrite Hrun in H. destruct (H Hw) as (_ & H1 & _).
    split; [|intros _; exact Hx]. rewrite !zlen_app. change (zlen [c]) with 1. lia.
Qed.

Lemma stuck_short cap l s : piped fuel cap l (Stuck s) -> zlen (pp_out s) < zlen (pp_in s).
Proof.
  intros (s0 & H0 & Hl). inversion Hl as [|l1 s1 i r Hl1 Hit]; subst.
  pose proof (loops_inv _ _ _ _ Hl1 (start_inv _ H0)) as Hi. cbn [RInv] in Hi.
  inversion Hit as [|i' s2 r Hrd Hin E1 E2]; subst.
  destruct (read_inv _ _ Hi Hrd) as (? & [= <-] & Hi2 & _).
  destruct r as [x|x|x|x]; cbn [leave] in E2; try discriminate; [destruct (_ && _); discriminate|]. injection E2 as ->.
  inversion Hin as [| | |c e w n t Ho Hc Hb He Hrun Hw Hx|]; subst. cbn [pp_in pp_out].
  destruct (inv_out s2 Hi2) as (rest & -> & _). rewrite !zlen_app. pose proof (zlen_pos _ rest). lia.
Qed.

Theorem C66_pipe_deadlock cap chunks : 0 <= cap -> Forall (fun c => zlen c = 1024 /\ Forall is_byte c) chunks ->
  cap < 160 * zlen chunks ->
  exists before c after s, chunks = before ++ c :: after /\ piped fuel cap (map Bytes (before ++ [c])) (Stuck s) /\
    (* not all was written *)
    zlen (pp_out s) < 1024 * zlen (before ++ [c]).
Proof.
  intros Hcap Hc Hlen.
  assert (Forall (fun c => zlen c = 1024) chunks) as Hc1 by (eapply Forall_impl; [|exact Hc]; cbn; tauto).
  assert (exists s0, pipe_start fuel s0) as (s0 & H0).
  { pose proof (ser_history_spec fuel just_print (Endpoint 8) Hfuel [] ltac:(constructor) calm calm_no_oom) as A.
    pose proof (ser_history_spec fuel just_print (Endpoint 9) Hfuel [SCore (OpSetRx true)] ltac:(repeat constructor) calm calm_no_oom) as B.
    destruct (run calm 0 [] (ser_history fuel just_print (Endpoint 8) [])) as [w0 n0 t0|] eqn:E0; [|destruct A].
    destruct (run calm 0 [] (ser_history fuel just_print (Endpoint 9) [SCore (OpSetRx true)])) as [w1 n1 t1|] eqn:E1; [|destruct B].
    eexists. exists calm, n0, t0, w0, calm, n1, t1, w1. repeat (split; [first [apply calm_no_oom|assumption]|]). reflexivity. }
  pose proof (start_inv _ H0) as Hi0. destruct (start_facts _ H0) as (_ & Ho & Hf & _).
  assert (forall done todo s, chunks = done ++ todo -> loops fuel cap s0 (map Bytes done) (Next s) ->
    exists before c after s', chunks = before ++ c :: after /\ piped fuel cap (map Bytes (before ++ [c])) (Stuck s')) as Hgo.
  { intros done todo. revert done. induction todo as [|c todo IH]; intros done s E Hl.
    - rewrite app_nil_r in E. subst done. destruct (greedy_fills cap s0 chunks s Hi0 Ho Hc1 Hl) as [A B].
      destruct chunks as [|c0 cs0]; [cbn in Hlen; lia|]. specialize (B ltac:(discriminate)). lia.
    - pose proof (loops_inv _ _ _ _ Hl Hi0) as Hi. cbn [RInv] in Hi.
      destruct (iter_can cap s (Bytes c) Hi) as (r & Hr).
      { rewrite E in Hc. apply Forall_app in Hc. destruct Hc as [_ Hc]. inversion Hc as [|? ? [Hz Hb] _]; subst.
        split; [|split; [lia|exact Hb]]. pose proof (loops_open _ _ _ _ Hi0 Hl) as Hop. cbn in Hop.
        destruct (pp_open s); [reflexivity|]. destruct (proj1 Hop eq_refl) as [?|Hin]; [congruence|].
        apply in_map_iff in Hin. destruct Hin as (? & ? & _). discriminate. }
      assert (loops fuel cap s0 (map Bytes (done ++ [c])) r) as Hl2 by (rewrite map_app; eapply LIter; eassumption).
      assert (chunks = (done ++ [c]) ++ todo) as E2 by (rewrite <- app_assoc; exact E).
      destruct r as [s2|s2|s2|f].
      + exact (IH _ _ E2 Hl2).
      + assert (piped fuel cap (map Bytes (done ++ [c])) (Exit s2)) as Hp by (exists s0; auto).
        destruct (C66_pipe _ _ _ Hp) as [_ Hin]. apply in_map_iff in Hin. destruct Hin as (? & ? & _). discriminate.
      + exists done, c, todo, s2. split; [exact E|]. exists s0. auto.
      + destruct (loops_inv _ _ _ _ Hl2 Hi0). }
  destruct (Hgo [] chunks s0 eq_refl) as (before & c & after & s & E & Hp); [constructor|].
  exists before, c, after, s. split; [exact E|]. split; [exact Hp|].
  pose proof (piped_given _ _ _ Hp) as Hg. cbn [read_in] in Hg. injection Hg as Hg.
  assert (zlen (pp_in s) = 1024 * zlen (before ++ [c])) as Ez.
  { rewrite Hg. assert (Forall (fun c => zlen c = 1024) (before ++ [c])) as Hall.
    { rewrite E in Hc1. apply Forall_app in Hc1. destruct Hc1 as [A B]. inversion B; subst. apply Forall_app. auto. }
    clear - Hall. induction Hall as [|x l Hx Hall IH]; [reflexivity|]. unfold given in *. cbn [map flat_map]. rewrite zlen_app, IH, Hx.
    unfold zlen. cbn [length]. lia. }
  rewrite <- Ez. exact (stuck_short cap (map Bytes (before ++ [c])) s Hp).
Qed.

(** ... whatever the timing and the sizes of the other reads: no run gets further. *)
Theorem C66_pipe_greedy cap chunks s : piped fuel cap (map Bytes chunks) (Next s) -> chunks <> [] ->
  Forall (fun c => zlen c = 1024) chunks -> 160 * zlen chunks <= cap.
Proof.
  intros (s0 & H0 & Hl) Hne Hc. destruct (start_facts _ H0) as (_ & Ho & _).
  destruct (greedy_fills cap s0 chunks s (start_inv _ H0) Ho Hc Hl) as [A B]. specialize (B Hne). lia.
Qed.

(** Nothing above is vacuous: any input that is sent while the socket has room, in any reads,
    comes out and the program exits. *)
Theorem C66_pipe_works cap chunks : Forall (fun c => 1 <= zlen c <= 1024 /\ Forall is_byte c) chunks ->
  16 * zlen (concat chunks) <= cap ->
  exists l s, piped fuel cap l (Exit s) /\ pp_out s = concat chunks.
Proof.
  intros Hc Hcap.
  assert (exists s0, pipe_start fuel s0) as (s0 & H0).
  { pose proof (ser_history_spec fuel just_print (Endpoint 8) Hfuel [] ltac:(constructor) calm calm_no_oom) as A.
    pose proof (ser_history_spec fuel just_print (Endpoint 9) Hfuel [SCore (OpSetRx true)] ltac:(repeat constructor) calm calm_no_oom) as B.
    destruct (run calm 0 [] (ser_history fuel just_print (Endpoint 8) [])) as [w0 n0 t0|] eqn:E0; [|destruct A].
    destruct (run calm 0 [] (ser_history fuel just_print (Endpoint 9) [SCore (OpSetRx true)])) as [w1 n1 t1|] eqn:E1; [|destruct B].
    eexists. exists calm, n0, t0, w0, calm, n1, t1, w1. repeat (split; [first [apply calm_no_oom|assumption]|]). reflexivity. }
  assert (forall l, given (map Bytes l) = concat l) as Eg.
  { clear. induction l as [|c l IH]; [reflexivity|]. unfold given in *. cbn [map flat_map concat]. now rewrite IH. }
  assert (forall done todo, chunks = done ++ todo -> exists s, piped fuel cap (map Bytes done) (Next s)) as Hgo.
  { induction done as [|c done IH] using rev_ind; intros todo E.
    - exists s0, s0. split; [exact H0|constructor].
    - destruct (IH (c :: todo)) as (s & Hs); [rewrite <- app_assoc in E; exact E|].
      destruct (C66_pipe_goes_on cap (map Bytes done) s (Bytes c) Hs) as (r & Hr).
      { rewrite E in Hc. apply Forall_app in Hc. destruct Hc as [Hc _]. apply Forall_app in Hc. destruct Hc as [_ Hc].
        inversion Hc as [|? ? Hc1 _]; subst. split; [|exact Hc1]. intros Hin. apply in_map_iff in Hin.
        destruct Hin as (? & ? & _). discriminate. }
      rewrite map_app. cbn [map]. pose proof (C66_pipe _ _ _ Hr) as Hsafe.
      destruct r as [s2|s2|s2|f]; [eauto| |exfalso|contradiction].
      + destruct Hsafe as [_ Hin]. apply in_app_iff in Hin. destruct Hin as [Hin|[Hin|[]]]; [|discriminate].
        apply in_map_iff in Hin. destruct Hin as (? & ? & _). discriminate.
      + refine (C66_pipe_room _ _ _ Hr _ s2 eq_refl). change [Bytes c] with (map Bytes [c]). rewrite <- map_app, Eg.
        rewrite E, concat_app, zlen_app in Hcap. pose proof (zlen_pos _ (concat todo)). lia. }
  destruct (Hgo chunks [] (eq_sym (app_nil_r _))) as (s & Hs).
  destruct (C66_pipe_goes_on cap _ s Eof Hs) as (r & Hr).
  { intros Hin. apply in_map_iff in Hin. destruct Hin as (? & ? & _). discriminate. }
  pose proof (C66_pipe _ _ _ Hr) as Hsafe.
  assert (given (map Bytes chunks ++ [Eof]) = concat chunks) as Eg2.
  { unfold given. rewrite flat_map_app. fold (given (map Bytes chunks)). rewrite Eg. apply app_nil_r. }
  destruct r as [s2|s2|s2|f]; [|exists (map Bytes chunks ++ [Eof]), s2; split; [exact Hr|]|exfalso|contradiction].
  - destruct (C66_pipe_exits cap _ s2 Hr) as [Hall (l' & s' & Hl)]; [apply in_app_iff; right; left; reflexivity|].
    destruct Hr as (s1 & H1 & Hr). exists ((map Bytes chunks ++ [Eof]) ++ l'), s'.
    split; [exists s1; split; [exact H1|]; eapply loops_app; eassumption|].
    destruct (Hall _ _ Hl) as [_ [(x & [=])|(x & [= <-] & ->)]]. exact Eg2.
  - destruct Hsafe as [-> _]. exact Eg2.
  - refine (C66_pipe_room _ _ _ Hr _ s2 eq_refl). rewrite Eg2. exact Hcap.
Qed.
End Pipe.

(** *** mctp-in: fed, in any chunks, with the bytes a serial endpoint [src] sends for its
    messages, it prints the contents of those addressed to endpoint 8, to the null EID or
    to everyone, in order; of bytes [more] to come it has printed nothing yet. *)
Theorem C66_mctp_in fuel appS src msgs ws trs e x n ts chunks more :
  (256 <= fuel)%nat -> Forall (fun r => 0 <= r_tag r <= 7 /\ zlen (r_msg r) <= 65536) msgs ->
  ser_reaches fuel appS (Endpoint src) ws trs -> src <> 0 ->
  bus_state_of ws false = Some TxEnabled -> queued ws false = [] ->
  env_ok no_oom e -> run e 0 [] (sexec fuel appS ws (map say msgs)) = Done x n ts -> writes_ok ts ->
  Forall (Forall is_byte) chunks -> concat chunks ++ more = sent ts ->
  always no_oom (mctp_in fuel chunks) (fun w' t =>
    exists rest, concat (map r_msg (filter (meant_for 8) msgs)) = printed t ++ rest /\ (more = [] -> rest = [])).
Proof.
  intros Hfuel Hsz Hs Hsrc Hst Hq He Hrun Hwr Hb Hfed.
  assert (Forall (ser_traffic (Endpoint 8)) (map (SRx false) chunks)) as Hl.
  { apply Forall_forall. intros o Ho. apply in_map_iff in Ho. destruct Ho as (c & <- & Hin).
    rewrite Forall_forall in Hb. split; [discriminate|auto]. }
  destruct (ser_reaches_spec fuel appS (Endpoint src) Hfuel ws trs Hs) as [HSI _].
  pose proof (wp_says fuel appS Hfuel src msgs ws [] HSI) as Hsay. apply adv_always in Hsay.
  2:{ eapply Forall_impl; [|exact Hsz]. cbn. tauto. }
  specialize (Hsay e He). rewrite Hrun in Hsay. destruct Hsay as (t0 & -> & Hpk). cbn [Datatypes.app] in *.
  destruct (Hpk (eager_of _ Hst Hq) Hwr) as (pk & Hpacks & Hsent & _). rewrite Hsent in Hfed.
  set (v := set_m (ser_booted (Endpoint 8)) (mctp_set_rx_all (w_m (ser_booted (Endpoint 8))) true)).
  assert (SI (Endpoint 8) v) as Hv.
  { pose proof (ser_history_spec fuel just_print (Endpoint 8) Hfuel [SCore (OpSetRx true)] ltac:(repeat constructor) calm calm_no_oom) as H.
    assert (always no_oom (ser_history fuel just_print (Endpoint 8) [SCore (OpSetRx true)]) (fun w _ => w = v)) as H2.
    { apply adv_always. unfold ser_history. cbn [sexec]. eapply wp_call; [apply adv_mono|apply (wp_ser_boot fuel just_print no_oom eq_refl)|].
      intros w g [-> _]. reflexivity. }
    specialize (H2 calm calm_no_oom).
    destruct (run calm 0 [] (ser_history fuel just_print (Endpoint 8) [SCore (OpSetRx true)])) as [w1 n1 t1|]; [|destruct H].
    subst w1. destruct H as (_ & _ & _ & H). exact H. }
  assert (mfed false (micro (map (SRx false) chunks)) = concat chunks) as Ef.
  { rewrite mfed_micro. clear. induction chunks as [|c l IH]; [reflexivity|]. cbn [map concat].
    change (fed false (SRx false c :: map (SRx false) l)) with (c ++ fed false (map (SRx false) l)). now rewrite IH. }
  apply adv_always. unfold mctp_in, ser_history. cbn [sexec].
  eapply wp_call; [apply adv_mono|apply (wp_ser_boot fuel just_print no_oom eq_refl)|].
  intros w0 g0 [-> ->]. change (exec_op (serial_tx fuel) serial_start just_print (ser_booted (Endpoint 8)) (OpSetRx true)) with (@Ret (Core.world serial) v).
  cbn [bind]. eapply wp_mono; [apply adv_mono| |apply (wp_sexec fuel just_print no_oom eq_refl eq_refl Hfuel (Endpoint 8)); [exact Hv|exact Hl]].
  intros w' g (t & -> & Hh & _). rewrite printed_app. change (printed ([] ++ ser_boot_ev (Endpoint 8))) with (@nil Z). cbn [Datatypes.app].
  destruct (ser_hear 4 ltac:(lia) 65536 eq_refl ltac:(lia) 8 src v _ t w' msgs pk more Hh) as (rest & E & Hr); auto.
  - apply mconst_micro. apply Forall_forall. intros o Ho. apply in_map_iff in Ho. destruct Ho as (c & <- & _). exact I.
  - constructor; [exists []; apply CI_fresh|repeat constructor; cbn; lia|repeat constructor; left; reflexivity].
  - repeat constructor.
  - intros []; reflexivity.
  - eapply Forall_impl; [|exact Hsz]. cbn. tauto.
  - rewrite Ef. exact Hfed.
  - exists (concat (map (fun d : Z * bool * Z * list Z => match d with (_, _, _, msg) => msg end) rest)).
    split; [|intros Hm; rewrite (Hr Hm); reflexivity]. unfold printed. rewrite <- concat_app, <- map_app, <- E, map_map. reflexivity.
Qed.
