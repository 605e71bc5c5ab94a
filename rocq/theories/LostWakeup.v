(** LostWakeup: C54.  The host can miss the BMC's announcement of the channel. *)
From Verif Require Import Base Lists Prog PktBuf Core WP Walk CoreRel WalkCore CoreHist Crc Astlpc SpecAst AstBasic
  CrcSpan AstWalk PropAst AstDown Concrete TwoParty DuoInv DuoWalk PropDuo ExamplesDuo.

(** [n] steps of one side's program [p]. *)
Fixpoint part {A} (n : nat) (s : bool) (sh : shared) (p : prog A) : shared * prog A * list event :=
  match n with
  | O => (sh, p, [])
  | S n' =>
      match advance s sh p with
      | Some (sh1, p1, t) => let '(sh2, p2, t2) := part n' s sh1 p1 in (sh2, p2, t ++ t2)
      | None => (sh, p, [])
      end
  end.

Lemma advance_bind s sh (p : prog (world astlpc)) sh1 p1 t (f : world astlpc -> prog (world astlpc)) : advance s sh p = Some (sh1, p1, t) ->
  advance s sh (bind p f) = Some (sh1, bind p1 f, t).
Proof.
  destruct p; cbn [advance bind]; try discriminate.
  - destruct (kread s r (s_kcs sh)). intros [= <- <- <-]. reflexivity.
  - intros [= <- <- <-]. reflexivity.
  - destruct (in_window off len); intros [= <- <- <-]; reflexivity.
  - destruct (in_window off (zlen bs)); intros [= <- <- <-]; reflexivity.
  - intros [= <- <- <-]. reflexivity.
  - intros [= <- <- <-]. reflexivity.
  - intros [= <- <- <-]. reflexivity.
Qed.

(** What happens to the system while only side [s] moves. *)
Record moved (s : bool) (d d' : duo) (sh : shared) (p : prog (world astlpc)) (t : list event) : Prop := {
  mv_runs : runs d d';
  mv_sh : d_sh d' = sh;
  mv_prog : d_prog d' s = p;
  mv_tr : d_tr d' s = d_tr d s ++ t;
  mv_prog' : d_prog d' (negb s) = d_prog d (negb s);
  mv_tr' : d_tr d' (negb s) = d_tr d (negb s) }.

Lemma upd_same {A} (f : bool -> A) s x : upd f s x s = x.
Proof. unfold upd. now rewrite Bool.eqb_reflx. Qed.
Lemma upd_other {A} (f : bool -> A) s x : upd f s x (negb s) = f (negb s).
Proof. unfold upd. now destruct s. Qed.

Lemma moved_trans s d d1 d2 sh1 p1 t1 sh2 p2 t2 :
  moved s d d1 sh1 p1 t1 -> moved s d1 d2 sh2 p2 t2 -> moved s d d2 sh2 p2 (t1 ++ t2).
Proof.
  intros [A1 A2 A3 A4 A5 A6] [B1 B2 B3 B4 B5 B6]. constructor; try congruence.
  - eapply runs_trans; eassumption.
  - rewrite B4, A4. now rewrite app_assoc.
Qed.

Lemma part_runs n s : forall sh (p : prog (world astlpc)) sh' p' t, part n s sh p = (sh', p', t) ->
  forall f d, d_sh d = sh -> d_prog d s = bind p f -> exists d', moved s d d' sh' (bind p' f) t.
Proof.
  induction n as [|n IH]; intros sh p sh' p' t E f d Hs Hp; cbn [part] in E.
  - injection E as <- <- <-. exists d. constructor; auto; [apply RunRefl|now rewrite app_nil_r].
  - destruct (advance s sh p) as [[[sh1 p1] t1]|] eqn:Ea.
    + destruct (part n s sh1 p1) as [[sh2 p2] t2] eqn:Ep. injection E as <- <- <-.
      apply (advance_bind _ _ _ _ _ _ f) in Ea. rewrite <- Hp, <- Hs in Ea.
      pose (d1 := mkDuo sh1 (upd (d_prog d) s (bind p1 f)) (upd (d_tr d) s (d_tr d s ++ t1))).
      assert (moved s d d1 sh1 (bind p1 f) t1) as M.
      { constructor; cbn [d1 d_sh d_prog d_tr]; auto using upd_same, upd_other.
        eapply RunStep; [apply RunRefl|]. eexists _, _, _. split; [exact Ea|reflexivity]. }
      destruct (IH sh1 p1 sh2 p2 t2 Ep f d1 eq_refl) as (d2 & M2); [apply upd_same|].
      exists d2. eapply moved_trans; eassumption.
    + injection E as <- <- <-. exists d. constructor; auto; [apply RunRefl|now rewrite app_nil_r].
Qed.

(** A side with nothing to release and nothing to read polls in vain. *)
Definition idle (s : bool) (sh : shared) (w : world astlpc) : Prop :=
  ab_st (a_rx (ast w false)) <> Prepared /\ ab_st (a_tx (ast w false)) <> Prepared /\
  kcs_read_ready (ast w false) (kstatus (s_kcs sh)) = false /\ m_dead (w_m w) = false.

Lemma idle_polls ap s sh w n l : idle s sh w -> forall d, d_sh d = sh ->
  d_prog d s = aexec ap w (repeat poll1 n ++ l) ->
  exists d' t, moved s d d' sh (aexec ap w l) t /\ offered t = [].
Proof.
  intros (H1 & H2 & H3 & H4). induction n as [|n IH]; intros d Hs Hp; cbn [repeat app aexec] in Hp.
  - exists d, []. split; [|reflexivity]. constructor; auto; [apply RunRefl|now rewrite app_nil_r].
  - assert (poll1 = APoll false) as _ by reflexivity.
    assert (exists t, part 2 s sh (aexec_op ap w poll1) = (sh, Ret w, t) /\ offered t = []) as (t & Et & Ht).
    { unfold poll1, aexec_op. rewrite H4. unfold poll, poll_release_rx, poll_release_tx.
      assert (forall a : astlpc, ab_st (a_rx a) <> Prepared ->
        match ab_st (a_rx a) with Prepared => (rc <- kcs_send a cmd_rx_complete ;; Ret (if rc =? 0 then a_set_rx_st a Released else a)) | _ => Ret a end = Ret a) as E1
        by (intros a; destruct (ab_st (a_rx a)); congruence).
      assert (forall a : astlpc, ab_st (a_tx a) <> Prepared ->
        match ab_st (a_tx a) with Prepared => (rc <- kcs_send a cmd_tx_begin ;; Ret (if rc =? 0 then a_set_tx_st a Released else a)) | _ => Ret a end = Ret a) as E2
        by (intros a; destruct (ab_st (a_tx a)); congruence).
      rewrite (E1 _ H1). cbn [bind]. rewrite (E2 _ H2). cbn [bind part advance kread]. rewrite H3. cbn [negb bind advance].
      exists [EvKRead KStatus (Some (kstatus (s_kcs sh))); EvRet 0]. split; [|reflexivity].
      destruct w as [m [] b1], sh; reflexivity. }
    destruct (part_runs 2 s sh _ _ _ _ Et _ d Hs Hp) as (d1 & M1). cbn [bind] in M1.
    destruct (IH d1 (mv_sh _ _ _ _ _ _ M1) (mv_prog _ _ _ _ _ _ M1)) as (d2 & t2 & M2 & O2).
    exists d2, (t ++ t2). split; [eapply moved_trans; eassumption|].
    unfold offered in *. now rewrite flat_map_app, Ht, O2.
Qed.

(** ** The schedule *)
Definition hi : list Z := [1; 2; 3].
Definition race (n m : nat) : bool -> party :=
  pair (mkParty no_app 64 8 (poll1 :: repeat poll1 m))
       (mkParty no_app 64 9 (poll1 :: repeat poll1 n ++ [tx1 8 hi])).

(** The BMC registers, then the host; the host's first poll reads the status register;
    the BMC's poll brings the channel up; the host's poll goes on; the host transmits. *)
Definition idleb (sh : shared) (w : world astlpc) : bool :=
  match ab_st (a_rx (ast w false)) with Prepared => false | _ => true end &&
  match ab_st (a_tx (ast w false)) with Prepared => false | _ => true end &&
  negb (kcs_read_ready (ast w false) (kstatus (s_kcs sh))) && negb (m_dead (w_m w)).
Lemma idleb_idle s sh w : idleb sh w = true -> idle s sh w.
Proof.
  unfold idleb, idle. destruct (ab_st (a_rx (ast w false))), (ab_st (a_tx (ast w false))); cbn [andb]; try discriminate;
    destruct (kcs_read_ready (ast w false) (kstatus (s_kcs sh))), (m_dead (w_m w)); cbn [andb negb]; try discriminate;
    repeat split; discriminate.
Qed.

Definition whole : bool :=
  match part 100 true (mkShared (mkKcs 0 0 false false 0) (fun _ => 0)) (ast_register no_app true 64 8) with
  | (s1, Ret w1, t1) =>
  match part 100 false s1 (ast_register no_app false 64 9) with
  | (s2, Ret w2, t2) =>
  match part 1 false s2 (aexec_op no_app w2 poll1) with
  | (s3, p3, t3) =>
  match part 100 true s3 (aexec_op no_app w1 poll1) with
  | (s4, Ret w4, t4) =>
  match part 100 false s4 p3 with
  | (s5, Ret w5, t5) =>
  match part 100 false s5 (aexec_op no_app w5 (tx1 8 hi)) with
  | (s6, Ret w6, t6) =>
      match offered (t2 ++ t3 ++ t5 ++ t6), t6, bget w4 false, bget w6 false, unread true (s_kcs s6) with
      | [], [EvRet r], Some b4, Some b6, None =>
          bd_bus (bnd w1 false) && bd_bus (bnd w2 false) && idleb s5 w5 && idleb s6 w4 && (r =? - ENXIO) &&
          match bus_st b4, bus_st b6 with TxEnabled, Constructed => true | _, _ => false end &&
          tst (kstatus (s_kcs s6)) ST_ACTIVE
      | _, _, _, _, _ => false
      end
  | _ => false end | _ => false end | _ => false end end | _ => false end | _ => false end.
Lemma whole_true : whole = true.
Proof. vm_compute. reflexivity. Qed.

(** The schedule, with the polls in between. *)
Lemma race_run n m s1 w1 t1 s2 w2 t2 s3 p3 t3 s4 w4 t4 s5 w5 t5 s6 w6 t6' :
  part 100 true (mkShared (mkKcs 0 0 false false 0) (fun _ => 0)) (ast_register no_app true 64 8) = (s1, Ret w1, t1) ->
  bd_bus (bnd w1 false) = true ->
  part 100 false s1 (ast_register no_app false 64 9) = (s2, Ret w2, t2) ->
  bd_bus (bnd w2 false) = true ->
  part 1 false s2 (aexec_op no_app w2 poll1) = (s3, p3, t3) ->
  part 100 true s3 (aexec_op no_app w1 poll1) = (s4, Ret w4, t4) ->
  part 100 false s4 p3 = (s5, Ret w5, t5) ->
  part 100 false s5 (aexec_op no_app w5 (tx1 8 hi)) = (s6, Ret w6, t6') ->
  idle false s5 w5 -> idle true s6 w4 ->
  exists d, duo_reach (race n m) d /\ compatible (race n m) /\ d_prog d true = Ret w4 /\ d_prog d false = Ret w6 /\
    d_sh d = s6 /\ exists t, d_tr d false = t2 ++ t3 ++ t5 ++ t ++ t6' /\ offered t = [].
Proof.
  intros v1 B1 v2 B2 v3 v4 v5 v6 I5 I7.
  assert (duo_reach (race n m) (d0 (race n m)) /\ compatible (race n m)) as (R0 & Hc).
  { assert (forall k, Forall ast_traffic (repeat poll1 k)) as Hk
      by (intros k; apply Forall_forall; intros o Ho; apply repeat_spec in Ho; subst o; reflexivity).
    split; [|split; cbn; lia]. split; [|split; [right; cbn; lia|exists 0, 0, (fun _ => 0); apply RunRefl]].
    intros [|]; constructor; try reflexivity; [apply Hk|]. apply Forall_app. split; [apply Hk|]. repeat constructor. }
  set (D := d0 (race n m)) in *.
  destruct (part_runs _ _ _ _ _ _ _ v1 (fun w => if bd_bus (bnd w false) then aexec no_app w (poll1 :: repeat poll1 m) else Ret w) D eq_refl eq_refl) as (D1 & M1).
  cbn [bind] in M1. rewrite B1 in M1.
  assert (d_prog D1 false = ast_history no_app false 64 9 (poll1 :: repeat poll1 n ++ [tx1 8 hi])) as P1 by exact (mv_prog' _ _ _ _ _ _ M1).
  destruct (part_runs _ _ _ _ _ _ _ v2 (fun w => if bd_bus (bnd w false) then aexec no_app w (poll1 :: repeat poll1 n ++ [tx1 8 hi]) else Ret w) D1 (mv_sh _ _ _ _ _ _ M1) P1) as (D2 & M2).
  cbn [bind] in M2. rewrite B2 in M2.
  cbn [aexec] in M1, M2.
  destruct (part_runs _ _ _ _ _ _ _ v3 _ D2 (mv_sh _ _ _ _ _ _ M2) (mv_prog _ _ _ _ _ _ M2)) as (D3 & M3).
  assert (d_prog D3 true = (w' <- aexec_op no_app w1 poll1 ;; aexec no_app w' (repeat poll1 m))) as P3.
  { rewrite (mv_prog' _ _ _ _ _ _ M3 : d_prog D3 true = d_prog D2 true), (mv_prog' _ _ _ _ _ _ M2 : d_prog D2 true = d_prog D1 true).
    exact (mv_prog _ _ _ _ _ _ M1). }
  destruct (part_runs _ _ _ _ _ _ _ v4 _ D3 (mv_sh _ _ _ _ _ _ M3) P3) as (D4 & M4). cbn [bind] in M4.
  assert (d_prog D4 false = _) as P4 by (rewrite (mv_prog' _ _ _ _ _ _ M4 : d_prog D4 false = d_prog D3 false); exact (mv_prog _ _ _ _ _ _ M3)).
  destruct (part_runs _ _ _ _ _ _ _ v5 _ D4 (mv_sh _ _ _ _ _ _ M4) P4) as (D5 & M5). cbn [bind] in M5.
  destruct (idle_polls no_app false _ _ n _ I5 D5 (mv_sh _ _ _ _ _ _ M5) (mv_prog _ _ _ _ _ _ M5)) as (D6 & t6 & M6 & O6). cbn [aexec] in M6.
  destruct (part_runs _ _ _ _ _ _ _ v6 _ D6 (mv_sh _ _ _ _ _ _ M6) (mv_prog _ _ _ _ _ _ M6)) as (D7 & M7). cbn [bind] in M7.
  assert (d_prog D7 true = aexec no_app w4 (repeat poll1 m ++ [])) as P7.
  { rewrite app_nil_r, (mv_prog' _ _ _ _ _ _ M7 : d_prog D7 true = d_prog D6 true), (mv_prog' _ _ _ _ _ _ M6 : d_prog D6 true = d_prog D5 true), (mv_prog' _ _ _ _ _ _ M5 : d_prog D5 true = d_prog D4 true).
    exact (mv_prog _ _ _ _ _ _ M4). }
  destruct (idle_polls no_app true _ _ m _ I7 D7 (mv_sh _ _ _ _ _ _ M7) P7) as (D8 & t8 & M8 & O8). cbn [aexec] in M8.
  assert (d_tr D8 false = t2 ++ t3 ++ t5 ++ t6 ++ t6') as T8.
  { rewrite (mv_tr' _ _ _ _ _ _ M8 : d_tr D8 false = d_tr D7 false), (mv_tr _ _ _ _ _ _ M7), (mv_tr _ _ _ _ _ _ M6), (mv_tr _ _ _ _ _ _ M5),
      (mv_tr' _ _ _ _ _ _ M4 : d_tr D4 false = d_tr D3 false), (mv_tr _ _ _ _ _ _ M3), (mv_tr _ _ _ _ _ _ M2), (mv_tr' _ _ _ _ _ _ M1 : d_tr D1 false = d_tr D false).
    change (d_tr D false) with (@nil event). cbn [app]. now rewrite !app_assoc. }
  exists D8.
  assert (runs D D8) as HR.
  { repeat (eapply runs_trans; [eapply mv_runs; eassumption|]). apply RunRefl. }
  split; [|split; [exact Hc|]].
  { destruct R0 as (A & B & i & o & mem & _). split; [exact A|]. split; [exact B|]. exists 0, 0, (fun _ => 0). exact HR. }
  split; [exact (mv_prog _ _ _ _ _ _ M8)|].
  split; [rewrite (mv_prog' _ _ _ _ _ _ M8 : d_prog D8 false = d_prog D7 false); exact (mv_prog _ _ _ _ _ _ M7)|].
  split; [exact (mv_sh _ _ _ _ _ _ M8)|].
  exists t6. split; [exact T8|exact O6].
Qed.

(** C54.  There is an interleaving in which the host misses the announcement: both sides
    register without error, the BMC brings the channel up (its transmitter is enabled,
    channel-active is set and nothing is left to read), but however often the two sides
    poll after that, the host's bus is not up and a message it sends is refused. *)
Theorem C54_lost_wakeup n m : exists d wb wh bb bh,
  duo_reach (race n m) d /\ compatible (race n m) /\
  d_prog d true = Ret wb /\ bget wb false = Some bb /\ bus_st bb = TxEnabled /\
  d_prog d false = Ret wh /\ bget wh false = Some bh /\ bus_st bh = Constructed /\
  last (d_tr d false) (EvRet 0) = EvRet (- ENXIO) /\ offered (d_tr d false) = [] /\
  tst (kstatus (s_kcs (d_sh d))) ST_ACTIVE = true /\ unread true (s_kcs (d_sh d)) = None.
Proof.
  pose proof whole_true as H. unfold whole in H.
  destruct (part 100 true _ _) as [[s1 p1] t1] eqn:v1. destruct p1 as [w1| | | | | | | |]; try discriminate H.
  destruct (part 100 false s1 _) as [[s2 p2] t2] eqn:v2. destruct p2 as [w2| | | | | | | |]; try discriminate H.
  destruct (part 1 false s2 _) as [[s3 p3] t3] eqn:v3.
  destruct (part 100 true s3 _) as [[s4 p4] t4] eqn:v4. destruct p4 as [w4| | | | | | | |]; try discriminate H.
  destruct (part 100 false s4 _) as [[s5 p5] t5] eqn:v5. destruct p5 as [w5| | | | | | | |]; try discriminate H.
  destruct (part 100 false s5 _) as [[s6 p6] t6] eqn:v6. destruct p6 as [w6| | | | | | | |]; try discriminate H.
  destruct (offered (t2 ++ t3 ++ t5 ++ t6)) eqn:Ho; [|discriminate H].
  destruct t6 as [|[] [|]]; try discriminate H.
  destruct (bget w4 false) as [bb|] eqn:Eb; [|discriminate H]. destruct (bget w6 false) as [bh|] eqn:Eh; [|discriminate H].
  destruct (unread true (s_kcs s6)) eqn:Eu; [discriminate H|].
  apply andb_prop in H as [H F]. apply andb_prop in H as [H St]. apply andb_prop in H as [H Rc].
  apply andb_prop in H as [H J7]. apply andb_prop in H as [H J5]. apply andb_prop in H as [B1 B2].
  destruct (race_run n m _ _ _ _ _ _ _ _ _ _ _ _ _ _ _ _ _ _ v1 B1 v2 B2 v3 v4 v5 v6 (idleb_idle _ _ _ J5) (idleb_idle _ _ _ J7))
    as (d & H1 & H2 & H3 & H4 & H5 & t & H6 & H7).
  exists d, w4, w6, bb, bh. apply Z.eqb_eq in Rc. subst rc.
  split; [exact H1|]. split; [exact H2|]. split; [exact H3|]. split; [exact Eb|].
  split; [destruct (bus_st bb); [discriminate St|reflexivity|discriminate St]|].
  split; [exact H4|]. split; [exact Eh|].
  split; [destruct (bus_st bb), (bus_st bh); try discriminate St; reflexivity|].
  split; [rewrite H6, !app_assoc; apply last_last|].
  split; [|rewrite H5; auto].
  rewrite H6. unfold offered in *. rewrite !flat_map_app in *. rewrite H7. exact Ho.
Qed.
