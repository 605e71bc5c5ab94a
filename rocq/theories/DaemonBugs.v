(** The demultiplexing daemon: what goes wrong (C44, C48, C49) and when not. *)
From Coq Require Import Permutation.
From Verif Require Import Base Lists Daemon PropDaemon DaemonRun.

(** ** Playing a program against a concrete environment *)
Definition oracle := nat -> forall c, answer c.
Fixpoint play {A} (o : oracle) (n : nat) (p : prog A) : option (list ev * A) :=
  match p with
  | Ret a => Some ([], a)
  | Crash => None
  | Do c k => match play o (S n) (k (o n c)) with
              | Some (tr, r) => Some (Ev c (o n c) :: tr, r)
              | None => None
              end
  end.
Lemma play_exec : forall A (o : oracle) (H : forall n c, allowed c (o n c)) (p : prog A) n tr r,
  play o n p = Some (tr, r) -> exec p tr r.
Proof.
  induction p as [a| |c k IH]; intros n tr r E; cbn in E.
  - injection E as <- <-. split; reflexivity.
  - discriminate.
  - destruct (play o (S n) (k (o n c))) as [[t s]|] eqn:P; [|discriminate].
    injection E as <- <-. exists (o n c), t. repeat split; auto. eapply IH; eauto.
Qed.

(** ** C44: a client that has announced nothing is sent messages of type 0 *)
(** Round 1: a client connects. Round 2: the stack delivers [0; 7] from EID 9. *)
Definition early : oracle := fun n c =>
  match c return answer c with
  | CClose _ => tt | CSend _ bs => zlen bs | CRead1 _ => inr (-1) | CPeek _ => -1
  | CGrow _ => true | CRecv _ _ => None | CCapture _ _ => tt | CTx _ _ _ _ => 0
  | CAccept => 4
  | CPoll fds => Some (Ready false (Nat.leb 1 n) (Nat.eqb n 0) (map (fun _ => false) fds))
  | CProcess => ([Msg 9 [0; 7]], 0)
  | CUninit => false
  end.
Lemma early_ok : forall n c, allowed c (early n c).
Proof.
  intros n []; cbn; try exact I; try lia.
  - rewrite map_length. reflexivity.
  - repeat constructor; cbn; lia.
Qed.
Theorem C44_unannounced :
  ~ (forall eid cap n tr r, exec (run_daemon n (start eid cap) false) tr r ->
       forall t1 t2 fd src t m rc,
         tr = t1 ++ Ev (CSend fd (src :: t :: m)) rc :: t2 -> announced t1 fd t).
Proof.
  intros H.
  destruct (play early 0 (run_daemon 2 (start 8 false) false)) as [[tr r]|] eqn:E;
    [|vm_compute in E; discriminate].
  pose proof (play_exec _ early early_ok _ _ _ _ E) as X.
  vm_compute in E. injection E as <- <-.
  specialize (H 8 false 2%nat _ _ X).
  specialize (H [_; _; _; _; _] [] 4 9 0 [7] 3 eq_refl).
  unfold announced in H. cbn in H. repeat destruct H as [H | H]; try discriminate. destruct H.
Qed.

(** ** C48: reading from the clients poll reported ready *)

Definition ready_fds (fds : list Z) (r : option ready) : list Z :=
  match r with
  | None => []
  | Some r => map fst (filter snd (combine fds (r_clients r)))
  end.
(** Every descriptor read from is one the latest poll reported. *)
Fixpoint reads_ready (cur : list Z) (tr : list ev) : Prop :=
  match tr with
  | [] => True
  | Ev c a :: t =>
      match c return answer c -> Prop with
      | CPoll fds => fun a => reads_ready (ready_fds fds a) t
      | CRead1 fd | CPeek fd => fun _ => In fd cur /\ reads_ready cur t
      | _ => fun _ => reads_ready cur t
      end a
  end.

(** Clients 4 and 5 announce types 1 and 2. Then client 4 goes away: poll
    reports it, and a message for it cannot be sent, so it is removed while the
    poll table still lists it. Its readiness is taken for client 5's: reading
    from 5 finds nothing (EAGAIN), and 5 is dropped. *)
Definition stale : oracle := fun n c =>
  match c return answer c with
  | CClose _ => tt
  | CSend fd bs => if fd =? 4 then -1 else zlen bs
  | CRead1 fd => inl (if fd =? 4 then 1 else 2)
  | CPeek fd => -1
  | CGrow _ => true | CRecv _ _ => None | CCapture _ _ => tt | CTx _ _ _ _ => 0
  | CAccept => if Nat.eqb n 1 then 4 else 5
  | CPoll fds =>
      Some (match fds with
            | [_; _] => if Nat.leb n 6 then Ready false false false [true; true]
                        else Ready false true false [true; false]
            | _ => Ready false false true (map (fun _ => false) fds)
            end)
  | CProcess => ([Msg 9 [1; 7]], 0)
  | CUninit => false
  end.
Lemma stale_ok : forall n c, allowed c (stale n c).
Proof.
  intros n []; cbn; try exact I; try lia.
  - destruct (fd =? 4); unfold is_byte; lia.
  - destruct fds as [|? [|? [|]]]; cbn; auto; try (destruct (Nat.leb n 6); reflexivity).
    rewrite map_length. reflexivity.
  - repeat constructor; cbn; lia.
Qed.

Theorem C48_refuted :
  exists tr x,
    exec (run_daemon 4 (start 8 false) false) tr (Some (x, true))
    /\ ~ reads_ready [] tr
    /\ closes tr = [4; 5] /\ d_clients x = []
    /\ (forall bs rc, ~ In (Ev (CSend 5 bs) rc) tr).
Proof.
  destruct (play stale 0 (run_daemon 4 (start 8 false) false)) as [[tr r]|] eqn:E;
    [|vm_compute in E; discriminate].
  pose proof (play_exec _ stale stale_ok _ _ _ _ E) as X.
  vm_compute in E. injection E as <- <-.
  eexists. eexists. split; [exact X|]. split; [|split; [reflexivity|split; [reflexivity|]]].
  - cbn. intros H. repeat match goal with H : _ /\ _ |- _ => destruct H end.
    repeat match goal with H : _ \/ _ |- _ => destruct H end; try discriminate; try tauto.
  - intros bs rc H. cbn in H. repeat destruct H as [H | H]; try discriminate. exact H.
Qed.

(** As long as sending never falls short and the uninitialised flag happens to
    be false, the daemon only reads from clients poll has just reported. *)
Definition smooth (e : ev) : Prop :=
  match e with
  | Ev c a =>
      match c return answer c -> Prop with
      | CSend _ bs => fun a => a = zlen bs
      | CUninit => fun a => a = false
      | _ => fun _ => True
      end a
  end.

Lemma marked_smooth : forall t bs l tr l' r, marked t bs l tr l' r ->
  Forall smooth tr -> l' = l /\ r = false.
Proof.
  induction 1 as [|c l tr l' r N M IH|c l tr l' r N M IH|c l tr l' r rc N R M IH]; intros S.
  - auto.
  - destruct (IH S) as [-> ->]. auto.
  - inversion S; subst. destruct (IH H2) as [-> ->]. auto.
  - inversion S as [|? ? S1 S2]; subst. cbn in S1. congruence.
Qed.
Definition neutral (tr : list ev) : Prop := forall cur t, reads_ready cur t -> reads_ready cur (tr ++ t).
Lemma neutral_app : forall a b, neutral a -> neutral b -> neutral (a ++ b).
Proof. intros a b A B cur t H. rewrite <- app_assoc. apply A, B, H. Qed.
Lemma neutral_nil : neutral []. Proof. intros cur t H. exact H. Qed.

Lemma rx_smooth : forall x eid msg tr x',
  exec (rx_message x eid msg) tr x' -> Forall smooth tr -> x' = x /\ neutral tr.
Proof.
  intros x eid msg tr x' H S. apply rx_shape in H.
  destruct H as [(L & -> & ->) | (L & u & l' & r & tr1 & tr2 & -> & M & H)].
  { split; [reflexivity|apply neutral_nil]. }
  inversion S as [|? ? S1 S2]; subst. cbn in S1. subst u.
  apply Forall_app in S2. destruct S2 as [S2 S3].
  assert (NM : neutral tr1).
  { clear - M. induction M; auto using neutral_nil; intros cur t' Q; cbn; auto. }
  destruct (marked_smooth _ _ _ _ _ _ M S2) as [-> ->]. cbn [orb] in H.
  destruct H as [-> ->]. rewrite set_clients_same, app_nil_r. split; [reflexivity|].
  intros cur t Q. cbn. apply NM. exact Q.
Qed.

Lemma deliver_smooth : forall ms x tr x',
  exec (deliver x ms) tr x' -> Forall smooth tr -> x' = x /\ neutral tr.
Proof.
  induction ms as [|m ms IH]; intros x tr x' H S; cbn [deliver] in H.
  - destruct H as [-> ->]. split; [reflexivity|apply neutral_nil].
  - apply exec_bind in H. destruct H as (t1 & t2 & y & -> & H1 & H2).
    apply Forall_app in S. destruct S as [S1 S2].
    destruct (rx_smooth _ _ _ _ _ H1 S1) as [-> N1]. destruct (IH _ _ _ H2 S2) as [-> N2].
    split; [reflexivity|apply neutral_app; auto].
Qed.

Lemma recv_smooth : forall x i tr x' rc c,
  exec (client_process_recv x i) tr (x', rc) -> Forall smooth tr ->
  nth_error (d_clients x) i = Some c ->
  socks (d_clients x') = socks (d_clients x) /\ d_fds x' = d_fds x
  /\ forall cur t, In (c_sock c) cur -> reads_ready cur t -> reads_ready cur (tr ++ t).
Proof.
  intros x i tr x' rc c H S N. unfold client_process_recv, client_at in H.
  rewrite N in H. cbn [bind] in H.
  assert (PUT : forall d, c_sock d = c_sock c -> socks (put (d_clients x) i d) = socks (d_clients x)).
  { intros d E. destruct (put_nth _ _ _ d N) as [P Q]. rewrite P. rewrite Q at 3.
    unfold socks. rewrite !map_app. cbn. rewrite E. reflexivity. }
  destruct (c_type c =? 0).
  - apply exec_bind in H. destruct H as (t1 & t2 & r & -> & H1 & H2). ex_ask H1 a Ha.
    destruct a as [b|e]; [destruct (b =? 0)|]; destruct H2 as [-> H2]; injection H2 as -> ->;
      (split; [apply PUT; reflexivity|split; [reflexivity|intros; cbn; auto]]).
  - apply exec_bind in H. destruct H as (t1 & t2 & len & -> & H1 & H2). ex_ask H1 a Ha.
    apply Forall_app in S. destruct S as [_ S].
    destruct (a <? 0).
    { destruct H2 as [-> H2]. injection H2 as -> ->.
      split; [apply PUT; reflexivity|split; [reflexivity|intros; cbn; auto]]. }
    apply exec_bind in H2. destruct H2 as (q1 & q2 & [y ok] & -> & H3 & H4).
    assert (G : d_clients y = d_clients x /\ d_fds y = d_fds x /\ neutral q1).
    { destruct (d_bufsize x <? a).
      - apply exec_bind in H3. destruct H3 as (q3 & q4 & g & -> & H3 & [-> H5]).
        ex_ask H3 g' Hg. assert (neutral ([Ev (CGrow a) g'] ++ [])) by (intros cur t Q; cbn; auto).
        destruct g'; injection H5 as -> ->; auto.
      - destruct H3 as [-> H3]. injection H3 as -> ->. auto using neutral_nil. }
    destruct G as (G1 & G2 & G3). apply Forall_app in S. destruct S as [_ S].
    assert (FIN : forall z tr', socks (d_clients z) = socks (d_clients y) -> d_fds z = d_fds y -> neutral tr' ->
      socks (d_clients z) = socks (d_clients x) /\ d_fds z = d_fds x /\
      (forall cur t, In (c_sock c) cur -> reads_ready cur t ->
         reads_ready cur (([Ev (CPeek (c_sock c)) a] ++ q1 ++ tr') ++ t))).
    { intros z tr' E1 E2 NT. split; [congruence|]. split; [congruence|].
      intros cur t IC Q. cbn. split; [exact IC|]. rewrite <- app_assoc. apply G3, NT, Q. }
    destruct ok; cbn [negb] in H4.
    2: { destruct H4 as [-> H4]. injection H4 as -> ->. apply FIN; try reflexivity.
         - cbn. rewrite G1. apply PUT. reflexivity.
         - apply neutral_nil. }
    apply exec_bind in H4. destruct H4 as (q3 & q4 & bs & -> & H5 & H4). ex_ask H5 g Hg'.
    assert (D : exec (out_close y i c (-1)) q4 (x', rc) ->
       socks (d_clients x') = socks (d_clients x) /\ d_fds x' = d_fds x /\
      (forall cur t, In (c_sock c) cur -> reads_ready cur t ->
         reads_ready cur (([Ev (CPeek (c_sock c)) a] ++ q1 ++ [Ev (CRecv (c_sock c) (d_bufsize y)) g] ++ q4) ++ t))).
    { intros [-> Q]. injection Q as -> ->. apply FIN; try reflexivity.
      - cbn. rewrite G1. apply PUT. reflexivity.
      - intros cur t Q. cbn. exact Q. }
    destruct g as [[|eid msg]|]; [exact (D H4)| |exact (D H4)]. clear D.
    apply exec_bind in H4. destruct H4 as (q5 & q6 & [] & -> & H6 & H4).
    assert (N5 : neutral q5).
    { destruct (d_capture y); [|destruct H6 as [-> _]; apply neutral_nil].
      cbn [exec ask] in H6. destruct H6 as (u & t0 & -> & _ & [-> _]). intros cur t Q. cbn. exact Q. }
    assert (NR : neutral [Ev (CRecv (c_sock c) (d_bufsize y)) (Some (eid :: msg))])
      by (intros cur t Q; cbn; exact Q).
    apply Forall_app in S. destruct S as [_ S]. apply Forall_app in S. destruct S as [_ S].
    destruct (eid =? d_eid y).
    + apply exec_bind in H4. destruct H4 as (q7 & q8 & z & -> & H7 & [-> H8]). injection H8 as -> ->.
      rewrite app_nil_r in *. destruct (rx_smooth _ _ _ _ _ H7 S) as [-> N7].
      apply FIN; auto using neutral_app.
    + apply exec_bind in H4. destruct H4 as (q7 & q8 & z & -> & H7 & [-> H8]). injection H8 as -> ->.
      ex_ask H7 g Hg. apply FIN; try reflexivity.
      repeat apply neutral_app; auto; try apply neutral_nil; intros cur t Q; cbn; exact Q.
Qed.

Lemma nth_ready : forall (cs : list client) (rv : list bool) i c,
  nth_error cs i = Some c -> nth_error rv i = Some true ->
  In (c_sock c) (map fst (filter snd (combine (socks cs) rv))).
Proof.
  induction cs as [|d cs IH]; intros [|b rv] [|i] c N R; cbn in *; try discriminate.
  - injection N as ->. injection R as ->. left. reflexivity.
  - destruct b; [right|]; eapply IH; eauto.
Qed.

Lemma loop_smooth : forall fuel i x rv chg tr x' chg',
  exec (recv_loop fuel i x rv chg) tr (x', chg') -> Forall smooth tr ->
  socks (d_clients x') = socks (d_clients x) /\ d_fds x' = d_fds x
  /\ forall cur t, (forall j c, nth_error (d_clients x) j = Some c -> nth_error rv j = Some true -> In (c_sock c) cur) ->
     reads_ready cur t -> reads_ready cur (tr ++ t).
Proof.
  induction fuel as [|f IH]; intros i x rv chg tr x' chg' H S; cbn [recv_loop] in H.
  - destruct H as [-> H]. injection H as -> ->. repeat split; auto.
  - destruct (Nat.ltb i (length (d_clients x))) eqn:L.
    2: { destruct H as [-> H]. injection H as -> ->. repeat split; auto. }
    apply Nat.ltb_lt in L.
    destruct (nth_error rv i) as [[|]|] eqn:R; [| |destruct H].
    + apply exec_bind in H. destruct H as (t1 & t2 & [y rc] & -> & H1 & H2).
      apply Forall_app in S. destruct S as [S1 S2].
      destruct (nth_error (d_clients x) i) as [c|] eqn:N; [|apply nth_error_None in N; lia].
      destruct (recv_smooth _ _ _ _ _ _ H1 S1 N) as (E1 & E2 & K1).
      destruct (IH _ _ _ _ _ _ _ H2 S2) as (E3 & E4 & K2).
      split; [congruence|]. split; [congruence|].
      intros cur t C Q. rewrite <- app_assoc. apply K1; [eapply C; eauto|]. apply K2; [|exact Q].
      intros j d Nd Rd.
      assert (exists c0, nth_error (d_clients x) j = Some c0 /\ c_sock c0 = c_sock d) as (c0 & N0 & <-).
      { assert (nth_error (socks (d_clients y)) j = Some (c_sock d)) by (unfold socks; apply map_nth_error; exact Nd).
        rewrite E1 in H. unfold socks in H. rewrite nth_error_map in H.
        destruct (nth_error (d_clients x) j) as [c0|]; [|discriminate]. injection H as H. eauto. }
      eapply C; eauto.
    + eapply IH; eauto.
Qed.

Lemma neutral_closes : forall l, neutral (map (fun fd => Ev (CClose fd) tt) l).
Proof. induction l as [|a l IH]; intros cur t Q; cbn; auto. Qed.

Theorem C48_smooth : forall eid cap n tr r,
  exec (run_daemon n (start eid cap) false) tr r -> Forall smooth tr -> reads_ready [] tr.
Proof.
  assert (G : forall n x chg tr r cur,
    chg = true \/ d_fds x = socks (d_clients x) ->
    exec (run_daemon n x chg) tr r -> Forall smooth tr -> reads_ready cur tr).
  { induction n as [|n IH]; intros x chg tr r cur I H S; cbn [run_daemon] in H.
    - destruct H as [-> _]. exact Logic.I.
    - apply exec_bind in H. destruct H as (t1 & t2 & r0 & -> & H1 & H2).
      apply Forall_app in S. destruct S as [S1 S2].
      unfold daemon_round in H1. cbv zeta in H1.
      set (x0 := if chg then set_fds x (map c_sock (d_clients x)) else x) in *.
      assert (E0 : d_fds x0 = socks (d_clients x0)).
      { subst x0. destruct chg; [reflexivity|]. destruct I as [I | I]; [discriminate|exact I]. }
      clearbody x0.
      destruct (negb (Nat.leb (length (d_clients x0)) (length (d_fds x0)))); [destruct H1|].
      apply exec_bind in H1. destruct H1 as (a0 & a1 & rv & -> & H1 & H3). ex_ask H1 v Hv.
      apply Forall_app in S1. destruct S1 as [_ S1].
      assert (FS : firstn (length (d_clients x0)) (d_fds x0) = socks (d_clients x0)).
      { rewrite E0. unfold socks. rewrite <- (map_length c_sock (d_clients x0)). apply firstn_all. }
      cbn [Datatypes.app reads_ready]. rewrite FS.
      assert (END : r0 = None -> reads_ready (ready_fds (socks (d_clients x0)) v) t2).
      { intros ->. destruct H2 as [-> _]. exact Logic.I. }
      destruct v as [v|]; [|destruct H3 as [-> ->]; apply END; reflexivity].
      destruct (r_signal v); [destruct H3 as [-> ->]; apply END; reflexivity|].
      apply exec_bind in H3. destruct H3 as (b1 & b2 & [y rc] & -> & H4 & H3).
      apply Forall_app in S1. destruct S1 as [SA S1].
      assert (M1 : y = x0 /\ neutral b1).
      { destruct (r_binding v).
        - apply exec_bind in H4. destruct H4 as (d1 & d2 & pr & -> & H5 & H4').
          ex_ask H5 q Hq. destruct q as [ms rc0].
          apply exec_bind in H4'. destruct H4' as (d3 & d4 & z & -> & H5 & [-> H6]). injection H6 as -> ->.
          rewrite app_nil_r in *. apply Forall_app in SA. destruct SA as [_ SA].
          destruct (deliver_smooth _ _ _ _ H5 SA) as [-> ND]. split; [reflexivity|].
          intros c t Q. cbn. apply ND. exact Q.
        - destruct H4 as [-> H4]. injection H4 as -> ->. split; [reflexivity|apply neutral_nil]. }
      destruct M1 as [-> N1].
      rewrite <- app_assoc. apply N1.
      destruct (negb (rc =? 0)); [destruct H3 as [-> ->]; apply END; reflexivity|].
      apply exec_bind in H3. destruct H3 as (b3 & b4 & [z c1] & -> & H4'' & H3).
      apply Forall_app in S1. destruct S1 as [SB S1].
      destruct (loop_smooth _ _ _ _ _ _ _ _ H4'' SB) as (E1 & E2 & K).
      rewrite <- app_assoc. apply K.
      { intros j c N R. apply (nth_ready _ _ j c N R). }
      clear K.
      apply exec_bind in H3. destruct H3 as (b5 & b6 & [[w st] c2] & -> & H5 & H3).
      assert (M3 : neutral b5 /\ (c2 = true \/ d_fds w = socks (d_clients w))).
      { destruct (r_socket v).
        - apply exec_bind in H5. destruct H5 as (d1 & d2 & [u rcu] & -> & H5 & [-> H6]). injection H6 as -> -> ->.
          split; [|auto]. unfold socket_process in H5. apply exec_bind in H5.
          destruct H5 as (e1 & e2 & fd & -> & H5 & H6). ex_ask H5 q Hq.
          destruct (q <? 0); destruct H6 as [-> _]; intros c t Q; cbn; exact Q.
        - destruct H5 as [-> H5]. injection H5 as -> -> ->. split; [apply neutral_nil|].
          right. congruence. }
      destruct M3 as [N3 I3]. rewrite <- app_assoc. apply N3.
      destruct st; [destruct H3 as [-> ->]; apply END; reflexivity|].
      apply exec_bind in H3. destruct H3 as (b7 & b8 & u & -> & H6 & [-> ->]). rewrite app_nil_r.
      assert (M4 : neutral b7 /\ (c2 = true \/ d_fds u = socks (d_clients u))).
      { destruct c2.
        - apply C45_exact in H6. destruct H6 as [-> _]. auto using neutral_closes.
        - destruct H6 as [-> ->]. split; [apply neutral_nil|exact I3]. }
      destruct M4 as [N4 I4]. apply N4. eapply IH; eauto. }
  intros eid cap n tr r H S. apply (G n (start eid cap) false tr r []); auto.
Qed.

(** ** C49: a client that goes away before announcing its type *)

(** The environment of such a client: poll reports it, and only it; reading
    from it returns 0 (end of file). *)
Fixpoint only (i n : nat) : list bool :=
  match n with
  | O => []
  | S n => (match i with O => true | _ => false end)
           :: match i with O => repeat false n | S i => only i n end
  end.
Definition hung_up (i : nat) (e : ev) : Prop :=
  match e with
  | Ev c a =>
      match c return answer c -> Prop with
      | CPoll fds => fun a => a = Some (Ready false false false (only i (length fds)))
      | CRead1 _ => fun a => a = inr 0
      | _ => fun _ => True
      end a
  end.

Lemma nth_only : forall n i j, (i < n)%nat -> (j < n)%nat ->
  nth_error (only i n) j = Some (Nat.eqb j i).
Proof.
  induction n as [|n IH]; intros i j Hi Hj; [lia|].
  destruct i as [|i]; destruct j as [|j]; cbn; auto.
  - rewrite nth_error_repeat by lia. reflexivity.
  - apply IH; lia.
Qed.
Lemma only_length : forall n i, length (only i n) = n.
Proof.
  induction n as [|n IH]; intros [|i]; cbn; auto.
  rewrite repeat_length. reflexivity.
Qed.

Lemma loop_none : forall fuel i j x chg, (i < j)%nat ->
  (j + fuel = length (d_clients x))%nat ->
  forall tr r, exec (recv_loop fuel j x (only i (length (d_clients x))) chg) tr r <-> tr = [] /\ r = (x, chg).
Proof.
  induction fuel as [|f IH]; intros i j x chg L E tr r; cbn [recv_loop]; [reflexivity|].
  rewrite (proj2 (Nat.ltb_lt _ _)) by lia. rewrite nth_only by lia.
  rewrite (proj2 (Nat.eqb_neq j i)) by lia. apply IH; lia.
Qed.

Definition hang (x : ctx) (i : nat) (c : client) : ctx :=
  set_clients x (put (d_clients x) i (Client false (c_sock c) (c_type c))).

Lemma loop_hung : forall k i x c chg, nth_error (d_clients x) i = Some c -> c_type c = 0 ->
  forall fuel j, (j + k = i)%nat -> (j + fuel = length (d_clients x))%nat ->
  forall tr r, Forall (hung_up i) tr ->
  (exec (recv_loop fuel j x (only i (length (d_clients x))) chg) tr r <->
   tr = [Ev (CRead1 (c_sock c)) (inr 0)] /\ r = (hang x i c, chg)).
Proof.
  induction k as [|k IH]; intros i x c chg N T fuel j Ej Ef tr r F.
  - assert (j = i) by lia. subst j.
    assert (L : (i < length (d_clients x))%nat) by (apply nth_error_Some; congruence).
    destruct fuel as [|f]; [lia|]. cbn [recv_loop].
    rewrite (proj2 (Nat.ltb_lt _ _) L), nth_only, Nat.eqb_refl by lia.
    assert (LH : length (d_clients (hang x i c)) = length (d_clients x)).
    { destruct (put_nth _ _ _ (Client false (c_sock c) (c_type c)) N) as [P Q].
      cbn. rewrite P. rewrite Q at 3. rewrite !app_length. cbn. lia. }
    unfold client_process_recv, client_at. rewrite N. cbn [bind]. rewrite T, Z.eqb_refl.
    cbn [ask bind exec]. split.
    + intros (a & t & -> & _ & H). inversion F as [|? ? F1 F2]; subst. cbn in F1. subst a.
      cbn [exec bind out_close] in H. fold (hang x i c) in H.
      rewrite <- LH in H. apply loop_none in H; [|lia|lia]. destruct H as [-> ->]. auto.
    + intros [-> ->]. exists (inr 0), []. split; [reflexivity|]. split; [cbn; lia|].
      cbn [exec bind out_close]. fold (hang x i c). rewrite <- LH. apply loop_none; [lia|lia|auto].
  - assert (L : (i < length (d_clients x))%nat) by (apply nth_error_Some; congruence).
    destruct fuel as [|f]; [lia|]. cbn [recv_loop].
    rewrite (proj2 (Nat.ltb_lt _ _)), nth_only by lia.
    rewrite (proj2 (Nat.eqb_neq j i)) by lia.
    apply IH; auto; lia.
Qed.

(** The daemon then polls and reads for ever: in every run of [n] rounds there
    are [n] polls that return at once and [n] reads that return 0, the entry
    stays in the table, marked inactive, and its descriptor is never closed. *)
Theorem C49_spins : forall n x i c tr r,
  nth_error (d_clients x) i = Some c -> c_type c = 0 ->
  d_fds x = socks (d_clients x) -> Forall (hung_up i) tr ->
  exec (run_daemon n x false) tr r ->
  exists x',
    tr = concat (repeat [Ev (CPoll (socks (d_clients x)))
                            (Some (Ready false false false (only i (length (d_clients x)))));
                         Ev (CRead1 (c_sock c)) (inr 0)] n)
    /\ r = Some (x', false)
    /\ (n <> O -> nth_error (d_clients x') i = Some (Client false (c_sock c) 0)).
Proof.
  induction n as [|n IH]; intros x i c tr r N T FS F H; cbn [run_daemon] in H.
  - destruct H as [-> ->]. exists x. repeat split. congruence.
  - apply exec_bind in H. destruct H as (t1 & t2 & r0 & -> & H1 & H2).
    apply Forall_app in F. destruct F as [F1 F2].
    unfold daemon_round in H1. cbv zeta in H1.
    assert (LF : length (d_fds x) = length (d_clients x)) by (rewrite FS; unfold socks; apply map_length).
    rewrite LF, Nat.leb_refl in H1. cbn [negb] in H1.
    apply exec_bind in H1. destruct H1 as (a0 & a1 & rv & -> & H1 & H3). ex_ask H1 v Hv.
    assert (FI : firstn (length (d_clients x)) (d_fds x) = socks (d_clients x)).
    { rewrite <- LF, firstn_all. exact FS. }
    rewrite FI in *. inversion F1 as [|? ? P1 F1']; subst. cbn in P1. subst v.
    cbn [r_signal r_binding r_socket r_clients] in H3. clear Hv F1.
    cbn [bind] in H3. rewrite Z.eqb_refl in H3. cbn [negb] in H3.
    apply exec_bind in H3. destruct H3 as (b1 & b2 & [y c1] & -> & H4 & H3).
    cbn [Datatypes.app] in F1'. apply Forall_app in F1'. destruct F1' as [Fa Fb].
    assert (LS : length (socks (d_clients x)) = length (d_clients x)) by apply map_length.
    rewrite LS in *.
    apply (loop_hung i i x c false N T) in H4; [|lia|lia|exact Fa].
    destruct H4 as [-> H4]. injection H4 as -> ->.
    cbn in H3. destruct H3 as [-> ->].
    destruct (put_nth _ _ _ (Client false (c_sock c) (c_type c)) N) as [P Q].
    assert (NH : nth_error (d_clients (hang x i c)) i = Some (Client false (c_sock c) 0)).
    { cbn. rewrite P, T. 
      assert (LI : length (firstn i (d_clients x)) = i).
      { rewrite firstn_length. assert (i < length (d_clients x))%nat by (apply nth_error_Some; congruence). lia. }
      pose proof (nth_mid _ (firstn i (d_clients x)) (Client false (c_sock c) 0) (skipn (S i) (d_clients x))) as NM.
      rewrite LI in NM. exact NM. }
    assert (SH : socks (d_clients (hang x i c)) = socks (d_clients x)).
    { cbn. rewrite P. rewrite Q at 3. unfold socks. rewrite !map_app. reflexivity. }
    assert (LH : length (d_clients (hang x i c)) = length (d_clients x)).
    { rewrite <- LS, <- SH. symmetry. apply map_length. }
    specialize (IH (hang x i c) i (Client false (c_sock c) 0) t2 r NH eq_refl).
    rewrite SH in IH. specialize (IH FS F2 H2).
    destruct IH as (x' & -> & -> & K). exists x'. rewrite LH. cbn [c_sock] in *.
    split; [reflexivity|]. split; [reflexivity|]. intros _.
    destruct n as [|n]; [|apply K; discriminate].
    cbn in H2. destruct H2 as [_ H2]. injection H2 as ->. exact NH.
Qed.

(** Such a state is reached: a client connects and goes away. *)
Definition gone : oracle := fun n c =>
  match c return answer c with
  | CClose _ => tt | CSend _ bs => zlen bs | CRead1 _ => inr 0 | CPeek _ => -1
  | CGrow _ => true | CRecv _ _ => None | CCapture _ _ => tt | CTx _ _ _ _ => 0
  | CAccept => 4
  | CPoll fds => Some (Ready false false (Nat.eqb n 0) (map (fun _ => true) fds))
  | CProcess => ([], 0)
  | CUninit => false
  end.
Lemma gone_ok : forall n c, allowed c (gone n c).
Proof.
  intros n []; cbn; try exact I; try lia.
  - rewrite map_length. reflexivity.
  - constructor.
Qed.
Theorem C49_case :
  exists tr x, exec (run_daemon 2 (start 8 false) false) tr (Some (x, false))
    /\ nth_error (d_clients x) 0 = Some (Client false 4 0)
    /\ d_fds x = socks (d_clients x).
Proof.
  destruct (play gone 0 (run_daemon 2 (start 8 false) false)) as [[tr r]|] eqn:E;
    [|vm_compute in E; discriminate].
  pose proof (play_exec _ gone gone_ok _ _ _ _ E) as X.
  vm_compute in E. injection E as <- <-.
  eexists. eexists. split; [exact X|]. split; reflexivity.
Qed.
(** and the run of any length exists. *)
Theorem C49_exists : forall n,
  exists tr x, exec (run_daemon n (Ctx 8 4096 [4] [Client false 4 0] false) false) tr (Some (x, false))
    /\ Forall (hung_up 0) tr /\ closes tr = [].
Proof.
  induction n as [|n (tr & x & E & F & C)].
  - exists [], (Ctx 8 4096 [4] [Client false 4 0] false). split; [split; reflexivity|]. split; [constructor|reflexivity].
  - exists (Ev (CPoll [4]) (Some (Ready false false false [true])) :: Ev (CRead1 4) (inr 0) :: tr), x.
    split; [|split; [|exact C]].
    + cbn [run_daemon]. apply exec_bind.
      exists [Ev (CPoll [4]) (Some (Ready false false false [true])); Ev (CRead1 4) (inr 0)], tr,
        (Some (Ctx 8 4096 [4] [Client false 4 0] false, false)).
      split; [reflexivity|]. split; [|exact E].
      unfold daemon_round. cbn. eexists. eexists. split; [reflexivity|]. split; [reflexivity|].
      cbn. eexists. eexists. split; [reflexivity|]. split; [cbn; lia|]. cbn. split; reflexivity.
    + constructor; [reflexivity|]. constructor; [reflexivity|exact F].
Qed.
