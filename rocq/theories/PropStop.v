(** PropStop: C82, what stops the demultiplexing daemon. *)
From Verif Require Import Base Lists Daemon PropDaemon DaemonMon.
From Verif Require DaemonRun DaemonBugs.

(** ** Specification *)
(** poll fails or reports the signal descriptor, the binding's process fails, accept fails. *)
Definition cause (e : ev) : Prop :=
  match e with
  | Ev c a =>
      match c return answer c -> Prop with
      | CPoll _ => fun a => match a with None => True | Some r => r_signal r = true end
      | CProcess => fun a => snd a <> 0
      | CAccept => fun a => a < 0
      | _ => fun _ => False
      end a
  end.
(** The calls that hand a message to clients. *)
Definition handing (e : ev) : Prop := match e with Ev c _ => match c with CSend _ _ | CClose _ | CUninit => True | _ => False end end.

(** ** Proof *)
Definition causeb (e : ev) : bool :=
  match e with
  | Ev c a =>
      match c return answer c -> bool with
      | CPoll _ => fun a => match a with None => true | Some r => r_signal r end
      | CProcess => fun a => negb (snd a =? 0)
      | CAccept => fun a => a <? 0
      | _ => fun _ => false
      end a
  end.
Lemma cause_b e : cause e <-> causeb e = true.
Proof.
  destruct e as [c a]. destruct c; cbn; try (split; [intros []|discriminate]).
  - lia.
  - destruct a; [reflexivity|]. split; auto.
  - destruct a as [ms rc]. cbn. lia.
Qed.

Definition next (s : bool) (e : ev) : bool := s || causeb e.
Definition ok (s : bool) (e : ev) : Prop := s = true -> handing e.
Local Notation wpd := (mon_wp next ok).

Lemma quiet_close s0 fd a s : s = s0 -> ok s (Ev (CClose fd) a) /\ next s (Ev (CClose fd) a) = s0.
Proof. intros ->. split; [intros _; exact I|]. apply orb_false_r. Qed.
Lemma quiet_send s0 fd bs a s : s = s0 -> ok s (Ev (CSend fd bs) a) /\ next s (Ev (CSend fd bs) a) = s0.
Proof. intros ->. split; [intros _; exact I|]. apply orb_false_r. Qed.
Lemma quiet_uninit s0 a s : s = s0 -> ok s (Ev CUninit a) /\ next s (Ev CUninit a) = s0.
Proof. intros ->. split; [intros _; exact I|]. apply orb_false_r. Qed.

Lemma stop_rx s0 x eid msg : wpd (rx_message x eid msg) s0 (fun _ s => s = s0).
Proof. apply (mon_rx next ok (fun s => s = s0)); [apply quiet_close|apply quiet_send|apply quiet_uninit|reflexivity]. Qed.
Lemma stop_deliver s0 x ms : wpd (deliver x ms) s0 (fun _ s => s = s0).
Proof. apply (mon_deliver next ok (fun s => s = s0)); [apply quiet_close|apply quiet_send|apply quiet_uninit|reflexivity]. Qed.
Lemma stop_remove s0 x : wpd (client_remove_inactive x) s0 (fun _ s => s = s0).
Proof. apply (mon_remove next ok (fun s => s = s0)); [apply quiet_close|reflexivity]. Qed.

Lemma stop_recv x i : wpd (client_process_recv x i) false (fun _ s => s = false).
Proof.
  unfold client_process_recv. apply mon_bind, mon_client_at. intros c. destruct (c_type c =? 0).
  { cbn [bind ask mon_wp]. intros a _. split; [discriminate|]. destruct a as [ty|rc]; [destruct (ty =? 0)|]; reflexivity. }
  cbn [bind ask mon_wp]. intros len _. split; [discriminate|]. destruct (len <? 0); [reflexivity|].
  apply mon_bind. apply mon_mono with (Q := fun _ s => s = false).
  2:{ destruct (d_bufsize x <? len); [|reflexivity]. cbn [bind ask mon_wp]. intros g _. split; [discriminate|reflexivity]. }
  intros [y o] s ->. destruct o; cbn [negb]; [|reflexivity]. cbn [bind ask mon_wp]. intros r _. split; [discriminate|].
  destruct r as [[|eid msg]|]; [reflexivity| |reflexivity]. apply mon_bind. apply mon_mono with (Q := fun _ s => s = false).
  2:{ destruct (d_capture y); [|reflexivity]. cbn [bind ask mon_wp]. intros g _. split; [discriminate|reflexivity]. }
  intros _ s ->. destruct (eid =? d_eid y).
  - apply mon_bind. eapply mon_mono; [|apply stop_rx]. intros x1 s ->. reflexivity.
  - cbn [bind ask mon_wp]. intros a _. split; [discriminate|reflexivity].
Qed.
Lemma stop_recvs : forall f i x rv chg, wpd (recv_loop f i x rv chg) false (fun _ s => s = false).
Proof.
  induction f as [|f IH]; intros i x rv chg; cbn [recv_loop]; [reflexivity|].
  destruct (Nat.ltb i (length (d_clients x))); [|reflexivity]. destruct (nth_error rv i) as [[|]|]; [|apply IH|exact I].
  apply mon_bind. eapply mon_mono; [|apply stop_recv]. intros [x1 rc] s ->. apply IH.
Qed.
Definition dead {A} (y : option A) (s : bool) : Prop := s = match y with None => true | Some _ => false end.
Lemma stop_round x chg : wpd (daemon_round x chg) false dead.
Proof.
  unfold daemon_round. set (x0 := if chg then set_fds x (map c_sock (d_clients x)) else x). clearbody x0.
  destruct (negb (Nat.leb (length (d_clients x0)) (length (d_fds x0)))); [exact I|].
  cbn [bind ask mon_wp]. intros r _. split; [discriminate|]. destruct r as [r|]; [|reflexivity].
  cbn [next causeb orb]. destruct (r_signal r) eqn:Es; [reflexivity|].
  apply mon_bind. apply mon_mono with (Q := fun y s => s = negb (snd y =? 0)).
  2:{ destruct (r_binding r); [|reflexivity]. cbn [bind ask mon_wp]. intros [ms rc] _. split; [discriminate|]. cbn [next causeb orb snd].
      apply mon_bind. eapply mon_mono; [|apply stop_deliver]. intros x1 s ->. reflexivity. }
  intros [x2 rc] s ->. cbn [snd]. destruct (negb (rc =? 0)); [reflexivity|].
  apply mon_bind. eapply mon_mono; [|apply stop_recvs]. intros [x3 chg3] s ->.
  apply mon_bind. apply mon_mono with (Q := fun y s => s = snd (fst y)).
  2:{ destruct (r_socket r); [|reflexivity]. apply mon_bind. unfold socket_process. cbn [bind ask mon_wp]. intros fd _. split; [discriminate|].
      cbn [next causeb orb]. destruct (fd <? 0); reflexivity. }
  intros [[x4 stop] chg4] s ->. cbn [fst snd]. destruct stop; [reflexivity|].
  apply mon_bind. apply mon_mono with (Q := fun _ s => s = false).
  2:{ destruct chg4; [apply stop_remove|reflexivity]. }
  intros x5 s ->. reflexivity.
Qed.
Lemma stop_run : forall n x chg, wpd (run_daemon n x chg) false dead.
Proof.
  induction n as [|n IH]; intros x chg; cbn [run_daemon]; [reflexivity|]. apply mon_bind.
  eapply mon_mono; [|apply stop_round]. intros [[x1 chg1]|] s ->; [apply IH|reflexivity].
Qed.
Lemma run_cause tr : forall s, mon_run next s tr = true <-> s = true \/ exists e, In e tr /\ cause e.
Proof.
  induction tr as [|e tr IH]; intros s; cbn [mon_run fold_left].
  - split; [auto|]. intros [H|(e & [] & _)]. exact H.
  - fold (mon_run next (next s e) tr). rewrite IH. unfold next. rewrite orb_true_iff, <- cause_b. split.
    + intros [[H|H]|(e' & H1 & H2)]; [auto|right; exists e; split; [now left|exact H]|right; exists e'; split; [now right|exact H2]].
    + intros [H|(e' & [<-|H1] & H2)]; eauto.
Qed.

(** *** C82.  The daemon leaves its loop if and only if poll failed, the signal descriptor was
    ready, the binding's process failed or accept failed; nothing a client does is among
    these. *)
Theorem C82_stops : forall eid cap n tr r,
  exec (run_daemon n (start eid cap) false) tr r -> (r = None <-> exists e, In e tr /\ cause e).
Proof.
  intros eid cap n tr r H. destruct (mon_sound next ok _ false _ _ _ (stop_run n (start eid cap) false) H) as [_ Hd].
  unfold dead in Hd. pose proof (run_cause tr false) as Hc. rewrite Hd in Hc. destruct r.
  - split; [discriminate|]. intros H1. assert (false = true) by (apply Hc; auto). discriminate.
  - split; [|reflexivity]. intros _. destruct (proj1 Hc eq_refl) as [H1|H1]; [discriminate|exact H1].
Qed.
(** After that it only hands on the messages that had already been delivered. *)
Theorem C82_at_once : forall eid cap n t1 e t2 r,
  exec (run_daemon n (start eid cap) false) (t1 ++ e :: t2) r -> cause e -> Forall handing t2.
Proof.
  intros eid cap n t1 e t2 r H He. destruct (mon_sound next ok _ false _ _ _ (stop_run n (start eid cap) false) H) as [Hk _].
  apply mon_oks_app in Hk. destruct Hk as [_ [_ Hk]]. unfold next in Hk at 2. rewrite (proj1 (cause_b e) He), orb_true_r in Hk.
  clear - Hk. induction t2 as [|e2 t2 IH]; [constructor|]. destruct Hk as [H1 H2]. constructor; [exact (H1 eq_refl)|]. exact (IH H2).
Qed.

(** A case: a client connects, is read and hangs up: the daemon goes on; then a signal stops it. *)
Definition hangup : DaemonBugs.oracle := fun n c =>
  match c return answer c with
  | CClose _ => tt | CSend _ bs => zlen bs | CRead1 _ => inr (-1) | CPeek _ => -1 | CGrow _ => true
  | CRecv _ k => None | CCapture _ _ => tt | CTx _ _ _ _ => 0 | CAccept => 4
  | CPoll fds => Some (Ready (Nat.leb 6 n) false (Nat.eqb n 0) (map (fun _ => true) fds))
  | CProcess => ([], 0)
  | CUninit => false
  end.
Lemma hangup_ok : forall n c, allowed c (hangup n c).
Proof. intros n []; cbn; try exact I; try lia. - rewrite map_length. reflexivity. - constructor. Qed.
Example C82_case : (exists tr x, exec (run_daemon 3 (start 8 false) false) tr (Some x) /\ closes tr = [4]) /\
  exists tr, exec (run_daemon 4 (start 8 false) false) tr None /\ closes tr = [4].
Proof.
  split.
  - destruct (DaemonBugs.play hangup 0 (run_daemon 3 (start 8 false) false)) as [[tr r]|] eqn:E; [|vm_compute in E; discriminate].
    pose proof (DaemonBugs.play_exec _ hangup hangup_ok _ _ _ _ E) as X. vm_compute in E. injection E as <- <-.
    eexists _, _. split; [exact X|reflexivity].
  - destruct (DaemonBugs.play hangup 0 (run_daemon 4 (start 8 false) false)) as [[tr r]|] eqn:E; [|vm_compute in E; discriminate].
    pose proof (DaemonBugs.play_exec _ hangup hangup_ok _ _ _ _ E) as X. vm_compute in E. injection E as <- <-.
    eexists _. split; [exact X|reflexivity].
Qed.

(** ** SIGPIPE *)
(** sendmsg is called without MSG_NOSIGNAL (mctp-demux-daemon.c:146) and SIGPIPE is left to its
    default action (470-478): a send to a client that has hung up ends the process.
    [piped p tr fd bs]: after [tr], [p] sends [bs] to [fd], which has hung up. *)
Fixpoint piped {A} (p : prog A) (tr : list ev) (fd : Z) (bs : list Z) : Prop :=
  match p with
  | Ret _ | Crash => False
  | Do c k => (tr = [] /\ c = CSend fd bs) \/ exists a t, tr = Ev c a :: t /\ allowed c a /\ piped (k a) t fd bs
  end.
(** A send that went well. *)
Definition whole_send (e : ev) : Prop := exists fd bs, e = Ev (CSend fd bs) (zlen bs).

Lemma piped_left {A B} (p : prog A) (f : A -> prog B) fd bs : forall tr, piped p tr fd bs -> piped (bind p f) tr fd bs.
Proof.
  induction p as [a| |c k IH]; intros tr H; cbn [piped bind] in *; [destruct H|destruct H|].
  destruct H as [H|(a & t & -> & Ha & H)]; [left; exact H|]. right. exists a, t. auto.
Qed.
Lemma piped_right {A B} (p : prog A) (f : A -> prog B) fd bs a : forall t1 t2, exec p t1 a -> piped (f a) t2 fd bs ->
  piped (bind p f) (t1 ++ t2) fd bs.
Proof.
  induction p as [x| |c k IH]; intros t1 t2 H H2; cbn [exec bind] in *.
  - destruct H as [-> <-]. exact H2.
  - destruct H.
  - destruct H as (b & t & -> & Hb & H). cbn [piped]. right. exists b, (t ++ t2). cbn [Datatypes.app]. split; [reflexivity|]. auto.
Qed.
Lemma piped_forward c eid t msg : c_type c = t -> forall l p fuel x rm, d_clients x = p ++ l -> (length l <= fuel)%nat -> In c l ->
  exists tr, piped (forward_loop fuel (length p) x eid t msg rm) tr (c_sock c) (eid :: msg) /\ Forall whole_send tr.
Proof.
  intros Ht. induction l as [|b l IH]; intros p fuel x rm E F Hin; [destruct Hin|].
  destruct fuel as [|fuel]; [cbn in F; lia|]. cbn [length] in F. cbn [forward_loop].
  assert (nth_error (d_clients x) (length p) = Some b) as Hn by (rewrite E, nth_error_app2, Nat.sub_diag by lia; reflexivity).
  assert (Nat.ltb (length p) (length (d_clients x)) = true) as -> by (apply Nat.ltb_lt, nth_error_Some; congruence).
  unfold client_at. rewrite Hn. cbn [bind].
  assert (Hnext : forall rm', In c l -> exists tr, piped (forward_loop fuel (S (length p)) x eid t msg rm') tr (c_sock c) (eid :: msg) /\ Forall whole_send tr).
  { intros rm' Hl. destruct (IH (p ++ [b]) fuel x rm') as (tr & H1 & H2); [rewrite <- app_assoc; exact E|lia|exact Hl|].
    rewrite app_length, Nat.add_1_r in H1. exists tr. auto. }
  destruct (c_type b =? t) eqn:Eb; cbn [negb].
  - destruct Hin as [->|Hin].
    + exists []. split; [cbn; left; auto|constructor].
    + destruct (Hnext rm Hin) as (tr & H1 & H2). exists (Ev (CSend (c_sock b) (eid :: msg)) (zlen (eid :: msg)) :: tr). split.
      * cbn [bind ask piped]. right. exists (zlen (eid :: msg)), tr. split; [reflexivity|]. split; [exact I|].
        rewrite zlen_cons. replace (zlen msg + 1 =? zlen msg + 1) with true by lia.
        replace (1 + zlen msg =? zlen msg + 1) with true by lia. exact H1.
      * constructor; [|exact H2]. eexists _, _. reflexivity.
  - destruct Hin as [->|Hin]; [apply Z.eqb_neq in Eb; contradiction|]. now apply Hnext.
Qed.
Lemma in_step_run : forall n x chg tr x1 chg1, DaemonRun.in_step x chg -> exec (run_daemon n x chg) tr (Some (x1, chg1)) ->
  DaemonRun.in_step x1 chg1.
Proof.
  induction n as [|n IH]; intros x chg tr x1 chg1 S H; cbn [run_daemon] in H.
  - destruct H as [_ H]. injection H as -> ->. exact S.
  - ex_bind H t1 t2 z H1 H2. destruct z as [[x2 chg2]|]; [|destruct H2; discriminate].
    eapply IH; [|exact H2]. eapply DaemonRun.round_in_step; eassumption.
Qed.
Lemma piped_next fd bs t : forall n x chg tr x1 chg1, exec (run_daemon n x chg) tr (Some (x1, chg1)) ->
  piped (daemon_round x1 chg1) t fd bs -> piped (run_daemon (S n) x chg) (tr ++ t) fd bs.
Proof.
  induction n as [|n IH]; intros x chg tr x1 chg1 H Hp.
  - destruct H as [-> H]. injection H as -> ->. cbn [run_daemon Datatypes.app]. apply piped_left. exact Hp.
  - cbn [run_daemon] in H. ex_bind H t1 t2 z H1 H2. destruct z as [[x2 chg2]|]; [|destruct H2; discriminate].
    rewrite <- app_assoc. change (run_daemon (S (S n)) x chg) with (let* r := daemon_round x chg in
      match r with None => Ret None | Some (x1, chg1) => run_daemon (S n) x1 chg1 end).
    eapply piped_right; [exact H1|]. cbv iota. eapply IH; eassumption.
Qed.

(** A client that has announced a type hangs up, and a message of that type arrives before the
    daemon polls again: the daemon is killed, whatever poll says about the clients. *)
Theorem C82_killed : forall eid cap n tr x chg c src msg sk rv u,
  exec (run_daemon n (start eid cap) false) tr (Some (x, chg)) -> In c (d_clients x) ->
  2 <= zlen msg -> hd 0 msg = c_type c -> is_byte src -> Forall is_byte msg -> length rv = length (d_clients x) ->
  exists fds t, Forall whole_send t /\
    piped (run_daemon (S n) (start eid cap) false)
      (tr ++ Ev (CPoll fds) (Some (Ready false true sk rv)) :: Ev CProcess ([Msg src msg], 0) :: Ev CUninit u :: t)
      (c_sock c) (src :: msg).
Proof.
  intros eid cap n tr x chg c src msg sk rv u H Hin Hm Hh Hs Hb Hrv.
  assert (DaemonRun.in_step x chg) as S. { eapply in_step_run; [|exact H]. right. cbn. lia. }
  set (x0 := if chg then set_fds x (map c_sock (d_clients x)) else x).
  assert (d_clients x0 = d_clients x) as E0 by (unfold x0; destruct chg; reflexivity).
  assert ((length (d_clients x0) <= length (d_fds x0))%nat) as L.
  { unfold x0. destruct S as [-> | S]; [cbn; rewrite map_length; lia|destruct chg; cbn; rewrite ?map_length; lia]. }
  destruct (piped_forward c src (hd 0 msg) msg (eq_sym Hh) (d_clients x0) [] (length (d_clients x0)) x0 u eq_refl ltac:(lia))
    as (t & Hp & Ht); [rewrite E0; exact Hin|].
  exists (firstn (length (d_clients x0)) (d_fds x0)), t. split; [exact Ht|].
  eapply piped_next; [exact H|]. unfold daemon_round. fold x0. cbv zeta. rewrite (proj2 (Nat.leb_le _ _) L). cbn [negb].
  cbn [bind ask piped]. right. eexists _, _. split; [reflexivity|]. split.
  { cbn. rewrite firstn_length, E0 in *. lia. }
  cbn [r_signal r_binding]. apply piped_left. cbn [bind ask piped]. right. eexists _, _. split; [reflexivity|].
  split; [apply Forall_cons; [split; assumption|apply Forall_nil]|]. apply piped_left. cbn [deliver]. apply piped_left. cbn [m_src m_bytes].
  unfold rx_message. replace (zlen msg <? 2) with false by lia. cbn [bind ask piped]. right. exists u, t.
  split; [reflexivity|]. split; [exact I|]. apply piped_left. exact Hp.
Qed.

Lemma progress {A} (p : prog A) : ~ crashes p -> exists tr r, exec p tr r.
Proof.
  induction p as [a| |c k IH]; intros H.
  - exists [], a. split; reflexivity.
  - destruct H. exact I.
  - destruct (IH (hangup 0%nat c)) as (tr & r & Hr).
    { intros Hc. apply H. exists (hangup 0%nat c). split; [apply hangup_ok|exact Hc]. }
    exists (Ev c (hangup 0%nat c) :: tr), r. exists (hangup 0%nat c), tr. split; [reflexivity|]. split; [apply hangup_ok|exact Hr].
Qed.
(** Up to there it did nothing that it does not also do when the send merely fails or succeeds: what
    is proved of complete runs covers it. *)
Theorem C82_prefix : forall eid cap n tr fd bs a,
  piped (run_daemon n (start eid cap) false) tr fd bs ->
  exists t r, exec (run_daemon n (start eid cap) false) (tr ++ Ev (CSend fd bs) a :: t) r.
Proof.
  intros eid cap n tr fd bs a. pose proof (DaemonRun.C50_tables eid cap n) as Hs. revert Hs.
  generalize (run_daemon n (start eid cap) false). intros p. revert tr a. induction p as [x| |c k IH]; intros tr a Hs H; cbn [piped] in H.
  - destruct H.
  - destruct H.
  - destruct H as [[-> ->]|(b & t & -> & Hb & H)].
    + destruct (progress (k a)) as (t & r & Hr). { intros Hc. apply Hs. exists a. split; [exact I|exact Hc]. }
      exists t, r, a, t. split; [reflexivity|]. split; [exact I|exact Hr].
    + destruct (IH b t a) as (t2 & r & Hr); [|exact H|].
      { intros Hc. apply Hs. exists b. auto. }
      exists t2, r, b, (t ++ Ev (CSend fd bs) a :: t2). split; [reflexivity|]. auto.
Qed.

(** A case: a client that announced type 5. *)
Definition joins : DaemonBugs.oracle := fun n c =>
  match c return answer c with
  | CClose _ => tt | CSend _ bs => zlen bs | CRead1 _ => inl 5 | CPeek _ => 3 | CGrow _ => true
  | CRecv _ k => None | CCapture _ _ => tt | CTx _ _ _ _ => 0 | CAccept => 4
  | CPoll fds => Some (Ready false false (Nat.eqb n 0) (map (fun _ => true) fds))
  | CProcess => ([], 0)
  | CUninit => false
  end.
Lemma joins_ok : forall n c, allowed c (joins n c).
Proof. intros n []; cbn; try exact I; try lia. - unfold is_byte; lia. - rewrite map_length. reflexivity. - constructor. Qed.
Example C82_killed_case : exists tr x chg, exec (run_daemon 2 (start 8 false) false) tr (Some (x, chg)) /\
  In (Client true 4 5) (d_clients x).
Proof.
  destruct (DaemonBugs.play joins 0 (run_daemon 2 (start 8 false) false)) as [[tr r]|] eqn:E; [|vm_compute in E; discriminate].
  pose proof (DaemonBugs.play_exec _ joins joins_ok _ _ _ _ E) as X. vm_compute in E. injection E as <- <-.
  eexists _, _, _. split; [exact X|]. left. reflexivity.
Qed.
