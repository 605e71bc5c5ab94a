(** PropBuf: C81, the receive buffer of the demultiplexing daemon, and its socket capture. *)
From Verif Require Import Base Lists Daemon PropDaemon DaemonMon.
From Verif Require DaemonRun DaemonBugs.

(** ** Specification *)
(** The size of the receive buffer: 4096 bytes (mctp-demux-daemon.c:639-640), or what realloc
    last gave. *)
Definition allocated (tr : list ev) : Z :=
  fold_left (fun n e => match e with
    | Ev c a => match c return answer c -> Z with CGrow k => fun a => if a : bool then k else n | _ => fun _ => n end a
    end) tr 4096.
Definition grows (e : ev) : Prop := match e with Ev (CGrow _) _ => True | _ => False end.
(** What was written to the capture file for the sockets: the datagram and its first byte. *)
Definition captured (tr : list ev) : list (list Z * Z) :=
  flat_map (fun e => match e with Ev (CCapture bs d) _ => [(bs, d)] | _ => [] end) tr.
Definition capture_of (bs : list Z) : list (list Z * Z) := match bs with [] => [] | d :: _ => [(bs, d)] end.

(** ** A monitor *)
Record mon := Mon { m_size : Z; m_last : option (Z * Z); m_due : list (list Z * Z) }.
Definition next (cap : bool) (s : mon) (e : ev) : mon :=
  match e with
  | Ev c a =>
      match c return answer c -> mon with
      | CPeek fd => fun a => Mon (m_size s) (Some (fd, a)) (m_due s)
      | CGrow k => fun a => Mon (if a : bool then k else m_size s) (m_last s) (m_due s)
      | CRecv _ _ => fun a => Mon (m_size s) None (match a with Some bs => if cap then capture_of bs else [] | None => [] end)
      | CCapture _ _ => fun _ => Mon (m_size s) None []
      | _ => fun _ => Mon (m_size s) None (m_due s)
      end a
  end.
Definition ok (s : mon) (e : ev) : Prop :=
  match e with
  | Ev c a =>
      match c with
      | CRecv fd n => m_due s = [] /\ n = m_size s /\ exists len, m_last s = Some (fd, len) /\ len <= n
      | CCapture bs d => m_due s = [(bs, d)]
      | _ => m_due s = []
      end
  end.

Local Notation wpd cap := (mon_wp (next cap) ok).
Local Notation oks cap := (mon_oks (next cap) ok).
Local Notation nexts cap := (mon_run (next cap)).

(** ** The program *)
Section Cap.
Context (cap : bool).
(** The monitor agrees with the daemon. *)
Definition agree (x : ctx) (s : mon) : Prop := m_size s = d_bufsize x /\ m_due s = [] /\ d_capture x = cap.

Lemma wpd_remove : forall f i x s, agree x s -> wpd cap (remove_loop f i x) s agree.
Proof.
  induction f as [|f IH]; intros i x s H; cbn [remove_loop]; [exact H|].
  destruct (Nat.ltb i (length (d_clients x))); [|exact H]. apply mon_bind, mon_client_at. intros c.
  destruct (c_active c); [now apply IH|]. cbn [bind ask mon_wp]. intros a _. destruct H as (H1 & H2 & H3). split; [exact H2|].
  apply IH. split; [exact H1|]. split; [exact H2|exact H3].
Qed.
Lemma wpd_forward : forall f i x eid type msg rm s, agree x s ->
  wpd cap (forward_loop f i x eid type msg rm) s (fun y => agree (fst y)).
Proof.
  induction f as [|f IH]; intros i x eid type msg rm s H; cbn [forward_loop]; [exact H|].
  destruct (Nat.ltb i (length (d_clients x))); [|exact H]. apply mon_bind, mon_client_at. intros c.
  destruct (negb (c_type c =? type)); [now apply IH|]. cbn [bind ask mon_wp]. intros a _. destruct H as (H1 & H2 & H3).
  split; [exact H2|]. destruct (negb (a =? zlen msg + 1)); apply IH; (split; [exact H1|split; [exact H2|exact H3]]).
Qed.
Lemma wpd_rx x eid msg s : agree x s -> wpd cap (rx_message x eid msg) s agree.
Proof.
  intros H. unfold rx_message. destruct (zlen msg <? 2); [exact H|]. cbn [bind ask mon_wp]. intros u _.
  destruct H as (H1 & H2 & H3). split; [exact H2|].
  apply mon_bind. eapply mon_mono; [|apply wpd_forward; split; [exact H1|split; [exact H2|exact H3]]].
  intros [x1 rm] s1 Ha. cbn [fst] in Ha. destruct rm; [now apply wpd_remove|exact Ha].
Qed.
Lemma wpd_deliver : forall ms x s, agree x s -> wpd cap (deliver x ms) s agree.
Proof.
  induction ms as [|m ms IH]; intros x s H; cbn [deliver]; [exact H|]. apply mon_bind.
  eapply mon_mono; [|apply wpd_rx; exact H]. intros x1 s1. apply IH.
Qed.
Lemma wpd_recv x i s : agree x s -> wpd cap (client_process_recv x i) s (fun y => agree (fst y)).
Proof.
  intros (H1 & H2 & H3). unfold client_process_recv. apply mon_bind, mon_client_at. intros c.
  assert (forall y rc s', agree y s' -> wpd cap (out_close y i c rc) s' (fun y => agree (fst y))) as Hout.
  { intros y rc s' (A1 & A2 & A3). cbn. split; [exact A1|split; [exact A2|exact A3]]. }
  destruct (c_type c =? 0).
  { cbn [bind ask mon_wp]. intros a _. split; [exact H2|].
    assert (agree x (next cap s (Ev (CRead1 (c_sock c)) a))) as Ha by (split; [exact H1|split; [exact H2|exact H3]]).
    destruct a as [ty|rc]; [destruct (ty =? 0)|]; [now apply Hout| |now apply Hout].
    destruct Ha as (A1 & A2 & A3). cbn [mon_wp fst]. split; [exact A1|split; [exact A2|exact A3]]. }
  cbn [bind ask mon_wp]. intros len _. split; [exact H2|]. set (s1 := next cap s (Ev (CPeek (c_sock c)) len)).
  assert (agree x s1) as Ha by (split; [exact H1|split; [exact H2|exact H3]]).
  destruct (len <? 0); [now apply Hout|]. apply mon_bind.
  apply mon_mono with (Q := fun y s' => agree (fst y) s' /\ (snd y = true -> m_last s' = Some (c_sock c, len) /\ len <= d_bufsize (fst y))).
  2:{ destruct (d_bufsize x <? len) eqn:El.
      - cbn [bind ask mon_wp]. intros g _. split; [exact H2|]. destruct g; cbn [fst snd].
        + split; [split; [reflexivity|split; [exact H2|exact H3]]|]. intros _. split; [reflexivity|cbn; lia].
        + split; [split; [exact H1|split; [exact H2|exact H3]]|]. discriminate.
      - cbn [mon_wp fst snd]. split; [exact Ha|]. intros _. split; [reflexivity|lia]. }
  intros [y okk] s2 [Hy Hl]. cbn [fst snd] in *. destruct okk; cbn [negb]; [|now apply Hout].
  destruct (Hl eq_refl) as [L1 L2]. destruct Hy as (Y1 & Y2 & Y3). cbn [bind ask mon_wp]. intros r _.
  split; [cbn [ok]; split; [exact Y2|split; [congruence|exists len; split; [exact L1|exact L2]]]|].
  destruct r as [[|eid msg]|]; [| |].
  - apply Hout. split; [exact Y1|split; [|exact Y3]]. cbn. destruct cap; reflexivity.
  - apply mon_bind. apply mon_mono with (Q := fun _ s' => agree y s').
    2:{ rewrite Y3. destruct cap eqn:Ec; cbn [bind ask mon_wp].
        - intros a _. split; [reflexivity|]. split; [exact Y1|split; [reflexivity|congruence]].
        - split; [exact Y1|split; [reflexivity|congruence]]. }
    intros _ s3 Hs3. destruct (eid =? d_eid y).
    + apply mon_bind. eapply mon_mono; [|apply wpd_rx; exact Hs3]. intros x1 s4 H4. exact H4.
    + cbn [bind ask mon_wp fst]. intros a _. destruct Hs3 as (A1 & A2 & A3). split; [exact A2|]. split; [exact A1|split; [exact A2|exact A3]].
  - apply Hout. split; [exact Y1|split; [reflexivity|exact Y3]].
Qed.
Lemma wpd_recvs : forall f i x rv chg s, agree x s -> wpd cap (recv_loop f i x rv chg) s (fun y => agree (fst y)).
Proof.
  induction f as [|f IH]; intros i x rv chg s H; cbn [recv_loop]; [exact H|].
  destruct (Nat.ltb i (length (d_clients x))); [|exact H]. destruct (nth_error rv i) as [[|]|]; [|now apply IH|exact I].
  apply mon_bind. eapply mon_mono; [|apply wpd_recv; exact H]. intros [x1 rc] s1 H1. apply IH. exact H1.
Qed.
Lemma wpd_round x chg s : agree x s ->
  wpd cap (daemon_round x chg) s (fun y s' => m_due s' = [] /\ match y with Some y => agree (fst y) s' | None => True end).
Proof.
  intros H. unfold daemon_round. set (x0 := if chg then set_fds x (map c_sock (d_clients x)) else x).
  assert (agree x0 s) as H0 by (unfold x0; destruct chg; exact H). clearbody x0. clear H.
  destruct (negb (Nat.leb (length (d_clients x0)) (length (d_fds x0)))); [exact I|].
  cbn [bind ask mon_wp]. intros r _. pose proof H0 as (H1 & H2 & H3). split; [exact H2|].
  set (s1 := next _ _ _). assert (agree x0 s1) as Hs1 by (split; [exact H1|split; [exact H2|exact H3]]). clearbody s1.
  assert (m_due s1 = []) as D1 by apply Hs1.
  destruct r as [r|]; [|split; [exact D1|exact I]]. destruct (r_signal r); [split; [exact D1|exact I]|].
  apply mon_bind. apply mon_mono with (Q := fun y => agree (fst y)).
  2:{ destruct (r_binding r); [|exact Hs1]. cbn [bind ask mon_wp]. intros [ms rc] _. split; [exact D1|].
      apply mon_bind. eapply mon_mono; [|apply wpd_deliver; destruct Hs1 as (A & B & C); split; [exact A|split; [exact B|exact C]]].
      intros x1 s2 Hx. exact Hx. }
  intros [x2 rc] s2 Hx2. cbn [fst] in Hx2. destruct (negb (rc =? 0)); [split; [apply Hx2|exact I]|].
  apply mon_bind. eapply mon_mono; [|apply wpd_recvs; exact Hx2]. intros [x3 chg3] s3 Hx3. cbn [fst] in Hx3.
  apply mon_bind. apply mon_mono with (Q := fun y => agree (fst (fst y))).
  2:{ destruct (r_socket r); [|exact Hx3]. apply mon_bind. unfold socket_process. cbn [bind ask mon_wp]. intros fd _. split; [apply Hx3|].
      destruct Hx3 as (A & B & C). destruct (fd <? 0); cbn [mon_wp fst]; (split; [exact A|split; [exact B|exact C]]). }
  intros [[x4 stop] chg4] s4 Hx4. cbn [fst] in Hx4. destruct stop; [split; [apply Hx4|exact I]|].
  apply mon_bind. apply mon_mono with (Q := agree).
  2:{ destruct chg4; [now apply wpd_remove|exact Hx4]. }
  intros x5 s5 Hx5. split; [apply Hx5|exact Hx5].
Qed.
Lemma wpd_run : forall n x chg s, agree x s -> wpd cap (run_daemon n x chg) s (fun _ s' => m_due s' = []).
Proof.
  induction n as [|n IH]; intros x chg s H; cbn [run_daemon]; [apply H|]. apply mon_bind.
  eapply mon_mono; [|apply wpd_round; exact H]. intros [[x1 chg1]|] s1 [H1 H2]; [apply IH; exact H2|exact H1].
Qed.
End Cap.

Lemma nexts_size cap tr : forall s, m_size (nexts cap s tr) =
  fold_left (fun n e => match e with
    | Ev c a => match c return answer c -> Z with CGrow k => fun a => if a : bool then k else n | _ => fun _ => n end a
    end) tr (m_size s).
Proof.
  induction tr as [|e tr IH]; intros s; [reflexivity|]. cbn [mon_run fold_left] in *. fold (nexts cap (next cap s e) tr). rewrite IH.
  f_equal. destruct e as [c a]. destruct c; reflexivity.
Qed.
Lemma nexts_last cap fd len tr : forall s, m_last s = None -> m_last (nexts cap s tr) = Some (fd, len) ->
  exists t0 gs, tr = t0 ++ Ev (CPeek fd) len :: gs /\ Forall grows gs.
Proof.
  induction tr as [|e tr IH] using rev_ind; intros s Hs H; [cbn in H; congruence|].
  unfold mon_run in H. rewrite fold_left_app in H. cbn [fold_left] in H. fold (nexts cap s tr) in H.
  destruct e as [c a]. destruct c; try discriminate H.
  - cbn in H. injection H as -> ->. exists tr, []. auto.
  - cbn in H. destruct (IH s Hs H) as (t0 & gs & -> & Hg). exists t0, (gs ++ [Ev (CGrow n) a]).
    rewrite <- app_assoc. split; [reflexivity|]. apply Forall_app. split; [exact Hg|]. repeat constructor.
Qed.
Lemma capture_count cap tr : forall s, oks cap s tr ->
  m_due s ++ (if cap then flat_map capture_of (received tr) else []) = captured tr ++ m_due (nexts cap s tr).
Proof.
  induction tr as [|e tr IH]; intros s H; [destruct cap; cbn; rewrite ?app_nil_r; reflexivity|]. destruct H as [H1 H2]. specialize (IH _ H2).
  cbn [mon_run fold_left]. fold (nexts cap (next cap s e) tr).
  replace (captured (e :: tr)) with (captured [e] ++ captured tr) by (unfold captured; cbn [flat_map]; now rewrite app_nil_r). rewrite <- app_assoc, <- IH.
  replace (received (e :: tr)) with (recvd e ++ received tr) by reflexivity. rewrite flat_map_app. clear IH H2.
  destruct e as [c a]. destruct c; cbn [ok] in H1; cbn [recvd flat_map captured next m_due Datatypes.app]; try (rewrite H1; reflexivity).
  destruct H1 as [H1 _]. rewrite H1. destruct a as [bs|]; [|destruct cap; reflexivity]. destruct cap; [|reflexivity]. cbn [flat_map]. rewrite app_nil_r. reflexivity.
Qed.

Lemma agreed eid cap n : wpd cap (run_daemon n (start eid cap) false) (Mon 4096 None []) (fun _ s' => m_due s' = []).
Proof. apply wpd_run. split; [reflexivity|]. split; reflexivity. Qed.

(** *** C81.  Whenever the daemon receives from a client, it passes recv the size of its buffer as
    it is, right after having asked for the length of the waiting message (and grown the
    buffer if needed), and that length fits: recv neither writes behind the buffer nor
    truncates the message. *)
Theorem C81_whole : forall eid cap n t1 fd size a t2 r,
  exec (run_daemon n (start eid cap) false) (t1 ++ Ev (CRecv fd size) a :: t2) r ->
  size = allocated t1 /\
  exists t0 len gs, t1 = t0 ++ Ev (CPeek fd) len :: gs /\ Forall grows gs /\ len <= size.
Proof.
  intros eid cap n t1 fd size a t2 r H.
  destruct (mon_sound (next cap) ok _ (Mon 4096 None []) _ _ _ (agreed eid cap n) H) as [Hk _].
  apply mon_oks_app in Hk. destruct Hk as [_ [(_ & Hs & len & Hl & Hle) _]]. rewrite nexts_size in Hs. split; [exact Hs|].
  destruct (nexts_last cap fd len t1 (Mon 4096 None []) eq_refl Hl) as (t0 & gs & Et & Hg). exists t0, len, gs. auto.
Qed.

(** With a capture file for the sockets every message received from a client is recorded,
    once, in order, with its destination; without one nothing is. *)
Theorem C81_capture : forall eid cap n tr r,
  exec (run_daemon n (start eid cap) false) tr r ->
  captured tr = if cap then flat_map capture_of (received tr) else [].
Proof.
  intros eid cap n tr r H.
  destruct (mon_sound (next cap) ok _ (Mon 4096 None []) _ _ _ (agreed eid cap n) H) as [Hk Hd].
  pose proof (capture_count cap tr _ Hk) as Hc. rewrite Hd, app_nil_r in Hc. symmetry. exact Hc.
Qed.

(** A case: a client announces type 5 and sends 5000 bytes to EID 9; the buffer grows, and everything is captured. *)
Definition big : list Z := 9 :: 5 :: repeat 1 4998.
Definition long : DaemonBugs.oracle := fun n c =>
  match c return answer c with
  | CClose _ => tt | CSend _ bs => zlen bs | CRead1 _ => inl 5 | CPeek _ => 5000 | CGrow _ => true
  | CRecv _ k => if 5000 <=? k then Some big else None
  | CCapture _ _ => tt | CTx _ _ _ _ => 0 | CAccept => 4
  | CPoll fds => Some (Ready false false (Nat.eqb n 0) (map (fun _ => true) fds))
  | CProcess => ([], 0)
  | CUninit => false
  end.
Lemma big_ok : zlen big = 5000 /\ Forall is_byte big.
Proof.
  split; [vm_compute; reflexivity|]. constructor; [unfold is_byte; lia|]. constructor; [unfold is_byte; lia|].
  apply Forall_forall. intros z Hz. apply repeat_spec in Hz. subst. unfold is_byte. lia.
Qed.
Lemma long_ok : forall n c, allowed c (long n c).
Proof.
  intros n []; cbn [allowed long]; try exact I; try lia.
  - unfold is_byte. lia.
  - destruct (5000 <=? n0) eqn:E; [|exact I]. destruct big_ok as [-> H]. split; [lia|exact H].
  - cbn. rewrite map_length. reflexivity.
  - constructor.
Qed.
Example C81_case : exists tr r, exec (run_daemon 3 (start 8 true) false) tr r /\
  received tr = [big] /\ captured tr = [(big, 9)] /\ allocated tr = 5000.
Proof.
  destruct (DaemonBugs.play long 0 (run_daemon 3 (start 8 true) false)) as [[tr r]|] eqn:E; [|vm_compute in E; discriminate].
  pose proof (DaemonBugs.play_exec _ long long_ok _ _ _ _ E) as X. vm_compute in E. injection E as <- <-.
  eexists _, _. split; [exact X|]. vm_compute. auto.
Qed.
