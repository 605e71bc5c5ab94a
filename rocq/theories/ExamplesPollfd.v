(** ExamplesPollfd: two sides driven by poll(2); the hypotheses of C68 hold of them. *)
From Verif Require Import Base Lists Prog PktBuf Core CoreHist Spec Crc Astlpc SpecAst AstBasic PropAst Concrete TwoParty PropDuo
  SpecDuo PropDuoMsg ExamplesDuo SpecLive DuoLive PropLive ExamplesLive PropPollfd.

Definition none {A} (o : option A) : bool := match o with None => true | _ => false end.
Definition readyb (s : bool) (c : sess) : bool :=
  match at_ret s (snd c) with
  | Some w => bd_bus (bnd w false) &&
      (if pollfd_out (ast w false) then none (unread s (s_kcs (d_sh (snd c)))) else negb (none (unread (negb s) (s_kcs (d_sh (snd c))))))
  | None => false
  end.
(** Both sides in turn: sleep, or one call of mctp_astlpc_poll; the number of calls. *)
Definition wake (s : bool) (c : sess * (bool -> nat)) : sess * (bool -> nat) :=
  if readyb s (fst c) then (make s poll1 (fst c), upd (snd c) s (S (snd c s))) else c.
Fixpoint drive (n : nat) (c : sess * (bool -> nat)) : sess * (bool -> nat) :=
  match n with O => c | S k => drive k (wake false (wake true c)) end.

Lemma fin_driven f s p d n q : forall e, driven p d n q e -> driven p d n q (fin f s e).
Proof.
  induction f as [|f IH]; intros e D; cbn [fin]; [exact D|]. destruct (at_ret s e); [exact D|]. apply IH. unfold turn.
  destruct (advance s (d_sh e) (d_prog e s)) as [[[sh r] t]|] eqn:E; [|exact D].
  eapply DvStep; [exact D|]. exists sh, r, t. split; [exact E|reflexivity].
Qed.
Lemma none_spec {A} (o : option A) : none o = true <-> o = None.
Proof. destruct o; cbn; split; congruence. Qed.
Lemma readyb_spec s c : readyb s c = true <->
  exists w, d_prog (snd c) s = Ret w /\ bd_bus (bnd w false) = true /\ ready s (ast w false) (s_kcs (d_sh (snd c))).
Proof.
  unfold readyb, at_ret, ready. destruct (d_prog (snd c) s) as [w| | | | | | | |];
    try (split; [discriminate|intros (w & H & _); discriminate]).
  split.
  - intros H. apply andb_prop in H as [H1 H2]. exists w. split; [reflexivity|]. split; [exact H1|].
    destruct (pollfd_out (ast w false)); [now apply none_spec|]. intros E. apply none_spec in E. rewrite E in H2. discriminate.
  - intros (w' & E & H1 & H2). injection E as <-. rewrite H1. cbn [andb]. destruct (pollfd_out (ast w false)); [now apply none_spec|].
    destruct (unread _ _); [reflexivity|tauto].
Qed.
Lemma wake_driven s p d (c : sess) n : driven p d n (fst c) (snd c) ->
  driven p d (snd (wake s (c, n))) (fst (fst (wake s (c, n)))) (snd (fst (wake s (c, n)))).
Proof.
  intros D. unfold wake. cbn [fst snd]. destruct (readyb s c) eqn:Er; [|exact D]. cbn [fst snd].
  apply readyb_spec in Er as (w & E & Eb & Hr). unfold make, at_ret. rewrite E, Eb. cbn [fst snd].
  apply fin_driven. exact (DvPoll _ _ s w n _ _ D E Eb Hr).
Qed.
Lemma drive_driven k : forall p d (c : sess) n, driven p d n (fst c) (snd c) ->
  driven p d (snd (drive k (c, n))) (fst (fst (drive k (c, n)))) (snd (fst (drive k (c, n)))).
Proof.
  induction k as [|k IH]; intros p d c n D; cbn [drive]; [exact D|].
  pose proof (wake_driven true _ _ _ _ D) as D1. destruct (wake true (c, n)) as [c1 n1]. cbn [fst snd] in D1.
  pose proof (wake_driven false _ _ _ _ D1) as D2. destruct (wake false (c1, n1)) as [c2 n2]. cbn [fst snd] in D2.
  exact (IH p d c2 n2 D2).
Qed.
Definition asleepb (s : bool) (c : sess) : bool := can s c && negb (readyb s c).
Lemma asleepb_spec s c : asleepb s c = true -> sleeps (snd c) s.
Proof.
  unfold asleepb, can, at_ret. intros H. apply andb_prop in H as [H1 H2].
  destruct (d_prog (snd c) s) as [w| | | | | | | |] eqn:E; try discriminate. exists w. split; [exact E|]. split; [exact H1|].
  intros Hr. assert (readyb s c = true) as Ht by (apply readyb_spec; exists w; auto). rewrite Ht in H2. discriminate.
Qed.

(** From [c1], where the host has queued a message of two packets and the BMC's
    application will echo it. *)
Definition c3 : sess * (bool -> nat) := drive 30 (c1, fun _ => O).

Example C68_example : session (fst (fst c3)) (snd (fst c3)) /\ compatible (fst (fst c3)) /\ (forall s, enabled (snd (fst c3)) s) /\
  driven (fst c1) (snd c1) (snd c3) (fst (fst c3)) (snd (fst c3)) /\
  (forall s, sleeps (snd (fst c3)) s) /\
  (* the BMC was woken five times and the host four times, for three packets (the host
     had passed the first to its binding before) *)
  snd c3 true = 5%nat /\ snd c3 false = 4%nat /\ passed (snd (fst c3)) - passed (snd c1) = 3 /\
  zlen (accepted (snd (fst c3)) false) = 2 /\ zlen (accepted (snd (fst c3)) true) = 2 /\
  (* at the start the BMC's descriptor was ready, so not everybody slept *)
  readyb true c1 = true.
Proof.
  assert (driven (fst c1) (snd c1) (snd c3) (fst (fst c3)) (snd (fst c3))) as D.
  { unfold c3. apply (drive_driven 30). apply DvRefl. }
  pose proof (driven_moves _ _ _ _ _ D) as M.
  split; [exact (session_moves _ _ _ _ c1_session M)|]. split; [exact (compatible_moves _ _ _ _ c1_compatible M)|].
  split; [intros s; exact (enabled_more _ _ _ _ s M (c1_enabled s))|]. split; [exact D|].
  split; [intros []; apply asleepb_spec; vm_compute; reflexivity|].
  do 5 (split; [vm_compute; reflexivity|]). vm_compute. reflexivity.
Qed.

(** The channel must have been brought up: during the handshake the wake-up of the host can
    be lost (C54), and then both sides sleep for ever: the host's poll, begun when its
    descriptor was ready, has read the status before the BMC's poll announces the channel,
    and takes the BMC's notification after it. *)
Definition lost0 : sess := (pz, fin 2000 false (fin 2000 true (d0 pz))).
Definition host_begins (c : sess) : sess :=
  match at_ret false (snd c) with
  | Some w => (upd (fst c) false (more (fst c false) poll1), turn false (begin_call false w poll1 (fst c) (snd c)))
  | None => c
  end.

Lemma begins_driven c : readyb false c = true ->
  driven (fst c) (snd c) (upd (fun _ => O) false 1%nat) (fst (host_begins c)) (snd (host_begins c)).
Proof.
  intros Hr. unfold host_begins. apply readyb_spec in Hr as (w & E & Eb & Hr). unfold at_ret. rewrite E. cbn [fst snd].
  pose proof (DvPoll _ _ false w _ _ _ (DvRefl (fst c) (snd c)) E Eb Hr) as D. cbn beta in D.
  unfold turn. destruct (advance _ _ _) as [[[sh r] t]|] eqn:Ea; [|exact D].
  eapply DvStep; [exact D|]. exists sh, r, t. split; [exact Ea|reflexivity].
Qed.
Lemma make_driven p d n c : driven p d n (fst c) (snd c) -> readyb true c = true ->
  driven p d (upd n true (S (n true))) (fst (make true poll1 c)) (fin 2000 false (snd (make true poll1 c))).
Proof.
  intros D Hr. apply fin_driven. pose proof (wake_driven true _ _ _ _ D) as W. unfold wake in W. cbn [fst snd] in W.
  rewrite Hr in W. exact W.
Qed.
Lemma not_enabled d s : existsb (fun e => match e with EvSetTx false true => true | _ => false end) (d_tr d s) = false -> ~ enabled d s.
Proof.
  intros H He. unfold enabled in He. assert (existsb (fun e => match e with EvSetTx false true => true | _ => false end) (d_tr d s) = true) as Ht.
  { apply existsb_exists. exists (EvSetTx false true). split; [exact He|reflexivity]. }
  congruence.
Qed.
Lemma lost0_session : session (fst lost0) (snd lost0).
Proof.
  exists pz, 0, 0, (fun _ => 0). split; [intros [|]; reflexivity|]. split; [right; cbn; lia|].
  eapply moves_trans; apply fin_moves.
Qed.
Lemma lost0_compatible : compatible (fst lost0).
Proof. unfold compatible. cbn. lia. Qed.
Definition lost (c : sess) : sess := (fst (make true poll1 (host_begins c)), fin 2000 false (snd (make true poll1 (host_begins c)))).
Definition once : bool -> nat := upd (upd (fun _ => O) false 1%nat) true 1%nat.
Lemma lost_driven c : readyb false c = true -> readyb true (host_begins c) = true ->
  driven (fst c) (snd c) once (fst (lost c)) (snd (lost c)).
Proof. intros H1 H2. exact (make_driven _ _ _ (host_begins c) (begins_driven c H1) H2). Qed.

Theorem C68_handshake_refuted : exists p d n, session p d /\ compatible p /\
  driven (fst lost0) (snd lost0) n p d /\ n true = 1%nat /\ n false = 1%nat /\
  (forall s, sleeps d s) /\ enabled d true /\ ~ enabled d false.
Proof.
  exists (fst (lost lost0)), (snd (lost lost0)), once.
  assert (driven (fst lost0) (snd lost0) once (fst (lost lost0)) (snd (lost lost0))) as D
    by (apply lost_driven; vm_compute; reflexivity).
  pose proof (driven_moves _ _ _ _ _ D) as M.
  split; [exact (session_moves _ _ _ _ lost0_session M)|]. split; [exact (compatible_moves _ _ _ _ lost0_compatible M)|].
  split; [exact D|]. split; [reflexivity|]. split; [reflexivity|].
  split; [intros []; apply asleepb_spec; vm_compute; reflexivity|].
  split; [apply in_set; vm_compute; reflexivity|]. apply not_enabled. vm_compute. reflexivity.
Qed.
