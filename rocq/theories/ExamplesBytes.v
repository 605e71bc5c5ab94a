(** ExamplesBytes: two sides whose window accesses interleave byte by byte; the hypotheses
    of C69 hold of them. *)
From Verif Require Import Base Lists Prog PktBuf Core CoreHist Spec SpecRx Crc Astlpc SpecAst AstBasic PropAst Concrete TwoParty PropDuo
  SpecDuo PropDuoMsg ExamplesDuo SpecLive DuoLive PropLive ExamplesLive PropPollfd ExamplesPollfd TwoBytes PropBytes.

Definition fsess : Type := (bool -> party) * fine.
Definition fturn (s : bool) (c : fsess) : fsess :=
  match fadvance s (f_sh (snd c)) (f_prog (snd c) s) (f_acc (snd c) s) with
  | Some (sh, p, a, t) => (fst c, mkFine sh (upd (f_prog (snd c)) s p) (upd (f_acc (snd c)) s a) (upd (f_tr (snd c)) s (f_tr (snd c) s ++ t)))
  | None => c
  end.
Definition fret (s : bool) (c : fsess) : option (world astlpc) :=
  match f_prog (snd c) s with Ret w => if bd_bus (bnd w false) then Some w else None | _ => None end.
Definition fcall (s : bool) (o : aop) (c : fsess) : fsess :=
  match fret s c with Some w => (upd (fst c) s (more (fst c s) o), fbegin s w o (fst c) (snd c)) | None => c end.
(** A side that poll(2) wakes calls mctp_astlpc_poll, one in a call makes a step. *)
Definition tick (s : bool) (c : fsess) : fsess :=
  if readyb s (fst c, seen (snd c)) then fcall s poll1 c else fturn s c.
Fixpoint ticks (n : nat) (c : fsess) : fsess := match n with O => c | S k => ticks k (tick false (tick true c)) end.

Definition p0f : bool -> party := pair (mkParty echo 200 8 []) (mkParty no_app 64 9 []).
Fixpoint alone (n : nat) (s : bool) (c : fsess) : fsess := match n with O => c | S k => alone k s (fturn s c) end.
Definition e0 : fsess := alone 300 false (alone 300 true (p0f, fine_start p0f 0 0 (fun _ => 0))).
Definition e1 : fsess := ticks 300 (fcall true (ACore (OpSetRx true)) (fcall false (ACore (OpSetRx true)) e0)).
Definition e2 : fsess := fcall true (tx1 9 msg66) (fcall false (tx1 8 msg66) e1).
Definition e3 : fsess := ticks 40 e2.
Definition e4 : fsess := ticks 500 e2.

Lemma fturn_moves s p f c : fmoves p f (fst c) (snd c) -> fmoves p f (fst (fturn s c)) (snd (fturn s c)).
Proof.
  intros M. unfold fturn. destruct (fadvance _ _ _ _) as [[[[sh q] a] t]|] eqn:E; [|exact M]. cbn [fst snd].
  eapply FmStep; [exact M|]. exists sh, q, a, t. split; [exact E|reflexivity].
Qed.
Lemma fcall_moves s o p f c : ast_traffic o -> fmoves p f (fst c) (snd c) -> fmoves p f (fst (fcall s o c)) (snd (fcall s o c)).
Proof.
  intros Ho M. unfold fcall, fret. destruct (f_prog (snd c) s) eqn:E; try exact M.
  destruct (bd_bus (bnd a false)) eqn:Eb; [|exact M]. cbn [fst snd]. eapply FmCall; eassumption.
Qed.
Lemma tick_moves s p f c : fmoves p f (fst c) (snd c) -> fmoves p f (fst (tick s c)) (snd (tick s c)).
Proof. intros M. unfold tick. destruct (readyb _ _); [apply fcall_moves; [reflexivity|exact M]|now apply fturn_moves]. Qed.
Lemma ticks_moves n : forall p f c, fmoves p f (fst c) (snd c) -> fmoves p f (fst (ticks n c)) (snd (ticks n c)).
Proof. induction n as [|n IH]; intros p f c M; cbn [ticks]; [exact M|]. apply IH. now apply tick_moves, tick_moves. Qed.
Lemma alone_moves n s : forall p f c, fmoves p f (fst c) (snd c) -> fmoves p f (fst (alone n s c)) (snd (alone n s c)).
Proof. induction n as [|n IH]; intros p f c M; cbn [alone]; [exact M|]. apply IH. now apply fturn_moves. Qed.
Lemma e2_moves : fmoves p0f (fine_start p0f 0 0 (fun _ => 0)) (fst e2) (snd e2).
Proof.
  unfold e2. do 2 (apply fcall_moves; [exact I|]). unfold e1. apply ticks_moves. do 2 (apply fcall_moves; [exact I|]).
  unfold e0. apply (alone_moves 300), (alone_moves 300). apply FmRefl.
Qed.
Lemma session_of c : fmoves p0f (fine_start p0f 0 0 (fun _ => 0)) (fst c) (snd c) -> fsession (fst c) (snd c).
Proof. intros M. exists p0f, 0, 0, (fun _ => 0). split; [intros []; reflexivity|]. split; [right; cbn; lia|exact M]. Qed.
Lemma fset_in (c : fsess) s : existsb (fun e => match e with EvSetTx false true => true | _ => false end) (f_tr (snd c) s) = true ->
  enabled (seen (snd c)) s.
Proof. intros H. exact (in_set _ H). Qed.

(** Both sides in the middle of writing a packet at the same time, 29 bytes each: *)
Example C69_example_middle : fsession (fst e3) (snd e3) /\ compatible (fst e3) /\
  (forall s, zlen (f_acc (snd e3) s) = 29 /\ exists off bs k, f_prog (snd e3) s = LWrite off bs k).
Proof.
  split; [apply session_of, (ticks_moves 40), e2_moves|]. split; [unfold compatible; vm_compute; intuition discriminate|].
  intros s. split; [destruct s; vm_compute; reflexivity|].
  assert (match f_prog (snd e3) s with LWrite _ _ _ => true | _ => false end = true) as H by (destruct s; vm_compute; reflexivity).
  destruct (f_prog (snd e3) s); try discriminate. eauto.
Qed.

Lemma small_msgs l : forallb (fun r => zlen (r_msg r) <=? 65536) l = true -> Forall (fun r => zlen (r_msg r) <= 65536) l.
Proof. intros H. rewrite forallb_forall in H. apply Forall_forall. intros r Hr. specialize (H r Hr). lia. Qed.

(** and later both asleep, having been given all that the other asked to transmit: the BMC
    the host's message, the host the BMC's message and the echo of its own. *)
Example C69_example : fsession (fst e4) (snd e4) /\ compatible (fst e4) /\ (forall s, enabled (seen (snd e4)) s) /\
  (forall s, sleeps (seen (snd e4)) s) /\ (forall s, listening (p_calls (fst e4 s))) /\
  (forall s, Forall (fun r => zlen (r_msg r) <= 65536) (said_by (fst e4) (seen (snd e4)) s)) /\
  zlen (heard (f_tr (snd e4) true)) = 1 /\ zlen (heard (f_tr (snd e4) false)) = 2.
Proof.
  split; [apply session_of, (ticks_moves 500), e2_moves|]. split; [unfold compatible; vm_compute; intuition discriminate|].
  split; [intros []; apply fset_in; vm_compute; reflexivity|].
  split; [intros []; apply (asleepb_spec _ (fst e4, seen (snd e4))); vm_compute; reflexivity|].
  split; [intros []; eexists; (split; [vm_compute; reflexivity|repeat constructor])|].
  split; [intros s; apply small_msgs; destruct s; vm_compute; reflexivity|].
  split; vm_compute; reflexivity.
Qed.
