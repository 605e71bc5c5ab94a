(** ExamplesLive: a concrete session; the hypotheses of C57 hold of it. *)
From Verif Require Import Base Lists Prog PktBuf Core CoreHist Spec Crc Astlpc SpecAst AstBasic PropAst Concrete TwoParty PropDuo
  SpecDuo PropDuoMsg ExamplesDuo SpecLive DuoLive PropLive.

Definition at_ret (s : bool) (d : duo) : option (world astlpc) :=
  match d_prog d s with Ret w => Some w | _ => None end.
Fixpoint fin (fuel : nat) (s : bool) (d : duo) : duo :=
  match fuel with
  | O => d
  | S f => match at_ret s d with Some _ => d | None => fin f s (turn s d) end
  end.
Definition sess : Type := (bool -> party) * duo.
(** Side [s] makes call [o] and returns from it. *)
Definition make (s : bool) (o : aop) (c : sess) : sess :=
  match at_ret s (snd c) with
  | Some w => if bd_bus (bnd w false)
              then (upd (fst c) s (more (fst c s) o), fin 2000 s (begin_call s w o (fst c) (snd c)))
              else c
  | None => c
  end.
Definition can (s : bool) (c : sess) : bool :=
  match at_ret s (snd c) with Some w => bd_bus (bnd w false) | None => false end.
Definition round (c : sess) : sess := make false poll1 (make true poll1 c).
Fixpoint round_ok (n : nat) (c : sess) : bool :=
  match n with
  | O => true
  | S k => can true c && can true (make true poll1 c) && can false (make true poll1 c) && can false (round c) && round_ok k (round c)
  end.
Fixpoint many_rounds (n : nat) (c : sess) : sess := match n with O => c | S k => many_rounds k (round c) end.

Lemma turn_moves s p d : moves p d p (turn s d).
Proof.
  unfold turn. destruct (advance s (d_sh d) (d_prog d s)) as [[[sh q] t]|] eqn:E; [|apply MvRefl].
  eapply MvStep; [apply MvRefl|]. exists sh, q, t. split; [exact E|reflexivity].
Qed.
Lemma fin_moves f s p : forall d, moves p d p (fin f s d).
Proof.
  induction f as [|f IH]; intros d; cbn [fin]; [apply MvRefl|]. destruct (at_ret s d); [apply MvRefl|].
  eapply moves_trans; [apply turn_moves|apply IH].
Qed.
Lemma make_moves s o c : ast_traffic o -> moves (fst c) (snd c) (fst (make s o c)) (snd (make s o c)).
Proof.
  intros Ho. unfold make, at_ret. destruct (d_prog (snd c) s) as [w| | | | | | | |] eqn:E; try apply MvRefl.
  destruct (bd_bus (bnd w false)) eqn:Eb; [|apply MvRefl]. cbn [fst snd].
  eapply moves_trans; [eapply (MvCall _ _ s o w); [apply MvRefl|exact E|exact Eb|exact Ho]|apply fin_moves].
Qed.

Lemma make_whole s c p1 d1 p2 d2 : can s c = true -> can s (make s poll1 c) = true ->
  moves p1 d1 (fst c) (snd c) -> moves (fst (make s poll1 c)) (snd (make s poll1 c)) p2 d2 -> whole_poll s p1 d1 p2 d2.
Proof.
  unfold can, make, at_ret. destruct (d_prog (snd c) s) as [w| | | | | | | |] eqn:E; try discriminate. intros Eb.
  rewrite Eb. cbn [fst snd]. intros H2 M1 M2.
  destruct (d_prog (fin 2000 s (begin_call s w poll1 (fst c) (snd c))) s) as [w2| | | | | | | |] eqn:E2; try discriminate.
  exists (fst c), (snd c), w, (upd (fst c) s (more (fst c s) poll1)), (fin 2000 s (begin_call s w poll1 (fst c) (snd c))), w2.
  split; [exact M1|]. split; [exact E|]. split; [exact Eb|]. split; [apply fin_moves|]. split; [exact E2|].
  split; [|exact M2]. unfold upd. rewrite eqb_reflx. reflexivity.
Qed.

Lemma round_moves c : moves (fst c) (snd c) (fst (round c)) (snd (round c)).
Proof. unfold round. eapply moves_trans; apply make_moves; exact eq_refl. Qed.

Lemma many_rounds_ok n : forall k p d c, rounds p d k (fst c) (snd c) -> round_ok n c = true ->
  rounds p d (k + n) (fst (many_rounds n c)) (snd (many_rounds n c)).
Proof.
  induction n as [|n IH]; intros k p d c Hr H; cbn [many_rounds]; [now rewrite Nat.add_0_r|].
  cbn [round_ok] in H. apply andb_prop in H as [H H5]. apply andb_prop in H as [H H4]. apply andb_prop in H as [H H3].
  apply andb_prop in H as [H1 H2].
  replace (k + S n)%nat with (S k + n)%nat by lia. apply IH; [|exact H5]. eapply RoundsS; [exact Hr|]. intros [|].
  - eapply make_whole; [exact H1|exact H2|apply MvRefl|]. unfold round. apply make_moves. exact eq_refl.
  - apply (make_whole false (make true poll1 c)); [exact H3|exact H4| |apply MvRefl]. apply make_moves. exact eq_refl.
Qed.

(** Both sides register and set their message handler, negotiate by polling, and the host
    sends a message of two packets; the BMC's application echoes it. *)
Definition pz : bool -> party := pair (mkParty echo 200 8 []) (mkParty no_app 64 9 []).
Definition c0 : sess := (pz, fin 2000 false (fin 2000 true (d0 pz))).
Definition c1 : sess :=
  make false (tx1 8 msg66) (round (round (make false (ACore (OpSetRx true)) (make true (ACore (OpSetRx true)) c0)))).
Definition c2 : sess := many_rounds 48 c1.

Lemma c1_session : session (fst c1) (snd c1).
Proof.
  exists pz, 0, 0, (fun _ => 0). split; [intros [|]; reflexivity|]. split; [right; cbn; lia|].
  unfold c1. eapply moves_trans; [|apply make_moves; exact I].
  eapply moves_trans; [|apply round_moves]. eapply moves_trans; [|apply round_moves].
  eapply moves_trans; [|apply make_moves; exact I]. eapply moves_trans; [|apply make_moves; exact I].
  eapply moves_trans; apply fin_moves.
Qed.
Lemma c1_compatible : compatible (fst c1).
Proof.
  assert (p_mtu (fst c1 false) = 64) as E1 by (vm_compute; reflexivity).
  assert (bmc_mtu (p_mtu (fst c1 true)) = 200) as E2 by (vm_compute; reflexivity).
  unfold compatible. rewrite E1, E2. lia.
Qed.
Lemma in_set l : existsb (fun e => match e with EvSetTx false true => true | _ => false end) l = true -> In (EvSetTx false true) l.
Proof.
  intros H. apply existsb_exists in H as (e & Hin & He).
  destruct e as [| | | | | | | |[|] [|]| | | | | | | | | |]; try discriminate He. exact Hin.
Qed.
Lemma c1_enabled s : enabled (snd c1) s.
Proof. apply in_set. destruct s; vm_compute; reflexivity. Qed.

(** At [c1] two packets are queued, none has arrived; after 48 rounds both have, and the
    echo too. *)
Example C57_example : session (fst c1) (snd c1) /\ compatible (fst c1) /\ (forall s, enabled (snd c1) s) /\
  rounds (fst c1) (snd c1) 48 (fst c2) (snd c2) /\
  5 * (passed (snd c2) - passed (snd c1)) + 32 < Z.of_nat 48 /\
  zlen (accepted (snd c1) false) = 2 /\ received (d_tr (snd c1) true) = [] /\
  due (fst c1) (snd c1) false = [(9, true, 1, msg66)] /\ heard (d_tr (snd c2) true) = [(9, true, 1, msg66)] /\
  zlen (heard (d_tr (snd c2) false)) = 1 /\
  can false c1 = true /\ can true c2 = true /\ activity (snd c1) < activity (snd c2) /\
  (* and after that nothing moves any more *)
  round_ok 1 c2 = true /\ activity (snd (round c2)) = activity (snd c2).
Proof.
  split; [exact c1_session|]. split; [exact c1_compatible|]. split; [exact c1_enabled|].
  split; [apply (many_rounds_ok 48 0); [apply Rounds0; apply MvRefl|vm_compute; reflexivity]|].
  do 10 (split; [vm_compute; reflexivity|]). vm_compute; reflexivity.
Qed.

Lemma c2_listening : listening (p_calls (fst c2 true)).
Proof.
  assert (exists l, p_calls (fst c2 true) = ACore (OpSetRx true) :: l /\ forallb (fun o => match o with APoll _ => true | _ => false end) l = true)
    as (l & E & H) by (eexists; split; vm_compute; reflexivity).
  exists l. split; [exact E|]. rewrite forallb_forall in H. apply Forall_forall. intros o Ho. specialize (H o Ho). destruct o; [discriminate|exact I].
Qed.
