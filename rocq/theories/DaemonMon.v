(** DaemonMon: monitors for the demultiplexing daemon: a state machine that reads the events
    and what it demands of each. *)
From Verif Require Import Base Daemon PropDaemon.

Section Mon.
Context {S : Type} (nxt : S -> ev -> S) (okay : S -> ev -> Prop).
Fixpoint mon_oks (s : S) (tr : list ev) : Prop :=
  match tr with [] => True | e :: t => okay s e /\ mon_oks (nxt s e) t end.
Definition mon_run (s : S) (tr : list ev) : S := fold_left nxt tr s.

(** What a program does to the monitor, whatever the answers. *)
Fixpoint mon_wp {A} (p : prog A) (s : S) (Q : A -> S -> Prop) : Prop :=
  match p with
  | Ret a => Q a s
  | Crash => True
  | Do c k => forall a, allowed c a -> okay s (Ev c a) /\ mon_wp (k a) (nxt s (Ev c a)) Q
  end.
Lemma mon_bind {A B} (p : prog A) (f : A -> prog B) : forall s (Q : B -> S -> Prop),
  mon_wp p s (fun a s' => mon_wp (f a) s' Q) -> mon_wp (bind p f) s Q.
Proof.
  induction p as [a| |c k IH]; intros s Q H; cbn [mon_wp bind] in *; [exact H|exact I|].
  intros a Ha. destruct (H a Ha) as [H1 H2]. auto.
Qed.
Lemma mon_mono {A} (p : prog A) : forall s (Q R : A -> S -> Prop), (forall a s', Q a s' -> R a s') ->
  mon_wp p s Q -> mon_wp p s R.
Proof.
  induction p as [a| |c k IH]; intros s Q R HQ H; cbn [mon_wp] in *; auto.
  intros a Ha. destruct (H a Ha) as [H1 H2]. eauto.
Qed.
Lemma mon_sound {A} (p : prog A) : forall s (Q : A -> S -> Prop) tr r, mon_wp p s Q -> exec p tr r ->
  mon_oks s tr /\ Q r (mon_run s tr).
Proof.
  induction p as [a| |c k IH]; intros s Q tr r H E; cbn [mon_wp exec] in *.
  - destruct E as [-> ->]. split; [exact I|exact H].
  - destruct E.
  - destruct E as (a & t & -> & Ha & E). destruct (H a Ha) as [H1 H2]. destruct (IH a _ _ _ _ H2 E) as [H3 H4].
    split; [split; assumption|exact H4].
Qed.
Lemma mon_client_at x i s (Q : client -> S -> Prop) : (forall c, Q c s) -> mon_wp (client_at x i) s Q.
Proof. intros H. unfold client_at. destruct (nth_error (d_clients x) i); [apply H|exact I]. Qed.
Lemma mon_oks_app t1 t2 : forall s, mon_oks s (t1 ++ t2) <-> mon_oks s t1 /\ mon_oks (mon_run s t1) t2.
Proof. induction t1 as [|e t1 IH]; intros s; cbn; [tauto|]. rewrite IH. tauto. Qed.

(** For a monitor that does not look at the tables: an invariant of the state that the calls of
    rx_message keep holds after it. *)
Section Fwd.
Context (I : S -> Prop).
Context (Hclose : forall fd a s, I s -> okay s (Ev (CClose fd) a) /\ I (nxt s (Ev (CClose fd) a))).
Context (Hsend : forall fd bs a s, I s -> okay s (Ev (CSend fd bs) a) /\ I (nxt s (Ev (CSend fd bs) a))).
Context (Huninit : forall a s, I s -> okay s (Ev CUninit a) /\ I (nxt s (Ev CUninit a))).
Lemma mon_remove : forall f i x s, I s -> mon_wp (remove_loop f i x) s (fun _ => I).
Proof.
  induction f as [|f IH]; intros i x s H; cbn [remove_loop]; [exact H|].
  destruct (Nat.ltb i (length (d_clients x))); [|exact H]. apply mon_bind, mon_client_at. intros c.
  destruct (c_active c); [now apply IH|]. cbn [bind ask mon_wp]. intros a _. destruct (Hclose (c_sock c) a s H) as [H1 H2].
  split; [exact H1|]. now apply IH.
Qed.
Lemma mon_forward : forall f i x eid type msg rm s, I s -> mon_wp (forward_loop f i x eid type msg rm) s (fun _ => I).
Proof.
  induction f as [|f IH]; intros i x eid type msg rm s H; cbn [forward_loop]; [exact H|].
  destruct (Nat.ltb i (length (d_clients x))); [|exact H]. apply mon_bind, mon_client_at. intros c.
  destruct (negb (c_type c =? type)); [now apply IH|]. cbn [bind ask mon_wp]. intros a _.
  destruct (Hsend (c_sock c) (eid :: msg) a s H) as [H1 H2]. split; [exact H1|]. destruct (negb (a =? zlen msg + 1)); now apply IH.
Qed.
Lemma mon_rx x eid msg s : I s -> mon_wp (rx_message x eid msg) s (fun _ => I).
Proof.
  intros H. unfold rx_message. destruct (zlen msg <? 2); [exact H|]. cbn [bind ask mon_wp]. intros u _.
  destruct (Huninit u s H) as [H1 H2]. split; [exact H1|].
  apply mon_bind. eapply mon_mono; [|apply mon_forward; exact H2].
  intros [x1 rm] s1 Ha. destruct rm; [now apply mon_remove|exact Ha].
Qed.
Lemma mon_deliver : forall ms x s, I s -> mon_wp (deliver x ms) s (fun _ => I).
Proof.
  induction ms as [|m ms IH]; intros x s H; cbn [deliver]; [exact H|]. apply mon_bind.
  eapply mon_mono; [|apply mon_rx; exact H]. intros x1 s1. apply IH.
Qed.
End Fwd.
End Mon.
