(** Concrete: a concrete binding, environments and packets, used to show that the
    hypotheses of the theorems can be met and to refute false properties. *)
From Verif Require Import Base Lists Prog PktBuf Core WP Walk CoreRel WalkCore CoreHist Spec SpecRx.

(** A binding that accepts everything. *)
Definition accept : txfun unit := fun b p => (b, p, 0, false).
(** A binding that is busy the first [n] times. *)
Definition busy_first : txfun nat := fun n p =>
  match n with O => (O, p, 0, false) | S n' => (n', p, - EBUSY, true) end.
Definition ok_start {B} : startfun B := fun b => (b, 0, true).
Definition no_app : event -> list txreq := fun _ => [].
(** An application that answers every message. *)
Definition echo : event -> list txreq := fun e =>
  match e with EvRx src to tag msg => [mkReq src (negb to) tag msg] | _ => [] end.

Definition plain_binding {B} (x : B) : binding B := mkBinding 1 68 0 0 false false true x.

Lemma accept_polite : polite accept.
Proof. intros b p b' p' rc dis [= <- <- <- <-]. auto. Qed.
Lemma busy_first_polite : polite busy_first.
Proof. intros [|n] p b' p' rc dis [= <- <- <- <-]; auto. Qed.
Lemma ok_start_starts B : starts (@ok_start B).
Proof. intros b b' rc en [= <- <- <-]. lia. Qed.
Lemma plain_dims B (x : B) : dims_ok (plain_binding x).
Proof. repeat split; cbn; lia. Qed.

(** Everything succeeds. *)
Definition calm : env := mkEnv (fun _ => true) (fun _ _ => Some 0) (fun _ => true) (fun _ _ => 0) (fun _ => 1).
(** Allocation number [k] fails (counting effects). *)
Definition oom_at (k : nat) : env :=
  mkEnv (fun n => negb (Nat.eqb n k)) (fun _ _ => Some 0) (fun _ => true) (fun _ _ => 0) (fun _ => 1).
Lemma calm_ok a : kval_ok a = any_kval -> env_ok a calm.
Proof. intros E. repeat split; try discriminate. intros. rewrite E. reflexivity. Qed.
Lemma calm_no_oom : env_ok no_oom calm.
Proof. now apply calm_ok. Qed.
(** Allocations may fail, nothing else. *)
Definition oom : assm := mkAssm true false false any_kval.
Lemma oom_at_ok k : env_ok oom (oom_at k).
Proof. repeat split; discriminate. Qed.

(** To show that a run can happen, compute it. *)
Definition run_sat {X} (e : env) (p : prog X) (P : X -> list event -> Prop) : Prop :=
  match run e 0 [] p with Done x _ tr => P x tr | _ => False end.
Lemma by_run {X} a e (p : prog X) P : env_ok a e -> run_sat e p P -> can_finish a p P.
Proof.
  intros He. unfold run_sat, can_finish. destruct (run e 0 [] p) as [x n tr|tr] eqn:E; [|intros []].
  intros H. exists e, x, n, tr. auto.
Qed.
Lemma by_run_ex {X} e (p : prog X) (Q : X -> list event -> Prop) : run_sat e p Q ->
  exists x n tr, run e 0 [] p = Done x n tr /\ Q x tr.
Proof.
  unfold run_sat. destruct (run e 0 [] p) as [x n tr|tr] eqn:E; [|intros []]. eauto.
Qed.

(** A received packet with these bytes. *)
Definition pkt (bs : list Z) : pktbuf := mkPkt 0 0 (zlen bs) (zlen bs) 0 bs.
Lemma pkt_wf bs : zlen bs < 2 ^ 64 -> wf_pkt (pkt bs).
Proof. intros H. pose proof (zlen_pos _ bs). constructor; cbn; lia. Qed.
Lemma pkt_pkt_is bs : zlen bs < 2 ^ 64 -> pkt_is (pkt bs) bs.
Proof.
  intros H. pose proof (zlen_pos _ bs). unfold pkt_is, pktbuf_bytes, pktbuf_size. cbn.
  rewrite Z.sub_0_r, w64_id by lia. unfold rd.
  replace (_ && _ && _) with true by (cbn; lia).
  cbn. unfold zlen. rewrite Nat2Z.id, firstn_all. reflexivity.
Qed.

(** A packet: header, then payload. *)
Definition packet (dest src : Z) (som eom : bool) (seq : Z) (to : bool) (tag : Z) (body : list Z) : list Z :=
  [1; dest; src; flags_byte som eom seq to tag] ++ body.
Definition rx {B} (bs : list Z) : @op B := OpRx false (pkt bs).

Lemma legal_intro {B} (f : txfun B) s m b0 b1 l : polite f -> starts s -> dims_ok b0 -> dims_ok b1 ->
  Forall (traffic m) l -> legal f s m b0 b1 l.
Proof. intros. constructor; assumption. Qed.

(** The concrete node used below: endpoint 8 with the accepting binding. *)
Definition node (l : list (@op unit)) : prog (world unit) :=
  history accept ok_start no_app (Endpoint 8) (plain_binding tt) (plain_binding tt) l.
Definition legal_node (l : list (@op unit)) : Prop :=
  legal accept ok_start (Endpoint 8) (plain_binding tt) (plain_binding tt) l.

Lemma legal_node_intro l : Forall (traffic (Endpoint 8)) l -> legal_node l.
Proof.
  apply legal_intro; [apply accept_polite|apply ok_start_starts|apply plain_dims|apply plain_dims].
Qed.
Lemma traffic_rx m bs : zlen bs < 2 ^ 64 -> @traffic unit m (rx bs).
Proof. intros H. split; [discriminate|now apply pkt_wf]. Qed.
