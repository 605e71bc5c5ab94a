(** PropDaemonOom: C85, the demultiplexing daemon when its tables cannot be reallocated. *)
From Verif Require Import Base Lists Daemon PropDaemon DaemonOom.
From Verif Require DaemonRun PropStop.

(** ** Specification *)
(** The calls of a run, without what the allocator did. *)
Fixpoint calls_of (tr : list tev) : list ev :=
  match tr with [] => [] | Call e :: tr => e :: calls_of tr | _ :: tr => calls_of tr end.
Definition failed (e : tev) : Prop := match e with Table _ _ ok => ok = false | _ => False end.
(** Only asks the kernel or the binding for news: names no client and sends nothing. *)
Definition asking (e : tev) : Prop :=
  match e with
  | Call (Ev c _) => match c with CPoll _ | CProcess | CAccept | CUninit => True | _ => False end
  | _ => False
  end.

(** ** Proof: the same program as long as nothing fails *)
Fixpoint sim {A B} (p : tprog A) (q : prog B) (R : A -> B -> Prop) : Prop :=
  match p with
  | TRet a => exists b, q = Ret b /\ R a b
  | TCrash => q = Crash
  | TDo c k => exists k', q = Do c k' /\ forall a, allowed c a -> sim (k a) (k' a) R
  | TTable _ _ k => sim (k true) q R
  | TJunk _ _ => False
  end.
Lemma sim_bind {A B C D} (f : A -> tprog C) (g : B -> prog D) R S : forall p q,
  sim p q R -> (forall a b, R a b -> sim (f a) (g b) S) -> sim (tbind p f) (bind q g) S.
Proof.
  induction p as [a| |c k IH|t n k IH|n k IH]; intros q H Hf; cbn [sim tbind] in *.
  - destruct H as (b & -> & H). cbn [bind]. exact (Hf _ _ H).
  - rewrite H. reflexivity.
  - destruct H as (k' & -> & H). cbn [bind]. eexists. split; [reflexivity|]. intros a Ha. cbn beta. apply IH; [exact (H a Ha)|exact Hf].
  - apply IH; assumption.
  - destruct H.
Qed.
Lemma sim_ret {A B} (a : A) (b : B) (R : A -> B -> Prop) : R a b -> sim (TRet a) (Ret b) R.
Proof. intros H. exists b. auto. Qed.
Lemma sim_ask {C D} c (f : answer c -> tprog C) (g : answer c -> prog D) S :
  (forall a, allowed c a -> sim (f a) (g a) S) -> sim (tbind (call_ c) f) (bind (ask c) g) S.
Proof. intros H. cbn. eexists. split; [reflexivity|]. intros a Ha. cbn. auto. Qed.

Definition same (x : tctx) (y : ctx) : Prop := t_ctx x = y /\ t_gone x = false.
Definition same2 {A} (u : tctx * A) (v : ctx * A) : Prop := same (fst u) (fst v) /\ snd u = snd v.
Lemma same_eta x y : same x y -> x = TCtx y false.
Proof. destruct x. intros [H1 H2]. cbn in *. subst. reflexivity. Qed.

Lemma sim_client_at y i : sim (t_client_at (TCtx y false) i) (client_at y i) eq.
Proof. unfold t_client_at, client_at, t_clients. cbn. destruct (nth_error (d_clients y) i); [apply sim_ret|]; reflexivity. Qed.
Lemma sim_remove_loop : forall f i y, sim (t_remove_loop f i (TCtx y false)) (remove_loop f i y) same.
Proof.
  induction f as [|f IH]; intros i y; cbn [t_remove_loop remove_loop]; [apply sim_ret; split; reflexivity|].
  unfold t_clients at 1. cbn [t_ctx]. destruct (Nat.ltb i (length (d_clients y))); [|apply sim_ret; split; reflexivity].
  eapply sim_bind; [apply sim_client_at|]. intros c ? <-. destruct (c_active c); [apply IH|].
  apply sim_ask. intros [] _. cbv beta zeta. unfold t_clients, t_set. cbn [t_ctx t_gone].
  destruct (firstn i (d_clients y) ++ skipn (S i) (d_clients y)); [apply IH|]. cbn [sim negb]. apply IH.
Qed.
Lemma sim_remove y : sim (t_client_remove_inactive (TCtx y false)) (client_remove_inactive y) same.
Proof. apply sim_remove_loop. Qed.
Lemma sim_forward_loop : forall f i y eid ty msg r,
  sim (t_forward_loop f i (TCtx y false) eid ty msg r) (forward_loop f i y eid ty msg r) same2.
Proof.
  induction f as [|f IH]; intros i y eid ty msg r; cbn [t_forward_loop forward_loop]; [apply sim_ret; repeat split; reflexivity|].
  unfold t_clients at 1. cbn [t_ctx]. destruct (Nat.ltb i (length (d_clients y))); [|apply sim_ret; repeat split; reflexivity].
  eapply sim_bind; [apply sim_client_at|]. intros c ? <-. destruct (negb (c_type c =? ty)); [apply IH|].
  apply sim_ask. intros a _. destruct (negb (a =? zlen msg + 1)); apply IH.
Qed.
Lemma sim_rx y eid msg : sim (t_rx_message (TCtx y false) eid msg) (rx_message y eid msg) same.
Proof.
  unfold t_rx_message, rx_message. destruct (zlen msg <? 2); [apply sim_ret; split; reflexivity|].
  apply sim_ask. intros u _. eapply sim_bind; [apply sim_forward_loop|].
  intros [x1 r1] [y1 r2] [H E0]. cbn [fst snd] in H, E0. subst r1. rewrite (same_eta _ _ H). destruct r2; [apply sim_remove|apply sim_ret; split; reflexivity].
Qed.
Lemma sim_socket y : sim (t_socket_process (TCtx y false)) (socket_process y) same2.
Proof.
  unfold t_socket_process, socket_process. apply sim_ask. intros fd _. destruct (fd <? 0); [apply sim_ret; repeat split; reflexivity|].
  cbn [sim negb t_gone]. eexists; repeat split; reflexivity.
Qed.
Lemma sim_close y i c rc : sim (t_out_close (TCtx y false) i c rc) (out_close y i c rc) same2.
Proof. apply sim_ret. repeat split; reflexivity. Qed.
Lemma sim_recv y i : sim (t_client_process_recv (TCtx y false) i) (client_process_recv y i) same2.
Proof.
  unfold t_client_process_recv, client_process_recv. eapply sim_bind; [apply sim_client_at|]. intros c ? <-. destruct (c_type c =? 0).
  { apply sim_ask. intros [ty|rc] _; [destruct (ty =? 0)|]; try apply sim_close. apply sim_ret. repeat split; reflexivity. }
  apply sim_ask. intros len _. destruct (len <? 0); [apply sim_close|].
  apply sim_bind with (R := same2).
  { cbn [t_ctx]. destruct (d_bufsize y <? len); [|apply sim_ret; repeat split; reflexivity].
    apply sim_ask. intros g _. apply sim_ret. destruct g; repeat split; reflexivity. }
  intros [x1 o1] [y1 o2] [H E0]. cbn [fst snd] in H, E0. subst o1. rewrite (same_eta _ _ H). destruct o2; cbn [negb]; [|apply sim_close]. cbn [t_ctx].
  apply sim_ask. intros [[|eid msg]|] _; try apply sim_close.
  apply sim_bind with (R := fun _ _ => True). { destruct (d_capture y1); [|apply sim_ret; exact I]. cbn. eexists. split; [reflexivity|]. intros a _. exists a. auto. }
  intros _ _ _. destruct (eid =? d_eid y1).
  - eapply sim_bind; [apply sim_rx|]. intros x2 y2 H2. apply sim_ret. split; [exact H2|reflexivity].
  - apply sim_ask. intros a _. apply sim_ret. repeat split; reflexivity.
Qed.
Lemma sim_recvs : forall f i y rv chg, sim (t_recv_loop f i (TCtx y false) rv chg) (recv_loop f i y rv chg) same2.
Proof.
  induction f as [|f IH]; intros i y rv chg; cbn [t_recv_loop recv_loop]; [apply sim_ret; repeat split; reflexivity|].
  unfold t_clients at 1. cbn [t_ctx]. destruct (Nat.ltb i (length (d_clients y))); [|apply sim_ret; repeat split; reflexivity].
  destruct (nth_error rv i) as [[|]|]; [|apply IH|reflexivity].
  eapply sim_bind; [apply sim_recv|]. intros [x1 r1] [y1 r2] [H E0]. cbn [fst snd] in H, E0. subst r1. rewrite (same_eta _ _ H). apply IH.
Qed.
Lemma sim_deliver : forall ms y, sim (t_deliver (TCtx y false) ms) (deliver y ms) same.
Proof.
  induction ms as [|m ms IH]; intros y; cbn [t_deliver deliver]; [apply sim_ret; split; reflexivity|].
  eapply sim_bind; [apply sim_rx|]. intros x1 y1 H. rewrite (same_eta _ _ H). apply IH.
Qed.
Definition same_end (u : option (tctx * bool)) (v : option (ctx * bool)) : Prop :=
  match u, v with None, None => True | Some a, Some b => same2 a b | _, _ => False end.
Lemma sim_rest y chg : sim (t_round (TCtx y false) false) (daemon_round y false) same_end /\
  (chg = true -> sim (t_round (TCtx y false) true) (daemon_round y true) same_end).
Proof.
  assert (forall z, sim
    (if negb (Nat.leb (length (d_clients z)) (length (d_fds z))) then TCrash
     else let+ r := call_ (CPoll (firstn (length (d_clients z)) (d_fds z))) in
      match r with
      | None => TRet None
      | Some r =>
          if r_signal r then TRet None
          else
            let+ (x, rc) :=
              if r_binding r then let+ (ms, rc) := call_ CProcess in let+ x1 := t_deliver (TCtx z false) ms in TRet (x1, rc)
              else TRet (TCtx z false, 0) in
            if negb (rc =? 0) then TRet None
            else
              let+ (x, chg) := t_recv_loop (length (t_clients x)) 0 x (r_clients r) false in
              let+ (x, stop, chg) :=
                if r_socket r then let+ (x1, rc) := t_socket_process x in TRet (x1, negb (rc =? 0), true)
                else TRet (x, false, chg) in
              if (stop : bool) then TRet None
              else let+ x := if (chg : bool) then t_client_remove_inactive x else TRet x in TRet (Some (x, chg))
      end)
    (daemon_round z false) same_end) as G.
  { intros z. unfold daemon_round. destruct (negb (Nat.leb (length (d_clients z)) (length (d_fds z)))); [reflexivity|].
    apply sim_ask. intros [r|] _; [|exists None; split; [reflexivity|exact I]]. destruct (r_signal r); [exists None; split; [reflexivity|exact I]|].
    apply sim_bind with (R := same2).
    { destruct (r_binding r); [|apply sim_ret; repeat split; reflexivity]. apply sim_ask. intros [ms rc] _.
      eapply sim_bind; [apply sim_deliver|]. intros x1 y1 H. apply sim_ret. split; [exact H|reflexivity]. }
    intros [x1 r1] [y1 r2] [H E0]. cbn [fst snd] in H, E0. subst r1. rewrite (same_eta _ _ H).
    destruct (negb (r2 =? 0)); [exists None; split; [reflexivity|exact I]|]. unfold t_clients at 1. cbn [t_ctx].
    eapply sim_bind; [apply sim_recvs|]. intros [x3 c3] [y3 c4] [H3 E0]. cbn [fst snd] in H3, E0. subst c3. rewrite (same_eta _ _ H3).
    apply sim_bind with (R := fun u v => same (fst (fst u)) (fst (fst v)) /\ snd (fst u) = snd (fst v) /\ snd u = snd v).
    { destruct (r_socket r); [|apply sim_ret; repeat split; reflexivity]. eapply sim_bind; [apply sim_socket|].
      intros [x4 r4] [y4 r5] [H4 E0]. cbn [fst snd] in H4, E0. subst r4. apply sim_ret. cbn [fst snd] in *. auto. }
    intros [[x5 s5] c5] [[y5 s6] c6] (H5 & E1 & E2). cbn [fst snd] in *. subst s5 c5. rewrite (same_eta _ _ H5).
    destruct s6; [exists None; split; [reflexivity|exact I]|].
    apply sim_bind with (R := same). { destruct c6; [apply sim_remove|apply sim_ret; split; reflexivity]. }
    intros x6 y6 H6. eexists. split; [reflexivity|]. split; [exact H6|reflexivity]. }
  split.
  - unfold t_round. cbn [tbind]. apply G.
  - intros _. unfold t_round, t_refresh. unfold t_clients at 1 2. cbn [t_ctx t_gone tbind sim].
    pose proof (G (set_fds y (map c_sock (d_clients y)))) as G1. unfold t_clients.
    destruct (d_clients y) as [|c l] eqn:E; cbn [negb orb tbind t_ctx]; [|rewrite <- E];
      (replace (daemon_round y true) with (daemon_round (set_fds y (map c_sock (d_clients y))) false) by reflexivity);
      rewrite E in *; exact G1.
Qed.
Lemma sim_rounds : forall n y chg, sim (t_rounds n (TCtx y false) chg) (run_daemon n y chg) same_end.
Proof.
  induction n as [|n IH]; intros y chg; cbn [t_rounds run_daemon]; [eexists; split; [reflexivity|repeat split; reflexivity]|].
  apply sim_bind with (R := same_end). { destruct chg; [apply (proj2 (sim_rest y true)); reflexivity|apply (proj1 (sim_rest y true))]. }
  intros [[x1 c1]|] [[y1 c2]|] H; cbn in H; try contradiction.
  - destruct H as [H E]. cbn [fst snd] in *. subst c2. rewrite (same_eta _ _ H). apply IH.
  - eexists. split; [reflexivity|exact I].
Qed.

Lemma calls_app t1 t2 : calls_of (t1 ++ t2) = calls_of t1 ++ calls_of t2.
Proof. induction t1 as [|[e|t n ok|l] t1 IH]; cbn; [reflexivity|rewrite IH; reflexivity|exact IH|exact IH]. Qed.
Lemma sim_run {A B} (R : A -> B -> Prop) : forall (p : tprog A) q tr e, sim p q R -> ~ crashes q ->
  trun p tr e -> (forall v, In v tr -> ~ failed v) ->
  exists a b, e = Some a /\ R a b /\ exec q (calls_of tr) b.
Proof.
  induction p as [a| |c k IH|t n k IH|n k IH]; intros q tr e S C H F; cbn [sim trun] in *.
  - destruct S as (b & -> & S). destruct H as [-> ->]. exists a, b. repeat split; try exact S.
  - subst q. destruct (C I).
  - destruct S as (k' & -> & S). destruct H as (a & r & -> & Ha & H).
    destruct (IH a (k' a) r e (S a Ha)) as (a1 & b1 & -> & HR & HE); [intros Hc; apply C; exists a; auto|exact H|intros v Hv; apply F; right; exact Hv|].
    exists a1, b1. repeat split; [exact HR|]. exists a, (calls_of r). auto.
  - destruct H as (ok & r & -> & H). destruct ok.
    + destruct (IH true q r e S C H) as (a1 & b1 & -> & HR & HE); [intros v Hv; apply F; right; exact Hv|]. exists a1, b1. auto.
    + exfalso. exact (F _ (or_introl eq_refl) eq_refl).
  - destruct S.
Qed.
Lemma sim_back {A B} (R : A -> B -> Prop) : forall (p : tprog A) q tr b, sim p q R -> exec q tr b ->
  exists a ttr, trun p ttr (Some a) /\ R a b /\ calls_of ttr = tr /\ (forall v, In v ttr -> ~ failed v).
Proof.
  induction p as [a| |c k IH|t n k IH|n k IH]; intros q tr b S H; cbn [sim] in S.
  - destruct S as (b' & -> & S). destruct H as [-> ->]. exists a, []. repeat split; [exact S|]. intros v [].
  - subst q. destruct H.
  - destruct S as (k' & -> & S). destruct H as (a & r & -> & Ha & H). destruct (IH a _ _ _ (S a Ha) H) as (a1 & t1 & H1 & H2 & H3 & H4).
    exists a1, (Call (Ev c a) :: t1). split; [exists a, t1; auto|]. split; [exact H2|]. split; [cbn; rewrite H3; reflexivity|].
    intros v [<-|Hv]; [intros []|exact (H4 v Hv)].
  - destruct (IH true _ _ _ S H) as (a1 & t1 & H1 & H2 & H3 & H4). exists a1, (Table t n true :: t1). split; [exists true, t1; auto|].
    split; [exact H2|]. split; [exact H3|]. intros v [<-|Hv]; [intros Hf; discriminate Hf|exact (H4 v Hv)].
  - destruct S.
Qed.
Lemma sim_upto {A B} (R : A -> B -> Prop) : forall (p : tprog A) q t1 v t2 e, sim p q R -> ~ crashes q ->
  trun p (t1 ++ v :: t2) e -> (forall w, In w t1 -> ~ failed w) -> failed v ->
  exists r b, exec q (calls_of t1 ++ r) b.
Proof.
  induction p as [a| |c k IH|t n k IH|n k IH]; intros q t1 v t2 e S C H F Hv; cbn [sim trun] in *.
  - destruct H as [H _]. destruct t1; discriminate H.
  - destruct H as [H _]. destruct t1; discriminate H.
  - destruct S as (k' & -> & S). destruct H as (a & r & E & Ha & H). destruct t1 as [|w t1]; cbn in E; injection E as -> <-; [destruct Hv|].
    destruct (IH a (k' a) t1 v t2 e (S a Ha)) as (r1 & b & HE); [intros Hc; apply C; exists a; auto|exact H|intros w Hw; apply F; right; exact Hw|exact Hv|].
    exists r1, b. exists a, (calls_of t1 ++ r1). auto.
  - destruct H as (ok & r & E & H). destruct t1 as [|w t1]; cbn in E; injection E as -> <-.
    + destruct (PropStop.progress q C) as (tr & b & Hb). exists tr, b. exact Hb.
    + destruct ok; [|exfalso; exact (F _ (or_introl eq_refl) eq_refl)].
      destruct (IH true q t1 v t2 e S C H) as (r1 & b & HE); [intros w Hw; apply F; right; exact Hw|exact Hv|]. exists r1, b. exact HE.
  - destruct S.
Qed.

(** ** Proof: after a failure *)
Inductive mood := Fine | Lost | Dead.
Definition tnext (s : mood) (v : tev) : mood :=
  match v with
  | Table Accepting _ true => Fine
  | Table Accepting _ false | Table Polling _ false => Dead
  | Table Removing _ true => Fine
  | Table Removing _ false => Lost
  | _ => s
  end.
Definition tok (s : mood) (v : tev) : Prop :=
  match s with
  | Fine => True
  | Lost => match v with Table Removing _ _ => False | Call _ => asking v | Table _ _ _ => True | Junk _ => False end
  | Dead => False
  end.
Fixpoint twp {A} (p : tprog A) (s : mood) (Q : option A -> mood -> Prop) : Prop :=
  match p with
  | TRet a => Q (Some a) s
  | TCrash => Q None s
  | TDo c k => forall a, allowed c a -> tok s (Call (Ev c a)) /\ twp (k a) s Q
  | TTable t n k => forall ok, tok s (Table t n ok) /\ twp (k ok) (tnext s (Table t n ok)) Q
  | TJunk n k => forall l, length l = n -> tok s (Junk l) /\ twp (k l) s Q
  end.
Definition after {A} (Q : A -> mood -> Prop) (e : option A) (s : mood) : Prop := match e with Some a => Q a s | None => True end.
Lemma twp_bind {A B} (f : A -> tprog B) : forall (p : tprog A) s (Q : B -> mood -> Prop),
  twp p s (after (fun a s' => twp (f a) s' (after Q))) -> twp (tbind p f) s (after Q).
Proof.
  induction p as [a| |c k IH|t n k IH|n k IH]; intros s Q H; cbn [twp tbind after] in *; [exact H|exact I| | |].
  - intros a Ha. destruct (H a Ha) as [H1 H2]. auto.
  - intros ok. destruct (H ok) as [H1 H2]. auto.
  - intros l Hl. destruct (H l Hl) as [H1 H2]. auto.
Qed.
Lemma twp_mono {A} : forall (p : tprog A) s (Q R : option A -> mood -> Prop), (forall e s', Q e s' -> R e s') -> twp p s Q -> twp p s R.
Proof.
  induction p as [a| |c k IH|t n k IH|n k IH]; intros s Q R HQ H; cbn [twp] in *; auto.
  - intros a Ha. destruct (H a Ha). eauto.
  - intros ok. destruct (H ok). eauto.
  - intros l Hl. destruct (H l Hl). eauto.
Qed.
Lemma twp_ask {B} c (f : answer c -> tprog B) s Q :
  (forall a, allowed c a -> tok s (Call (Ev c a)) /\ twp (f a) s (after Q)) -> twp (tbind (call_ c) f) s (after Q).
Proof. intros H. cbn. exact H. Qed.

Definition mood_of (x : tctx) : mood := if t_gone x then Lost else Fine.
Definition In_mood (x : tctx) (s : mood) : Prop := s = mood_of x.
Definition In_mood2 {A} (y : tctx * A) (s : mood) : Prop := s = mood_of (fst y).

Lemma twp_client_at x i s (Q : client -> mood -> Prop) : (t_gone x = false -> forall c, Q c s) -> twp (t_client_at x i) s (after Q).
Proof.
  intros H. unfold t_client_at. destruct (t_gone x); [exact I|]. destruct (nth_error (t_clients x) i); [apply H; reflexivity|exact I].
Qed.
Lemma twp_remove : forall f i x, twp (t_remove_loop f i x) (mood_of x) (after In_mood).
Proof.
  induction f as [|f IH]; intros i x; cbn [t_remove_loop]; [reflexivity|].
  destruct (Nat.ltb i (length (t_clients x))); [|reflexivity]. apply twp_bind, twp_client_at. intros G c.
  destruct (c_active c); [apply IH|]. apply twp_ask. intros [] _. unfold mood_of. rewrite G. split; [exact I|]. cbv zeta.
  destruct (firstn i (t_clients x) ++ skipn (S i) (t_clients x)) as [|c1 l].
  - specialize (IH (S i) (t_set x [])). unfold mood_of in IH. cbn [t_set t_gone] in IH. rewrite G in IH. exact IH.
  - cbn [twp]. intros ok. split; [exact I|]. specialize (IH (S i) (TCtx (set_clients (t_ctx x) (c1 :: l)) (negb ok))).
    destruct ok; exact IH.
Qed.
Lemma twp_forward : forall f i x eid ty msg r, twp (t_forward_loop f i x eid ty msg r) (mood_of x) (after In_mood2).
Proof.
  induction f as [|f IH]; intros i x eid ty msg r; cbn [t_forward_loop]; [reflexivity|].
  destruct (Nat.ltb i (length (t_clients x))); [|reflexivity]. apply twp_bind, twp_client_at. intros G c.
  destruct (negb (c_type c =? ty)); [apply IH|]. apply twp_ask. intros a _. split; [unfold mood_of; rewrite G; exact I|].
  destruct (negb (a =? zlen msg + 1)); [|apply IH].
  exact (IH (S i) (t_set x (put (t_clients x) i (Client false (c_sock c) (c_type c)))) eid ty msg true).
Qed.
Lemma tok_asking x c a : asking (Call (Ev c a)) -> tok (mood_of x) (Call (Ev c a)).
Proof. unfold mood_of. destruct (t_gone x); [auto|intros _; exact I]. Qed.
Lemma twp_rx x eid msg : twp (t_rx_message x eid msg) (mood_of x) (after In_mood).
Proof.
  unfold t_rx_message. destruct (zlen msg <? 2); [reflexivity|]. apply twp_ask. intros u _. split; [apply tok_asking; exact I|].
  apply twp_bind. eapply twp_mono; [|apply twp_forward]. intros [[x1 r]|] s H; [|exact I]. cbn in H. unfold In_mood2 in H. cbn in H. subst s.
  destruct r; [apply twp_remove|reflexivity].
Qed.
Lemma twp_socket x : twp (t_socket_process x) (mood_of x) (after In_mood2).
Proof.
  unfold t_socket_process. apply twp_ask. intros fd _. split; [apply tok_asking; exact I|]. destruct (fd <? 0); [reflexivity|].
  cbn [twp]. intros ok. split; [unfold mood_of; destruct (t_gone x); exact I|]. destruct ok; cbn [negb]; [|exact I].
  destruct (t_gone x) eqn:G; cbn [twp tnext].
  - intros l Hl. split; [exact I|]. cbn. reflexivity.
  - cbn. unfold In_mood2, mood_of. cbn. rewrite G. reflexivity.
Qed.
Lemma twp_recv x i : twp (t_client_process_recv x i) (mood_of x) (after In_mood2).
Proof.
  unfold t_client_process_recv. apply twp_bind, twp_client_at. intros G c. unfold mood_of. rewrite G.
  assert (forall y j d rc, t_gone y = false -> twp (t_out_close y j d rc) Fine (after In_mood2)) as OC.
  { intros y j d rc Hy. cbn. unfold In_mood2, mood_of. cbn. rewrite Hy. reflexivity. }
  destruct (c_type c =? 0).
  { apply twp_ask. intros [ty|rc] _; (split; [exact I|]); [destruct (ty =? 0)|]; try (apply OC; exact G).
    cbn. unfold In_mood2, mood_of. cbn. rewrite G. reflexivity. }
  apply twp_ask. intros len _. split; [exact I|]. destruct (len <? 0); [apply OC; exact G|].
  apply twp_bind. apply twp_mono with (Q := after (fun y s => s = Fine /\ t_gone (fst y) = false)).
  2:{ destruct (d_bufsize (t_ctx x) <? len); [|split; [reflexivity|exact G]]. apply twp_ask. intros g _. split; [exact I|].
      destruct g; split; try reflexivity; exact G. }
  intros [[y o]|] s H; [|exact I]. destruct H as [-> Hy]. cbn [fst] in Hy. destruct o; cbn [negb]; [|apply OC; exact Hy].
  apply twp_ask. intros r _. split; [exact I|]. destruct r as [[|eid msg]|]; try (apply OC; exact Hy).
  apply twp_bind. apply twp_mono with (Q := after (fun _ s => s = Fine)).
  2:{ destruct (d_capture (t_ctx y)); [|reflexivity]. cbn. intros a _. split; [exact I|reflexivity]. }
  intros [u|] s H; [|exact I]. cbn in H. subst s. destruct (eid =? d_eid (t_ctx y)).
  - apply twp_bind. pose proof (twp_rx y eid msg) as X. unfold mood_of in X at 1. rewrite Hy in X.
    eapply twp_mono; [|exact X]. intros [x1|] s H; [|exact I]. exact H.
  - apply twp_ask. intros a _. split; [exact I|]. cbn. unfold In_mood2, mood_of. cbn. rewrite Hy. reflexivity.
Qed.
Lemma twp_recvs : forall f i x rv chg, twp (t_recv_loop f i x rv chg) (mood_of x) (after In_mood2).
Proof.
  induction f as [|f IH]; intros i x rv chg; cbn [t_recv_loop]; [reflexivity|].
  destruct (Nat.ltb i (length (t_clients x))); [|reflexivity]. destruct (nth_error rv i) as [[|]|]; [|apply IH|exact I].
  apply twp_bind. eapply twp_mono; [|apply twp_recv]. intros [[x1 rc]|] s H; [|exact I]. cbn in H. unfold In_mood2 in H. cbn in H. subst s. apply IH.
Qed.
Lemma twp_deliver : forall ms x, twp (t_deliver x ms) (mood_of x) (after In_mood).
Proof.
  induction ms as [|m ms IH]; intros x; cbn [t_deliver]; [reflexivity|]. apply twp_bind.
  eapply twp_mono; [|apply twp_rx]. intros [x1|] s H; [|exact I]. cbn in H. rewrite H. apply IH.
Qed.
Definition ends (y : option (tctx * bool)) (s : mood) : Prop := match y with Some z => In_mood2 z s | None => True end.
Lemma twp_round x chg : twp (t_round x chg) (mood_of x) (after ends).
Proof.
  unfold t_round. apply twp_bind. apply twp_mono with (Q := after (fun y s => match y with Some z => In_mood z s | None => True end)).
  2:{ destruct chg; [|reflexivity]. unfold t_refresh. cbn [twp]. intros ok. split; [unfold mood_of; destruct (t_gone x); exact I|].
      destruct (t_clients x) as [|c l]; [destruct ok; [|exact I]|destruct (negb ok || t_gone x) eqn:E; [exact I|]].
      - cbn. unfold In_mood, mood_of. cbn. destruct (t_gone x); reflexivity.
      - destruct ok; [|discriminate E]. cbn in E. cbn. unfold In_mood, mood_of. cbn. rewrite E. reflexivity. }
  intros [[x0|]|] s H; [|exact I|exact I]. cbn in H. unfold In_mood in H. subst s. clear x chg. rename x0 into x. cbn [after].
  destruct (negb (Nat.leb (length (t_clients x)) (length (d_fds (t_ctx x))))); [exact I|].
  apply twp_ask. intros r _. split; [apply tok_asking; exact I|]. destruct r as [r|]; [|exact I]. destruct (r_signal r); [exact I|].
  apply twp_bind. apply twp_mono with (Q := after In_mood2).
  2:{ destruct (r_binding r); [|reflexivity]. apply twp_ask. intros [ms rc] _. split; [apply tok_asking; exact I|].
      apply twp_bind. eapply twp_mono; [|apply twp_deliver]. intros [x1|] s H; [exact H|exact I]. }
  intros [[x2 rc]|] s H; [|exact I]. cbn in H. unfold In_mood2 in H. cbn in H. subst s. cbn [after]. destruct (negb (rc =? 0)); [exact I|].
  apply twp_bind. eapply twp_mono; [|apply twp_recvs]. intros [[x3 c3]|] s H; [|exact I]. cbn in H. unfold In_mood2 in H. cbn in H. subst s.
  apply twp_bind. apply twp_mono with (Q := after (fun y s => s = mood_of (fst (fst y)))).
  2:{ destruct (r_socket r); [|reflexivity]. apply twp_bind. eapply twp_mono; [|apply twp_socket]. intros [[x4 r4]|] s H; [exact H|exact I]. }
  intros [[[x5 st] c5]|] s H; [|exact I]. cbn in H. subst s. cbn [after]. destruct st; [exact I|].
  apply twp_bind. apply twp_mono with (Q := after In_mood). 2:{ destruct c5; [apply twp_remove|reflexivity]. }
  intros [x6|] s H; [exact H|exact I].
Qed.
Lemma twp_rounds : forall n x chg, twp (t_rounds n x chg) (mood_of x) (after ends).
Proof.
  induction n as [|n IH]; intros x chg; cbn [t_rounds]; [reflexivity|]. apply twp_bind.
  eapply twp_mono; [|apply twp_round]. intros [[[x1 c1]|]|] s H; try exact I. cbn in H. unfold In_mood2 in H. cbn in H. subst s. apply IH.
Qed.
Lemma twp_run n eid cap : twp (t_run_daemon n eid cap) Fine (after ends).
Proof. unfold t_run_daemon. cbn [twp]. intros ok. split; [exact I|]. destruct ok; [|exact I]. exact (twp_rounds n (TCtx (start eid cap) false) false). Qed.

Fixpoint toks (s : mood) (tr : list tev) : Prop := match tr with [] => True | v :: tr => tok s v /\ toks (tnext s v) tr end.
Lemma twp_sound {A} : forall (p : tprog A) s Q tr e, twp p s Q -> trun p tr e -> toks s tr /\ Q e (fold_left tnext tr s).
Proof.
  induction p as [a| |c k IH|t n k IH|n k IH]; intros s Q tr e H E; cbn [twp trun] in *.
  - destruct E as [-> ->]. split; [exact I|exact H].
  - destruct E as [-> ->]. split; [exact I|exact H].
  - destruct E as (a & r & -> & Ha & E). destruct (H a Ha) as [H1 H2]. destruct (IH a _ _ _ _ H2 E) as [H3 H4]. split; [split; assumption|exact H4].
  - destruct E as (ok & r & -> & E). destruct (H ok) as [H1 H2]. destruct (IH ok _ _ _ _ H2 E) as [H3 H4]. split; [split; assumption|exact H4].
  - destruct E as (l & r & -> & Hl & E). destruct (H l Hl) as [H1 H2]. destruct (IH l _ _ _ _ H2 E) as [H3 H4]. split; [split; assumption|exact H4].
Qed.
Lemma toks_app t1 t2 : forall s, toks s (t1 ++ t2) <-> toks s t1 /\ toks (fold_left tnext t1 s) t2.
Proof. induction t1 as [|e t1 IH]; intros s; cbn; [tauto|]. rewrite IH. tauto. Qed.

(** *** C85.  As long as no table allocation fails, the daemon is the daemon of Daemon.v: it is not
    killed and makes the same calls; and it can do everything that daemon can. *)
Theorem C85_same : forall n eid cap tr e, trun (t_run_daemon n eid cap) tr e -> (forall v, In v tr -> ~ failed v) ->
  exists r r', e = Some r /\ exec (run_daemon n (start eid cap) false) (calls_of tr) r' /\ same_end r r'.
Proof.
  intros n eid cap tr e H F. unfold t_run_daemon in H. cbn [trun] in H. destruct H as (ok & r & -> & H).
  destruct ok; [|exfalso; exact (F _ (or_introl eq_refl) eq_refl)].
  destruct (sim_run _ _ _ _ _ (sim_rounds n (start eid cap) false) (DaemonRun.C50_tables eid cap n) H) as (a & b & -> & HR & HE).
  { intros v Hv. apply F. right. exact Hv. }
  exists a, b. split; [reflexivity|]. split; [exact HE|exact HR].
Qed.
Theorem C85_all : forall n eid cap tr r', exec (run_daemon n (start eid cap) false) tr r' ->
  exists ttr r, trun (t_run_daemon n eid cap) ttr (Some r) /\ (forall v, In v ttr -> ~ failed v) /\ calls_of ttr = tr /\ same_end r r'.
Proof.
  intros n eid cap tr r' H. destruct (sim_back _ _ _ _ _ (sim_rounds n (start eid cap) false) H) as (a & t & H1 & H2 & H3 & H4).
  exists (Table Polling 3 true :: t), a. split; [exists true, t; auto|]. split; [|auto]. intros v [<-|Hv]; [intros Hf; discriminate Hf|exact (H4 v Hv)].
Qed.
(** Up to the first failure it has done nothing else either. *)
Theorem C85_until : forall n eid cap t1 v t2 e, trun (t_run_daemon n eid cap) (t1 ++ v :: t2) e ->
  (forall w, In w t1 -> ~ failed w) -> failed v ->
  exists t r, exec (run_daemon n (start eid cap) false) (calls_of t1 ++ t) r.
Proof.
  intros n eid cap t1 v t2 e H F Hv. unfold t_run_daemon in H. cbn [trun] in H. destruct H as (ok & r & E & H).
  destruct t1 as [|w t1]; cbn in E; injection E as -> <-.
  - destruct (PropStop.progress _ (DaemonRun.C50_tables eid cap n)) as (t & b & Hb). exists t, b. exact Hb.
  - destruct ok; [|exfalso; exact (F _ (or_introl eq_refl) eq_refl)]. cbn [calls_of].
    eapply sim_upto; [apply sim_rounds|apply DaemonRun.C50_tables|exact H| |exact Hv]. intros w Hw. apply F. right. exact Hw.
Qed.
(** A client or poll table that cannot be made is the end: not one call more, the process is killed or
    stops. *)
Theorem C85_grow : forall n eid cap t1 t k t2 e, trun (t_run_daemon n eid cap) (t1 ++ Table t k false :: t2) e ->
  t <> Removing -> t2 = [] /\ (e = None \/ e = Some None).
Proof.
  intros n eid cap t1 t k t2 e H Ht. destruct (twp_sound _ _ _ _ _ (twp_run n eid cap) H) as [Hk Hq].
  apply toks_app in Hk. destruct Hk as [_ [_ Hk]]. rewrite fold_left_app in Hq. cbn [fold_left] in Hq.
  assert (tnext (fold_left tnext t1 Fine) (Table t k false) = Dead) as E by (destruct t; [reflexivity|congruence|reflexivity]).
  rewrite E in Hk, Hq. destruct t2 as [|v t2]; [|destruct Hk as [[] _]]. split; [reflexivity|]. cbn in Hq.
  destruct e as [[[y c]|]|]; [|auto|auto]. exfalso. cbn in Hq. unfold In_mood2, mood_of in Hq. destruct (t_gone (fst (y, c))); discriminate.
Qed.
(** After a client table could not be shrunk the daemon serves nobody until it has accepted another
    client: it only asks for news. *)
Theorem C85_lost : forall n eid cap t1 k t2 t3 e, trun (t_run_daemon n eid cap) (t1 ++ Table Removing k false :: t2 ++ t3) e ->
  (forall j ok, ~ In (Table Accepting j ok) t2) ->
  forall v, In v t2 -> asking v \/ exists j ok, v = Table Polling j ok.
Proof.
  intros n eid cap t1 k t2 t3 e H Hn. destruct (twp_sound _ _ _ _ _ (twp_run n eid cap) H) as [Hk _].
  apply toks_app in Hk. destruct Hk as [_ [_ Hk]]. cbn [tnext] in Hk. apply toks_app in Hk. destruct Hk as [Hk _].
  revert Hn Hk. assert (forall l s, (s = Lost \/ s = Dead) -> (forall j ok, ~ In (Table Accepting j ok) l) -> toks s l ->
    forall v, In v l -> asking v \/ exists j ok, v = Table Polling j ok) as G.
  { induction l as [|v l IH]; intros s Hs Hn Hk w Hw; [destruct Hw|]. destruct Hk as [Hv Hk].
    destruct Hs as [->| ->]; [|destruct Hv].
    assert (tnext Lost v = Lost \/ tnext Lost v = Dead) as X.
    { destruct v as [e0|[] j ok|l0]; cbn [tnext]; [left; reflexivity|exfalso; exact (Hn j ok (or_introl eq_refl))|destruct Hv|destruct ok; auto|left; reflexivity]. }
    destruct Hw as [<-|Hw].
    - destruct v as [e0|[] j ok|l0]; [left; exact Hv|exfalso; exact (Hn j ok (or_introl eq_refl))|destruct Hv|right; eauto|destruct Hv].
    - eapply IH; [exact X| |exact Hk|exact Hw]. intros j ok Hj. exact (Hn j ok (or_intror Hj)). }
  intros Hn Hk. exact (G t2 Lost (or_introl eq_refl) Hn Hk).
Qed.

(** ** What happens after that: the next client revives the table with whatever malloc returned *)
Record luck := Luck { l_call : nat -> forall c, answer c; l_table : nat -> bool; l_junk : nat -> list client }.
Fixpoint tplay {A} (o : luck) (i : nat) (p : tprog A) : list tev * option A :=
  match p with
  | TRet a => ([], Some a)
  | TCrash => ([], None)
  | TDo c k => let (t, e) := tplay o (S i) (k (l_call o i c)) in (Call (Ev c (l_call o i c)) :: t, e)
  | TTable t n k => let (r, e) := tplay o (S i) (k (l_table o i)) in (Table t n (l_table o i) :: r, e)
  | TJunk n k => let (r, e) := tplay o (S i) (k (l_junk o n)) in (Junk (l_junk o n) :: r, e)
  end.
Lemma tplay_run {A} o : (forall i c, allowed c (l_call o i c)) -> (forall n, length (l_junk o n) = n) ->
  forall (p : tprog A) i tr e, tplay o i p = (tr, e) -> trun p tr e.
Proof.
  intros Hc Hj. induction p as [a| |c k IH|t n k IH|n k IH]; intros i tr e E; cbn [tplay] in E.
  - injection E as <- <-. split; reflexivity.
  - injection E as <- <-. split; reflexivity.
  - destruct (tplay o (S i) (k (l_call o i c))) as [t e1] eqn:P. injection E as <- <-. eexists _, t. eauto.
  - destruct (tplay o (S i) (k (l_table o i))) as [r e1] eqn:P. injection E as <- <-. eexists _, r. eauto.
  - destruct (tplay o (S i) (k (l_junk o n))) as [r e1] eqn:P. injection E as <- <-. eexists _, r. eauto.
Qed.
(** Clients 4 and 5 connect, 5 announces type 5; a message for it arrives and cannot be delivered; its
    entry is removed, the table not shrunk; and client 6 connects. *)
Definition bad_day : luck := Luck
  (fun i c => match c return answer c with
    | CClose _ => tt | CSend _ _ => -1 | CRead1 _ => inl 5 | CPeek _ => -1
    | CGrow _ => true | CRecv _ _ => None | CCapture _ _ => tt | CTx _ _ _ _ => 0
    | CAccept => if Nat.ltb i 4 then 4 else if Nat.ltb i 8 then 5 else 6
    | CPoll fds => Some (Ready false (Nat.ltb 9 i) (Nat.ltb i 8 || Nat.ltb 10 i)
                          (map (fun fd => Nat.ltb 6 i && Nat.ltb i 10 && (fd =? 5)) fds))
    | CProcess => ([Msg 9 [5; 0]], 0)
    | CUninit => false
    end)
  (fun i => negb (Nat.eqb i 16)) (fun n => repeat (Client false 77 0) n).
Lemma bad_day_ok : forall i c, allowed c (l_call bad_day i c).
Proof.
  intros i []; cbn [l_call bad_day allowed]; try exact I; try (cbn; lia).
  - unfold is_byte; lia.
  - cbn. rewrite map_length. reflexivity.
  - constructor; [|constructor]. cbn. split; [unfold is_byte; lia|]. repeat (apply Forall_cons; [unfold is_byte; lia|]). apply Forall_nil.
Qed.
Definition accepted (v : tev) : Z := match v with Call (Ev c a) => match c return answer c -> Z with CAccept => fun a => a | _ => fun _ => -1 end a | _ => -1 end.
(** The daemon then acts on descriptors it has never been given: it can close any, its own sockets
    among them. *)
Theorem C85_stale : exists n eid cap tr e fd, trun (t_run_daemon n eid cap) tr e /\
  In (Call (Ev (CClose fd) tt)) tr /\ forall a, In (Call (Ev CAccept a)) tr -> a <> fd.
Proof.
  destruct (tplay bad_day 0 (t_run_daemon 4 8 false)) as [tr e] eqn:E.
  pose proof (tplay_run bad_day bad_day_ok (fun n => repeat_length _ n) _ _ _ _ E) as X.
  vm_compute in E. injection E as <- <-. exists 4%nat, 8, false. do 2 eexists. exists 77. split; [exact X|]. split.
  - repeat first [left; reflexivity|right].
  - intros a H. cbn in H. repeat (destruct H as [H|H]; [apply (f_equal accepted) in H; cbn in H; clear - H; lia|]). destruct H.
Qed.
(** Cases: a table that fails at the first client, and the first message after a failed shrink. *)
Example C85_grow_case : exists tr, trun (t_run_daemon 4 8 false) (tr ++ [Table Accepting 1 false]) None.
Proof.
  set (o := Luck (l_call bad_day) (fun i => Nat.ltb i 3) (l_junk bad_day)).
  destruct (tplay o 0 (t_run_daemon 4 8 false)) as [tr e] eqn:E.
  pose proof (tplay_run o bad_day_ok (fun n => repeat_length _ n) _ _ _ _ E) as X.
  vm_compute in E. injection E as <- <-. match type of X with trun _ (?a :: ?b :: ?c :: _) _ => exists [a; b; c] end. exact X.
Qed.
