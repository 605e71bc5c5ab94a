(** The demultiplexing daemon: C44, C45, C48-C53. *)
From Coq Require Import Permutation.
From Verif Require Import Base Lists Daemon.

(** ** Reading a trace *)
Definition sent (e : ev) : list (Z * list Z) :=
  match e with Ev (CSend fd bs) _ => [(fd, bs)] | _ => [] end.
Definition closed (e : ev) : list Z :=
  match e with Ev (CClose fd) _ => [fd] | _ => [] end.
Definition txd (e : ev) : list (Z * bool * Z * list Z) :=
  match e with Ev (CTx eid o t m) _ => [(eid, o, t, m)] | _ => [] end.
Definition recvd (e : ev) : list (list Z) :=
  match e with
  | Ev c a =>
      match c return answer c -> list (list Z) with
      | CRecv _ _ => fun a => match a with Some bs => [bs] | None => [] end
      | _ => fun _ => []
      end a
  end.
Definition accepted (e : ev) : list Z :=
  match e with
  | Ev c a =>
      match c return answer c -> list Z with
      | CAccept => fun a => if a <? 0 then [] else [a]
      | _ => fun _ => []
      end a
  end.
(** The descriptor a call reads from. *)
Definition reads (e : ev) : list Z :=
  match e with
  | Ev (CRead1 fd) _ | Ev (CPeek fd) _ => [fd]
  | _ => []
  end.
Definition sends tr := flat_map sent tr.
Definition closes tr := flat_map closed tr.
Definition txs tr := flat_map txd tr.
Definition received tr := flat_map recvd tr.
Definition accepts tr := flat_map accepted tr.
Definition reading tr := flat_map reads tr.
Definition socks (l : list client) : list Z := map c_sock l.

(** ** Executions of sequenced programs *)
Lemma exec_bind : forall A B (p : prog A) (f : A -> prog B) tr r,
  exec (bind p f) tr r <->
  exists t1 t2 a, tr = t1 ++ t2 /\ exec p t1 a /\ exec (f a) t2 r.
Proof.
  induction p as [a | |c k IH]; intros f tr r; cbn.
  - split.
    + intros H. exists [], tr, a. auto.
    + intros (t1 & t2 & a' & -> & [-> ->] & H). exact H.
  - split; [tauto|]. intros (? & ? & ? & _ & F & _). exact F.
  - split.
    + intros (a & t & -> & Ha & H). apply IH in H.
      destruct H as (t1 & t2 & b & -> & H1 & H2).
      exists (Ev c a :: t1), t2, b. repeat split; auto.
      exists a, t1. auto.
    + intros (t1 & t2 & b & -> & (a & t & -> & Ha & H1) & H2).
      exists a, (t ++ t2). repeat split; auto.
      apply IH. exists t, t2, b. auto.
Qed.

Lemma crashes_bind : forall A B (p : prog A) (f : A -> prog B),
  crashes (bind p f) ->
  crashes p \/ exists t a, exec p t a /\ crashes (f a).
Proof.
  induction p as [a | |c k IH]; intros f; cbn.
  - intros H. right. exists [], a. auto.
  - auto.
  - intros (a & Ha & H). apply IH in H. destruct H as [H | (t & b & H1 & H2)].
    + left. eauto.
    + right. exists (Ev c a :: t), b. split; [|exact H2]. exists a, t. auto.
Qed.

Ltac ex_bind H t1 t2 a H1 H2 :=
  apply exec_bind in H; destruct H as (t1 & t2 & a & -> & H1 & H2).
Ltac ex_ask H a Ha :=
  cbn [exec ask bind] in H;
  let t := fresh "t" in
  destruct H as (a & t & -> & Ha & [-> ->]).

(** ** Specification of the client table after removal *)

(** What the code leaves behind: after dropping an entry the next one is not
    looked at. *)
Fixpoint swept (l : list client) : list client :=
  match l with
  | [] => []
  | c :: t =>
      if c_active c then c :: swept t
      else match t with
           | [] => []
           | d :: t' => d :: swept t'
           end
  end.
Fixpoint dropped (l : list client) : list Z :=
  match l with
  | [] => []
  | c :: t =>
      if c_active c then dropped t
      else c_sock c :: match t with [] => [] | _ :: t' => dropped t' end
  end.

Lemma pair_ind : forall (P : list client -> Prop),
  P [] -> (forall c, P [c]) ->
  (forall c d t, P t -> P (d :: t) -> P (c :: d :: t)) -> forall l, P l.
Proof.
  intros P H0 H1 H2 l.
  assert (A : P l /\ forall c, P (c :: l)) by
    (induction l as [|c l [IHa IHb]]; split; auto).
  exact (proj1 A).
Qed.

Lemma set_clients_twice : forall x l l',
  set_clients (set_clients x l) l' = set_clients x l'.
Proof. reflexivity. Qed.
Lemma set_clients_same : forall x, set_clients x (d_clients x) = x.
Proof. intros []. reflexivity. Qed.

Lemma nth_mid : forall A (p : list A) c t, nth_error (p ++ c :: t) (length p) = Some c.
Proof. intros. rewrite nth_error_app2, Nat.sub_diag by lia. reflexivity. Qed.
Lemma firstn_mid : forall A (p q : list A), firstn (length p) (p ++ q) = p.
Proof. intros. rewrite firstn_app, firstn_all, Nat.sub_diag, firstn_O, app_nil_r. reflexivity. Qed.
Lemma skipn_mid : forall A (p : list A) c q, skipn (S (length p)) (p ++ c :: q) = q.
Proof.
  intros. rewrite skipn_app. rewrite (skipn_all2 p) by lia.
  replace (S (length p) - length p)%nat with 1%nat by lia. reflexivity.
Qed.
Lemma put_mid : forall A (p : list A) c d q, put (p ++ c :: q) (length p) d = p ++ d :: q.
Proof. intros. unfold put. rewrite firstn_mid, skipn_mid. reflexivity. Qed.

Lemma remove_exact : forall l p fuel x,
  d_clients x = p ++ l -> (length l <= fuel)%nat ->
  forall tr x',
    exec (remove_loop fuel (length p) x) tr x' <->
    tr = map (fun fd => Ev (CClose fd) tt) (dropped l)
    /\ x' = set_clients x (p ++ swept l).
Proof.
  assert (END : forall p fuel x tr x', d_clients x = p ->
            exec (remove_loop fuel (length p) x) tr x' <-> tr = [] /\ x' = x).
  { intros p fuel x tr x' E. destruct fuel; cbn [remove_loop]; [reflexivity|].
    rewrite E, (proj2 (Nat.ltb_ge (length p) (length p))) by lia. reflexivity. }
  induction l as [|c|c d t IH1 IH2] using pair_ind; intros p fuel x E F tr x'.
  - rewrite app_nil_r in E. rewrite END by exact E. cbn. rewrite app_nil_r, <- E, set_clients_same.
    reflexivity.
  - destruct fuel as [|f]; [cbn in F; lia|].
    cbn [remove_loop dropped swept]. unfold client_at. rewrite E at 1.
    rewrite (proj2 (Nat.ltb_lt _ _)) by (rewrite app_length; cbn; lia).
    rewrite E at 1. rewrite nth_mid. cbn [bind].
    destruct (c_active c) eqn:A.
    + replace (S (length p)) with (length (p ++ [c])) by (rewrite app_length; cbn; lia).
      rewrite END by exact E. rewrite <- E, set_clients_same. reflexivity.
    + cbn [ask bind exec]. rewrite E, firstn_mid, skipn_mid, app_nil_r.
      split.
      * intros ([] & t & -> & _ & H).
        destruct f; cbn [remove_loop] in H;
          [|rewrite (proj2 (Nat.ltb_ge _ _)) in H by (cbn; lia)];
          destruct H as [-> ->]; split; reflexivity.
      * intros [-> ->]. exists tt, []. repeat split.
        destruct f; cbn [remove_loop]; [|rewrite (proj2 (Nat.ltb_ge _ _)) by (cbn; lia)];
        split; reflexivity.
  - destruct fuel as [|f]; [cbn in F; lia|].
    cbn [remove_loop]. unfold client_at. rewrite E at 1.
    rewrite (proj2 (Nat.ltb_lt _ _)) by (rewrite app_length; cbn; lia).
    rewrite E at 1. rewrite nth_mid. cbn [bind].
    change (swept (c :: d :: t)) with
      (if c_active c then c :: swept (d :: t) else d :: swept t).
    change (dropped (c :: d :: t)) with
      (if c_active c then dropped (d :: t) else c_sock c :: dropped t).
    destruct (c_active c) eqn:A.
    + replace (S (length p)) with (length (p ++ [c])) by (rewrite app_length; cbn; lia).
      rewrite (IH2 (p ++ [c]) f x) by (rewrite ?E, <- ?app_assoc; cbn in *; auto; lia).
      rewrite <- app_assoc. reflexivity.
    + cbn [ask bind exec]. rewrite E, firstn_mid, skipn_mid.
      replace (S (length p)) with (length (p ++ [d])) by (rewrite app_length; cbn; lia).
      pose proof (IH1 (p ++ [d]) f (set_clients x (p ++ d :: t))) as I.
      specialize (I ltac:(cbn; rewrite <- app_assoc; reflexivity) ltac:(cbn in *; lia)).
      split.
      * intros ([] & t0 & -> & _ & H). apply I in H. destruct H as [-> ->].
        rewrite set_clients_twice, <- app_assoc. split; reflexivity.
      * intros [-> ->]. exists tt, (map (fun fd => Ev (CClose fd) tt) (dropped t)).
        repeat split. apply I. split; [reflexivity|].
        rewrite set_clients_twice, <- app_assoc. reflexivity.
Qed.

(** ** C45: removing closed clients *)

(** The exact effect, for every table. *)
Theorem C45_exact : forall x tr x',
  exec (client_remove_inactive x) tr x' <->
  tr = map (fun fd => Ev (CClose fd) tt) (dropped (d_clients x))
  /\ x' = set_clients x (swept (d_clients x)).
Proof. intros. apply (remove_exact (d_clients x) [] _ x eq_refl (le_n _)). Qed.

(** Clients that are still connected keep their order, and each descriptor of
    the old table is either closed, once, or still in the table. *)
Theorem C45_others : forall x tr x',
  exec (client_remove_inactive x) tr x' ->
  filter c_active (d_clients x') = filter c_active (d_clients x)
  /\ Permutation (socks (d_clients x)) (closes tr ++ socks (d_clients x')).
Proof.
  intros x tr x' H. apply C45_exact in H. destruct H as [-> ->]. cbn [set_clients d_clients].
  assert (C : forall l, closes (map (fun fd => Ev (CClose fd) tt) l) = l).
  { induction l as [|a l IH]; [reflexivity|]. unfold closes in *. cbn. rewrite IH. reflexivity. }
  rewrite C. clear C.
  induction (d_clients x) as [|c|c d t [IH1 IP1] [IH2 IP2]] using pair_ind.
  - split; [reflexivity|apply Permutation_refl].
  - cbn. destruct (c_active c) eqn:A; cbn; rewrite ?A; split; auto.
  - change (swept (c :: d :: t)) with
      (if c_active c then c :: swept (d :: t) else d :: swept t).
    change (dropped (c :: d :: t)) with
      (if c_active c then dropped (d :: t) else c_sock c :: dropped t).
    destruct (c_active c) eqn:A.
    + split.
      * cbn [filter] in *. rewrite A, IH2. reflexivity.
      * unfold socks in *. cbn [map] in *.
        eapply perm_trans; [apply perm_skip; exact IP2|]. apply Permutation_middle.
    + split.
      * cbn [filter] in *. rewrite A, IH1. reflexivity.
      * unfold socks in *. cbn [map Datatypes.app] in *. apply perm_skip.
        eapply perm_trans; [apply perm_skip; exact IP1|]. apply Permutation_middle.
Qed.

Fixpoint no_neighbours (l : list client) : Prop :=
  match l with
  | c :: (d :: _) as t => (c_active c = true \/ c_active d = true) /\ no_neighbours t
  | _ => True
  end.

(** If no two neighbouring entries are closed, all closed ones are removed. *)
Theorem C45_isolated : forall x tr x',
  exec (client_remove_inactive x) tr x' -> no_neighbours (d_clients x) ->
  d_clients x' = filter c_active (d_clients x).
Proof.
  intros x tr x' H. apply C45_exact in H. destruct H as [_ ->]. cbn [set_clients d_clients].
  induction (d_clients x) as [|c|c d t IH1 IH2] using pair_ind; intros N.
  - reflexivity.
  - cbn. destruct (c_active c); reflexivity.
  - destruct N as [N1 N2].
    change (swept (c :: d :: t)) with
      (if c_active c then c :: swept (d :: t) else d :: swept t).
    destruct (c_active c) eqn:A.
    + rewrite IH2 by exact N2. cbn [filter]. rewrite A. reflexivity.
    + destruct N1 as [N1 | N1]; [discriminate|].
      assert (N3 : no_neighbours t) by (destruct t; cbn in *; tauto).
      rewrite IH1 by exact N3. cbn [filter]. rewrite A, N1. reflexivity.
Qed.

(** The claim as one would expect it is false: of two neighbouring closed
    clients one stays, its descriptor open. *)
Theorem C45_refuted :
  ~ (forall x tr x', exec (client_remove_inactive x) tr x' ->
       Forall (fun c => c_active c = true) (d_clients x')).
Proof.
  intros H.
  specialize (H (Ctx 8 4096 [] [Client false 4 1; Client false 5 1] false)
                [Ev (CClose 4) tt]
                (Ctx 8 4096 [] [Client false 5 1] false)).
  assert (E : exec (client_remove_inactive
            (Ctx 8 4096 [] [Client false 4 1; Client false 5 1] false))
            [Ev (CClose 4) tt] (Ctx 8 4096 [] [Client false 5 1] false))
    by (apply C45_exact; split; reflexivity).
  apply H in E. cbn in E. inversion E; subst. discriminate.
Qed.

(** ** C44: forwarding *)

(** The clients of a table a message with first byte [t] goes to. *)
Definition takes (t : Z) (c : client) : bool := c_type c =? t.
Definition addressed (l : list client) (eid : Z) (msg : list Z) : list (Z * list Z) :=
  if zlen msg <? 2 then []
  else map (fun c => (c_sock c, eid :: msg)) (filter (takes (hd 0 msg)) l).

Definition full (len : Z) (e : ev) : Prop :=
  match e with
  | Ev c a =>
      match c return answer c -> Prop with
      | CSend _ _ => fun a => a = len
      | _ => fun _ => True
      end a
  end.

(** [marked type msg eid l tr l']: the loop turned [l] into [l'] with sends [tr]. *)
Inductive marked (t : Z) (bs : list Z) : list client -> list ev -> list client -> bool -> Prop :=
| mk_nil : marked t bs [] [] [] false
| mk_skip : forall c l tr l' r, c_type c <> t -> marked t bs l tr l' r ->
    marked t bs (c :: l) tr (c :: l') r
| mk_ok : forall c l tr l' r, c_type c = t -> marked t bs l tr l' r ->
    marked t bs (c :: l) (Ev (CSend (c_sock c) bs) (zlen bs) :: tr) (c :: l') r
| mk_fail : forall c l tr l' r rc, c_type c = t -> rc <> zlen bs -> marked t bs l tr l' r ->
    marked t bs (c :: l) (Ev (CSend (c_sock c) bs) rc :: tr)
           (Client false (c_sock c) (c_type c) :: l') true.

Lemma forward_marked : forall l p fuel x eid t msg r0 tr x' r',
  d_clients x = p ++ l -> (length l <= fuel)%nat ->
  exec (forward_loop fuel (length p) x eid t msg r0) tr (x', r') ->
  exists l' r, marked t (eid :: msg) l tr l' r
    /\ x' = set_clients x (p ++ l') /\ r' = (r0 || r).
Proof.
  induction l as [|c l IH]; intros p fuel x eid t msg r0 tr x' r' E F H.
  - rewrite app_nil_r in E.
    assert (H0 : tr = [] /\ (x', r') = (x, r0)).
    { destruct fuel; cbn [forward_loop] in H; [exact H|].
      rewrite E, (proj2 (Nat.ltb_ge (length p) (length p))) in H by lia. exact H. }
    destruct H0 as [-> H0]. injection H0 as -> ->.
    exists [], false. split; [constructor|]. rewrite app_nil_r, <- E, set_clients_same.
    rewrite orb_false_r. auto.
  - destruct fuel as [|f]; [cbn in F; lia|]. cbn in F.
    cbn [forward_loop] in H. unfold client_at in H. rewrite E in H at 1.
    rewrite (proj2 (Nat.ltb_lt _ _)) in H by (rewrite app_length; cbn; lia).
    rewrite E in H at 1. rewrite nth_mid in H. cbn [bind] in H.
    replace (S (length p)) with (length (p ++ [c])) in H by (rewrite app_length; cbn; lia).
    assert (E' : d_clients x = (p ++ [c]) ++ l) by (rewrite <- app_assoc; exact E).
    destruct (c_type c =? t) eqn:T; cbn [negb] in H.
    + apply Z.eqb_eq in T.
      apply exec_bind in H. destruct H as (t1 & t2 & rc & -> & H1 & H2).
      ex_ask H1 a0 Ha0. 
      assert (ZL : zlen (eid :: msg) = zlen msg + 1) by (rewrite zlen_cons; lia).
      destruct (a0 =? zlen msg + 1) eqn:R; cbn [negb] in H2.
      * apply Z.eqb_eq in R. rewrite <- ZL in R. subst a0.
        apply (IH (p ++ [c])) in H2; [|exact E'|lia].
        destruct H2 as (l' & r & M & -> & ->).
        exists (c :: l'), r. split; [|rewrite <- app_assoc; auto].
        cbn. apply mk_ok; auto.
      * apply Z.eqb_neq in R. rewrite <- ZL in R.
        rewrite E, put_mid in H2.
        set (d := Client false (c_sock c) (c_type c)) in *.
        replace (length (p ++ [c])) with (length (p ++ [d])) in H2
          by (rewrite !app_length; reflexivity).
        apply (IH (p ++ [d])) in H2; [|cbn; rewrite <- app_assoc; reflexivity|lia].
        destruct H2 as (l' & r & M & -> & ->).
        exists (d :: l'), true. split; [|rewrite set_clients_twice, <- app_assoc, orb_true_r; auto].
        cbn. eapply mk_fail; eauto.
    + apply Z.eqb_neq in T.
      apply (IH (p ++ [c])) in H; [|exact E'|lia].
      destruct H as (l' & r & M & -> & ->).
      exists (c :: l'), r. split; [|rewrite <- app_assoc; auto].
      apply mk_skip; auto.
Qed.

Lemma sends_app : forall a b, sends (a ++ b) = sends a ++ sends b.
Proof. intros. unfold sends. apply flat_map_app. Qed.
Lemma closes_app : forall a b, closes (a ++ b) = closes a ++ closes b.
Proof. intros. unfold closes. apply flat_map_app. Qed.
Lemma txs_app : forall a b, txs (a ++ b) = txs a ++ txs b.
Proof. intros. unfold txs. apply flat_map_app. Qed.
Lemma received_app : forall a b, received (a ++ b) = received a ++ received b.
Proof. intros. unfold received. apply flat_map_app. Qed.
Lemma accepts_app : forall a b, accepts (a ++ b) = accepts a ++ accepts b.
Proof. intros. unfold accepts. apply flat_map_app. Qed.
Lemma reading_app : forall a b, reading (a ++ b) = reading a ++ reading b.
Proof. intros. unfold reading. apply flat_map_app. Qed.

(** The only events removal produces are closes. *)
Lemma closes_only : forall l,
  sends (map (fun fd => Ev (CClose fd) tt) l) = []
  /\ txs (map (fun fd => Ev (CClose fd) tt) l) = []
  /\ received (map (fun fd => Ev (CClose fd) tt) l) = []
  /\ accepts (map (fun fd => Ev (CClose fd) tt) l) = []
  /\ reading (map (fun fd => Ev (CClose fd) tt) l) = []
  /\ closes (map (fun fd => Ev (CClose fd) tt) l) = l.
Proof.
  induction l as [|a l (A & B & C & D & E & F)]; [repeat split|].
  unfold sends, txs, received, accepts, reading, closes in *. cbn.
  rewrite A, B, C, D, E, F. repeat split.
Qed.

Lemma marked_events : forall t bs l tr l' r, marked t bs l tr l' r ->
  sends tr = map (fun c => (c_sock c, bs)) (filter (takes t) l)
  /\ txs tr = [] /\ received tr = [] /\ accepts tr = [] /\ reading tr = [] /\ closes tr = [].
Proof.
  induction 1 as [|c l tr l' r N M (A & B & C & D & E & F)
                  |c l tr l' r N M (A & B & C & D & E & F)
                  |c l tr l' r rc N R M (A & B & C & D & E & F)].
  - repeat split.
  - cbn [filter]. unfold takes at 1. rewrite (proj2 (Z.eqb_neq _ _) N). repeat split; auto.
  - cbn [filter]. unfold takes at 1. rewrite N, Z.eqb_refl.
    unfold sends, txs, received, accepts, reading, closes in *. cbn.
    rewrite A. repeat split; auto.
  - cbn [filter]. unfold takes at 1. rewrite N, Z.eqb_refl.
    unfold sends, txs, received, accepts, reading, closes in *. cbn.
    rewrite A. repeat split; auto.
Qed.

(** rx_message in one lemma. *)
Lemma rx_shape : forall x eid msg tr x',
  exec (rx_message x eid msg) tr x' ->
  (zlen msg < 2 /\ tr = [] /\ x' = x)
  \/ (2 <= zlen msg /\ exists u l' r tr1 tr2,
        tr = Ev CUninit u :: tr1 ++ tr2
        /\ marked (hd 0 msg) (eid :: msg) (d_clients x) tr1 l' r
        /\ (if u || r
            then tr2 = map (fun fd => Ev (CClose fd) tt) (dropped l')
                 /\ x' = set_clients x (swept l')
            else tr2 = [] /\ x' = set_clients x l')).
Proof.
  intros x eid msg tr x' H. unfold rx_message in H.
  destruct (zlen msg <? 2) eqn:L.
  - apply Z.ltb_lt in L. destruct H as [-> ->]. left. auto.
  - apply Z.ltb_ge in L. right. split; [exact L|].
    apply exec_bind in H. destruct H as (t1 & t2 & u & -> & H1 & H2).
    ex_ask H1 a0 Ha0. 
    apply exec_bind in H2. destruct H2 as (t1 & t3 & [x1 r'] & -> & H1 & H2).
    apply (forward_marked (d_clients x) []) in H1; [|reflexivity|lia].
    destruct H1 as (l' & r & M & -> & ->). cbn [Datatypes.app] in *.
    exists a0, l', r, t1, t3. split; [reflexivity|]. split; [exact M|].
    destruct (a0 || r).
    + apply C45_exact in H2. exact H2.
    + exact H2.
Qed.

(** What the daemon sends for a message, for every table, message and answer. *)
Theorem C44_forward : forall x eid msg tr x',
  exec (rx_message x eid msg) tr x' ->
  sends tr = addressed (d_clients x) eid msg /\ txs tr = [].
Proof.
  intros x eid msg tr x' H. apply rx_shape in H. unfold addressed.
  destruct H as [(L & -> & ->) | (L & u & l' & r & tr1 & tr2 & -> & M & H)].
  - rewrite (proj2 (Z.ltb_lt _ _) L). split; reflexivity.
  - rewrite (proj2 (Z.ltb_ge _ _) L).
    destruct (marked_events _ _ _ _ _ _ M) as (A & B & _).
    assert (C : sends tr2 = [] /\ txs tr2 = []).
    { destruct (u || r); destruct H as [-> _]; [|split; reflexivity].
      destruct (closes_only (dropped l')) as (P & Q & _). auto. }
    destruct C as [C D]. change (Ev CUninit u :: tr1 ++ tr2) with ([Ev CUninit u] ++ tr1 ++ tr2).
    rewrite !sends_app, !txs_app, A, B, C, D, app_nil_r. split; reflexivity.
Qed.

Lemma swept_active : forall l c, In c l -> c_active c = true -> In c (swept l).
Proof.
  induction l as [|c|c d t IH1 IH2] using pair_ind; intros a I A.
  - destruct I.
  - destruct I as [-> | []]. cbn. rewrite A. left. reflexivity.
  - change (swept (c :: d :: t)) with
      (if c_active c then c :: swept (d :: t) else d :: swept t).
    destruct (c_active c) eqn:B.
    + destruct I as [-> | I]; [left; reflexivity|]. right. apply IH2; auto.
    + destruct I as [-> | [-> | I]]; [congruence|left; reflexivity|]. right. apply IH1; auto.
Qed.
Lemma swept_incl : forall l c, In c (swept l) -> In c l.
Proof.
  induction l as [|c|c d t IH1 IH2] using pair_ind; intros a I.
  - destruct I.
  - cbn in I. destruct (c_active c); [exact I|destruct I].
  - change (swept (c :: d :: t)) with
      (if c_active c then c :: swept (d :: t) else d :: swept t) in I.
    destruct (c_active c).
    + destruct I as [-> | I]; [left; reflexivity|]. right. apply IH2. exact I.
    + destruct I as [-> | I]; [right; left; reflexivity|]. right. right. apply IH1. exact I.
Qed.

(** A connected client stays, unless sending to it failed. *)
Theorem C44_keeps : forall x eid msg tr x' c,
  exec (rx_message x eid msg) tr x' ->
  In c (d_clients x) -> c_active c = true ->
  (forall bs rc, In (Ev (CSend (c_sock c) bs) rc) tr -> rc = zlen msg + 1) ->
  In c (d_clients x').
Proof.
  intros x eid msg tr x' c H I A F. apply rx_shape in H.
  destruct H as [(L & -> & ->) | (L & u & l' & r & tr1 & tr2 & -> & M & H)]; [exact I|].
  assert (In c l').
  { assert (F' : forall bs rc, In (Ev (CSend (c_sock c) bs) rc) tr1 -> rc = zlen (eid :: msg)).
    { intros bs rc J. rewrite zlen_cons. rewrite (F bs rc); [lia|]. right. apply in_or_app. auto. }
    clear - M I A F'. induction M as [|d l tr l' r N M IH|d l tr l' r N M IH|d l tr l' r rc N R M IH].
    - destruct I.
    - destruct I as [-> | I]; [left; reflexivity|]. right. auto.
    - destruct I as [-> | I]; [left; reflexivity|]. right. apply IH; auto. intros; apply (F' bs). right. exact H.
    - destruct I as [-> | I].
      + exfalso. apply R. apply (F' (eid :: msg)). left. reflexivity.
      + right. apply IH; auto. intros; apply (F' bs). right. exact H. }
  destruct (u || r); destruct H as [_ ->]; cbn; auto using swept_active.
Qed.

(** *** A concrete case: two of three clients take type 5, one refuses. *)
Definition three := Ctx 8 4096 [4;6;7] [Client true 4 5; Client true 6 1; Client true 7 5] false.
Theorem C44_case :
  exists tr x', exec (rx_message three 9 [5; 1; 2]) tr x'
    /\ sends tr = [(4, [9; 5; 1; 2]); (7, [9; 5; 1; 2])]
    /\ closes tr = [4]
    /\ d_clients x' = [Client true 6 1; Client true 7 5].
Proof.
  exists [Ev CUninit false; Ev (CSend 4 [9;5;1;2]) (-1); Ev (CSend 7 [9;5;1;2]) 4; Ev (CClose 4) tt].
  exists (Ctx 8 4096 [4;6;7] [Client true 6 1; Client true 7 5] false).
  split; [|repeat split].
  cbn. exists false. eexists. split; [reflexivity|]. split; [exact I|].
  exists (-1). eexists. split; [reflexivity|]. split; [exact I|]. cbn.
  exists 4. eexists. split; [reflexivity|]. split; [exact I|]. cbn.
  exists tt. eexists. split; [reflexivity|]. repeat split.
Qed.
