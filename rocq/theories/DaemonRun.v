(** The demultiplexing daemon over whole runs: C44 (who may receive), C48-C53. *)
From Coq Require Import Permutation.
From Verif Require Import Base Lists Daemon PropDaemon.

(** ** Specification over traces *)

(** mctp_message_tx calls that a received datagram calls for: the first byte is
    the destination, the rest the message; the daemon's own EID is not sent. *)
Definition outgoing (local : Z) (bs : list Z) : list (Z * bool * Z * list Z) :=
  match bs with
  | [] => []
  | eid :: msg => if eid =? local then [] else [(eid, true, 0, msg)]
  end.

(** [fd] announced type [t] in [tr]. *)
Definition announced (tr : list ev) (fd t : Z) : Prop := In (Ev (CRead1 fd) (inl t)) tr.

(** [bs] was delivered by the MCTP stack (source EID first) in [tr]. *)
Definition delivered (tr : list ev) (bs : list Z) : Prop :=
  exists ms rc m, In (Ev CProcess (ms, rc)) tr /\ In m ms /\ bs = m_src m :: m_bytes m.

(** ** One relation for every part of the daemon *)
Record moves (ms : list (list Z)) (x : ctx) (tr : list ev) (x' : ctx) : Prop := {
  mv_eid : d_eid x' = d_eid x;
  mv_fds : d_fds x' = d_fds x;
  mv_len : (length (d_clients x') <= length (d_clients x) + length (accepts tr))%nat;
  mv_acc : Permutation (socks (d_clients x) ++ accepts tr) (closes tr ++ socks (d_clients x'));
  mv_tx : txs tr = flat_map (outgoing (d_eid x)) (received tr);
  mv_type : forall c', In c' (d_clients x') ->
     c_type c' = 0 \/ announced tr (c_sock c') (c_type c')
     \/ exists c, In c (d_clients x) /\ c_sock c = c_sock c' /\ c_type c = c_type c';
  mv_send : forall t1 t2 fd eid t m rc,
     tr = t1 ++ Ev (CSend fd (eid :: t :: m)) rc :: t2 ->
     t = 0 \/ announced t1 fd t
     \/ exists c, In c (d_clients x) /\ c_sock c = fd /\ c_type c = t;
  mv_from : forall fd bs, In (fd, bs) (sends tr) ->
     2 <= zlen bs - 1 /\ (In bs ms \/ delivered tr bs \/ (In bs (received tr) /\ hd 0 bs = d_eid x))
}.

Lemma announced_app_l : forall a b fd t, announced a fd t -> announced (a ++ b) fd t.
Proof. intros. apply in_or_app. auto. Qed.
Lemma announced_app_r : forall a b fd t, announced b fd t -> announced (a ++ b) fd t.
Proof. intros. apply in_or_app. auto. Qed.

Lemma moves_refl : forall ms x, moves ms x [] x.
Proof.
  intros. constructor; auto.
  - lia.
  - cbn. rewrite app_nil_r. apply Permutation_refl.
  - intros c' I. right. right. exists c'. auto.
  - intros t1 t2 fd eid t m rc E. destruct t1; discriminate.
  - intros fd bs [].
Qed.

Lemma app_split : forall A (a b c d : list A), a ++ b = c ++ d ->
  (exists e, c = a ++ e /\ b = e ++ d) \/ (exists e, a = c ++ e /\ d = e ++ b).
Proof.
  induction a as [|h a IH]; intros b c d E.
  - left. exists c. auto.
  - destruct c as [|k c].
    + right. exists (h :: a). auto.
    + cbn in E. injection E as -> E. apply IH in E.
      destruct E as [(e & -> & ->) | (e & -> & ->)]; [left|right]; exists e; auto.
Qed.

Lemma moves_trans : forall ms x t1 y t2 z,
  moves ms x t1 y -> moves ms y t2 z -> moves ms x (t1 ++ t2) z.
Proof.
  intros ms x t1 y t2 z [E1 F1 L1 A1 T1 K1 S1 R1] [E2 F2 L2 A2 T2 K2 S2 R2].
  constructor.
  - congruence.
  - congruence.
  - rewrite accepts_app, app_length. lia.
  - rewrite accepts_app, closes_app.
    rewrite app_assoc.
    eapply perm_trans; [apply Permutation_app_tail; exact A1|].
    rewrite <- !app_assoc. apply Permutation_app_head. exact A2.
  - rewrite txs_app, received_app, flat_map_app, T1, T2, E1. reflexivity.
  - intros c' I. destruct (K2 c' I) as [H | [H | (c & Ic & Hs & Ht)]]; auto using announced_app_r.
    destruct (K1 c Ic) as [H | [H | (d & Id & Hs' & Ht')]].
    + left. congruence.
    + right. left. rewrite <- Hs, <- Ht. apply announced_app_l. exact H.
    + right. right. exists d. repeat split; congruence.
  - intros a b fd eid t m rc E. apply app_split in E.
    destruct E as [(e & -> & E) | (e & E & E')].
    + destruct (S2 _ _ _ _ _ _ _ E) as [H | [H | (c & Ic & <- & <-)]]; auto using announced_app_r.
      destruct (K1 c Ic) as [H | [H | H]]; auto using announced_app_l.
    + destruct e as [|h e].
      * cbn in E'. destruct (S2 [] b fd eid t m rc (eq_sym E')) as [H | [H | (c & Ic & <- & <-)]]; auto.
        -- destruct H.
        -- rewrite app_nil_r in E. subst a. destruct (K1 c Ic) as [H | [H | H]]; auto.
      * cbn in E'. injection E' as <- E'. eapply S1. exact E.
  - intros fd bs I. rewrite sends_app in I. apply in_app_or in I.
    assert (D : forall u v bs, delivered u bs \/ delivered v bs -> delivered (u ++ v) bs).
    { intros u v q [(p & r & m & Hi & Hm) | (p & r & m & Hi & Hm)];
        exists p, r, m; split; auto; apply in_or_app; auto. }
    rewrite received_app.
    destruct I as [I | I].
    + destruct (R1 _ _ I) as (N & [H | [H | [H H']]]); split; auto.
      right. right. split; [apply in_or_app; auto|exact H'].
    + destruct (R2 _ _ I) as (N & [H | [H | [H H']]]); split; auto.
      right. right. split; [apply in_or_app; auto|congruence].
Qed.

(** A harmless event: not one the relation looks at. *)
Lemma moves_cons : forall ms x e tr x',
  sent e = [] -> closed e = [] -> txd e = [] -> recvd e = [] -> accepted e = [] ->
  moves ms x tr x' -> moves ms x (e :: tr) x'.
Proof.
  intros ms x e tr x' A B C D E H. change (e :: tr) with ([e] ++ tr).
  eapply moves_trans; [|exact H].
  constructor; auto.
  - lia.
  - unfold accepts, closes. cbn. rewrite B, E. cbn. rewrite app_nil_r. apply Permutation_refl.
  - unfold txs, received. cbn. rewrite C, D. reflexivity.
  - intros c' I. right. right. exists c'. auto.
  - intros t1 t2 fd eid t m rc Q. destruct t1 as [|? t1].
    + cbn in Q. injection Q as ->. discriminate.
    + destruct t1; discriminate.
  - intros fd bs I. unfold sends in I. cbn in I. rewrite A in I. destruct I.
Qed.

Lemma socks_map : forall l, socks l = map c_sock l. Proof. reflexivity. Qed.

(** Replacing one entry by another with the same descriptor. *)
Lemma put_nth : forall (l : list client) i c d,
  nth_error l i = Some c ->
  put l i d = firstn i l ++ d :: skipn (S i) l /\ l = firstn i l ++ c :: skipn (S i) l.
Proof.
  intros l i c d H. split; [reflexivity|].
  revert i H. induction l as [|a l IH]; intros i H; destruct i; cbn in *; try discriminate.
  - injection H as ->. reflexivity.
  - f_equal. apply IH. exact H.
Qed.

Lemma moves_put : forall ms x i c d tr,
  nth_error (d_clients x) i = Some c -> c_sock d = c_sock c ->
  sends tr = [] -> closes tr = [] -> txs tr = [] -> received tr = [] -> accepts tr = [] ->
  (c_type d = c_type c \/ announced tr (c_sock d) (c_type d)) ->
  moves ms x tr (set_clients x (put (d_clients x) i d)).
Proof.
  intros ms x i c d tr N Sk A B C D E T.
  destruct (put_nth _ _ _ d N) as [P Q].
  constructor; cbn [d_eid d_fds d_clients set_clients]; auto.
  - rewrite P. rewrite Q at 3. rewrite !app_length. cbn. lia.
  - rewrite B, E, app_nil_r. cbn. unfold socks. rewrite P. rewrite Q at 1.
    rewrite !map_app. cbn. rewrite Sk. apply Permutation_refl.
  - rewrite C, D. reflexivity.
  - intros c' I. rewrite P in I. apply in_app_or in I.
    destruct I as [I | [<- | I]].
    + right. right. exists c'. split; auto. rewrite Q. apply in_or_app. auto.
    + destruct T as [T | T]; auto. right. right. exists c.
      split; auto. rewrite Q. apply in_or_app. right. left. reflexivity.
    + right. right. exists c'. split; auto. rewrite Q. apply in_or_app. right. right. exact I.
  - intros t1 t2 fd eid t m rc F. exfalso. subst tr. rewrite sends_app in A.
    apply app_eq_nil in A. destruct A as [_ A]. discriminate.
  - intros fd bs I. rewrite A in I. destruct I.
Qed.

Lemma marked_socks : forall t bs l tr l' r, marked t bs l tr l' r -> socks l' = socks l.
Proof. induction 1; cbn; f_equal; auto. Qed.
Lemma marked_types : forall t bs l tr l' r, marked t bs l tr l' r ->
  forall c', In c' l' -> exists c, In c l /\ c_sock c = c_sock c' /\ c_type c = c_type c'.
Proof.
  induction 1 as [|c l tr l' r N M IH|c l tr l' r N M IH|c l tr l' r rc N R M IH]; intros c' I.
  - destruct I.
  - destruct I as [<- | I]; [exists c; cbn; auto|]. destruct (IH _ I) as (d & Hd & H). exists d; cbn; auto.
  - destruct I as [<- | I]; [exists c; cbn; auto|]. destruct (IH _ I) as (d & Hd & H). exists d; cbn; auto.
  - destruct I as [<- | I]; [exists c; cbn; auto|]. destruct (IH _ I) as (d & Hd & H). exists d; cbn; auto.
Qed.
Lemma marked_send : forall t bs l tr l' r, marked t bs l tr l' r ->
  forall fd b rc, In (Ev (CSend fd b) rc) tr ->
  b = bs /\ exists c, In c l /\ c_sock c = fd /\ c_type c = t.
Proof.
  assert (INJ : forall f g p q (a : Z) (b : Z), Ev (CSend f p) a = Ev (CSend g q) b -> f = g /\ p = q)
    by (intros; injection H; auto).
  induction 1 as [|c l tr l' r N M IH|c l tr l' r N M IH|c l tr l' r rc N R M IH]; intros fd b rc' I.
  - destruct I.
  - destruct (IH _ _ _ I) as (? & d & Hd & H). split; auto. exists d; cbn; auto.
  - destruct I as [E | I].
    + apply INJ in E. destruct E as [<- <-]. split; auto. exists c; cbn; auto.
    + destruct (IH _ _ _ I) as (? & d & Hd & H). split; auto. exists d; cbn; auto.
  - destruct I as [E | I].
    + apply INJ in E. destruct E as [<- <-]. split; auto. exists c; cbn; auto.
    + destruct (IH _ _ _ I) as (? & d & Hd & H). split; auto. exists d; cbn; auto.
Qed.
Lemma marked_length : forall t bs l tr l' r, marked t bs l tr l' r -> length l' = length l.
Proof. induction 1; cbn; auto. Qed.

Lemma swept_length : forall l, (length (swept l) <= length l)%nat.
Proof.
  induction l as [|c|c d t IH1 IH2] using pair_ind; cbn.
  - lia.
  - destruct (c_active c); cbn; lia.
  - destruct (c_active c).
    + cbn in *. lia.
    + cbn. lia.
Qed.

Lemma moves_remove : forall ms x tr x',
  exec (client_remove_inactive x) tr x' -> moves ms x tr x'.
Proof.
  intros ms x tr x' H. destruct (C45_others _ _ _ H) as [_ P].
  apply C45_exact in H. destruct H as [-> ->].
  destruct (closes_only (dropped (d_clients x))) as (A & B & C & D & _ & F).
  constructor; cbn [d_eid d_fds d_clients set_clients] in *; auto.
  - pose proof (swept_length (d_clients x)). lia.
  - rewrite D, app_nil_r. exact P.
  - rewrite B, C. reflexivity.
  - intros c' I. apply swept_incl in I. right. right. exists c'. auto.
  - intros t1 t2 fd eid t m rc Q. exfalso. rewrite Q, sends_app in A.
    apply app_eq_nil in A. destruct A as [_ A]. discriminate.
  - intros fd bs I. rewrite A in I. destruct I.
Qed.

Lemma moves_rx : forall ms x eid msg tr x',
  exec (rx_message x eid msg) tr x' -> In (eid :: msg) ms -> moves ms x tr x'.
Proof.
  intros ms x eid msg tr x' H J. apply rx_shape in H.
  destruct H as [(L & -> & ->) | (L & u & l' & r & tr1 & tr2 & -> & M & H)]; [apply moves_refl|].
  apply moves_cons; try reflexivity.
  apply moves_trans with (y := set_clients x l').
  - destruct (marked_events _ _ _ _ _ _ M) as (A & B & C & D & _ & F).
    constructor; cbn [d_eid d_fds d_clients set_clients]; auto.
    + rewrite (marked_length _ _ _ _ _ _ M). lia.
    + rewrite D, F, app_nil_r, (marked_socks _ _ _ _ _ _ M). apply Permutation_refl.
    + rewrite B, C. reflexivity.
    + intros c' I. right. right. eapply marked_types; eauto.
    + intros t1 t2 fd e t m rc E. right. right.
      destruct (marked_send _ _ _ _ _ _ M fd (e :: t :: m) rc) as (E1 & c & Ic & S1 & S2).
      { rewrite E. apply in_or_app. right. left. reflexivity. }
      injection E1 as -> <-. exists c. auto.
    + intros fd bs I. rewrite A in I. apply in_map_iff in I. destruct I as (c & E & _).
      injection E as _ <-. rewrite zlen_cons. split; [lia|]. auto.
  - destruct (u || r).
    + apply moves_remove. apply C45_exact. exact H.
    + destruct H as [-> ->]. apply moves_refl.
Qed.

Lemma moves_weaken : forall ms ms' x tr x',
  moves ms x tr x' ->
  (forall bs, In bs ms -> In bs ms' \/ (In bs (received tr) /\ hd 0 bs = d_eid x) \/ delivered tr bs) ->
  moves ms' x tr x'.
Proof.
  intros ms ms' x tr x' [E F L A T K S R] W. constructor; auto.
  intros fd bs I. destruct (R _ _ I) as (N & [H | [H | H]]); split; auto.
  destruct (W _ H) as [W1 | [W1 | W1]]; auto.
Qed.

Lemma moves_bufsize : forall ms x n tr x',
  moves ms (set_bufsize x n) tr x' -> moves ms x tr x'.
Proof. intros ms x n tr x' [E F L A T K S R]. constructor; auto. Qed.

Lemma moves_recv : forall x i tr x' rc,
  exec (client_process_recv x i) tr (x', rc) -> moves [] x tr x'.
Proof.
  intros x i tr x' rc H. unfold client_process_recv, client_at in H.
  destruct (nth_error (d_clients x) i) as [c|] eqn:N; [|destruct H].
  cbn [bind] in H.
  destruct (c_type c =? 0) eqn:T.
  - apply exec_bind in H. destruct H as (t1 & t2 & r & -> & H1 & H2). ex_ask H1 a Ha.
    destruct a as [b|e].
    + destruct (b =? 0).
      * destruct H2 as [-> H2]. injection H2 as -> ->. apply (moves_put _ _ _ c); auto.
      * destruct H2 as [-> H2]. injection H2 as -> ->. apply (moves_put _ _ _ c); auto.
        right. left. reflexivity.
    + destruct H2 as [-> H2]. injection H2 as -> ->. apply (moves_put _ _ _ c); auto.
  - apply exec_bind in H. destruct H as (t1 & t2 & len & -> & H1 & H2). ex_ask H1 a Ha.
    apply moves_cons; try reflexivity.
    destruct (a <? 0) eqn:LN.
    { destruct H2 as [-> H2]. injection H2 as -> ->. apply (moves_put _ _ _ c); auto. }
    apply exec_bind in H2. destruct H2 as (t1 & t3 & [y ok] & -> & H1 & H2).
    assert (G : moves [] x t1 y /\ d_clients y = d_clients x /\ (exists n, y = set_bufsize x n)
                /\ received t1 = []).
    { destruct (d_bufsize x <? a).
      - apply exec_bind in H1. destruct H1 as (q & q2 & g & -> & H1 & H3). ex_ask H1 b Hb.
        destruct H3 as [-> H3]. rewrite app_nil_r.
        assert (y = set_bufsize x a \/ y = x) by (destruct b; injection H3; auto).
        destruct H; subst y; (split; [|split; [reflexivity|split; [|reflexivity]]]).
        + apply moves_cons; try reflexivity. apply (moves_bufsize _ x a). apply moves_refl.
        + eauto.
        + apply moves_cons; try reflexivity. apply moves_refl.
        + exists (d_bufsize x). destruct x; reflexivity.
      - destruct H1 as [-> H1]. injection H1 as -> ->.
        split; [apply moves_refl|]. repeat split. exists (d_bufsize x). destruct x; reflexivity. }
    destruct G as (G1 & G2 & (bn & G3) & G4).
    apply moves_trans with (y := y); [exact G1|].
    clear G1.
    destruct ok; cbn [negb] in H2.
    2: { destruct H2 as [-> H2]. injection H2 as -> ->. apply (moves_put _ _ _ c); auto; rewrite G2; exact N. }
    apply exec_bind in H2. destruct H2 as (q1 & q2 & bs & -> & H1' & H2). ex_ask H1' b Hb.
    assert (D : exec (out_close y i c (-1)) q2 (x', rc) -> recvd (Ev (CRecv (c_sock c) (d_bufsize y)) b) = [] \/ b = Some [] ->
                moves [] y ([Ev (CRecv (c_sock c) (d_bufsize y)) b] ++ q2) x').
    { intros [-> Q] HB. injection Q as -> ->. rewrite app_nil_r.
      destruct HB as [HB | ->].
      - apply moves_cons; try reflexivity; auto. apply (moves_put _ _ _ c); auto; rewrite G2; exact N.
      - rewrite <- (app_nil_r [_]). apply moves_trans with (y := y).
        + constructor; auto; try reflexivity.
          * lia.
          * cbn. rewrite app_nil_r. apply Permutation_refl.
          * intros c' I. right. right. exists c'. auto.
          * intros t1' t2 fd eid t m rc' E. destruct t1' as [|? [|]]; discriminate.
          * intros fd bs [].
        + apply (moves_put _ _ _ c); auto; rewrite G2; exact N. }
    destruct b as [[|eid msg]|]; [apply D; auto| |apply D; auto].
    clear D. apply exec_bind in H2. destruct H2 as (q1 & q3 & [] & -> & H1' & H2).
    assert (Q : forall tr z, moves [] y (Ev (CRecv (c_sock c) (d_bufsize y)) (Some (eid :: msg)) :: tr) z ->
              moves [] y (Ev (CRecv (c_sock c) (d_bufsize y)) (Some (eid :: msg)) :: q1 ++ tr) z).
    { intros tr z HM. destruct (d_capture y); [|destruct H1' as [-> _]; exact HM].
      cbn [exec ask] in H1'. destruct H1' as (b0 & t0 & -> & _ & [-> _]).
      (* the capture event sits between; it is harmless *)
      set (e := Ev (CRecv (c_sock c) (d_bufsize y)) (Some (eid :: msg))) in *.
      set (k := Ev (CCapture (eid :: msg) eid) b0).
      destruct HM as [M1 M2 M3 M4 M5 M6 M7 M8]. constructor; auto.
      - intros c' I. destruct (M6 _ I) as [? | [A | ?]]; auto. right. left.
        destruct A as [A | A]; [discriminate|]. right. right. exact A.
      - intros t1' t2 fd e0 t m rc' E.
        destruct t1' as [|h [|h2 t1']]; cbn in E; try discriminate.
        injection E as <- <- E.
        destruct (M7 (e :: t1') t2 fd e0 t m rc') as [? | [A | ?]]; auto.
        { cbn. rewrite E. reflexivity. }
        right. left. destruct A as [A | A]; [discriminate|]. right. right. exact A.
      - intros fd bs I. destruct (M8 fd bs I) as (HN & HA). split; auto.
        destruct HA as [HA | [HA | HA]]; auto. right. left.
        destruct HA as (ms & rc' & m & Hi & Hm). exists ms, rc', m. split; auto.
        destruct Hi as [Hi | Hi]; [discriminate|]. right. right. exact Hi. }
    cbn [Datatypes.app] in *. apply Q. clear Q.
    destruct (eid =? d_eid y) eqn:LE.
    + apply Z.eqb_eq in LE.
      apply exec_bind in H2. destruct H2 as (w1 & w2 & z & -> & H3 & H4).
      destruct H4 as [-> H4]. injection H4 as -> ->. rewrite app_nil_r.
      apply (moves_rx [eid :: msg]) in H3; [|left; reflexivity].
      destruct H3 as [M1 M2 M3 M4 M5 M6 M7 M8]. constructor; auto.
      * change (txs (Ev (CRecv (c_sock c) (d_bufsize y)) (Some (eid :: msg)) :: w1)) with (txs w1).
        change (received (Ev (CRecv (c_sock c) (d_bufsize y)) (Some (eid :: msg)) :: w1))
          with ((eid :: msg) :: received w1).
        cbn [flat_map outgoing]. rewrite (proj2 (Z.eqb_eq _ _) LE). exact M5.
      * intros c' I. destruct (M6 _ I) as [? | [A | ?]]; auto. right. left. right. exact A.
      * intros t1' t2 fd e0 t m rc' E.
        destruct t1' as [|h t1']; cbn in E; [discriminate|]. injection E as <- E.
        destruct (M7 t1' t2 fd e0 t m rc' E) as [? | [A | ?]]; auto.
        right. left. right. exact A.
      * intros fd bs I. destruct (M8 fd bs I) as (HN & HA). split; auto.
        destruct HA as [HA | [HA | HA]].
        -- destruct HA as [<- | []]. right. right. split; [left; reflexivity|exact LE].
        -- right. left. destruct HA as (ms & rc' & m & Hi & Hm). exists ms, rc', m. split; auto. right. exact Hi.
        -- right. right. destruct HA as [HA HA']. split; auto. right. exact HA.
    + apply exec_bind in H2. destruct H2 as (w1 & w2 & z & -> & H3 & H4).
      ex_ask H3 b0 Hb0. destruct H4 as [-> H4]. injection H4 as -> ->.
      cbn [Datatypes.app].
      constructor; auto.
      * lia.
      * cbn. rewrite app_nil_r. apply Permutation_refl.
      * unfold received, txs. cbn. rewrite LE. reflexivity.
      * intros c' I. right. right. exists c'. auto.
      * intros t1' t2 fd e0 t m rc' E. destruct t1' as [|? [|? [|]]]; discriminate.
      * intros fd bs [].
Qed.

Lemma moves_loop : forall fuel i x rv chg tr x' chg',
  exec (recv_loop fuel i x rv chg) tr (x', chg') -> moves [] x tr x'.
Proof.
  induction fuel as [|f IH]; intros i x rv chg tr x' chg' H; cbn [recv_loop] in H.
  - destruct H as [-> H]. injection H as -> ->. apply moves_refl.
  - destruct (Nat.ltb i (length (d_clients x))).
    2: { destruct H as [-> H]. injection H as -> ->. apply moves_refl. }
    destruct (nth_error rv i) as [[|]|]; [| |destruct H].
    + apply exec_bind in H. destruct H as (t1 & t2 & [y rc] & -> & H1 & H2).
      eapply moves_trans; [eapply moves_recv; exact H1|]. eapply IH. exact H2.
    + eapply IH. exact H.
Qed.

Lemma moves_deliver : forall l ms x tr x',
  exec (deliver x l) tr x' -> (forall m, In m l -> In (m_src m :: m_bytes m) ms) ->
  moves ms x tr x'.
Proof.
  induction l as [|m l IH]; intros ms x tr x' H J; cbn [deliver] in H.
  - destruct H as [-> ->]. apply moves_refl.
  - apply exec_bind in H. destruct H as (t1 & t2 & y & -> & H1 & H2).
    eapply moves_trans.
    + eapply moves_rx; [exact H1|]. apply J. left. reflexivity.
    + eapply IH; [exact H2|]. intros. apply J. right. auto.
Qed.

(** A round: the relation, up to refreshing the poll table. *)
Record round (x : ctx) (chg : bool) (tr : list ev) (r : option (ctx * bool)) : Prop := {
  rd_moves : exists x', moves [] (if chg then set_fds x (socks (d_clients x)) else x) tr x'
      /\ match r with Some (x1, _) => x' = x1 | None => True end;
  rd_fds : match r with
           | Some (x1, false) => accepts tr = []
           | _ => True
           end
}.

Lemma round_ok : forall x chg tr r,
  exec (daemon_round x chg) tr r -> round x chg tr r.
Proof.
  intros x chg tr r H. unfold daemon_round in H.
  change (map c_sock (d_clients x)) with (socks (d_clients x)) in H.
  set (x0 := if chg then set_fds x (socks (d_clients x)) else x) in *.
  cbv zeta in H.
  destruct (negb (Nat.leb (length (d_clients x0)) (length (d_fds x0)))); [destruct H|].
  apply exec_bind in H. destruct H as (t1 & t2 & r0 & -> & H1 & H2). ex_ask H1 rv Hrv.
  cbn [Datatypes.app].
  assert (STOP : forall t y, moves [] x0 t y -> round x chg t None).
  { intros t y M. constructor; [|exact I]. exists y. auto. }
  assert (PRE : forall t y, moves [] x0 t y -> moves [] x0 (Ev (CPoll (firstn (length (d_clients x0)) (d_fds x0))) rv :: t) y)
    by (intros; apply moves_cons; auto).
  destruct rv as [rv|]; [|destruct H2 as [-> ->]; eapply STOP; apply PRE, moves_refl].
  destruct (r_signal rv); [destruct H2 as [-> ->]; eapply STOP; apply PRE, moves_refl|].
  apply exec_bind in H2. destruct H2 as (a1 & a2 & [y rc] & -> & H1 & H2).
  assert (M1 : moves [] x0 a1 y /\ accepts a1 = []).
  { destruct (r_binding rv).
    - apply exec_bind in H1. destruct H1 as (b1 & b2 & pr & -> & H3 & H4).
      ex_ask H3 a Ha. destruct a as [ms rc0].
      apply exec_bind in H4. destruct H4 as (b3 & b4 & z & -> & H5 & [-> H6]).
      injection H6 as -> ->. rewrite app_nil_r. cbn [Datatypes.app].
      pose proof H5 as H5'.
      apply (moves_deliver _ (map (fun m => m_src m :: m_bytes m) ms)) in H5.
      2: { intros m I. apply in_map_iff. exists m. auto. }
      split.
      + apply moves_weaken with (ms := map (fun m => m_src m :: m_bytes m) ms).
        * apply moves_cons; auto.
        * intros bs I. right. right. apply in_map_iff in I. destruct I as (m & <- & I).
          exists ms, rc0, m. split; [left; reflexivity|auto].
      + unfold accepts. cbn. change (accepts b3 = []).
        clear - H5'. clearbody x0. revert x0 b3 H5'. induction ms as [|m ms IH]; intros x0 b3 H; cbn in H.
        * destruct H as [-> _]. reflexivity.
        * apply exec_bind in H. destruct H as (t1 & t2 & y & -> & H1 & H2).
          rewrite accepts_app, (IH _ _ H2), app_nil_r.
          apply rx_shape in H1.
          destruct H1 as [(L & -> & ->) | (L & u & l' & r & tr1 & tr2 & -> & M & H1)]; [reflexivity|].
          change (Ev CUninit u :: tr1 ++ tr2) with ([Ev CUninit u] ++ tr1 ++ tr2).
          rewrite !accepts_app. destruct (marked_events _ _ _ _ _ _ M) as (_ & _ & _ & -> & _).
          destruct (u || r); destruct H1 as [-> _]; [|reflexivity].
          destruct (closes_only (dropped l')) as (_ & _ & _ & -> & _). reflexivity.
    - destruct H1 as [-> H1]. injection H1 as -> ->. split; [apply moves_refl|reflexivity]. }
  destruct M1 as [M1 AC1].
  destruct (negb (rc =? 0)).
  { destruct H2 as [-> ->]. rewrite app_nil_r. eapply STOP. apply PRE. exact M1. }
  apply exec_bind in H2. destruct H2 as (a3 & a4 & [z chg1] & -> & H3 & H4).
  pose proof (moves_loop _ _ _ _ _ _ _ _ H3) as M2.
  assert (AC2 : accepts a3 = []).
  { (* no part of the client loop accepts: the table cannot have grown *)
    clear - H3. revert H3. generalize (length (d_clients y)) as fuel. intros fuel.
    generalize 0%nat at 1 as i. generalize false at 1 as c. intros c i H. revert i y c a3 H.
    induction fuel as [|f IH]; intros i y c a3 H; cbn [recv_loop] in H.
    - destruct H as [-> _]. reflexivity.
    - destruct (Nat.ltb i (length (d_clients y))); [|destruct H as [-> _]; reflexivity].
      destruct (nth_error (r_clients rv) i) as [[|]|]; [| |destruct H].
      + apply exec_bind in H. destruct H as (t1 & t2 & [w rc'] & -> & H1 & H2).
        rewrite accepts_app, (IH _ _ _ _ H2), app_nil_r.
        clear - H1. unfold client_process_recv, client_at in H1.
        destruct (nth_error (d_clients y) i) as [c|]; [|destruct H1]. cbn [bind] in H1.
        destruct (c_type c =? 0).
        * apply exec_bind in H1. destruct H1 as (q1 & q2 & a & -> & H1 & H2). ex_ask H1 b Hb.
          destruct b as [b|e]; [destruct (b =? 0)|]; destruct H2 as [-> _]; reflexivity.
        * apply exec_bind in H1. destruct H1 as (q1 & q2 & a & -> & H1 & H2). ex_ask H1 b Hb.
          destruct (b <? 0); [destruct H2 as [-> _]; reflexivity|].
          apply exec_bind in H2. destruct H2 as (q1 & q3 & [u ok] & -> & H1 & H2).
          assert (accepts q1 = []).
          { destruct (d_bufsize y <? b); [|destruct H1 as [-> _]; reflexivity].
            apply exec_bind in H1. destruct H1 as (q4 & q5 & g & -> & H1 & H3). ex_ask H1 g' Hg.
            destruct H3 as [-> _]. reflexivity. }
          rewrite accepts_app. change (accepts [Ev (CPeek (c_sock c)) b]) with (@nil Z). cbn [Datatypes.app].
          rewrite accepts_app, H. cbn [Datatypes.app].
          destruct ok; cbn [negb] in H2; [|destruct H2 as [-> _]; reflexivity].
          apply exec_bind in H2. destruct H2 as (q4 & q5 & bs & -> & H3 & H2). ex_ask H3 g' Hg.
          destruct g' as [[|eid msg]|]; try (destruct H2 as [-> _]; reflexivity).
          apply exec_bind in H2. destruct H2 as (q6 & q7 & [] & -> & H3 & H2).
          assert (accepts q6 = []).
          { destruct (d_capture u); [|destruct H3 as [-> _]; reflexivity]. cbn [exec ask] in H3. destruct H3 as (g & t0 & -> & _ & [-> _]). reflexivity. }
          rewrite !accepts_app, H0.
          destruct (eid =? d_eid u).
          -- apply exec_bind in H2. destruct H2 as (q8 & q9 & v & -> & H4 & [-> _]).
             rewrite app_nil_r. apply rx_shape in H4.
             destruct H4 as [(L & -> & ->) | (L & u0 & l' & r & tr1 & tr2 & -> & M & H4)]; [reflexivity|].
             change (Ev CUninit u0 :: tr1 ++ tr2) with ([Ev CUninit u0] ++ tr1 ++ tr2).
             rewrite !accepts_app. destruct (marked_events _ _ _ _ _ _ M) as (_ & _ & _ & -> & _).
             destruct (u0 || r); destruct H4 as [-> _]; [|reflexivity].
             destruct (closes_only (dropped l')) as (_ & _ & _ & -> & _). reflexivity.
          -- apply exec_bind in H2. destruct H2 as (q8 & q9 & v & -> & H4 & [-> _]).
             ex_ask H4 g Hg'. reflexivity.
      + eapply IH. exact H. }
  pose proof (moves_trans _ _ _ _ _ _ M1 M2) as M12.
  apply exec_bind in H4. destruct H4 as (a5 & a6 & [[w stop] chg2] & -> & H5 & H6).
  assert (M3 : moves [] z a5 w /\ (chg2 = false -> accepts a5 = [])).
  { destruct (r_socket rv).
    - apply exec_bind in H5. destruct H5 as (b1 & b2 & [y1 rc1] & -> & H7 & [-> H8]).
      injection H8 as -> -> ->. rewrite app_nil_r. split; [|discriminate].
      unfold socket_process in H7. apply exec_bind in H7.
      destruct H7 as (b3 & b4 & fd & -> & H7 & H8). ex_ask H7 a Ha.
      destruct (a <? 0) eqn:S; destruct H8 as [-> H8]; injection H8 as -> ->; cbn [Datatypes.app].
      + apply moves_cons; try reflexivity; [cbn; rewrite S; reflexivity|]. apply moves_refl.
      + constructor; cbn [d_eid d_fds d_clients set_clients]; auto.
        * unfold accepts. cbn. rewrite S. rewrite app_length. cbn. lia.
        * unfold accepts. cbn. rewrite S. unfold socks. rewrite map_app. cbn. apply Permutation_refl.
        * intros c' I. apply in_app_or in I. destruct I as [I | [<- | []]]; [|left; reflexivity].
          right. right. exists c'. auto.
        * intros t1' t2' fd e0 t m rc' E. destruct t1' as [|? [|]]; discriminate.
        * intros fd bs [].
    - destruct H5 as [-> H5]. injection H5 as -> -> ->. split; [apply moves_refl|reflexivity]. }
  destruct M3 as [M3 AC3].
  pose proof (moves_trans _ _ _ _ _ _ M12 M3) as M123.
  destruct stop.
  { destruct H6 as [-> ->]. rewrite app_nil_r. eapply STOP. apply PRE. rewrite app_assoc. exact M123. }
  apply exec_bind in H6. destruct H6 as (a7 & a8 & v & -> & H7 & [-> ->]). rewrite app_nil_r.
  destruct chg2.
  - apply (moves_remove []) in H7. constructor; [|exact I].
    exists v. split; [|reflexivity]. apply PRE.
    pose proof (moves_trans _ _ _ _ _ _ M123 H7) as M. rewrite <- !app_assoc in M. exact M.
  - destruct H7 as [-> ->]. constructor.
    + exists w. split; [|reflexivity]. apply PRE. rewrite app_nil_r, app_assoc. exact M123.
    + change (accepts ([Ev (CPoll (firstn (length (d_clients x0)) (d_fds x0))) (Some rv)] ++ a1 ++ a3 ++ a5 ++ []) = []).
      rewrite !accepts_app, AC1, AC2, AC3 by reflexivity. reflexivity.
Qed.

(** ** Whole runs *)
Lemma moves_refds : forall ms x tr x' l,
  moves ms x tr x' -> moves ms (set_fds x l) tr (set_fds x' l).
Proof. intros ms x tr x' l [E F L A T K S R]. constructor; auto. Qed.

Lemma run_moves : forall n x chg tr r,
  exec (run_daemon n x chg) tr r ->
  exists x', moves [] (set_fds x []) tr (set_fds x' [])
    /\ match r with Some (x1, _) => x' = x1 | None => True end.
Proof.
  induction n as [|n IH]; intros x chg tr r H; cbn [run_daemon] in H.
  - destruct H as [-> ->]. exists x. split; [apply moves_refl|reflexivity].
  - apply exec_bind in H. destruct H as (t1 & t2 & r0 & -> & H1 & H2).
    apply round_ok in H1. destruct H1 as [(y & M & E) _].
    apply (moves_refds _ _ _ _ []) in M.
    replace (set_fds (if chg then set_fds x (socks (d_clients x)) else x) []) with (set_fds x []) in M
      by (destruct chg; reflexivity).
    destruct r0 as [[x1 c1]|].
    + subst y. apply IH in H2. destruct H2 as (x2 & M2 & E2).
      exists x2. split; [eapply moves_trans; eauto|exact E2].
    + destruct H2 as [-> ->]. exists y. rewrite app_nil_r. auto.
Qed.

(** C44, whole runs: a client is only ever sent a message of a non-zero type it
    has announced before, and every datagram it is sent is a message the MCTP
    stack delivered, source EID first, or one that a client addressed to the
    daemon's own EID. *)
Theorem C44_announced : forall eid cap n tr r,
  exec (run_daemon n (start eid cap) false) tr r ->
  forall t1 t2 fd src t m rc,
    tr = t1 ++ Ev (CSend fd (src :: t :: m)) rc :: t2 -> t <> 0 -> announced t1 fd t.
Proof.
  intros eid cap n tr r H t1 t2 fd src t m rc E NZ.
  apply run_moves in H. destruct H as (x' & M & _).
  destruct (mv_send _ _ _ _ M _ _ _ _ _ _ _ E) as [A | [A | (c & [] & _)]]; [contradiction|exact A].
Qed.
Theorem C44_origin : forall eid cap n tr r,
  exec (run_daemon n (start eid cap) false) tr r ->
  forall fd bs, In (fd, bs) (sends tr) ->
    3 <= zlen bs /\ (delivered tr bs \/ (In bs (received tr) /\ hd 0 bs = eid)).
Proof.
  intros eid cap n tr r H fd bs I. apply run_moves in H. destruct H as (x' & M & _).
  destruct (mv_from _ _ _ _ M _ _ I) as (N & [[] | A]). split; [lia|exact A].
Qed.

(** C51: descriptors. Over any run, the descriptors accepted are exactly those
    closed so far together with those in the table: none is lost, none is closed
    twice. *)
Theorem C51_descriptors : forall eid cap n tr x chg,
  exec (run_daemon n (start eid cap) false) tr (Some (x, chg)) ->
  Permutation (accepts tr) (closes tr ++ socks (d_clients x)).
Proof.
  intros eid cap n tr x chg H. apply run_moves in H. destruct H as (x' & M & ->).
  exact (mv_acc _ _ _ _ M).
Qed.

(** C52: every mctp_message_tx the daemon makes corresponds, in order, to one
    datagram received from a client not addressed to the daemon's own EID. *)
Theorem C52_transmits : forall eid cap n tr r,
  exec (run_daemon n (start eid cap) false) tr r ->
  txs tr = flat_map (outgoing eid) (received tr).
Proof.
  intros eid cap n tr r H. apply run_moves in H. destruct H as (x' & M & _).
  exact (mv_tx _ _ _ _ M).
Qed.

(** ** C50: no access outside the client and poll tables *)
Lemma remove_safe : forall fuel i x, ~ crashes (remove_loop fuel i x).
Proof.
  induction fuel as [|f IH]; intros i x H; cbn [remove_loop] in H; [exact H|].
  destruct (Nat.ltb i (length (d_clients x))) eqn:L; [|exact H].
  apply Nat.ltb_lt in L. unfold client_at in H.
  destruct (nth_error (d_clients x) i) as [c|] eqn:N; [|apply nth_error_None in N; lia].
  cbn [bind] in H. destruct (c_active c); [eapply IH; eauto|].
  cbn [ask bind crashes] in H. destruct H as (a & _ & H). eapply IH; eauto.
Qed.
Lemma forward_safe : forall fuel i x eid t msg r, ~ crashes (forward_loop fuel i x eid t msg r).
Proof.
  induction fuel as [|f IH]; intros i x eid t msg r H; cbn [forward_loop] in H; [exact H|].
  destruct (Nat.ltb i (length (d_clients x))) eqn:L; [|exact H].
  apply Nat.ltb_lt in L. unfold client_at in H.
  destruct (nth_error (d_clients x) i) as [c|] eqn:N; [|apply nth_error_None in N; lia].
  cbn [bind] in H. destruct (c_type c =? t); cbn [negb] in H; [|eapply IH; eauto].
  cbn [ask bind crashes] in H. destruct H as (a & _ & H).
  destruct (a =? zlen msg + 1); cbn [negb] in H; eapply IH; eauto.
Qed.
Lemma rx_safe : forall x eid msg, ~ crashes (rx_message x eid msg).
Proof.
  intros x eid msg H. unfold rx_message in H. destruct (zlen msg <? 2); [exact H|].
  cbn [ask bind crashes] in H. destruct H as (u & _ & H).
  apply crashes_bind in H. destruct H as [H | (t & [x1 r] & _ & H)].
  - eapply forward_safe; eauto.
  - destruct r; [eapply remove_safe; eauto|exact H].
Qed.
Lemma deliver_safe : forall ms x, ~ crashes (deliver x ms).
Proof.
  induction ms as [|m ms IH]; intros x H; cbn [deliver] in H; [exact H|].
  apply crashes_bind in H. destruct H as [H | (t & y & _ & H)]; [eapply rx_safe|eapply IH]; eauto.
Qed.
Lemma recv_safe : forall x i, (i < length (d_clients x))%nat -> ~ crashes (client_process_recv x i).
Proof.
  intros x i L H. unfold client_process_recv, client_at in H.
  destruct (nth_error (d_clients x) i) as [c|] eqn:N; [|apply nth_error_None in N; lia].
  cbn [bind] in H. destruct (c_type c =? 0).
  - cbn [ask bind crashes] in H. destruct H as ([b|e] & _ & H); [destruct (b =? 0)|]; exact H.
  - cbn [ask bind crashes] in H. destruct H as (len & _ & H).
    destruct (len <? 0); [exact H|].
    apply crashes_bind in H. destruct H as [H | (t & [y ok] & _ & H)].
    + destruct (d_bufsize x <? len); [|exact H]. cbn in H. destruct H as (_ & _ & H). exact H.
    + destruct ok; cbn [negb] in H; [|exact H].
      cbn [ask bind crashes] in H. destruct H as ([[|eid msg]|] & _ & H); [exact H| |exact H].
      apply crashes_bind in H. destruct H as [H | (t' & [] & _ & H)].
      * destruct (d_capture y); [|exact H]. cbn in H. destruct H as (_ & _ & H). exact H.
      * destruct (eid =? d_eid y).
        -- apply crashes_bind in H. destruct H as [H | (t2 & z & _ & H)]; [eapply rx_safe; eauto|exact H].
        -- cbn in H. destruct H as (_ & _ & H). exact H.
Qed.

Lemma deliver_len : forall ms x tr x', exec (deliver x ms) tr x' ->
  (length (d_clients x') <= length (d_clients x))%nat.
Proof.
  induction ms as [|m ms IH]; intros x tr x' H; cbn [deliver] in H.
  - destruct H as [_ ->]. lia.
  - apply exec_bind in H. destruct H as (t1 & t2 & y & -> & H1 & H2). apply IH in H2.
    apply rx_shape in H1.
    destruct H1 as [(L & -> & ->) | (L & u & l' & r & tr1 & tr2 & -> & M & H1)]; [exact H2|].
    pose proof (marked_length _ _ _ _ _ _ M). pose proof (swept_length l').
    destruct (u || r); destruct H1 as [_ ->]; cbn in H2; lia.
Qed.
Lemma recv_len : forall x i tr x' rc, exec (client_process_recv x i) tr (x', rc) ->
  (length (d_clients x') <= length (d_clients x))%nat.
Proof.
  intros x i tr x' rc H. unfold client_process_recv, client_at in H.
  destruct (nth_error (d_clients x) i) as [c|] eqn:N; [|destruct H]. cbn [bind] in H.
  assert (PUT : forall d, length (put (d_clients x) i d) = length (d_clients x)).
  { intros d. destruct (put_nth _ _ _ d N) as [P Q]. rewrite P. rewrite Q at 3.
    rewrite !app_length. cbn. lia. }
  destruct (c_type c =? 0).
  - apply exec_bind in H. destruct H as (t1 & t2 & r & -> & H1 & H2).
    destruct r as [b|e]; [destruct (b =? 0)|]; destruct H2 as [_ H2]; injection H2 as -> ->;
      cbn; rewrite PUT; lia.
  - apply exec_bind in H. destruct H as (t1 & t2 & len & -> & H1 & H2).
    destruct (len <? 0).
    { destruct H2 as [_ H2]. injection H2 as -> ->. cbn. rewrite PUT. lia. }
    apply exec_bind in H2. destruct H2 as (q1 & q2 & [y ok] & -> & H3 & H4).
    assert (G : d_clients y = d_clients x).
    { destruct (d_bufsize x <? len).
      - apply exec_bind in H3. destruct H3 as (q3 & q4 & g & -> & _ & [_ H3]).
        destruct g; injection H3 as -> ->; reflexivity.
      - destruct H3 as [_ H3]. injection H3 as -> ->. reflexivity. }
    destruct ok; cbn [negb] in H4.
    2: { destruct H4 as [_ H4]. injection H4 as -> ->. cbn. rewrite G, PUT. lia. }
    apply exec_bind in H4. destruct H4 as (q3 & q4 & bs & -> & _ & H4).
    destruct bs as [[|eid msg]|];
      [destruct H4 as [_ H4]; injection H4 as -> ->; cbn; rewrite G, PUT; lia
      | |destruct H4 as [_ H4]; injection H4 as -> ->; cbn; rewrite G, PUT; lia].
    apply exec_bind in H4. destruct H4 as (q5 & q6 & [] & -> & _ & H4).
    destruct (eid =? d_eid y).
    + apply exec_bind in H4. destruct H4 as (q7 & q8 & z & -> & H5 & [_ H6]). injection H6 as -> ->.
      pose proof (deliver_len [Msg eid msg] y (q7 ++ []) z) as D. rewrite G in D. apply D.
      cbn [deliver]. apply exec_bind. exists q7, [], z. split; [reflexivity|]. split; [exact H5|].
      split; reflexivity.
    + apply exec_bind in H4. destruct H4 as (q7 & q8 & z & -> & _ & [_ H6]). injection H6 as -> ->.
      rewrite G. lia.
Qed.
Lemma loop_safe : forall fuel i x rv chg,
  (length (d_clients x) <= length rv)%nat -> ~ crashes (recv_loop fuel i x rv chg).
Proof.
  induction fuel as [|f IH]; intros i x rv chg L H; cbn [recv_loop] in H; [exact H|].
  destruct (Nat.ltb i (length (d_clients x))) eqn:Li; [|exact H]. apply Nat.ltb_lt in Li.
  destruct (nth_error rv i) as [[|]|] eqn:N; [| |apply nth_error_None in N; lia].
  - apply crashes_bind in H. destruct H as [H | (t & [y rc] & E & H)].
    + eapply recv_safe; eauto.
    + apply recv_len in E. eapply IH; [|exact H]. lia.
  - eapply IH; eauto.
Qed.

Definition in_step (x : ctx) (chg : bool) : Prop :=
  chg = true \/ (length (d_clients x) <= length (d_fds x))%nat.

Lemma round_in_step : forall x chg tr x1 chg1,
  in_step x chg -> exec (daemon_round x chg) tr (Some (x1, chg1)) -> in_step x1 chg1.
Proof.
  intros x chg tr x1 chg1 S H. apply round_ok in H. destruct H as [(y & M & ->) A].
  destruct chg1; [left; reflexivity|]. right.
  pose proof (mv_len _ _ _ _ M) as L. pose proof (mv_fds _ _ _ _ M) as F. rewrite A in L. cbn in L.
  rewrite F. destruct S as [-> | S].
  - cbn in *. unfold socks. rewrite map_length. lia.
  - destruct chg; cbn in *; unfold socks; rewrite ?map_length; lia.
Qed.

Lemma round_safe : forall x chg, in_step x chg -> ~ crashes (daemon_round x chg).
Proof.
  intros x chg S H. unfold daemon_round in H. cbv zeta in H.
  set (x0 := if chg then set_fds x (map c_sock (d_clients x)) else x) in *.
  assert (L : (length (d_clients x0) <= length (d_fds x0))%nat).
  { subst x0. destruct S as [-> | S].
    - cbn. rewrite map_length. lia.
    - destruct chg; cbn; rewrite ?map_length; lia. }
  rewrite (proj2 (Nat.leb_le _ _) L) in H. cbn [negb] in H.
  cbn [ask bind crashes] in H. destruct H as (rv & Hrv & H).
  destruct rv as [rv|]; [|exact H]. destruct (r_signal rv); [exact H|].
  cbn in Hrv. rewrite firstn_length in Hrv.
  apply crashes_bind in H. destruct H as [H | (t & [y rc] & E & H)].
  - destruct (r_binding rv); [|exact H].
    cbn [ask bind crashes] in H. destruct H as ([ms rc] & _ & H).
    apply crashes_bind in H. destruct H as [H | (t & z & _ & H)]; [eapply deliver_safe; eauto|exact H].
  - assert (L1 : (length (d_clients y) <= length (d_clients x0))%nat).
    { destruct (r_binding rv).
      - cbn [exec] in E. destruct E as ([ms rc0] & b2 & -> & _ & E).
        apply exec_bind in E. destruct E as (b3 & b4 & z & -> & E & [_ E']). injection E' as -> ->.
        eapply deliver_len; eauto.
      - destruct E as [_ E]. injection E as -> ->. lia. }
    destruct (negb (rc =? 0)); [exact H|].
    apply crashes_bind in H. destruct H as [H | (t2 & [z c1] & _ & H)].
    + eapply loop_safe; [|exact H]. lia.
    + apply crashes_bind in H. destruct H as [H | (t3 & [[w st] c2] & _ & H)].
      * destruct (r_socket rv); [|exact H].
        apply crashes_bind in H. destruct H as [H | (t4 & [v rc1] & _ & H)]; [|exact H].
        cbn in H. destruct H as (fd & _ & H). destruct (fd <? 0); exact H.
      * destruct st; [exact H|].
        apply crashes_bind in H. destruct H as [H | (t4 & v & _ & H)]; [|exact H].
        destruct c2; [eapply remove_safe; eauto|exact H].
Qed.

(** For every behaviour of the kernel, the clients and the MCTP stack, the
    daemon never indexes its client or poll table outside its bounds. *)
Theorem C50_tables : forall eid cap n, ~ crashes (run_daemon n (start eid cap) false).
Proof.
  assert (G : forall n x chg, in_step x chg -> ~ crashes (run_daemon n x chg)).
  { induction n as [|n IH]; intros x chg S H; cbn [run_daemon] in H; [exact H|].
    apply crashes_bind in H. destruct H as [H | (t & [[x1 c1]|] & E & H)].
    - eapply round_safe; eauto.
    - apply round_in_step in E; [|exact S]. eapply IH; eauto.
    - exact H. }
  intros. apply G. right. cbn. lia.
Qed.

(** ** C53: announcing a type *)

(** A client that has announced a type keeps it: the only way an entry's type
    changes is from none to the announced one. *)
Theorem C53_types : forall eid cap n tr x chg c,
  exec (run_daemon n (start eid cap) false) tr (Some (x, chg)) ->
  In c (d_clients x) -> c_type c = 0 \/ announced tr (c_sock c) (c_type c).
Proof.
  intros eid cap n tr x chg c H I. apply run_moves in H. destruct H as (x' & M & ->).
  destruct (mv_type _ _ _ _ M c I) as [A | [A | (d & [] & _)]]; auto.
Qed.
Theorem C53_fixed : forall x i tr x' rc c,
  exec (client_process_recv x i) tr (x', rc) ->
  nth_error (d_clients x) i = Some c -> c_type c <> 0 ->
  forall fd b, ~ In (Ev (CRead1 fd) b) tr.
Proof.
  intros x i tr x' rc c H N NZ fd b I. unfold client_process_recv, client_at in H.
  rewrite N in H. cbn [bind] in H. rewrite (proj2 (Z.eqb_neq _ _) NZ) in H.
  assert (NA : forall e, reads e = [] -> Ev (CRead1 fd) b <> e) by (intros ? ? <-; discriminate).
  apply exec_bind in H. destruct H as (t1 & t2 & len & -> & H1 & H2). ex_ask H1 a Ha.
  cbn [Datatypes.app] in I. destruct I as [I | I]; [discriminate|].
  destruct (a <? 0); [destruct H2 as [-> _]; destruct I|].
  apply exec_bind in H2. destruct H2 as (q1 & q2 & [y ok] & -> & H3 & H4).
  cbn [Datatypes.app] in I. apply in_app_or in I. destruct I as [I | I].
  { destruct (d_bufsize x <? a); [|destruct H3 as [-> _]; destruct I].
    apply exec_bind in H3. destruct H3 as (q3 & q4 & g & -> & H3 & [-> _]). ex_ask H3 g' Hg.
    cbn [Datatypes.app] in I. destruct I as [I | I]; [discriminate|destruct I]. }
  destruct ok; cbn [negb] in H4; [|destruct H4 as [-> _]; destruct I].
  apply exec_bind in H4. destruct H4 as (q3 & q4 & bs & -> & H5 & H4). ex_ask H5 g Hg.
  cbn [Datatypes.app] in I. destruct I as [I | I]; [discriminate|].
  destruct g as [[|eid msg]|]; try (destruct H4 as [-> _]; destruct I).
  apply exec_bind in H4. destruct H4 as (q5 & q6 & [] & -> & H6 & H4).
  cbn [Datatypes.app] in I. apply in_app_or in I. destruct I as [I | I].
  { destruct (d_capture y); [|destruct H6 as [-> _]; destruct I].
    cbn [exec ask] in H6. destruct H6 as (u & t0 & -> & _ & [-> _]). cbn [Datatypes.app] in I. destruct I as [I | I]; [discriminate|destruct I]. }
  destruct (eid =? d_eid y).
  - apply exec_bind in H4. destruct H4 as (q7 & q8 & z & -> & H5 & [-> _]). rewrite app_nil_r in I.
    apply rx_shape in H5.
    destruct H5 as [(L & -> & ->) | (L & u & l' & r & tr1 & tr2 & -> & M & H5)]; [destruct I|].
    cbn [Datatypes.app] in I. destruct I as [I | I]; [discriminate|].
    destruct (marked_events _ _ _ _ _ _ M) as (_ & _ & _ & _ & RD & _).
    assert (RD2 : reading tr2 = []).
    { destruct (u || r); destruct H5 as [-> _]; [|reflexivity].
      destruct (closes_only (dropped l')) as (_ & _ & _ & _ & E & _). exact E. }
    assert (X : In fd (reading (tr1 ++ tr2))).
    { unfold reading. apply in_flat_map. exists (Ev (CRead1 fd) b). split; [exact I|left; reflexivity]. }
    rewrite reading_app, RD, RD2 in X. destruct X.
  - apply exec_bind in H4. destruct H4 as (q7 & q8 & z & -> & H5 & [-> _]). ex_ask H5 g Hg'.
    cbn [Datatypes.app] in I. destruct I as [I | I]; [discriminate|destruct I].
Qed.
