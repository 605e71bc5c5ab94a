(** PropClients: C79, what a well-behaved client of the demultiplexing daemon gets. *)
From Verif Require Import Base Lists Daemon PropDaemon DaemonRun DaemonBugs.

(** ** Specification *)

(** Whether a client is connected on a descriptor, and the type it announced: 0 before. *)
Inductive seat := Absent | Seated (t : Z).

(** How an event changes this: accept4 answers the descriptor; the client's first byte is
    read. *)
Definition step (fd : Z) (st : seat) (e : ev) : seat :=
  match e with
  | Ev c a =>
      match c return answer c -> seat with
      | CAccept => fun a => if a =? fd then Seated 0 else st
      | CRead1 f => fun a => match a with inl ty => if f =? fd then Seated ty else st | inr _ => st end
      | _ => fun _ => st
      end a
  end.
(** A client of type [t] wants the messages of two bytes or more that begin with [t]. *)
Definition wants (t : Z) (msg : list Z) : bool := (2 <=? zlen msg) && (hd 0 msg =? t).
(** What an event owes the client: the messages the stack delivered, and a message that any
    client addressed to the daemon's own EID [local]; each behind its EID. *)
Definition owed (local : Z) (st : seat) (e : ev) : list (list Z) :=
  match st with
  | Absent => []
  | Seated t =>
      match e with
      | Ev c a =>
          match c return answer c -> list (list Z) with
          | CProcess => fun a => map (fun m => m_src m :: m_bytes m) (filter (fun m => wants t (m_bytes m)) (fst a))
          | CRecv _ _ => fun a => match a with
                                  | Some (d :: msg) => if (d =? local) && wants t msg then [d :: msg] else []
                                  | _ => []
                                  end
          | _ => fun _ => []
          end a
      end
  end.
Fixpoint due (local fd : Z) (st : seat) (tr : list ev) : list (list Z) :=
  match tr with [] => [] | e :: t => owed local st e ++ due local fd (step fd st e) t end.
Fixpoint after (fd : Z) (st : seat) (tr : list ev) : seat :=
  match tr with [] => st | e :: t => after fd (step fd st e) t end.

(** The client takes every message whole, announces a type other than 0, sends no empty
    message and does not hang up; the daemon's buffer can grow; the kernel does not give its
    descriptor to someone else meanwhile. *)
Definition good (fd : Z) (st : seat) (e : ev) : Prop :=
  match e with
  | Ev c a =>
      match c return answer c -> Prop with
      | CSend f bs => fun a => f = fd -> a = zlen bs
      | CRead1 f => fun a => f = fd -> exists ty, a = inl ty /\ ty <> 0
      | CPeek f => fun a => f = fd -> 0 <= a
      | CGrow _ => fun a => a = true
      | CRecv f _ => fun a => f = fd -> exists d m, a = Some (d :: m)
      | CAccept => fun a => a = fd -> st = Absent
      | _ => fun _ => True
      end a
  end.
Fixpoint behaves (fd : Z) (st : seat) (tr : list ev) : Prop :=
  match tr with [] => True | e :: t => good fd st e /\ behaves fd (step fd st e) t end.

(** The state of the table: at most one entry has the descriptor. *)
Definition has (fd : Z) (c : client) : bool := c_sock c =? fd.
Definition holds (fd : Z) (st : seat) (l : list client) : Prop :=
  filter (has fd) l = match st with Absent => [] | Seated t => [Client true fd t] end.
(** What the client is sent. *)
Definition to (fd : Z) (tr : list ev) : list (list Z) := map snd (filter (fun s => fst s =? fd) (sends tr)).

(** ** Traces *)
Lemma behaves_app fd a : forall st b, behaves fd st (a ++ b) <-> behaves fd st a /\ behaves fd (after fd st a) b.
Proof. induction a as [|e a IH]; intros st b; cbn; [tauto|]. rewrite IH. tauto. Qed.
Lemma after_app fd a : forall st b, after fd st (a ++ b) = after fd (after fd st a) b.
Proof. induction a as [|e a IH]; intros st b; cbn; auto. Qed.
Lemma due_app local fd a : forall st b, due local fd st (a ++ b) = due local fd st a ++ due local fd (after fd st a) b.
Proof. induction a as [|e a IH]; intros st b; cbn; [reflexivity|]. now rewrite IH, app_assoc. Qed.
Lemma to_app fd a b : to fd (a ++ b) = to fd a ++ to fd b.
Proof. unfold to. now rewrite sends_app, filter_app, map_app. Qed.
Lemma to_cons fd e t : to fd (e :: t) = to fd [e] ++ to fd t.
Proof. exact (to_app fd [e] t). Qed.

(** Events that owe nothing and change nothing. *)
Definition mute (e : ev) : Prop :=
  match e with Ev c _ => match c with CAccept | CRead1 _ | CProcess | CRecv _ _ => False | _ => True end end.
Lemma mute_after fd tr : Forall mute tr -> forall st, after fd st tr = st.
Proof. induction 1 as [|[c a] t He Ht IH]; intros st; [reflexivity|]. cbn [after]. rewrite IH. destruct c; cbn in *; tauto. Qed.
Lemma mute_due local fd tr : Forall mute tr -> forall st, due local fd st tr = [].
Proof.
  induction 1 as [|[c a] t He Ht IH]; intros st; [reflexivity|]. cbn [due]. rewrite IH, app_nil_r. destruct st; [reflexivity|].
  destruct c; cbn in *; tauto.
Qed.

(** ** Tables *)
Lemma filter_comm {A} (f g : A -> bool) l : filter f (filter g l) = filter g (filter f l).
Proof.
  induction l as [|a l IH]; [reflexivity|]. cbn [filter]. destruct (f a) eqn:F, (g a) eqn:G; cbn [filter]; rewrite ?F, ?G, IH; reflexivity.
Qed.
Lemma marked_mute t bs l tr l' r : marked t bs l tr l' r -> Forall mute tr.
Proof. induction 1; auto; constructor; cbn; auto. Qed.
Lemma marked_keeps fd t bs l tr l' r : marked t bs l tr l' r -> forall st, behaves fd st tr ->
  filter (has fd) l' = filter (has fd) l.
Proof.
  induction 1 as [|c l tr l' r N M IH|c l tr l' r N M IH|c l tr l' r rc N R M IH]; intros st Hb; cbn [filter].
  - reflexivity.
  - now rewrite (IH st Hb).
  - destruct Hb as [_ Hb]. now rewrite (IH _ Hb).
  - destruct Hb as [Hg Hb]. rewrite (IH _ Hb). unfold has. cbn [c_sock]. destruct (c_sock c =? fd) eqn:E; [|reflexivity].
    apply Z.eqb_eq in E. cbn in Hg. specialize (Hg E). contradiction.
Qed.
Lemma marked_to fd st t bs l tr l' r : marked t bs l tr l' r -> holds fd st l ->
  to fd tr = match st with Absent => [] | Seated u => if t =? u then [bs] else [] end.
Proof.
  intros M H. destruct (marked_events _ _ _ _ _ _ M) as (E & _). unfold to. rewrite E. clear E M.
  assert (forall k, map snd (filter (fun s => fst s =? fd) (map (fun c => (c_sock c, bs)) k)) = map (fun _ => bs) (filter (has fd) k)) as G.
  { induction k as [|c k IH]; [reflexivity|]. cbn [map filter fst]. unfold has at 1. destruct (c_sock c =? fd); cbn [map snd]; now rewrite IH. }
  rewrite G, filter_comm. unfold holds in H. rewrite H. destruct st as [|u]; [reflexivity|]. cbn [filter]. unfold takes. cbn [c_type].
  rewrite (Z.eqb_sym u t). destruct (t =? u); reflexivity.
Qed.
Lemma swept_keeps fd l : (forall c, In c l -> has fd c = true -> c_active c = true) -> filter (has fd) (swept l) = filter (has fd) l.
Proof.
  induction l as [|c|c d t IH1 IH2] using pair_ind; intros H; [reflexivity| |].
  - cbn [swept]. destruct (c_active c) eqn:E; [reflexivity|]. cbn [filter]. destruct (has fd c) eqn:F; [|reflexivity].
    rewrite (H c (or_introl eq_refl) F) in E. discriminate.
  - change (swept (c :: d :: t)) with (if c_active c then c :: swept (d :: t) else d :: swept t).
    destruct (c_active c) eqn:E.
    + change (filter (has fd) (c :: swept (d :: t)) = filter (has fd) (c :: d :: t)). cbn [filter].
      rewrite IH2 by (intros; apply H; [now right|assumption]). reflexivity.
    + cbn [filter]. destruct (has fd c) eqn:F; [rewrite (H c (or_introl eq_refl) F) in E; discriminate|].
      rewrite IH1 by (intros; apply H; [right; now right|assumption]). reflexivity.
Qed.
Lemma holds_active fd st l c : holds fd st l -> In c l -> has fd c = true -> c_active c = true.
Proof.
  intros H Hin Hh. assert (In c (filter (has fd) l)) as G by (apply filter_In; auto). unfold holds in H. rewrite H in G.
  destruct st; [destruct G|]. destruct G as [<-|[]]. reflexivity.
Qed.
Lemma holds_swept fd st l : holds fd st l -> holds fd st (swept l).
Proof. intros H. unfold holds. rewrite swept_keeps; [exact H|]. intros c. now apply (holds_active fd st). Qed.

(** ** The program *)
(** [fine pend x tr x']: going from [x] to [x'] with [tr], a behaving client is sent what
    was pending and what becomes due. *)
Definition fine (fd : Z) (pend : seat -> list (list Z)) (x : ctx) (tr : list ev) (x' : option ctx) : Prop :=
  forall st, holds fd st (d_clients x) -> behaves fd st tr ->
    to fd tr = pend st ++ due (d_eid x) fd st tr /\
    match x' with Some x' => holds fd (after fd st tr) (d_clients x') /\ d_eid x' = d_eid x | None => True end.
Definition nothing : seat -> list (list Z) := fun _ => [].
Definition pending (eid : Z) (msg : list Z) : seat -> list (list Z) :=
  fun st => match st with Absent => [] | Seated t => if wants t msg then [eid :: msg] else [] end.

Lemma closes_mute l : Forall mute (map (fun fd => Ev (CClose fd) tt) l).
Proof. induction l; constructor; cbn; auto. Qed.
Lemma closes_to fd l : to fd (map (fun f => Ev (CClose f) tt) l) = [].
Proof. unfold to. now rewrite (proj1 (closes_only l)). Qed.

Lemma fine_rx fd x eid msg tr x' : exec (rx_message x eid msg) tr x' -> fine fd (pending eid msg) x tr (Some x') /\ Forall mute tr.
Proof.
  intros H. apply rx_shape in H. destruct H as [(L & -> & ->)|(L & u & l' & r & tr1 & tr2 & -> & M & H)].
  - split; [|constructor]. intros st Hh _. cbn. split; [|auto]. unfold pending, wants. replace (2 <=? zlen msg) with false by lia.
    destruct st; reflexivity.
  - assert (Forall mute tr2 /\ to fd tr2 = [] /\ (forall st, holds fd st l' -> holds fd st (d_clients x')) /\ d_eid x' = d_eid x) as (M2 & T2 & K2 & D2).
    { destruct (u || r); destruct H as [-> ->].
      - split; [apply closes_mute|]. split; [apply closes_to|]. split; [|reflexivity]. intros st. apply holds_swept.
      - split; [constructor|]. split; [reflexivity|]. split; [|reflexivity]. intros st Hst. exact Hst. }
    assert (Forall mute (Ev CUninit u :: tr1 ++ tr2)) as Hm.
    { constructor; [exact I|]. apply Forall_app. split; [eapply marked_mute; exact M|exact M2]. }
    split; [|exact Hm]. intros st Hh Hb. rewrite (mute_due _ _ _ Hm), (mute_after _ _ Hm), app_nil_r.
    destruct Hb as [_ Hb]. cbn [step] in Hb. apply behaves_app in Hb. destruct Hb as [Hb _]. split.
    + rewrite to_cons, to_app, T2, app_nil_r. change (to fd [Ev CUninit u]) with (@nil (list Z)). cbn [Datatypes.app].
      rewrite (marked_to fd st _ _ _ _ _ _ M Hh). unfold pending, wants. replace (2 <=? zlen msg) with true by lia. reflexivity.
    + split; [|exact D2]. apply K2. unfold holds. rewrite (marked_keeps fd _ _ _ _ _ _ M st Hb). exact Hh.
Qed.

Definition pendings (ms : list mctp_msg) : seat -> list (list Z) :=
  fun st => match st with Absent => [] | Seated t => map (fun m => m_src m :: m_bytes m) (filter (fun m => wants t (m_bytes m)) ms) end.
Lemma fine_deliver fd : forall ms x tr x', exec (deliver x ms) tr x' -> fine fd (pendings ms) x tr (Some x') /\ Forall mute tr.
Proof.
  induction ms as [|m ms IH]; intros x tr x' H; cbn [deliver] in H.
  - destruct H as [-> ->]. split; [|constructor]. intros st Hh _. destruct st; cbn; auto.
  - ex_bind H t1 t2 x1 H1 H2. destruct (fine_rx fd _ _ _ _ _ H1) as [F1 M1]. destruct (IH _ _ _ H2) as [F2 M2].
    split; [|apply Forall_app; auto]. intros st Hh Hb. apply behaves_app in Hb. destruct Hb as [Hb1 Hb2].
    destruct (F1 st Hh Hb1) as (T1 & K1 & D1). rewrite (mute_after fd _ M1) in *.
    destruct (F2 st K1 Hb2) as (T2 & K2 & D2). rewrite after_app, (mute_after fd _ M1). split; [|split; [exact K2|congruence]].
    rewrite to_app, due_app, T1, T2, !(mute_due _ _ _ M1), !(mute_due _ _ _ M2), !app_nil_r. unfold pending, pendings. destruct st as [|t]; [reflexivity|]. cbn [filter].
    destruct (wants t (m_bytes m)); reflexivity.
Qed.

Lemma holds_other fd st l i c d : nth_error l i = Some c -> c_sock d = c_sock c -> c_sock c <> fd ->
  holds fd st l -> holds fd st (put l i d).
Proof.
  intros Hn Hs Hne Hh. destruct (put_nth _ _ _ d Hn) as [P Q]. rewrite P. unfold holds in *. rewrite Q in Hh.
  rewrite filter_app in *. cbn [filter] in *. unfold has in *. rewrite Hs. replace (c_sock c =? fd) with false in * by (symmetry; now apply Z.eqb_neq).
  exact Hh.
Qed.
Lemma holds_mine fd st l i c ty : nth_error l i = Some c -> c_sock c = fd -> holds fd st l ->
  st = Seated (c_type c) /\ c = Client true fd (c_type c) /\ holds fd (Seated ty) (put l i (Client true fd ty)).
Proof.
  intros Hn Hs Hh. destruct (put_nth _ _ _ (Client true fd ty) Hn) as [P Q]. rewrite P. unfold holds in *. rewrite Q in Hh.
  rewrite filter_app in *. cbn [filter] in *. unfold has in *. cbn [c_sock]. rewrite Hs, Z.eqb_refl in *.
  destruct st as [|u].
  { apply app_eq_nil in Hh. destruct Hh. discriminate. }
  set (p := filter _ (firstn i l)) in *. set (q := filter _ (skipn (S i) l)) in *.
  destruct p as [|a p]; [|destruct p; discriminate]. cbn [Datatypes.app] in *. injection Hh as -> ->.
  cbn [c_type c_active c_sock]. auto.
Qed.
Lemma put_same {A} (l : list A) i c : nth_error l i = Some c -> put l i c = l.
Proof.
  unfold put. revert i. induction l as [|a l IH]; intros i H; destruct i; cbn in *; try discriminate.
  - now injection H as ->.
  - f_equal. now apply IH.
Qed.

(** Closing a client that is not ours. *)
Lemma fine_close fd x y i c rc tr x' r : nth_error (d_clients y) i = Some c -> d_clients y = d_clients x -> d_eid y = d_eid x ->
  Forall mute tr -> to fd tr = [] -> (behaves fd (Seated (c_type c)) tr -> c_sock c <> fd) ->
  exec (out_close y i c rc) [] (x', r) -> fine fd nothing x tr (Some x').
Proof.
  intros Hn E1 E2 Hm Ht Hx [_ H] st Hh Hb. injection H as -> _. rewrite (mute_due _ _ _ Hm), (mute_after _ _ Hm), Ht. split; [reflexivity|].
  split; [|exact E2]. cbn [d_clients set_clients]. rewrite E1 in *.
  assert (c_sock c <> fd) as Hne.
  { intros E. destruct (holds_mine fd st _ _ _ 0 Hn E Hh) as (-> & _). exact (Hx Hb E). }
  eapply holds_other; [exact Hn|reflexivity|exact Hne|exact Hh].
Qed.

Lemma through local fd st e0 t1 e t5 t6 : mute e0 -> Forall mute t1 -> Forall mute t5 ->
  after fd st (e0 :: t1 ++ [e] ++ t5 ++ t6) = after fd (step fd st e) t6 /\
  due local fd st (e0 :: t1 ++ [e] ++ t5 ++ t6) = owed local st e ++ due local fd (step fd st e) t6.
Proof.
  intros H0 H1 H5. assert (Forall mute (e0 :: t1)) as H01 by now constructor.
  change (e0 :: t1 ++ [e] ++ t5 ++ t6) with ((e0 :: t1) ++ (e :: t5 ++ t6)).
  rewrite after_app, due_app, (mute_after fd _ H01), (mute_due _ _ _ H01). cbn [after due Datatypes.app].
  now rewrite after_app, due_app, (mute_after fd _ H5), (mute_due _ _ _ H5).
Qed.

Lemma fine_recv fd x i tr x' rc : exec (client_process_recv x i) tr (x', rc) -> fine fd nothing x tr (Some x').
Proof.
  intros H. unfold client_process_recv in H. ex_bind H t1 t2 c H1 H2. unfold client_at in H1.
  destruct (nth_error (d_clients x) i) as [c0|] eqn:Hn; [|destruct H1]. destruct H1 as [-> ->]. cbn [Datatypes.app].
  destruct (c_type c0 =? 0) eqn:T0.
  { apply Z.eqb_eq in T0. ex_bind H2 t1 t3 a H1 H2. ex_ask H1 a0 Ha0. cbn [Datatypes.app].
    assert (forall st, holds fd st (d_clients x) -> good fd st (Ev (CRead1 (c_sock c0)) a0) -> c_sock c0 = fd ->
      st = Seated 0 /\ exists ty, a0 = inl ty /\ ty <> 0) as Hg.
    { intros st Hh Hg E. destruct (holds_mine fd st _ _ _ 0 Hn E Hh) as (-> & _). rewrite T0. split; [reflexivity|]. exact (Hg E). }
    destruct a0 as [ty|rc0].
    - destruct (ty =? 0) eqn:Ty.
      + destruct H2 as [-> H2]. injection H2 as -> _. intros st Hh [Hb _]. cbn in Ha0. split; [destruct st; reflexivity|]. split; [|reflexivity].
        cbn [after step d_clients set_clients]. destruct (c_sock c0 =? fd) eqn:E.
        * apply Z.eqb_eq in E. destruct (Hg st Hh Hb E) as (_ & ty' & [= <-] & Hne). apply Z.eqb_eq in Ty. contradiction.
        * apply Z.eqb_neq in E. eapply holds_other; [exact Hn|reflexivity|exact E|exact Hh].
      + destruct H2 as [-> H2]. injection H2 as -> _. intros st Hh [Hb _]. split; [destruct st; reflexivity|]. split; [|reflexivity].
        cbn [after step d_clients set_clients]. destruct (c_sock c0 =? fd) eqn:E.
        * apply Z.eqb_eq in E. destruct (holds_mine fd st _ _ _ ty Hn E Hh) as (_ & Ec & K). rewrite Ec at 1 2. cbn [c_active c_sock]. exact K.
        * apply Z.eqb_neq in E. eapply holds_other; [exact Hn|reflexivity|exact E|exact Hh].
    - destruct H2 as [-> H2]. injection H2 as -> _. intros st Hh [Hb _]. split; [destruct st; reflexivity|]. split; [|reflexivity].
      cbn [after step d_clients set_clients]. assert (c_sock c0 <> fd) as E.
      { intros E. destruct (Hg st Hh Hb E) as (_ & ty' & [=] & _). }
      eapply holds_other; [exact Hn|reflexivity|exact E|exact Hh]. }
  ex_bind H2 t1 t3 len H1 H2. ex_ask H1 len0 Hlen. cbn [Datatypes.app].
  destruct (len0 <? 0) eqn:Ln.
  { assert (t3 = []) as -> by exact (proj1 H2). eapply (fine_close fd x x i c0); [exact Hn|reflexivity|reflexivity|repeat constructor|reflexivity| |exact H2].
    intros [Hb _] E. cbn in Hb. specialize (Hb E). lia. }
  apply exec_bind in H2. destruct H2 as (t1 & t2 & [y ok] & -> & H1 & H2).
  assert (Forall mute t1 /\ to fd t1 = [] /\ d_clients y = d_clients x /\ d_eid y = d_eid x /\
    (ok = false -> forall st, ~ behaves fd st t1)) as (M1 & To1 & E1 & E2 & Hok).
  { destruct (d_bufsize x <? len0).
    - ex_bind H1 u1 u2 a H1 H3. ex_ask H1 a0 Ha0. destruct H3 as [-> H3]. cbn [Datatypes.app].
      destruct a0; injection H3 as -> ->; (split; [repeat constructor|]); repeat split; try discriminate.
      intros _ st [Hb _]. cbn in Hb. discriminate.
    - destruct H1 as [-> H1]. injection H1 as -> ->. repeat split; try constructor. discriminate. }
  clear H1. destruct ok; cbn [negb] in H2.
  2:{ assert (t2 = []) as -> by exact (proj1 H2). intros st Hh Hb. exfalso. rewrite app_nil_r in Hb. destruct Hb as [_ Hb]. exact (Hok eq_refl _ Hb). }
  ex_bind H2 t3 t4 r H1 H2. ex_ask H1 r0 Hr0.
  assert (Hcl : forall rc', exec (out_close y i c0 rc') t4 (x', rc) -> r0 = None \/ r0 = Some [] ->
    fine fd nothing x (Ev (CPeek (c_sock c0)) len0 :: t1 ++ [Ev (CRecv (c_sock c0) (d_bufsize y)) r0] ++ t4) (Some x')).
  { intros rc' H Hr. destruct H as [-> H]. injection H as -> _. intros st Hh Hb. destruct Hb as [_ Hb]. cbn [step] in Hb.
    apply behaves_app in Hb. destruct Hb as [_ [Hb _]]. rewrite (mute_after fd _ M1) in Hb. cbn [good] in Hb.
    assert (c_sock c0 <> fd) as E. { intros E. destruct (Hb E) as (d & m & ->). destruct Hr; discriminate. }
    rewrite to_cons, !to_app, To1. cbn [due after step]. rewrite due_app, after_app, (mute_due _ _ _ M1), (mute_after fd _ M1). cbn [after step due].
    split; [|split; [|exact E2]].
    - cbn [Datatypes.app]. destruct st; [reflexivity|]. destruct Hr as [-> | ->]; reflexivity.
    - cbn [d_clients set_clients]. rewrite E1. eapply holds_other; [exact Hn|reflexivity|exact E|exact Hh]. }
  destruct r0 as [[|eid msg]|]; [apply (Hcl (-1)); auto| |apply (Hcl (-1)); auto]. clear Hcl.
  apply exec_bind in H2. destruct H2 as (t5 & t6 & u & -> & H1 & H2).
  assert (Forall mute t5 /\ to fd t5 = []) as [M5 To5].
  { destruct (d_capture y).
    - ex_ask H1 a0 Ha0. split; [repeat constructor|reflexivity].
    - destruct H1 as [-> _]. split; [constructor|reflexivity]. }
  assert (forall st, behaves fd st (Ev (CPeek (c_sock c0)) len0 :: t1 ++ [Ev (CRecv (c_sock c0) (d_bufsize y)) (Some (eid :: msg))] ++ t5 ++ t6) ->
    behaves fd st t6) as Hb6.
  { intros st [_ Hb]. cbn [step] in Hb. apply behaves_app in Hb. destruct Hb as [_ Hb]. rewrite (mute_after fd _ M1) in Hb.
    cbn [Datatypes.app] in Hb. destruct Hb as [_ Hb]. cbn [step] in Hb. apply behaves_app in Hb. now rewrite (mute_after fd _ M5) in Hb. }
  destruct (eid =? d_eid y) eqn:Ee.
  - ex_bind H2 t7 t8 x1 H2 H3. destruct H3 as [-> H3]. injection H3 as -> _. rewrite app_nil_r in *.
    destruct (fine_rx fd _ _ _ _ _ H2) as [F M7]. intros st Hh Hb. specialize (Hb6 st Hb).
    destruct (F st) as (T & K & D); [unfold holds; rewrite E1; exact Hh|exact Hb6|].
    destruct (through (d_eid x) fd st (Ev (CPeek (c_sock c0)) len0) t1 (Ev (CRecv (c_sock c0) (d_bufsize y)) (Some (eid :: msg))) t5 t7 I M1 M5) as [A B].
    rewrite A, B. cbn [step]. rewrite (mute_due _ _ _ M7), app_nil_r. rewrite (mute_due _ _ _ M7), app_nil_r in T. split; [|split; [exact K|congruence]].
    rewrite to_cons, !to_app, To1, To5, T.
    change (to fd [Ev (CPeek (c_sock c0)) len0]) with (@nil (list Z)).
    change (to fd [Ev (CRecv (c_sock c0) (d_bufsize y)) (Some (eid :: msg))]) with (@nil (list Z)). cbn [Datatypes.app].
    unfold nothing, pending, owed. destruct st as [|t]; [reflexivity|]. rewrite <- E2, Ee. cbn [Datatypes.app andb]. reflexivity.
  - ex_bind H2 t7 t8 a H2 H3. ex_ask H2 a0 Ha0. destruct H3 as [-> H3]. injection H3 as -> _. cbn [Datatypes.app] in *.
    intros st Hh Hb.
    destruct (through (d_eid x) fd st (Ev (CPeek (c_sock c0)) len0) t1 (Ev (CRecv (c_sock c0) (d_bufsize y)) (Some (eid :: msg))) t5
      [Ev (CTx eid true 0 msg) a0] I M1 M5) as [A B]. cbn [Datatypes.app] in A, B. rewrite A, B. cbn [step after due].
    split; [|split; [unfold holds; rewrite E1; exact Hh|exact E2]].
    rewrite to_cons, to_app, To1. change (to fd (Ev (CRecv (c_sock c0) (d_bufsize y)) (Some (eid :: msg)) :: t5 ++ [Ev (CTx eid true 0 msg) a0]))
      with (to fd (t5 ++ [Ev (CTx eid true 0 msg) a0])). rewrite to_app, To5.
    unfold owed. destruct st as [|t]; [reflexivity|]. rewrite <- E2, Ee. reflexivity.
Qed.

(** ** Rounds *)
Lemma fine_trans fd pend x t1 y t2 z : fine fd pend x t1 (Some y) -> fine fd nothing y t2 z -> fine fd pend x (t1 ++ t2) z.
Proof.
  intros F1 F2 st Hh Hb. apply behaves_app in Hb. destruct Hb as [Hb1 Hb2]. destruct (F1 st Hh Hb1) as (T1 & K1 & D1).
  destruct (F2 _ K1 Hb2) as (T2 & R). rewrite to_app, due_app, after_app, T1, T2. unfold nothing. cbn [Datatypes.app]. rewrite D1, app_assoc.
  split; [reflexivity|]. destruct z; [|exact I]. destruct R as [R1 R2]. split; [exact R1|congruence].
Qed.
Lemma fine_mute fd x tr y : Forall mute tr -> to fd tr = [] -> d_clients y = d_clients x -> d_eid y = d_eid x -> fine fd nothing x tr (Some y).
Proof.
  intros M T E1 E2 st Hh _. rewrite T, (mute_due _ _ _ M), (mute_after _ _ M). split; [reflexivity|]. split; [|exact E2]. now rewrite E1.
Qed.
Lemma fine_weak fd pend x tr y : fine fd pend x tr y -> fine fd pend x tr None.
Proof. intros F st Hh Hb. split; [exact (proj1 (F st Hh Hb))|exact I]. Qed.

Lemma fine_loop fd : forall fuel i x rv chg tr x' chg', exec (recv_loop fuel i x rv chg) tr (x', chg') -> fine fd nothing x tr (Some x').
Proof.
  assert (forall x, fine fd nothing x [] (Some x)) as H0 by (intros; apply fine_mute; auto).
  induction fuel as [|f IH]; intros i x rv chg tr x' chg' H; cbn [recv_loop] in H.
  { destruct H as [-> H]. injection H as -> _. apply H0. }
  destruct (Nat.ltb i (length (d_clients x))); [|destruct H as [-> H]; injection H as -> _; apply H0].
  destruct (nth_error rv i) as [[]|]; [|eapply IH; exact H|destruct H].
  ex_bind H t1 t2 r H1 H2. destruct r as [x1 rc]. eapply fine_trans; [eapply fine_recv; exact H1|eapply IH; exact H2].
Qed.
Lemma fine_remove fd x tr x' : exec (client_remove_inactive x) tr x' -> fine fd nothing x tr (Some x').
Proof.
  intros H. apply C45_exact in H. destruct H as [-> ->]. intros st Hh _. rewrite closes_to, (mute_due _ _ _ (closes_mute _)), (mute_after _ _ (closes_mute _)).
  split; [reflexivity|]. split; [|reflexivity]. apply holds_swept. exact Hh.
Qed.
Lemma fine_socket fd x tr x' rc : 0 <= fd -> exec (socket_process x) tr (x', rc) -> fine fd nothing x tr (Some x').
Proof.
  intros Hfd H. unfold socket_process in H. ex_bind H t1 t2 a H1 H2. ex_ask H1 a0 Ha0. destruct (a0 <? 0) eqn:E.
  - destruct H2 as [-> H2]. injection H2 as -> _. intros st Hh _. cbn [Datatypes.app after step due]. replace (a0 =? fd) with false by lia.
    split; [destruct st; reflexivity|]. auto.
  - destruct H2 as [-> H2]. injection H2 as -> _. intros st Hh [Hb _]. cbn [good] in Hb. cbn [Datatypes.app after step due d_clients set_clients].
    split; [destruct st; reflexivity|]. split; [|reflexivity]. unfold holds in *. rewrite filter_app, Hh. cbn [filter]. unfold has. cbn [c_sock].
    destruct (a0 =? fd) eqn:F.
    + apply Z.eqb_eq in F. rewrite (Hb F), F. reflexivity.
    + now rewrite app_nil_r.
Qed.

Lemma fine_round fd x chg tr r : 0 <= fd -> exec (daemon_round x chg) tr r -> fine fd nothing x tr (option_map fst r).
Proof.
  intros Hfd H. unfold daemon_round in H. set (y := if chg then set_fds x (map c_sock (d_clients x)) else x) in *.
  assert (d_clients y = d_clients x /\ d_eid y = d_eid x) as [E1 E2] by (unfold y; destruct chg; split; reflexivity).
  destruct (negb _); [destruct H|]. ex_bind H t1 t2 p H1 H2. ex_ask H1 p0 Hp0.
  set (e := Ev (CPoll (firstn (length (d_clients y)) (d_fds y))) p0).
  assert (fine fd nothing x [e] (Some y)) as F1 by (apply fine_mute; auto; repeat constructor).
  eapply fine_trans; [exact F1|]. clear F1 e. destruct p0 as [p0|]; [|destruct H2 as [-> ->]; apply fine_weak with (Some y); apply fine_mute; auto].
  destruct (r_signal p0); [destruct H2 as [-> ->]; apply fine_weak with (Some y); apply fine_mute; auto|].
  ex_bind H2 t3 t4 z H1 H2. destruct z as [x1 rc].
  assert (fine fd nothing y t3 (Some x1)) as F3.
  { destruct (r_binding p0).
    - ex_bind H1 u1 u2 a H1 H3. ex_ask H1 a0 Ha0. destruct a0 as [ms rc0]. ex_bind H3 u3 u4 x2 H3 H4. destruct H4 as [-> H4]. injection H4 as -> ->.
      rewrite app_nil_r. destruct (fine_deliver fd _ _ _ _ H3) as [F M]. intros st Hh [_ Hb]. cbn [step] in Hb.
      destruct (F st Hh Hb) as (T & K & D). cbn [Datatypes.app after due step]. split; [|auto]. rewrite to_cons, T, (mute_due _ _ _ M).
      change (to fd [Ev CProcess (ms, rc0)]) with (@nil (list Z)). cbn [Datatypes.app]. rewrite !app_nil_r. unfold pendings, owed, nothing. destruct st; reflexivity.
    - destruct H1 as [-> H1]. injection H1 as -> _. apply fine_mute; auto. }
  eapply fine_trans; [exact F3|]. clear F3 H1. destruct (negb (rc =? 0)); [destruct H2 as [-> ->]; apply fine_weak with (Some x1); apply fine_mute; auto|].
  ex_bind H2 t5 t6 z H1 H2. destruct z as [x2 chg2]. eapply fine_trans; [eapply fine_loop; exact H1|]. clear H1.
  ex_bind H2 t7 t8 z H1 H2. destruct z as [[x3 stop] chg3].
  assert (fine fd nothing x2 t7 (Some x3)) as F7.
  { destruct (r_socket p0).
    - ex_bind H1 u1 u2 z H1 H3. destruct z as [x4 rc4]. destruct H3 as [-> H3]. injection H3 as -> _ _. rewrite app_nil_r. eapply fine_socket; eassumption.
    - destruct H1 as [-> H1]. injection H1 as -> _ _. apply fine_mute; auto. }
  eapply fine_trans; [exact F7|]. destruct stop; [destruct H2 as [-> ->]; apply fine_weak with (Some x3); apply fine_mute; auto|].
  ex_bind H2 t9 t10 x5 H3 H2. destruct H2 as [-> ->]. rewrite app_nil_r. cbn [option_map fst]. destruct chg3; [eapply fine_remove; exact H3|].
  destruct H3 as [-> ->]. apply fine_mute; auto.
Qed.
Lemma fine_run fd : 0 <= fd -> forall n x chg tr r, exec (run_daemon n x chg) tr r -> fine fd nothing x tr (option_map fst r).
Proof.
  intros Hfd. induction n as [|n IH]; intros x chg tr r H; cbn [run_daemon] in H.
  - destruct H as [-> ->]. apply fine_mute; auto.
  - ex_bind H t1 t2 z H1 H2. pose proof (fine_round fd x chg _ _ Hfd H1) as F1. destruct z as [[x1 chg1]|].
    + eapply fine_trans; [exact F1|]. exact (IH _ _ _ _ H2).
    + destruct H2 as [-> ->]. rewrite app_nil_r. exact F1.
Qed.

(** ** The type is read once *)
Fixpoint proper (fd : Z) (st : seat) (tr : list ev) : Prop :=
  match tr with
  | [] => True
  | e :: t => (match e with Ev (CRead1 f) _ => f = fd -> st = Seated 0 | _ => True end) /\ proper fd (step fd st e) t
  end.
Definition unread (e : ev) : Prop := match e with Ev (CRead1 _) _ => False | _ => True end.
Lemma proper_app fd a : forall st b, proper fd st (a ++ b) <-> proper fd st a /\ proper fd (after fd st a) b.
Proof. induction a as [|e a IH]; intros st b; cbn; [tauto|]. rewrite IH. tauto. Qed.
Lemma unread_proper fd tr : Forall unread tr -> forall st, proper fd st tr.
Proof. induction 1 as [|[c a] t He Ht IH]; intros st; [exact I|]. split; [destruct c; try exact I; destruct He|apply IH]. Qed.
Lemma mute_unread tr : Forall mute tr -> Forall unread tr.
Proof. apply Forall_impl. intros [c a]. destruct c; cbn; tauto. Qed.
(** ... and by then everything due has been sent. *)
Definition once (fd : Z) (x : ctx) (tr : list ev) : Prop := forall st, holds fd st (d_clients x) -> behaves fd st tr ->
  proper fd st tr /\ forall a b c, tr = a ++ Ev (CRead1 fd) b :: c -> to fd a = due (d_eid x) fd st a.
Lemma once_trans fd x t1 y t2 : fine fd nothing x t1 (Some y) -> once fd x t1 -> once fd y t2 -> once fd x (t1 ++ t2).
Proof.
  intros F O1 O2 st Hh Hb. apply behaves_app in Hb. destruct Hb as [Hb1 Hb2]. destruct (O1 st Hh Hb1) as [P1 S1].
  destruct (F st Hh Hb1) as (T1 & K1 & D1). destruct (O2 _ K1 Hb2) as [P2 S2]. split; [apply proper_app; auto|].
  intros a b c E. apply app_split in E. destruct E as [(m & E1 & E2)|(m & E1 & E2)].
  - (* the event is in t2 *) subst a. rewrite to_app, due_app, T1, (S2 m b c E2), D1. reflexivity.
  - destruct m as [|e m].
    + rewrite app_nil_r in E1. subst a. cbn in E2. rewrite T1. reflexivity.
    + injection E2 as <- E2. eapply S1. exact E1.
Qed.
Lemma once_unread fd x tr : Forall unread tr -> once fd x tr.
Proof.
  intros H st _ _. split; [now apply unread_proper|]. intros a b c ->. apply Forall_app in H. destruct H as [_ H]. inversion_clear H as [|? ? H1 _]. destruct H1.
Qed.
Lemma once_recv fd x i tr x' rc : exec (client_process_recv x i) tr (x', rc) -> once fd x tr.
Proof.
  intros H. destruct (nth_error (d_clients x) i) as [c|] eqn:Hn.
  2:{ unfold client_process_recv, client_at in H. rewrite Hn in H. destruct H. }
  destruct (Z.eq_dec (c_type c) 0) as [E|E].
  - unfold client_process_recv, client_at in H. rewrite Hn in H. cbn [bind] in H. rewrite E, Z.eqb_refl in H.
    ex_bind H t1 t2 a H1 H2. ex_ask H1 a0 Ha0. assert (t2 = []) as -> by (destruct a0 as [b|]; [destruct (b =? 0)|]; exact (proj1 H2)).
    intros st Hh _. cbn. split.
    + split; [|exact I]. intros Ef. destruct (holds_mine fd st _ _ _ 0 Hn Ef Hh) as (-> & _). now rewrite E.
    + intros [|e a] b d Ed; [reflexivity|]. injection Ed as _ Ed. destruct a; discriminate.
  - apply once_unread. apply Forall_forall. intros [d a] Hin. destruct d; try exact I. exact (C53_fixed _ _ _ _ _ _ H Hn E _ _ Hin).
Qed.
Lemma once_loop fd : forall fuel i x rv chg tr x' chg', exec (recv_loop fuel i x rv chg) tr (x', chg') -> once fd x tr.
Proof.
  induction fuel as [|f IH]; intros i x rv chg tr x' chg' H; cbn [recv_loop] in H.
  { destruct H as [-> H]. apply once_unread. constructor. }
  destruct (Nat.ltb i (length (d_clients x))); [|destruct H as [-> H]; apply once_unread; constructor].
  destruct (nth_error rv i) as [[]|]; [|eapply IH; exact H|destruct H].
  ex_bind H t1 t2 r H1 H2. destruct r as [x1 rc]. eapply once_trans; [eapply fine_recv; exact H1|eapply once_recv; exact H1|eapply IH; exact H2].
Qed.
Lemma once_round fd x chg tr r : exec (daemon_round x chg) tr r -> once fd x tr.
Proof.
  intros H. unfold daemon_round in H. set (y := if chg then set_fds x (map c_sock (d_clients x)) else x) in *.
  assert (d_clients y = d_clients x /\ d_eid y = d_eid x) as [E1 E2] by (unfold y; destruct chg; split; reflexivity).
  destruct (negb _); [destruct H|]. ex_bind H t1 t2 p H1 H2. ex_ask H1 p0 Hp0.
  set (e := Ev (CPoll (firstn (length (d_clients y)) (d_fds y))) p0).
  assert (fine fd nothing x [e] (Some y)) as F1 by (apply fine_mute; auto; repeat constructor).
  eapply once_trans; [exact F1|apply once_unread; repeat constructor|]. clear F1 e.
  destruct p0 as [p0|]; [|destruct H2 as [-> ->]; apply once_unread; constructor].
  destruct (r_signal p0); [destruct H2 as [-> ->]; apply once_unread; constructor|].
  ex_bind H2 t3 t4 z H1 H2. destruct z as [x1 rc].
  assert (fine fd nothing y t3 (Some x1) /\ Forall unread t3) as [F3 U3].
  { destruct (r_binding p0).
    - ex_bind H1 u1 u2 a H1 H3. ex_ask H1 a0 Ha0. destruct a0 as [ms rc0]. ex_bind H3 u3 u4 x2 H3 H4. destruct H4 as [-> H4]. injection H4 as -> ->.
      rewrite app_nil_r. destruct (fine_deliver fd _ _ _ _ H3) as [F M]. split; [|constructor; [exact I|now apply mute_unread]].
      intros st Hh [_ Hb]. cbn [step] in Hb.
      destruct (F st Hh Hb) as (T & K & D). cbn [Datatypes.app after due step]. split; [|auto]. rewrite to_cons, T, (mute_due _ _ _ M).
      change (to fd [Ev CProcess (ms, rc0)]) with (@nil (list Z)). cbn [Datatypes.app]. rewrite !app_nil_r. unfold pendings, owed, nothing. destruct st; reflexivity.
    - destruct H1 as [-> H1]. injection H1 as -> _. split; [apply fine_mute; auto|constructor]. }
  eapply once_trans; [exact F3|now apply once_unread|]. clear F3 H1. destruct (negb (rc =? 0)); [destruct H2 as [-> ->]; apply once_unread; constructor|].
  ex_bind H2 t5 t6 z H1 H2. destruct z as [x2 chg2]. eapply once_trans; [eapply fine_loop; exact H1|eapply once_loop; exact H1|]. clear H1.
  ex_bind H2 t7 t8 z H1 H2. destruct z as [[x3 stop] chg3]. apply once_unread. apply Forall_app. split.
  - destruct (r_socket p0).
    + ex_bind H1 u1 u2 z H1 H3. destruct z as [x4 rc4]. destruct H3 as [-> H3]. rewrite app_nil_r. unfold socket_process in H1.
      ex_bind H1 v1 v2 a H1 H4. ex_ask H1 a0 Ha0. assert (v2 = []) as -> by (destruct (a0 <? 0); exact (proj1 H4)). repeat constructor.
    + destruct H1 as [-> H1]. constructor.
  - destruct stop; [destruct H2 as [-> ->]; constructor|]. ex_bind H2 t9 t10 x5 H3 H2. destruct H2 as [-> ->]. rewrite app_nil_r.
    destruct chg3; [|destruct H3 as [-> _]; constructor]. apply C45_exact in H3. destruct H3 as [-> _]. apply mute_unread, closes_mute.
Qed.
Lemma once_run fd : 0 <= fd -> forall n x chg tr r, exec (run_daemon n x chg) tr r -> once fd x tr.
Proof.
  intros Hfd. induction n as [|n IH]; intros x chg tr r H; cbn [run_daemon] in H.
  - destruct H as [-> ->]. apply once_unread. constructor.
  - ex_bind H t1 t2 z H1 H2. pose proof (fine_round fd x chg _ _ Hfd H1) as F1. destruct z as [[x1 chg1]|].
    + eapply once_trans; [exact F1|eapply once_round; exact H1|]. exact (IH _ _ _ _ H2).
    + destruct H2 as [-> ->]. rewrite app_nil_r. eapply once_round; exact H1.
Qed.

(** *** C79.  Over any run of the daemon, a client that behaves is sent exactly what is due:
    from when it is accepted, every message of its type that the stack delivers or that a
    client sends to the daemon's own EID, once, in order, whole, and nothing else. *)
Theorem C79_client : forall eid cap n tr r fd,
  exec (run_daemon n (start eid cap) false) tr r -> 0 <= fd -> behaves fd Absent tr ->
  to fd tr = due eid fd Absent tr.
Proof. intros eid cap n tr r fd H Hfd Hb. exact (proj1 (fine_run fd Hfd n _ _ _ _ H Absent eq_refl Hb)). Qed.
(** The same for a client that gets a descriptor used before: from any moment at which no
    client has it. *)
Theorem C79_later : forall eid cap n1 t1 x chg n2 t2 r fd,
  exec (run_daemon n1 (start eid cap) false) t1 (Some (x, chg)) -> exec (run_daemon n2 x chg) t2 r ->
  0 <= fd -> ~ In fd (socks (d_clients x)) -> behaves fd Absent t2 ->
  to fd t2 = due eid fd Absent t2.
Proof.
  intros eid cap n1 t1 x chg n2 t2 r fd H1 H2 Hfd Hn Hb.
  assert (d_eid x = eid) as E. { apply run_moves in H1. destruct H1 as (x' & M & ->). exact (mv_eid _ _ _ _ M). }
  rewrite <- E. refine (proj1 (fine_run fd Hfd n2 _ _ _ _ H2 Absent _ Hb)). unfold holds.
  destruct (filter (has fd) (d_clients x)) as [|c l] eqn:F; [reflexivity|]. exfalso. apply Hn.
  assert (In c (filter (has fd) (d_clients x))) as Hin by (rewrite F; now left). apply filter_In in Hin. destruct Hin as [Hin Hc].
  apply Z.eqb_eq in Hc. unfold socks. apply in_map_iff. exists c. auto.
Qed.
(** It stays connected. *)
Theorem C79_stays : forall eid cap n tr x chg fd t,
  exec (run_daemon n (start eid cap) false) tr (Some (x, chg)) -> 0 <= fd -> behaves fd Absent tr ->
  after fd Absent tr = Seated t -> In (Client true fd t) (d_clients x).
Proof.
  intros eid cap n tr x chg fd t H Hfd Hb Ha. destruct (fine_run fd Hfd n _ _ _ _ H Absent eq_refl Hb) as (_ & K & _).
  rewrite Ha in K. cbn [option_map fst] in K. unfold holds in K.
  assert (In (Client true fd t) (filter (has fd) (d_clients x))) as Hin by (rewrite K; now left). now apply filter_In in Hin.
Qed.
(** What comes in: delivered by the stack, or sent by a client to the daemon's own EID. *)
Definition incoming (local : Z) (tr : list ev) : list (list Z) :=
  flat_map (fun e => match e with
    | Ev c a => match c return answer c -> list (list Z) with
                | CProcess => fun a => map (fun m => m_src m :: m_bytes m) (fst a)
                | CRecv _ _ => fun a => match a with Some (d :: msg) => if d =? local then [d :: msg] else [] | _ => [] end
                | _ => fun _ => []
                end a
    end) tr.
(** Once it has announced its type [t] it gets the incoming messages of type [t]: those of
    two bytes or more (behind the EID) whose first byte is [t]. *)
Theorem C79_type : forall eid cap n t1 t t2 r fd,
  exec (run_daemon n (start eid cap) false) (t1 ++ Ev (CRead1 fd) (inl t) :: t2) r -> 0 <= fd ->
  behaves fd Absent (t1 ++ Ev (CRead1 fd) (inl t) :: t2) ->
  to fd t2 = filter (fun bs => (3 <=? zlen bs) && (nth 1 bs 0 =? t)) (incoming eid t2).
Proof.
  intros eid cap n t1 t t2 r fd H Hfd Hb.
  pose proof (proj1 (fine_run fd Hfd n _ _ _ _ H Absent eq_refl Hb)) as Ht. cbn [nothing Datatypes.app] in Ht.
  destruct (once_run fd Hfd n _ _ _ _ H Absent eq_refl Hb) as [Ho Hs]. specialize (Hs t1 _ t2 eq_refl).
  apply behaves_app in Hb. destruct Hb as [_ [Hg Hb]]. cbn [good step] in Hg, Hb. destruct (Hg eq_refl) as (ty & [= <-] & Hty).
  rewrite Z.eqb_refl in Hb. apply proper_app in Ho. destruct Ho as [_ [_ Ho]]. cbn [step] in Ho. rewrite Z.eqb_refl in Ho.
  rewrite to_app, due_app, Hs in Ht. apply app_inv_head in Ht. rewrite to_cons in Ht. cbn [due step] in Ht. rewrite Z.eqb_refl in Ht.
  change (to fd [Ev (CRead1 fd) (inl t)]) with (@nil (list Z)) in Ht. cbn [Datatypes.app] in Ht. change (d_eid (start eid cap)) with eid in Ht.
  assert (owed eid (after fd Absent t1) (Ev (CRead1 fd) (inl t)) = []) as E0 by (destruct (after fd Absent t1); reflexivity).
  rewrite E0 in Ht. cbn [Datatypes.app] in Ht. rewrite Ht. clear H Ht Hs Hg E0. revert Hb Ho. induction t2 as [|[c a] t2 IH]; intros Hb Ho; [reflexivity|].
  destruct Hb as [Hg Hb], Ho as [Hr Ho].
  assert (step fd (Seated t) (Ev c a) = Seated t) as Es.
  { destruct c; try reflexivity.
    - cbn in *. destruct a as [b|]; [|reflexivity]. destruct (fd0 =? fd) eqn:F; [|reflexivity]. apply Z.eqb_eq in F. specialize (Hr F). congruence.
    - cbn in *. destruct (a =? fd) eqn:F; [|reflexivity]. apply Z.eqb_eq in F. specialize (Hg F). discriminate. }
  cbn [due]. rewrite Es in *. rewrite (IH Hb Ho). replace (incoming eid (Ev c a :: t2)) with (incoming eid [Ev c a] ++ incoming eid t2)
    by (unfold incoming; cbn [flat_map]; now rewrite app_nil_r).
  rewrite filter_app. f_equal.
  assert (forall d msg, wants t msg = ((3 <=? zlen (d :: msg)) && (nth 1 (d :: msg) 0 =? t))%bool) as W.
  { intros d msg. unfold wants. rewrite zlen_cons. destruct msg as [|b msg]; [reflexivity|]. cbn [hd nth]. f_equal. lia. }
  destruct c; try reflexivity; unfold incoming; cbn [flat_map owed]; rewrite app_nil_r.
  - destruct a as [[|d msg]|]; try reflexivity. destruct (d =? eid); [|reflexivity]. cbn [filter andb]. rewrite (W d). reflexivity.
  - destruct a as [ms rc]. cbn [fst]. clear -W. induction ms as [|m ms IH]; [reflexivity|]. cbn [map filter]. rewrite <- (W (m_src m)).
    destruct (wants t (m_bytes m)); cbn [map]; now rewrite IH.
Qed.

(** A run: a client connects and announces type 5; then the stack delivers a message of type
    5 and one of type 6, and the client sends a message of type 5 to the daemon's own EID. *)
Definition demo : DaemonBugs.oracle := fun n c =>
  match c return answer c with
  | CClose _ => tt | CSend _ bs => zlen bs | CRead1 _ => inl 5 | CPeek _ => 3
  | CGrow _ => true | CRecv _ k => if 3 <=? k then Some [8; 5; 2] else None | CCapture _ _ => tt | CTx _ _ _ _ => 0
  | CAccept => 4
  | CPoll fds => Some (Ready false (Nat.leb 4 n) (Nat.eqb n 0) (map (fun _ => true) fds))
  | CProcess => ([Msg 9 [5; 1]; Msg 9 [6; 1]], 0)
  | CUninit => false
  end.
Lemma demo_ok : forall n c, allowed c (demo n c).
Proof.
  intros n []; cbn; try exact I; try lia.
  - unfold is_byte. lia.
  - destruct (3 <=? n0) eqn:E; [|exact I]. split; [cbn; lia|]. repeat constructor; unfold is_byte; lia.
  - rewrite map_length. reflexivity.
  - repeat constructor; cbn; unfold is_byte; lia.
Qed.
Example C79_case : exists tr r, exec (run_daemon 3 (start 8 false) false) tr r /\ behaves 4 Absent tr /\
  after 4 Absent tr = Seated 5 /\ to 4 tr = [[9; 5; 1]; [8; 5; 2]].
Proof.
  destruct (DaemonBugs.play demo 0 (run_daemon 3 (start 8 false) false)) as [[tr r]|] eqn:E; [|vm_compute in E; discriminate].
  pose proof (DaemonBugs.play_exec _ demo demo_ok _ _ _ _ E) as X. vm_compute in E. injection E as <- <-.
  eexists _, _. split; [exact X|]. split; [|split; reflexivity]. cbn. repeat split; auto; try lia; eauto.
  exists 5. split; [reflexivity|lia].
Qed.
