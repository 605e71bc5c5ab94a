(** PropPkt: packet buffer operations (C21). *)
From Verif Require Import Base Lists Prog PktBuf WP.

(** ** Specification: a packet buffer is some head room, its bytes, some tail room. *)
Record pview := mkView { v_head : Z; v_bytes : list Z; v_tail : Z }.

(** A call and the caller's use of the pointer it returns: reading the bytes popped,
    filling the space obtained from alloc_start or alloc_end. *)
Inductive pcall := Push (bs : list Z) | Pop (n : Z) | AllocStart (bs : list Z) | AllocEnd (bs : list Z).
Inductive presult := RCode (rc : Z) | RBytes (bs : option (list Z)) | RUnit.

Inductive pspec (v : pview) : pcall -> presult -> pview -> Prop :=
| SpPush bs : zlen bs <= v_tail v ->
    pspec v (Push bs) (RCode 0) (mkView (v_head v) (v_bytes v ++ bs) (v_tail v - zlen bs))
| SpPushFull bs : v_tail v < zlen bs -> pspec v (Push bs) (RCode (-1)) v
| SpPop a b : v_bytes v = a ++ b ->
    pspec v (Pop (zlen b)) (RBytes (Some b)) (mkView (v_head v) a (v_tail v + zlen b))
| SpPopShort n : zlen (v_bytes v) < n -> pspec v (Pop n) (RBytes None) v
| SpStart bs : zlen bs <= v_head v ->
    pspec v (AllocStart bs) RUnit (mkView (v_head v - zlen bs) (bs ++ v_bytes v) (v_tail v))
| SpEnd bs : zlen bs <= v_tail v ->
    pspec v (AllocEnd bs) RUnit (mkView (v_head v) (v_bytes v ++ bs) (v_tail v - zlen bs)).

Inductive pspecs : pview -> list pcall -> list presult -> pview -> Prop :=
| SpNil v : pspecs v [] [] v
| SpCons v c r v1 l rs v2 : pspec v c r v1 -> pspecs v1 l rs v2 -> pspecs v (c :: l) (r :: rs) v2.

(** The documented limits: alloc_start and alloc_end ask for no more than there is;
    lengths are lengths of objects. *)
Fixpoint within (h n t : Z) (l : list pcall) : Prop :=
  match l with
  | [] => True
  | Push bs :: l => zlen bs < 2 ^ 63 /\
      if zlen bs <=? t then within h (n + zlen bs) (t - zlen bs) l else within h n t l
  | Pop k :: l => 0 <= k < 2 ^ 64 /\ if k <=? n then within h (n - k) (t + k) l else within h n t l
  | AllocStart bs :: l => zlen bs <= h /\ within (h - zlen bs) (n + zlen bs) t l
  | AllocEnd bs :: l => zlen bs <= t /\ within h (n + zlen bs) (t - zlen bs) l
  end.

(** ** The code *)
Definition do_call (p : pktbuf) (c : pcall) : prog (pktbuf * presult) :=
  match c with
  | Push bs => '(p', rc) <- pktbuf_push p bs ;; Ret (p', RCode rc)
  | Pop n =>
      match pktbuf_pop p n with
      | (p', None) => Ret (p', RBytes None)
      | (p', Some off) => bs <- deref OutOfBounds (rd (pk_data p') off n) ;; Ret (p', RBytes (Some bs))
      end
  | AllocStart bs => '(p', off) <- pktbuf_alloc_start p (zlen bs) ;; p'' <- pktbuf_store p' off bs ;; Ret (p'', RUnit)
  | AllocEnd bs => '(p', off) <- pktbuf_alloc_end p (zlen bs) ;; p'' <- pktbuf_store p' off bs ;; Ret (p'', RUnit)
  end.
Fixpoint do_calls (p : pktbuf) (l : list pcall) : prog (pktbuf * list presult) :=
  match l with
  | [] => Ret (p, [])
  | c :: l => '(p', r) <- do_call p c ;; '(p'', rs) <- do_calls p' l ;; Ret (p'', r :: rs)
  end.

(** The buffer in memory and what it stands for: start, end and size delimit the
    bytes inside the allocated array. *)
Definition stands_for (p : pktbuf) (v : pview) : Prop :=
  exists x z, pk_data p = x ++ v_bytes v ++ z /\ zlen x = v_head v /\ zlen z = v_tail v /\
    pk_start p = v_head v /\ pk_end p = v_head v + zlen (v_bytes v) /\
    pk_size p = v_head v + zlen (v_bytes v) + v_tail v /\ pk_size p < 2 ^ 63.

Section G.
Context (a : assm).
Notation wpa := (wp (adv a)).

Lemma wp_do_call p v c g : stands_for p v -> within (v_head v) (zlen (v_bytes v)) (v_tail v) [c] ->
  wpa (do_call p c) g (fun r g' => g' = g /\ exists v', pspec v c (snd r) v' /\ stands_for (fst r) v').
Proof.
  intros (x & z & Hd & Hx & Hz & Hs & He & Hsz & Hmax) Hw.
  pose proof (zlen_pos _ x) as Px. pose proof (zlen_pos _ z) as Pz. pose proof (zlen_pos _ (v_bytes v)) as Pb.
  destruct c as [bs|n|bs|bs]; cbn [within] in Hw; unfold do_call.
  - destruct Hw as [Hw _]. pose proof (zlen_pos _ bs) as Pbs. unfold pktbuf_push, pktbuf_push_len.
    rewrite w64_id by lia. destruct (pk_size p <? pk_end p + zlen bs) eqn:E.
    + cbn [bind wp fst snd]. split; [reflexivity|]. exists v. split; [constructor; lia|]. exists x, z. auto 10.
    + destruct (rd_some bs 0 (zlen bs)) as (r & Hr & Hrl); try lia. rewrite Hr. cbn [deref bind].
      assert (r = bs) as ->.
      { apply rd_spec in Hr. destruct Hr as (x0 & z0 & E0 & H1 & H2). apply zlen_0_nil in H1. subst x0.
        cbn in E0. rewrite E0, zlen_app in H2. assert (zlen z0 = 0) as H3 by lia. apply zlen_0_nil in H3. subst z0.
        now rewrite app_nil_r in E0. }
      destruct (wr_some (pk_data p) (pk_end p) bs) as (d' & Hd'); [lia|rewrite Hd, !zlen_app; lia|].
      rewrite Hd'. cbn [deref bind wp fst snd]. split; [reflexivity|].
      eexists. split; [constructor; lia|].
      apply wr_spec in Hd'. destruct Hd' as (x1 & y1 & z1 & E1 & Hx1 & Hy1 & ->).
      rewrite Hd, app_assoc in E1. apply app_inv_zlen in E1; [|rewrite zlen_app; lia]. destruct E1 as [<- ->].
      exists x, z1. cbn [v_bytes v_head v_tail pk_data pk_start pk_end pk_size]. rewrite zlen_app in Hz.
      rewrite zlen_app, <- !app_assoc. repeat split; lia.
  - destruct Hw as [Hw _]. unfold pktbuf_pop, pktbuf_size. rewrite w64_id by lia.
    destruct (pk_end p - pk_start p <? n) eqn:E.
    + cbn [wp fst snd]. split; [reflexivity|]. exists v. split; [constructor; lia|]. exists x, z. auto 10.
    + rewrite w64_id by lia. cbn [pk_data].
      destruct (rd_some (pk_data p) (pk_end p - n) n) as (r & Hr & Hrl); [lia|lia|rewrite Hd, !zlen_app; lia|].
      rewrite Hr. cbn [deref bind wp fst snd]. split; [reflexivity|].
      assert (exists aa, v_bytes v = aa ++ r) as (aa & Haa).
      { apply rd_spec in Hr. destruct Hr as (x1 & z1 & E1 & Hx1 & _).
        rewrite Hd in E1. rewrite app_assoc in E1. rewrite (app_assoc x1 r z1) in E1.
        apply app_inv_zlen in E1; [|rewrite !zlen_app; lia]. destruct E1 as [E1 _].
        exists (skipn (length x) x1). apply (f_equal (skipn (length x))) in E1.
        rewrite skipn_app, skipn_all, Nat.sub_diag in E1. cbn in E1. rewrite E1, skipn_app.
        replace (length x - length x1)%nat with 0%nat; [reflexivity|]. unfold zlen in *. lia. }
      exists (mkView (v_head v) aa (v_tail v + zlen r)). rewrite <- Hrl. split; [now constructor|].
      pose proof (zlen_pos _ aa). rewrite Haa, zlen_app in *.
      exists x, (r ++ z). cbn [v_bytes v_head v_tail pk_data pk_start pk_end pk_size].
      rewrite Hd, <- app_assoc, zlen_app. repeat split; lia.
  - destruct Hw as [Hw _]. pose proof (zlen_pos _ bs) as Pbs. unfold pktbuf_alloc_start.
    replace (zlen bs <=? pk_start p) with true by lia. cbn [assert_ bind]. rewrite w64_id by lia.
    unfold pktbuf_store. cbn [pk_data].
    destruct (wr_some (pk_data p) (pk_start p - zlen bs) bs) as (d' & Hd'); [lia|rewrite Hd, !zlen_app; lia|].
    rewrite Hd'. cbn [deref bind wp fst snd]. split; [reflexivity|].
    eexists. split; [constructor; lia|].
    apply wr_spec in Hd'. destruct Hd' as (x1 & y1 & z1 & E1 & Hx1 & Hy1 & ->).
    rewrite Hd, app_assoc in E1.
    assert (x = x1 ++ y1 /\ v_bytes v ++ z = z1) as [-> <-].
    { rewrite <- app_assoc, (app_assoc x1 y1 z1) in E1. apply app_inv_zlen in E1; [exact E1|]. rewrite zlen_app. lia. }
    exists x1, z. cbn [v_bytes v_head v_tail pk_data pk_start pk_end pk_size]. rewrite zlen_app in *.
    rewrite <- !app_assoc. repeat split; lia.
  - destruct Hw as [Hw _]. pose proof (zlen_pos _ bs) as Pbs. unfold pktbuf_alloc_end.
    rewrite !w64_id by lia. replace (zlen bs <=? pk_size p - pk_end p) with true by lia. cbn [assert_ bind].
    unfold pktbuf_store. cbn [pk_data].
    destruct (wr_some (pk_data p) (pk_end p) bs) as (d' & Hd'); [lia|rewrite Hd, !zlen_app; lia|].
    rewrite Hd'. cbn [deref bind wp fst snd]. split; [reflexivity|].
    eexists. split; [constructor; lia|].
    apply wr_spec in Hd'. destruct Hd' as (x1 & y1 & z1 & E1 & Hx1 & Hy1 & ->).
    rewrite Hd, app_assoc in E1. apply app_inv_zlen in E1; [|rewrite zlen_app; lia]. destruct E1 as [<- ->].
    exists x, z1. cbn [v_bytes v_head v_tail pk_data pk_start pk_end pk_size]. rewrite zlen_app in Hz.
    rewrite zlen_app, <- !app_assoc. repeat split; lia.
Qed.

Lemma pspec_within v c r v' l : pspec v c r v' ->
  within (v_head v) (zlen (v_bytes v)) (v_tail v) (c :: l) ->
  within (v_head v) (zlen (v_bytes v)) (v_tail v) [c] /\
  within (v_head v') (zlen (v_bytes v')) (v_tail v') l.
Proof.
  intros Hs Hw. destruct Hs as [bs H|bs H|x y H|n H|bs H|bs H]; cbn [within v_head v_bytes v_tail] in *.
  - replace (zlen bs <=? v_tail v) with true in * by lia. rewrite zlen_app. tauto.
  - replace (zlen bs <=? v_tail v) with false in * by lia. tauto.
  - rewrite H, zlen_app in *. pose proof (zlen_pos _ x). replace (zlen y <=? zlen x + zlen y) with true in * by lia.
    replace (zlen x + zlen y - zlen y) with (zlen x) in Hw by lia. tauto.
  - replace (n <=? zlen (v_bytes v)) with false in * by lia. tauto.
  - rewrite zlen_app, (Z.add_comm (zlen bs)). tauto.
  - rewrite zlen_app. tauto.
Qed.

Lemma within_head v c l : within (v_head v) (zlen (v_bytes v)) (v_tail v) (c :: l) ->
  within (v_head v) (zlen (v_bytes v)) (v_tail v) [c].
Proof. destruct c; cbn [within]; try tauto; destruct (_ <=? _); tauto. Qed.

Lemma wp_do_calls : forall l p v g, stands_for p v -> within (v_head v) (zlen (v_bytes v)) (v_tail v) l ->
  wpa (do_calls p l) g (fun r g' => g' = g /\ exists v', pspecs v l (snd r) v' /\ stands_for (fst r) v').
Proof.
  induction l as [|c l IH]; intros p v g Hp Hw; cbn [do_calls].
  - cbn. split; [reflexivity|]. exists v. split; [constructor|exact Hp].
  - eapply wp_call; [apply adv_mono|apply (wp_do_call p v c g Hp); now apply within_head in Hw|].
    intros [p' r] g' (-> & v1 & Hs & Hp'). cbn [fst snd] in *.
    destruct (pspec_within _ _ _ _ _ Hs Hw) as [_ Hw'].
    eapply wp_call; [apply adv_mono|apply (IH p' v1 g Hp' Hw')|].
    intros [p'' rs] g' (-> & v2 & Hss & Hp''). cbn [wp fst snd] in *. split; [reflexivity|].
    exists v2. split; [econstructor; eassumption|exact Hp''].
Qed.
End G.

(** ** C21 *)

(** mctp_pktbuf_alloc, then any sequence of calls: no fault, and the results are
    those of the specification.  [psz], [phd], [ptr]: the sizes the binding declares. *)
Theorem C21_pktbuf id psz phd ptr len l :
  0 <= psz < 2 ^ 60 -> 0 <= phd < 2 ^ 60 -> 0 <= ptr < 2 ^ 60 -> 0 <= len <= psz + ptr ->
  within phd len (psz + ptr - len) l ->
  always hostile
    (o <- pktbuf_alloc id psz phd ptr len ;;
     match o with
     | Some p => '(p', rs) <- do_calls p l ;; Ret (Some (p', rs))
     | None => Ret None
     end)
    (fun r _ => match r with
                | None => True   (* out of memory *)
                | Some (p', rs) => exists v v', v_head v = phd /\ zlen (v_bytes v) = len /\
                    v_tail v = psz + ptr - len /\ pspecs v l rs v' /\ stands_for p' v'
                end).
Proof.
  intros H1 H2 H3 H4 Hw. apply adv_always. unfold pktbuf_alloc. rewrite w64_id by lia.
  replace (psz + phd + ptr <? len) with false by lia. cbn [bind wp adv h_alloc].
  split; [|intros _; cbn; exact I]. cbn [bind wp h_emit].
  set (p := pktbuf_mk id psz phd ptr len).
  set (v := mkView phd (repeat poison (Z.to_nat len)) (psz + ptr - len)).
  assert (stands_for p v) as Hp.
  { exists (repeat poison (Z.to_nat phd)), (repeat poison (Z.to_nat (psz + ptr - len))).
    unfold p, pktbuf_mk, v. cbn [pk_data pk_start pk_end pk_size v_head v_bytes v_tail].
    rewrite !w64_id, !zlen_repeat by lia. rewrite <- !repeat_app. split; [f_equal; lia|]. lia. }
  eapply wp_call; [apply adv_mono|apply (wp_do_calls hostile l p v _ Hp)|].
  { unfold v. cbn [v_head v_bytes v_tail]. rewrite zlen_repeat, Z2Nat.id by lia. exact Hw. }
  intros [p' rs] g (-> & v' & Hs & Hp'). cbn [wp fst snd] in *. exists v, v'.
  unfold v at 1 2 3. cbn [v_head v_bytes v_tail]. rewrite zlen_repeat, Z2Nat.id by lia. auto.
Qed.

(** Popping what was pushed gives it back. *)
Theorem C21_push_pop v bs v1 r2 v2 : pspec v (Push bs) (RCode 0) v1 -> pspec v1 (Pop (zlen bs)) r2 v2 ->
  r2 = RBytes (Some bs) /\ v2 = v.
Proof.
  intros H1 H2. inversion H1; subst. inversion H2 as [| |x y E1 E2 E3 E4|n Hn E1 E2 E3| |]; subst; cbn [v_head v_bytes v_tail] in *.
  - assert (v_bytes v = x /\ bs = y) as [<- <-].
    { apply app_inv_zlen in E1; [exact E1|]. apply (f_equal zlen) in E1. rewrite !zlen_app in E1. lia. }
    split; [reflexivity|]. destruct v; cbn. f_equal. lia.
  - rewrite zlen_app in Hn. pose proof (zlen_pos _ (v_bytes v)). lia.
Qed.

(** The limits are met by a concrete sequence, refusals included. *)
Example C21_case : within 4 8 64 [Push [1; 2; 3]; Pop 2; AllocEnd [9; 9]; Pop 100; AllocStart [1; 2; 3; 4]; Push (repeat 0 70)].
Proof. cbn. lia. Qed.

(** A length near SIZE_MAX passes the check of mctp_pktbuf_push: end + len wraps. *)
Theorem C21_push_wraps : exists p src len,
  (exists v, stands_for p v) /\ 0 <= len < 2 ^ 64 /\ v_tail (mkView 0 [] (pk_size p - pk_end p)) < len /\
  can_fault hostile (pktbuf_push_len p src len) OutOfBounds.
Proof.
  exists (pktbuf_mk 0 68 0 0 10), [1; 2; 3], (2 ^ 64 - 5).
  split; [|split; [lia|split; [vm_compute; reflexivity|]]].
  - exists (mkView 0 (repeat poison 10) 58), [], (repeat poison 58). vm_compute. repeat split; reflexivity.
  - exists (mkEnv (fun _ => true) (fun _ _ => None) (fun _ => true) (fun _ _ => 0) (fun _ => 1)), [].
    split; [repeat split; discriminate|]. vm_compute. reflexivity.
Qed.

(** mctp_pktbuf_alloc_start and mctp_pktbuf_alloc_end do not hand out memory that is
    not there: asking for more than is left before or after the data ends in the assertion. *)
Theorem C21_alloc_refused p v bs : stands_for p v -> zlen bs < 2 ^ 64 ->
  (v_head v < zlen bs -> do_call p (AllocStart bs) = Flt AssertFail) /\
  (v_tail v < zlen bs -> do_call p (AllocEnd bs) = Flt AssertFail).
Proof.
  intros (x & z & _ & _ & Hz & Es & Ee & Ez & Hs) Hb.
  assert (0 <= v_tail v) as Ht by (rewrite <- Hz; apply zlen_pos).
  split; intros H; cbn [do_call]; unfold pktbuf_alloc_start, pktbuf_alloc_end.
  - rewrite Es. replace (zlen bs <=? v_head v) with false by lia. reflexivity.
  - pose proof (zlen_pos _ (v_bytes v)). rewrite w64_id by lia.
    replace (zlen bs <=? pk_size p - pk_end p) with false by lia. reflexivity.
Qed.
(** A buffer of 10 bytes payload with 4 bytes before it. *)
Example C21_alloc_refused_case : exists p v, stands_for p v /\ v_head v = 4 /\ v_tail v = 58 /\
  do_call p (AllocStart (repeat 0 5)) = Flt AssertFail /\ do_call p (AllocStart (repeat 0 4)) <> Flt AssertFail.
Proof.
  exists (pktbuf_mk 0 68 4 0 10), (mkView 4 (repeat poison 10) 58). split.
  - exists (repeat poison 4), (repeat poison 58). vm_compute. repeat split; reflexivity.
  - repeat split; vm_compute; discriminate.
Qed.
