(** Queue: the transmit queue as core.c implements it, a singly linked list of
    heap objects with a head and a tail pointer, and its refinement of the list
    [bus_q] used in Core.v. *)
From Verif Require Import Base Lists Prog PktBuf Core Walk.

(** ** The linked list *)

(** libmctp.h 53-59 struct mctp_pktbuf: the packet and its [next] pointer. *)
Record node := mkNode { n_pkt : pktbuf; n_next : option Z }.

(** The live heap objects, by address.  An address that is not listed is not
    allocated (or no longer): using it is undefined behaviour. *)
Definition heap := list (Z * node).
Fixpoint look (h : heap) (a : Z) : option node :=
  match h with
  | [] => None
  | (x, n) :: t => if x =? a then Some n else look t a
  end.
Fixpoint store_node (h : heap) (a : Z) (n : node) : heap :=
  match h with
  | [] => []
  | (x, m) :: t => if x =? a then (x, n) :: t else (x, m) :: store_node t a n
  end.
Fixpoint release (h : heap) (a : Z) : heap :=
  match h with
  | [] => []
  | (x, m) :: t => if x =? a then t else (x, m) :: release t a
  end.

(** core.c 34-35: tx_queue_head and tx_queue_tail *)
Record lqueue := mkLq { lq_heap : heap; lq_head : option Z; lq_tail : option Z }.

Section Linked.
Context {B : Type}.
Variable btx : B -> pktbuf -> prog (B * pktbuf * Z * bool).
(** Where the allocator places a new packet: any address not in use, so addresses
    of released packets may be handed out again. *)
Variable place : heap -> Z.

(** core.c 820-825: append [pkt] (whose next pointer mctp_pktbuf_alloc has set to
    NULL, core.c 116). *)
Definition ll_append (s : lqueue) (pkt : pktbuf) : prog lqueue :=
  let a := place (lq_heap s) in
  let h := (a, mkNode pkt None) :: lq_heap s in
  match lq_tail s with
  | Some t =>
      n <- deref UseAfterFree (look h t) ;;
      Ret (mkLq (store_node h t (mkNode (n_pkt n) (Some a))) (lq_head s) (Some a))
  | None => Ret (mkLq h (Some a) (Some a))
  end.

(** core.c 724-727 cleanup_tail *)
Definition ll_cleanup (s : lqueue) : lqueue :=
  match lq_head s with
  | None => mkLq (lq_heap s) None None
  | Some _ => s
  end.

(** core.c 698-728 mctp_send_tx_queue.  The binding gets the object itself, so
    what it leaves in the packet is stored back; pkt->next is read after
    binding->tx has returned, and before the packet is released. *)
Fixpoint ll_send_loop (fuel : nat) (w : world B) (i : bool) (s : lqueue)
  : prog (world B * lqueue) :=
  match lq_head s with
  | None => Ret (w, ll_cleanup s)
  | Some a =>
      match fuel with
      | O => Flt OutOfFuel
      | S fuel' =>
          n <- deref UseAfterFree (look (lq_heap s) a) ;;
          '(w', p', rc) <- packet_tx btx w i (n_pkt n) ;;
          let h1 := store_node (lq_heap s) a (mkNode p' (n_next n)) in
          if (rc =? 0) || (rc =? - EMSGSIZE) then
            n1 <- deref UseAfterFree (look h1 a) ;;
            _ <- pktbuf_free (n_pkt n1) ;;
            ll_send_loop fuel' w' i (mkLq (release h1 a) (n_next n1) (lq_tail s))
          else Ret (w', ll_cleanup (mkLq h1 (lq_head s) (lq_tail s)))
      end
  end.

(** core.c 797-829, the packetisation loop, as [packetise] of Core.v except for
    the last step *)
Fixpoint ll_packetise (fuel : nat) (w : world B) (i : bool) (s : lqueue) (src dest : Z)
         (to : bool) (tag : Z) (mtu : Z) (k : Z) (msg : list Z) : prog (world B * lqueue) :=
  match msg with
  | [] => Ret (w, s)
  | _ :: _ =>
  match fuel with
  | O => Flt OutOfFuel
  | S fuel' =>
      let plen := if mtu <? zlen msg then mtu else zlen msg in
      let b := bnd w i in
      o <- pktbuf_alloc (m_next (w_m w)) (bd_pkt_size b) (bd_header b) (bd_trailer b) (plen + 4) ;;
      pkt <- deref NullDeref o ;;
      let w := set_m w (set_next (w_m w) (m_next (w_m w) + 1)) in
      let last := zlen msg <=? plen in
      pkt <- pktbuf_store pkt (pk_hdr pkt) (tx_hdr (bd_version b) dest src to tag k last) ;;
      pkt <- pktbuf_store pkt (pk_hdr pkt + 4) (firstn (Z.to_nat plen) msg) ;;
      _ <- get_bus (w_m w) i ;;
      bytes <- deref OutOfBounds (pktbuf_bytes pkt) ;;
      Emit (EvEnq i (pk_id pkt) bytes)
        (s' <- ll_append s pkt ;;
         ll_packetise fuel' w i s' src dest to tag mtu (k + 1) (skipn (Z.to_nat plen) msg))
  end end.

(** core.c 768-836 mctp_message_tx_on_bus; the number of objects on the heap
    bounds the send loop. *)
Definition ll_message_tx_on_bus (w : world B) (i : bool) (s : lqueue) (src dest : Z) (to : bool)
           (tag : Z) (msg : list Z) : prog (world B * lqueue * Z) :=
  bs <- get_bus (w_m w) i ;;
  match bus_st bs with
  | Constructed => Ret (w, s, - ENXIO)
  | _ =>
      if negb (Z.land tag 7 =? tag) then Ret (w, s, - EINVAL)
      else
        let mtu := MCTP_BODY_SIZE (bd_pkt_size (bnd w i)) in
        _ <- assert_ (MCTP_BTU <=? mtu) ;;
        '(w', s') <- ll_packetise (length msg) w i s src dest to tag mtu 0 msg ;;
        '(w'', s'') <- ll_send_loop (length (lq_heap s')) w' i s' ;;
        Ret (w'', s'', 0)
  end.

(** core.c 730-766 mctp_binding_set_tx_enabled *)
Definition ll_set_tx_enabled (w : world B) (i : bool) (s : lqueue) (enable : bool)
  : prog (world B * lqueue) :=
  Emit (EvSetTx i enable)
  (if negb (bd_bus (bnd w i)) then Flt NullDeref else
   bs <- get_bus (w_m w) i ;;
   match bus_st bs with
   | Constructed =>
       if negb enable then Ret (w, s)
       else if bd_pkt_size (bnd w i) <? MCTP_PACKET_SIZE MCTP_BTU then Ret (w, s)
       else Ret (set_bus w i (set_st bs TxEnabled), s)
   | TxEnabled =>
       if enable then Ret (w, s) else Ret (set_bus w i (set_st bs TxDisabled), s)
   | TxDisabled =>
       if negb enable then Ret (w, s)
       else ll_send_loop (length (lq_heap s)) (set_bus w i (set_st bs TxEnabled)) i s
   end).

(** core.c 305-313 mctp_bus_destroy *)
Fixpoint ll_destroy (fuel : nat) (s : lqueue) : prog lqueue :=
  match lq_head s with
  | None => Ret s
  | Some a =>
      match fuel with
      | O => Flt OutOfFuel
      | S fuel' =>
          n <- deref UseAfterFree (look (lq_heap s) a) ;;
          _ <- pktbuf_free (n_pkt n) ;;
          ll_destroy fuel' (mkLq (release (lq_heap s) a) (n_next n) (lq_tail s))
      end
  end.

(** core.c 698-728 and 820-832 with a binding whose tx function, when it is called
    the first time, hands a packet to the core from inside that call: the way a
    synchronous loop back (two endpoints in one process, joined by
    mctp_serial_set_tx_fn) ends up calling mctp_message_tx for the reply.
    Simplified: transmission is enabled, binding->tx always returns 0, the reply
    is the single packet [r], and [EvTxCall] records the packet only. *)
Fixpoint reentrant_send (fuel : nat) (i : bool) (s : lqueue) (r : option pktbuf) : prog lqueue :=
  match lq_head s with
  | None => Ret (ll_cleanup s)
  | Some a =>
      match fuel with
      | O => Flt OutOfFuel
      | S fuel' =>
          n <- deref UseAfterFree (look (lq_heap s) a) ;;
          Emit (EvTxCall i (pk_id (n_pkt n)) (pk_data (n_pkt n)))
          (s1 <- (match r with
                  | None => Ret s
                  | Some q => s' <- ll_append s q ;; reentrant_send fuel' i s' None
                  end) ;;
           n1 <- deref UseAfterFree (look (lq_heap s1) a) ;;
           _ <- pktbuf_free (n_pkt n1) ;;
           reentrant_send fuel' i (mkLq (release (lq_heap s1) a) (n_next n1) (lq_tail s1)) None)
      end
  end.

(** ** When a linked list holds the packets [l] *)

Fixpoint chain (h : heap) (p : option Z) (l : list (Z * pktbuf)) : Prop :=
  match l with
  | [] => p = None
  | (a, k) :: t => p = Some a /\ exists nx, look h a = Some (mkNode k nx) /\ chain h nx t
  end.

Fixpoint end_of (l : list (Z * pktbuf)) : option Z :=
  match l with
  | [] => None
  | [(a, _)] => Some a
  | _ :: t => end_of t
  end.

(** [s] holds exactly the packets [l], oldest first: following [next] from the
    head visits live objects with these packets and then NULL, the tail points to
    the last of them, and nothing else is on the heap. *)
Definition tidy (h : heap) (cells : list (Z * pktbuf)) : Prop :=
  NoDup (map fst cells) /\ NoDup (map fst h) /\ length h = length cells
  /\ forall a, In a (map fst h) -> In a (map fst cells).
Definition holds (s : lqueue) (l : list pktbuf) : Prop :=
  exists cells, map snd cells = l /\ chain (lq_heap s) (lq_head s) cells
    /\ lq_tail s = end_of cells /\ tidy (lq_heap s) cells.

(** ** Heap lemmas *)

Lemma look_store h a n b : look (store_node h a n) b =
  if (a =? b) then (match look h a with Some _ => Some n | None => None end) else look h b.
Proof.
  induction h as [|[x m] t IH]; cbn [store_node look].
  - destruct (a =? b); reflexivity.
  - destruct (x =? a) eqn:E; cbn [look].
    + apply Z.eqb_eq in E. subst x. destruct (a =? b); reflexivity.
    + rewrite IH. destruct (x =? b) eqn:Eb; [|reflexivity].
      apply Z.eqb_eq in Eb as ->. rewrite Z.eqb_sym, E. reflexivity.
Qed.

Lemma look_in h a n : look h a = Some n -> In a (map fst h).
Proof.
  induction h as [|[x m] t IH]; cbn [look map fst In]; [discriminate|].
  destruct (x =? a) eqn:E; [|right; auto]. apply Z.eqb_eq in E. intros _; now left.
Qed.

Lemma fst_store h a n : map fst (store_node h a n) = map fst h.
Proof.
  induction h as [|[x m] t IH]; cbn [store_node map fst]; [reflexivity|].
  destruct (x =? a); cbn [map fst]; congruence.
Qed.

Lemma look_release h a b : a <> b -> look (release h a) b = look h b.
Proof.
  intros Hn. induction h as [|[x m] t IH]; cbn [release look]; [reflexivity|].
  destruct (x =? a) eqn:E; cbn [look].
  - apply Z.eqb_eq in E as ->. destruct (a =? b) eqn:Eb; [|reflexivity].
    apply Z.eqb_eq in Eb. congruence.
  - destruct (x =? b); [reflexivity|exact IH].
Qed.

Lemma release_facts h a : NoDup (map fst h) -> In a (map fst h) ->
  NoDup (map fst (release h a)) /\ S (length (release h a)) = length h
  /\ (forall b, In b (map fst (release h a)) -> In b (map fst h) /\ b <> a).
Proof.
  induction h as [|[x m] t IH]; cbn [release map fst In]; [intros _ []|].
  intros Hd Ha. inversion Hd as [|? ? Hx Ht]; subst. destruct (x =? a) eqn:E.
  - apply Z.eqb_eq in E as ->. repeat split; [exact Ht|now right|intros ->; auto].
  - apply Z.eqb_neq in E. destruct Ha as [Ha|Ha]; [congruence|].
    destruct (IH Ht Ha) as (A & L & C). cbn [map fst length In]. repeat split.
    + constructor; [|exact A]. intros Hi. apply C in Hi. tauto.
    + lia.
    + destruct H as [<-|Hb]; [now left|right; now apply C].
    + intros ->. destruct H as [Hb|Hb]; [congruence|]. now apply C in Hb.
Qed.

Lemma chain_store h a n l : ~ In a (map fst l) -> forall p, chain h p l ->
  chain (store_node h a n) p l.
Proof.
  induction l as [|[x k] t IH]; cbn [chain map fst In]; [auto|].
  intros Hn p (-> & nx & Hl & Hc). split; [reflexivity|]. exists nx.
  rewrite look_store. destruct (a =? x) eqn:E; [apply Z.eqb_eq in E; subst; tauto|].
  split; [exact Hl|]. apply IH; tauto.
Qed.

Lemma chain_cons h a n l : ~ In a (map fst l) -> forall p, chain h p l ->
  chain ((a, n) :: h) p l.
Proof.
  induction l as [|[x k] t IH]; cbn [chain map fst In]; [auto|].
  intros Hn p (-> & nx & Hl & Hc). split; [reflexivity|]. exists nx. cbn [look].
  destruct (a =? x) eqn:E; [apply Z.eqb_eq in E; subst; tauto|].
  split; [exact Hl|]. apply IH; tauto.
Qed.

Lemma chain_release h a l : ~ In a (map fst l) -> forall p, chain h p l ->
  chain (release h a) p l.
Proof.
  induction l as [|[x k] t IH]; cbn [chain map fst In]; [auto|].
  intros Hn p (-> & nx & Hl & Hc). split; [reflexivity|]. exists nx.
  rewrite look_release by (intros ->; tauto). split; [exact Hl|]. apply IH; tauto.
Qed.

Lemma end_of_snoc l a k : end_of (l ++ [(a, k)]) = Some a.
Proof.
  induction l as [|[x m] t IH]; [reflexivity|]. cbn [app end_of].
  destruct (t ++ [(a, k)]) as [|c r] eqn:E; [now destruct t|exact IH].
Qed.

Lemma chain_in h l : forall p a, chain h p l -> In a (map fst l) -> In a (map fst h).
Proof.
  induction l as [|[x k] t IH]; cbn [chain map fst In]; [intros ? ? _ []|].
  intros p a (-> & nx & Hl & Hc) [<-|Hi]; [eapply look_in; exact Hl|eauto].
Qed.

(** Linking a new last object: the old last one gets its [next] set. *)
Lemma chain_snoc h a pkt l : NoDup (map fst l) -> ~ In a (map fst l) -> forall p t n,
  l <> [] -> chain h p l -> end_of l = Some t ->
  look h t = Some n -> look h a = Some (mkNode pkt None) ->
  chain (store_node h t (mkNode (n_pkt n) (Some a))) p (l ++ [(a, pkt)]).
Proof.
  induction l as [|[x k] r IH]; intros Hd Hn p t n Hne Hc He Ht Ha; [congruence|].
  cbn [map fst] in Hd. inversion Hd as [|? ? Hx Hr]; subst.
  cbn [chain] in Hc. destruct Hc as (-> & nx & Hl & Hc).
  cbn [app chain]. split; [reflexivity|]. rewrite look_store.
  destruct r as [|[y k'] r'].
  - cbn [end_of] in He. injection He as <-. rewrite Z.eqb_refl, Hl.
    assert (n = mkNode k nx) as -> by congruence. exists (Some a). split; [reflexivity|].
    cbn [app chain]. split; [reflexivity|]. exists None. rewrite look_store.
    destruct (x =? a) eqn:E; [apply Z.eqb_eq in E; subst; cbn in Hn; tauto|].
    split; [exact Ha|reflexivity].
  - destruct (t =? x) eqn:E.
    + exfalso. apply Z.eqb_eq in E as ->. apply Hx.
      assert (Hend : forall l0 t0, end_of l0 = Some t0 -> In t0 (map fst l0)).
      { clear. induction l0 as [|[z q] l1 IH]; [discriminate|]. intros t0 He.
        destruct l1; [injection He as ->; now left|right; apply IH; exact He]. }
      apply Hend. exact He.
    + exists nx. split; [exact Hl|]. apply IH; [exact Hr|cbn in Hn |- *; tauto| |exact Hc|exact He|exact Ht|exact Ha].
      discriminate.
Qed.

Hypothesis place_free : forall h, ~ In (place h) (map fst h).

Lemma end_in l : forall t, end_of l = Some t -> In t (map fst l).
Proof.
  induction l as [|[z q] l1 IH]; [discriminate|]. intros t0 He.
  destruct l1; [injection He as ->; now left|right; apply IH; exact He].
Qed.

Lemma in_look h a : In a (map fst h) -> exists n, look h a = Some n.
Proof.
  induction h as [|[x m] t IH]; cbn [map fst In look]; [intros []|].
  destruct (x =? a) eqn:E; [eauto|]. apply Z.eqb_neq in E. intros [?|Hi]; [congruence|auto].
Qed.

Lemma append_holds s l pkt : holds s l ->
  exists s', ll_append s pkt = Ret s' /\ holds s' (l ++ [pkt]).
Proof.
  intros (cells & Hm & Hc & Ht & Hd & Hdh & Hlen & Hin). unfold ll_append.
  set (a := place (lq_heap s)).
  assert (Hfr : ~ In a (map fst cells)).
  { intros Hi. apply (place_free (lq_heap s)). eapply chain_in; eauto. }
  assert (Hd' : NoDup (map fst (cells ++ [(a, pkt)]))).
  { rewrite map_app. cbn [map fst]. apply (NoDup_Add (a := a) (l := map fst cells)); [|split; assumption].
    pose proof (Add_app a (map fst cells) []) as HA. rewrite app_nil_r in HA. exact HA. }
  destruct (lq_tail s) as [t|] eqn:Et.
  - assert (Hti : In t (map fst cells)) by (apply end_in; congruence).
    assert (Hta : a <> t) by (intros ->; auto).
    destruct (in_look (lq_heap s) t) as [n Hn]; [eapply chain_in; eauto|].
    cbn [look]. apply Z.eqb_neq in Hta as Hta'. rewrite Hta', Hn. cbn [deref bind].
    eexists. split; [reflexivity|]. exists (cells ++ [(a, pkt)]).
    cbn [lq_heap lq_head lq_tail]. repeat split.
    + rewrite map_app, Hm. reflexivity.
    + apply chain_snoc; [exact Hd|exact Hfr| |now apply chain_cons|congruence| |].
      * intros ->. destruct Hti.
      * cbn [look]. now rewrite Hta'.
      * cbn [look]. now rewrite Z.eqb_refl.
    + now rewrite end_of_snoc.
    + exact Hd'.
    + rewrite fst_store. cbn [map fst]. constructor; [|exact Hdh]. apply place_free.
    + rewrite <- (map_length fst), fst_store. cbn [map length]. rewrite map_length, app_length.
      cbn [length]. lia.
    + intros b. rewrite fst_store, map_app, in_app_iff. cbn [map fst In].
      intros [<-|Hb]; [auto|left; auto].
  - assert (cells = []) as ->.
    { destruct cells as [|c r]; [reflexivity|]. exfalso. clear -Ht.
      revert c Ht. induction r as [|d r IH]; intros [x k] Ht; [discriminate|]. exact (IH d Ht). }
    cbn in Hm. subst l. eexists. split; [reflexivity|]. exists [(a, pkt)].
    cbn [lq_heap lq_head lq_tail map snd fst chain end_of app].
    assert (lq_heap s = []) as -> by (destruct (lq_heap s); [reflexivity|discriminate Hlen]).
    repeat split; try reflexivity.
    + exists None. cbn [look]. now rewrite Z.eqb_refl.
    + constructor; [intros []|constructor].
    + constructor; [intros []|constructor].
    + cbn [map fst]. auto.
Qed.

(** Taking the first object off. *)
Lemma pop_holds s p l : holds s (p :: l) ->
  exists a nx, lq_head s = Some a /\ look (lq_heap s) a = Some (mkNode p nx)
    /\ forall p', let h1 := store_node (lq_heap s) a (mkNode p' nx) in
       look h1 a = Some (mkNode p' nx)
       /\ holds (mkLq h1 (lq_head s) (lq_tail s)) (p' :: l)
       /\ (exists s', s' = mkLq (release h1 a) nx (lq_tail s)
            /\ holds (ll_cleanup s') l /\ length (release h1 a) = length l
            /\ (l <> [] -> holds s' l) /\ (l = [] -> nx = None)).
Proof.
  intros (cells & Hm & Hc & Ht & Hd & Hdh & Hlen & Hin).
  destruct cells as [|[a k] r]; [discriminate Hm|]. cbn [map snd] in Hm. injection Hm as -> Hm.
  cbn [chain] in Hc. destruct Hc as (Hh & nx & Hl & Hc).
  cbn [map fst] in Hd. inversion Hd as [|? ? Ha Hr]; subst.
  exists a, nx. split; [exact Hh|]. split; [exact Hl|]. intros p' h1.
  assert (Hl1 : look h1 a = Some (mkNode p' nx)).
  { unfold h1. rewrite look_store, Z.eqb_refl, Hl. reflexivity. }
  assert (Hf1 : map fst h1 = map fst (lq_heap s)) by apply fst_store.
  assert (Hn1 : length h1 = length (lq_heap s)) by (rewrite <- (map_length fst), Hf1, map_length; reflexivity).
  assert (Hc1 : chain h1 nx r) by (apply chain_store; assumption).
  split; [exact Hl1|]. split.
  { exists ((a, p') :: r). cbn [lq_heap lq_head lq_tail map snd fst chain].
    split; [reflexivity|]. split; [split; [exact Hh|]; exists nx; auto|].
    split; [destruct r; exact Ht|]. split; [exact Hd|]. split; [now rewrite Hf1|].
    split; [rewrite Hn1; exact Hlen|]. rewrite Hf1. exact Hin. }
  eexists. split; [reflexivity|].
  destruct (release_facts h1 a) as (R1 & R2 & R3).
  { now rewrite Hf1. } { rewrite Hf1. eapply look_in; eauto. }
  assert (Htidy : tidy (release h1 a) r).
  { split; [exact Hr|]. split; [exact R1|]. split; [cbn in Hlen; lia|].
    intros b Hb. apply R3 in Hb as [Hb Hne]. rewrite Hf1 in Hb. apply Hin in Hb.
    cbn [map fst In] in Hb. destruct Hb; [congruence|assumption]. }
  assert (Hc2 : chain (release h1 a) nx r) by (apply chain_release; assumption).
  assert (Hmain : r <> [] -> holds (mkLq (release h1 a) nx (lq_tail s)) (map snd r)).
  { intros Hne. exists r. cbn [lq_heap lq_head lq_tail]. split; [reflexivity|]. split; [exact Hc2|].
    split; [|exact Htidy]. rewrite Ht. destruct r as [|c r']; [congruence|]. destruct c; reflexivity. }
  split; [|split; [|split]].
  - destruct r as [|[b kb] r'].
    + cbn [chain] in Hc2. subst nx. cbn. exists []. cbn [lq_heap lq_head lq_tail map chain end_of].
      repeat split; try reflexivity; try apply Htidy.
    + assert (nx = Some b) as -> by (cbn in Hc2; tauto). cbn [ll_cleanup lq_head].
      apply Hmain. discriminate.
  - destruct Htidy as (_ & _ & L & _). rewrite map_length. exact L.
  - intros Hne. apply Hmain. intros ->. now apply Hne.
  - intros E. destruct r; [exact Hc|discriminate E].
Qed.

End Linked.
