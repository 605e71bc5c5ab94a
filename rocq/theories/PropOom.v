(** PropOom: when a failed allocation is survived (C15, positive part).

    An endpoint that only receives, whose application does not answer from its callbacks,
    and whose message size limit is below 8192, so that no reassembly buffer is ever grown:
    whichever allocations fail, nothing faults, and the state reached is one that can be
    reached without any failure, namely by a history in which the limit is lowered to 0 for
    the packets whose allocation failed.  All theorems about reachable states and their
    traces therefore apply during and after the shortage. *)
From Coq Require Import Permutation.
From Verif Require Import Base Lists Prog PktBuf Core WP Walk CoreRel WalkCore CoreHist Spec Trace PropTx
  PropMsg SpecRx Reasm PropRx PropLife Concrete Refute.

(** ** Vocabulary *)

(** Receiving: packets arrive, settings change; the limit stays below [8192]. *)
Definition receiving {B} (o : @op B) : Prop :=
  match o with
  | OpRx i p => i = false /\ wf_pkt p
  | OpSetMax n => 0 <= n < 8192
  | OpSetCapture _ | OpSetRx _ | OpPriv _ _ => True
  | OpPktSize _ n => 68 <= n < 2 ^ 63
  | _ => False
  end.

(** [starved k l l']: [l'] is [l], in which the limit is [k] at first, except that for some of
    the packets the limit is 0. *)
Inductive starved {B} : Z -> list (@op B) -> list (@op B) -> Prop :=
| StNil k : starved k [] []
| StMax k n l l' : starved n l l' -> starved k (OpSetMax n :: l) (OpSetMax n :: l')
| StSame k o l l' : (forall n, o <> OpSetMax n) -> starved k l l' -> starved k (o :: l) (o :: l')
| StFail k i p l l' : starved k l l' ->
    starved k (OpRx i p :: l) (OpSetMax 0 :: OpRx i p :: OpSetMax k :: l').

(** ** One packet *)

Definition plenty (e : env) : Prop := forall n, e_alloc e n = true.

(** The limit as the reassembly sees it: the configured one, or 0 if the allocation fails. *)
Definition seen_as (e : env) (max mx : Z) : Prop := (mx = max \/ mx = 0) /\ (plenty e -> mx = max).

Lemma seen_refl e max : seen_as e max max.
Proof. split; auto. Qed.

Lemma run_add e n tr c p bytes max : wf_ctx c -> wf_pkt p -> pktbuf_bytes p = Some bytes -> 4 < zlen bytes ->
  0 <= max < 8192 -> exists n' mx, seen_as e max mx /\
    run e n tr (ctx_add_pkt c p max) =
      Done (fst (add_pure c (p_payload bytes) mx), if snd (add_pure c (p_payload bytes) mx) then 0 else -1) n' tr.
Proof.
  intros Hc Hw Hby Hl Hmx. pose proof (payload_zlen bytes ltac:(lia)) as Hp.
  destruct (payload_rd p bytes Hw Hby Hl) as (Hsz & Hrd & _).
  pose proof (wf_ctx_alloc_pos c Hc) as Ha0. pose proof (zlen_pos _ (c_data c)) as Hd0.
  pose proof Hc as [Hb Hd Ha].
  assert (zlen bytes < 2 ^ 64) as Hmax.
  { rewrite <- Hsz. rewrite (pktbuf_size_wf p Hw). destruct Hw. lia. }
  unfold ctx_add_pkt. cbn zeta. rewrite Hsz. rewrite (w64_id (zlen bytes - 4)) by lia.
  unfold add_pure. rewrite Hp.
  destruct (2 ^ 64 <=? zlen bytes - 4 + zlen (c_data c)) eqn:E1.
  - assert (w64 (zlen bytes - 4 + zlen (c_data c)) <? zlen (c_data c) = true) as ->.
    { unfold w64. rewrite <- (Z.mod_add _ (-1)) by lia. rewrite Z.mod_small by lia. lia. }
    exists n, max. split; [apply seen_refl|reflexivity].
  - rewrite (w64_id (zlen bytes - 4 + zlen (c_data c))) by lia.
    rewrite (w64_id (zlen (c_data c) + (zlen bytes - 4))) by lia.
    replace (zlen bytes - 4 + zlen (c_data c) <? zlen (c_data c)) with false by lia.
    destruct (c_alloc c <? zlen (c_data c) + (zlen bytes - 4)) eqn:E2.
    + destruct (max <? new_alloc_size (c_alloc c) (zlen (c_data c)) (zlen bytes - 4)) eqn:E3.
      { exists n, max. split; [apply seen_refl|]. rewrite E3. reflexivity. }
      unfold ctx_grow. destruct (c_buf c) eqn:Eb; [| |contradiction].
      * (* no buffer yet *)
        destruct Hb as [Hb1 Hb2]. cbn [bind run]. destruct (e_alloc e n) eqn:Eal.
        -- exists (S n), max. split; [apply seen_refl|]. rewrite E3. cbn [bind run ctx_append ctx_set_buf c_buf].
           rewrite Hrd. cbn [deref bind c_data c_alloc ctx_set_buf].
           pose proof (new_alloc_range (c_alloc c) (zlen (c_data c)) (zlen bytes - 4)) as Hn.
           set (nsz := new_alloc_size _ _ _) in *. replace (zlen (c_data c) + (zlen bytes - 4) <=? nsz) with true by lia. reflexivity.
        -- exists (S n), 0. split; [split; [auto|intros Hpl; rewrite Hpl in Eal; discriminate]|].
           replace (0 <? _) with true; [reflexivity|].
           unfold new_alloc_size. rewrite Hb1, Z.eqb_refl. lia.
      * (* a buffer of at least 4096 bytes would have to grow to 8192 *)
        exfalso. unfold new_alloc_size in E3. replace (c_alloc c =? 0) with false in E3 by lia.
        rewrite (w64_id (zlen bytes - 4 + zlen (c_data c))) in E3 by lia.
        destruct (Z.ltb_spec (c_alloc c) 8192); [|lia]. rewrite (w64_id (c_alloc c * 2)) in E3 by lia. lia.
    + exists n, max. split; [apply seen_refl|]. unfold ctx_append. destruct (c_buf c) eqn:Eb; [lia| |contradiction].
      rewrite Hrd. cbn [deref bind].
      replace (zlen (c_data c) + (zlen bytes - 4) <=? c_alloc c) with true by lia. reflexivity.
Qed.

Section One.
Context {B : Type} (tx : B -> pktbuf -> prog (B * pktbuf * Z * bool)) (appl : event -> list txreq) (Hsil : forall e, appl e = []).
Notation world := (world B).

(** What the application of an endpoint is shown of a complete message. *)
Definition shown (w : world) (b : bus) (bytes : list Z) (out : option (Z * Z * list Z)) : list event :=
  match out with
  | None => []
  | Some (sr, d, msg) =>
      EvMsg false sr d (p_to bytes) (p_tag bytes) msg ::
      (if dest_is_local b d then match local_event w false sr (p_to bytes) (p_tag bytes) msg with
                                 | Some e => [e] | None => [] end else [])
  end.

Lemma run_callback e n tr (w : world) ev : run e n tr (callback tx appl w ev) = Done w n (tr ++ [ev]).
Proof. unfold callback. rewrite Hsil. reflexivity. Qed.

Lemma run_mctp_rx e n tr (w : world) b sr d to tag msg : m_policy (w_m w) = RouteEndpoint -> bget w false = Some b ->
  run e n tr (mctp_rx tx appl w false sr d to tag PLive msg) =
  Done w n (tr ++ EvMsg false sr d to tag msg ::
      (if dest_is_local b d then match local_event w false sr to tag msg with
                                 | Some e => [e] | None => [] end else [])).
Proof.
  intros Hp Hb. unfold mctp_rx. cbn [assert_ bind run]. rewrite Hp. rewrite run_bind.
  assert (get_bus (w_m w) false = Ret b) as ->.
  { unfold bget in Hb. unfold get_bus. destruct (m_busses (w_m w)) as [|l|]; try discriminate Hb.
    rewrite Hb. reflexivity. }
  cbn [run]. destruct (dest_is_local b d); [|reflexivity].
  unfold rx_local, local_event, ctrl_handle. rewrite run_bind.
  destruct ((4 <=? zlen msg) && ctrl_is_request msg) eqn:E1; cbn [andb].
  - destruct (ctrl_is_transport msg) eqn:E2; cbn [andb]; [destruct (bd_ctrl (bnd w false)) eqn:E3|].
    + rewrite run_bind, run_callback. cbn [run]. rewrite <- app_assoc. reflexivity.
    + cbn [run]. destruct (m_rx (w_m w)); [rewrite run_callback, <- app_assoc; reflexivity|reflexivity].
    + cbn [run]. destruct (m_rx (w_m w)); [rewrite run_callback, <- app_assoc; reflexivity|reflexivity].
  - cbn [run]. destruct (m_rx (w_m w)); [rewrite run_callback, <- app_assoc; reflexivity|reflexivity].
Qed.

(** One received packet: the new state and what is seen, as a function of the limit. *)
Definition rx_out (w : world) (b : bus) (bytes : list Z) (mx : Z) : world * list event :=
  if negb (dest_is_local b (p_dest bytes)) then (w, capev w false bytes)
  else let r := rx_pure (m_ctxs (w_m w)) mx bytes in
       (setc w (fst r), capev w false bytes ++ shown w b bytes (snd r)).

Lemma run_cap e n tr (w : world) bytes : run e n tr (if m_cap (w_m w) then Emit (EvCapture false bytes) (Ret tt) else Ret tt)
  = Done tt n (tr ++ capev w false bytes).
Proof. unfold capev. destruct (m_cap (w_m w)); [reflexivity|cbn; rewrite app_nil_r; reflexivity]. Qed.

Lemma run_body st e n tr (w : world) b p bytes : WF st w -> m_policy (w_m w) = RouteEndpoint -> bget w false = Some b ->
  m_max (w_m w) < 8192 -> wf_pkt p -> pktbuf_bytes p = Some bytes -> 4 < zlen bytes ->
  exists n' mx, seen_as e (m_max (w_m w)) mx /\
    run e n tr (bus_rx_body tx appl w false b p) =
      Done (fst (rx_out w b bytes mx)) n' (tr ++ snd (rx_out w b bytes mx)).
Proof.
  intros Hw Hpol Hb Hlim Hp Hby Hl. unfold bus_rx_body. rewrite Hby. cbn [deref bind].
  rewrite run_bind, run_cap. set (tr1 := tr ++ capev w false bytes).
  destruct (payload_rd p bytes Hp Hby Hl) as (Hsz & Hrd & Hh).
  rewrite Hh. cbn [deref bind]. rewrite Hpol.
  destruct (hdr_fields bytes ltac:(lia)) as (-> & -> & ->).
  pose proof (wf_max _ _ Hw) as Hmx. pose proof (wf_ctxs _ _ Hw) as Hcs.
  cbn [andb]. unfold rx_out.
  destruct (dest_is_local b (p_dest bytes)) eqn:Eloc; cbn [negb].
  2:{ exists n, (m_max (w_m w)). split; [apply seen_refl|reflexivity]. }
  fold (p_tag bytes). fold (p_seq bytes). fold (p_to bytes). fold (p_flags bytes).
  cbn zeta. cbn [fst snd].
  assert (forall mx out cs n', seen_as e (m_max (w_m w)) mx -> rx_pure (m_ctxs (w_m w)) mx bytes = (cs, out) ->
    forall o, o = Done (setc w cs) n' (tr1 ++ shown w b bytes out) ->
    exists n' mx, seen_as e (m_max (w_m w)) mx /\ o =
      Done (setc w (fst (rx_pure (m_ctxs (w_m w)) mx bytes))) n'
           (tr ++ capev w false bytes ++ shown w b bytes (snd (rx_pure (m_ctxs (w_m w)) mx bytes)))) as Hdone.
  { intros mx out cs n' Hs E o ->. exists n', mx. split; [exact Hs|]. rewrite E. cbn [fst snd].
    unfold tr1. rewrite <- app_assoc. reflexivity. }
  assert (forall cs o n', rx_pure (m_ctxs (w_m w)) (m_max (w_m w)) bytes = (cs, None) ->
    o = Done (setc w cs) n' tr1 ->
    exists n' mx, seen_as e (m_max (w_m w)) mx /\ o =
      Done (setc w (fst (rx_pure (m_ctxs (w_m w)) mx bytes))) n'
           (tr ++ capev w false bytes ++ shown w b bytes (snd (rx_pure (m_ctxs (w_m w)) mx bytes)))) as Hheld.
  { intros cs o n' E ->. eapply Hdone; [apply seen_refl|exact E|]. cbn [shown]. rewrite app_nil_r. reflexivity. }
  destruct (p_flags bytes =? Z.lor FLAG_SOM FLAG_EOM) eqn:F1.
  { assert (w64 (pk_end p - pk_hdr p - 4) = zlen bytes - 4) as ->.
    { rewrite (pktbuf_size_wf p Hp) in Hsz. destruct Hp. rewrite w64_id by lia. lia. }
    rewrite Hrd. cbn [deref bind]. rewrite (run_mctp_rx e n tr1 w b) by assumption.
    eapply (Hdone (m_max (w_m w)) _ (m_ctxs (w_m w))); [apply seen_refl|unfold rx_pure; rewrite F1; reflexivity|].
    rewrite setc_id. reflexivity. }
  destruct (p_flags bytes =? FLAG_SOM) eqn:F2.
  { unfold rx_som.
    assert (forall k c, wf_ctx c ->
      (forall mx, rx_pure (m_ctxs (w_m w)) mx bytes = (start_pure (m_ctxs (w_m w)) k c mx bytes, None)) ->
      exists n' mx, seen_as e (m_max (w_m w)) mx /\
      run e n tr1 (x <- ctx_add_pkt (ctx_set_frag c (pktbuf_size p)) p (m_max (w_m w)) ;;
            let (c2, rc) := x in
            Ret (put_ctx w k (if rc =? 0 then ctx_set_seq c2 (p_seq bytes) else ctx_drop c2))) =
      Done (setc w (fst (rx_pure (m_ctxs (w_m w)) mx bytes))) n'
           (tr ++ capev w false bytes ++ shown w b bytes (snd (rx_pure (m_ctxs (w_m w)) mx bytes)))) as Hstart.
    { intros k c Hc Heq. rewrite run_bind.
      destruct (run_add e n tr1 (ctx_set_frag c (pktbuf_size p)) p bytes (m_max (w_m w))
                  (wf_ctx_frag _ _ Hc) Hp Hby Hl ltac:(lia)) as (n' & mx & Hs & ->).
      eapply (Hdone mx); [exact Hs|exact (Heq mx)|]. cbn [shown]. rewrite app_nil_r.
      unfold start_pure. rewrite Hsz.
      destruct (add_pure (ctx_set_frag c (zlen bytes)) (p_payload bytes) mx) as [c2 ok].
      cbn [fst snd run]. replace ((if ok then 0 else -1) =? 0) with ok by (destruct ok; reflexivity). reflexivity. }
    destruct (ctx_lookup (m_ctxs (w_m w)) (p_src bytes) (p_dest bytes) (p_tag bytes)) as [k|] eqn:El.
    - destruct (ctx_lookup_nth _ _ _ _ _ El) as (c & Hn & Hnth & _). unfold get_ctx. rewrite Hn.
      cbn [deref bind]. apply Hstart.
      + apply wf_ctx_nodata. exact (nth_error_Forall _ _ _ _ _ Hcs Hn).
      + intros mx. unfold rx_pure. rewrite F1, F2, El, Hnth. reflexivity.
    - destruct (ctx_free_slot (m_ctxs (w_m w))) as [k|] eqn:Ef.
      + destruct (ctx_free_nth _ _ Ef) as (c & Hn & Hnth & _). unfold get_ctx. rewrite Hn.
        cbn [deref bind]. apply Hstart.
        * apply wf_ctx_nodata. exact (nth_error_Forall _ _ _ _ _ Hcs Hn).
        * intros mx. unfold rx_pure. rewrite F1, F2, El, Ef, Hnth. reflexivity.
      + eapply (Hheld (m_ctxs (w_m w))); [unfold rx_pure; rewrite F1, F2, El, Ef; reflexivity|].
        rewrite setc_id. reflexivity. }
  unfold rx_eom, rx_mid.
  destruct (ctx_lookup (m_ctxs (w_m w)) (p_src bytes) (p_dest bytes) (p_tag bytes)) as [k|] eqn:El.
  2:{ destruct (p_flags bytes =? FLAG_EOM) eqn:F3;
      (eapply (Hheld (m_ctxs (w_m w))); [unfold rx_pure; rewrite F1, F2, El; reflexivity|rewrite setc_id; reflexivity]). }
  destruct (ctx_lookup_nth _ _ _ _ _ El) as (c & Hn & Hnth & Hsrc & Hdst & Htg).
  assert (wf_ctx c) as Hc by exact (nth_error_Forall _ _ _ _ _ Hcs Hn).
  unfold get_ctx at 1 3. rewrite Hn. cbn [deref bind].
  destruct (negb ((c_seq c + 1) mod 4 =? p_seq bytes)) eqn:F4.
  { destruct (p_flags bytes =? FLAG_EOM) eqn:F3;
      (eapply (Hheld (upd_nth (m_ctxs (w_m w)) k (ctx_drop c))); [unfold rx_pure;
      rewrite F1, F2, El, Hnth, F4; reflexivity|reflexivity]). }
  rewrite Hsz.
  destruct (p_flags bytes =? FLAG_EOM) eqn:F3.
  - destruct (c_frag c <? zlen bytes) eqn:F5.
    { eapply (Hheld (upd_nth (m_ctxs (w_m w)) k (ctx_drop c))); [unfold rx_pure;
      rewrite F1, F2, El, Hnth, F4, F3, F5; reflexivity|reflexivity]. }
    rewrite run_bind.
    destruct (run_add e n tr1 c p bytes (m_max (w_m w)) Hc Hp Hby Hl ltac:(lia)) as (n' & mx & Hs & ->).
    assert (rx_pure (m_ctxs (w_m w)) mx bytes =
            (upd_nth (m_ctxs (w_m w)) k (ctx_drop (fst (add_pure c (p_payload bytes) mx))),
             if snd (add_pure c (p_payload bytes) mx)
             then Some (c_src (fst (add_pure c (p_payload bytes) mx)),
                        c_dest (fst (add_pure c (p_payload bytes) mx)),
                        c_data (fst (add_pure c (p_payload bytes) mx)))
             else None)) as Hpure.
    { unfold rx_pure. rewrite F1, F2, El, Hnth, F4, F3, F5. destruct (add_pure _ _ _); reflexivity. }
    assert (snd (add_pure c (p_payload bytes) mx) = true ->
            c_buf (fst (add_pure c (p_payload bytes) mx)) = PLive) as Hlive.
    { clear - Hc Hl. unfold add_pure. destruct (_ <=? _); [discriminate|].
      destruct (c_alloc c <? _) eqn:E2; [destruct (_ <? new_alloc_size _ _ _); [discriminate|reflexivity]|].
      intros _. cbn. destruct Hc as [Hb Hd Ha]. destruct (c_buf c); [|reflexivity|contradiction].
      rewrite payload_zlen in E2 by lia. pose proof (zlen_pos _ (c_data c)). lia. }
    destruct (add_pure c (p_payload bytes) mx) as [c' ok]. cbn [fst snd] in *.
    eapply (Hdone mx); [exact Hs|exact Hpure|]. destruct ok; cbn [Z.eqb].
    + rewrite (Hlive eq_refl), run_bind.
      rewrite (run_mctp_rx e n' tr1 (put_ctx w k c') b) by assumption.
      unfold get_ctx, put_ctx. cbn [w_m set_m set_ctxs m_ctxs]. rewrite (nth_upd_nth _ _ _ _ _ Hn). cbn [deref bind run].
      rewrite upd_nth_twice. reflexivity.
    + cbn [bind run]. unfold put_ctx, get_ctx. cbn [w_m set_m set_ctxs m_ctxs]. rewrite (nth_upd_nth _ _ _ _ _ Hn).
      cbn [deref bind run shown]. rewrite upd_nth_twice, app_nil_r. reflexivity.
  - destruct (negb (zlen bytes =? c_frag c)) eqn:F5.
    { eapply (Hheld (upd_nth (m_ctxs (w_m w)) k (ctx_drop c))); [unfold rx_pure;
      rewrite F1, F2, El, Hnth, F4, F3, F5; reflexivity|reflexivity]. }
    rewrite run_bind.
    destruct (run_add e n tr1 c p bytes (m_max (w_m w)) Hc Hp Hby Hl ltac:(lia)) as (n' & mx & Hs & ->).
    destruct (add_pure c (p_payload bytes) mx) as [c' ok] eqn:Ea. cbn [fst snd run].
    replace ((if ok then 0 else -1) =? 0) with ok by (destruct ok; reflexivity).
    eapply (Hdone mx _ (upd_nth (m_ctxs (w_m w)) k (if ok then ctx_set_seq c' (p_seq bytes) else ctx_drop c'))); [exact Hs| |].
    + unfold rx_pure. rewrite F1, F2, El, Hnth, F4, F3, F5, Ea. reflexivity.
    + cbn [shown]. rewrite app_nil_r. reflexivity.
Qed.

(** mctp_bus_rx *)
Definition rx_done (w : world) (b : bus) (id : Z) (bytes : list Z) (mx : Z) : world * list event :=
  if zlen bytes <=? 4 then (w, [EvBusRx false (Some (bus_eid b)) id bytes; EvFree id])
  else (fst (rx_out w b bytes mx),
        EvBusRx false (Some (bus_eid b)) id bytes :: snd (rx_out w b bytes mx) ++ [EvFree id]).

Lemma run_bus_rx st e n tr (w1 : world) b p bytes : WF st w1 -> m_policy (w_m w1) = RouteEndpoint -> bget w1 false = Some b ->
  m_max (w_m w1) < 8192 -> wf_pkt p -> pktbuf_bytes p = Some bytes ->
  exists n' mx, seen_as e (m_max (w_m w1)) mx /\
    run e n tr (bus_rx tx appl w1 false p) = Done (fst (rx_done w1 b (pk_id p) bytes mx)) n' (tr ++ snd (rx_done w1 b (pk_id p) bytes mx)).
Proof.
  intros Hw1 Hpol Hb1 Hlim Hp1 Hby1.
  unfold bus_rx. rewrite run_bind. rewrite (wf_bd _ _ Hw1 _ _ Hb1). cbn [assert_ run]. rewrite run_bind.
  assert (get_bus (w_m w1) false = Ret b) as ->.
  { unfold bget in Hb1. unfold get_bus. destruct (m_busses (w_m w1)) as [|l|]; try discriminate Hb1.
    rewrite Hb1. reflexivity. }
  cbn [run]. rewrite (pktbuf_start_bytes _ Hp1), Hby1. cbn [deref bind run].
  replace (m_policy (w_m w1)) with RouteEndpoint by (symmetry; exact Hpol).
  destruct (pktbuf_bytes_wf _ Hp1) as (b' & Hb' & Hz). rewrite Hby1 in Hb'. injection Hb' as <-. rewrite <- Hz.
  unfold rx_done. destruct (zlen bytes <=? 4) eqn:El.
  - exists n, (m_max (w_m w1)). split; [apply seen_refl|]. cbn [bind run pktbuf_free fst snd].
    rewrite <- !app_assoc. reflexivity.
  - rewrite run_bind.
    destruct (run_body st e n (tr ++ [EvBusRx false (Some (bus_eid b)) (pk_id p) bytes]) w1 b p bytes
                Hw1 Hpol Hb1 Hlim Hp1 Hby1 ltac:(lia)) as (n' & mx & Hs & ->).
    exists n', mx. split; [exact Hs|]. cbn [bind run pktbuf_free fst snd].
    rewrite <- !app_assoc. reflexivity.
Qed.
End One.

Section Oom.
Context {B : Type} (f : txfun B) (s : startfun B) (appl : event -> list txreq) (Hsil : forall e, appl e = []).
Notation world := (world B).

Definition rx_state (w : world) (b : bus) (bytes : list Z) (mx : Z) : world * list event :=
  let id := m_next (w_m w) in
  let w1 := set_m w (set_next (w_m w) (id + 1)) in
  if zlen bytes <=? 4 then (w1, [EvAlloc id; EvBusRx false (Some (bus_eid b)) id bytes; EvFree id])
  else (fst (rx_out w1 b bytes mx),
        EvAlloc id :: EvBusRx false (Some (bus_eid b)) id bytes :: snd (rx_out w1 b bytes mx) ++ [EvFree id]).

Lemma run_rx e n tr (w : world) b p bytes : WF Strict w -> m_policy (w_m w) = RouteEndpoint -> bget w false = Some b ->
  m_max (w_m w) < 8192 -> wf_pkt p -> pktbuf_bytes p = Some bytes ->
  exists n' mx, seen_as e (m_max (w_m w)) mx /\
    run e n tr (xop f s appl w (OpRx false p)) = Done (fst (rx_state w b bytes mx)) n' (tr ++ snd (rx_state w b bytes mx)).
Proof.
  intros Hw Hpol Hb Hlim Hp Hby. unfold xop, exec_op. rewrite (wf_dead _ _ Hw). cbn [run].
  set (id := m_next (w_m w)). set (w1 := set_m w (set_next (w_m w) (id + 1))).
  assert (WF Strict w1) as Hw1 by (destruct Hw; constructor; assumption).
  assert (wf_pkt (set_id p id)) as Hp1 by (destruct Hp; constructor; assumption).
  assert (pktbuf_bytes (set_id p id) = Some bytes) as Hby1 by exact Hby.
  assert (bget w1 false = Some b) as Hb1 by exact Hb.
  destruct (run_bus_rx (scripted f) appl Hsil Strict e n (tr ++ [EvAlloc id]) w1 b (set_id p id) bytes Hw1 Hpol Hb1 Hlim Hp1 Hby1)
    as (n' & mx & Hs & ->).
  exists n', mx. split; [exact Hs|]. change (pk_id (set_id p id)) with id. unfold rx_state, rx_done. fold id. fold w1.
  destruct (zlen bytes <=? 4); cbn [fst snd]; rewrite <- app_assoc; reflexivity.
Qed.

Definition setmax (k : Z) (w : world) : world := set_m w (mctp_set_max_message_size (w_m w) k).

Lemma rx_state_max (w : world) b bytes mx : m_max (w_m (fst (rx_state w b bytes mx))) = m_max (w_m w).
Proof. unfold rx_state, rx_out. destruct (_ <=? _); [reflexivity|]. destruct (negb _); reflexivity. Qed.

Lemma rx_state_lowered (w : world) b bytes :
  setmax (m_max (w_m w)) (fst (rx_state (setmax 0 w) b bytes 0)) = fst (rx_state w b bytes 0) /\
  snd (rx_state (setmax 0 w) b bytes 0) = snd (rx_state w b bytes 0).
Proof.
  unfold rx_state, rx_out. destruct w as [m x0 x1], m. cbn.
  destruct (_ <=? _); [split; reflexivity|]. destruct (negb _); split; reflexivity.
Qed.

Lemma calm_plenty : plenty calm.
Proof. intros n. reflexivity. Qed.

Context (Hf : polite f) (eid : Z).

Lemma step_wf (w : world) o : WF Strict w -> mode_ok (Endpoint eid) w -> traffic (Endpoint eid) o ->
  exists x n' t, run calm 0 [] (xop f s appl w o) = Done x n' t /\ WF Strict x /\ mode_ok (Endpoint eid) x.
Proof.
  intros Hw Hm Ho.
  destruct (adv_sound no_oom _ _ calm 0 [] _ (calm_ok no_oom eq_refl)
              (wp_exec_op f s appl no_oom eq_refl Hf (Endpoint eid) w o [] Hw Hm Ho)) as (x & n' & t & Hr & t' & -> & Hrel & Hx).
  exists x, n', t'. split; [exact Hr|]. split; [exact Hx|]. exact (op_rel_mode _ _ _ _ _ Hm Hrel).
Qed.

Lemma sim e : forall l (w : world) n tr, WF Strict w -> mode_ok (Endpoint eid) w -> m_max (w_m w) < 8192 ->
  Forall receiving l ->
  exists l' w' t, starved (m_max (w_m w)) l l' /\ Forall (traffic (Endpoint eid)) l' /\
    (exists n', run e n tr (xops f s appl w l) = Done w' n' (tr ++ t)) /\
    (forall e1, plenty e1 -> forall n1 tr1, exists n1', run e1 n1 tr1 (xops f s appl w l') = Done w' n1' (tr1 ++ t)) /\
    WF Strict w'.
Proof.
  induction l as [|o l IH]; intros w n tr Hw Hm Hk Hl.
  { exists [], w, []. split; [constructor|]. split; [constructor|].
    split; [exists n; cbn; rewrite app_nil_r; reflexivity|].
    split; [intros e1 _ n1 tr1; exists n1; cbn; rewrite app_nil_r; reflexivity|exact Hw]. }
  inversion_clear Hl as [|? ? Ho Hl'].
  assert (traffic (Endpoint eid) o) as Ht.
  { destruct o as [k|b|b|? | | | |i p|? ? ? ?|i en|i b|i k]; cbn in Ho |- *; try contradiction; try exact I; try lia.
    destruct Ho as [-> Hp]. split; [discriminate|exact Hp]. }
  assert (forall w1, (forall e n tr, run e n tr (xop f s appl w o) = Done w1 n tr) ->
            m_max (w_m w1) < 8192 -> (forall l', starved (m_max (w_m w1)) l l' -> starved (m_max (w_m w)) (o :: l) (o :: l')) ->
            exists l' w' t, starved (m_max (w_m w)) (o :: l) l' /\ Forall (traffic (Endpoint eid)) l' /\
              (exists n', run e n tr (xops f s appl w (o :: l)) = Done w' n' (tr ++ t)) /\
              (forall e1, plenty e1 -> forall n1 tr1, exists n1', run e1 n1 tr1 (xops f s appl w l') = Done w' n1' (tr1 ++ t)) /\
              WF Strict w') as Hplain.
  { intros w1 Hr Hk1 Hst. destruct (step_wf w o Hw Hm Ht) as (x & n' & t & Hx & Hwx & Hmx).
    rewrite Hr in Hx. injection Hx as <- <- <-.
    destruct (IH w1 n tr Hwx Hmx Hk1 Hl') as (l' & w' & t & Hs & Htr & (n' & Hrun) & Hrun1 & Hw').
    exists (o :: l'), w', t. split; [exact (Hst _ Hs)|]. split; [constructor; assumption|].
    split; [exists n'; unfold xops in *; cbn [exec]; rewrite run_bind; unfold xop in Hr; rewrite Hr; exact Hrun|].
    split; [|exact Hw']. intros e1 He1 n1 tr1. destruct (Hrun1 e1 He1 n1 tr1) as (n1' & H1). exists n1'.
    unfold xops in *. cbn [exec]. rewrite run_bind. unfold xop in Hr. rewrite Hr. exact H1. }
  destruct o as [k|b|b|? | | | |i p|? ? ? ?|i en|i b|i k]; cbn in Ho; try contradiction.
  - apply (Hplain (setmax k w)); [intros; unfold xop, exec_op; rewrite (wf_dead _ _ Hw); reflexivity|cbn; lia|].
    intros l'. cbn. apply StMax.
  - apply (Hplain (set_m w (mctp_set_capture_handler (w_m w) b)));
      [intros; unfold xop, exec_op; rewrite (wf_dead _ _ Hw); reflexivity|exact Hk|].
    intros l'. apply StSame. discriminate.
  - apply (Hplain (set_m w (mctp_set_rx_all (w_m w) b)));
      [intros; unfold xop, exec_op; rewrite (wf_dead _ _ Hw); reflexivity|exact Hk|].
    intros l'. apply StSame. discriminate.
  - destruct Ho as [-> Hp]. destruct (pktbuf_bytes_wf p Hp) as (bytes & Hby & _).
    pose proof Hm as (Hpol & Heid). destruct (bget w false) as [b|] eqn:Hb; [|discriminate Heid].
    destruct (run_rx e n tr w b p bytes Hw Hpol Hb Hk Hp Hby) as (n1 & mx & [Hmx _] & Hr).
    set (x := rx_state w b bytes mx) in *.
    assert (WF Strict (fst x) /\ mode_ok (Endpoint eid) (fst x) /\
            exists ops, (forall l', starved (m_max (w_m w)) l l' -> starved (m_max (w_m w)) (OpRx false p :: l) (ops ++ l')) /\
              Forall (traffic (Endpoint eid)) ops /\
              forall e1, plenty e1 -> forall n1 tr1, exists n1', run e1 n1 tr1 (xops f s appl w ops) = Done (fst x) n1' (tr1 ++ snd x))
      as (Hwx & Hmx' & ops & Hst & Hto & Hrun).
    { assert (forall e1 (w2 : world) n1 tr1, plenty e1 -> WF Strict w2 -> mode_ok (Endpoint eid) w2 -> bget w2 false = Some b ->
                m_max (w_m w2) < 8192 -> exists n1', run e1 n1 tr1 (xop f s appl w2 (OpRx false p)) =
                  Done (fst (rx_state w2 b bytes (m_max (w_m w2)))) n1' (tr1 ++ snd (rx_state w2 b bytes (m_max (w_m w2)))))
        as Hpl.
      { intros e1 w2 n2 tr2 He1 Hw2 (Hpol2 & _) Hb2 Hk2.
        destruct (run_rx e1 n2 tr2 w2 b p bytes Hw2 Hpol2 Hb2 Hk2 Hp Hby) as (n3 & mx' & [_ Hs] & Hr').
        rewrite (Hs He1) in Hr'. exists n3. exact Hr'. }
      destruct Hmx as [->| ->].
      - destruct (step_wf w (OpRx false p) Hw Hm Ht) as (y & n2 & t2 & Hy & Hwy & Hmy).
        destruct (Hpl calm w O [] calm_plenty Hw Hm Hb Hk) as (n3 & Hy').
        rewrite Hy in Hy'. injection Hy' as -> _ _. split; [exact Hwy|]. split; [exact Hmy|].
        exists [OpRx false p]. split; [intros l'; apply StSame; discriminate|]. split; [constructor; [exact Ht|constructor]|].
        intros e1 He1 n4 tr4. destruct (Hpl e1 w n4 tr4 He1 Hw Hm Hb Hk) as (n5 & H5). exists n5.
        unfold xops, xop in *. cbn [exec]. rewrite run_bind, H5. reflexivity.
      - destruct (step_wf w (OpSetMax 0) Hw Hm ltac:(cbn; lia)) as (y & n2 & t2 & Hy & Hwy & Hmy).
        unfold xop, exec_op in Hy. rewrite (wf_dead _ _ Hw) in Hy. cbn [run] in Hy. injection Hy as <- _ _.
        fold (setmax 0 w) in Hwy, Hmy.
        destruct (step_wf (setmax 0 w) (OpRx false p) Hwy Hmy Ht) as (z & n3 & t3 & Hz & Hwz & Hmz).
        destruct (Hpl calm (setmax 0 w) O [] calm_plenty Hwy Hmy Hb ltac:(cbn; lia)) as (n4 & Hz').
        rewrite Hz in Hz'. cbn [m_max w_m setmax set_m mctp_set_max_message_size] in Hz'. injection Hz' as -> _ _.
        pose proof (wf_max _ _ Hw) as Hmax.
        destruct (step_wf _ (OpSetMax (m_max (w_m w))) Hwz Hmz ltac:(cbn; lia)) as (q & n5 & t5 & Hq & Hwq & Hmq).
        unfold xop, exec_op in Hq. rewrite (wf_dead _ _ Hwz) in Hq. cbn [run] in Hq. injection Hq as <- _ _.
        destruct (rx_state_lowered w b bytes) as [E1 E2].
        match type of Hwq with WF _ ?y => change y with (setmax (m_max (w_m w)) (fst (rx_state (setmax 0 w) b bytes 0))) in Hwq, Hmq end.
        rewrite E1 in Hwq, Hmq. split; [exact Hwq|]. split; [exact Hmq|].
        exists [OpSetMax 0; OpRx false p; OpSetMax (m_max (w_m w))].
        split; [intros l'; apply StFail|]. split.
        { constructor; [cbn; lia|]. constructor; [exact Ht|]. constructor; [cbn; lia|constructor]. }
        intros e1 He1 n6 tr6. destruct (Hpl e1 (setmax 0 w) n6 tr6 He1 Hwy Hmy Hb ltac:(cbn; lia)) as (n7 & H7).
        exists n7. unfold xops, xop in *. cbn [exec]. unfold exec_op at 1. rewrite (wf_dead _ _ Hw). cbn [bind].
        fold (setmax 0 w). rewrite run_bind, H7. cbn [m_max w_m setmax set_m mctp_set_max_message_size].
        unfold exec_op. rewrite (wf_dead _ _ Hwz). cbn [bind run]. fold (setmax 0 w).
        match goal with |- Done ?y _ _ = _ => change y with (setmax (m_max (w_m w)) (fst (rx_state (setmax 0 w) b bytes 0))) end.
        rewrite E1, E2. reflexivity. }
    assert (m_max (w_m (fst x)) = m_max (w_m w)) as Emax by apply rx_state_max.
    destruct (IH (fst x) n1 (tr ++ snd x) Hwx Hmx' ltac:(rewrite Emax; exact Hk) Hl') as (l' & w' & t & Hs & Htr & (n' & Hrun2) & Hrun1 & Hw').
    rewrite Emax in Hs. exists (ops ++ l'), w', (snd x ++ t). split; [exact (Hst _ Hs)|].
    split; [apply Forall_app; split; assumption|].
    split; [exists n'; unfold xops, xop in *; cbn [exec]; rewrite run_bind, Hr, Hrun2, app_assoc; reflexivity|].
    split; [|exact Hw']. intros e1 He1 n4 tr4. destruct (Hrun e1 He1 n4 tr4) as (n5 & H5).
    destruct (Hrun1 e1 He1 n5 (tr4 ++ snd x)) as (n6 & H6). exists n6. unfold xops in *.
    rewrite run_exec_app, H5, H6, app_assoc. reflexivity.
  - apply (Hplain (set_bnd w i (set_priv (bnd w i) b)));
      [intros; unfold xop, exec_op; rewrite (wf_dead _ _ Hw); reflexivity|destruct i; exact Hk|].
    intros l'. replace (m_max (w_m (set_bnd w i (set_priv (bnd w i) b)))) with (m_max (w_m w)) by (destruct i; reflexivity).
    apply StSame. discriminate.
  - apply (Hplain (set_bnd w i (set_pkt_size (bnd w i) k)));
      [intros; unfold xop, exec_op; rewrite (wf_dead _ _ Hw); reflexivity|destruct i; exact Hk|].
    intros l'. replace (m_max (w_m (set_bnd w i (set_pkt_size (bnd w i) k)))) with (m_max (w_m w)) by (destruct i; reflexivity).
    apply StSame. discriminate.
Qed.
End Oom.

(** ** Theorems *)

Section Thm.
Context {B : Type} (f : txfun B) (s : startfun B) (appl : event -> list txreq) (b0 b1 : binding B).
Notation world := (world B).

(** With a limit below 8192 every shortage of memory is survived by a receiver: the calls
    return, and the same history without any shortage, but with the limit at 0 for some of the
    packets, ends in the same state and shows the same. *)
Theorem C15_survived eid (w : world) tr k l e : reaches f s appl (Endpoint eid) b0 b1 w tr -> (forall ev, appl ev = []) ->
  0 <= k < 8192 -> Forall receiving l -> env_ok oom e ->
  exists w' n t l', run e 0 [] (xops f s appl w (OpSetMax k :: l)) = Done w' n t /\
    starved k l l' /\ Forall (traffic (Endpoint eid)) l' /\
    reaches f s appl (Endpoint eid) b0 b1 w' (tr ++ t) /\
    always no_oom (xops f s appl w (OpSetMax k :: l')) (fun w2 t2 => w2 = w' /\ t2 = t).
Proof.
  intros (l0 & e0 & n0 & Hleg & He0 & Hr0) Hsil Hk Hl He.
  pose proof (lg_polite _ _ _ _ _ _ Hleg) as Hf.
  destruct (reaches_spec f s appl (Endpoint eid) b0 b1 w tr) as (Hw & Hm & _ & _); [exists l0, e0, n0; auto|].
  destruct (step_wf f s appl Hf eid w (OpSetMax k) Hw Hm ltac:(cbn; lia)) as (y & n2 & t2 & Hy & Hwy & Hmy).
  unfold xop, exec_op in Hy. rewrite (wf_dead _ _ Hw) in Hy. cbn [run] in Hy. injection Hy as <- _ _.
  fold (setmax k w) in Hwy, Hmy.
  destruct (sim f s appl Hsil Hf eid e l (setmax k w) 0%nat [] Hwy Hmy ltac:(cbn; lia) Hl)
    as (l' & w' & t & Hs & Ht & (n' & Hr) & Hr1 & Hw').
  assert (forall e n t0 l, run e n t0 (xops f s appl w (OpSetMax k :: l)) = run e n t0 (xops f s appl (setmax k w) l)) as Hset.
  { intros. unfold xops. cbn [exec]. unfold exec_op at 1. rewrite (wf_dead _ _ Hw). reflexivity. }
  exists w', n', t, l'. rewrite Hset. split; [exact Hr|]. split; [exact Hs|]. split; [exact Ht|].
  assert (forall e1, env_ok no_oom e1 -> plenty e1) as Hplenty by (intros e1 [H1 _] n; apply H1; reflexivity).
  split.
  - exists (l0 ++ OpSetMax k :: l'), e0. destruct (Hr1 e0 (Hplenty _ He0) n0 tr) as (n3 & H3). exists n3.
    split; [|split; [exact He0|]].
    + destruct Hleg. constructor; try assumption. apply Forall_app. split; [assumption|]. constructor; [cbn; lia|exact Ht].
    + unfold history, xops in *. rewrite app_comm_cons, run_exec_app, Hr0.
      rewrite <- H3. apply Hset.
  - intros e1 He1. rewrite Hset. destruct (Hr1 e1 (Hplenty _ He1) 0%nat []) as (n3 & ->). split; reflexivity.
Qed.

(** In particular every message delivered is accounted for by packets received, every buffer
    is released, and the instance can be destroyed. *)
Theorem C15_survived_sound eid (w : world) tr k l : reaches f s appl (Endpoint eid) b0 b1 w tr -> (forall ev, appl ev = []) ->
  0 <= k < 8192 -> Forall receiving l ->
  always oom (xops f s appl w (OpSetMax k :: l)) (fun w' t => at_each accounted (tr ++ t)) /\
  always oom (xops f s appl w (OpSetMax k :: l ++ [OpDestroy])) (fun _ _ => True).
Proof.
  intros Hr Hsil Hk Hl. split; intros e He; destruct (C15_survived eid w tr k l e Hr Hsil Hk Hl He)
    as (w' & n & t & l' & Hrun & _ & _ & Hr' & _).
  - rewrite Hrun. destruct Hr' as (l2 & e2 & n2 & Hleg & He2 & Hr2).
    pose proof (C05_reassembly_sound f s appl b0 b1 (Endpoint eid) l2 Hleg e2 He2) as H. rewrite Hr2 in H. exact H.
  - unfold xops in *. rewrite app_comm_cons, run_exec_app, Hrun.
    destruct (reaches_spec f s appl (Endpoint eid) b0 b1 w' (tr ++ t) Hr') as (Hw & _).
    cbn [exec exec_op]. rewrite run_bind. unfold exec_op. rewrite (wf_dead _ _ Hw).
    destruct (run_destroy e n t w' Hw) as (w2 & t2 & -> & _). exact I.
Qed.
End Thm.

(** A case: a receiver with a limit of 8191 loses the allocation of one of two interleaved
    messages and delivers the other. *)
Definition two_messages : list (@op unit) :=
  [rx (packet 8 9 true false 0 false 0 [1; 2; 3]); rx (packet 8 10 true false 0 false 0 [4; 5; 6]);
   rx (packet 8 9 false true 1 false 0 [7]); rx (packet 8 10 false true 1 false 0 [8])].
Example C15_case : env_ok oom (oom_at 1) /\
  match run (oom_at 1) 0 [] (node (OpSetRx true :: OpSetMax 8191 :: two_messages)) with
  | Done _ _ t => filter (fun e => match e with EvRx _ _ _ _ => true | _ => false end) t = [EvRx 10 false 0 [4; 5; 6; 8]]
  | Fault _ _ => False
  end /\ Forall receiving two_messages.
Proof.
  split; [apply oom_at_ok|]. split; [vm_compute; reflexivity|].
  repeat (constructor; [split; [reflexivity|apply pkt_wf; vm_compute; reflexivity]|]). constructor.
Qed.

(** The bound is sharp: with a limit of 8192 a shortage can be fatal. *)
Theorem C15_sharp : can_fault oom (node (OpSetMax 8192 :: grow_twice ++ [OpDestroy])) DoubleFree.
Proof. exists (oom_at 2). eexists. split; [apply oom_at_ok|]. vm_compute. reflexivity. Qed.
