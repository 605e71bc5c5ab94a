(** C46: what a capture file contains. *)
From Verif Require Import Base Lists Prog PktBuf Capture.

(** The SLL2 header of a record, byte by byte (protocol 0x00fa, packet type 4
    for outgoing and 0 for incoming, everything else 0). *)
Definition sll2 (outgoing : bool) : list Z :=
  [0; 250;  0; 0;  0; 0; 0; 0;  0; 0;  (if outgoing then 4 else 0);  0;
   0; 0; 0; 0; 0; 0; 0; 0].
(** The made-up MCTP header of a socket record. *)
Definition fake_hdr (outgoing : bool) (eid : Z) : list Z :=
  [1; (if outgoing then eid else 0); (if outgoing then 0 else eid); 192].

Lemma repeat_split : forall n, (20 <= n)%nat ->
  repeat poison n = repeat poison 20 ++ repeat poison (n - 20).
Proof. intros. rewrite <- repeat_app. f_equal. lia. Qed.

Lemma wr_app1 : forall a b off bs, 0 <= off -> off + zlen bs <= zlen a ->
  wr (a ++ b) off bs = match wr a off bs with Some m => Some (m ++ b) | None => None end.
Proof.
  intros a b off bs H1 H2. unfold wr. rewrite zlen_app.
  pose proof (zlen_pos _ b).
  rewrite (proj2 (Z.leb_le 0 off) H1).
  rewrite (proj2 (Z.leb_le (off + zlen bs) (zlen a)) H2).
  rewrite (proj2 (Z.leb_le (off + zlen bs) (zlen a + zlen b))) by lia. cbn [andb].
  unfold zlen in *. rewrite firstn_app, skipn_app.
  replace (Z.to_nat off - length a)%nat with 0%nat by lia.
  replace (Z.to_nat off + length bs - length a)%nat with 0%nat by lia.
  cbn [firstn skipn]. rewrite app_nil_r, <- !app_assoc. reflexivity.
Qed.
Lemma wr_app2 : forall a b bs off, zlen a <= off ->
  wr (a ++ b) off bs = match wr b (off - zlen a) bs with Some m => Some (a ++ m) | None => None end.
Proof.
  intros a b bs off H. unfold wr. rewrite zlen_app. pose proof (zlen_pos _ a).
  rewrite (proj2 (Z.leb_le 0 off)) by lia. rewrite (proj2 (Z.leb_le 0 (off - zlen a))) by lia.
  cbn [andb].
  replace (off - zlen a + zlen bs <=? zlen b) with (off + zlen bs <=? zlen a + zlen b) by lia.
  destruct (off + zlen bs <=? zlen a + zlen b); [|reflexivity].
  unfold zlen in *. rewrite firstn_app, skipn_app.
  rewrite firstn_all2 by lia. rewrite (skipn_all2 a) by lia.
  replace (Z.to_nat off - length a)%nat with (Z.to_nat (off - Z.of_nat (length a))) by lia.
  replace (Z.to_nat off + length bs - length a)%nat
    with (Z.to_nat (off - Z.of_nat (length a)) + length bs)%nat by lia.
  rewrite <- app_assoc. reflexivity.
Qed.
Lemma wr_whole : forall l bs, zlen bs = zlen l -> wr l 0 bs = Some bs.
Proof.
  intros l bs H. unfold wr.
  rewrite (proj2 (Z.leb_le (0 + zlen bs) (zlen l))) by lia. cbn [andb Z.leb Z.compare Z.to_nat firstn Datatypes.app Nat.add]. unfold zlen in H.
  rewrite skipn_all2 by lia. rewrite app_nil_r. reflexivity.
Qed.

Lemma put_sll2_ok : forall m out, zlen m >= 20 ->
  put_sll2 m out = Some (sll2 out ++ skipn 20 m).
Proof.
  intros m out L. unfold zlen in L.
  do 20 (destruct m as [|? m]; [cbn in L; lia|]).
  change (z :: z0 :: z1 :: z2 :: z3 :: z4 :: z5 :: z6 :: z7 :: z8 :: z9 :: z10 :: z11 :: z12 :: z13 :: z14 :: z15 :: z16 :: z17 :: z18 :: m)
   with ([z; z0; z1; z2; z3; z4; z5; z6; z7; z8; z9; z10; z11; z12; z13; z14; z15; z16; z17; z18] ++ m).
  unfold put_sll2.
  repeat (rewrite wr_app1 by (cbn; lia);
     match goal with |- context [match wr ?l ?o ?b with _ => _ end] =>
       let v := eval vm_compute in (wr l o b) in change (wr l o b) with v end; cbn [obind]).
  destruct out; reflexivity.
Qed.

(** A record of the binding is the SLL2 header followed by exactly the packet. *)
Theorem C46_binding : forall p outgoing bs,
  pktbuf_bytes p = Some bs -> zlen bs < 2 ^ 63 ->
  capture_binding true true p outgoing = Some (Some (sll2 outgoing ++ bs)).
Proof.
  intros p outgoing bs HB HL. unfold capture_binding. cbn [negb].
  assert (S : pktbuf_size p = zlen bs).
  { unfold pktbuf_bytes in HB. apply rd_spec in HB. destruct HB as (x & z & _ & _ & H). lia. }
  pose proof (zlen_pos _ bs) as NB.
  unfold SLL2_LEN. rewrite S, w64_id by lia.
  rewrite put_sll2_ok.
  2: { unfold zlen. rewrite repeat_length. lia. }
  cbn [obind]. rewrite HB. cbn [obind].
  rewrite wr_app2 by (cbn; lia).
  change (zlen (sll2 outgoing)) with 20. rewrite Z.sub_diag.
  rewrite wr_whole; [reflexivity|].
  unfold zlen at 2. rewrite skipn_length, repeat_length. lia.
Qed.

(** Failures of the clock or of the allocator lose the record, nothing else. *)
Theorem C46_lost : forall clock alloc p outgoing, clock && alloc = false ->
  capture_binding clock alloc p outgoing = Some None.
Proof. intros [] [] p outgoing H; try discriminate; reflexivity. Qed.

(** A record of a socket datagram, for every datagram: the payload is followed
    by one byte that was never written. *)
Theorem C46_socket : forall eid payload outgoing,
  is_byte eid -> zlen payload < 2 ^ 62 ->
  capture_socket true true (eid :: payload) outgoing eid
  = Some (Some (sll2 outgoing ++ fake_hdr outgoing eid ++ payload ++ [poison])).
Proof.
  intros eid payload outgoing BE HL. unfold capture_socket. cbn [negb].
  pose proof (zlen_pos _ payload) as NP.
  rewrite zlen_cons. unfold SLL2_LEN.
  rewrite (w64_id (20 + 4 + _)) by lia. rewrite (w64_id (_ - 1)) by lia.
  replace (zlen payload + 1 - 1) with (zlen payload) by lia.
  rewrite put_sll2_ok by (unfold zlen; rewrite repeat_length; lia).
  cbn [obind].
  assert (E : skipn 20 (repeat poison (Z.to_nat (20 + 4 + (zlen payload + 1))))
              = [poison; poison; poison; poison] ++ repeat poison (length payload) ++ [poison]).
  { change [poison; poison; poison; poison] with (repeat poison 4).
    change [poison] with (repeat poison 1). rewrite <- !repeat_app.
    replace (Z.to_nat (20 + 4 + (zlen payload + 1))) with (20 + (4 + (length payload + 1)))%nat
      by (unfold zlen; lia).
    rewrite repeat_app. rewrite skipn_app. 
    rewrite skipn_all2 by (rewrite repeat_length; lia). rewrite repeat_length, Nat.sub_diag. reflexivity. }
  rewrite E. set (rest := repeat poison (length payload) ++ [poison]).
  assert (W8 : w8 eid = eid) by (unfold w8, is_byte in *; rewrite Z.mod_small; lia).
  rewrite wr_app2 by (cbn; lia). change (zlen (sll2 outgoing)) with 20.
  rewrite wr_app1 by (cbn; lia).
  change (wr [poison; poison; poison; poison] (20 + 0 - 20) [1]) with (Some [1; poison; poison; poison]). cbn [obind].
  rewrite wr_app2 by (cbn; lia). change (zlen (sll2 outgoing)) with 20.
  rewrite wr_app1 by (cbn; lia).
  change (wr [1; poison; poison; poison] (20 + 3 - 20) [192]) with (Some [1; poison; poison; 192]). cbn [obind].
  rewrite wr_app2 by (cbn; lia). change (zlen (sll2 outgoing)) with 20.
  rewrite wr_app1 by (cbn; lia).
  set (d := if outgoing then w8 eid else 0).
  change (wr [1; poison; poison; 192] (20 + 1 - 20) [d]) with (Some [1; d; poison; 192]). cbn [obind].
  rewrite wr_app2 by (cbn; lia). change (zlen (sll2 outgoing)) with 20.
  rewrite wr_app1 by (cbn; lia).
  set (s := if outgoing then 0 else w8 eid).
  change (wr [1; d; poison; 192] (20 + 2 - 20) [s]) with (Some [1; d; s; 192]). cbn [obind].
  assert (R : rd (eid :: payload) 1 (zlen payload) = Some payload).
  { change (eid :: payload) with ([eid] ++ payload). rewrite <- (app_nil_r ([eid] ++ payload)), <- app_assoc.
    apply rd_spec. exists [eid], []. repeat split. }
  rewrite R. cbn [obind].
  rewrite wr_app2 by (cbn; lia). change (zlen (sll2 outgoing)) with 20.
  rewrite wr_app2 by (cbn; lia). change (zlen [1; d; s; 192]) with 4.
  replace (20 + 4 - 20 - 4) with 0 by lia.
  unfold rest. rewrite wr_app1 by (try lia; unfold zlen; rewrite repeat_length; lia).
  rewrite wr_whole by (unfold zlen; rewrite repeat_length; lia).
  cbn [obind]. unfold fake_hdr. subst d s. rewrite W8. reflexivity.
Qed.

(** So the record is never header plus payload. *)
Theorem C46_refuted : forall eid payload outgoing,
  is_byte eid -> zlen payload < 2 ^ 62 ->
  capture_socket true true (eid :: payload) outgoing eid
  <> Some (Some (sll2 outgoing ++ fake_hdr outgoing eid ++ payload)).
Proof.
  intros eid payload outgoing BE HL. rewrite C46_socket by assumption.
  intros H. injection H as H. apply (f_equal (@length Z)) in H. rewrite !app_length in H. cbn in H. lia.
Qed.

(** A concrete packet. *)
Theorem C46_case :
  capture_binding true true (mkPkt 0 0 6 8 0 [1; 9; 8; 200; 5; 6; 0; 0]) true
  = Some (Some (sll2 true ++ [1; 9; 8; 200; 5; 6])).
Proof. apply C46_binding; [reflexivity|cbn; lia]. Qed.
