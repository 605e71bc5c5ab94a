(** DuoInv: what each side of the astlpc channel may rely on and must guarantee, as a
    handler for its effects, and the invariant that links the two sides; every step of
    the system preserves it. *)
From Verif Require Import Base Lists Prog PktBuf Core WP Walk Crc Astlpc SpecAst TwoParty.

(** ** Window cells *)
Lemma cells_len m o n : 0 <= n -> zlen (cells m o n) = n.
Proof. intros H. unfold zlen, cells. rewrite map_length, seq_length. lia. Qed.

Lemma cells_nth m o n i : 0 <= i < n -> nth (Z.to_nat i) (cells m o n) 0 = m (o + i).
Proof.
  intros H. unfold cells.
  rewrite (nth_indep _ 0 (m (o + Z.of_nat 0))) by (rewrite map_length, seq_length; lia).
  rewrite (map_nth (fun k => m (o + Z.of_nat k))), seq_nth by lia. f_equal. lia.
Qed.

Lemma list_ext (a b : list Z) : zlen a = zlen b ->
  (forall i, 0 <= i < zlen a -> nth (Z.to_nat i) a 0 = nth (Z.to_nat i) b 0) -> a = b.
Proof.
  unfold zlen. intros Hl Hn. apply (nth_ext a b 0 0); [lia|]. intros k Hk.
  specialize (Hn (Z.of_nat k) ltac:(lia)). now rewrite Nat2Z.id in Hn.
Qed.

Lemma cells_store_same m o bs : cells (store m o bs) o (zlen bs) = bs.
Proof.
  pose proof (zlen_pos _ bs) as Hp. apply list_ext; [now rewrite cells_len|].
  rewrite cells_len by exact Hp. intros i Hi. rewrite cells_nth by exact Hi. unfold store.
  replace ((o <=? o + i) && (o + i <? o + zlen bs)) with true by lia. f_equal. lia.
Qed.

Lemma cells_ext m m' o n : (forall x, o <= x < o + n -> m x = m' x) -> cells m o n = cells m' o n.
Proof.
  intros H. unfold cells. apply map_ext_in. intros k Hk. apply in_seq in Hk. apply H. lia.
Qed.

Lemma cells_store_off m o bs b n : b + n <= o \/ o + zlen bs <= b -> cells (store m o bs) b n = cells m b n.
Proof.
  intros H. apply cells_ext. intros x Hx. unfold store.
  replace ((o <=? x) && (x <? o + zlen bs)) with false by lia. reflexivity.
Qed.

Lemma cells_app m o a b : 0 <= a -> 0 <= b -> cells m o (a + b) = cells m o a ++ cells m (o + a) b.
Proof.
  intros Ha Hb. unfold cells. rewrite Z2Nat.inj_add by lia. rewrite seq_app, map_app. f_equal.
  rewrite <- (map_map (fun i => (Z.to_nat a + i)%nat) (fun i => m (o + Z.of_nat i))) with (l := seq 0 (Z.to_nat b)) || idtac.
  assert (forall k n, seq (k + 0) n = map (fun i => (k + i)%nat) (seq 0 n)) as Hs.
  { intros k n. generalize O as z. revert k. induction n as [|n IH]; intros k z; cbn; [reflexivity|].
    f_equal. specialize (IH k (S z)). rewrite <- IH. f_equal. lia. }
  specialize (Hs (Z.to_nat a) (Z.to_nat b)). rewrite Nat.add_0_r in Hs. cbn [Nat.add]. rewrite Hs, map_map.
  apply map_ext. intros i. f_equal. lia.
Qed.

Lemma cells_sub m o n b k : 0 <= k -> 0 <= b -> b + k <= n ->
  cells m (o + b) k = firstn (Z.to_nat k) (skipn (Z.to_nat b) (cells m o n)).
Proof.
  intros Hk Hb Hn. replace n with (b + (k + (n - b - k))) by lia.
  rewrite cells_app by lia. rewrite (cells_app m (o + b)) by lia.
  rewrite skipn_app, skipn_all2 by (pose proof (cells_len m o b Hb) as E; unfold zlen in E; lia).
  pose proof (cells_len m o b Hb) as E1. pose proof (cells_len m (o + b) k Hk) as E2. unfold zlen in *.
  replace (Z.to_nat b - length (cells m o b))%nat with O by lia. cbn [skipn app].
  rewrite firstn_app. rewrite firstn_all2 by lia.
  replace (Z.to_nat k - length (cells m (o + b) k))%nat with O by lia. cbn [firstn]. now rewrite app_nil_r.
Qed.

Lemma cells_store_in m o bs b n : b <= o -> o + zlen bs <= b + n ->
  cells (store m o bs) b n =
  firstn (Z.to_nat (o - b)) (cells m b n) ++ bs ++ skipn (Z.to_nat (o - b + zlen bs)) (cells m b n).
Proof.
  intros H1 H2. pose proof (zlen_pos _ bs) as Hp.
  assert (forall mm, cells mm b n = cells mm b (o - b) ++ cells mm o (zlen bs) ++ cells mm (o + zlen bs) (b + n - o - zlen bs)) as Hsp.
  { intros mm. replace n with ((o - b) + (zlen bs + (b + n - o - zlen bs))) at 1 by lia.
    rewrite cells_app by lia. replace (b + (o - b)) with o by lia. rewrite cells_app by lia. reflexivity. }
  rewrite (Hsp (store m o bs)), (Hsp m). rewrite cells_store_same.
  rewrite cells_store_off by lia. rewrite cells_store_off by lia.
  pose proof (cells_len m b (o - b) ltac:(lia)) as E1. pose proof (cells_len m o (zlen bs) Hp) as E2. unfold zlen in E1, E2.
  rewrite firstn_app. rewrite firstn_all2 by (unfold zlen; lia).
  replace (Z.to_nat (o - b) - length (cells m b (o - b)))%nat with O by (unfold zlen in *; lia).
  cbn [firstn]. rewrite app_nil_r. f_equal. f_equal.
  rewrite skipn_app, skipn_all2 by (unfold zlen; lia). cbn [app].
  rewrite skipn_app, skipn_all2 by (unfold zlen in *; lia). cbn [app].
  replace (_ - _ - _)%nat with O by (unfold zlen in *; lia). reflexivity.
Qed.

(** ** Ghost state *)

(** Where a side's transmit buffer is: not ours; ours and free; ours and holding a
    packet that is not yet (TPend), partly (TLen) or fully (TFull) written. *)
Inductive txg := TNo | TFree | TPend (p : list Z) | TLen (p : list Z) | TFull (p : list Z).
(** The receive buffer: not ours; ours with an unread packet; ours and read. *)
Inductive rxg := RNo | RGot (p : list Z) | RHeld.

Record gst := mkG {
  g_tr : list event;
  g_tx : txg; g_rx : rxg;
  g_dl : option (list Z);   (* a packet read from the window and not yet handed to the core *)
  g_oe : bool;              (* known: our data register is empty *)
  g_if : bool;              (* known: the peer's data register is full *)
  g_ph : Z;                 (* progress of the handshake *)
  g_rdy : bool; g_act : bool; (* host: has seen bmc-ready, channel-active *)
  g_fin : bool;             (* host: has consumed the dummy after channel-active *)
  g_neg : bool;             (* host: has seen the negotiated version *)
  g_sent : bool }.          (* has sent a command other than Initialise *)

Definition log (g : gst) (t : list event) : gst :=
  mkG (g_tr g ++ t) (g_tx g) (g_rx g) (g_dl g) (g_oe g) (g_if g) (g_ph g) (g_rdy g) (g_act g) (g_fin g) (g_neg g) (g_sent g).
Definition sx (g : gst) (x : txg) : gst :=
  mkG (g_tr g) x (g_rx g) (g_dl g) (g_oe g) (g_if g) (g_ph g) (g_rdy g) (g_act g) (g_fin g) (g_neg g) (g_sent g).
Definition sr (g : gst) (r : rxg) (d : option (list Z)) : gst :=
  mkG (g_tr g) (g_tx g) r d (g_oe g) (g_if g) (g_ph g) (g_rdy g) (g_act g) (g_fin g) (g_neg g) (g_sent g).
Definition sph (g : gst) (n : Z) : gst :=
  mkG (g_tr g) (g_tx g) (g_rx g) (g_dl g) (g_oe g) (g_if g) n (g_rdy g) (g_act g) (g_fin g) (g_neg g) (g_sent g).
Definition soe (g : gst) (b : bool) : gst :=
  mkG (g_tr g) (g_tx g) (g_rx g) (g_dl g) b (g_if g) (g_ph g) (g_rdy g) (g_act g) (g_fin g) (g_neg g) (g_sent g).
Definition sif (g : gst) (b : bool) : gst :=
  mkG (g_tr g) (g_tx g) (g_rx g) (g_dl g) (g_oe g) b (g_ph g) (g_rdy g) (g_act g) (g_fin g) (g_neg g) (g_sent g).
Definition sfin (g : gst) (b : bool) : gst :=
  mkG (g_tr g) (g_tx g) (g_rx g) (g_dl g) (g_oe g) (g_if g) (g_ph g) (g_rdy g) (g_act g) b (g_neg g) (g_sent g).
Definition sneg (g : gst) (b : bool) : gst :=
  mkG (g_tr g) (g_tx g) (g_rx g) (g_dl g) (g_oe g) (g_if g) (g_ph g) (g_rdy g) (g_act g) (g_fin g) b (g_sent g).
Definition ssent (g : gst) : gst :=
  mkG (g_tr g) (g_tx g) (g_rx g) (g_dl g) (g_oe g) (g_if g) (g_ph g) (g_rdy g) (g_act g) (g_fin g) (g_neg g) true.
Definition sst (g : gst) (oe i rdy act : bool) : gst :=
  mkG (g_tr g) (g_tx g) (g_rx g) (g_dl g) oe i (g_ph g) rdy act (g_fin g) (g_neg g) (g_sent g).

Definition g0 : gst := mkG [] TFree RNo None false false 0 false false false false false.

Section Inv.
(** [S]: size of the buffers the BMC publishes; [N]: largest packet after negotiation. *)
Variables S N : Z.
Hypothesis HN : 68 <= N.
Hypothesis HS : N + 8 <= S <= 524156.

Definition txo (bmc : bool) : Z := if bmc then 256 else 256 + S.
Definition rxo (bmc : bool) : Z := txo (negb bmc).
Definition enc (p : list Z) : list Z := p ++ be32 (crc32 p).
Definition good (p : list Z) : Prop := 4 < zlen p <= N /\ nth 0 p 0 = 1.

Definition hdr (hm hc neg rxs txs : Z) : list Z :=
  be32 1296258128 ++ be16 1 ++ be16 3 ++ be16 hm ++ be16 hc ++ be16 neg ++ be16 0
  ++ be32 256 ++ be32 rxs ++ be32 (256 + S) ++ be32 txs.
(** The header as a function of the progress of the host ([hp]) and the BMC ([bp]). *)
Definition hdr_of (hp bp : Z) : list Z :=
  hdr (if 2 <=? hp then 1 else 0) (if 3 <=? hp then 3 else 0) (if 6 <=? bp then 3 else 0)
      (if 5 <=? bp then N + 8 else if 1 <=? hp then N + 8 else S) (if 5 <=? bp then N + 8 else S).

Definition oflag (bmc : bool) (st : Z) : bool := tst st (if bmc then ST_OBF else ST_IBF).
Definition iflag (bmc : bool) (st : Z) : bool := oflag (negb bmc) st.

(** ** The rules for one side *)
Definition duo_h (bmc : bool) : handler gst := mkH
  (fun r g Q =>
     match r with
     | KStatus => forall st, is_byte st ->
         (g_oe g = true -> oflag bmc st = false) -> (g_if g = true -> iflag bmc st = true) ->
         (bmc = false ->
            (g_rdy g = true -> tst st ST_BMC_READY = true) /\
            (g_act g || g_fin g = true -> tst st ST_ACTIVE = true) /\
            (tst st ST_ACTIVE = true -> tst st ST_BMC_READY = true) /\
            (g_ph g < 4 -> tst st ST_ACTIVE = false) /\
            (g_fin g = true -> g_sent g = false -> oflag bmc st = false)) ->
         Q (Some st) (log (sst g (g_oe g || negb (oflag bmc st)) (g_if g || iflag bmc st)
                             (g_rdy g || tst st ST_BMC_READY) (g_act g || tst st ST_ACTIVE))
                          [EvKRead KStatus (Some st)])
     | KData => g_if g = true /\
         let g' := sif g false in
         let rx1 := g_rx g = RNo -> forall p, good p ->
                    Q (Some 1) (log (sr g' (RGot p) (g_dl g)) [EvKRead KData (Some 1)]) in
         let rx2 := g_tx g = TNo -> Q (Some 2) (log (sx g' TFree) [EvKRead KData (Some 2)]) in
         if bmc then
           (g_ph g = 3 \/ g_ph g = 8) /\
           (g_ph g = 3 -> Q (Some 0) (log (sph g' 4) [EvKRead KData (Some 0)])) /\
           (g_ph g = 8 -> rx1 /\ rx2)
         else
           Q (Some 255) (log g' [EvKRead KData (Some 255)]) /\
           Q (Some 255) (log (sfin g' true) [EvKRead KData (Some 255)]) /\
           (g_fin g = true -> rx1 /\ rx2)
     end)
  (fun r v g Q =>
     match r with
     | KStatus => bmc = true /\
         ((v = 128 /\ g_ph g = 1 /\ Q true (log (sph g 2) [EvKWrite KStatus v true])) \/
          (v = 193 /\ g_ph g = 6 /\ Q true (log (sph g 7) [EvKWrite KStatus v true])))
     | KData =>
         (v = 255 /\ bmc = true /\
            ((g_ph g = 2 /\ Q true (log (sph (soe g false) 3) [EvKWrite KData v true])) \/
             (g_ph g = 7 /\ Q true (log (sph (soe g false) 8) [EvKWrite KData v true])))) \/
         (v = 0 /\ bmc = false /\ g_ph g = 3 /\ Q true (log (sph (soe g false) 4) [EvKWrite KData v true])) \/
         (g_oe g = true /\ (if bmc then g_ph g = 8 else g_ph g = 4 /\ g_act g || g_fin g = true) /\
            ((v = 1 /\ (exists p, g_tx g = TFull p) /\
                Q true (log (sx (ssent (soe g false)) TNo) [EvKWrite KData v true])) \/
             (v = 2 /\ g_rx g = RHeld /\
                Q true (log (sr (ssent (soe g false)) RNo (g_dl g)) [EvKWrite KData v true]))))
     end)
  (fun off len g Q =>
     (exists p, g_rx g = RGot p /\ off = rxo bmc /\ len = 4 /\
        Q (be32 (zlen p)) (log g [EvLRead off (be32 (zlen p))])) \/
     (exists p, g_rx g = RGot p /\ off = rxo bmc + 4 /\ len = zlen (enc p) /\ g_dl g = None /\
        Q (enc p) (log (sr g RHeld (Some p)) [EvLRead off (enc p)])) \/
     (bmc = true /\ off = 0 /\ len = 32 /\ g_ph g = 4 /\
        Q (hdr_of 4 4) (log g [EvLRead off (hdr_of 4 4)])) \/
     (bmc = false /\ off = 0 /\ len = 32 /\ g_rdy g = true /\ g_ph g = 0 /\
        Q (hdr_of 0 1) (log g [EvLRead off (hdr_of 0 1)])) \/
     (bmc = false /\ off = 0 /\ len = 32 /\ g_neg g = true /\
        Q (hdr_of 4 8) (log g [EvLRead off (hdr_of 4 8)])) \/
     (bmc = false /\ off = 12 /\ len = 2 /\ g_ph g = 4 /\
        (g_act g || g_fin g || g_neg g = false -> Q (be16 0) (log g [EvLRead off (be16 0)])) /\
        Q (be16 3) (log (sneg g true) [EvLRead off (be16 3)])))
  (fun off bs g Q =>
     (exists p, g_tx g = TPend p /\ off = txo bmc /\ bs = be32 (zlen p) /\
        Q (log (sx g (TLen p)) [EvLWrite off bs])) \/
     (exists p, g_tx g = TLen p /\ off = txo bmc + 4 /\ bs = enc p /\
        Q (log (sx g (TFull p)) [EvLWrite off bs])) \/
     (bmc = true /\ off = 0 /\ bs = hdr_of 0 1 /\ g_ph g = 0 /\ Q (log (sph g 1) [EvLWrite off bs])) \/
     (bmc = true /\ off = 16 /\ bs = be32 256 ++ be32 (N + 8) ++ be32 (256 + S) ++ be32 (N + 8) /\
        g_ph g = 4 /\ Q (log (sph g 5) [EvLWrite off bs])) \/
     (bmc = true /\ off = 12 /\ bs = be16 3 /\ g_ph g = 5 /\ Q (log (sph g 6) [EvLWrite off bs])) \/
     (bmc = false /\ off = 20 /\ bs = be32 (N + 8) /\ g_ph g = 0 /\ g_rdy g = true /\
        Q (log (sph g 1) [EvLWrite off bs])) \/
     (bmc = false /\ off = 8 /\ bs = be16 1 /\ g_ph g = 1 /\ Q (log (sph g 2) [EvLWrite off bs])) \/
     (bmc = false /\ off = 10 /\ bs = be16 3 /\ g_ph g = 2 /\ Q (log (sph g 3) [EvLWrite off bs])))
  (fun bs g Q => False)
  (fun g Q => Q true g)
  (fun e g Q =>
     match e with
     | EvTxCall _ _ p =>
         g_tx g = TFree /\ good p /\ Q (log (sx g (TPend p)) [e])
     | EvBusRx _ _ _ p => g_dl g = Some p /\ Q (log (sr g (g_rx g) None) [e])
     | EvKRead _ _ | EvKWrite _ _ _ | EvLRead _ _ | EvLWrite _ _ => False
     | _ => Q (log g [e])
     end).

Lemma duo_mono bmc : hmono (duo_h bmc).
Proof.
  constructor; cbn [duo_h h_kread h_kwrite h_lread h_lwrite h_swrite h_alloc h_emit].
  - intros r g Q Q' HQ. destruct r; [|intros; auto].
    intros [H1 H2]. split; [exact H1|]. cbn zeta in *. destruct bmc.
    + destruct H2 as (H0 & H2 & H3). split; [exact H0|]. split; [auto|]. intros E. destruct (H3 E) as [A B]. auto 10.
    + destruct H2 as (H2 & H3 & H4). split; [auto|]. split; [auto|]. intros E. destruct (H4 E) as [A B]. auto 10.
  - intros r v g Q Q' HQ. destruct r.
    + intros [(A & B & [[C D]|[C D]])|[(A & B & C & D)|(A & B & [(C & D & F)|(C & D & F)])]]; auto 20.
    + intros [A [(B & C & D)|(B & C & D)]]; auto 20.
  - intros o n g Q Q' HQ [(p & A & B & C & D)|[(p & A & B & C & D & F)|[(A & B & C & D & F)|
      [(A & B & C & D & F & K)|[(A & B & C & D & F)|(A & B & C & D & K)]]]]]; [left|right..].
    + exists p. auto.
    + left. exists p. auto 10.
    + right. left. auto 10.
    + right. right. left. auto 10.
    + do 3 right. left. auto 10.
    + do 4 right. repeat split; auto; destruct K; auto.
  - intros o bs g Q Q' HQ [(p & A & B & C & D)|[(p & A & B & C & D)|[(A & B & C & D & F)|[(A & B & C & D & F)|
      [(A & B & C & D & F)|[(A & B & C & D & F & K)|[(A & B & C & D & F)|(A & B & C & D & F)]]]]]]]; [left|right..].
    + exists p. auto.
    + left. exists p. auto.
    + right. left. auto 10.
    + right. right. left. auto 10.
    + do 3 right. left. auto 10.
    + do 4 right. left. auto 10.
    + do 5 right. left. auto 10.
    + do 6 right. auto 10.
  - auto.
  - auto.
  - intros e g Q Q' HQ. destruct e; auto.
    + intros [A B]. auto.
    + intros (A & B & C). auto.
Qed.

(** ** The link between the sides *)
Definition stored (m : Z -> Z) (o : Z) (p : list Z) : Prop :=
  cells m o 4 = be32 (zlen p) /\ cells m (o + 4) (zlen (enc p)) = enc p.

Definition out (d : option (list Z)) : list (list Z) := match d with Some p => [p] | None => [] end.

(** Direction from the side with ghost [gs] to the side with ghost [gr]: [us] and [ur]
    are their unread commands, [o] is the buffer's offset. *)
Definition dir (us ur : option Z) (gs gr : gst) (m : Z -> Z) (o : Z) : Prop :=
  let sent := offered (g_tr gs) in
  let got := received (g_tr gr) ++ out (g_dl gr) in
  match g_tx gs with
  | TNo =>
      match g_rx gr with
      | RNo => (us = Some 1 /\ ur <> Some 2 /\ exists p, good p /\ stored m o p /\ sent = got ++ [p])
               \/ (us <> Some 1 /\ ur = Some 2 /\ sent = got)
      | RGot p => us <> Some 1 /\ ur <> Some 2 /\ good p /\ stored m o p /\ sent = got ++ [p]
      | RHeld => us <> Some 1 /\ ur <> Some 2 /\ sent = got
      end
  | TFree => g_rx gr = RNo /\ us <> Some 1 /\ ur <> Some 2 /\ sent = got
  | TPend p => g_rx gr = RNo /\ us <> Some 1 /\ ur <> Some 2 /\ sent = got ++ [p] /\ good p
  | TLen p => g_rx gr = RNo /\ us <> Some 1 /\ ur <> Some 2 /\ sent = got ++ [p] /\ good p /\
              cells m o 4 = be32 (zlen p)
  | TFull p => g_rx gr = RNo /\ us <> Some 1 /\ ur <> Some 2 /\ sent = got ++ [p] /\ good p /\ stored m o p
  end.

(** What a side knows about the data registers. *)
Definition know (us ur : option Z) (g : gst) : Prop :=
  (g_oe g = true -> us = None) /\ (g_if g = true -> ur <> None).

Record stage (gb gh : gst) (sh : shared) : Prop := mkStage {
  st_bp : 0 <= g_ph gb <= 8;
  st_hp : 0 <= g_ph gh <= 4;
  st_up : k_up (s_kcs sh) = (if 7 <=? g_ph gb then 192 else if 2 <=? g_ph gb then 128 else 0);
  st_hdr : 1 <= g_ph gb -> cells (s_mem sh) 0 32 = hdr_of (g_ph gh) (g_ph gb);
  st_rdy : g_rdy gh = true -> 2 <= g_ph gb;
  st_act : g_act gh = true -> 7 <= g_ph gb;
  st_neg : g_neg gh = true -> 6 <= g_ph gb;
  st_fin : g_fin gh = true -> g_ph gb = 8;
  st_seen : 1 <= g_ph gh -> g_rdy gh = true;
  st_init : 4 <= g_ph gb -> g_ph gh = 4;
  st_hout : if g_ph gb <? 4 then unread false (s_kcs sh) = (if g_ph gh =? 4 then Some 0 else None)
            else unread false (s_kcs sh) = None \/
                 (g_sent gh = true /\ (unread false (s_kcs sh) = Some 1 \/ unread false (s_kcs sh) = Some 2));
  st_bout : if g_fin gh
            then unread true (s_kcs sh) = None \/ unread true (s_kcs sh) = Some 255 \/
                 unread true (s_kcs sh) = Some 1 \/ unread true (s_kcs sh) = Some 2
            else if g_ph gb <? 3 then unread true (s_kcs sh) = None
            else if g_ph gb <? 8 then unread true (s_kcs sh) = None \/ unread true (s_kcs sh) = Some 255
            else unread true (s_kcs sh) = Some 255 }.

Definition pick {A} (bmc : bool) (b h : A) : A := if bmc then b else h.

Definition link (gb gh : gst) (sh : shared) : Prop :=
  let ub := unread true (s_kcs sh) in
  let uh := unread false (s_kcs sh) in
  dir ub uh gb gh (s_mem sh) (txo true) /\ dir uh ub gh gb (s_mem sh) (txo false) /\
  know ub uh gb /\ know uh ub gh /\ stage gb gh sh.

(** ** Registers *)
Lemma unread_data_r s k : unread s (snd (kread s KData k)) = unread s k.
Proof. destruct s; reflexivity. Qed.
Lemma unread_data_r' s k : unread (negb s) (snd (kread s KData k)) = None.
Proof. destruct s; reflexivity. Qed.
Lemma kread_unread s k c : unread (negb s) k = Some c -> fst (kread s KData k) = c.
Proof. destruct s; cbn; [destruct (k_ibf k)|destruct (k_obf k)]; congruence. Qed.
Lemma unread_data_w s k v : unread s (kwrite s KData v k) = Some v.
Proof. destruct s; reflexivity. Qed.
Lemma unread_data_w' s k v : unread (negb s) (kwrite s KData v k) = unread (negb s) k.
Proof. destruct s; reflexivity. Qed.

Lemma kstatus_bits k : k_up k = 0 \/ k_up k = 128 \/ k_up k = 192 ->
  is_byte (kstatus k) /\ tst (kstatus k) ST_BMC_READY = negb (k_up k =? 0) /\
  tst (kstatus k) ST_ACTIVE = (k_up k =? 192) /\
  forall s, oflag s (kstatus k) = match unread s k with Some _ => true | None => false end.
Proof.
  destruct k as [idr odr [|] [|] up]; cbn [k_up]; intros [-> | [-> | ->]]; cbn;
    (split; [split; lia|]); (split; [reflexivity|]); (split; [reflexivity|]); intros [|]; reflexivity.
Qed.

(** ** Preservation of a direction *)
Lemma dir_ext us ur gs gr m o gs' gr' m' :
  g_tx gs' = g_tx gs -> offered (g_tr gs') = offered (g_tr gs) ->
  g_rx gr' = g_rx gr -> g_dl gr' = g_dl gr -> received (g_tr gr') = received (g_tr gr) ->
  (forall x, o <= x < o + (N + 8) -> m' x = m x) ->
  dir us ur gs gr m o -> dir us ur gs' gr' m' o.
Proof.
  unfold dir. intros -> -> -> -> -> Hm H. cbn zeta in *.
  assert (forall p, good p -> stored m o p -> stored m' o p) as Hst.
  { intros p [[G1 G2] _] [A B]. unfold stored, enc in *. rewrite zlen_app in *. change (zlen (be32 (crc32 p))) with 4 in *.
    split; [rewrite <- A|rewrite <- B]; apply cells_ext; intros x Hx; apply Hm; lia. }
  destruct (g_tx gs).
  - destruct (g_rx gr).
    + destruct H as [(A & B & p & G & C & D)|H]; [left|right; exact H].
      split; [exact A|]. split; [exact B|]. exists p. auto.
    + destruct H as (A & B & G & C & D). auto 10.
    + exact H.
  - exact H.
  - exact H.
  - destruct H as (A & B & C & D & G & K). repeat split; auto; try apply G.
    rewrite <- K. apply cells_ext. intros x Hx. apply Hm. lia.
  - destruct H as (A & B & C & D & G & K). repeat split; auto; try apply G; apply Hst; auto.
Qed.

Lemma dir_us us us' ur gs gr m o : us <> Some 1 -> us' <> Some 1 -> dir us ur gs gr m o -> dir us' ur gs gr m o.
Proof.
  intros H1 H2. unfold dir. cbn zeta. destruct (g_tx gs); [destruct (g_rx gr)|..]; intros H; try tauto.
Qed.
Lemma dir_ur us ur ur' gs gr m o : ur <> Some 2 -> ur' <> Some 2 -> dir us ur gs gr m o -> dir us ur' gs gr m o.
Proof.
  intros H1 H2. unfold dir. cbn zeta. destruct (g_tx gs); [destruct (g_rx gr)|..]; intros H; try tauto.
Qed.

(** The receiver takes a Tx Begin. *)
Lemma dir_take ur gs gr m o : dir (Some 1) ur gs gr m o ->
  g_rx gr = RNo /\ exists p, good p /\ forall gr',
  g_rx gr' = RGot p -> g_dl gr' = g_dl gr -> received (g_tr gr') = received (g_tr gr) -> dir None ur gs gr' m o.
Proof.
  unfold dir. cbn zeta. destruct (g_tx gs).
  2-5: intros (_ & H & _); congruence.
  destruct (g_rx gr).
  - intros [(_ & A & p & G & B & C)|[H _]]; [|congruence]. split; [reflexivity|]. exists p. split; [exact G|].
    intros gr' -> -> ->. repeat split; auto; try congruence; try apply G; apply B.
  - intros [H _]; congruence.
  - intros [H _]; congruence.
Qed.
(** The sender takes an Rx Complete. *)
Lemma dir_back us gs gr gs' m o : dir us (Some 2) gs gr m o ->
  g_tx gs = TNo /\
  (g_tx gs' = TFree -> offered (g_tr gs') = offered (g_tr gs) -> dir us None gs' gr m o).
Proof.
  unfold dir. cbn zeta. destruct (g_tx gs).
  2-5: intros (_ & _ & H & _); congruence.
  destruct (g_rx gr).
  - intros [(_ & H & _)|(A & _ & B)]; [congruence|]. split; [reflexivity|]. intros -> ->.
    repeat split; auto; congruence.
  - intros (_ & H & _); congruence.
  - intros (_ & H & _); congruence.
Qed.
(** The sender sends Tx Begin. *)
Lemma dir_begin us ur gs gr gs' p m o : dir us ur gs gr m o -> g_tx gs = TFull p ->
  g_tx gs' = TNo -> offered (g_tr gs') = offered (g_tr gs) -> dir (Some 1) ur gs' gr m o.
Proof.
  unfold dir. cbn zeta. intros H E -> ->. rewrite E in H. destruct H as (A & B & C & D & G & K). rewrite A. left.
  split; [reflexivity|]. split; [exact C|]. exists p. auto.
Qed.
(** The receiver sends Rx Complete. *)
Lemma dir_complete us ur gs gr gr' m o : dir us ur gs gr m o -> g_rx gr = RHeld ->
  g_rx gr' = RNo -> g_dl gr' = g_dl gr -> received (g_tr gr') = received (g_tr gr) -> dir us (Some 2) gs gr' m o.
Proof.
  unfold dir. cbn zeta. intros H E -> -> ->. rewrite E in H. destruct (g_tx gs).
  2-5: destruct H as [H _]; discriminate.
  destruct H as (A & B & C). right. auto.
Qed.
(** The receiver reads the packet. *)
Lemma dir_read us ur gs gr gr' p m o : dir us ur gs gr m o -> g_rx gr = RGot p -> g_dl gr = None ->
  g_rx gr' = RHeld -> g_dl gr' = Some p -> received (g_tr gr') = received (g_tr gr) -> dir us ur gs gr' m o.
Proof.
  unfold dir. cbn zeta. intros H E1 E2 -> -> ->. rewrite E1, E2 in H. destruct (g_tx gs).
  2-5: destruct H as [H _]; discriminate.
  cbn [out] in *. rewrite app_nil_r in H. destruct H as (A & B & G & C & D). auto.
Qed.
Lemma dir_got us ur gs gr p m o : dir us ur gs gr m o -> g_rx gr = RGot p -> stored m o p /\ good p.
Proof.
  unfold dir. cbn zeta. intros H E. rewrite E in H. destruct (g_tx gs).
  2-5: destruct H as [H _]; discriminate.
  tauto.
Qed.
(** The receiver hands the packet over. *)
Lemma dir_hand us ur gs gr gr' p m o : dir us ur gs gr m o -> g_dl gr = Some p ->
  g_rx gr' = g_rx gr -> g_dl gr' = None -> received (g_tr gr') = received (g_tr gr) ++ [p] -> dir us ur gs gr' m o.
Proof.
  unfold dir. cbn zeta. intros H E -> -> ->. rewrite E in H. cbn [out] in *. rewrite app_nil_r. exact H.
Qed.
(** The core passes a packet to tx. *)
Lemma dir_offer us ur gs gr gs' p m o : dir us ur gs gr m o -> g_tx gs = TFree -> good p ->
  g_tx gs' = TPend p -> offered (g_tr gs') = offered (g_tr gs) ++ [p] -> dir us ur gs' gr m o.
Proof.
  unfold dir. cbn zeta. intros H E G -> ->. rewrite E in H. destruct H as (A & B & C & D).
  rewrite D. auto.
Qed.
Lemma dir_len us ur gs gr gs' p m o : dir us ur gs gr m o -> g_tx gs = TPend p ->
  g_tx gs' = TLen p -> offered (g_tr gs') = offered (g_tr gs) ->
  dir us ur gs' gr (store m o (be32 (zlen p))) o.
Proof.
  unfold dir. cbn zeta. intros H E -> ->. rewrite E in H. destruct H as (A & B & C & D & G).
  repeat split; auto; try apply G. exact (cells_store_same m o (be32 (zlen p))).
Qed.
Lemma dir_full us ur gs gr gs' p m o : dir us ur gs gr m o -> g_tx gs = TLen p ->
  g_tx gs' = TFull p -> offered (g_tr gs') = offered (g_tr gs) ->
  dir us ur gs' gr (store m (o + 4) (enc p)) o.
Proof.
  unfold dir. cbn zeta. intros H E -> ->. rewrite E in H. destruct H as (A & B & C & D & G & K).
  repeat split; auto; try apply G; [|apply cells_store_same].
  rewrite <- K. apply cells_store_off. lia.
Qed.

Lemma offered_app a b : offered (a ++ b) = offered a ++ offered b.
Proof. unfold offered. apply flat_map_app. Qed.
Lemma received_app a b : received (a ++ b) = received a ++ received b.
Proof. unfold received. apply flat_map_app. Qed.

Lemma enc_len p : zlen (enc p) = zlen p + 4.
Proof. unfold enc. rewrite zlen_app. reflexivity. Qed.

(** ** Steps preserve the link *)
Ltac proj := cbn [g_tr g_tx g_rx g_dl g_oe g_if g_ph g_rdy g_act g_fin g_neg g_sent
                  log sx sr sph soe sif sfin sneg ssent sst s_kcs s_mem] in *.
Ltac tra := proj; rewrite ?offered_app, ?received_app; cbn [offered received flat_map app]; rewrite ?app_nil_r; reflexivity.
Ltac same H := eapply dir_ext; [| | | | | |exact H]; first [tra | reflexivity | intros; reflexivity].

Lemma up_cases gb gh sh : stage gb gh sh ->
  k_up (s_kcs sh) = 0 \/ k_up (s_kcs sh) = 128 \/ k_up (s_kcs sh) = 192.
Proof. intros H. rewrite (st_up _ _ _ H). destruct (7 <=? _); [auto|]. destruct (2 <=? _); auto. Qed.

Lemma hdr_len hp bp : zlen (hdr_of hp bp) = 32.
Proof. reflexivity. Qed.

(** A step that touches neither the registers nor the window nor the progress. *)
Lemma link_bmc gb gb' gh sh : link gb gh sh ->
  g_tx gb' = g_tx gb -> g_rx gb' = g_rx gb -> g_dl gb' = g_dl gb ->
  offered (g_tr gb') = offered (g_tr gb) -> received (g_tr gb') = received (g_tr gb) ->
  know (unread true (s_kcs sh)) (unread false (s_kcs sh)) gb' -> g_ph gb' = g_ph gb -> link gb' gh sh.
Proof.
  intros (D1 & D2 & K1 & K2 & H) E1 E2 E3 E4 E5 K Ep. split; [|split; [|split; [|split]]]; try assumption.
  - eapply dir_ext; [exact E1|exact E4| | | | |exact D1]; auto.
  - eapply dir_ext; [| |exact E2|exact E3|exact E5| |exact D2]; auto.
  - destruct H. constructor; rewrite ?Ep; assumption.
Qed.
Lemma link_host gb gh gh' sh : link gb gh sh ->
  g_tx gh' = g_tx gh -> g_rx gh' = g_rx gh -> g_dl gh' = g_dl gh ->
  offered (g_tr gh') = offered (g_tr gh) -> received (g_tr gh') = received (g_tr gh) ->
  know (unread false (s_kcs sh)) (unread true (s_kcs sh)) gh' -> stage gb gh' sh -> link gb gh' sh.
Proof.
  intros (D1 & D2 & K1 & K2 & H) E1 E2 E3 E4 E5 K Hs. split; [|split; [|split; [|split]]]; try assumption.
  - eapply dir_ext; [| |exact E2|exact E3|exact E5| |exact D1]; auto.
  - eapply dir_ext; [exact E1|exact E4| | | | |exact D2]; auto.
Qed.

(** The window's areas: control space, and the two buffers. *)
Definition area (s : bool) (x : Z) : Prop := txo s <= x < txo s + (N + 8).
Lemma store_outside m o bs x : x < o \/ o + zlen bs <= x -> store m o bs x = m x.
Proof. intros H. unfold store. replace ((o <=? x) && (x <? o + zlen bs)) with false by lia. reflexivity. Qed.

(** A store by a side changes only that side's buffer, or only the control space. *)
Lemma dir_store us ur gs gr m o gs' gr' off bs :
  dir us ur gs gr m o ->
  g_tx gs' = g_tx gs -> offered (g_tr gs') = offered (g_tr gs) ->
  g_rx gr' = g_rx gr -> g_dl gr' = g_dl gr -> received (g_tr gr') = received (g_tr gr) ->
  off + zlen bs <= o \/ o + (N + 8) <= off ->
  dir us ur gs' gr' (store m off bs) o.
Proof.
  intros H E1 E2 E3 E4 E5 Ho. eapply dir_ext; [exact E1|exact E2|exact E3|exact E4|exact E5| |exact H].
  intros x Hx. apply store_outside. lia.
Qed.

Lemma hdr_store m off bs hp bp hp' bp' : cells m 0 32 = hdr_of hp bp -> 0 <= off -> off + zlen bs <= 32 ->
  firstn (Z.to_nat off) (hdr_of hp bp) ++ bs ++ skipn (Z.to_nat (off + zlen bs)) (hdr_of hp bp) = hdr_of hp' bp' ->
  cells (store m off bs) 0 32 = hdr_of hp' bp'.
Proof.
  intros H H1 H2 E. rewrite cells_store_in by lia. rewrite H, <- E. now replace (off - 0) with off by lia.
Qed.

Lemma some3 {A B C} (a a' : A) (b b' : B) (c c' : C) : Some (a, b, c) = Some (a', b', c') -> a' = a /\ b' = b /\ c' = c.
Proof. intros H. injection H as -> -> ->. auto. Qed.

Ltac old b := let Hx := fresh in intros Hx; specialize (b Hx); clear -b; lia.

Lemma step_bmc A (p p' : prog A) sh sh' t gb gh Q :
  advance true sh p = Some (sh', p', t) -> wp (duo_h true) p gb Q -> link gb gh sh ->
  exists gb', wp (duo_h true) p' gb' Q /\ link gb' gh sh' /\ g_tr gb' = g_tr gb ++ t.
Proof.
  intros Hadv Hwp HL. pose proof HL as (D1 & D2 & [K1 K2] & [K3 K4] & HSt). pose proof (up_cases _ _ _ HSt) as Hup.
  destruct (kstatus_bits _ Hup) as (B1 & B2 & B3 & B4). pose proof HSt as [b1 b2 b3 b4 b5 b6 b7 b8 b9 b10 b11 b12].
  destruct p as [x|f|r k|r v k|off len k|off bs k|bs k|k|e k]; cbn [advance] in Hadv; try discriminate.
  - (* register read *)
    cbn [wp duo_h h_kread] in Hwp. destruct r; cbn [kread] in Hadv.
    + apply some3 in Hadv as (-> & -> & ->). destruct Hwp as [Hi Hwp]. cbn zeta in Hwp. destruct Hwp as (Hph & W3 & W8).
      specialize (K2 Hi). set (k' := mkKcs (k_idr (s_kcs sh)) _ false _ _).
      assert (unread true k' = unread true (s_kcs sh)) as E1 by reflexivity.
      assert (unread false k' = None) as E2 by reflexivity.
      change (k_idr (s_kcs sh)) with (fst (kread true KData (s_kcs sh))).
      destruct Hph as [Hph|Hph].
      * replace (g_ph gb <? 4) with true in b11 by (rewrite Hph; reflexivity).
        destruct (g_ph gh =? 4) eqn:Ehp; [|congruence].
        rewrite (kread_unread true _ 0) by exact b11. rewrite b11 in *.
        eexists. split; [exact (W3 Hph)|]. split; [|reflexivity].
        split; [|split; [|split; [|split]]]; cbn [s_kcs s_mem]; rewrite ?E1, ?E2.
        -- eapply dir_ur with (ur := Some 0); try discriminate. same D1.
        -- eapply dir_us with (us := Some 0); try discriminate. same D2.
        -- split; proj; [exact K1|discriminate].
        -- split; [auto|exact K4].
        -- rewrite Hph in *. assert (g_fin gh = false) as Ef by (destruct (g_fin gh); [specialize (b8 eq_refl); clear -b8 Hph; lia|reflexivity]).
           assert (g_neg gh = false) as En by (destruct (g_neg gh); [specialize (b7 eq_refl); clear -b7 Hph; lia|reflexivity]).
           assert (g_act gh = false) as Ea by (destruct (g_act gh); [specialize (b6 eq_refl); clear -b6 Hph; lia|reflexivity]).
           rewrite Ef in *. constructor; proj; rewrite ?E1, ?E2, ?Ef, ?En, ?Ea; try assumption; try discriminate; try (clear; lia).
           ++ intros _. apply Z.eqb_eq. exact Ehp.
           ++ left. reflexivity.
      * replace (g_ph gb <? 4) with false in b11 by (rewrite Hph; reflexivity). destruct (W8 Hph) as [Wa Wb].
        assert (forall g', g_ph g' = g_ph gb -> stage g' gh (mkShared k' (s_mem sh))) as Hst'.
        { intros g' Eg. constructor; proj; rewrite ?E1, ?E2, ?Eg; try assumption.
          replace (g_ph gb <? 4) with false by (rewrite Hph; reflexivity). left. reflexivity. }
        destruct b11 as [b11|[Hse [b11|b11]]]; [congruence| |]; rewrite b11 in *.
        -- rewrite (kread_unread true _ 1) by exact b11.
           destruct (dir_take _ _ _ _ _ D2) as (Er & p & Gp & Hd).
           eexists. split; [exact (Wa Er p Gp)|]. split; [|reflexivity].
           split; [|split; [|split; [|split]]]; cbn [s_kcs s_mem]; rewrite ?E1, ?E2.
           ++ eapply dir_ur with (ur := Some 1); try discriminate. same D1.
           ++ apply Hd; tra.
           ++ split; proj; [exact K1|discriminate].
           ++ split; [auto|exact K4].
           ++ apply Hst'. reflexivity.
        -- rewrite (kread_unread true _ 2) by exact b11.
           edestruct (dir_back _ _ _ (log (sx (sif gb false) TFree) [EvKRead KData (Some 2)]) _ _ D1) as (Et & Hd).
           eexists. split; [exact (Wb Et)|]. split; [|reflexivity].
           split; [|split; [|split; [|split]]]; cbn [s_kcs s_mem]; rewrite ?E1, ?E2.
           ++ apply Hd; tra.
           ++ eapply dir_us with (us := Some 2); try discriminate. same D2.
           ++ split; proj; [exact K1|discriminate].
           ++ split; [auto|exact K4].
           ++ apply Hst'. reflexivity.
    + apply some3 in Hadv as (-> & -> & ->).
      eexists. split; [apply (Hwp _ B1)|split; [|reflexivity]].
      * rewrite B4. intros Ho. now rewrite (K1 Ho).
      * unfold iflag. rewrite B4. intros Hi. specialize (K2 Hi). cbn [negb].
        destruct (unread false (s_kcs sh)); [reflexivity|congruence].
      * discriminate.
      * destruct sh as [kk mm]. cbn [s_kcs s_mem] in *.
        eapply link_bmc; [exact HL|..]; try tra. split; proj.
        -- rewrite B4. intros Ho. destruct (unread true kk); [|reflexivity].
           destruct (g_oe gb); [exact (K1 eq_refl)|discriminate].
        -- unfold iflag. rewrite B4. cbn [negb]. intros Hi. destruct (unread false kk); [discriminate|].
           destruct (g_if gb); [exact (K2 eq_refl)|discriminate].
  - (* register write *)
    cbn [wp duo_h h_kwrite] in Hwp. apply some3 in Hadv as (-> & -> & ->). destruct r.
    + assert (forall kk, unread true (kwrite true KData v kk) = Some v) as E1 by reflexivity.
      assert (forall kk, unread false (kwrite true KData v kk) = unread false kk) as E2 by reflexivity.
      assert (forall kk, k_up (kwrite true KData v kk) = k_up kk) as E3 by reflexivity.
      destruct Hwp as [(-> & _ & [(Hph & W)|(Hph & W)])|[(_ & H & _)|(Ho & Hph & [(-> & (p & Ht) & W)|(-> & Hr & W)])]];
        [| |discriminate| |].
      * (* the first dummy *)
        assert (g_fin gh = false) as Ef by (destruct (g_fin gh); [specialize (b8 eq_refl); clear -b8 Hph; lia|reflexivity]).
        rewrite Ef in b12. replace (g_ph gb <? 3) with true in b12 by (rewrite Hph; reflexivity). rewrite b12 in *.
        eexists. split; [exact W|]. split; [|reflexivity].
        split; [|split; [|split; [|split]]]; cbn [s_kcs s_mem]; rewrite ?E1, ?E2.
        -- eapply dir_us with (us := None); try discriminate. same D1.
        -- eapply dir_ur with (ur := None); try discriminate. same D2.
        -- split; proj; [discriminate|exact K2].
        -- split; [exact K3|discriminate].
        -- rewrite Hph in *. constructor; proj; rewrite ?E1, ?E2, ?E3, ?Ef; try assumption; try (clear; lia).
           right. reflexivity.
      * (* the second dummy *)
        assert (g_fin gh = false) as Ef by (destruct (g_fin gh); [specialize (b8 eq_refl); clear -b8 Hph; lia|reflexivity]).
        rewrite Ef in b12. replace (g_ph gb <? 3) with false in b12 by (rewrite Hph; reflexivity). replace (g_ph gb <? 8) with true in b12 by (rewrite Hph; reflexivity).
        assert (unread true (s_kcs sh) <> Some 1 /\ unread true (s_kcs sh) <> Some 2) as [N1 N2]
          by (destruct b12 as [-> | ->]; split; discriminate).
        eexists. split; [exact W|]. split; [|reflexivity].
        split; [|split; [|split; [|split]]]; cbn [s_kcs s_mem]; rewrite ?E1, ?E2.
        -- eapply dir_us; [exact N1|discriminate|]. same D1.
        -- eapply dir_ur; [exact N2|discriminate|]. same D2.
        -- split; proj; [discriminate|exact K2].
        -- split; [exact K3|discriminate].
        -- rewrite Hph in *. constructor; proj; rewrite ?E1, ?E2, ?E3, ?Ef; try assumption; try (clear; lia).
           reflexivity.
      * (* Tx Begin *)
        specialize (K1 Ho). rewrite K1 in *.
        assert (g_fin gh = true) as Ef.
        { destruct (g_fin gh); [reflexivity|]. rewrite Hph in b12. cbn in b12. discriminate. }
        eexists. split; [exact W|]. split; [|reflexivity].
        split; [|split; [|split; [|split]]]; cbn [s_kcs s_mem]; rewrite ?E1, ?E2.
        -- eapply dir_begin; [exact D1|exact Ht|tra|tra].
        -- eapply dir_ur with (ur := None); try discriminate. same D2.
        -- split; proj; [discriminate|exact K2].
        -- split; [exact K3|discriminate].
        -- rewrite Hph in *. constructor; proj; rewrite ?E1, ?E2, ?E3, ?Ef, ?Hph; try assumption; try (clear; lia); auto.
      * (* Rx Complete *)
        specialize (K1 Ho). rewrite K1 in *.
        assert (g_fin gh = true) as Ef.
        { destruct (g_fin gh); [reflexivity|]. rewrite Hph in b12. cbn in b12. discriminate. }
        eexists. split; [exact W|]. split; [|reflexivity].
        split; [|split; [|split; [|split]]]; cbn [s_kcs s_mem]; rewrite ?E1, ?E2.
        -- eapply dir_us with (us := None); try discriminate. same D1.
        -- eapply dir_complete; [exact D2|exact Hr|tra..].
        -- split; proj; [discriminate|exact K2].
        -- split; [exact K3|discriminate].
        -- rewrite Hph in *. constructor; proj; rewrite ?E1, ?E2, ?E3, ?Ef, ?Hph; try assumption; try (clear; lia); auto.
    + assert (forall kk, unread false (kwrite true KStatus v kk) = unread false kk) as E2 by reflexivity.
      assert (g_fin gh = false -> unread true (s_kcs sh) = None -> unread true (kwrite true KStatus v (s_kcs sh)) = None) as E0.
      { intros _. unfold unread. cbn [kwrite k_obf k_odr]. destruct (k_obf (s_kcs sh)); [discriminate|reflexivity]. }
      assert (Z.odd v = true -> unread true (kwrite true KStatus v (s_kcs sh)) = unread true (s_kcs sh)) as E1.
      { unfold unread. cbn [kwrite k_obf k_odr]. intros ->. now rewrite andb_true_r. }
      destruct Hwp as [_ [(-> & Hph & W)|(-> & Hph & W)]].
      * assert (g_fin gh = false) as Ef by (destruct (g_fin gh); [specialize (b8 eq_refl); clear -b8 Hph; lia|reflexivity]).
        rewrite Ef in b12. replace (g_ph gb <? 3) with true in b12 by (rewrite Hph; reflexivity). specialize (E0 Ef b12). rewrite b12 in *.
        eexists. split; [exact W|]. split; [|reflexivity].
        split; [|split; [|split; [|split]]]; cbn [s_kcs s_mem]; rewrite ?E0, ?E2.
        -- same D1.
        -- same D2.
        -- split; proj; [exact K1|exact K2].
        -- split; [exact K3|exact K4].
        -- rewrite Hph in *. constructor; proj; rewrite ?E0, ?E2, ?Ef; try assumption; try (clear; lia); try reflexivity. all: try (let Hx := fresh in intros Hx; specialize (b5 Hx); clear -b5 Hph; lia); try (let Hx := fresh in intros Hx; specialize (b7 Hx); clear -b7 Hph; lia); try discriminate; auto.
           intros _. apply b4. clear; lia.
      * specialize (E1 eq_refl).
        assert (g_fin gh = false) as Ef by (destruct (g_fin gh); [specialize (b8 eq_refl); clear -b8 Hph; lia|reflexivity]).
        eexists. split; [exact W|]. split; [|reflexivity].
        split; [|split; [|split; [|split]]]; cbn [s_kcs s_mem]; rewrite ?E1, ?E2.
        -- same D1.
        -- same D2.
        -- split; proj; [exact K1|exact K2].
        -- split; [exact K3|exact K4].
        -- rewrite Hph in *. constructor; proj; rewrite ?E1, ?E2, ?Ef in *; try assumption; try (clear; lia); try reflexivity.
  - (* window read *)
    cbn [wp duo_h h_lread] in Hwp.
    destruct Hwp as [(p & Hr & -> & -> & W)|[(p & Hr & -> & -> & Hdl & W)|[(_ & -> & -> & Hph & W)|
      [(H & _)|[(H & _)|(H & _)]]]]]; try discriminate.
    + destruct (dir_got _ _ _ _ _ _ _ D2 Hr) as [[C1 C2] [[G1 G2] _]].
      change (rxo true) with (txo false) in *.
      assert (in_window (txo false) 4 = true) as Hin by (unfold in_window, LPC_WIN_SIZE, txo; clear -HN HS G1 G2; lia).
      rewrite Hin in Hadv. apply some3 in Hadv as (-> & -> & ->). rewrite C1. eexists. split; [exact W|]. split; [|reflexivity].
      eapply link_bmc; [exact HL|..]; try tra. split; proj; assumption.
    + destruct (dir_got _ _ _ _ _ _ _ D2 Hr) as [[C1 C2] [[G1 G2] _]].
      change (rxo true) with (txo false) in *.
      assert (in_window (txo false + 4) (zlen (enc p)) = true) as Hin
        by (rewrite enc_len; unfold in_window, LPC_WIN_SIZE, txo; clear -HN HS G1 G2; lia).
      rewrite Hin in Hadv. apply some3 in Hadv as (-> & -> & ->). rewrite C2. eexists. split; [exact W|]. split; [|reflexivity].
      destruct sh as [kk mm]. cbn [s_kcs s_mem] in *.
      split; [|split; [|split; [|split]]]; cbn [s_kcs s_mem].
      * same D1.
      * eapply dir_read; [exact D2|exact Hr|exact Hdl|tra..].
      * split; proj; assumption.
      * split; assumption.
      * constructor; proj; assumption.
    + cbn in Hadv. apply some3 in Hadv as (-> & -> & ->). change (map _ _) with (cells (s_mem sh) 0 32).
      assert (g_ph gh = 4) as Eh by (apply b10; clear -Hph; lia). rewrite b4 by (clear -Hph; lia). rewrite Eh, Hph.
      eexists. split; [exact W|]. split; [|reflexivity].
      eapply link_bmc; [exact HL|..]; try tra. split; proj; assumption.
  - (* window write *)
    cbn [wp duo_h h_lwrite] in Hwp.
    destruct Hwp as [(p & Ht & -> & -> & W)|[(p & Ht & -> & -> & W)|[(_ & -> & -> & Hph & W)|
      [(_ & -> & -> & Hph & W)|[(_ & -> & -> & Hph & W)|[(H & _)|[(H & _)|(H & _)]]]]]]]; try discriminate.
    + pose proof D1 as Hg. unfold dir in Hg. cbn zeta in Hg. rewrite Ht in Hg. destruct Hg as (_ & _ & _ & _ & [G1 G2] & _).
      assert (in_window (txo true) (zlen (be32 (zlen p))) = true) as Hin
        by (change (zlen (be32 (zlen p))) with 4; unfold in_window, LPC_WIN_SIZE, txo; clear -HN HS G1 G2; lia).
      rewrite Hin in Hadv. apply some3 in Hadv as (-> & -> & ->).
      eexists. split; [exact W|]. split; [|reflexivity].
      split; [|split; [|split; [|split]]]; cbn [s_kcs s_mem].
      * eapply dir_len; [exact D1|exact Ht|tra..].
      * eapply dir_store; [exact D2|tra..|]. change (zlen (be32 (zlen p))) with 4. unfold txo; clear -HN HS; lia.
      * split; proj; assumption.
      * split; assumption.
      * constructor; proj; try assumption.
        all: intros Hx; rewrite cells_store_off; [auto|unfold txo; clear -HN HS; lia].
    + pose proof D1 as Hg. unfold dir in Hg. cbn zeta in Hg. rewrite Ht in Hg. destruct Hg as (_ & _ & _ & _ & [G1 G2] & _).
      assert (in_window (txo true + 4) (zlen (enc p)) = true) as Hin
        by (rewrite enc_len; unfold in_window, LPC_WIN_SIZE, txo; clear -HN HS G1 G2; lia).
      rewrite Hin in Hadv. apply some3 in Hadv as (-> & -> & ->).
      eexists. split; [exact W|]. split; [|reflexivity].
      split; [|split; [|split; [|split]]]; cbn [s_kcs s_mem].
      * eapply dir_full; [exact D1|exact Ht|tra..].
      * eapply dir_store; [exact D2|tra..|]. rewrite enc_len. unfold txo; clear -HN HS G1 G2; lia.
      * split; proj; assumption.
      * split; assumption.
      * constructor; proj; try assumption.
        all: intros Hx; rewrite cells_store_off; [auto|unfold txo; clear -HN HS; lia].
    + rewrite hdr_len in Hadv. change (in_window 0 32) with true in Hadv. apply some3 in Hadv as (-> & -> & ->).
      eexists. split; [exact W|]. split; [|reflexivity].
      split; [|split; [|split; [|split]]]; cbn [s_kcs s_mem].
      * eapply dir_store; [exact D1|tra..|]. rewrite hdr_len. unfold txo; clear -HN HS; lia.
      * eapply dir_store; [exact D2|tra..|]. rewrite hdr_len. unfold txo; clear -HN HS; lia.
      * split; proj; assumption.
      * split; assumption.
      * assert (g_ph gh = 0) as Eh.
        { destruct (Z.le_gt_cases 1 (g_ph gh)); [|clear -H b2; lia]. specialize (b5 (b9 H)). clear -b5 Hph; lia. }
        rewrite Hph in *. constructor; proj; rewrite ?Eh in *; try assumption; try (clear; lia);
          try solve [old b5 | old b6 | old b7 | old b8].
        intros _. pose proof (cells_store_same (s_mem sh) 0 (hdr_of 0 1)) as E. rewrite hdr_len in E. exact E.
    + assert (zlen (be32 256 ++ be32 (N + 8) ++ be32 (256 + S) ++ be32 (N + 8)) = 16) as E16 by reflexivity.
      rewrite E16 in Hadv. change (in_window 16 16) with true in Hadv. apply some3 in Hadv as (-> & -> & ->).
      assert (g_ph gh = 4) as Eh by (apply b10; clear -Hph; lia).
      eexists. split; [exact W|]. split; [|reflexivity].
      split; [|split; [|split; [|split]]]; cbn [s_kcs s_mem].
      * eapply dir_store; [exact D1|tra..|]. rewrite E16. unfold txo; clear -HN HS; lia.
      * eapply dir_store; [exact D2|tra..|]. rewrite E16. unfold txo; clear -HN HS; lia.
      * split; proj; assumption.
      * split; assumption.
      * rewrite Hph in *. constructor; proj; rewrite ?Eh in *; try assumption; try (clear; lia);
          try solve [old b5 | old b6 | old b7 | old b8].
        intros _. eapply hdr_store; [apply b4; clear; lia|clear; lia|rewrite E16; clear; lia|reflexivity].
    + assert (zlen (be16 3) = 2) as E16 by reflexivity.
      rewrite E16 in Hadv. change (in_window 12 2) with true in Hadv. apply some3 in Hadv as (-> & -> & ->).
      assert (g_ph gh = 4) as Eh by (apply b10; clear -Hph; lia).
      eexists. split; [exact W|]. split; [|reflexivity].
      split; [|split; [|split; [|split]]]; cbn [s_kcs s_mem].
      * eapply dir_store; [exact D1|tra..|]. rewrite E16. unfold txo; clear -HN HS; lia.
      * eapply dir_store; [exact D2|tra..|]. rewrite E16. unfold txo; clear -HN HS; lia.
      * split; proj; assumption.
      * split; assumption.
      * rewrite Hph in *. constructor; proj; rewrite ?Eh in *; try assumption; try (clear; lia);
          try solve [old b5 | old b6 | old b7 | old b8].
        intros _. eapply hdr_store; [apply b4; clear; lia|clear; lia|rewrite E16; clear; lia|reflexivity].
  - cbn [wp duo_h h_swrite] in Hwp. destruct Hwp.
  - cbn [wp duo_h h_alloc] in Hwp. apply some3 in Hadv as (-> & -> & ->). exists gb. split; [exact Hwp|].
    split; [exact HL|now rewrite app_nil_r].
  - (* emit *)
    cbn [wp duo_h h_emit] in Hwp. apply some3 in Hadv as (-> & -> & ->).
    assert (forall g', g_tx g' = g_tx gb -> g_rx g' = g_rx gb -> g_dl g' = g_dl gb ->
      offered (g_tr g') = offered (g_tr gb) -> received (g_tr g') = received (g_tr gb) ->
      g_ph g' = g_ph gb -> g_oe g' = g_oe gb -> g_if g' = g_if gb -> link g' gh sh) as Hsame.
    { intros g' A1 A2 A3 A4 A5 A6 A7 A8. eapply link_bmc; [exact HL|..]; auto. split; rewrite ?A7, ?A8; assumption. }
    destruct e; try contradiction; try (eexists; split; [exact Hwp|]; split; [|reflexivity]; apply Hsame; tra).
    + (* EvBusRx *)
      destruct Hwp as [Hd W]. eexists. split; [exact W|]. split; [|reflexivity].
      split; [|split; [|split; [|split]]]; cbn [s_kcs s_mem].
      * same D1.
      * eapply dir_hand; [exact D2|exact Hd|tra..].
      * split; proj; assumption.
      * split; assumption.
      * constructor; proj; assumption.
    + destruct Hwp as (Ht & G & W). eexists. split; [exact W|]. split; [|reflexivity].
      split; [|split; [|split; [|split]]]; cbn [s_kcs s_mem].
      * eapply dir_offer; [exact D1|exact Ht|exact G|tra|tra].
      * same D2.
      * split; proj; assumption.
      * split; assumption.
      * constructor; proj; assumption.
Qed.

Lemma hdr_low hp bp : bp < 5 -> hdr_of hp bp = hdr_of hp 1.
Proof.
  intros H. unfold hdr_of. replace (6 <=? bp) with false by lia. replace (5 <=? bp) with false by lia. reflexivity.
Qed.
Lemma hdr_high hp bp : 6 <= bp -> hdr_of hp bp = hdr_of hp 8.
Proof.
  intros H. unfold hdr_of. replace (6 <=? bp) with true by lia. replace (5 <=? bp) with true by lia. reflexivity.
Qed.

Ltac hostw b4 b5 b9 b10 b11 Hph Hrd D1 D2 W :=
  let Hb := fresh "Hb" in let Hb2 := fresh "Hb" in let H := fresh "H" in
  match goal with
  | Hadv : _ = Some (?sh', ?p', ?t) |- exists gh', _ /\ link ?gb _ _ /\ _ =>
      match type of Hadv with context [in_window ?o ?n] => change (in_window o n) with true in Hadv end;
      apply some3 in Hadv as (-> & -> & ->);
      assert (2 <= g_ph gb) as Hb2 by (exact (b5 Hrd));
      assert (g_ph gb < 4) as Hb by (destruct (Z.le_gt_cases 4 (g_ph gb)) as [H|H]; [specialize (b10 H); clear -b10 Hph; lia|exact H]);
      eexists; split; [exact W|]; split; [|reflexivity];
      split; [|split; [|split; [|split]]]; cbn [s_kcs s_mem];
      [ eapply dir_store; [exact D1|tra..|]; change (zlen (be32 (N + 8))) with 4; change (zlen (be16 1)) with 2;
          change (zlen (be16 3)) with 2; unfold txo; clear -HN HS; lia
      | eapply dir_store; [exact D2|tra..|]; change (zlen (be32 (N + 8))) with 4; change (zlen (be16 1)) with 2;
          change (zlen (be16 3)) with 2; unfold txo; clear -HN HS; lia
      | split; assumption
      | split; proj; assumption
      | rewrite Hph in *; constructor; proj; try assumption; try (clear; lia); auto;
        [ intros H; rewrite hdr_low by (clear -Hb; lia); eapply hdr_store;
          [rewrite b4 by (clear -Hb2; lia); rewrite hdr_low by (clear -Hb; lia); reflexivity|clear; lia| |reflexivity];
          change (zlen (be32 (N + 8))) with 4; change (zlen (be16 1)) with 2;
          change (zlen (be16 3)) with 2; clear; lia
        | clear -Hb; lia
        ] ]
  end.

Lemma step_host A (p p' : prog A) sh sh' t gb gh Q :
  advance false sh p = Some (sh', p', t) -> wp (duo_h false) p gh Q -> link gb gh sh ->
  exists gh', wp (duo_h false) p' gh' Q /\ link gb gh' sh' /\ g_tr gh' = g_tr gh ++ t.
Proof.
  intros Hadv Hwp HL. pose proof HL as (D1 & D2 & [K1 K2] & [K3 K4] & HSt). pose proof (up_cases _ _ _ HSt) as Hup.
  destruct (kstatus_bits _ Hup) as (B1 & B2 & B3 & B4). pose proof HSt as [b1 b2 b3 b4 b5 b6 b7 b8 b9 b10 b11 b12].
  assert (tst (kstatus (s_kcs sh)) ST_BMC_READY = true -> 2 <= g_ph gb) as R1.
  { rewrite B2, b3. clear. destruct (7 <=? g_ph gb) eqn:?; [lia|]. destruct (2 <=? g_ph gb) eqn:?; [lia|discriminate]. }
  assert (2 <= g_ph gb -> tst (kstatus (s_kcs sh)) ST_BMC_READY = true) as R2.
  { rewrite B2, b3. clear. intros H. destruct (7 <=? g_ph gb) eqn:?; [lia|]. destruct (2 <=? g_ph gb) eqn:?; [reflexivity|lia]. }
  assert (tst (kstatus (s_kcs sh)) ST_ACTIVE = true <-> 7 <= g_ph gb) as R3.
  { rewrite B3, b3. clear. destruct (7 <=? g_ph gb) eqn:?; [lia|]. destruct (2 <=? g_ph gb) eqn:?; split; intros; try discriminate; lia. }
  destruct p as [x|f|r k|r v k|off len k|off bs k|bs k|k|e k]; cbn [advance] in Hadv; try discriminate.
  - (* register read *)
    cbn [wp duo_h h_kread] in Hwp. destruct r; cbn [kread] in Hadv.
    + apply some3 in Hadv as (-> & -> & ->). destruct Hwp as [Hi Hwp]. cbn zeta in Hwp. destruct Hwp as (W0 & W1 & W2).
      specialize (K4 Hi). set (k' := mkKcs (k_idr (s_kcs sh)) _ _ false _).
      assert (unread false k' = unread false (s_kcs sh)) as E1 by reflexivity.
      assert (unread true k' = None) as E2 by reflexivity.
      change (k_odr (s_kcs sh)) with (fst (kread false KData (s_kcs sh))).
      assert (forall g', g_ph g' = g_ph gh -> g_rdy g' = g_rdy gh -> g_act g' = g_act gh -> g_neg g' = g_neg gh ->
                g_sent g' = g_sent gh -> (g_fin g' = true -> g_ph gb = 8) -> (g_fin g' = false -> g_ph gb <> 8) ->
                stage gb g' (mkShared k' (s_mem sh))) as Hst'.
      { intros g' Ep Er Ea En Es Ef Ef'. constructor; proj; rewrite ?E1, ?E2, ?Ep, ?Er, ?Ea, ?En, ?Es; try assumption.
        destruct (g_fin g'); [left; reflexivity|]. specialize (Ef' eq_refl).
        destruct (g_ph gb <? 3); [reflexivity|]. destruct (g_ph gb <? 8) eqn:E; [left; reflexivity|].
        clear -E Ef' b1. lia. }
      assert (unread true (s_kcs sh) = Some 255 \/
              (g_fin gh = true /\ (unread true (s_kcs sh) = Some 1 \/ unread true (s_kcs sh) = Some 2))) as Hc.
      { destruct (g_fin gh); [|destruct (g_ph gb <? 3); [congruence|destruct (g_ph gb <? 8)]].
        - destruct b12 as [H|[H|[H|H]]]; [congruence|auto..].
        - destruct b12; [congruence|auto].
        - auto. }
      destruct Hc as [Hc|(Hf & [Hc|Hc])]; rewrite Hc in *.
      * rewrite (kread_unread false _ 255) by exact Hc.
        assert (g_fin gh = true \/ g_ph gb <> 8 \/ (g_fin gh = false /\ g_ph gb = 8)) as Hcase
          by (destruct (g_fin gh); [auto|destruct (Z.eq_dec (g_ph gb) 8); auto]).
        assert (forall g', g_tx g' = g_tx gh -> g_rx g' = g_rx gh -> g_dl g' = g_dl gh -> g_oe g' = g_oe gh -> g_if g' = false ->
          offered (g_tr g') = offered (g_tr gh) -> received (g_tr g') = received (g_tr gh) ->
          stage gb g' (mkShared k' (s_mem sh)) -> link gb g' (mkShared k' (s_mem sh))) as Hl.
        { intros g' A1 A2 A3 A4 A5 A6 A7 A8. split; [|split; [|split; [|split]]]; cbn [s_kcs s_mem]; rewrite ?E1, ?E2.
          - apply dir_us with (us := Some 255); try discriminate. eapply dir_ext; [..|exact D1]; auto.
          - apply dir_ur with (ur := Some 255); try discriminate. eapply dir_ext; [..|exact D2]; auto.
          - split; [auto|exact K2].
          - split; rewrite ?A4, ?A5; [exact K3|discriminate].
          - exact A8. }
        destruct Hcase as [Hf|[Hb|[Hf Hb]]].
        -- eexists. split; [exact W0|]. split; [|reflexivity]. apply Hl; try tra. apply Hst'; try tra; proj; [exact b8|congruence].
        -- eexists. split; [exact W0|]. split; [|reflexivity]. apply Hl; try tra. apply Hst'; try tra; proj; [exact b8|auto].
        -- eexists. split; [exact W1|]. split; [|reflexivity]. apply Hl; try tra. apply Hst'; try tra; proj; [auto|discriminate].
      * rewrite (kread_unread false _ 1) by exact Hc. destruct (W2 Hf) as [Wa _].
        destruct (dir_take _ _ _ _ _ D1) as (Er & p & Gp & Hd).
        eexists. split; [exact (Wa Er p Gp)|]. split; [|reflexivity].
        split; [|split; [|split; [|split]]]; cbn [s_kcs s_mem]; rewrite ?E1, ?E2.
        -- apply Hd; tra.
        -- eapply dir_ur with (ur := Some 1); try discriminate. same D2.
        -- split; [auto|exact K2].
        -- split; proj; [exact K3|discriminate].
        -- apply Hst'; try tra; proj; [exact b8|congruence].
      * rewrite (kread_unread false _ 2) by exact Hc. destruct (W2 Hf) as [_ Wb].
        edestruct (dir_back _ _ _ (log (sx (sif gh false) TFree) [EvKRead KData (Some 2)]) _ _ D2) as (Et & Hd).
        eexists. split; [exact (Wb Et)|]. split; [|reflexivity].
        split; [|split; [|split; [|split]]]; cbn [s_kcs s_mem]; rewrite ?E1, ?E2.
        -- eapply dir_us with (us := Some 2); try discriminate. same D1.
        -- apply Hd; tra.
        -- split; [auto|exact K2].
        -- split; proj; [exact K3|discriminate].
        -- apply Hst'; try tra; proj; [exact b8|congruence].
    + apply some3 in Hadv as (-> & -> & ->).
      eexists. split; [apply (Hwp _ B1)|split; [|reflexivity]].
      * rewrite B4. intros Ho. now rewrite (K3 Ho).
      * unfold iflag. rewrite B4. intros Hi. specialize (K4 Hi). cbn [negb].
        destruct (unread true (s_kcs sh)); [reflexivity|congruence].
      * intros _. split; [auto|]. split; [|split; [|split]].
        -- intros H. apply R3. destruct (g_act gh); [auto|]. destruct (g_fin gh); [|discriminate].
           rewrite (b8 eq_refl). clear. lia.
        -- intros H. apply R2. apply R3 in H. clear -H. lia.
        -- intros H. destruct (tst (kstatus (s_kcs sh)) ST_ACTIVE) eqn:E; [|reflexivity].
           assert (7 <= g_ph gb) as H7 by (apply R3; reflexivity).
           assert (g_ph gh = 4) as H8 by (apply b10; clear -H7; lia). clear -H H8. lia.
        -- intros Hf Hs. rewrite B4. rewrite (b8 Hf) in b11. change (8 <? 4) with false in b11; cbn iota in b11. destruct b11 as [E|[E _]]; [now rewrite E|congruence].
      * destruct sh as [kk mm]. cbn [s_kcs s_mem] in *.
        eapply link_host; [exact HL|..]; try tra.
        -- split; proj.
           ++ rewrite B4. intros Ho. destruct (unread false kk); [|reflexivity].
              destruct (g_oe gh); [exact (K3 eq_refl)|discriminate].
           ++ unfold iflag. rewrite B4. cbn [negb]. intros Hi. destruct (unread true kk); [discriminate|].
              destruct (g_if gh); [exact (K4 eq_refl)|discriminate].
        -- constructor; proj; try assumption.
           ++ intros H. destruct (g_rdy gh); auto.
           ++ intros H. destruct (g_act gh); [auto|]. apply R3. exact H.
           ++ intros H. rewrite (b9 H). reflexivity.
  - (* register write *)
    cbn [wp duo_h h_kwrite] in Hwp. apply some3 in Hadv as (-> & -> & ->). destruct r; [|destruct Hwp as [H _]; discriminate].
    assert (forall kk, unread false (kwrite false KData v kk) = Some v) as E1 by reflexivity.
    assert (forall kk, unread true (kwrite false KData v kk) = unread true kk) as E2 by reflexivity.
    assert (forall kk, k_up (kwrite false KData v kk) = k_up kk) as E3 by reflexivity.
    destruct Hwp as [(_ & H & _)|[(-> & _ & Hph & W)|(Ho & [Hph Hact] & Hw)]]; [discriminate| |].
    + (* Initialise *)
      assert (g_ph gb < 4) as Hb by (destruct (Z.le_gt_cases 4 (g_ph gb)) as [H|H]; [specialize (b10 H); clear -b10 Hph; lia|exact H]).
      replace (g_ph gb <? 4) with true in b11 by (clear -Hb; lia). rewrite Hph in b11. change (3 =? 4) with false in b11; cbn iota in b11. rewrite b11 in *.
      assert (2 <= g_ph gb) as Hb2 by (apply b5, b9; clear -Hph; lia).
      eexists. split; [exact W|]. split; [|reflexivity].
      split; [|split; [|split; [|split]]]; cbn [s_kcs s_mem]; rewrite ?E1, ?E2.
      * eapply dir_ur with (ur := None); try discriminate. same D1.
      * eapply dir_us with (us := None); try discriminate. same D2.
      * split; [exact K1|discriminate].
      * split; proj; [discriminate|exact K4].
      * constructor; proj; rewrite ?E1, ?E2, ?E3; try assumption; try (clear; lia).
        -- intros H. rewrite Hph in b4. rewrite (b4 H). rewrite !(hdr_low _ (g_ph gb)) by (clear -Hb; lia). reflexivity.
        -- intros _. apply b9. clear -Hph; lia.
        -- replace (g_ph gb <? 4) with true by (clear -Hb; lia). reflexivity.
    + specialize (K3 Ho). rewrite K3 in *.
      assert (7 <= g_ph gb) as Hb.
      { destruct (g_act gh); [auto|]. destruct (g_fin gh); [|discriminate]. rewrite (b8 eq_refl). clear. lia. }
      assert (forall g', g_ph g' = g_ph gh -> g_rdy g' = g_rdy gh -> g_act g' = g_act gh -> g_neg g' = g_neg gh ->
                g_fin g' = g_fin gh -> g_sent g' = true -> (v = 1 \/ v = 2) ->
                stage gb g' (mkShared (kwrite false KData v (s_kcs sh)) (s_mem sh))) as Hst'.
      { intros g' Ep Er Ea En Ef Es Hv. constructor; proj; rewrite ?E1, ?E2, ?E3, ?Ep, ?Er, ?Ea, ?En, ?Es, ?Ef; try assumption.
        replace (g_ph gb <? 4) with false by (clear -Hb; lia). right. split; [reflexivity|].
        destruct Hv as [-> | ->]; auto. }
      destruct Hw as [(-> & (p & Ht) & W)|(-> & Hr & W)].
      * eexists. split; [exact W|]. split; [|reflexivity].
        split; [|split; [|split; [|split]]]; cbn [s_kcs s_mem]; rewrite ?E1, ?E2.
        -- eapply dir_ur with (ur := None); try discriminate. same D1.
        -- eapply dir_begin; [exact D2|exact Ht|tra|tra].
        -- split; [exact K1|discriminate].
        -- split; proj; [discriminate|exact K4].
        -- apply Hst'; try tra; auto.
      * eexists. split; [exact W|]. split; [|reflexivity].
        split; [|split; [|split; [|split]]]; cbn [s_kcs s_mem]; rewrite ?E1, ?E2.
        -- eapply dir_complete; [exact D1|exact Hr|tra..].
        -- eapply dir_us with (us := None); try discriminate. same D2.
        -- split; [exact K1|discriminate].
        -- split; proj; [discriminate|exact K4].
        -- apply Hst'; try tra; auto.
  - (* window read *)
    assert (forall g', g_tx g' = g_tx gh -> g_rx g' = g_rx gh -> g_dl g' = g_dl gh -> g_oe g' = g_oe gh -> g_if g' = g_if gh ->
          g_ph g' = g_ph gh -> g_rdy g' = g_rdy gh -> g_act g' = g_act gh -> g_fin g' = g_fin gh -> g_sent g' = g_sent gh ->
          (g_neg g' = true -> 6 <= g_ph gb) ->
          offered (g_tr g') = offered (g_tr gh) -> received (g_tr g') = received (g_tr gh) -> link gb g' sh) as Hl.
    { intros g' A1 A2 A3 A4 A5 Ap Ar Aa Af As An A6 A7. eapply link_host; [exact HL|..]; auto.
      - split; rewrite ?A4, ?A5; assumption.
      - constructor; rewrite ?Ap, ?Ar, ?Aa, ?Af, ?As; assumption. }
    cbn [wp duo_h h_lread] in Hwp.
    destruct Hwp as [(p & Hr & -> & -> & W)|[(p & Hr & -> & -> & Hdl & W)|[(H & _)|
      [(_ & -> & -> & Hrd & Hph & W)|[(_ & -> & -> & Hn & W)|(_ & -> & -> & Hph & W0 & W1)]]]]]; try discriminate.
    + destruct (dir_got _ _ _ _ _ _ _ D1 Hr) as [[C1 C2] [[G1 G2] _]].
      change (rxo false) with (txo true) in *.
      assert (in_window (txo true) 4 = true) as Hin by reflexivity.
      rewrite Hin in Hadv. apply some3 in Hadv as (-> & -> & ->). rewrite C1. eexists. split; [exact W|]. split; [|reflexivity].
      apply Hl; try tra; exact b7.
    + destruct (dir_got _ _ _ _ _ _ _ D1 Hr) as [[C1 C2] [[G1 G2] _]].
      change (rxo false) with (txo true) in *.
      assert (in_window (txo true + 4) (zlen (enc p)) = true) as Hin
        by (rewrite enc_len; unfold in_window, LPC_WIN_SIZE, txo; clear -HN HS G1 G2; lia).
      rewrite Hin in Hadv. apply some3 in Hadv as (-> & -> & ->). rewrite C2. eexists. split; [exact W|]. split; [|reflexivity].
      destruct sh as [kk mm]. cbn [s_kcs s_mem] in *.
      split; [|split; [|split; [|split]]]; cbn [s_kcs s_mem].
      * eapply dir_read; [exact D1|exact Hr|exact Hdl|tra..].
      * same D2.
      * split; assumption.
      * split; proj; assumption.
      * constructor; proj; assumption.
    + change (in_window 0 32) with true in Hadv. apply some3 in Hadv as (-> & -> & ->). specialize (b5 Hrd).
      assert (g_ph gb < 4) as Hb by (destruct (Z.le_gt_cases 4 (g_ph gb)) as [H|H]; [specialize (b10 H); clear -b10 Hph; lia|exact H]).
      rewrite b4 by (clear -b5; lia). rewrite Hph, hdr_low by (clear -Hb; lia).
      eexists. split; [exact W|]. split; [|reflexivity]. apply Hl; try tra; exact b7.
    + change (in_window 0 32) with true in Hadv. apply some3 in Hadv as (-> & -> & ->). specialize (b7 Hn).
      rewrite b4 by (clear -b7; lia). rewrite b10 by (clear -b7; lia). rewrite hdr_high by exact b7.
      eexists. split; [exact W|]. split; [|reflexivity]. apply Hl; try tra. auto.
    + change (in_window 12 2) with true in Hadv. apply some3 in Hadv as (-> & -> & ->).
      assert (2 <= g_ph gb) as Hb2 by (apply b5, b9; clear -Hph; lia).
      assert (cells (s_mem sh) 12 2 = (if 6 <=? g_ph gb then be16 3 else be16 0)) as Hc.
      { change 12 with (0 + 12). rewrite (cells_sub _ 0 32 12 2) by (clear; lia).
        rewrite b4 by (clear -Hb2; lia). rewrite Hph. unfold hdr_of. destruct (6 <=? g_ph gb); reflexivity. }
      rewrite Hc. destruct (6 <=? g_ph gb) eqn:E6.
      * eexists. split; [exact W1|]. split; [|reflexivity]. apply Hl; try tra. intros _. clear -E6. lia.
      * eexists. split; [apply W0|]. 2: split; [|reflexivity]; apply Hl; try tra; exact b7.
        destruct (g_act gh); [specialize (b6 eq_refl); clear -b6 E6; lia|].
        destruct (g_fin gh); [specialize (b8 eq_refl); clear -b8 E6; lia|].
        destruct (g_neg gh); [specialize (b7 eq_refl); clear -b7 E6; lia|]. reflexivity.
  - (* window write *)
    cbn [wp duo_h h_lwrite] in Hwp.
    destruct Hwp as [(p & Ht & -> & -> & W)|[(p & Ht & -> & -> & W)|[(H & _)|
      [(H & _)|[(H & _)|[(_ & -> & -> & Hph & Hrd & W)|[(_ & -> & -> & Hph & W)|(_ & -> & -> & Hph & W)]]]]]]]; try discriminate.
    + pose proof D2 as Hg. unfold dir in Hg. cbn zeta in Hg. rewrite Ht in Hg. destruct Hg as (_ & _ & _ & _ & [G1 G2] & _).
      assert (in_window (txo false) (zlen (be32 (zlen p))) = true) as Hin
        by (change (zlen (be32 (zlen p))) with 4; unfold in_window, LPC_WIN_SIZE, txo; clear -HN HS G1 G2; lia).
      rewrite Hin in Hadv. apply some3 in Hadv as (-> & -> & ->).
      eexists. split; [exact W|]. split; [|reflexivity].
      split; [|split; [|split; [|split]]]; cbn [s_kcs s_mem].
      * eapply dir_store; [exact D1|tra..|]. change (zlen (be32 (zlen p))) with 4. unfold txo; clear -HN HS; lia.
      * eapply dir_len; [exact D2|exact Ht|tra..].
      * split; assumption.
      * split; proj; assumption.
      * constructor; proj; try assumption.
        all: intros Hx; rewrite cells_store_off; [auto|unfold txo; clear -HN HS; lia].
    + pose proof D2 as Hg. unfold dir in Hg. cbn zeta in Hg. rewrite Ht in Hg. destruct Hg as (_ & _ & _ & _ & [G1 G2] & _).
      assert (in_window (txo false + 4) (zlen (enc p)) = true) as Hin
        by (rewrite enc_len; unfold in_window, LPC_WIN_SIZE, txo; clear -HN HS G1 G2; lia).
      rewrite Hin in Hadv. apply some3 in Hadv as (-> & -> & ->).
      eexists. split; [exact W|]. split; [|reflexivity].
      split; [|split; [|split; [|split]]]; cbn [s_kcs s_mem].
      * eapply dir_store; [exact D1|tra..|]. rewrite enc_len. unfold txo; clear -HN HS G1 G2; lia.
      * eapply dir_full; [exact D2|exact Ht|tra..].
      * split; assumption.
      * split; proj; assumption.
      * constructor; proj; try assumption.
        all: intros Hx; rewrite cells_store_off; [auto|unfold txo; clear -HN HS; lia].
    + rename Hrd into Hrd0. assert (g_rdy gh = true) as Hrd by exact Hrd0. hostw b4 b5 b9 b10 b11 Hph Hrd D1 D2 W.
    + assert (g_rdy gh = true) as Hrd by (apply b9; clear -Hph; lia). hostw b4 b5 b9 b10 b11 Hph Hrd D1 D2 W.
    + assert (g_rdy gh = true) as Hrd by (apply b9; clear -Hph; lia). hostw b4 b5 b9 b10 b11 Hph Hrd D1 D2 W.
  - cbn [wp duo_h h_swrite] in Hwp. destruct Hwp.
  - cbn [wp duo_h h_alloc] in Hwp. apply some3 in Hadv as (-> & -> & ->). exists gh. split; [exact Hwp|].
    split; [exact HL|now rewrite app_nil_r].
  - (* emit *)
    cbn [wp duo_h h_emit] in Hwp. apply some3 in Hadv as (-> & -> & ->).
    assert (forall t, stage gb (log gh t) sh) as Hst' by (intros; constructor; proj; assumption).
    destruct e; try contradiction; try (eexists; split; [exact Hwp|]; split; [|reflexivity]; eapply link_host; [exact HL|..]; try tra; [split; proj; assumption|apply Hst']).
    + (* EvBusRx *)
      destruct Hwp as [Hd W]. eexists. split; [exact W|]. split; [|reflexivity].
      split; [|split; [|split; [|split]]]; cbn [s_kcs s_mem].
      * eapply dir_hand; [exact D1|exact Hd|tra..].
      * same D2.
      * split; assumption.
      * split; proj; assumption.
      * constructor; proj; assumption.
    + destruct Hwp as (Ht & G & W). eexists. split; [exact W|]. split; [|reflexivity].
      split; [|split; [|split; [|split]]]; cbn [s_kcs s_mem].
      * same D1.
      * eapply dir_offer; [exact D2|exact Ht|exact G|tra|tra].
      * split; assumption.
      * split; proj; assumption.
      * constructor; proj; assumption.
Qed.

(** ** The system *)
Definition gpick (gb gh : gst) (s : bool) : gst := if s then gb else gh.

Definition sys (Q : bool -> world astlpc -> gst -> Prop) (d : duo) (gb gh : gst) : Prop :=
  (forall s, wp (duo_h s) (d_prog d s) (gpick gb gh s) (Q s)) /\ link gb gh (d_sh d) /\
  (forall s, g_tr (gpick gb gh s) = d_tr d s).

Lemma runs_sys Q d d' : runs d d' -> (exists gb gh, sys Q d gb gh) -> exists gb gh, sys Q d' gb gh.
Proof.
  intros Hr H0. induction Hr as [d|s d d1 d2 Hr IH (sh & p & t & Ha & ->)]; [exact H0|].
  destruct (IH H0) as (gb & gh & W & L & T). destruct s.
  - destruct (step_bmc _ _ _ _ _ _ _ _ _ Ha (W true) L) as (g' & W' & L' & T'). exists g', gh.
    split; [|split; [exact L'|]]; intros [|]; cbn [gpick d_prog d_tr upd Bool.eqb].
    + exact W'.
    + exact (W false).
    + rewrite T'. f_equal. exact (T true).
    + exact (T false).
  - destruct (step_host _ _ _ _ _ _ _ _ _ Ha (W false) L) as (g' & W' & L' & T'). exists gb, g'.
    split; [|split; [exact L'|]]; intros [|]; cbn [gpick d_prog d_tr upd Bool.eqb].
    + exact (W true).
    + exact W'.
    + exact (T true).
    + rewrite T'. f_equal. exact (T false).
Qed.

End Inv.
