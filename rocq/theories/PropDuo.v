(** PropDuo: C34, C37, C38: the host and the BMC side of the astlpc binding against each
    other, under every interleaving of their register and window accesses. *)
From Verif Require Import Base Lists Prog PktBuf Core WP Walk CoreRel WalkCore CoreHist Crc Astlpc SpecAst AstBasic
  CrcSpan AstWalk PropAst AstDown TwoParty DuoInv DuoPast DuoWalk.

(** Both sides from power-on: nothing in the KCS registers, any window contents.  Each
    side registers its binding and then polls and transmits as its list says; its
    application, called for every message delivered, may transmit too. *)
Record party := mkParty { p_app : event -> list txreq; p_mtu : Z; p_eid : Z; p_calls : list aop }.
Definition duo_start (p : bool -> party) (idr odr : Z) (mem : Z -> Z) : duo :=
  mkDuo (mkShared (mkKcs idr odr false false 0) mem)
        (fun s => ast_history (p_app (p s)) s (p_mtu (p s)) (p_eid (p s)) (p_calls (p s)))
        (fun _ => []).

(** State [d] is reached by some interleaving. *)
Definition duo_reach (p : bool -> party) (d : duo) : Prop :=
  (forall s, Forall ast_traffic (p_calls (p s))) /\ usable_mtu (p_mtu (p true)) /\
  exists idr odr mem, runs (duo_start p idr odr mem) d.
(** The host's request can be met. *)
Definition compatible (p : bool -> party) : Prop :=
  64 <= p_mtu (p false) <= bmc_mtu (p_mtu (p true)).

Lemma bmc_mtu_range m : usable_mtu m -> 64 <= bmc_mtu m <= 524144.
Proof. unfold usable_mtu, bmc_mtu. destruct (m =? 0) eqn:E; lia. Qed.

Lemma link_start S N idr odr mem : link S N g0 g0 (mkShared (mkKcs idr odr false false 0) mem).
Proof.
  unfold link. cbn [s_kcs unread k_obf k_ibf s_mem]. split; [|split; [|split; [|split]]].
  - unfold dir. cbn. repeat split; discriminate.
  - unfold dir. cbn. repeat split; discriminate.
  - split; discriminate.
  - split; discriminate.
  - constructor; cbn; try lia; try discriminate; try reflexivity.
Qed.

Definition Fin_ok (p : bool -> party) (S N : Z) (s : bool) (w : world astlpc) (g : gst) : Prop :=
  if bd_bus (bnd w false) then Rest (p_app (p s)) S N s (p_mtu (p s)) (p_eid (p s)) (p_calls (p s)) w g
  else Forall mute_ev (g_tr g).

Lemma duo_inv p d : duo_reach p d -> compatible p ->
  let S := bmc_mtu (p_mtu (p true)) + 12 in let N := p_mtu (p false) + 4 in
  exists gb gh, sys S N (Fin_ok p S N) d gb gh.
Proof.
  intros (Hc & Hu & idr & odr & mem & Hr) Hm S N. pose proof (bmc_mtu_range _ Hu) as Hb. unfold compatible in Hm.
  assert (68 <= N) as HN by (unfold N; lia). assert (N + 8 <= S <= 524156) as HS by (unfold N, S; lia).
  apply (runs_sys S N HN HS _ _ _ Hr). exists g0, g0. split; [|split; [apply link_start|intros []; reflexivity]].
  intros [|]; cbn [duo_start d_prog gpick].
  - apply (wp_history (p_app (p true)) S N HN HS true (p_mtu (p true))); [|apply Hc]. split; [exact Hu|reflexivity].
  - apply (wp_history (p_app (p false)) S N HN HS false (p_mtu (p false))); [|apply Hc]. unfold N. lia.
Qed.

(** ** C38 *)

Lemma delivery_sys S N Q d gb gh : sys S N Q d gb gh -> forall s,
  exists rest, offered (d_tr d s) = received (d_tr d (negb s)) ++ rest /\ zlen rest <= 2.
Proof.
  intros (W & (L1 & L2 & _) & T) s.
  assert (forall us ur gs gr m o, dir N us ur gs gr m o ->
     exists rest, offered (g_tr gs) = received (g_tr gr) ++ rest /\ zlen rest <= 2) as Hdir.
  { intros us ur gs gr m o Hx. unfold dir in Hx. cbn zeta in Hx.
    assert (exists l, zlen l <= 1 /\ offered (g_tr gs) = (received (g_tr gr) ++ out (g_dl gr)) ++ l) as (l & Hl & E).
    { destruct (g_tx gs).
      - destruct (g_rx gr).
        + destruct Hx as [(_ & _ & p0 & _ & _ & E)|(_ & _ & E)]; [exists [p0]|exists []; rewrite app_nil_r]; cbn; split; auto; lia.
        + destruct Hx as (_ & _ & _ & _ & E). eexists [_]. split; [|exact E]. cbn; lia.
        + destruct Hx as (_ & _ & E). exists []. rewrite app_nil_r. split; [cbn; lia|exact E].
      - destruct Hx as (_ & _ & _ & E). exists []. rewrite app_nil_r. split; [cbn; lia|exact E].
      - destruct Hx as (_ & _ & _ & E & _). eexists [_]. split; [|exact E]. cbn; lia.
      - destruct Hx as (_ & _ & _ & E & _). eexists [_]. split; [|exact E]. cbn; lia.
      - destruct Hx as (_ & _ & _ & E & _). eexists [_]. split; [|exact E]. cbn; lia. }
    exists (out (g_dl gr) ++ l). split; [now rewrite app_assoc|]. rewrite zlen_app.
    destruct (g_dl gr); cbn [out]; unfold zlen in *; cbn [length]; lia. }
  destruct s; cbn [negb].
  - rewrite <- (T true), <- (T false). exact (Hdir _ _ _ _ _ _ L1).
  - rewrite <- (T true), <- (T false). exact (Hdir _ _ _ _ _ _ L2).
Qed.

(** At every moment the packets each side has handed to its core are, byte for byte and
    in order, the first of the packets the other side's core has given to its binding to
    transmit; at most two are missing, one in the shared buffer and one on its way from
    the buffer to the core. *)
Theorem C38_delivery p d : duo_reach p d -> compatible p -> forall s,
  exists rest, offered (d_tr d s) = received (d_tr d (negb s)) ++ rest /\ zlen rest <= 2.
Proof. intros Hd Hc. destruct (duo_inv p d Hd Hc) as (gb & gh & HY). exact (delivery_sys _ _ _ _ _ _ HY). Qed.

(** Nothing either side does is out of bounds, trips an assertion, or is otherwise a fault. *)
Theorem C38_no_fault p d : duo_reach p d -> compatible p -> forall s f, d_prog d s <> Flt f.
Proof.
  intros Hd Hc s f E. destruct (duo_inv p d Hd Hc) as (gb & gh & W & _).
  specialize (W s). rewrite E in W. exact W.
Qed.

(** ** C37 *)

(** What a side about to access a window byte knows. *)
Definition may (S N : Z) (bmc : bool) (g : gst) (wr : bool) (x : Z) : Prop :=
  if wr then
    (exists p, (g_tx g = TPend p \/ g_tx g = TLen p) /\ txo S bmc <= x < txo S bmc + 4 + zlen (enc p)) \/
    (if bmc then 0 <= x < 32 /\ (g_ph g = 0 \/ (g_ph g = 4 /\ 16 <= x) \/ (g_ph g = 5 /\ 12 <= x < 14))
     else 0 <= x < 32 /\ g_ph g < 4 /\ (g_rdy g = true \/ 1 <= g_ph g))
  else
    (exists p, g_rx g = RGot p /\ rxo S bmc <= x < rxo S bmc + 4 + zlen (enc p)) \/
    (if bmc then 0 <= x < 32 /\ g_ph g = 4
     else 0 <= x < 32 /\ ((g_rdy g = true /\ g_ph g = 0) \/ g_neg g = true \/ (12 <= x < 14 /\ g_ph g = 4))).

Lemma enc_len p : zlen (enc p) = zlen p + 4.
Proof. unfold enc. rewrite zlen_app. reflexivity. Qed.

Lemma may_access S N bmc (pr : prog (world astlpc)) g Q wr x :
  wp (duo_h S N bmc) pr g Q -> touches pr wr x -> may S N bmc g wr x.
Proof.
  intros W T. destruct pr; cbn [touches] in T; try contradiction; destruct T as [-> T];
    cbn [wp duo_h h_lread h_lwrite] in W; unfold may.
  - destruct W as [(p & A & -> & -> & _)|[(p & A & -> & -> & _)|[(-> & -> & -> & C & _)|
      [(-> & -> & -> & C & D & _)|[(-> & -> & -> & C & _)|(-> & -> & -> & C & _)]]]]].
    + left. exists p. split; [exact A|]. pose proof (zlen_pos _ (enc p)). lia.
    + left. exists p. split; [exact A|]. lia.
    + right. split; [lia|exact C].
    + right. split; [lia|]. left. auto.
    + right. split; [lia|]. right. left. exact C.
    + right. split; [lia|]. right. right. split; [lia|exact C].
  - destruct W as [(p & A & -> & -> & _)|[(p & A & -> & -> & _)|[(-> & -> & -> & C & _)|[(-> & -> & -> & C & _)|
      [(-> & -> & -> & C & _)|[(-> & -> & -> & C & D & _)|[(-> & -> & -> & C & _)|(-> & -> & -> & C & _)]]]]]]].
    + left. exists p. split; [auto|]. pose proof (zlen_pos _ (enc p)). change (zlen (be32 (zlen p))) with 4 in T. lia.
    + left. exists p. split; [auto|]. lia.
    + right. change (zlen (hdr_of S N 0 1)) with 32 in T. split; [lia|]. left. exact C.
    + right. change (zlen _) with 16 in T. split; [lia|]. right. left. split; [exact C|lia].
    + right. change (zlen _) with 2 in T. split; [lia|]. right. right. split; [exact C|lia].
    + right. change (zlen _) with 4 in T. split; [lia|]. split; [lia|auto].
    + right. change (zlen _) with 2 in T. split; [lia|]. split; [lia|right; lia].
    + right. change (zlen _) with 2 in T. split; [lia|]. split; [lia|right; lia].
Qed.

(** Two sides never use one buffer at the same time. *)
Lemma buffer_owner N us ur gs gr m o p q : dir N us ur gs gr m o ->
  g_tx gs = TPend p \/ g_tx gs = TLen p -> g_rx gr = RGot q -> False.
Proof.
  unfold dir. cbn zeta. intros D [E|E] R; rewrite E in D; destruct D as [D _]; congruence.
Qed.

Lemma may_range S N us ur gs gr m o us' ur' m' o' s x wr : 68 <= N -> N + 8 <= S ->
  dir N us ur gs gr m o -> dir N us' ur' gr gs m' o' -> may S N s gs wr x ->
  0 <= x < 32 \/
  if wr then txo S s <= x < txo S s + S /\ (exists p, g_tx gs = TPend p \/ g_tx gs = TLen p)
  else rxo S s <= x < rxo S s + S /\ (exists p, g_rx gs = RGot p).
Proof.
  intros HN HS D D' M. unfold may in M. destruct wr; destruct M as [(p & A & B)|M].
  - right. rewrite enc_len in B. split; [|exists p; exact A].
    assert (good N p) as G by (unfold dir in D; cbn zeta in D; destruct A as [A|A]; rewrite A in D; tauto).
    destruct G as [G _]. clear -G B HS. lia.
  - left. destruct s; tauto.
  - right. rewrite enc_len in B. split; [|exists p; exact A].
    assert (good N p) as G.
    { unfold dir in D'; cbn zeta in D'. rewrite A in D'. destruct (g_tx gr); try tauto; destruct D' as [D' _]; discriminate. }
    destruct G as [G _]. clear -G B HS. lia.
  - left. destruct s; tauto.
Qed.

Lemma exclusive_sys S N Q d gb gh : 68 <= N -> N + 8 <= S <= 524156 -> sys S N Q d gb gh -> forall x wb wh,
  touches (d_prog d true) wb x -> touches (d_prog d false) wh x ->
  x < 256 /\ (wb = false /\ wh = false \/ (12 <= x < 14 /\ wb = true /\ wh = false)).
Proof.
  intros HN HS (W & L & _) x wb wh Hb Hh.
  pose proof (W true) as Wb. pose proof (W false) as Wh. cbn [gpick] in Wb, Wh. clear W.
  pose proof (may_access _ _ _ _ _ _ _ _ Wb Hb) as Mb. pose proof (may_access _ _ _ _ _ _ _ _ Wh Hh) as Mh.
  clear Wb Wh Hb Hh. destruct L as (D1 & D2 & _ & _ & [T1 T2 _ _ T5 T6 T7 _ T9 T10 _ _]).
  pose proof (may_range _ _ _ _ _ _ _ _ _ _ _ _ _ _ _ HN (proj1 HS) D1 D2 Mb) as Rb.
  pose proof (may_range _ _ _ _ _ _ _ _ _ _ _ _ _ _ _ HN (proj1 HS) D2 D1 Mh) as Rh.
  destruct Rb as [Rb|Rb].
  - assert (0 <= x < 32) as _ by exact Rb. split; [clear -Rb; lia|].
    assert (x < 256) as Hx by (clear -Rb; lia).
    unfold may, txo, rxo, txo in Mb, Mh. cbn [negb] in *.
    destruct wb; destruct Mb as [(q & _ & F)|(_ & Mb)]; [clear -F Hx HS HN; lia| |clear -F Hx HS HN; lia|];
    (destruct wh; destruct Mh as [(q & _ & F)|(_ & Mh)]; [clear -F Hx HS HN; lia| |clear -F Hx HS HN; lia|]).
    + exfalso. destruct Mh as (Mh & Mr).
      assert (g_rdy gh = true) as Hr by (destruct Mr; auto). specialize (T5 Hr).
      assert (g_ph gb < 4) as H4 by (destruct (Z.lt_ge_cases (g_ph gb) 4); [assumption|]; rewrite T10 in Mh by lia; discriminate).
      clear -Mb T5 H4. lia.
    + destruct Mb as [Mb|[(Mb & Mx)|(Mb & Mx)]].
      * exfalso. destruct Mh as [(A & _)|[A|A]].
        -- specialize (T5 A). clear -T5 Mb. lia.
        -- specialize (T7 A). clear -T7 Mb. lia.
        -- destruct A as [_ A]. specialize (T5 (T9 ltac:(clear -A; lia))). clear -T5 Mb. lia.
      * exfalso. destruct Mh as [(_ & A)|[A|A]].
        -- specialize (T10 ltac:(clear -Mb; lia)). clear -T10 A. lia.
        -- specialize (T7 A). clear -T7 Mb. lia.
        -- clear -A Mx. lia.
      * right. auto.
    + exfalso. destruct Mh as (Mh & _). specialize (T10 ltac:(clear -Mb; lia)). clear -T10 Mh. lia.
    + auto.
  - exfalso. assert (256 <= x) as Hx by (unfold txo, rxo, txo in Rb; destruct wb; cbn [negb] in Rb; clear -Rb HS HN; lia).
    destruct Rh as [Rh|Rh]; [clear -Rh Hx; lia|]. unfold rxo, txo in Rb, Rh.
    destruct wb, wh; cbn [negb] in Rb, Rh; destruct Rb as (Rb & q & Eb), Rh as (Rh & q' & Eh).
    + clear -Rb Rh. lia.
    + exact (buffer_owner _ _ _ _ _ _ _ _ _ D1 Eb Eh).
    + exact (buffer_owner _ _ _ _ _ _ _ _ _ D2 Eh Eb).
    + clear -Rb Rh. lia.
Qed.

(** The two sides never are about to access the same byte of the buffers, whatever the
    direction of the accesses; in the control space a byte they are both about to access
    is only being read, except for the negotiated version (bytes 12 and 13), which the
    host may read while the BMC writes it. *)
Theorem C37_exclusive p d : duo_reach p d -> compatible p -> forall x wb wh,
  touches (d_prog d true) wb x -> touches (d_prog d false) wh x ->
  x < 256 /\ (wb = false /\ wh = false \/ (12 <= x < 14 /\ wb = true /\ wh = false)).
Proof.
  intros Hd Hc. destruct (duo_inv p d Hd Hc) as (gb & gh & HY). refine (exclusive_sys _ _ _ _ _ _ _ _ HY).
  - unfold compatible in Hc. lia.
  - destruct Hd as (_ & Hu & _). pose proof (bmc_mtu_range _ Hu). unfold compatible in Hc. lia.
Qed.

(** A command is written only when the one before has been read, except that the dummy
    value may replace a dummy value. *)
Theorem C37_commands p d : duo_reach p d -> compatible p -> forall s v k,
  d_prog d s = KWrite KData v k ->
  unread s (s_kcs (d_sh d)) = None \/ (v = 255 /\ unread s (s_kcs (d_sh d)) = Some 255).
Proof.
  intros Hd Hc s v k E. destruct (duo_inv p d Hd Hc) as (gb & gh & W & (_ & _ & K1 & K2 & St) & _).
  specialize (W s). rewrite E in W. destruct St as [T1 T2 T3 T4 T5 T6 T7 T8 T9 T10 T11 T12].
  destruct s; cbn [gpick wp duo_h h_kwrite] in W.
  - destruct W as [(-> & _ & [[Hp _]|[Hp _]])|[(_ & F & _)|(Ho & _)]]; [| |discriminate|].
    + left. rewrite Hp in *. cbn in T12. destruct (g_fin gh); [|exact T12]. specialize (T8 eq_refl). lia.
    + rewrite Hp in *. cbn in T12. destruct (g_fin gh); [specialize (T8 eq_refl); lia|].
      destruct T12 as [T12|T12]; auto.
    + left. apply K1. exact Ho.
  - destruct W as [(_ & F & _)|[(-> & _ & Hp & _)|(Ho & _)]]; [discriminate| |].
    + left. rewrite Hp in *. cbn in T11. destruct (g_ph gb <? 4) eqn:E4; [exact T11|].
      assert (3 = 4) by (apply T10; clear -E4; lia). discriminate.
    + left. apply K2. exact Ho.
Qed.

(** ** C34 *)

(** A side that has returned from its calls with its bus enabled uses protocol version 3,
    packets of the size the host asked for, and the mirrored layout: two buffers of that
    size plus 8, the BMC's at 256 and the host's one BMC buffer size further on. *)
Theorem C34_agreement p d : duo_reach p d -> compatible p -> forall s w b,
  d_prog d s = Ret w -> bd_bus (bnd w false) = true -> bget w false = Some b -> bus_st b <> Constructed ->
  let mtu := p_mtu (p false) in
  let mine := if s then 256 else 256 + (bmc_mtu (p_mtu (p true)) + 12) in
  let yours := if s then 256 + (bmc_mtu (p_mtu (p true)) + 12) else 256 in
  bd_pkt_size (bnd w false) = mtu + 4 /\ a_proto (ast w false) = Some 3 /\
  ab_off (a_tx (ast w false)) = mine /\ ab_size (a_tx (ast w false)) = mtu + 12 /\
  ab_off (a_rx (ast w false)) = yours /\ ab_size (a_rx (ast w false)) = mtu + 12.
Proof.
  intros Hd Hc s w b E Hb Hg Hs mtu mine yours. destruct (duo_inv p d Hd Hc) as (gb & gh & W & _).
  specialize (W s). rewrite E in W. cbn [wp] in W. unfold Fin_ok in W. rewrite Hb in W. destruct W as (_ & _ & _ & _ & Ph).
  assert (ost w false <> Some Constructed) as Ho by (unfold ost; rewrite Hg; cbn; congruence).
  destruct Ph as [A0 A1|A0 A1|A1 A2 (L1 & L2 & L3 & L4) A4 A5 A6 A7]; [contradiction|contradiction|].
  unfold ast. cbn [bnd]. split; [exact A4|]. split; [exact A2|].
  rewrite L1, L2, L3, L4. unfold mine, yours, txo, rxo, txo, mtu. destruct s; cbn [negb]; repeat split; lia.
Qed.

(** A host that asks for less than 64 or for more than the BMC has published is refused
    when it registers, having written nothing. *)
Theorem C34_refused p d : duo_reach p d -> 0 <= p_mtu (p false) <= 2 ^ 32 - 13 -> ~ compatible p ->
  (forall f, d_prog d false <> Flt f) /\
  forall w, d_prog d false = Ret w -> bd_bus (bnd w false) = false /\
   let eid := p_eid (p false) in exists st,
   d_tr d false = [EvAttach false eid; EvKRead KStatus (Some st); EvDetach; EvRet (- EHOSTDOWN)] \/
   exists h, d_tr d false = [EvAttach false eid; EvKRead KStatus (Some st); EvLRead 0 h; EvLRead 0 h; EvDetach; EvRet (- EINVAL)].
Proof.
  intros (Hc & Hu & idr & odr & mem & Hr) Hm Hn. pose proof (bmc_mtu_range _ Hu) as Hb. unfold compatible in Hn.
  set (S := bmc_mtu (p_mtu (p true)) + 12).
  assert (68 <= 68) as HN by lia. assert (68 + 8 <= S <= 524156) as HS by (unfold S; lia).
  destruct (runs_sys S 68 HN HS (fun s w g => if s then True else bd_bus (bnd w false) = false /\ exists st,
     g_tr g = [EvAttach false (p_eid (p false)); EvKRead KStatus (Some st); EvDetach; EvRet (- EHOSTDOWN)] \/
     exists h, g_tr g = [EvAttach false (p_eid (p false)); EvKRead KStatus (Some st); EvLRead 0 h; EvLRead 0 h; EvDetach; EvRet (- EINVAL)])
     _ _ Hr) as (gb & gh & W & _ & T).
  { exists g0, g0. split; [|split; [apply link_start|intros []; reflexivity]].
    intros [|]; cbn [duo_start d_prog gpick].
    - eapply wp_mono; [apply duo_mono| |apply (wp_history (p_app (p true)) S 68 HN HS true (p_mtu (p true))); [|apply Hc]; split; [exact Hu|reflexivity]].
      intros; exact I.
    - apply (wp_refused (p_app (p false)) S 68 HN HS false (p_mtu (p false))); [reflexivity|exact Hm|unfold S; lia]. }
  split.
  - intros f E. specialize (W false). rewrite E in W. exact W.
  - intros w E. specialize (W false). rewrite E in W. cbn [wp gpick] in W. rewrite <- (T false). exact W.
Qed.
