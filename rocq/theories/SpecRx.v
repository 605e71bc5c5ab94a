(** SpecRx: the vocabulary in which the reception properties are stated. *)
From Verif Require Import Base Prog Core CoreHist Spec.

(** ** The header of a received packet (DSP0236): version, destination, source,
    and SOM(1) EOM(1) sequence(2) TO(1) tag(3), from the most significant bit. *)
Definition h_dest (bs : list Z) : Z := nth 1 bs 0.
Definition h_src (bs : list Z) : Z := nth 2 bs 0.
Definition h_som (bs : list Z) : bool := Z.testbit (nth 3 bs 0) 7.
Definition h_eom (bs : list Z) : bool := Z.testbit (nth 3 bs 0) 6.
Definition h_seq (bs : list Z) : Z := (nth 3 bs 0 / 16) mod 4.
Definition h_to (bs : list Z) : bool := Z.testbit (nth 3 bs 0) 3.
Definition h_tag (bs : list Z) : Z := nth 3 bs 0 mod 8.
Definition payload (bs : list Z) : list Z := skipn 4 bs.

Global Arguments h_dest : simpl never. Global Arguments h_src : simpl never.
Global Arguments h_som : simpl never. Global Arguments h_eom : simpl never.
Global Arguments h_seq : simpl never. Global Arguments h_to : simpl never.
Global Arguments h_tag : simpl never. Global Arguments payload : simpl never.

(** What identifies a message under assembly. *)
Definition key : Type := (Z * Z * Z)%type.   (* source, destination, tag *)
Definition h_key (bs : list Z) : key := (h_src bs, h_dest bs, h_tag bs).
Definition key_eqb (a b : key) : bool :=
  let '(a1, a2, a3) := a in let '(b1, b2, b3) := b in (a1 =? b1) && (a2 =? b2) && (a3 =? b3).

(** An EID this endpoint takes packets for; a bridge ([None]) takes all. *)
Definition for_us (local : option Z) (dest : Z) : bool :=
  match local with
  | None => true
  | Some eid => (dest =? eid) || (dest =? 0) || (dest =? 255)
  end.

(** The packets of a trace that take part in reassembly at all: they have a
    payload and are addressed to this node. *)
Definition taken (local : option Z) (bs : list Z) : bool :=
  (4 <? zlen bs) && for_us local (h_dest bs).
Definition considered (e : event) : list (list Z) :=
  match e with
  | EvBusRx _ lo _ bs => if taken lo bs then [bs] else []
  | _ => []
  end.
Definition rx_log (tr : list event) : list (list Z) := flat_map considered tr.

(** The packets of multi-packet messages with a given key. *)
Definition keyed (k : key) (log : list (list Z)) : list (list Z) :=
  filter (fun bs => key_eqb (h_key bs) k && negb (h_som bs && h_eom bs)) log.

(** Sequence numbers go up by one modulo 4. *)
Definition consecutive (pk : list (list Z)) : Prop :=
  forall n a b, nth_error pk n = Some a -> nth_error pk (S n) = Some b ->
                h_seq b = (h_seq a + 1) mod 4.

(** [first :: mids] is the beginning of a multi-packet message. *)
Definition opened (first : list Z) (mids : list (list Z)) : Prop :=
  h_som first = true /\ h_eom first = false /\
  Forall (fun p => h_som p = false /\ h_eom p = false /\ zlen p = zlen first) mids.

(** [pk] is a whole multi-packet message with contents [msg]. *)
Definition whole (pk : list (list Z)) (msg : list Z) : Prop :=
  exists first mids last,
    pk = first :: mids ++ [last] /\ opened first mids /\
    h_som last = false /\ h_eom last = true /\ zlen last <= zlen first /\
    consecutive pk /\ msg = concat (map payload pk).

(** ** Deliveries *)

(** The complete messages of a trace and the callback that follows each. *)
Record delivery := mkDel {
  d_src : Z; d_dest : Z; d_to : bool; d_tag : Z; d_msg : list Z; d_cb : option event }.
Definition callback_of (t : list event) : option event :=
  match t with
  | (EvRx _ _ _ _ as e) :: _ | (EvCtrl _ _ _ _ _ as e) :: _ => Some e
  | _ => None
  end.
Fixpoint deliveries (t : list event) : list delivery :=
  match t with
  | [] => []
  | EvMsg _ s d to tag msg :: r => mkDel s d to tag msg (callback_of r) :: deliveries r
  | _ :: r => deliveries r
  end.
Definition d_key (d : delivery) : key := (d_src d, d_dest d, d_tag d).

(** Every run of the application's or a control handler. *)
Definition is_callback (e : event) : bool :=
  match e with EvRx _ _ _ _ | EvCtrl _ _ _ _ _ => true | _ => false end.

(** The packet most recently handed to mctp_bus_rx. *)
Definition last_rx (tr : list event) : option (bool * option Z * list Z) :=
  fold_left (fun acc e => match e with EvBusRx i lo _ bs => Some (i, lo, bs) | _ => acc end) tr None.

(** A message handed over with these parameters is accounted for by the packets
    received: it was completed by the packet just received, and is either that
    packet's payload, or the payload of a run of packets with that key. *)
Definition explained (before : list event) (i : bool) (src dest : Z) (to : bool) (tag : Z)
  (msg : list Z) : Prop :=
  exists lo bs, last_rx before = Some (i, lo, bs) /\ taken lo bs = true /\
    src = h_src bs /\ dest = h_dest bs /\ to = h_to bs /\ tag = h_tag bs /\ h_eom bs = true /\
    (h_som bs = true -> msg = payload bs) /\
    (h_som bs = false -> src <> 0 ->
       exists old pk, keyed (src, dest, tag) (rx_log before) = old ++ pk /\ whole pk msg).

(** ** The messages under assembly in a state *)
Definition partials {B} (w : world B) : list (key * list Z) :=
  flat_map (fun c => if c_src c =? 0 then [] else [((c_src c, c_dest c, c_tag c), c_data c)])
           (m_ctxs (w_m w)).
(** Their memory. *)
Definition buffer_sizes {B} (w : world B) : list Z := map c_alloc (m_ctxs (w_m w)).

(** The local EID of a node. *)
Definition mode_local (m : mode) : option Z :=
  match m with Endpoint e => Some e | Bridge => None end.

(** The bytes of a packet buffer given to mctp_bus_rx. *)
Definition pkt_is (p : PktBuf.pktbuf) (bs : list Z) : Prop := PktBuf.pktbuf_bytes p = Some bs.

(** Whenever a packet [bs] is received the message size limit [n] in force
    satisfies [P n bs].  The limit is [cur] to begin with. *)
Fixpoint limited {B} (P : Z -> list Z -> Prop) (cur : Z) (l : list (@op B)) : Prop :=
  match l with
  | [] => True
  | OpSetMax n :: t => limited P n t
  | OpRx _ p :: t => (forall bs, pkt_is p bs -> P cur bs) /\ limited P cur t
  | _ :: t => limited P cur t
  end.

(** The packets with key [k] received during [l]. *)
Definition packets_for {B} (local : option Z) (k : key) (l : list (@op B)) : list (list Z) :=
  flat_map (fun o => match o with
                     | OpRx _ p =>
                         match PktBuf.pktbuf_bytes p with
                         | Some bs => if taken local bs && key_eqb (h_key bs) k then [bs] else []
                         | None => []
                         end
                     | _ => []
                     end) l.
(** No change of configuration during [l]. *)
Definition no_config {B} (l : list (@op B)) : Prop :=
  Forall (fun o => match o with OpSetMax _ | OpSetRx _ => False | _ => True end) l.
(** The deliveries of a trace with key [k]. *)
Definition deliveries_for (k : key) (t : list event) : list delivery :=
  filter (fun d => key_eqb (d_key d) k) (deliveries t).

(** Reachable by a history whose operations satisfy [P]. *)
Definition reaches_by {B} (P : list (@op B) -> Prop) (f : txfun B) (s : startfun B)
  (appl : event -> list txreq) (m : mode) (b0 b1 : binding B) (w : world B) (tr : list event) : Prop :=
  exists l e (n : nat), legal f s m b0 b1 l /\ P l /\ env_ok no_oom e /\
                run e 0 [] (history f s appl m b0 b1 l) = Done w n tr.

(** ** Control messages (DSP0236): at least the 3-byte control header and one more
    byte, type 0, request bit set, command in the transport range. *)
Definition transport_request (msg : list Z) : bool :=
  (4 <=? zlen msg) && (nth 0 msg 0 =? 0) && Z.testbit (nth 1 msg 0) 7 &&
  (240 <=? nth 2 msg 0) && (nth 2 msg 0 <=? 255).
