(** Spec: the vocabulary in which the core properties are stated.  It only
    mentions events an observer sees, the public configuration and the packets
    still queued. *)
From Coq Require Import Permutation.
From Verif Require Import Base Lists Prog PktBuf Core Walk CoreHist.

(** A legal history: the binding leaves alone the packets it does not settle,
    binding->start succeeds, sizes are sane, and after registration only traffic
    operations occur. *)
Record legal {B} (f : txfun B) (s : startfun B) (m : mode) (b0 b1 : binding B) (l : list (@op B))
  : Prop := mkLegal {
  lg_polite : polite f;
  lg_starts : starts s;
  lg_dims0 : dims_ok b0;
  lg_dims1 : dims_ok b1;
  lg_traffic : Forall (traffic m) l }.

(** Packets (identity, bytes) appended to the transmit queue of bus [i]. *)
Definition enqueued (i : bool) (tr : list event) : list (Z * list Z) :=
  flat_map (fun e => match e with
                     | EvEnq j n bs => if Bool.eqb i j then [(n, bs)] else []
                     | _ => [] end) tr.
(** Packets the binding of bus [i] accepted or rejected for good. *)
Definition settled (i : bool) (tr : list event) : list (Z * list Z) :=
  flat_map (fun e => match e with
                     | EvTxRet j n bs rc =>
                         if Bool.eqb i j && ((rc =? 0) || (rc =? - EMSGSIZE)) then [(n, bs)] else []
                     | _ => [] end) tr.
(** Packets still in the queue of bus [i]. *)
Definition queued {B} (w : world B) (i : bool) : list (Z * list Z) :=
  match m_busses (w_m w) with
  | BLive l =>
      match nth_error l (if i then 1 else 0)%nat with
      | Some b => map (fun p => (pk_id p, match pktbuf_bytes p with Some x => x | None => [] end)) (bus_q b)
      | None => []
      end
  | _ => []
  end.

(** The argument of the last mctp_binding_set_tx_enabled call on bus [i]. *)
Definition last_set (i : bool) (tr : list event) : option bool :=
  fold_left (fun acc e => match e with
                          | EvSetTx j b => if Bool.eqb i j then Some b else acc
                          | _ => acc end) tr None.

Definition allocs (tr : list event) : list Z :=
  flat_map (fun e => match e with EvAlloc n => [n] | _ => [] end) tr.
Definition frees (tr : list event) : list Z :=
  flat_map (fun e => match e with EvFree n => [n] | _ => [] end) tr.

(** Every event [e] of [tr] satisfies [P] with what happened before it. *)
Definition at_each (P : list event -> event -> Prop) (tr : list event) : Prop :=
  forall before e after, tr = before ++ e :: after -> P before e.

(** ** Reachable states *)

(** [reaches f s appl m b0 b1 w tr]: some legal history ends in state [w] with
    trace [tr]. *)
Definition reaches {B} (f : txfun B) (s : startfun B) (appl : event -> list txreq) (m : mode)
  (b0 b1 : binding B) (w : world B) (tr : list event) : Prop :=
  exists l e (n : nat), legal f s m b0 b1 l /\ env_ok no_oom e /\
                run e 0 [] (history f s appl m b0 b1 l) = Done w n tr.

(** The state of bus [i]: never enabled, enabled, disabled. *)
Definition bus_state_of {B} (w : world B) (i : bool) : option bus_state :=
  match m_busses (w_m w) with
  | BLive l => option_map bus_st (nth_error l (if i then 1 else 0)%nat)
  | _ => None
  end.

(** The source EID used by a bus. *)
Definition mode_eid (m : mode) : Z := match m with Endpoint e => e | Bridge => 0 end.

(** ** DSP0236 packetisation, stated on the packets *)

(** The fourth header byte: SOM, EOM, packet sequence number (2 bits), tag owner,
    message tag (3 bits). *)
Definition flags_byte (som eom : bool) (seq : Z) (to : bool) (tag : Z) : Z :=
  (if som then 128 else 0) + (if eom then 64 else 0) + seq * 16 + (if to then 8 else 0) + tag.

(** [pkts] is the packetisation of [msg] for the given MTU. *)
Definition packetised (ver src dest : Z) (to : bool) (tag mtu : Z) (msg : list Z)
  (pkts : list (list Z)) : Prop :=
  concat (map (skipn 4) pkts) = msg /\
  forall k p, nth_error pkts k = Some p ->
    let last := Nat.eqb (S k) (length pkts) in
    firstn 4 p = [ver mod 16; dest; src;
                  flags_byte (Nat.eqb k 0) last (Z.of_nat k mod 4) to tag] /\
    (if last then 1 <= zlen p - 4 <= mtu else zlen p - 4 = mtu).
