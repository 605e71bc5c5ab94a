(** DuoPast: what one side of the astlpc channel has done so far, as a relation between
    the calls made, its state and its trace. *)
From Verif Require Import Base Lists Prog PktBuf Core WP Walk CoreRel WalkCore CoreHist Crc Astlpc SpecAst AstBasic
  AstWalk PropAst TwoParty DuoInv.

Local Notation world := (world astlpc).

(** Accesses to the KCS registers and to the window. *)
Definition wire_ev (e : event) : Prop :=
  match e with EvKRead _ _ | EvKWrite _ _ _ | EvLRead _ _ | EvLWrite _ _ => True | _ => False end.
(** The events of a successful registration. *)
Definition boot_ev (e : event) : Prop :=
  match e with EvAttach _ _ => True | _ => wire_ev e end.

(** The events of a failed registration. *)
Definition mute_ev (e : event) : Prop :=
  match e with EvDetach | EvRet _ => True | _ => boot_ev e end.

Definition nextw (w : world) : world := set_m w (set_next (w_m w) (m_next (w_m w) + 1)).

(** The calls that only set a field of the core. *)
Definition cfg (w : world) (o : aop) : option world :=
  match o with
  | ACore (OpSetMax n) => Some (set_m w (mctp_set_max_message_size (w_m w) n))
  | ACore (OpSetCapture b) => Some (set_m w (mctp_set_capture_handler (w_m w) b))
  | ACore (OpSetRx b) => Some (set_m w (mctp_set_rx_all (w_m w) b))
  | _ => None
  end.

(** Transmission has been enabled at least once. *)
Definition up (w : world) : bool := match ost w false with Some Constructed => false | _ => true end.

Section Past.
(** Whether the side is the BMC. *)
Variable bmc : bool.
Variable app : event -> list txreq.
Variable N : Z.
Variable eid : Z.

(** The boolean says whether a call of mctp_astlpc_poll is in progress. *)
Inductive past : bool -> list aop -> world -> list event -> Prop :=
| PastReg s mtu x t : Forall boot_ev t -> past false [] (registered s mtu eid x) (t ++ [EvRet 0])
| PastStart ops w tr : past false ops w tr -> past true ops w tr
| PastIo ops w tr t : past true ops w tr -> Forall wire_ev t -> past true ops w (tr ++ t)
| PastPut ops w tr x n : past true ops w tr -> WF (Upto N) (putb w x n) -> past true ops (putb w x n) tr
| PastSet ops w tr en t w' : past true ops w tr -> WF (Upto N) w ->
    (en = true -> bd_pkt_size (w_b0 w) = N) ->
    set_rel (Upto N) w false en t w' -> past true ops w' (tr ++ t)
| PastRx ops w tr x n io bs t w' : past true ops w tr -> WF (Upto N) (putb (nextw w) x n) ->
    Forall wire_ev io -> good N bs -> (bmc = true -> up w = true) ->
    rx_rel (Upto N) app (putb (nextw w) x n) false (m_next (w_m w)) bs t w' ->
    past true ops w' (tr ++ EvAlloc (m_next (w_m w)) :: io ++ t)
| PastPoll ops w tr rc : past true ops w tr -> past false (ops ++ [APoll false]) w (tr ++ [EvRet rc])
| PastTx ops w tr dest to tag msg rc t w' : past false ops w tr -> WF (Upto N) w ->
    message_rel (Upto N) w dest to tag msg rc t w' ->
    past false (ops ++ [ACore (OpTx dest to tag msg)]) w' (tr ++ t ++ [EvRet rc])
| PastCfg ops w tr o w' : past false ops w tr -> cfg w o = Some w' -> past false (ops ++ [o]) w' tr.

Lemma past1 ops w tr e : past true ops w tr -> wire_ev e -> past true ops w (tr ++ [e]).
Proof. intros Hp He. apply PastIo; [exact Hp|]. now constructor. Qed.
End Past.
