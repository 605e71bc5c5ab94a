(** SpecLive: sessions of the host and the BMC side of the astlpc channel in which every
    side decides at any time what to call next, and the vocabulary of the statements
    about progress. *)
From Verif Require Import Base Lists Prog PktBuf Core CoreHist Spec Crc Astlpc SpecAst PropAst TwoParty PropDuo.

(** A party that has made one more call. *)
Definition more (q : party) (o : aop) : party := mkParty (p_app q) (p_mtu q) (p_eid q) (p_calls q ++ [o]).

(** Side [s], which has returned from its calls with the core and binding in state [w],
    makes call [o]. *)
Definition begin_call (s : bool) (w : world astlpc) (o : aop) (p : bool -> party) (d : duo) : duo :=
  mkDuo (d_sh d) (upd (d_prog d) s (aexec_op (p_app (p s)) w o)) (d_tr d).

(** What can happen from one moment to another: accesses of the two sides in any order, and
    new calls (of mctp_astlpc_poll, mctp_message_tx and the setters) of a side that is not
    in a call. *)
Inductive moves (p : bool -> party) (d : duo) : (bool -> party) -> duo -> Prop :=
| MvRefl : moves p d p d
| MvStep s p1 d1 d2 : moves p d p1 d1 -> dstep s d1 d2 -> moves p d p1 d2
| MvCall s o w p1 d1 : moves p d p1 d1 -> d_prog d1 s = Ret w -> bd_bus (bnd w false) = true ->
    ast_traffic o -> moves p d (upd p1 s (more (p1 s) o)) (begin_call s w o p1 d1).

(** From power-on (PropDuo.duo_start); [p_calls] are the calls made so far. *)
Definition session (p : bool -> party) (d : duo) : Prop :=
  exists p0 idr odr mem, (forall s, p_calls (p0 s) = []) /\ usable_mtu (p_mtu (p0 true)) /\
    moves p0 (duo_start p0 idr odr mem) p d.

(** The bus of a side has been enabled for transmission. *)
Definition enabled (d : duo) (s : bool) : Prop := In (EvSetTx false true) (d_tr d s).

(** In between, side [s] makes a call of mctp_astlpc_poll and returns from it. *)
Definition whole_poll (s : bool) (p1 : bool -> party) (d1 : duo) (p2 : bool -> party) (d2 : duo) : Prop :=
  exists pa da wa pb db wb, moves p1 d1 pa da /\ d_prog da s = Ret wa /\ bd_bus (bnd wa false) = true /\
    moves (upd pa s (more (pa s) (APoll false))) (begin_call s wa (APoll false) pa da) pb db /\
    d_prog db s = Ret wb /\ p_calls (pb s) = p_calls (pa s) ++ [APoll false] /\
    moves pb db p2 d2.

(** [n] periods one after the other, in each of which both sides make a whole poll. *)
Inductive rounds (p1 : bool -> party) (d1 : duo) : nat -> (bool -> party) -> duo -> Prop :=
| Rounds0 p2 d2 : moves p1 d1 p2 d2 -> rounds p1 d1 0 p2 d2
| RoundsS n p2 d2 p3 d3 : rounds p1 d1 n p2 d2 -> (forall s, whole_poll s p2 d2 p3 d3) -> rounds p1 d1 (S n) p3 d3.

(** The exchanges over the channel so far: register writes, data register reads, and
    packets handed to the binding. *)
Definition stirs (e : event) : bool :=
  match e with EvKWrite _ _ _ | EvKRead KData _ | EvTxCall _ _ _ => true | _ => false end.
Definition acts (tr : list event) : Z := zlen (filter stirs tr).
Definition activity (d : duo) : Z := acts (d_tr d true) + acts (d_tr d false).

(** The packets queued for transmission so far. *)
Definition accepted (d : duo) (s : bool) : list (list Z) := map snd (enqueued false (d_tr d s)).
