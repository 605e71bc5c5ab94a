(** SpecDuo: the vocabulary of the message-level statements about the two sides of the
    astlpc channel.  It only mentions the calls a side makes and the events it shows. *)
From Verif Require Import Base Prog Core CoreHist Astlpc SpecAst SpecRx.

(** ** What a side has said *)

(** The calls of a side that show their return: a transmission, or a poll. *)
Definition requests (l : list aop) : list (option txreq) :=
  flat_map (fun o => match o with
                     | ACore (OpTx eid to tag msg) => [Some (mkReq eid to tag msg)]
                     | APoll _ => [None]
                     | _ => []
                     end) l.

Definition tag_ok (r : txreq) : bool := (0 <=? r_tag r) && (r_tag r <=? 7).

(** The messages a side has asked to transmit while its bus had been enabled, up to some
    event of its trace: those of its own calls and those of its application's callback.
    [t_up]: transmission has been enabled at least once; [t_next]: the calls still to
    come, so that a return (of the registration or of a call) begins the next one. *)
Record talk := mkTalk { t_up : bool; t_next : list (option txreq); t_said : list txreq }.
Definition talk_step (app : event -> list txreq) (k : talk) (e : event) : talk :=
  match e with
  | EvSetTx _ en => mkTalk (t_up k || en) (t_next k) (t_said k)
  | EvRx _ _ _ _ | EvCtrl _ _ _ _ _ =>
      mkTalk (t_up k) (t_next k) (t_said k ++ if t_up k then filter tag_ok (app e) else [])
  | EvRet _ =>
      match t_next k with
      | Some r :: l => mkTalk (t_up k) l (t_said k ++ if t_up k && tag_ok r then [r] else [])
      | None :: l => mkTalk (t_up k) l (t_said k)
      | [] => k
      end
  | _ => k
  end.
Definition talked (app : event -> list txreq) (l : list aop) (tr : list event) : talk :=
  fold_left (talk_step app) tr (mkTalk false (requests l) []).
Definition said (app : event -> list txreq) (l : list aop) (tr : list event) : list txreq :=
  t_said (talked app l tr).

(** ** What a side has been told *)

(** The messages passed to the application: source, tag owner, tag, contents. *)
Definition heard (tr : list event) : list (Z * bool * Z * list Z) :=
  flat_map (fun e => match e with EvRx src to tag msg => [(src, to, tag, msg)] | _ => [] end) tr.
(** A request as the receiving application gets to see it. *)
Definition as_heard (src : Z) (r : txreq) : Z * bool * Z * list Z := (src, r_to r, r_tag r, r_msg r).
(** A request that reaches the application of endpoint [eid]: it is not empty and is
    addressed to [eid], to the null EID or to everyone. *)
Definition meant_for (eid : Z) (r : txreq) : bool := (0 <? zlen (r_msg r)) && for_us (Some eid) (r_eid r).

(** The side sets its message handler before anything else, and neither the handler nor
    the limit on the message size afterwards. *)
Definition listening (l : list aop) : Prop :=
  exists c, l = ACore (OpSetRx true) :: c /\
    Forall (fun o => match o with ACore (OpSetRx _) | ACore (OpSetMax _) => False | _ => True end) c.
