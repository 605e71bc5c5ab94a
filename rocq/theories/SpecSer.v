(** SpecSer: the vocabulary in which the serial properties are stated (DSP0253
    framing, streams, histories). *)
From Verif Require Import Base Prog PktBuf Core CoreHist Crc Serial.

(** ** Frames *)

(** Body bytes 7E and 7D are sent as 7D followed by the byte with bit 5 flipped. *)
Definition esc (c : Z) : list Z := if (c =? 126) || (c =? 125) then [125; Z.lxor c 32] else [c].

(** The check value covers revision, length and the unescaped body. *)
Definition fcs (body : list Z) : Z := crc16 65535 (1 :: zlen body :: body).

(** The frame of a packet. *)
Definition wire (body : list Z) : list Z :=
  [126; 1; zlen body] ++ flat_map esc body ++ [fcs body / 256; fcs body mod 256; 126].

(** Unescaping as the receiver is meant to do it: 7D announces a byte with bit 5
    flipped, anything else stands for itself. *)
Inductive unescaped : list Z -> list Z -> Prop :=
| UNil : unescaped [] []
| UPlain c raw body : c <> 125 -> unescaped raw body -> unescaped (c :: raw) (c :: body)
| UEsc c raw body : unescaped raw body -> unescaped (125 :: c :: raw) (Z.lxor c 32 :: body).

(** [f] is an intact frame for the packet [body]. *)
Definition frame (f body : list Z) : Prop :=
  exists raw hi lo, f = [126; 1; zlen body] ++ raw ++ [hi; lo; 126] /\
    unescaped raw body /\ 4 <= zlen body <= 68 /\ hi * 256 + lo = fcs body.

(** The stream contains, in this order and without overlap, intact frames for the
    packets [ps] (and whatever else). *)
Inductive contains : list Z -> list (list Z) -> Prop :=
| CNone junk : contains junk []
| CFrame junk f rest body ps : frame f body -> contains rest ps ->
    contains (junk ++ f ++ rest) (body :: ps).

(** A stream made of intact frames, with stretches without 7E between them and any
    number of extra 7E in front of each. *)
Inductive clean : list Z -> list (list Z) -> Prop :=
| ClNil gap : ~ In 126 gap -> clean gap []
| ClFrame gap k f body rest ps : ~ In 126 gap -> frame f body -> clean rest ps ->
    clean (gap ++ repeat 126 k ++ f ++ rest) (body :: ps).

(** ** Histories *)

(** The bytes fed to the receiver of bus [i], in whatever chunks. *)
Definition fed (i : bool) (l : list sop) : list Z :=
  flat_map (fun o => match o with SRx j bs => if Bool.eqb i j then bs else [] | _ => [] end) l.
(** The packets it handed to the core. *)
Definition handed (i : bool) (tr : list event) : list (list Z) :=
  flat_map (fun e => match e with EvBusRx j _ _ bs => if Bool.eqb i j then [bs] else [] | _ => [] end) tr.
(** The bytes the write function accepted, and whether it ever failed or accepted
    nothing. *)
Definition sent (tr : list event) : list Z :=
  flat_map (fun e => match e with EvSWrite bs r => firstn (Z.to_nat r) bs | _ => [] end) tr.
Definition writes_ok (tr : list event) : Prop :=
  Forall (fun e => match e with EvSWrite _ r => 0 < r | _ => True end) tr.

(** What an application that uses serial bindings does after registration. *)
Definition ser_traffic (m : mode) (o : sop) : Prop :=
  match o with
  | SCore (OpSetMax n) => 0 <= n < 2 ^ 64
  | SCore (OpSetCapture _) | SCore (OpSetRx _) | SCore (OpTx _ _ _ _) => True
  | SCore (OpSetTx i _) => mode_bus m i
  | SCore _ => False
  | SRx i bs => mode_bus m i /\ Forall is_byte bs
  end.

Definition ser_history (fuel : nat) (app : event -> list txreq) (m : mode) (l : list sop)
  : prog (world serial) :=
  sexec fuel app serial_world (SCore (boot_op m) :: l).

Definition ser_reaches (fuel : nat) (app : event -> list txreq) (m : mode) (w : world serial)
  (tr : list event) : Prop :=
  exists l e (n : nat), Forall (ser_traffic m) l /\ env_ok no_oom e /\
    run e 0 [] (ser_history fuel app m l) = Done w n tr.

(** The receiver of bus [i] waits for a frame. *)
Definition idle (w : world serial) (i : bool) : Prop := s_st (bd_priv (bnd w i)) = WaitSyncStart.

(** Whenever bytes are received the message size limit in force is [L]; it is [cur]
    to begin with. *)
Fixpoint ser_limited (L cur : Z) (l : list sop) : Prop :=
  match l with
  | [] => True
  | SCore (OpSetMax n) :: t => ser_limited L n t
  | SRx _ _ :: t => cur = L /\ ser_limited L cur t
  | _ :: t => ser_limited L cur t
  end.
(** No change of configuration during [l]. *)
Definition ser_no_config (l : list sop) : Prop :=
  Forall (fun o => match o with SCore (OpSetMax _) | SCore (OpSetRx _) => False | _ => True end) l.
(** Reachable by operations satisfying [P]. *)
Definition ser_reaches_by (P : list sop -> Prop) (fuel : nat) (app : event -> list txreq) (m : mode)
  (w : world serial) (tr : list event) : Prop :=
  exists l e (n : nat), Forall (ser_traffic m) l /\ P l /\ env_ok no_oom e /\
    run e 0 [] (ser_history fuel app m l) = Done w n tr.
