(** TwoBytes: the machine of TwoParty in which an access of several bytes to the LPC window
    is not one step: the memcpy of mctp_astlpc_lpc_write and mctp_astlpc_lpc_read (astlpc.c
    308-350, direct mapping) reads and writes the bytes one by one, in ascending order,
    and the other side may do anything in between. *)
From Verif Require Import Base Prog PktBuf Core CoreHist Crc Astlpc SpecAst TwoParty PropDuo SpecLive.

(** [f_acc f s] are the bytes of the window access side [s] is in the middle of that it has
    read or written so far. *)
Record fine := mkFine {
  f_sh : shared;
  f_prog : bool -> prog (world astlpc);
  f_acc : bool -> list Z;
  f_tr : bool -> list event }.

(** One step of a side: as [advance], but a window access takes a step for each byte (and
    an access of no bytes one step).  The access is recorded when its last byte is done. *)
Definition fadvance (s : bool) (sh : shared) (p : prog (world astlpc)) (acc : list Z)
  : option (shared * prog (world astlpc) * list Z * list event) :=
  match p with
  | LRead off len k =>
      if in_window off len then
        let acc' := if zlen acc <? len then acc ++ [s_mem sh (off + zlen acc)] else acc in
        if zlen acc' <? len then Some (sh, p, acc', []) else Some (sh, k acc', [], [EvLRead off acc'])
      else Some (sh, Flt OutOfBounds, [], [])
  | LWrite off bs k =>
      if in_window off (zlen bs) then
        match skipn (length acc) bs with
        | [] => Some (sh, k, [], [EvLWrite off bs])
        | v :: rest =>
            let sh' := mkShared (s_kcs sh) (store (s_mem sh) (off + zlen acc) [v]) in
            match rest with
            | [] => Some (sh', k, [], [EvLWrite off bs])
            | _ => Some (sh', p, acc ++ [v], [])
            end
        end
      else Some (sh, Flt OutOfBounds, [], [])
  | _ => match advance s sh p with Some (sh', p', t) => Some (sh', p', [], t) | None => None end
  end.

Definition fstep (s : bool) (f f' : fine) : Prop :=
  exists sh p a t, fadvance s (f_sh f) (f_prog f s) (f_acc f s) = Some (sh, p, a, t) /\
    f' = mkFine sh (upd (f_prog f) s p) (upd (f_acc f) s a) (upd (f_tr f) s (f_tr f s ++ t)).

(** As SpecLive.begin_call, moves and session. *)
Definition fbegin (s : bool) (w : world astlpc) (o : aop) (p : bool -> party) (f : fine) : fine :=
  mkFine (f_sh f) (upd (f_prog f) s (aexec_op (p_app (p s)) w o)) (f_acc f) (f_tr f).
Inductive fmoves (p : bool -> party) (f : fine) : (bool -> party) -> fine -> Prop :=
| FmRefl : fmoves p f p f
| FmStep s p1 f1 f2 : fmoves p f p1 f1 -> fstep s f1 f2 -> fmoves p f p1 f2
| FmCall s o w p1 f1 : fmoves p f p1 f1 -> f_prog f1 s = Ret w -> bd_bus (bnd w false) = true ->
    ast_traffic o -> fmoves p f (upd p1 s (more (p1 s) o)) (fbegin s w o p1 f1).
Definition fine_start (p : bool -> party) (idr odr : Z) (mem : Z -> Z) : fine :=
  let d := duo_start p idr odr mem in mkFine (d_sh d) (d_prog d) (fun _ => []) (d_tr d).
Definition fsession (p : bool -> party) (f : fine) : Prop :=
  exists p0 idr odr mem, (forall s, p_calls (p0 s) = []) /\ usable_mtu (p_mtu (p0 true)) /\
    fmoves p0 (fine_start p0 idr odr mem) p f.
