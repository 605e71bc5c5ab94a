(** Fileio: an astlpc binding on files, as the process sees it (/repo/astlpc.c 294-350 and,
    under MCTP_HAVE_FILEIO, 1423-1446, with no lpc_read and lpc_write operations set).  What the
    rest of the model calls an access to a KCS register is one call of
    __mctp_astlpc_fileio_kcs_read or _write, and an access to the window a copy from or to the
    memory at lpc_map. *)
From Verif Require Import Base Prog Core Astlpc Startup PropStartup.

(** What the process does, in order: system calls, copies from and to mapped memory, calls of
    write(2) by other bindings, and the events that leave the library otherwise (calls of the
    application and so on). *)
Inductive io :=
| Sys (e : ev)
| Load (addr : Z) (bs : list Z)
| Store (addr : Z) (bs : list Z)
| Wrote (bs : list Z) (rc : Z)
| Seen (e : event).
(** How a piece of code ends: it returns, a copy leaves the mapped memory, or other undefined
    behaviour. *)
Inductive ending (A : Type) := Came (a : A) | Outside | Undef (f : fault).
Arguments Came {A}. Arguments Outside {A}. Arguments Undef {A}.

(** The [n] bytes at [addr] lie in one of the mappings (address and size). *)
Definition mapped (maps : list (Z * Z)) (addr n : Z) : bool :=
  existsb (fun m => (fst m <=? addr) && (addr + n <=? fst m + snd m)) maps.

Section On.
Context (a : assm) (b : fbinding) (maps : list (Z * Z)).

(** astlpc.c 308-350 mctp_astlpc_lpc_write and _read, direct mapping: may the copy of [n] bytes
    at [off] be made, or else how it ends. *)
Definition lpc_copy (off n : Z) : option fault + unit :=
  if off <? 0 then inl (Some AssertFail)
  else if fb_map b =? 0 then inl (Some AssertFail)
  else if mapped maps (fb_map b + off) n then inr tt else inl None.
Definition bad {A} (f : option fault) : ending A := match f with Some f => Undef f | None => Outside end.

(** [on_files p t r]: the code [p] on the binding [b] does [t] and ends in [r].  The kernel, the
    heap and the memory answer as they like, within [a]. *)
Fixpoint on_files {A} (p : Prog.prog A) (t : list io) (r : ending A) : Prop :=
  match p with
  | Prog.Ret x => t = [] /\ r = Came x
  | Flt f => t = [] /\ r = Undef f
  | KRead g k => exists tr v t', exec (fileio_kcs_read b g) tr v /\ t = map Sys tr ++ t' /\
      (may_kerr a = false -> v <> None) /\ (forall x, v = Some x -> kval_ok a g x = true) /\ on_files (k v) t' r
  | KWrite g v k => exists tr ok t', exec (fileio_kcs_write b g v) tr ok /\ t = map Sys tr ++ t' /\
      (may_kerr a = false -> ok = true) /\ on_files (k ok) t' r
  | LRead off len k =>
      match lpc_copy off len with
      | inl f => t = [] /\ r = bad f
      | inr _ => exists bs t', zlen bs = len /\ Forall is_byte bs /\ t = Load (fb_map b + off) bs :: t' /\ on_files (k bs) t' r
      end
  | LWrite off bs k =>
      match lpc_copy off (zlen bs) with
      | inl f => t = [] /\ r = bad f
      | inr _ => exists t', t = Store (fb_map b + off) bs :: t' /\ on_files k t' r
      end
  | SWrite bs k => exists q t', (may_stall a = false -> q <> 0) /\
      t = Wrote bs (Z.min q (zlen bs)) :: t' /\ on_files (k (Z.min q (zlen bs))) t' r
  | Malloc k => exists ok, (may_oom a = false -> ok = true) /\ on_files (k ok) t r
  | Emit e k => exists t', t = Seen e :: t' /\ on_files k t' r
  end.

(** The same actions in the terms of the rest of the model. *)
Definition event_of (i : io) : event :=
  match i with
  | Sys (Ev c x) =>
      match c return answer c -> event with
      | CPread _ off => fun v => EvKRead (if off =? 0 then KData else KStatus) v
      | CPwrite _ off v => fun ok => EvKWrite (if off =? 0 then KData else KStatus) v ok
      | _ => fun _ => EvDetach                     (* no other call is made *)
      end x
  | Load addr bs => EvLRead (addr - fb_map b) bs
  | Store addr bs => EvLWrite (addr - fb_map b) bs
  | Wrote bs rc => EvSWrite bs rc
  | Seen e => e
  end.
End On.

(** mctp_init, a binding that mctp_astlpc_init_fileio returned, mctp_register_bus and, if that
    succeeds, the calls [l] (SpecAst.ast_history for this binding). *)
Definition files_world (b : fbinding) : world astlpc := mkWorld mctp_init (fb_core b) (fb_core b).
Definition files_history (app : event -> list txreq) (b : fbinding) (eid : Z) (l : list aop) : Prog.prog (world astlpc) :=
  Prog.bind (aexec_op app (files_world b) (ACore (OpRegister eid)))
    (fun w => if bd_bus (bnd w false) then aexec app w l else Prog.Ret w).
