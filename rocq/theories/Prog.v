(** Prog: the effect language in which the code is modelled, and its meaning.

    A program is a tree of effects.  Each effect is one interaction of the
    library with the world outside it: an access to a KCS register or to the
    shared LPC window, a call of the serial write function, a heap allocation,
    or an observable event (a callback into the application or the binding, an
    allocation or release of a packet buffer, ...).  Undefined behaviour and
    failed assertions are the explicit outcome [Flt]. *)
From Verif Require Import Base.

(** libmctp-astlpc.h 18-21 *)
Inductive kreg := KData | KStatus.

(** Undefined behaviour and aborts. [OutOfFuel] marks a loop that has not
    terminated within its fuel; theorems exclude it, or say that it happens for
    every fuel (an endless loop). *)
Inductive fault :=
| AssertFail | NullDeref | UseAfterFree | DoubleFree | OutOfBounds | OutOfFuel.

(** What an observer outside the library can see. *)
Inductive event :=
(* calls of the application's mctp_rx_fn and of binding->control_rx *)
| EvRx (src : Z) (tag_owner : bool) (tag : Z) (msg : list Z)
| EvCtrl (bus : bool) (src : Z) (tag_owner : bool) (tag : Z) (msg : list Z)
(* call of the capture handler *)
| EvCapture (outgoing : bool) (bytes : list Z)
(* mctp_bus_rx entered by binding [bus]; [local] is the bus EID of an endpoint,
   [None] in bridge mode *)
| EvBusRx (bus : bool) (local : option Z) (id : Z) (bytes : list Z)
(* a complete message enters routing (mctp_rx) *)
| EvMsg (bus : bool) (src dest : Z) (tag_owner : bool) (tag : Z) (msg : list Z)
(* packet appended to the transmit queue of [bus] *)
| EvEnq (bus : bool) (id : Z) (bytes : list Z)
(* call of binding->tx and its return *)
| EvTxCall (bus : bool) (id : Z) (bytes : list Z)
| EvTxRet (bus : bool) (id : Z) (bytes : list Z) (rc : Z)
(* mctp_binding_set_tx_enabled called (by a binding or from binding->tx) *)
| EvSetTx (bus : bool) (enable : bool)
(* a bus structure is created for / taken away from a binding *)
| EvAttach (bus : bool) (eid : Z)
| EvDetach
(* packet buffer life cycle *)
| EvAlloc (id : Z) | EvFree (id : Z)
(* an API call returned *)
| EvRet (rc : Z)
(* I/O *)
| EvKRead (r : kreg) (v : option Z)
| EvKWrite (r : kreg) (v : Z) (ok : bool)
| EvLRead (off : Z) (bytes : list Z)
| EvLWrite (off : Z) (bytes : list Z)
| EvSWrite (bytes : list Z) (rc : Z).

Inductive prog (A : Type) : Type :=
| Ret (a : A)
| Flt (f : fault)
| KRead (r : kreg) (k : option Z -> prog A)     (* None: the access failed *)
| KWrite (r : kreg) (v : Z) (k : bool -> prog A) (* false: the access failed *)
| LRead (off len : Z) (k : list Z -> prog A)
| LWrite (off : Z) (bs : list Z) (k : prog A)
| SWrite (bs : list Z) (k : Z -> prog A)        (* result of write/tx_fn *)
| Malloc (k : bool -> prog A)                   (* does the allocation succeed? *)
| Emit (e : event) (k : prog A).
Arguments Ret {A} a.
Arguments Flt {A} f.
Arguments KRead {A} r k.
Arguments KWrite {A} r v k.
Arguments LRead {A} off len k.
Arguments LWrite {A} off bs k.
Arguments SWrite {A} bs k.
Arguments Malloc {A} k.
Arguments Emit {A} e k.

Fixpoint bind {A B} (p : prog A) (f : A -> prog B) : prog B :=
  match p with
  | Ret a => f a
  | Flt x => Flt x
  | KRead r k => KRead r (fun v => bind (k v) f)
  | KWrite r v k => KWrite r v (fun ok => bind (k ok) f)
  | LRead o n k => LRead o n (fun bs => bind (k bs) f)
  | LWrite o bs k => LWrite o bs (bind k f)
  | SWrite bs k => SWrite bs (fun r => bind (k r) f)
  | Malloc k => Malloc (fun ok => bind (k ok) f)
  | Emit e k => Emit e (bind k f)
  end.

Declare Scope prog_scope.
Delimit Scope prog_scope with prog.
Notation "x <- p ;; q" := (bind p (fun x => q))
  (at level 61, p at next level, right associativity) : prog_scope.
Notation "' pat <- p ;; q" := (bind p (fun x => match x with pat => q end))
  (at level 61, pat pattern, p at next level, right associativity) : prog_scope.
Open Scope prog_scope.

(** Dereference of an optional object: [None] is undefined behaviour [f]. *)
Definition deref {A} (f : fault) (o : option A) : prog A :=
  match o with Some a => Ret a | None => Flt f end.
Definition assert_ (b : bool) : prog unit := if b then Ret tt else Flt AssertFail.

(** Size of the shared window: astlpc.c 287. *)
Definition LPC_WIN_SIZE : Z := 1048576.

(** An environment answers every effect.  The [n]-th effect of a run gets its
    answer from index [n], so an environment is an arbitrary, history-dependent
    peer, heap and serial line.  The window contents may change arbitrarily
    between any two reads. *)
Record env := mkEnv {
  e_alloc : nat -> bool;
  e_kread : nat -> kreg -> option Z;
  e_kwrite : nat -> bool;
  e_mem : nat -> Z -> Z;
  e_swrite : nat -> Z }.

Definition in_window (off len : Z) : bool :=
  (0 <=? off) && (0 <=? len) && (off + len <=? LPC_WIN_SIZE).

Definition mem_bytes (m : Z -> Z) (off len : Z) : list Z :=
  map (fun i => m (off + Z.of_nat i) mod 256) (seq 0 (Z.to_nat len)).

Definition kread_val (v : option Z) : option Z :=
  match v with Some x => Some (x mod 256) | None => None end.

Inductive outcome (A : Type) :=
| Done (a : A) (n : nat) (tr : list event)
| Fault (f : fault) (tr : list event).
Arguments Done {A} a n tr.
Arguments Fault {A} f tr.

(** [run e n tr p]: the run of [p] in environment [e], from time [n], with the
    events so far in [tr].  A window access outside the window is a fault. *)
Fixpoint run {A} (e : env) (n : nat) (tr : list event) (p : prog A) : outcome A :=
  match p with
  | Ret a => Done a n tr
  | Flt f => Fault f tr
  | KRead r k =>
      let v := kread_val (e_kread e n r) in
      run e (S n) (tr ++ [EvKRead r v]) (k v)
  | KWrite r v k =>
      let ok := e_kwrite e n in
      run e (S n) (tr ++ [EvKWrite r v ok]) (k ok)
  | LRead off len k =>
      if in_window off len then
        let bs := mem_bytes (e_mem e n) off len in
        run e (S n) (tr ++ [EvLRead off bs]) (k bs)
      else Fault OutOfBounds tr
  | LWrite off bs k =>
      if in_window off (zlen bs) then
        run e (S n) (tr ++ [EvLWrite off bs]) k
      else Fault OutOfBounds tr
  | SWrite bs k =>
      let r := Z.min (e_swrite e n) (zlen bs) in
      run e (S n) (tr ++ [EvSWrite bs r]) (k r)
  | Malloc k => run e (S n) tr (k (e_alloc e n))
  | Emit ev k => run e n (tr ++ [ev]) k
  end.

(** Assumptions a theorem may place on the environment. *)
Record assm := mkAssm {
  may_oom : bool;        (* allocations may fail *)
  may_kerr : bool;       (* KCS register accesses may fail *)
  may_stall : bool;      (* the serial write function may accept 0 bytes *)
  kval_ok : kreg -> Z -> bool }.  (* values the KCS registers may be read as *)


Definition env_ok (a : assm) (e : env) : Prop :=
  (may_oom a = false -> forall n, e_alloc e n = true) /\
  (may_kerr a = false -> forall n r, e_kread e n r <> None /\ e_kwrite e n = true) /\
  (forall n r v, kread_val (e_kread e n r) = Some v -> kval_ok a r v = true) /\
  (may_stall a = false -> forall n, e_swrite e n <> 0).

(** In every allowed environment [p] runs to completion without fault and its
    result and trace satisfy [Q]. *)
Definition always (a : assm) {A} (p : prog A) (Q : A -> list event -> Prop) : Prop :=
  forall e, env_ok a e ->
  match run e 0 [] p with
  | Done x _ tr => Q x tr
  | Fault _ _ => False
  end.

(** Some allowed environment makes [p] fault with [f]. *)
Definition can_fault (a : assm) {A} (p : prog A) (f : fault) : Prop :=
  exists e tr, env_ok a e /\ run e 0 [] p = Fault f tr.

(** Some allowed environment makes [p] finish with [Q]. *)
Definition can_finish (a : assm) {A} (p : prog A) (Q : A -> list event -> Prop) : Prop :=
  exists e x n tr, env_ok a e /\ run e 0 [] p = Done x n tr /\ Q x tr.

Definition any_kval : kreg -> Z -> bool := fun _ _ => true.
(** Allocations succeed; KCS accesses may fail; writes make progress or fail. *)
Definition no_oom : assm := mkAssm false true false any_kval.
(** Additionally no KCS access fails. *)
Definition quiet : assm := mkAssm false false false any_kval.
(** Anything may fail. *)
Definition hostile : assm := mkAssm true true true any_kval.
