(** ExamplesStart: what the daemon does with a binding whose registration failed (C74). *)
From Verif Require Import Base Prog Core Crc Astlpc SpecAst PropAst Concrete.

(** The daemon registers its astlpc binding, does not look at the result (binding_astlpc_init,
    mctp-demux-daemon.c 210-233), and polls whenever the descriptor is ready. *)
Definition regardless (app : event -> list txreq) (eid : Z) (l : list aop) : prog (world astlpc) :=
  w <- ast_register app true 0 eid ;; aexec app w l.

(** The KCS device refuses one write while the BMC starts, and works after that; the host
    sends Initialise. *)
Definition glitch : env :=
  mkEnv (fun _ => true) (fun _ r => Some (match r with KData => 0 | KStatus => 2 end))
        (fun n => negb (Nat.ltb n 4)) (fun _ _ => 0) (fun _ => 1).
(** Then the poll runs into the bus pointer that the failed registration has left NULL. *)
Theorem C74_poll_unregistered : can_fault no_oom (regardless no_app 8 [APoll false]) NullDeref.
Proof.
  apply (by_fault _ glitch); [|vm_compute; reflexivity].
  repeat split; cbn; try discriminate; reflexivity.
Qed.
