(** ExamplesQueue: concrete cases for C58 and C59. *)
From Verif Require Import Base Lists Prog PktBuf Core Walk Queue PropQueue Concrete Spec.

(** A bus with transmission enabled and an empty queue, on a binding that is busy
    twice. *)
Definition q_start : world nat :=
  mkWorld (mkMctp 1 (BLive [mkBus 8 TxEnabled []]) true false (repeat ctx0 16) RouteEndpoint 65536 0 false)
          (set_bdbus (plain_binding 2%nat) true) (plain_binding 0%nat).
Definition q_tx : nat -> pktbuf -> prog (nat * pktbuf * Z * bool) :=
  fun b p => Ret (busy_first b p).
Definition q_calls : list qcall :=
  [QMessage 8 9 true 3 (repeat 7 200);     (* 4 packets: the binding is busy *)
   QSetTx true;                            (* busy again *)
   QMessage 8 9 true 3 (repeat 7 70);      (* 2 more packets behind them *)
   QSetTx true;                            (* the queue drains *)
   QMessage 8 9 true 3 [1];
   QSetTx false;
   QMessage 8 9 true 3 (repeat 7 150)].    (* 3 packets stay queued *)

(** C58: the start state is as the theorem asks; ten packets pass through the
    linked list, addresses are reused, seven leave it, three stay. *)
Example C58_example_hyp : exists b, bget q_start false = Some b /\ bus_q b = [].
Proof. eexists. split; reflexivity. Qed.
Definition q_summary (x : outcome (world nat * lqueue)) :=
  match x with
  | Done (_, s) _ tr =>
      Some (flat_map (fun e => match e with EvFree n => [n] | _ => [] end) tr,
            map (fun x => (fst x, pk_id (n_pkt (snd x)), n_next (snd x))) (lq_heap s),
            lq_head s, lq_tail s)
  | Fault _ _ => None
  end.
Example C58_example :
  q_summary (run calm 0 [] (linked_calls q_tx (fun h => lowest (length h) 1 h) false q_start empty_queue q_calls))
  = Some ([0; 1; 2; 3; 4; 5; 6], [(3, 9, None); (2, 8, Some 3); (1, 7, Some 2)], Some 1, Some 3).
Proof. vm_compute. reflexivity. Qed.

(** C59: a queue with one packet exists, so the second use is a real one. *)
Definition q_pkt (n : Z) : pktbuf := pktbuf_mk n 68 0 0 5.
Definition q_one : lqueue := mkLq [(1, mkNode (q_pkt 0) None)] (Some 1) (Some 1).
Example C59_example_hyp : holds q_one [q_pkt 0].
Proof.
  exists [(1, q_pkt 0)]. repeat split; try reflexivity.
  - eexists. split; reflexivity.
  - constructor; [intros []|constructor].
  - constructor; [intros []|constructor].
  - cbn. auto.
Qed.
Theorem C59_refuted : ~ C59_wanted beyond false.
Proof. exact (C59_violated beyond beyond_free false q_one (q_pkt 0) [] C59_example_hyp). Qed.
