(** Pipe: the utilities mctp-pipe (utils/mctp-pipe.c) and mctp-in (utils/mctp-in.c). *)
From Verif Require Import Base Prog PktBuf Core Crc Serial CoreHist SpecSer SpecDuo.

(** utils/mctp-pipe.c 15-26, utils/mctp-in.c 15-26 rx_message: the handler sends
    nothing. *)
Definition just_print : event -> list txreq := fun _ => [].

(** ... it writes the message to standard output.  Simplification: the write is taken to
    be complete (a short one is warned about and the rest of the message dropped). *)
Definition printed (tr : list event) : list Z :=
  concat (map (fun d => match d with (_, _, _, msg) => msg end) (heard tr)).

Section Pipe.
(** Bound on the iterations of mctp_write_all, see Serial.v. *)
Variable fuel : nat.

(** utils/mctp-in.c 28-53 main: the reads of standard input in turn. *)
Definition mctp_in (chunks : list (list Z)) : prog (world serial) :=
  ser_history fuel just_print (Endpoint 8) (SCore (OpSetRx true) :: map (SRx false) chunks).

(** The state of mctp-pipe between two calls of poll: utils/mctp-pipe.c 30-34.
    pollfds[0].fd turns -1 and mctp_fds[0] is closed exactly when n becomes 2, so one
    flag stands for the three; mctp[1] sends nothing, so mctp_fds[0] never becomes
    readable and the block at lines 75-79 never runs. *)
Record pipe := mkPipe {
  pp_tx : world serial;       (* mctp[0], serial[0] *)
  pp_rx : world serial;       (* mctp[1], serial[1] *)
  pp_sock : list Z;           (* written to mctp_fds[0], not yet read from mctp_fds[1] *)
  pp_open : bool;             (* n == 3: standard input is still open *)
  pp_fd1 : bool;              (* pollfds[1].fd >= 0 *)
  pp_in : list Z;             (* history: all that was read from standard input *)
  pp_out : list Z }.          (* history: all that was written to standard output *)

(** What standard input has for the loop when poll returns. *)
Inductive input := Nothing | Bytes (c : list Z) | Eof.

Inductive result :=
| Next (s : pipe)             (* on to the next iteration *)
| Exit (s : pipe)             (* main returns *)
| Stuck (s : pipe)            (* write blocks; the only reader is the process itself *)
| Crash (f : fault).

(** utils/mctp-pipe.c 36-66: the two stacks are initialised and registered. *)
Definition pipe_start (s : pipe) : Prop :=
  exists e0 n0 t0 w0 e1 n1 t1 w1, env_ok no_oom e0 /\ env_ok no_oom e1 /\
    run e0 0 [] (ser_history fuel just_print (Endpoint 8) []) = Done w0 n0 t0 /\
    run e1 0 [] (ser_history fuel just_print (Endpoint 9) [SCore (OpSetRx true)]) = Done w1 n1 t1 /\
    s = mkPipe w0 w1 [] true true [] [].

(** utils/mctp-pipe.c 81-85 with serial.c 324-340 mctp_serial_read: revents is set if
    bytes are waiting or the other end is closed; one read gets 1 to 1024 of the waiting
    bytes, or 0 at the end.  Allocations succeed. *)
Inductive read_step (s : pipe) : result -> Prop :=
| RdNone : pp_fd1 s = false \/ (pp_sock s = [] /\ pp_open s = true) -> read_step s (Next s)
| RdData k e w n t : pp_fd1 s = true -> (1 <= k <= 1024)%nat -> (k <= length (pp_sock s))%nat -> env_ok no_oom e ->
    run e 0 [] (sexec fuel just_print (pp_rx s) [SRx false (firstn k (pp_sock s))]) = Done w n t ->
    read_step s (Next (mkPipe (pp_tx s) w (skipn k (pp_sock s)) (pp_open s) (pp_fd1 s) (pp_in s) (pp_out s ++ printed t)))
| RdCrash k e f t : pp_fd1 s = true -> (1 <= k <= 1024)%nat -> (k <= length (pp_sock s))%nat -> env_ok no_oom e ->
    run e 0 [] (sexec fuel just_print (pp_rx s) [SRx false (firstn k (pp_sock s))]) = Fault f t ->
    read_step s (Crash f)
| RdEof : pp_fd1 s = true -> pp_sock s = [] -> pp_open s = false ->
    read_step s (Next (mkPipe (pp_tx s) (pp_rx s) [] false false (pp_in s) (pp_out s))).

(** mctp_message_tx(mctp[0], 9, MCTP_MESSAGE_TO_SRC, 0, buf, rc) *)
Definition pipe_send (c : list Z) : sop := SCore (OpTx 9 true 0 c).

(** utils/mctp-pipe.c 87-100.  [cap] is the number of bytes the socket holds before a
    write to it blocks (simplification: the kernel counts buffers, not bytes).  A write
    to the socket does not fail; it may be cut up (mctp_write_all). *)
Inductive in_step (cap : Z) (s : pipe) : input -> result -> Prop :=
| InNone : in_step cap s Nothing (Next s)
| InEof : pp_open s = true ->
    in_step cap s Eof (Next (mkPipe (pp_tx s) (pp_rx s) (pp_sock s) false (pp_fd1 s) (pp_in s) (pp_out s)))
| InData c e w n t : pp_open s = true -> 1 <= zlen c <= 1024 -> Forall is_byte c -> env_ok no_oom e ->
    run e 0 [] (sexec fuel just_print (pp_tx s) [pipe_send c]) = Done w n t -> writes_ok t ->
    zlen (pp_sock s ++ sent t) <= cap ->
    in_step cap s (Bytes c) (Next (mkPipe w (pp_rx s) (pp_sock s ++ sent t) true (pp_fd1 s) (pp_in s ++ c) (pp_out s)))
| InFull c e w n t : pp_open s = true -> 1 <= zlen c <= 1024 -> Forall is_byte c -> env_ok no_oom e ->
    run e 0 [] (sexec fuel just_print (pp_tx s) [pipe_send c]) = Done w n t -> writes_ok t ->
    cap < zlen (pp_sock s ++ sent t) ->
    in_step cap s (Bytes c) (Stuck (mkPipe (pp_tx s) (pp_rx s) (pp_sock s) true (pp_fd1 s) (pp_in s ++ c) (pp_out s)))
| InCrash c e f t : pp_open s = true -> 1 <= zlen c <= 1024 -> Forall is_byte c -> env_ok no_oom e ->
    run e 0 [] (sexec fuel just_print (pp_tx s) [pipe_send c]) = Fault f t ->
    in_step cap s (Bytes c) (Crash f).

(** utils/mctp-pipe.c 102-103 *)
Definition leave (r : result) : result :=
  match r with
  | Next s => if negb (pp_open s) && negb (pp_fd1 s) then Exit s else Next s
  | _ => r
  end.

(** utils/mctp-pipe.c 68-104: one iteration of the loop. *)
Inductive iter (cap : Z) (s : pipe) : input -> result -> Prop :=
| ItCrash i f : read_step s (Crash f) -> iter cap s i (Crash f)
| ItNext i s1 r : read_step s (Next s1) -> in_step cap s1 i r -> iter cap s i (leave r).

(** Iterations from state [s]: what standard input had for each of them, and where the
    last one leads. *)
Inductive loops (cap : Z) (s : pipe) : list input -> result -> Prop :=
| LStart : loops cap s [] (Next s)
| LIter l s1 i r : loops cap s l (Next s1) -> iter cap s1 i r -> loops cap s (l ++ [i]) r.

(** A run of mctp-pipe. *)
Definition piped (cap : Z) (l : list input) (r : result) : Prop :=
  exists s, pipe_start s /\ loops cap s l r.
End Pipe.
