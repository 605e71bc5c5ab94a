(** Model of the demultiplexing daemon, /repo/utils/mctp-demux-daemon.c.

    The daemon is a separate program around the library, so it gets its own
    small language of system calls: a program is a tree of calls, the
    environment (kernel, clients, the MCTP stack underneath) picks every answer,
    subject only to [allowed].

    Not modelled here: option parsing and start-up ([main], [binding_*_init],
    [socket_init]; see Options.v and Startup.v), verbose output, failure of realloc for the client and
    pollfd tables (the code does not check it; see DaemonOom.v), signal handling beyond "the
    signal descriptor became ready, so the daemon stops". *)
From Verif Require Import Base.

(** struct client, mctp-demux-daemon.c:56-60. *)
Record client := Client { c_active : bool; c_sock : Z; c_type : Z }.

(** struct ctx, mctp-demux-daemon.c:62-79: [clients]/[n_clients] as one list,
    the client part of [pollfds] (entries FD_NR and up) as the list of its
    descriptors. [d_capture]: pcap.socket.path is set. *)
Record ctx := Ctx {
  d_eid : Z;
  d_bufsize : Z;
  d_fds : list Z;
  d_clients : list client;
  d_capture : bool
}.

Definition set_clients (x : ctx) (l : list client) : ctx :=
  Ctx (d_eid x) (d_bufsize x) (d_fds x) l (d_capture x).
Definition set_fds (x : ctx) (l : list Z) : ctx :=
  Ctx (d_eid x) (d_bufsize x) l (d_clients x) (d_capture x).
Definition set_bufsize (x : ctx) (n : Z) : ctx :=
  Ctx (d_eid x) n (d_fds x) (d_clients x) (d_capture x).

(** A received MCTP message as the core hands it to [rx_message]. *)
Record mctp_msg := Msg { m_src : Z; m_bytes : list Z }.

(** What [poll] reports: revents <> 0 for the signal, binding and listening
    descriptors and for each client entry. *)
Record ready := Ready { r_signal : bool; r_binding : bool; r_socket : bool;
                        r_clients : list bool }.

(** Calls that leave the daemon. *)
Inductive call :=
| CClose (fd : Z)                        (* close(2) *)
| CSend (fd : Z) (bs : list Z)           (* sendmsg(2) *)
| CRead1 (fd : Z)                        (* read(fd, &type, 1) *)
| CPeek (fd : Z)                         (* recv(fd, NULL, 0, MSG_PEEK|MSG_TRUNC) *)
| CGrow (n : Z)                          (* realloc of the receive buffer *)
| CRecv (fd : Z) (n : Z)                 (* recv(fd, buf, n, 0) *)
| CCapture (bs : list Z) (eid : Z)       (* capture_socket *)
| CTx (eid : Z) (owner : bool) (tag : Z) (msg : list Z) (* mctp_message_tx *)
| CAccept                                (* accept4 on the listening socket *)
| CPoll (fds : list Z)                   (* poll(2), client entries *)
| CProcess                               (* binding->process *)
| CUninit.                               (* value of an uninitialised bool *)

(** Their answers. [CRead1]: the byte, or the non-positive return code.
    [CProcess]: the messages the core delivered meanwhile, the return code. *)
Definition answer (c : call) : Type :=
  match c with
  | CClose _ => unit
  | CSend _ _ => Z
  | CRead1 _ => Z + Z
  | CPeek _ => Z
  | CGrow _ => bool
  | CRecv _ _ => option (list Z)
  | CCapture _ _ => unit
  | CTx _ _ _ _ => Z
  | CAccept => Z
  | CPoll _ => option ready
  | CProcess => list mctp_msg * Z
  | CUninit => bool
  end%type.

(** The constraints the interfaces put on the answers. *)
Definition allowed (c : call) : answer c -> Prop :=
  match c return answer c -> Prop with
  | CRead1 _ => fun a => match a with inl b => is_byte b | inr rc => rc <= 0 end
  | CPeek _ => fun a => -1 <= a
  | CRecv _ n => fun a => match a with
                          | None => True
                          | Some bs => zlen bs <= n /\ Forall is_byte bs
                          end
  | CPoll fds => fun a => match a with
                          | None => True
                          | Some r => length (r_clients r) = length fds
                          end
  | CProcess => fun a => Forall (fun m => is_byte (m_src m)
                                      /\ Forall is_byte (m_bytes m)) (fst a)
  | _ => fun _ => True
  end.

Inductive prog (A : Type) :=
| Ret (a : A)
| Crash                                  (* access outside a table *)
| Do (c : call) (k : answer c -> prog A).
Arguments Ret {A}. Arguments Crash {A}. Arguments Do {A}.

Fixpoint bind {A B} (p : prog A) (f : A -> prog B) : prog B :=
  match p with
  | Ret a => f a
  | Crash => Crash
  | Do c k => Do c (fun a => bind (k a) f)
  end.
Definition ask (c : call) : prog (answer c) := Do c (fun a => Ret a).

Declare Scope dprog_scope.
Notation "'let*' x := p 'in' q" := (bind p (fun x => q))
  (at level 200, x pattern, p at level 100, q at level 200) : dprog_scope.
Notation "p ;; q" := (bind p (fun _ => q)) (at level 60, right associativity) : dprog_scope.
Open Scope dprog_scope.

(** An event is a call with its answer. *)
Inductive ev := Ev (c : call) (a : answer c).

(** [exec p tr r]: [p] can make the calls [tr] and return [r]. *)
Fixpoint exec {A} (p : prog A) (tr : list ev) (r : A) : Prop :=
  match p with
  | Ret a => tr = [] /\ r = a
  | Crash => False
  | Do c k => exists a t, tr = Ev c a :: t /\ allowed c a /\ exec (k a) t r
  end.

(** [crashes p]: some answers lead [p] outside a table. *)
Fixpoint crashes {A} (p : prog A) : Prop :=
  match p with
  | Ret _ => False
  | Crash => True
  | Do c k => exists a, allowed c a /\ crashes (k a)
  end.

(** clients[i], crashing outside the table. *)
Definition client_at (x : ctx) (i : nat) : prog client :=
  match nth_error (d_clients x) i with
  | Some c => Ret c
  | None => Crash
  end.
(** clients[i] = c *)
Definition put {A} (l : list A) (i : nat) (c : A) : list A :=
  firstn i l ++ c :: skipn (S i) l.

(** client_remove_inactive, mctp-demux-daemon.c:91-108. [fuel] only makes the
    recursion structural: it starts at n_clients and [i] grows each time. The
    memmove and the shrinking realloc together delete entry [i]. *)
Fixpoint remove_loop (fuel : nat) (i : nat) (x : ctx) : prog ctx :=
  match fuel with
  | O => Ret x
  | S f =>
      if Nat.ltb i (length (d_clients x)) then
        let* c := client_at x i in
        if c_active c then remove_loop f (S i) x
        else
          ask (CClose (c_sock c));;
          remove_loop f (S i)
            (set_clients x (firstn i (d_clients x) ++ skipn (S i) (d_clients x)))
      else Ret x
  end.
Definition client_remove_inactive (x : ctx) : prog ctx :=
  remove_loop (length (d_clients x)) 0 x.

(** The loop of rx_message, mctp-demux-daemon.c:136-150. *)
Fixpoint forward_loop (fuel : nat) (i : nat) (x : ctx) (eid type : Z)
         (msg : list Z) (removed : bool) : prog (ctx * bool) :=
  match fuel with
  | O => Ret (x, removed)
  | S f =>
      if Nat.ltb i (length (d_clients x)) then
        let* c := client_at x i in
        if negb (c_type c =? type) then forward_loop f (S i) x eid type msg removed
        else
          let* rc := ask (CSend (c_sock c) (eid :: msg)) in
          if negb (rc =? zlen msg + 1) then
            forward_loop f (S i)
              (set_clients x (put (d_clients x) i
                                  (Client false (c_sock c) (c_type c))))
              eid type msg true
          else forward_loop f (S i) x eid type msg removed
      else Ret (x, removed)
  end.

(** rx_message, mctp-demux-daemon.c:110-154. [removed] is never initialised
    (line 117), so its first value comes from the environment. *)
Definition rx_message (x : ctx) (eid : Z) (msg : list Z) : prog ctx :=
  if zlen msg <? 2 then Ret x
  else
    let* u := ask CUninit in
    let* (x1, removed) :=
      forward_loop (length (d_clients x)) 0 x eid (hd 0 msg) msg u in
    if (removed : bool) then client_remove_inactive x1 else Ret x1.

(** socket_process, mctp-demux-daemon.c:324-343. *)
Definition socket_process (x : ctx) : prog (ctx * Z) :=
  let* fd := ask CAccept in
  if fd <? 0 then Ret (x, -1)
  else Ret (set_clients x (d_clients x ++ [Client true fd 0]), 0).

(** client_process_recv, mctp-demux-daemon.c:345-426. The [out_close] path
    writes through the client pointer taken on entry. *)
Definition out_close (x : ctx) (i : nat) (c : client) (rc : Z) : prog (ctx * Z) :=
  Ret (set_clients x (put (d_clients x) i (Client false (c_sock c) (c_type c))), rc).

Definition client_process_recv (x : ctx) (i : nat) : prog (ctx * Z) :=
  let* c := client_at x i in
  if c_type c =? 0 then
    let* r := ask (CRead1 (c_sock c)) in
    match r with
    | inr rc => out_close x i c rc
    | inl type =>
        if type =? 0 then out_close x i c (-1)
        else Ret (set_clients x (put (d_clients x) i
                                     (Client (c_active c) (c_sock c) type)), 0)
    end
  else
    let* len := ask (CPeek (c_sock c)) in
    if len <? 0 then out_close x i c (-1)
    else
      let* (x, ok) :=
        if d_bufsize x <? len then
          let* g := ask (CGrow len) in
          Ret (if (g : bool) then (set_bufsize x len, true) else (x, false))
        else Ret (x, true) in
      if negb ok then out_close x i c (-1)
      else
        let* r := ask (CRecv (c_sock c) (d_bufsize x)) in
        match r with
        | None | Some [] => out_close x i c (-1)
        | Some (eid :: msg) =>
            (if d_capture x then ask (CCapture (eid :: msg) eid) else Ret tt);;
            if eid =? d_eid x then
              let* x1 := rx_message x eid msg in Ret (x1, 0)
            else
              (* tx_message, lines 81-88: MCTP_MESSAGE_TO_SRC is true *)
              ask (CTx eid true 0 msg);;
              Ret (x, 0)
        end.

(** The loop over ready clients, mctp-demux-daemon.c:537-544. *)
Fixpoint recv_loop (fuel : nat) (i : nat) (x : ctx) (rv : list bool) (chg : bool)
  : prog (ctx * bool) :=
  match fuel with
  | O => Ret (x, chg)
  | S f =>
      if Nat.ltb i (length (d_clients x)) then
        match nth_error rv i with
        | None => Crash
        | Some false => recv_loop f (S i) x rv chg
        | Some true =>
            let* (x1, rc) := client_process_recv x i in
            recv_loop f (S i) x1 rv (if rc =? 0 then chg else true)
        end
      else Ret (x, chg)
  end.

(** The messages the core delivers while binding->process runs. *)
Fixpoint deliver (x : ctx) (ms : list mctp_msg) : prog ctx :=
  match ms with
  | [] => Ret x
  | m :: ms => let* x1 := rx_message x (m_src m) (m_bytes m) in deliver x1 ms
  end.

(** One round of the loop of run_daemon, mctp-demux-daemon.c:486-556.
    [None]: the daemon stops. *)
Definition daemon_round (x : ctx) (chg : bool) : prog (option (ctx * bool)) :=
  (* 487-501 *)
  let x := if chg then set_fds x (map c_sock (d_clients x)) else x in
  (* 506: poll looks at n_clients + FD_NR entries *)
  if negb (Nat.leb (length (d_clients x)) (length (d_fds x))) then Crash
  else
    let* r := ask (CPoll (firstn (length (d_clients x)) (d_fds x))) in
    match r with
    | None => Ret None
    | Some r =>
        if r_signal r then Ret None
        else
          let* (x, rc) :=
            if r_binding r then
              let* (ms, rc) := ask CProcess in
              let* x1 := deliver x ms in
              Ret (x1, rc)
            else Ret (x, 0) in
          if negb (rc =? 0) then Ret None
          else
            let* (x, chg) :=
              recv_loop (length (d_clients x)) 0 x (r_clients r) false in
            let* (x, stop, chg) :=
              if r_socket r then
                let* (x1, rc) := socket_process x in
                Ret (x1, negb (rc =? 0), true)
              else Ret (x, false, chg) in
            if (stop : bool) then Ret None
            else
              let* x := if (chg : bool) then client_remove_inactive x else Ret x in
              Ret (Some (x, chg))
    end.

(** run_daemon, mctp-demux-daemon.c:449-561: [n] rounds, [None] once it stops. *)
Fixpoint run_daemon (n : nat) (x : ctx) (chg : bool) : prog (option (ctx * bool)) :=
  match n with
  | O => Ret (Some (x, chg))
  | S n =>
      let* r := daemon_round x chg in
      match r with
      | None => Ret None
      | Some (x1, chg1) => run_daemon n x1 chg1
      end
  end.

(** The state main leaves behind, mctp-demux-daemon.c:586-643, with the local
    EID chosen on the command line. *)
Definition start (eid : Z) (capture : bool) : ctx := Ctx eid 4096 [] [] capture.
