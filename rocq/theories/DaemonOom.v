(** DaemonOom: the demultiplexing daemon of /repo/utils/mctp-demux-daemon.c once more, with the
    allocations of its two tables, which Daemon.v leaves out: every one of them may fail, none is
    checked.

    The functions are those of Daemon.v with the tables made explicit; see there for what else is
    simplified. *)
From Verif Require Import Base Lists Daemon.

(** Which table is reallocated: clients at line 335 (accept) or 104 (removal), pollfds at 492; the
    first allocation of pollfds (line 463) counts as the last. *)
Inductive table := Accepting | Removing | Polling.

(** Programs: the calls of Daemon.v; the reallocation of a table to [n] entries, answered by whether
    it succeeded; the contents of [n] entries of a fresh allocation. *)
Inductive tprog (A : Type) :=
| TRet (a : A)
| TCrash                                   (* access through a null or outside a table *)
| TDo (c : call) (k : answer c -> tprog A)
| TTable (t : table) (n : nat) (k : bool -> tprog A)
| TJunk (n : nat) (k : list client -> tprog A).
Arguments TRet {A}. Arguments TCrash {A}. Arguments TDo {A}. Arguments TTable {A}. Arguments TJunk {A}.

Fixpoint tbind {A B} (p : tprog A) (f : A -> tprog B) : tprog B :=
  match p with
  | TRet a => f a
  | TCrash => TCrash
  | TDo c k => TDo c (fun a => tbind (k a) f)
  | TTable t n k => TTable t n (fun a => tbind (k a) f)
  | TJunk n k => TJunk n (fun a => tbind (k a) f)
  end.
Definition call_ (c : call) : tprog (answer c) := TDo c (fun a => TRet a).

Declare Scope tprog_scope.
Notation "'let+' x := p 'in' q" := (tbind p (fun x => q))
  (at level 200, x pattern, p at level 100, q at level 200) : tprog_scope.
Open Scope tprog_scope.

Inductive tev := Call (e : ev) | Table (t : table) (n : nat) (ok : bool) | Junk (l : list client).

(** [trun p tr e]: [p] can do [tr] and then end: [Some r], it returns [r]; [None], it is killed. *)
Fixpoint trun {A} (p : tprog A) (tr : list tev) (e : option A) : Prop :=
  match p with
  | TRet a => tr = [] /\ e = Some a
  | TCrash => tr = [] /\ e = None
  | TDo c k => exists a t, tr = Call (Ev c a) :: t /\ allowed c a /\ trun (k a) t e
  | TTable t n k => exists ok r, tr = Table t n ok :: r /\ trun (k ok) r e
  | TJunk n k => exists l r, tr = Junk l :: r /\ length l = n /\ trun (k l) r e
  end.

(** struct ctx, mctp-demux-daemon.c:62-79, as in Daemon.v; [t_gone]: ctx->clients is NULL although
    n_clients is not 0, so that the contents [d_clients] records are lost and only their number counts. *)
Record tctx := TCtx { t_ctx : ctx; t_gone : bool }.
Definition t_clients (x : tctx) : list client := d_clients (t_ctx x).
Definition t_set (x : tctx) (l : list client) : tctx := TCtx (set_clients (t_ctx x) l) (t_gone x).

(** clients[i] *)
Definition t_client_at (x : tctx) (i : nat) : tprog client :=
  if t_gone x then TCrash
  else match nth_error (t_clients x) i with Some c => TRet c | None => TCrash end.

(** client_remove_inactive, mctp-demux-daemon.c:91-108. The reallocation to 0 entries frees the table
    (glibc) and leaves NULL and n_clients = 0. *)
Fixpoint t_remove_loop (fuel : nat) (i : nat) (x : tctx) : tprog tctx :=
  match fuel with
  | O => TRet x
  | S f =>
      if Nat.ltb i (length (t_clients x)) then
        let+ c := t_client_at x i in
        if c_active c then t_remove_loop f (S i) x
        else
          let+ _ := call_ (CClose (c_sock c)) in
          let l := firstn i (t_clients x) ++ skipn (S i) (t_clients x) in
          match l with
          | [] => t_remove_loop f (S i) (t_set x l)
          | _ => TTable Removing (length l) (fun ok =>
                   t_remove_loop f (S i) (TCtx (set_clients (t_ctx x) l) (negb ok)))
          end
      else TRet x
  end.
Definition t_client_remove_inactive (x : tctx) : tprog tctx :=
  t_remove_loop (length (t_clients x)) 0 x.

(** The loop of rx_message, mctp-demux-daemon.c:136-150. *)
Fixpoint t_forward_loop (fuel : nat) (i : nat) (x : tctx) (eid type : Z)
         (msg : list Z) (removed : bool) : tprog (tctx * bool) :=
  match fuel with
  | O => TRet (x, removed)
  | S f =>
      if Nat.ltb i (length (t_clients x)) then
        let+ c := t_client_at x i in
        if negb (c_type c =? type) then t_forward_loop f (S i) x eid type msg removed
        else
          let+ rc := call_ (CSend (c_sock c) (eid :: msg)) in
          if negb (rc =? zlen msg + 1) then
            t_forward_loop f (S i)
              (t_set x (put (t_clients x) i (Client false (c_sock c) (c_type c))))
              eid type msg true
          else t_forward_loop f (S i) x eid type msg removed
      else TRet (x, removed)
  end.

(** rx_message, mctp-demux-daemon.c:110-154. *)
Definition t_rx_message (x : tctx) (eid : Z) (msg : list Z) : tprog tctx :=
  if zlen msg <? 2 then TRet x
  else
    let+ u := call_ CUninit in
    let+ (x1, removed) :=
      t_forward_loop (length (t_clients x)) 0 x eid (hd 0 msg) msg u in
    if (removed : bool) then t_client_remove_inactive x1 else TRet x1.

(** socket_process, mctp-demux-daemon.c:324-343: a failed reallocation is written through (memset,
    line 339); if there was no table, the entries before the new one are whatever malloc returned. *)
Definition t_socket_process (x : tctx) : tprog (tctx * Z) :=
  let+ fd := call_ CAccept in
  if fd <? 0 then TRet (x, -1)
  else TTable Accepting (S (length (t_clients x))) (fun ok =>
    if negb ok then TCrash
    else if t_gone x then
      TJunk (length (t_clients x)) (fun l =>
        TRet (TCtx (set_clients (t_ctx x) (l ++ [Client true fd 0])) false, 0))
    else TRet (t_set x (t_clients x ++ [Client true fd 0]), 0)).

(** client_process_recv, mctp-demux-daemon.c:345-426. *)
Definition t_out_close (x : tctx) (i : nat) (c : client) (rc : Z) : tprog (tctx * Z) :=
  TRet (t_set x (put (t_clients x) i (Client false (c_sock c) (c_type c))), rc).

Definition t_client_process_recv (x : tctx) (i : nat) : tprog (tctx * Z) :=
  let+ c := t_client_at x i in
  if c_type c =? 0 then
    let+ r := call_ (CRead1 (c_sock c)) in
    match r with
    | inr rc => t_out_close x i c rc
    | inl type =>
        if type =? 0 then t_out_close x i c (-1)
        else TRet (t_set x (put (t_clients x) i
                                (Client (c_active c) (c_sock c) type)), 0)
    end
  else
    let+ len := call_ (CPeek (c_sock c)) in
    if len <? 0 then t_out_close x i c (-1)
    else
      let+ (x, ok) :=
        if d_bufsize (t_ctx x) <? len then
          let+ g := call_ (CGrow len) in
          TRet (if (g : bool) then (TCtx (set_bufsize (t_ctx x) len) (t_gone x), true) else (x, false))
        else TRet (x, true) in
      if negb ok then t_out_close x i c (-1)
      else
        let+ r := call_ (CRecv (c_sock c) (d_bufsize (t_ctx x))) in
        match r with
        | None | Some [] => t_out_close x i c (-1)
        | Some (eid :: msg) =>
            let+ _ := (if d_capture (t_ctx x) then call_ (CCapture (eid :: msg) eid) else TRet tt) in
            if eid =? d_eid (t_ctx x) then
              let+ x1 := t_rx_message x eid msg in TRet (x1, 0)
            else
              let+ _ := call_ (CTx eid true 0 msg) in
              TRet (x, 0)
        end.

(** The loop over ready clients, mctp-demux-daemon.c:537-544. *)
Fixpoint t_recv_loop (fuel : nat) (i : nat) (x : tctx) (rv : list bool) (chg : bool)
  : tprog (tctx * bool) :=
  match fuel with
  | O => TRet (x, chg)
  | S f =>
      if Nat.ltb i (length (t_clients x)) then
        match nth_error rv i with
        | None => TCrash
        | Some false => t_recv_loop f (S i) x rv chg
        | Some true =>
            let+ (x1, rc) := t_client_process_recv x i in
            t_recv_loop f (S i) x1 rv (if rc =? 0 then chg else true)
        end
      else TRet (x, chg)
  end.

(** The messages the core delivers while binding->process runs. *)
Fixpoint t_deliver (x : tctx) (ms : list mctp_msg) : tprog tctx :=
  match ms with
  | [] => TRet x
  | m :: ms => let+ x1 := t_rx_message x (m_src m) (m_bytes m) in t_deliver x1 ms
  end.

(** mctp-demux-daemon.c:487-501: the copy of the descriptors writes through pollfds (killed at once if
    that is NULL) and reads through clients. With no clients neither is touched, but poll is called
    with NULL, fails with EFAULT, and the daemon stops ([None]). *)
Definition t_refresh (x : tctx) : tprog (option tctx) :=
  TTable Polling (length (t_clients x) + 3) (fun ok =>
    match t_clients x with
    | [] => TRet (if ok then Some (TCtx (set_fds (t_ctx x) []) (t_gone x)) else None)
    | l => if negb ok || t_gone x then TCrash
           else TRet (Some (TCtx (set_fds (t_ctx x) (map c_sock l)) (t_gone x)))
    end).

(** One round of the loop of run_daemon, mctp-demux-daemon.c:486-556. *)
Definition t_round (x : tctx) (chg : bool) : tprog (option (tctx * bool)) :=
  let+ y := if chg then t_refresh x else TRet (Some x) in
  match y with
  | None => TRet None
  | Some x =>
    if negb (Nat.leb (length (t_clients x)) (length (d_fds (t_ctx x)))) then TCrash
    else
      let+ r := call_ (CPoll (firstn (length (t_clients x)) (d_fds (t_ctx x)))) in
      match r with
      | None => TRet None
      | Some r =>
          if r_signal r then TRet None
          else
            let+ (x, rc) :=
              if r_binding r then
                let+ (ms, rc) := call_ CProcess in
                let+ x1 := t_deliver x ms in
                TRet (x1, rc)
              else TRet (x, 0) in
            if negb (rc =? 0) then TRet None
            else
              let+ (x, chg) :=
                t_recv_loop (length (t_clients x)) 0 x (r_clients r) false in
              let+ (x, stop, chg) :=
                if r_socket r then
                  let+ (x1, rc) := t_socket_process x in
                  TRet (x1, negb (rc =? 0), true)
                else TRet (x, false, chg) in
              if (stop : bool) then TRet None
              else
                let+ x := if (chg : bool) then t_client_remove_inactive x else TRet x in
                TRet (Some (x, chg))
      end
  end.

(** run_daemon, mctp-demux-daemon.c:449-561: [n] rounds. *)
Fixpoint t_rounds (n : nat) (x : tctx) (chg : bool) : tprog (option (tctx * bool)) :=
  match n with
  | O => TRet (Some (x, chg))
  | S n =>
      let+ r := t_round x chg in
      match r with
      | None => TRet None
      | Some (x1, chg1) => t_rounds n x1 chg1
      end
  end.
(** With its first allocation, line 463, written through at line 480. *)
Definition t_run_daemon (n : nat) (eid : Z) (capture : bool) : tprog (option (tctx * bool)) :=
  TTable Polling 3 (fun ok => if ok then t_rounds n (TCtx (start eid capture) false) false else TCrash).
