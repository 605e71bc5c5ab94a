# Formal model of openbmc/libmctp in Rocq (Coq 8.16.1)

## Approach

The code is modelled function by function as programs in a small effect
language (`theories/Prog.v`): a program is a tree of *effects* (KCS register
access, shared-window access, call of the serial write function, heap
allocation, observable event) ending in a result or in an explicit fault
(`AssertFail`, `NullDeref`, `UseAfterFree`, `DoubleFree`, `OutOfBounds`,
`OutOfFuel`). `run` gives a program its meaning in an environment that answers
every effect; the environment is universally quantified, so it stands for every
peer, heap, serial line and timing. The same programs are executed

* by `run` against an arbitrary environment (single-library properties), and
* by the two-party machine of `theories/TwoParty.v`, which interleaves the
  effects of a BMC-side and a host-side libmctp at the granularity of single
  register and window accesses on a model of the KCS hardware and the window.

`always a p Q` reads: in every environment allowed by the assumptions `a`, `p`
runs to completion without fault and result and trace satisfy `Q`.
`can_fault a p f`: some allowed environment makes `p` fault with `f`.

Files (theories/):

| file | content |
|---|---|
| Base, Lists, Prog | integers/wraps, byte ranges, effect language, `run`, `always` |
| PktBuf, Core | core.c |
| Queue | the linked list behind the transmit queue (core.c) |
| Crc | crc-16-ccitt.c, crc32.c |
| Serial | serial.c |
| Astlpc | astlpc.c |
| TwoParty, TwoBytes, Lives | two astlpc endpoints, KCS hardware, shared window, interleaving (by access, and by byte); crashes and restarts |
| Daemon, Capture, Alloc | utils/mctp-demux-daemon.c, utils/mctp-capture.c, alloc.c |
| Pipe | utils/mctp-pipe.c, utils/mctp-in.c |
| Spec, SpecRx, SpecSer, SpecAst, SpecDuo, SpecLive | independent specifications used in theorem statements |
| WP, Walk, CoreRel, WalkCore, CoreHist, Trace | weakest preconditions; what each core call does to state and trace; histories of calls |
| PropTx, PropMsg, PropRx, PropRound, PropTap, PropBridge, PropLife, PropOom, PropPkt, PropCrc, PropQueue, Many, PropMany | theorems about the core (Reasm: reassembly; Refute: refutations; Concrete: running the model) |
| SerRx, SerWalk, PropSer, PropSerTx, PropSerRound, PropSerStream | theorems about serial.c |
| AstBasic, AstWalk, PropAst, CrcSpan, CrcDist, PropBits, AstRx, AstPoll, AstTrace, PropAstTrace, AstDown, PropDestroy, Foot, PropFoot, PropAstOom | theorems about astlpc.c against an arbitrary peer |
| DuoInv, DuoPast, DuoWalk, PropDuo, DuoMsg, PropDuoMsg, DuoLive, PropLive, LostWakeup, PropServe, PropPollfd, PropBytes, PropLives, PropRestart | theorems about the two-party machine: invariant, history relation of each side, packets, messages, progress |
| Startup, PropStartup, ExamplesStart | creation of bindings on files and start of the demux daemon: own language of system calls, resources held, C73/C74 |
| Fileio, PropFileio | an astlpc binding on files: register and window accesses as system calls and memory copies, C84 |
| DaemonOom, PropDaemonOom | the daemon when its unchecked table allocations fail, C85 |
| PropAgain | an object registered and unregistered repeatedly, C86 |
| PropTxDone | what mctp_astlpc_tx_done tells about the other side, C87 |
| Relay, PropRelay, ExamplesRelay | what a serial bridge writes; streams over chains of serial bridges, C88 |
| PropLeak, ExamplesLeak | how many buffers the serial receiver loses, C89 |
| Options, PropOptions | command line of the demux daemon, C77 |
| Log | log.c, C78 |
| PropDaemon, DaemonRun, DaemonBugs, PropClients, PropLink, DaemonMon, PropBuf, PropStop, PropLpcDaemon, PropCapture, PropPipe | theorems about the utilities |
| Examples* | non-vacuity witnesses |
| Assumptions | `Print Assumptions` for every theorem of the manifest |

## Per-property plan

`inv` = invariant by induction over an arbitrary operation history (fold over
ops), `alg` = algebraic law, `ref` = refutation by a concrete execution of the
model (`vm_compute`), `ri` = two-party invariant over all interleavings.

| id | modelled | how |
|---|---|---|
| C01 | message_tx loop | alg: trace of enqueued packets equals an independent packetisation predicate |
| C02 | tx queue, packet_tx, set_tx_enabled | inv over histories, any binding behaviour |
| C03 | bus state | inv on the trace |
| C04 | message_tx | alg, by cases |
| C05 | bus_rx, contexts | inv relating every context to a suffix of the packets received |
| C06 | tx + bus_rx | alg: induction over the fragments; also interleaved with other traffic |
| C07 | contexts | inv |
| C08 | bus_rx | alg |
| C09 | mctp_rx | alg |
| C10 | ctrl_handle | ref + exact characterisation |
| C11 | contexts | inv |
| C12 | add_pkt | ref (3 witnesses) + alg for the default limit (in C06) |
| C13 | packet identities | inv on alloc/free events |
| C14 | bus_rx, tx | inv: no fault |
| C15 | add_pkt, destroy | ref (2 witnesses); positive part (PropOom): every run with failing allocations is a run without failures in which the limit is 0 for some packets |
| C16 | contexts, EID 0 | ref |
| C17 | contexts | ref |
| C18 | rx_bridge | alg |
| C19 | set_tx_enabled | inv + alg |
| C20 | register/unregister/destroy | inv (no fault, everything freed) + ref |
| C21 | pktbuf ops | inv + alg + ref (wrap) |
| C22 | serial tx and rx | alg: induction over the frame bytes |
| C23 | serial rx | inv relating receiver state to a suffix of the input |
| C24 | serial rx | inv: no fault; ref for allocation failure |
| C25 | serial rx | inv with a decreasing measure |
| C26 | serial rx | ref + positive part from C13 |
| C27 | serial tx, write_all | alg + ref (endless loop for every fuel) |
| C28 | core + serial, both ends | composition of C01, C22, C06 |
| C29 | CRCs | alg against bit-serial specification |
| C30 | CRCs | alg: linearity/injectivity |
| C31 | negotiate_version | alg |
| C32 | layout_validate | alg |
| C33 | init_bmc | alg over all requested MTUs |
| C34 | two-party machine (TwoParty.v) | ri: the invariant of DuoInv.v, established by DuoWalk.v |
| C35 | poll, tx vs arbitrary peer | inv (BMC; host under constraint) + ref (host) |
| C36 | protect/validate, rx_start, poll | C36_intact, C36_damaged, C36_checked over every reachable state and peer; the 2+2-byte straddling exception is refuted by C30_protected_sharp and excluded by hypothesis |
| C37 | two-party machine | ri |
| C38 | two-party machine | ri |
| C39 | poll, init_pollfd | alg |
| C40 | astlpc tx + queue | ref |
| C41 | v1 negotiation | ref |
| C42 | channel down | ref + alg |
| C43 | BMC restart | ref (invariant: never sends Initialise again) + alg |
| C44, C45 | daemon | alg + ref |
| C46 | capture | alg + ref |
| C47 | alloc.c hooks over a heap | induction over histories + refutation (free NULL) |
| C48 | daemon | refutation + induction over rounds |
| C49 | daemon | induction over rounds (spins for every n) |
| C50-C53 | daemon, whole runs | one relation `moves` for every part, composed; induction over rounds |
| C55 | astlpc_destroy on the device of TwoParty.v, then the host's poll | alg; C42 for the host |
| C54 | two-party machine | a concrete schedule (by computation), then induction over the polls |
| C56 | two-party machine, both cores | ri for the packets (C38), then a relation between each side's calls and its trace (DuoPast, DuoMsg) and the reassembly of PropRound folded over the messages |
| C57 | two-party machine; calls chosen as the session goes (SpecLive) | ri extended by counts of each side's exchanges; a poll seen as a program over a constant status register; potential argument: activity is bounded by 5 per packet plus a constant and every round raises it or delivers |
| C58 | Queue: head/tail pointers, next links, heap with address reuse | simulation: the linked-list programs and the list programs are the same effect tree up to a representation relation |
| C59 | send loop with a re-entrant binding->tx | ref, for every queue content |
| C60 | Core + Astlpc, any peer | trace invariant (queue order, enabledness, buffer ownership) carried through every astlpc entry point: AstTrace proves that a trace invariant kept by the core's relations, by I/O events and by the receive path is kept by every history; PropAstTrace instantiates it |
| C61 | same | same, with the reassembly invariant CI of PropRx and `from_window` |
| C62 | both CRC routines as shift registers; receivers of serial.c and astlpc.c | linearity: error patterns as sums of register states; period by factoring 2^15-1 and 2^32-1 (divisor argument plus matrix powers, computed); no three-term relation up to 91639 by a table checked by computation; parity for CRC-16 |
| C63 | core as in C01-C07, capture events | per-step lemma on the transition relations: captures of a step = packets passed in that step while the handler is set; induction over histories |
| C64 | all of astlpc.c | trace logic for partial correctness (Foot.v, faults allowed); invariant on the binding's layout: blank, or within the configured areas (BMC) / as announced by a header read before (host); layout validation gives bounds and disjointness |
| C65 | serial.c, core.c | receiver automaton of C22 and reassembly of a message stream (as in C53) composed with the sender's byte stream |
| C66 | utils/mctp-pipe.c, utils/mctp-in.c | inv over the loop's iterations (stream of C65); counting for the deadlock |
| C67 | both astlpc sides, an answering application (utils/mctp-astlpc-daemon.c) | ri (C56/C57 in both directions; the BMC hears nothing before it is enabled), ref for the host |
| C68 | both astlpc sides calling poll only when the descriptor mctp_astlpc_init_pollfd describes is ready | ri (readiness lasts until the side acts; not both can wait for their own register), ref for the handshake |
| C69 | the two-party machine with window copies split into bytes (ascending), any interleaving in between | forward simulation by the machine of C37/C38, from the fact that the sides never race on a byte (except one whose value does not change) |
| C70 | the two-party machine plus killing and restarting a side at any access, and orderly shutdown | inv: wp (no fault) and footprint (Foot.v) of the rest of each side's program are preserved by steps of either side, calls, shutdown and restarts; header contents invariant for the areas |
| C71 | the same machine | ref (stale announcement after a host restart); ri for the stall under polls |
| C72 | the same machine, [alone] (BMC first) and [limps] (no host restart, no orderly stop) | alg for the cold restart (the registration overwrites what was left), ri for the crash of the BMC |
| C73 | Startup.v: system calls of mctp_astlpc_init_fileio and destroy | alg: weakest precondition over the call tree, resources as a fold over the calls; ref for the leaks |
| C74 | Startup.v: main of the demux daemon, capture_prepare/close, socket_init, binding_*_init | alg as C73; ref for the ignored failures |
| C75 | Core.v | inv over histories: the reassembly state splits into one expectation per sender (Many.v: `expects`), each advanced only by its own packets; sends by `thist` (each call and callback with its packets); ref for 17 senders |
| C76 | Astlpc.v, Core.v | inv with allocation failures in reception only (programs that never allocate keep their proof: `calmly`); the wedge by running the poll and a footprint argument over all later histories |
| C77 | Options.v: getopt_long/atoi as documented, main's option loop | alg: a grammar of command lines (`command`) against the scanner, both directions by induction over the words; loopback from C44/C52 over whole runs |
| C78 | Log.v: log.c | inv over histories of settings and messages; the specification is shown deterministic |
| C79 | Daemon.v | inv over rounds: the table has exactly one, active entry for the client; what is sent equals what each event owes (`due`), lost to nothing that happens to other entries |
| C80 | Daemon.v, Serial.v, Core.v | a record ties the calls of a daemon's run to the operations of its stack; sending interleaved with silent reception still writes exactly the frames (wp walk), then C65's receiver lemma, C52 and C79_type |
| C81 | Daemon.v | DaemonMon.v: a monitor (state machine over the calls) with a weakest precondition over the daemon's program; the monitor tracks buffer size, the last peek and the capture that is due |
| C82 | Daemon.v | the same with a monitor that remembers whether a cause occurred; SIGPIPE by `piped`: runs cut off at a send to a client that hung up |
| C83 | Daemon.v + TwoParty.v | the BMC side of the two-party machine makes the calls of a daemon run; composition of C56, C52 and C79 |
| C84 | Fileio.v + Startup.v | code of the effect language is run on system calls and mapped memory (`on_files`); simulation with `run` both ways; composition of C35, C64 and C73 |
| C85 | DaemonOom.v | the daemon with fallible table allocations; simulation by Daemon.v up to the first failure; monitor with three moods (fine, table lost, dead) after it; stale entries refuted by a run |
| C86 | PropAgain.v | the trace invariants of C02, C03, C05 and C13 restated from any starting state (`hist_inv`); a state predicate for "on the bus" and one for "off"; registration and unregistration go from one to the other; what was live at an unregistration stays unreleased for good |
| C87 | PropTxDone.v | from C57's invariants: between calls of an enabled side, transmit buffer `Acquired` iff the ghost transmit state is free iff as many Rx Complete were read as packets offered; free ghost state empties the direction relation; C57's quiet period gives the moment at which the answer is yes again. C87_early_refuted: before the channel is active the answer means nothing |
| C88 | Relay.v, PropRelay.v | `conveyed` (inductive over the API: an endpoint's writes, then runs of bridges fed with a beginning of what was conveyed) says how bytes get to the receiver. Core walk redone with a side condition on return codes (WalkCore, section WalkRet) shows that a bridge's writes are the frames of the packets its core gives to the binding and that no such call fails; receiver automaton (C22), reassembly of a stream (C53, C65) and C04's packets then say that a bridge writes the packets of the messages it has got in full (`carried`), by induction over the chain; last hop as C65. Limits: a bridge is fed on one line only in the stretch considered, and no write fails or stalls |
| C89 | PropLeak.v | C26's books with the number of lost buffers counted at every step of the receiver automaton (C22): a buffer is held exactly in the states after an accepted header, and leaves them unfreed only at the last byte of a damaged frame; `damaged_in` (inductive, over the bytes only) is proved to agree with that count |

## Trusted base

* Coq 8.16.1's kernel, including its bytecode conversion (`vm_compute` is used
  in concrete examples and in finite case checks).
* `Print Assumptions` answers "Closed under the global context" for every
  theorem named in MANIFEST.json (theories/Assumptions.v prints it for all of
  them). No axiom is declared anywhere. The list of axioms vcheck prints
  (`Coq.ssr.ssrunder.*`) are module parameters that the standard library's
  ssreflect loads; no theorem depends on them.
* The reading of the C code in theories/{Base,Prog,PktBuf,Core,Crc,Serial,
  Astlpc,Daemon,Capture,Alloc,TwoParty,Queue,Pipe,Startup}.v. Every definition cites the
  lines it models.
* The meaning of the statements: theories/Spec*.v and the definitions placed
  directly before each theorem.

### Modelled

core.c, serial.c, log.c, astlpc.c (including the file-descriptor independent part of
both modes, all three protocol versions), crc32.c, crc-16-ccitt.c, alloc.c,
utils/mctp-capture.c, utils/mctp-pipe.c, utils/mctp-in.c, and of utils/mctp-demux-daemon.c everything from
`tx_message` to `run_daemon`, the option parsing (Options.v), the start-up and exit of `main` with the `binding_*` wrappers (Startup.v, also mctp_astlpc_init_fileio and
mctp_serial_init/open_path).

### Not modelled

The log messages each function makes (log.c itself is in Log.v; the calls have no effect
on the modelled state),
option parsing of the other utilities, the start-up of mctp-pipe and mctp-in (of
utils/mctp-astlpc-daemon.c only the message handler and the
polling loop are modelled, in PropServe.v), build-time variants other
than the default configuration (MCTP_HAVE_FILEIO on, NO_STATIC build options).

### Simplifications

* size_t is 64 bits, unsigned arithmetic is written with explicit wraps where
  the C code can wrap; `int` counters of packets are unbounded.
* getopt_long(3) and atoi(3) behave as glibc documents (Options.v); their error messages
  are not modelled.
* `sizeof(*buf) + size` in mctp_pktbuf_alloc does not wrap.
* LPC window accesses succeed (direct map); a failing KCS access returns an
  error without side effect. One lpc_read/lpc_write is one effect in
  TwoParty; TwoBytes splits it into bytes (ascending order, as a plain copy loop) and
  C69 shows that this makes no difference to the two-party theorems.
  C37 proves that two sides never access overlapping bytes concurrently with
  one of them writing, so splitting an access would not be observable there;
  the one exception is the 16-bit negotiated version, which changes from 0 to 3
  in its low byte only.
* Heap: an allocation may fail at any point the environment chooses; freed
  packet buffers are never reused (ghost identities), so use after free and
  double free are faults. Uninitialised memory reads as `poison`, not a byte.
* The application's reaction in the rx callback is an arbitrary list of
  mctp_message_tx calls, depending on everything received; other re-entrant
  calls are excluded. binding->tx may call mctp_binding_set_tx_enabled(false)
  and nothing else in the core. Generic core theorems quantify over arbitrary
  such bindings ("scripted" bindings).
* One mctp instance has at most the two busses mctp_bridge_busses sets up; a
  registered binding is binding 0.
* mctp_serial: the write loop has a fuel; theorems ask for at least 256, and
  running out of it is what "spins" means in C27.
* astlpc rx under protocol 1/2 with a body of 0 bytes reads an uninitialised
  version byte: it counts as "not version 1", so the packet is dropped.
* `ast_history`: an application that sees mctp_register_bus fail makes no
  further calls on that binding.
* Two-party machine: KCS hardware as one byte each way with IBF/OBF flags and
  the upper status bits owned by the BMC.
* mctp-pipe: the socket between its two ends holds a number of bytes; writes to
  it do not fail, writes to standard output are complete, allocations succeed.
* Daemon: a send to a client that hung up returns an error; that it raises SIGPIPE and so
  ends the process is modelled separately (`piped`, C82).
* Daemon: table reallocations succeed (their failure is modelled separately, DaemonOom.v, C85;
  realloc to 0 entries frees, as in glibc); system calls return any value allowed by
  their interfaces.
