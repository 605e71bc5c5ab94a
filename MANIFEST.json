{
 "claims": [
  {
   "property": "C01",
   "status": "proved",
   "theorems": [
    "C01_packetisation"
   ],
   "note": ""
  },
  {
   "property": "C02",
   "status": "proved",
   "theorems": [
    "C02_fifo"
   ],
   "note": ""
  },
  {
   "property": "C03",
   "status": "proved",
   "theorems": [
    "C03_tx_only_enabled"
   ],
   "note": ""
  },
  {
   "property": "C04",
   "status": "proved",
   "theorems": [
    "C04_checks",
    "C04_no_bus"
   ],
   "note": ""
  },
  {
   "property": "C05",
   "status": "proved",
   "theorems": [
    "C05_reassembly_sound"
   ],
   "note": ""
  },
  {
   "property": "C06",
   "status": "proved",
   "theorems": [
    "C06_reassembly_complete",
    "C06_round_trip"
   ],
   "note": ""
  },
  {
   "property": "C07",
   "status": "proved",
   "theorems": [
    "C07_contexts"
   ],
   "note": ""
  },
  {
   "property": "C08",
   "status": "proved",
   "theorems": [
    "C08_foreign"
   ],
   "note": ""
  },
  {
   "property": "C09",
   "status": "proved",
   "theorems": [
    "C09_dispatch"
   ],
   "note": ""
  },
  {
   "property": "C10",
   "status": "proved",
   "theorems": [
    "C10_swapped_args",
    "C10_refuted"
   ],
   "note": "property is false of the code: refutation and exact characterisation"
  },
  {
   "property": "C11",
   "status": "proved",
   "theorems": [
    "C11_memory_bound"
   ],
   "note": ""
  },
  {
   "property": "C12",
   "status": "proved",
   "theorems": [
    "C12_accepts",
    "C12_small_limit_useless",
    "C12_refuted_small_limit",
    "C12_refuted_odd_limit",
    "C12_refuted_large_fragments"
   ],
   "note": "property is false of the code in general; the positive part is C12_accepts"
  },
  {
   "property": "C13",
   "status": "proved",
   "theorems": [
    "C13_buffers"
   ],
   "note": ""
  },
  {
   "property": "C14",
   "status": "proved",
   "theorems": [
    "C14_no_fault"
   ],
   "note": ""
  },
  {
   "property": "C15",
   "status": "proved",
   "theorems": [
    "C15_refuted",
    "C15_use_after_free",
    "C15_double_free",
    "C15_tx_null_deref",
    "C15_survived",
    "C15_survived_sound",
    "C15_sharp"
   ],
   "note": "property is false of the code: refutation; holds for receivers with a limit below 8192, and the bound is sharp"
  },
  {
   "property": "C16",
   "status": "proved",
   "theorems": [
    "C16_refuted",
    "C16_resurrected"
   ],
   "note": "property is false of the code for source EID 0: refutation; positive part is C05"
  },
  {
   "property": "C17",
   "status": "proved",
   "theorems": [
    "C17_refuted"
   ],
   "note": "property is false of the code: refutation"
  },
  {
   "property": "C18",
   "status": "proved",
   "theorems": [
    "C18_bridge"
   ],
   "note": ""
  },
  {
   "property": "C19",
   "status": "proved",
   "theorems": [
    "C19_set_tx_enabled",
    "C19_never_constructed"
   ],
   "note": ""
  },
  {
   "property": "C20",
   "status": "proved",
   "theorems": [
    "C20_destroy",
    "C20_failed_start",
    "C20_unregister_destroy_double_free",
    "C20_register_oom_null_deref",
    "C20_unregister_leaks"
   ],
   "note": ""
  },
  {
   "property": "C21",
   "status": "proved",
   "theorems": [
    "C21_pktbuf",
    "C21_push_pop",
    "C21_push_wraps",
    "C21_alloc_refused"
   ],
   "note": ""
  },
  {
   "property": "C22",
   "status": "proved",
   "theorems": [
    "C22_framing",
    "C22_round_trip"
   ],
   "note": ""
  },
  {
   "property": "C23",
   "status": "proved",
   "theorems": [
    "C23_only_frames"
   ],
   "note": ""
  },
  {
   "property": "C24",
   "status": "proved",
   "theorems": [
    "C24_no_fault",
    "C24_refuted_oom",
    "C24_before_oom"
   ],
   "note": ""
  },
  {
   "property": "C25",
   "status": "proved",
   "theorems": [
    "C25_resync",
    "C25_resync_then_frames",
    "C25_sharp"
   ],
   "note": ""
  },
  {
   "property": "C26",
   "status": "proved",
   "theorems": [
    "C26_buffers",
    "C26_refuted"
   ],
   "note": "property is false of the code: refutation, and exact accounting of the buffers"
  },
  {
   "property": "C27",
   "status": "proved",
   "theorems": [
    "C27_tx",
    "C27_spins"
   ],
   "note": ""
  },
  {
   "property": "C28",
   "status": "proved",
   "theorems": [
    "C28_receive",
    "C28_end_to_end"
   ],
   "note": ""
  },
  {
   "property": "C29",
   "status": "proved",
   "theorems": [
    "C29_crc16",
    "C29_crc32",
    "C29_unique16",
    "C29_unique32",
    "C29_incremental",
    "C29_check"
   ],
   "note": ""
  },
  {
   "property": "C30",
   "status": "proved",
   "theorems": [
    "C30_burst16",
    "C30_burst32",
    "C30_window16",
    "C30_window32",
    "C30_sharp16"
   ],
   "note": ""
  },
  {
   "property": "C31",
   "status": "proved",
   "theorems": [
    "C31_negotiate",
    "C31_index"
   ],
   "note": ""
  },
  {
   "property": "C32",
   "status": "proved",
   "theorems": [
    "C32_validate"
   ],
   "note": ""
  },
  {
   "property": "C33",
   "status": "proved",
   "theorems": [
    "C33_published",
    "C33_largest",
    "C33_refused",
    "C33_asserts"
   ],
   "note": ""
  },
  {
   "property": "C34",
   "status": "proved",
   "theorems": [
    "C34_agreement",
    "C34_refused"
   ],
   "note": "two-party model, every interleaving; C38_example shows a complete run"
  },
  {
   "property": "C35",
   "status": "proved",
   "theorems": [
    "C35_bmc",
    "C35_host",
    "C35_host_initialise",
    "C35_host_null_op"
   ],
   "note": "BMC: any peer; host: any BMC obeying sane_bmc (never channel-active without bmc-ready, published window arbitrary); two concrete counterexamples show the host needs that assumption"
  },
  {
   "property": "C36",
   "status": "proved",
   "theorems": [
    "C36_intact",
    "C36_damaged",
    "C36_checked",
    "C36_sent",
    "C30_protected",
    "C30_protected_sharp"
   ],
   "note": "every reachable state, every peer; the one undetected position (last two packet bytes with first two trailer bytes) is excluded in C36_damaged and exhibited in C30_protected_sharp"
  },
  {
   "property": "C37",
   "status": "proved",
   "theorems": [
    "C37_exclusive",
    "C37_commands"
   ],
   "note": "every interleaving from power-on, no register I/O errors (the model of the KCS device is TwoParty.v)"
  },
  {
   "property": "C38",
   "status": "proved",
   "theorems": [
    "C38_delivery",
    "C38_no_fault"
   ],
   "note": "every interleaving from power-on; C38_example and C38_in_flight show non-trivial reachable states"
  },
  {
   "property": "C39",
   "status": "proved",
   "theorems": [
    "C39_pollfd",
    "C39_tx",
    "C39_rx",
    "C39_poll",
    "C39_kept"
   ],
   "note": "every reachable state, every environment; a refused hand-off makes POLLOUT asked for, every poll attempts it first, and it goes on waiting until written unless the channel is restarted"
  },
  {
   "property": "C40",
   "status": "proved",
   "theorems": [
    "C40_refuted",
    "C40_no_error"
   ],
   "note": "refuted by a concrete history with one failing KCS access; the positive part (no KCS error: the packet leaves the queue) holds for every packet, state and environment"
  },
  {
   "property": "C41",
   "status": "proved",
   "theorems": [
    "C41_refuted",
    "C41_bmc_keeps",
    "C41_host_keeps"
   ],
   "note": "refuted by a concrete history; for every state and peer a negotiation ending in version 1 leaves the packet size as it was"
  },
  {
   "property": "C42",
   "status": "proved",
   "theorems": [
    "C42_host_not_idle",
    "C42_bmc_accepts",
    "C42_host_disabled",
    "C42_host_seen",
    "C42_bmc_disabled"
   ],
   "note": "both refutations concrete; the positive parts hold for every reachable state and peer"
  },
  {
   "property": "C43",
   "status": "proved",
   "theorems": [
    "C43_unnoticed",
    "C43_recovers"
   ],
   "note": "C43_unnoticed: for every reachable host state, every continuation in which bmc-ready is always found set contains no Initialise; C43_case shows a restart meeting its hypotheses"
  },
  {
   "property": "C44",
   "status": "proved",
   "theorems": [
    "C44_forward",
    "C44_keeps",
    "C44_announced",
    "C44_origin",
    "C44_unannounced"
   ],
   "note": "exact sends for every table, message and answer; whole-run statements by induction over rounds; C44_unannounced refutes the claim for type 0; C44_case is a concrete instance"
  },
  {
   "property": "C45",
   "status": "proved",
   "theorems": [
    "C45_refuted",
    "C45_exact",
    "C45_others",
    "C45_isolated"
   ],
   "note": "refuted by two neighbouring closed clients; exact result for every table"
  },
  {
   "property": "C46",
   "status": "proved",
   "theorems": [
    "C46_binding",
    "C46_lost",
    "C46_socket",
    "C46_refuted"
   ],
   "note": "byte-exact records; the socket record is shown to end in a byte never written"
  },
  {
   "property": "C47",
   "status": "proved",
   "theorems": [
    "C47_hooks",
    "C47_asserts",
    "C47_free_null"
   ],
   "note": "histories over a heap behind the hooks; C47_case is an instance"
  },
  {
   "property": "C48",
   "status": "proved",
   "theorems": [
    "C48_refuted",
    "C48_smooth"
   ],
   "note": "concrete run; positive part for every run without short sends"
  },
  {
   "property": "C49",
   "status": "proved",
   "theorems": [
    "C49_spins",
    "C49_case",
    "C49_exists"
   ],
   "note": "for every number of rounds; C49_case shows the state is reached from start"
  },
  {
   "property": "C50",
   "status": "proved",
   "theorems": [
    "C50_tables"
   ],
   "note": "every run of any length, arbitrary answers"
  },
  {
   "property": "C51",
   "status": "proved",
   "theorems": [
    "C51_descriptors"
   ],
   "note": "every run of any length, arbitrary answers"
  },
  {
   "property": "C52",
   "status": "proved",
   "theorems": [
    "C52_transmits"
   ],
   "note": "every run of any length, arbitrary answers"
  },
  {
   "property": "C53",
   "status": "proved",
   "theorems": [
    "C53_types",
    "C53_fixed"
   ],
   "note": "every run of any length"
  },
  {
   "property": "C54",
   "status": "proved",
   "theorems": [
    "C54_lost_wakeup"
   ],
   "note": "a concrete interleaving followed by any number of polls of both sides"
  },
  {
   "property": "C55",
   "status": "proved",
   "theorems": [
    "C55_destroy_bmc",
    "C55_destroy_host",
    "C55_host_notices"
   ],
   "note": "C55_case is a run from power-on"
  },
  {
   "property": "C56",
   "status": "proved",
   "theorems": [
    "C56_in_order",
    "C56_all"
   ],
   "note": "every interleaving; C56_example is an exchange of messages in both directions with a reply from the callback; that the channel drains is C57"
  },
  {
   "property": "C57",
   "status": "proved",
   "theorems": [
    "C57_progress",
    "C57_delivered",
    "C57_heard",
    "C57_returns"
   ],
   "note": "sessions in which each side picks its calls as it goes; enabled buses are assumed, since the handshake itself can lose a wake-up (C54); C57_example is a session of 48 rounds in which the hypotheses hold"
  },
  {
   "property": "C58",
   "status": "proved",
   "theorems": [
    "C58_linked",
    "C58_destroy",
    "beyond_free",
    "lowest_free"
   ],
   "note": "refinement of the list used in Core.v by the linked list of core.c; agree = same events, results and faults for every environment; C58_example passes ten packets through reused addresses"
  },
  {
   "property": "C59",
   "status": "proved",
   "theorems": [
    "C59_reentry",
    "C59_refuted"
   ],
   "note": "violated property: refuted for every non-empty queue"
  },
  {
   "property": "C60",
   "status": "proved",
   "theorems": [
    "C60_transmit"
   ],
   "note": "holds whenever registration succeeded; identity of packets rather than bytes, since a packet requeued after -EIO carries the trailer already (C40); C60_case is a run with two sends, a reception and a reply"
  },
  {
   "property": "C61",
   "status": "proved",
   "theorems": [
    "C61_receive"
   ],
   "note": "explained/accounted as in C05; the CRC check itself is C36, the acceptance rules C39; C60_case is a run with a delivery"
  },
  {
   "property": "C62",
   "status": "proved",
   "theorems": [
    "C62_distance16",
    "C62_odd16",
    "C62_distance32",
    "C62_distance32_large",
    "C62_serial",
    "C62_lpc",
    "C62_sharp16",
    "C62_sharp32"
   ],
   "note": "minimum distance proved from the period of the shift register and a checked table of three-term relations; C62_case and C62_lpc_case are damaged frames meeting the hypotheses"
  },
  {
   "property": "C63",
   "status": "proved",
   "theorems": [
    "C63_capture",
    "C63_off_at_start",
    "C63_retried_twice"
   ],
   "note": "captured and passed are defined in PropTap.v on the event trace alone; C63_case is a history with both directions, a short packet and a foreign destination"
  },
  {
   "property": "C64",
   "status": "proved",
   "theorems": [
    "C64_bmc",
    "C64_host",
    "C64_host_initialise"
   ],
   "note": "partial-correctness trace logic (Foot.v): also covers runs ending in a fault; C64_host_initialise shows the hypothesis on the peer is needed; C64_case_host and C64_case_bmc are runs that use their areas"
  },
  {
   "property": "C65",
   "status": "proved",
   "theorems": [
    "C65_stream"
   ],
   "note": "C65_hypotheses is a concrete case with three messages and three chunks"
  },
  {
   "property": "C66",
   "status": "proved",
   "theorems": [
    "C66_pipe",
    "C66_pipe_goes_on",
    "C66_pipe_exits",
    "C66_pipe_room",
    "C66_pipe_deadlock",
    "C66_pipe_greedy",
    "C66_pipe_works",
    "C66_mctp_in"
   ],
   "note": "C66_pipe_works shows the runs exist; writes to standard output are taken to be complete"
  },
  {
   "property": "C67",
   "status": "proved",
   "theorems": [
    "C67_in_order",
    "C67_answered",
    "C67_host_refuted",
    "C67_hypotheses"
   ],
   "note": "C67_hypotheses is a session with the echo daemon; sizes of MCTP messages up to 64 KiB and mtu up to 4096 as in C56"
  },
  {
   "property": "C68",
   "status": "proved",
   "theorems": [
    "C68_asleep",
    "C68_heard",
    "C68_progress",
    "C68_wakeups",
    "C68_handshake_refuted"
   ],
   "note": "C68_example is a poll-driven session that ends with both sides asleep; POLLOUT readiness of the KCS character device is taken to be an empty output register"
  },
  {
   "property": "C69",
   "status": "proved",
   "theorems": [
    "C69_refines",
    "C69_no_fault",
    "C69_delivery",
    "C69_exclusive",
    "C69_in_order",
    "C69_asleep",
    "C69_heard"
   ],
   "note": "C69_example_middle and C69_example are states of a byte-wise interleaved session: both sides mid-copy, and both asleep after a complete exchange; the bytes of one copy are accessed in ascending order"
  },
  {
   "property": "C70",
   "status": "proved",
   "theorems": [
    "C70_no_fault",
    "C70_areas"
   ],
   "note": "goes/lives in Lives.v: accesses, calls, orderly shutdown and restarts in any order; C70_case is a history in which the host is killed mid-transmission and the channel comes up again"
  },
  {
   "property": "C71",
   "status": "proved",
   "theorems": [
    "C71_exclusive_refuted",
    "C71_agreement_refuted"
   ],
   "note": "violated property: refuted by concrete executions with one restart; the stall covers every schedule of polls"
  },
  {
   "property": "C72",
   "status": "proved",
   "theorems": [
    "C72_cold_restart",
    "C72_bmc_crash"
   ],
   "note": "cold restart: the registers after the registration of the BMC do not depend on what was left; crash: invariant over limps (all schedules, calls, further crashes). Cases: C72_bmc_crash_case, C72_cold_case, and C72_recovers/C72_hasty for the ways out"
  },
  {
   "property": "C73",
   "status": "proved",
   "theorems": [
    "C73_fileio",
    "C73_fileio_leak",
    "C73_destroy",
    "C73_custom_fd"
   ],
   "note": "held resources are a fold over the calls; C74_case runs through the success path"
  },
  {
   "property": "C74",
   "status": "proved",
   "theorems": [
    "C74_main",
    "C74_status",
    "C74_fault",
    "C74_serial_unopened",
    "C74_registration_ignored",
    "C74_poll_unregistered",
    "C74_pcap_leak"
   ],
   "note": "main_ok is the specification; opts is the result of option parsing (C77); C74_case is a complete run"
  },
  {
   "property": "C75",
   "status": "proved",
   "theorems": [
    "C75_receive",
    "C75_bridge",
    "C75_send",
    "C75_across",
    "C75_seventeen"
   ],
   "note": "messages must fit the limit L = 4096*2^J (see C12); sources are non-zero (C16). Cases: C75_receive_case, C75_across_case (three senders, a bridge, a receiver)"
  },
  {
   "property": "C76",
   "status": "proved",
   "theorems": [
    "C76_survived",
    "C76_wedged",
    "C76_transmit_faults"
   ],
   "note": "survival needs a limit below 8192 (C15: above it a failed growth leaves a dangling buffer) and an application that is silent while memory is short; the wedge is a defect of astlpc.c 1020-1026. C76_case meets the hypotheses of C76_wedged"
  },
  {
   "property": "C77",
   "status": "proved",
   "theorems": [
    "C77_parsed",
    "C77_only",
    "C77_leaves",
    "C77_crashes",
    "C77_eid",
    "C77_no_eid",
    "C77_bindings",
    "C77_started",
    "C77_refused",
    "C77_fault",
    "C77_no_loopback",
    "C77_surprises"
   ],
   "note": "getopt_long, atoi and strcmp are modelled from their documentation (GNU libc, no POSIXLY_CORRECT, arguments permuted). Cases: C77_case, C77_loopback_case"
  },
  {
   "property": "C78",
   "status": "proved",
   "theorems": [
    "C78_log",
    "C78_determined",
    "C78_silent",
    "C78_daemon"
   ],
   "note": "formatting by vfprintf is not modelled: a message is its level and its text. Case: C78_case"
  },
  {
   "property": "C79",
   "status": "proved",
   "theorems": [
    "C79_client",
    "C79_later",
    "C79_stays",
    "C79_type"
   ],
   "note": "`behaves` is the assumption about the client and its descriptor, `due` what the events of the run owe it. Case: C79_case"
  },
  {
   "property": "C80",
   "status": "proved",
   "theorems": [
    "C80_daemons",
    "C80_client"
   ],
   "note": "the record `serving` links the daemon (Daemon.v) to the stack (Serial.v, Core.v): its mctp_message_tx and binding->process calls are the operations of the stack, and what the stack hears is what the daemon is given. Case: C80_case"
  },
  {
   "property": "C81",
   "status": "proved",
   "theorems": [
    "C81_whole",
    "C81_capture"
   ],
   "note": "that recv returns the whole message when the buffer is large enough is the kernel's part. Case: C81_case"
  },
  {
   "property": "C82",
   "status": "proved",
   "theorems": [
    "C82_stops",
    "C82_at_once",
    "C82_killed",
    "C82_prefix"
   ],
   "note": "C82_killed is a defect of mctp-demux-daemon.c 146 (no MSG_NOSIGNAL) and 470-478 (SIGPIPE not blocked). C82_prefix carries the theorems about complete runs over to runs that end that way. Cases: C82_case, C82_killed_case"
  },
  {
   "property": "C83",
   "status": "proved",
   "theorems": [
    "C83_to_host",
    "C83_to_daemon",
    "C83_to_client"
   ],
   "note": "messages sent before the channel came up are refused or dropped by the core (C04, C19); the capture handler is set with the message handler. Case: C83_case"
  },
  {
   "property": "C84",
   "status": "proved",
   "theorems": [
    "C84_transfer",
    "C84_complete",
    "C84_files",
    "C84_small",
    "C84_gone"
   ],
   "note": "mmap is taken not to map at address 0. C84_small is a defect of mctp_astlpc_init_fileio_lpc (the reported size is not compared with the window). Case: C84_case"
  },
  {
   "property": "C85",
   "status": "proved",
   "theorems": [
    "C85_same",
    "C85_all",
    "C85_until",
    "C85_grow",
    "C85_lost",
    "C85_stale"
   ],
   "note": "C85_stale is a defect: after a failed shrinking realloc the pointer is lost but n_clients is kept, and the next accept gets a table of uninitialised entries. Case: C85_grow_case"
  },
  {
   "property": "C86",
   "status": "proved",
   "theorems": [
    "C86_again",
    "C86_destroy",
    "C86_away",
    "C86_away_faults",
    "C86_bridge_off",
    "C86_bridge_case"
   ],
   "note": "only the final stay may be as a bridge (mctp_unregister_bus handles one binding only: C86_bridge_off). C86_away_faults, C86_bridge_off and the buffers left behind are defects. Cases: C86_case, C86_resumed_case"
  },
  {
   "property": "C87",
   "status": "proved",
   "theorems": [
    "C87_exact",
    "C87_done",
    "C87_heard",
    "C87_again",
    "C87_early_refuted"
   ],
   "note": "C87_early_refuted shows why the property speaks of an enabled side only: between negotiation and activation the host binding answers true and every transmission is refused. Case: C87_example"
  },
  {
   "property": "C88",
   "status": "proved",
   "theorems": [
    "C88_relayed"
   ],
   "note": "C88_hypotheses is a concrete case: three messages over two bridges, the second given only a beginning. Each bridge is fed on one line during the stretch and no write fails; those are the hypotheses of conveyed"
  },
  {
   "property": "C89",
   "status": "proved",
   "theorems": [
    "C89_leak",
    "C89_clean",
    "C89_half"
   ],
   "note": "sharpens the refutation of C26 to an exact count; C89_case is a concrete case with one damaged and one intact frame"
  }
 ]
}