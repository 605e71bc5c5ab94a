(** Assumptions: what the theorems named in MANIFEST.json rest on.  The build prints
    "Closed under the global context": none of them uses an axiom. *)
From Verif Require PropTx PropMsg PropRx PropRound PropTap PropBridge PropLife Refute PropPkt PropCrc PropSer PropSerTx PropSerRound ExamplesSer AstBasic PropAst CrcSpan CrcDist AstRx AstPoll PropAstTrace PropBits AstDown PropDaemon DaemonRun DaemonBugs PropCapture Alloc PropDuo PropDuoMsg PropLive PropQueue ExamplesQueue LostWakeup PropDestroy PropFoot PropSerStream PropPipe PropServe ExamplesServe PropPollfd ExamplesPollfd PropBytes PropLives ExamplesLives PropRestart PropStartup ExamplesStart PropOom PropAstOom PropMany ExamplesMany PropOptions Log PropClients PropLink PropBuf PropStop PropLpcDaemon PropFileio PropDaemonOom PropAgain PropTxDone PropRelay PropLeak.

Definition all_claims := (
  @PropMsg.C01_packetisation,
  @PropTx.C02_fifo,
  @PropTx.C03_tx_only_enabled,
  @PropMsg.C04_checks,
  @PropMsg.C04_no_bus,
  @PropRx.C05_reassembly_sound,
  @PropRound.C06_reassembly_complete,
  @PropRound.C06_round_trip,
  @PropRx.C07_contexts,
  @PropRx.C08_foreign,
  @PropRx.C09_dispatch,
  @PropRx.C10_swapped_args,
  @Refute.C10_refuted,
  @PropRx.C11_memory_bound,
  @Refute.C12_accepts,
  @PropRx.C12_small_limit_useless,
  @Refute.C12_refuted_small_limit,
  @Refute.C12_refuted_odd_limit,
  @Refute.C12_refuted_large_fragments,
  @PropTx.C13_buffers,
  @PropTx.C14_no_fault,
  @Refute.C15_refuted,
  @Refute.C15_use_after_free,
  @Refute.C15_double_free,
  @Refute.C15_tx_null_deref,
  @PropOom.C15_survived,
  @PropOom.C15_survived_sound,
  @PropOom.C15_sharp,
  @Refute.C16_refuted,
  @Refute.C16_resurrected,
  @Refute.C17_refuted,
  @PropBridge.C18_bridge,
  @PropMsg.C19_set_tx_enabled,
  @PropMsg.C19_never_constructed,
  @PropLife.C20_destroy,
  @PropLife.C20_failed_start,
  @Refute.C20_unregister_destroy_double_free,
  @Refute.C20_register_oom_null_deref,
  @Refute.C20_unregister_leaks,
  @PropPkt.C21_pktbuf,
  @PropPkt.C21_push_pop,
  @PropPkt.C21_push_wraps,
  @PropPkt.C21_alloc_refused,
  @PropSer.C22_framing,
  @PropSer.C22_round_trip,
  @PropSer.C23_only_frames,
  @PropSer.C24_no_fault,
  @PropSerTx.C24_refuted_oom,
  @PropSerTx.C24_before_oom,
  @PropSer.C25_resync,
  @PropSer.C25_resync_then_frames,
  @ExamplesSer.C25_sharp,
  @PropSer.C26_buffers,
  @PropSer.C26_refuted,
  @PropSerTx.C27_tx,
  @PropSerTx.C27_spins,
  @PropSerRound.C28_receive,
  @PropSerRound.C28_end_to_end,
  @PropCrc.C29_crc16,
  @PropCrc.C29_crc32,
  @PropCrc.C29_unique16,
  @PropCrc.C29_unique32,
  @PropCrc.C29_incremental,
  @PropCrc.C29_check,
  @PropCrc.C30_burst16,
  @PropCrc.C30_burst32,
  @PropCrc.C30_window16,
  @PropCrc.C30_window32,
  @PropCrc.C30_sharp16,
  @AstBasic.C31_negotiate,
  @AstBasic.C31_index,
  @AstBasic.C32_validate,
  @AstBasic.C33_published,
  @AstBasic.C33_largest,
  @AstBasic.C33_refused,
  @AstBasic.C33_asserts,
  @PropDuo.C34_agreement,
  @PropDuo.C34_refused,
  @PropAst.C35_bmc,
  @PropAst.C35_host,
  @PropAst.C35_host_initialise,
  @PropAst.C35_host_null_op,
  @AstRx.C36_intact,
  @AstRx.C36_damaged,
  @AstRx.C36_checked,
  @AstRx.C36_sent,
  @CrcSpan.C30_protected,
  @CrcSpan.C30_protected_sharp,
  @PropDuo.C37_exclusive,
  @PropDuo.C37_commands,
  @PropDuo.C38_delivery,
  @PropDuo.C38_no_fault,
  @AstPoll.C39_pollfd,
  @AstPoll.C39_tx,
  @AstPoll.C39_rx,
  @AstPoll.C39_poll,
  @AstPoll.C39_kept,
  @AstDown.C40_refuted,
  @AstDown.C40_no_error,
  @AstDown.C41_refuted,
  @AstDown.C41_bmc_keeps,
  @AstDown.C41_host_keeps,
  @AstDown.C42_host_not_idle,
  @AstDown.C42_bmc_accepts,
  @AstDown.C42_host_disabled,
  @AstDown.C42_host_seen,
  @AstDown.C42_bmc_disabled,
  @AstDown.C43_unnoticed,
  @AstDown.C43_recovers,
  @PropDaemon.C44_forward,
  @PropDaemon.C44_keeps,
  @DaemonRun.C44_announced,
  @DaemonRun.C44_origin,
  @DaemonBugs.C44_unannounced,
  @PropDaemon.C45_refuted,
  @PropDaemon.C45_exact,
  @PropDaemon.C45_others,
  @PropDaemon.C45_isolated,
  @PropCapture.C46_binding,
  @PropCapture.C46_lost,
  @PropCapture.C46_socket,
  @PropCapture.C46_refuted,
  @Alloc.C47_hooks,
  @Alloc.C47_asserts,
  @Alloc.C47_free_null,
  @DaemonBugs.C48_refuted,
  @DaemonBugs.C48_smooth,
  @DaemonBugs.C49_spins,
  @DaemonBugs.C49_case,
  @DaemonBugs.C49_exists,
  @DaemonRun.C50_tables,
  @DaemonRun.C51_descriptors,
  @DaemonRun.C52_transmits,
  @DaemonRun.C53_types,
  @DaemonRun.C53_fixed,
  @LostWakeup.C54_lost_wakeup,
  @PropDestroy.C55_destroy_bmc,
  @PropDestroy.C55_destroy_host,
  @PropDestroy.C55_host_notices,
  @PropDuoMsg.C56_in_order,
  @PropDuoMsg.C56_all,
  @PropLive.C57_progress,
  @PropLive.C57_delivered,
  @PropLive.C57_heard,
  @PropLive.C57_returns,
  @PropQueue.C58_linked,
  @PropQueue.C58_destroy,
  @PropQueue.beyond_free,
  @PropQueue.lowest_free,
  @PropQueue.C59_reentry,
  @ExamplesQueue.C59_refuted,
  @PropAstTrace.C60_transmit,
  @PropAstTrace.C61_receive,
  @CrcDist.C62_distance16,
  @CrcDist.C62_odd16,
  @CrcDist.C62_distance32,
  @CrcDist.C62_distance32_large,
  @PropBits.C62_serial,
  @PropBits.C62_lpc,
  @CrcDist.C62_sharp16,
  @CrcDist.C62_sharp32,
  @PropTap.C63_capture,
  @PropTap.C63_off_at_start,
  @PropTap.C63_retried_twice,
  @PropFoot.C64_bmc,
  @PropFoot.C64_host,
  @PropFoot.C64_host_initialise,
  @PropSerStream.C65_stream,
  @PropPipe.C66_pipe,
  @PropPipe.C66_pipe_goes_on,
  @PropPipe.C66_pipe_exits,
  @PropPipe.C66_pipe_room,
  @PropPipe.C66_pipe_deadlock,
  @PropPipe.C66_pipe_greedy,
  @PropPipe.C66_pipe_works,
  @PropPipe.C66_mctp_in,
  @PropServe.C67_in_order,
  @PropServe.C67_answered,
  @ExamplesServe.C67_host_refuted,
  @ExamplesServe.C67_hypotheses,
  @PropPollfd.C68_asleep,
  @PropPollfd.C68_heard,
  @PropPollfd.C68_progress,
  @PropPollfd.C68_wakeups,
  @ExamplesPollfd.C68_handshake_refuted,
  @PropBytes.C69_refines,
  @PropBytes.C69_no_fault,
  @PropBytes.C69_delivery,
  @PropBytes.C69_exclusive,
  @PropBytes.C69_in_order,
  @PropBytes.C69_asleep,
  @PropBytes.C69_heard,
  @PropLives.C70_no_fault,
  @PropLives.C70_areas,
  @ExamplesLives.C71_exclusive_refuted,
  @ExamplesLives.C71_agreement_refuted,
  @PropRestart.C72_cold_restart,
  @PropRestart.C72_bmc_crash,
  @PropStartup.C73_fileio,
  @PropStartup.C73_fileio_leak,
  @PropStartup.C73_destroy,
  @PropStartup.C73_custom_fd,
  @PropStartup.C74_main,
  @PropStartup.C74_status,
  @PropStartup.C74_fault,
  @PropStartup.C74_serial_unopened,
  @PropStartup.C74_registration_ignored,
  @ExamplesStart.C74_poll_unregistered,
  @PropStartup.C74_pcap_leak,
  @PropMany.C75_receive,
  @PropMany.C75_bridge,
  @PropMany.C75_send,
  @PropMany.C75_across,
  @ExamplesMany.C75_seventeen,
  @PropAstOom.C76_survived,
  @PropAstOom.C76_wedged,
  @PropAstOom.C76_transmit_faults,
  @PropOptions.C77_parsed,
  @PropOptions.C77_only,
  @PropOptions.C77_leaves,
  @PropOptions.C77_crashes,
  @PropOptions.C77_eid,
  @PropOptions.C77_no_eid,
  @PropOptions.C77_bindings,
  @PropOptions.C77_started,
  @PropOptions.C77_refused,
  @PropOptions.C77_fault,
  @PropOptions.C77_no_loopback,
  @PropOptions.C77_surprises,
  @Log.C78_log,
  @Log.C78_determined,
  @Log.C78_silent,
  @Log.C78_daemon,
  @PropClients.C79_client,
  @PropClients.C79_later,
  @PropClients.C79_stays,
  @PropClients.C79_type,
  @PropLink.C80_daemons,
  @PropLink.C80_client,
  @PropBuf.C81_whole,
  @PropBuf.C81_capture,
  @PropStop.C82_stops,
  @PropStop.C82_at_once,
  @PropStop.C82_killed,
  @PropStop.C82_prefix,
  @PropLpcDaemon.C83_to_host,
  @PropLpcDaemon.C83_to_daemon,
  @PropLpcDaemon.C83_to_client,
  @PropFileio.C84_transfer,
  @PropFileio.C84_complete,
  @PropFileio.C84_files,
  @PropFileio.C84_small,
  @PropFileio.C84_gone,
  @PropDaemonOom.C85_same,
  @PropDaemonOom.C85_all,
  @PropDaemonOom.C85_until,
  @PropDaemonOom.C85_grow,
  @PropDaemonOom.C85_lost,
  @PropDaemonOom.C85_stale,
  @PropAgain.C86_again,
  @PropAgain.C86_destroy,
  @PropAgain.C86_away,
  @PropAgain.C86_away_faults,
  @PropAgain.C86_bridge_off,
  @PropAgain.C86_bridge_case,
  @PropTxDone.C87_exact,
  @PropTxDone.C87_done,
  @PropTxDone.C87_heard,
  @PropTxDone.C87_again,
  @PropTxDone.C87_early_refuted,
  @PropRelay.C88_relayed,
  @PropLeak.C89_leak,
  @PropLeak.C89_clean,
  @PropLeak.C89_half).
Print Assumptions all_claims.
