-Q theories Verif
theories/Base.v
theories/Lists.v
theories/Prog.v
theories/PktBuf.v
theories/Core.v
theories/Crc.v
theories/Serial.v
theories/Astlpc.v
theories/WP.v
theories/Walk.v
theories/CoreRel.v
theories/WalkCore.v
theories/CoreHist.v
theories/Spec.v
theories/Trace.v
theories/PropTx.v
theories/PropMsg.v
theories/SpecRx.v
theories/Reasm.v
theories/PropRx.v
theories/PropRound.v
theories/PropTap.v
theories/PropBridge.v
theories/PropLife.v
theories/Concrete.v
theories/Refute.v
theories/ExamplesCore.v
theories/PropPkt.v
theories/PropCrc.v
theories/SpecSer.v
theories/SerRx.v
theories/SerWalk.v
theories/PropSer.v
theories/PropSerTx.v
theories/PropSerRound.v
theories/ExamplesSer.v
theories/SpecAst.v
theories/AstBasic.v
theories/AstWalk.v
theories/PropAst.v
theories/CrcSpan.v
theories/CrcDist.v
theories/AstRx.v
theories/AstPoll.v
theories/AstTrace.v
theories/PropAstTrace.v
theories/PropBits.v
theories/AstDown.v
theories/Daemon.v
theories/PropDaemon.v
theories/DaemonRun.v
theories/DaemonBugs.v
theories/Capture.v
theories/PropCapture.v
theories/Alloc.v
theories/TwoParty.v
theories/DuoInv.v
theories/DuoPast.v
theories/DuoWalk.v
theories/PropDuo.v
theories/SpecDuo.v
theories/DuoMsg.v
theories/PropDuoMsg.v
theories/ExamplesDuo.v
theories/SpecLive.v
theories/DuoLive.v
theories/PropLive.v
theories/ExamplesLive.v
theories/Queue.v
theories/PropQueue.v
theories/ExamplesQueue.v
theories/LostWakeup.v
theories/PropDestroy.v
theories/Foot.v
theories/PropFoot.v
theories/PropSerStream.v
theories/Pipe.v
theories/PropPipe.v
theories/ExamplesStream.v
theories/PropServe.v
theories/ExamplesServe.v
theories/PropPollfd.v
theories/ExamplesPollfd.v
theories/TwoBytes.v
theories/PropBytes.v
theories/ExamplesBytes.v
theories/Lives.v
theories/PropLives.v
theories/ExamplesLives.v
theories/PropRestart.v
theories/Startup.v
theories/PropStartup.v
theories/ExamplesStart.v
theories/PropOom.v
theories/PropAstOom.v
theories/Many.v
theories/PropMany.v
theories/ExamplesMany.v
theories/Options.v
theories/PropOptions.v
theories/Log.v
theories/PropClients.v
theories/PropLink.v
theories/DaemonMon.v
theories/PropBuf.v
theories/PropStop.v
theories/PropLpcDaemon.v
theories/Fileio.v
theories/PropFileio.v
theories/DaemonOom.v
theories/PropDaemonOom.v
theories/PropAgain.v
theories/PropTxDone.v
theories/Relay.v
theories/PropRelay.v
theories/ExamplesRelay.v
theories/PropLeak.v
theories/ExamplesLeak.v
theories/Assumptions.v
