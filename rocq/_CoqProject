-Q theories Verif
theories/Base.v
theories/Bytes.v
theories/Containers.v
theories/Worker.v
theories/Multi.v
theories/Single.v
theories/Queue.v
theories/Handler.v
theories/Wire.v
theories/Notifier.v
theories/SpecText.v
theories/TextFacts.v
theories/HeaderFacts.v
theories/OrderFacts.v
theories/HexFacts.v
theories/PropText.v
theories/Spec.v
theories/Facts.v
theories/QueueInv.v
theories/Atoms.v
theories/HandlerSim.v
theories/Keeps.v
theories/Conserve.v
theories/SpecRun.v
theories/SpecMsg.v
theories/SpecPings.v
theories/SpecFatal.v
theories/SpecOut.v
theories/SpecWire.v
theories/SpecHttp.v
theories/OwnQueue.v
theories/SpecQueue.v
theories/QueueContract.v
theories/QueueOrder.v
theories/Provenance.v
theories/Budget.v
theories/OneJob.v
theories/Members.v
theories/Messages.v
theories/Pings.v
theories/Stats.v
theories/Tick.v
theories/Demo.v
theories/Detect.v
theories/WorkConserving.v
theories/Fatal.v
theories/Out.v
theories/WireFacts.v
theories/WireRun.v
theories/NotifierFacts.v
theories/PropJobs.v
theories/PropDispatch.v
theories/PropTick.v
theories/PropMessages.v
theories/PropQueue.v
theories/PropPings.v
theories/PropFatal.v
theories/PropWire.v
theories/PropNotifier.v
theories/Reactor.v
theories/SpecReactor.v
theories/ReactorFacts.v
theories/ReactorRun.v
theories/Clock.v
theories/PropReactor.v
theories/Async.v
theories/SpecAsync.v
theories/AsyncFacts.v
theories/AsyncRun.v
theories/PropAsync.v
theories/Config.v
theories/SpecConfig.v
theories/ConfigFacts.v
theories/PropConfig.v
theories/Logger.v
theories/SpecLogger.v
theories/LoggerFacts.v
theories/PropLogger.v
theories/SpecOutcome.v
theories/Outcome.v
theories/PropOutcome.v
theories/SpecJoin.v
theories/Joining.v
theories/PropJoin.v
theories/SpecTick.v
theories/TickOutcome.v
theories/PropTickOutcome.v
theories/Startup.v
theories/SpecStartup.v
theories/StartupFacts.v
theories/PropStartup.v
theories/SpecWait.v
theories/Waiting.v
theories/PropWait.v
theories/Stuck.v
theories/PropStuck.v
theories/SpecBlind.v
theories/Blind.v
theories/PropBlind.v
theories/SpecKeep.v
theories/Keep.v
theories/PropMemory.v
theories/SpecOracle.v
theories/Oracle.v
theories/OracleRun.v
theories/PropOracle.v
theories/SpecSystem.v
theories/System.v
theories/SystemSim.v
theories/PropSystem.v
theories/SpecDrain.v
theories/Drain.v
theories/DrainSim.v
theories/PropDrain.v
theories/SpecWired.v
theories/Wired.v
theories/WiredSim.v
theories/PropWired.v
theories/SpecFinish.v
theories/Finish.v
theories/FinishSim.v
theories/PropFinish.v
theories/Replies.v
theories/SpecReplies.v
theories/RepliesFacts.v
theories/PropReplies.v
theories/SpecLost.v
theories/Lost.v
theories/PropLost.v
theories/SpecAgain.v
theories/Again.v
theories/PropAgain.v
theories/SpecFlood.v
theories/Flood.v
theories/PropFlood.v
theories/SpecLives.v
theories/Lives.v
theories/LivesSim.v
theories/PropLives.v
theories/LogHandler.v
theories/SpecJournal.v
theories/Journal.v
theories/JournalFacts.v
theories/PropJournal.v
theories/Ending.v
theories/SpecEnding.v
theories/EndingFacts.v
theories/PropEnding.v
theories/SpecTold.v
theories/Told.v
theories/PropTold.v
theories/SpecRobin.v
theories/Robin.v
theories/PropRobin.v
theories/SpecFront.v
theories/Front.v
theories/PropFront.v
theories/SpecBook.v
theories/Book.v
theories/PropBook.v
theories/SpecLife.v
theories/Life.v
theories/PropLife.v
theories/SpecHex.v
theories/HexText.v
theories/PropHex.v
theories/SpecLedger.v
theories/LedgerFun.v
theories/LedgerFloor.v
theories/LedgerTick.v
theories/Ledger.v
theories/LedgerRun.v
theories/PropLedger.v
theories/SpecRegistry.v
theories/Registry.v
theories/PropRegistry.v
theories/SpecPool.v
theories/PoolFun.v
theories/PoolFloor.v
theories/PoolTick.v
theories/Pool.v
theories/PoolRun.v
theories/TieLocal.v
theories/PoolTies.v
theories/PropPool.v
theories/SpecWhole.v
theories/Whole.v
theories/WholeTies.v
theories/PropWhole.v
theories/Curl.v
theories/SpecCurl.v
theories/CurlFacts.v
theories/PropCurl.v
theories/SpecAlias.v
theories/Alias.v
theories/AliasRun.v
theories/PropAlias.v
theories/Errands.v
theories/SpecErrands.v
theories/ErrandsFacts.v
theories/PropErrands.v
theories/OracleLog.v
theories/Chronicle.v
theories/SpecChronicle.v
theories/ChronicleFacts.v
theories/PropChronicle.v
theories/SpecWording.v
theories/Wording.v
theories/WordingRun.v
theories/PropWording.v
