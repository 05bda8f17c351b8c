-Q theories Verif
theories/Base.v
theories/ZSet.v
theories/Model.v
theories/GInv.v
theories/KView.v
theories/KSim.v
theories/Spec.v
theories/Check.v
theories/KInv.v
theories/KLine.v
theories/Hist.v
theories/ClaimedProofs.v
theories/Steps.v
theories/Steps2.v
theories/Steps3.v
theories/PropsHist.v
theories/Count.v
theories/SpecEvents.v
theories/EventProofs.v
theories/PropsEvents.v
theories/PropsSteps.v
theories/PropsRuns.v
theories/PropsCount.v
theories/ClearProofs.v
theories/PropsClear.v
theories/PropsReuse.v
theories/SpecConc.v
theories/ConcProofs.v
theories/ConcHist.v
theories/PropsConc.v
theories/WaitProofs.v
theories/PropsWait.v
theories/Text.v
theories/Admission.v
theories/SpecAdm.v
theories/AdmProofs.v
theories/PropsAdm.v
theories/Retry.v
theories/SpecRetry.v
theories/RetryProofs.v
theories/PropsRetry.v
theories/Timeout.v
theories/PropsTimeout.v
theories/CancelTask.v
theories/PropsCancelTask.v
theories/Leaving.v
theories/PropsLeaving.v
theories/ClientCount.v
theories/PropsClientCount.v
theories/Strike.v
theories/SpecStrike.v
theories/StrikeProofs.v
theories/StrikeMixed.v
theories/StrikeSys.v
theories/SpecStrikeSys.v
theories/StrikeSysProofs.v
theories/PropsStrike.v
theories/Keys.v
theories/PropsKeys.v
theories/Json.v
theories/SpecJson.v
theories/PropsJson.v
theories/LuaCall.v
theories/PropsLua.v
theories/Resolution.v
theories/PropsResolution.v
theories/Duration.v
theories/PropsDuration.v
theories/Uuid7.v
theories/PropsUuid.v
theories/Agenda.v
theories/PropsAgenda.v
theories/GetResult.v
theories/SpecResult.v
theories/ResultProofs.v
theories/PropsResult.v
theories/Progress.v
theories/SpecProgress.v
theories/ProgressProofs.v
theories/PropsProgress.v
theories/Perpetual.v
theories/SpecPerpetual.v
theories/PerpetualProofs.v
theories/PropsPerpetual.v
theories/SpecRecover.v
theories/RecoverProofs.v
theories/PropsRecover.v
theories/WorkerLoop.v
theories/SpecLoop.v
theories/LoopProofs.v
theories/PropsLoop.v
theories/Lease.v
theories/LeaseProofs.v
theories/PropsLease.v
theories/RunAtMost.v
theories/SpecRunAtMost.v
theories/RunAtMostProofs.v
theories/PropsRunAtMost.v
theories/Heartbeat.v
theories/SpecHeartbeat.v
theories/HeartbeatProofs.v
theories/PropsHeartbeat.v
theories/Snapshot.v
theories/QueueInv.v
theories/PropsSnapshot.v
theories/Execute.v
theories/SpecExecute.v
theories/ExecuteProofs.v
theories/PropsExecute.v
theories/Shared.v
theories/SpecShared.v
theories/SharedProofs.v
theories/PropsShared.v
theories/Gates.v
theories/PropsGates.v
theories/Watch.v
theories/PropsWatch.v
theories/SpecLive.v
theories/LiveProofs.v
theories/PropsLive.v
theories/Sweep.v
theories/SpecSweep.v
theories/SweepProofs.v
theories/PropsSweep.v
theories/Logged.v
theories/SpecLogged.v
theories/LoggedProofs.v
theories/PropsLogged.v
theories/Stats.v
theories/SpecStats.v
theories/StatsProofs.v
theories/PropsStats.v
theories/Prom.v
theories/SpecProm.v
theories/PromProofs.v
theories/PropsProm.v
theories/Scrape.v
theories/SpecScrape.v
theories/ScrapeProofs.v
theories/PropsScrape.v
theories/Lookup.v
theories/SpecLookup.v
theories/LookupProofs.v
theories/PropsLookup.v
theories/Instant.v
theories/SpecInstant.v
theories/InstantProofs.v
theories/PropsInstant.v
theories/Wire.v
theories/SpecWire.v
theories/WireProofs.v
theories/PropsWire.v
theories/Slots.v
theories/PropsSlots.v
theories/Cli.v
theories/SpecCli.v
theories/PropsCli.v
theories/Bind.v
theories/SpecBind.v
theories/BindProofs.v
theories/PropsBind.v
theories/PropsArgument.v
theories/Memory.v
theories/SpecMemory.v
theories/PropsMemory.v
theories/Url.v
theories/SpecUrl.v
theories/PropsUrl.v
theories/StrikeMon.v
theories/SpecStrikeMon.v
theories/PropsStrikeMon.v
theories/Registry.v
theories/SpecRegistry.v
theories/PropsRegistry.v
theories/Lifecycle.v
theories/SpecLifecycle.v
theories/PropsLifecycle.v
theories/BodyCall.v
theories/SpecBodyCall.v
theories/BodyCallProofs.v
theories/PropsBodyCall.v
theories/Store.v
theories/SpecStore.v
theories/StoreProofs.v
theories/PropsStore.v
theories/Depth.v
theories/PropsDepth.v
theories/Signal.v
theories/SpecSignal.v
theories/SignalProofs.v
theories/PropsSignal.v
theories/Stack.v
theories/SpecStack.v
theories/StackProofs.v
theories/PropsStack.v
theories/PropsStranded.v
theories/WorkerOps.v
theories/PropsWorkerOps.v
theories/UntilFinished.v
theories/PropsUntilFinished.v
theories/Twice.v
theories/SpecTwice.v
theories/PropsTwice.v
theories/Guard.v
theories/SpecGuard.v
theories/GuardProofs.v
theories/PropsGuard.v
theories/Cleanup.v
theories/SpecCleanup.v
theories/CleanupProofs.v
theories/PropsCleanup.v
theories/Conditions.v
theories/SpecConditions.v
theories/ConditionsProofs.v
theories/PropsConditions.v
theories/TaskArg.v
theories/SpecTaskArg.v
theories/PropsTaskArg.v
theories/Periodic.v
theories/SpecPeriodic.v
theories/PeriodicProofs.v
theories/PropsPeriodic.v
theories/SlotLoop.v
theories/SpecSlotLoop.v
theories/SlotLoopProofs.v
theories/PropsSlotLoop.v
theories/Stray.v
theories/SpecStray.v
theories/StrayProofs.v
theories/PropsStray.v
theories/Departed.v
theories/SpecDeparted.v
theories/DepartedProofs.v
theories/PropsDeparted.v
theories/Poll.v
theories/SpecPoll.v
theories/PollProofs.v
theories/PropsPoll.v
theories/SeedLock.v
theories/PropsSeedLock.v
theories/Durations.v
theories/DurationsProofs.v
theories/PropsDurations.v
theories/Announce.v
theories/SpecAnnounce.v
theories/AnnounceProofs.v
theories/PropsAnnounce.v
theories/SnapTimes.v
theories/SpecSnapTimes.v
theories/SnapTimesProofs.v
theories/PropsSnapTimes.v
theories/Follow.v
theories/SpecFollow.v
theories/FollowProofs.v
theories/PropsFollow.v
theories/SpecRecord.v
theories/RecordProofs.v
theories/PropsRecord.v
theories/RetentionProofs.v
theories/PropsRetention.v
theories/SpecPresence.v
theories/PresenceProofs.v
theories/PropsPresence.v
theories/Route.v
theories/PropsRoute.v
theories/Pool.v
theories/PropsPool.v
theories/Register.v
theories/PropsRegister.v
theories/CliUrl.v
theories/PropsCliUrl.v
theories/Startup.v
theories/PropsStartup.v
theories/SnapGroup.v
theories/PropsSnapGroup.v
theories/ReadGroup.v
theories/PropsReadGroup.v
theories/Reconnect.v
theories/PropsReconnect.v
theories/Ports.v
theories/PropsPorts.v
