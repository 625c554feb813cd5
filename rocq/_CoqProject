-Q theories Verif
theories/Base.v
theories/Chrono.v
theories/Types.v
theories/Query.v
theories/Memory.v
theories/MemSpec.v
theories/TypesProofs.v
theories/QueryProofs.v
theories/MemProofs.v
theories/MemHist.v
theories/MemHist2.v
theories/MemNotify.v
theories/WhereSpec.v
theories/WhereProofs.v
theories/Samples.v
theories/MemThms.v
theories/PropsMem.v
theories/MemConc.v
theories/MemConcProofs.v
theories/MemConcSpec.v
theories/MemConcThms.v
theories/MemWake.v
theories/PropsConc.v
theories/Backoff.v
theories/BackoffProofs.v
theories/BackoffFloat.v
theories/PropsBackoff.v
theories/Codec.v
theories/Builder.v
theories/GlobalBackend.v
theories/Testing.v
theories/MemInv.v
theories/ApiSpec.v
theories/ApiProofs.v
theories/PropsApi.v
theories/Pruner.v
theories/Ticker.v
theories/SchedSpec.v
theories/SchedProofs.v
theories/PropsSched.v
theories/Runner.v
theories/RunnerSpec.v
theories/WorkerProofs.v
theories/SysProofs.v
theories/PropsRunner.v
theories/PgRow.v
theories/PgQuery.v
theories/FxHash.v
theories/Pg.v
theories/PgSpec.v
theories/PgProofs.v
theories/PgQueryProofs.v
theories/PgOps.v
theories/PropsPg.v
theories/PgHist.v
theories/PropsPgHist.v
theories/PgConc.v
theories/PgConcSpec.v
theories/PgConcProofs.v
theories/PgConcHist.v
theories/PgConcUniq.v
theories/PgConcLive.v
theories/PgConcPast.v
theories/PgConcEnd.v
theories/PropsPgConc.v
theories/PropsPgAnswer.v
theories/PropsEdge.v
theories/PgListen.v
theories/PgListenSpec.v
theories/PgListenProofs.v
theories/PropsPgListen.v
theories/PropsPgRefuse.v
theories/PropsPgIdent.v
theories/App.v
theories/AppSpec.v
theories/AppProofs.v
theories/AppEnd.v
theories/PropsApp.v
theories/PropsPgRead.v
theories/PgSys.v
theories/PgSysSpec.v
theories/PgSysProofs.v
theories/PropsPgSys.v
theories/Suite.v
theories/SuiteProofs.v
theories/SuitePrune.v
theories/SuiteMem.v
theories/SuitePg.v
theories/PropsSuite.v
theories/OwnTests.v
theories/OwnProofs.v
theories/PropsOwn.v
theories/DrainProofs.v
theories/PropsDrain.v
theories/PgDrain.v
theories/PropsPgDrain.v
theories/World.v
theories/WorldSpec.v
theories/WorldProofs.v
theories/WorldInv.v
theories/WorldThms.v
theories/WorldOnce.v
theories/WorldLive.v
theories/WorldWork.v
theories/PropsWorld.v
theories/FairSpec.v
theories/WorldFair.v
theories/WorldRest.v
theories/PropsFair.v
theories/WorldDue.v
theories/WorldIdle.v
theories/PropsFairDue.v
theories/Fleet.v
theories/FleetSpec.v
theories/FleetLink.v
theories/FleetInv.v
theories/FleetThms.v
theories/FleetOnce.v
theories/FleetLive.v
theories/FleetWork.v
theories/PropsFleet.v
theories/FleetFair.v
theories/FleetRest.v
theories/PropsFleetFair.v
theories/FleetDue.v
theories/FleetIdle.v
theories/PropsFleetDue.v
theories/FleetStarve.v
theories/PropsFleetStarve.v
theories/ExampleMain.v
theories/PropsExample.v
theories/PropsExampleEnd.v
