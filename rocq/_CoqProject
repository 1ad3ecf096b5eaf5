-Q theories Verif
theories/Base.v
theories/Json.v
theories/Path.v
theories/Fs.v
theories/Types.v
theories/Monad.v
theories/FileOps.v
theories/Fetch.v
theories/Config.v
theories/Report.v
theories/Tal.v
theories/Validator.v
theories/JsonProofs.v
theories/PathProofs.v
theories/StringProofs.v
theories/State.v
theories/Codec.v
theories/CodecProofs.v
theories/Rrdp.v
theories/Rsync.v
theories/Process.v
theories/Demo.v
theories/Wp.v
theories/ModsProofs.v
theories/Keeps.v
theories/FsInv.v
theories/FsWf.v
theories/ConfigProofs.v
theories/PropsConfig.v
theories/PropsCli.v
theories/UriProofs.v
theories/PropsUri.v
theories/WpTac.v
theories/ReportProofs.v
theories/FetchProofs.v
theories/ValidatorSpec.v
theories/ValidatorProofs.v
theories/TreeProofs.v
theories/DemoTree.v
theories/PropsValidator.v
theories/PropsDecide.v
theories/ListProofs.v
theories/Spec.v
theories/StageProofs.v
theories/CoarseProofs.v
theories/Yields.v
theories/RunFrame.v
theories/RunCoarse.v
theories/RsyncProofs.v
theories/RunPhases.v
theories/RunMaster.v
theories/RunView.v
theories/RunFate.v
theories/Limited.v
theories/History.v
theories/Tracks.v
theories/HistoryProofs.v
theories/DemoRun.v
theories/RunDone.v
theories/CleanProofs.v
theories/PropsServed.v
theories/PropsRun.v
theories/PropsClean.v
theories/Fails.v
theories/PropsSource.v
theories/Chain.v
theories/ReadBack.v
theories/RsyncRun.v
theories/PropsHistory.v
theories/Refuted.v
theories/Requests.v
theories/PropsRequests.v
theories/PropsRsync.v
theories/Lock.v
theories/Cli.v
theories/PropsLock.v
theories/PropsKill.v
theories/Live.v
theories/LiveRun.v
theories/LiveRest.v
theories/PropsLive.v
theories/PropsHolds.v
theories/PropsHoldsRsync.v
theories/PropsHoldsLookup.v
theories/PropsHoldsRequests.v
theories/PropsHoldsDelay.v
theories/PropsHoldsFresh.v
theories/PropsHoldsMoved.v
theories/PropsHoldsCache.v
theories/TreeWalk.v
theories/PropsHoldsWalk.v
theories/PropsLiveTal.v
theories/PropsPanic.v
theories/PropsCopied.v
theories/PropsOrder.v
theories/PropsParsed.v
theories/PropsPower.v
theories/Main.v
theories/Later.v
theories/PropsExit.v
theories/PropsClient.v
theories/TurnOrder.v
theories/PropsRecord.v
theories/Blind.v
theories/PropsSupply.v
theories/WayGen.v
theories/Way.v
theories/PropsRecover.v
theories/PropsDeltaClient.v
theories/PropsServers.v
theories/PropsBounded.v
theories/PropsBlocked.v
theories/PropsRecoverMoves.v
theories/PropsStaging.v
theories/PropsDownloads.v
theories/PropsAgree.v
theories/PropsNotifUri.v
theories/PropsRsyncMoved.v
theories/PropsStateLost.v
theories/PropsRecordLost.v
theories/PropsLinkTaken.v
theories/PropsLayout.v
theories/PropsWaits.v
theories/PropsDamage.v
theories/PropsRelay.v
theories/PropsDamageRsync.v
