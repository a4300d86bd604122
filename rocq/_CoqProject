-Q theories Verif
theories/PyMonad.v
theories/DbModel.v
theories/CacheBackend.v
theories/DbSpec.v
theories/DbClaims.v
theories/CacheLift.v
theories/CacheFacts.v
theories/DbHistory.v
theories/CacheInv.v
theories/CacheStep.v
theories/CacheProv.v
theories/CacheComplete.v
theories/CacheNoop.v
theories/CacheDeps.v
theories/CacheTrust.v
theories/CacheStamp.v
theories/DbDeps.v
theories/DbGuard.v
theories/DbRank.v
theories/DbTheorems.v
theories/DbDelete.v
theories/DbRefute.v
theories/DbExamples.v
theories/PropsDb.v
theories/PropsDb2.v
theories/ArgsModel.v
theories/ArgsSpec.v
theories/ArgsFacts.v
theories/PropsArgs.v
theories/FnModel.v
theories/FnSpec.v
theories/FnFacts.v
theories/PropsFn.v
theories/PathModel.v
theories/PathSpec.v
theories/PathFacts.v
theories/PropsPath.v
theories/PlatModel.v
theories/PlatSpec.v
theories/PlatFacts.v
theories/PropsPlat.v
theories/MainModel.v
theories/PropsMain.v
theories/InstModel.v
theories/InstFacts.v
theories/PropsInst.v
theories/LogModel.v
theories/LogSpec.v
theories/LogFacts.v
theories/PropsLog.v
theories/VerModel.v
theories/VerSpec.v
theories/VerFacts.v
theories/PropsVer.v
theories/LinkModel.v
theories/LinkSpec.v
theories/LinkFacts.v
theories/PropsLink.v
theories/ScanModel.v
theories/ScanFacts.v
theories/PropsScan.v
theories/EqModel.v
theories/PropsEq.v
theories/RpcModel.v
theories/RpcFacts.v
theories/RpcLive.v
theories/PropsRpc.v
theories/RpcJoin.v
theories/PropsRpcJoin.v
theories/SchedModel.v
theories/SchedFacts.v
theories/SchedThms.v
theories/SchedWhole.v
theories/PropsSched.v
theories/SystemModel.v
theories/SystemSteps.v
theories/SystemFacts.v
theories/SystemLock.v
theories/SystemMeasure.v
theories/SystemLive.v
theories/SystemShut.v
theories/SystemStop.v
theories/PropsSystem.v
theories/SaveModel.v
theories/PropsSave.v
theories/AliasModel.v
theories/PropsAlias.v
theories/SqlBackend.v
theories/SqlSpec.v
theories/SqlEncode.v
theories/SqlRefute.v
theories/SqlLift.v
theories/SqlFacts.v
theories/SqlInv.v
theories/SqlStep.v
theories/SqlExt.v
theories/SqlKept.v
theories/SqlChange.v
theories/PropsSql.v
theories/SqlRecords.v
theories/PropsRecords.v
theories/SqlNoop.v
theories/PropsSqlNoop.v
theories/CacheGood.v
theories/CacheKept.v
theories/CacheNest.v
theories/PropsNoop.v
theories/DepModel.v
theories/DepSpec.v
theories/DepFacts.v
theories/PropsDep.v
theories/NmModel.v
theories/NmSpec.v
theories/NmFacts.v
theories/PropsNm.v
theories/TextModel.v
theories/TextSpec.v
theories/TextFacts.v
theories/PropsText.v
theories/GlobModel.v
theories/GlobSpec.v
theories/GlobFacts.v
theories/GlobPaths.v
theories/PropsGlob.v
theories/IdModel.v
theories/IdSpec.v
theories/IdFacts.v
theories/PropsId.v
theories/AnnModel.v
theories/AnnSpec.v
theories/AnnFacts.v
theories/PropsAnn.v
theories/ExecModel.v
theories/ExecSpec.v
theories/PropsExec.v
theories/CodeSpec.v
theories/CodeFacts.v
theories/CodeInv.v
theories/PropsCode.v
theories/OcamlModel.v
theories/OcamlSpec.v
theories/OcamlFacts.v
theories/TreeCheck.v
theories/PropsOcaml.v
theories/ProgModel.v
theories/PropsProg.v
theories/CopyModel.v
theories/CopySpec.v
theories/CopyFacts.v
theories/CopyMake.v
theories/PropsCopy.v
theories/TargetSpec.v
theories/TargetInv.v
theories/PropsTarget.v
theories/CompileSpec.v
theories/CompileFacts.v
theories/PropsCompile.v
theories/GccModel.v
theories/GccSpec.v
theories/GccFacts.v
theories/PropsGcc.v
theories/PropsBuildC.v
theories/OcamlBuildModel.v
theories/OcamlBuildSpec.v
theories/PropsOcamlBuild.v
theories/PropsOcamlOrder.v
theories/GuessModel.v
theories/GuessSpec.v
theories/GuessFacts.v
theories/PropsGuess.v
theories/ConfModel.v
theories/ConfFacts.v
theories/ConfSpec.v
theories/ConfThms.v
theories/PropsConf.v
theories/TryModel.v
theories/TrySpec.v
theories/TryFacts.v
theories/TryPlaces.v
theories/TryThms.v
theories/PropsTry.v
theories/AgainSpec.v
theories/StepEnv.v
theories/AgainFacts.v
theories/PropsAgain.v
theories/LatestSpec.v
theories/SqlLatest.v
theories/PropsLatest.v
theories/PropsSqlAgain.v
theories/OwnModel.v
theories/OwnSpec.v
theories/OwnPlaces.v
theories/OwnFacts.v
theories/PropsOwn.v
theories/JavaModel.v
theories/JavaSpec.v
theories/JavaFacts.v
theories/PropsJava.v
theories/SmallModel.v
theories/SmallSpec.v
theories/PropsSmall.v
theories/MsvcModel.v
theories/MsvcSpec.v
theories/MsvcFacts.v
theories/PropsMsvc.v
theories/StartModel.v
theories/StartSpec.v
theories/StartFacts.v
theories/PropsStart.v
theories/OptModel.v
theories/OptSpec.v
theories/OptFacts.v
theories/PropsOpt.v
theories/HelpModel.v
theories/HelpSpec.v
theories/HelpFacts.v
theories/PropsHelp.v
theories/FindModel.v
theories/FindSpec.v
theories/FindFacts.v
theories/PropsFind.v
theories/PkgModel.v
theories/PkgSpec.v
theories/PropsPkg.v
theories/WaitModel.v
theories/WaitSpec.v
theories/PropsWait.v
theories/SrcModel.v
theories/SrcSpec.v
theories/PropsSrc.v
theories/ConsModel.v
theories/ConsSpec.v
theories/PropsCons.v
theories/CmpModel.v
theories/CmpSpec.v
theories/PropsCmp.v
theories/FtModel.v
theories/FtSpec.v
theories/PropsFt.v
theories/AttrModel.v
theories/AttrSpec.v
theories/PropsAttr.v
theories/CcvModel.v
theories/CcvSpec.v
theories/PropsCcv.v
theories/FmtModel.v
theories/FmtSpec.v
theories/PropsFmt.v
theories/CrxModel.v
theories/CrxSpec.v
theories/PropsCrx.v
theories/PropsChars.v
