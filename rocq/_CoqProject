-Q theories Verif
theories/Base.v
theories/SpecStr.v
theories/SwarModel.v
theories/NumModel.v
theories/BaseLemmas.v
theories/SwarProofs.v
theories/SwarSearch.v
theories/NumProofs.v
theories/NumParse.v
theories/NumPad.v
theories/SwarShort.v
theories/SwarBack.v
theories/SwarFinal.v
theories/NumFinal.v
theories/PropSwar.v
theories/PropNum.v
theories/SpecText.v
theories/StrModel.v
theories/StrProofs.v
theories/StrBuild.v
theories/PropStr.v
theories/Base64Model.v
theories/SpecBase64.v
theories/Base64Proofs.v
theories/Base64Decode.v
theories/PropBase64.v
theories/DeferModel.v
theories/SpecDefer.v
theories/DeferProofs.v
theories/DeferCancel.v
theories/DeferNested.v
theories/PropDefer.v
theories/PropProtector.v
theories/MiscModel.v
theories/PropMisc.v
theories/AtomicModel.v
theories/PropAtomic.v
theories/ArenaModel.v
theories/SpecArena.v
theories/ArenaProofs.v
theories/ArenaAlloc.v
theories/ArenaFree.v
theories/ArenaClear.v
theories/PropArena.v
theories/ScopeArenaModel.v
theories/PropScopeArena.v
theories/SignalModel.v
theories/PropSignal.v
theories/ExcModel.v
theories/SpecExc.v
theories/ExcProofs.v
theories/ExcRun.v
theories/ExcStable.v
theories/ExcMore.v
theories/PropExc.v
theories/ExcThrow.v
theories/PropThrow.v
theories/PropUnwind.v
theories/HookModel.v
theories/PropHooks.v
theories/ExcMalloc.v
theories/PropGuardMem.v
theories/ArgsModel.v
theories/PropArgs.v
theories/FutureModel.v
theories/FutureProofs.v
theories/PropFuture.v
theories/SpawnModel.v
theories/PropSpawn.v
theories/RaceModel.v
theories/PropRace.v
theories/TlsModel.v
theories/SpecTls.v
theories/PropTls.v
theories/ExitModel.v
theories/PropExit.v
theories/ReturnModel.v
theories/PropReturn.v
theories/ResultModel.v
theories/PropResult.v
theories/MsgModel.v
theories/PropMessage.v
theories/PoolModel.v
theories/SpecPool.v
theories/PoolProofs.v
theories/PropPool.v
theories/DequeModel.v
theories/DequeProofs.v
theories/PropDeque.v
theories/GenericModel.v
theories/PropGeneric.v
theories/PropFloatAtomic.v
theories/PropJoin.v
theories/TermModel.v
theories/PropTerm.v
theories/MaskModel.v
theories/PropMask.v
theories/StrScopeModel.v
theories/PropStrScope.v
theories/LeakModel.v
theories/PropLeak.v
theories/AsyncModel.v
theories/PropAsync.v
theories/EntryModel.v
theories/PropEntry.v
theories/ThreadFnModel.v
theories/ThreadFnProofs.v
theories/PropThreadFn.v
theories/QueueModel.v
theories/SpecQueue.v
theories/QueueProofs.v
theories/QueueOps.v
theories/QueueLoops.v
theories/PropQueue.v
theories/TreeModel.v
theories/SpecTree.v
theories/TreeMem.v
theories/TreeBal.v
theories/TreeDel.v
theories/TreeOps.v
theories/TreeWalk.v
theories/TreeRun.v
theories/PropTree.v
theories/SplayModel.v
theories/SpecSplay.v
theories/SplayTree.v
theories/SplayLoop.v
theories/SplayAbs.v
theories/SplayOps.v
theories/SplayRun.v
theories/PropSplay.v
theories/MapModel.v
theories/PropMap.v
theories/GetoptModel.v
theories/GetoptSpec.v
theories/GetoptFacts.v
theories/GetoptRun.v
theories/PropGetopt.v
theories/WaitModel.v
theories/PropWait.v
theories/DirModel.v
theories/PropDir.v
theories/CompatModel.v
theories/PropCompat.v
theories/PropGetoptLong.v
theories/PropOpterr.v
theories/TypesModel.v
theories/PropTypes.v
theories/SehModel.v
theories/PropSeh.v
theories/UnwindFlagModel.v
theories/PropUnwindFlag.v
theories/CasModel.v
theories/PropCas.v
theories/WeakModel.v
theories/PropWeak.v
theories/TccModel.v
theories/PropTcc.v
theories/SetupModel.v
theories/PropSetup.v
theories/ValueModel.v
theories/PropValue.v
theories/ErrModel.v
theories/PropErr.v
