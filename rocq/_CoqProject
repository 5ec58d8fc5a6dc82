-Q theories Verif
theories/Base.v
theories/Perm.v
theories/PermFacts.v
theories/PermList.v
theories/SpecPerm.v
theories/PermLaws.v
theories/PropsPerm.v
theories/Key.v
theories/SpecKey.v
theories/KeyFacts.v
theories/PropsKey.v
theories/Suffix.v
theories/SpecSuffix.v
theories/SuffixFacts.v
theories/PropsSuffix.v
theories/Prog.v
theories/Version.v
theories/VersionTry.v
theories/SpecVersion.v
theories/VersionFacts.v
theories/VersionLaws.v
theories/PropsVersion.v
theories/Search.v
theories/SpecSearch.v
theories/SearchFacts.v
theories/PropsSearch.v
theories/Mem.v
theories/Tree.v
theories/SpecTree.v
theories/Counterexamples.v
theories/PropsRefuted.v
theories/TreeState.v
theories/TreePrim.v
theories/TreeInv.v
theories/TreeRead.v
theories/TreeSplit.v
theories/TreeSkel.v
theories/TreeInode.v
theories/TreeProp.v
theories/TreeLeaf.v
theories/TreeContent.v
theories/TreeInsert.v
theories/TreeLayer.v
theories/TreeConv.v
theories/TreeLoop.v
theories/TreeTop.v
theories/SpecHist.v
theories/TreeLaws.v
theories/TreeDrop.v
theories/SpecShape.v
theories/TreeShape.v
theories/SpecNode.v
theories/NodeOps.v
theories/LeafOps.v
theories/Samples.v
theories/PropsTree.v
theories/PropsShape.v
theories/PropsNode.v
theories/SpecLin.v
theories/Lin.v
theories/LinRead.v
theories/LinWrite.v
theories/LinInsert.v
theories/LinSys.v
theories/LinHist.v
theories/PropsLin.v
theories/SpecConc.v
theories/ConcVar.v
theories/ConcLen.v
theories/ConcVal.v
theories/Conc.v
theories/ConcStep.v
theories/ConcRules.v
theories/ConcPar.v
theories/ConcMem.v
theories/ConcAlloc.v
theories/ConcRead.v
theories/ConcOwn.v
theories/ConcBag.v
theories/ConcLeaf.v
theories/ConcIns.v
theories/ConcInode.v
theories/ConcProp.v
theories/ConcUp.v
theories/ConcSplit.v
theories/ConcSys.v
theories/ConcTop.v
theories/PropsConc.v
theories/SpecOrder.v
theories/ConcDeed.v
theories/ConcOnce.v
theories/ConcOrder.v
theories/PropsVal.v
theories/PropsOrder.v
theories/SpecAtomic.v
theories/ConcItem.v
theories/ConcAtomic.v
theories/PropsAtomic.v
theories/SpecGuard.v
theories/GuardSys.v
theories/GuardRef.v
theories/PropsGuard.v
theories/SpecSolo.v
theories/Solo.v
theories/PropsSolo.v
theories/SpecExcl.v
theories/Index.v
theories/ExclGc.v
theories/Excl.v
theories/PropsExcl.v
theories/SpecSerial.v
theories/Serial.v
theories/PropsSerial.v
theories/SpecUpdate.v
theories/UpdBase.v
theories/UpdRead.v
theories/UpdWrite.v
theories/UpdInsert.v
theories/UpdCall.v
theories/UpdSys.v
theories/PropsUpdate.v
theories/Freeze.v
theories/SpecFreeze.v
theories/FreezeFacts.v
theories/PropsFreeze.v
theories/NodeMatch.v
theories/SpecMatch.v
theories/MatchFacts.v
theories/PropsMatch.v
theories/CasInsert.v
theories/CasFacts.v
theories/CasDrop.v
theories/PropsCas.v
theories/CasConc.v
theories/CasSteps.v
theories/CasPub.v
theories/CasThread.v
theories/CasRun.v
theories/SpecCas.v
theories/CasSys.v
theories/PropsCasConc.v
theories/CasRead.v
theories/CasMix.v
theories/PropsCasRead.v
theories/VersionSt.v
theories/SpecVersionSt.v
theories/VersionStFacts.v
theories/PropsVersionSt.v
theories/Descend.v
theories/DescendFacts.v
theories/PropsDescend.v
