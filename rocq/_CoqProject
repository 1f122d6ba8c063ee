-Q theories Verif
theories/Base.v
theories/MathModel.v
theories/SizeModel.v
theories/PrimeTable.v
theories/HashModel.v
theories/SelectTables.v
theories/SelectModel.v
theories/SpecBits.v
theories/SelectProofs.v
theories/ArithProofs.v
theories/HashProofs.v
theories/PropArith.v
theories/BitsModel.v
theories/BucketModel.v
theories/BitsProofs.v
theories/BucketProofs.v
theories/BucketProps.v
theories/PropBucket.v
theories/OverflowModel.v
theories/TableModel.v
theories/Chain.v
theories/ArrayProofs.v
theories/OverflowProofs.v
theories/TableProofs.v
theories/TableInv.v
theories/TableOps.v
theories/Spec.v
theories/TableRun.v
theories/TableRefine.v
theories/TableConf.v
theories/TableFacts.v
theories/IterModel.v
theories/TableIter.v
theories/TableMore.v
theories/TableReach.v
theories/PropTable.v
theories/SerialModel.v
theories/SerialProofs.v
theories/SerialFacts.v
theories/IterOv.v
theories/PropSerial.v
theories/OwnModel.v
theories/OwnProofs.v
theories/OwnFacts.v
theories/PropOwn.v
theories/BtModel.v
theories/BtProofs.v
theories/PropBt.v
theories/KsModel.v
theories/KsProofs.v
theories/PropKs.v
theories/NavModel.v
theories/NavProofs.v
theories/MapProofs.v
theories/HashChain.v
theories/CompactModel.v
theories/CompactBits.v
theories/CompactProofs.v
theories/PropCompact.v
theories/GroupModel.v
theories/GroupOvModel.v
theories/DebugGroup.v
theories/GroupCore.v
theories/GroupBorder.v
theories/GroupKv.v
theories/GroupTable.v
theories/GroupOvTable.v
theories/GroupOvIter.v
theories/GroupSerial.v
theories/GroupHist.v
theories/PropGroup.v
theories/PropGroupOv.v
theories/PropGroupOvStep.v
theories/BytesModel.v
theories/BytesProofs.v
theories/PropBytes.v
theories/ArrayTable.v
theories/PropOverflow.v
theories/TableStable.v
theories/PropStable.v
theories/NavStep.v
theories/PropStep.v
theories/PropRest.v
theories/DebugModel.v
theories/DebugTrans.v
theories/DebugHash.v
theories/DebugSlot.v
theories/DebugProofs.v
theories/DebugHist.v
theories/DebugConf.v
theories/PropDebug.v
theories/DebugSerial.v
theories/DebugSerialProofs.v
theories/DebugSerialFacts.v
theories/PropDebugSerial.v
theories/NavTrans.v
theories/DebugGroupTrans.v
theories/DebugGroupRep.v
theories/DebugGroupKv.v
theories/DebugGroupTable.v
theories/DebugGroupConf.v
theories/PropDebugGroup.v
theories/DebugGroupSerial.v
theories/DebugGroupRound.v
theories/PropDebugGroupSerial.v
theories/DebugCompact.v
theories/DebugCompactTrans.v
theories/DebugCompactRep.v
theories/DebugCompactMap.v
theories/DebugCompactConf.v
theories/PropDebugCompact.v
theories/DebugBt.v
theories/DebugBtTrans.v
theories/DebugBtRep.v
theories/PropDebugBt.v
theories/KsGen.v
theories/KsGenProofs.v
theories/KsGenInst.v
theories/PropKsGen.v
theories/PropBtCap.v
theories/AllocModel.v
theories/AllocProofs.v
theories/AllocInv.v
theories/AllocStrong.v
theories/AllocRun.v
theories/PropAlloc.v
theories/ClientModel.v
theories/ClientProofs.v
theories/ClientTable.v
theories/PropClient.v
theories/PropCompactTests.v
theories/ExampleModel.v
theories/PropExample.v
theories/NarrowModel.v
theories/NarrowCore.v
theories/NarrowBorder.v
theories/NarrowKv.v
theories/PropNarrow.v
theories/KsOvModel.v
theories/PropKsOv.v
theories/ExactModel.v
theories/ExactProofs.v
theories/PropExact.v
theories/FuelProofs.v
theories/PropFuel.v
theories/ManyModel.v
theories/PropMany.v
theories/PropCompactMem.v
theories/PropGroupMem.v
theories/PropLimits.v
theories/KsOwnModel.v
theories/PropKsOwn.v
theories/PropBlocksize.v
theories/PropIdle.v
theories/StatsModel.v
theories/PropStats.v
theories/MallocModel.v
theories/MallocProofs.v
theories/PropMalloc.v
theories/MallocCompact.v
theories/PropMallocCompact.v
theories/MallocGroup.v
theories/PropMallocGroup.v
theories/StatsOther.v
theories/PropStatsOther.v
theories/NavEqModel.v
theories/PropNavEq.v
theories/MallocBt.v
theories/PropMallocBt.v
theories/PropNavEqBt.v
theories/MallocGroupOv.v
theories/PropMallocGroupOv.v
theories/PropMallocGranted.v
theories/AllocGroup.v
theories/PropAllocGroup.v
theories/PropAllocGroupHist.v
theories/PropErasePast.v
theories/PropErasePastDebug.v
theories/MapDrain.v
theories/PropMapDrain.v
theories/MapDrainFwd.v
theories/PropMapDrainFwd.v
theories/TableDrainFwd.v
theories/PropTableDrainFwd.v
