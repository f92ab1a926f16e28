-Q theories Verif
theories/Base.v
theories/Codec.v
theories/SpecOrder.v
theories/CodecFacts.v
theories/PropertiesCodec.v
theories/File.v
theories/FileFacts.v
theories/ChunkFacts.v
theories/Header.v
theories/HeaderFacts.v
theories/History.v
theories/CrashFacts.v
theories/OpenFacts.v
theories/EnvExample.v
theories/SpecFile.v
theories/DataFacts.v
theories/PropertiesFile.v
theories/NavFacts.v
theories/SpecCrash.v
theories/ReachNav.v
theories/CommitFacts.v
theories/PropertiesCrash.v
theories/PropertiesOpen.v
theories/PropertiesNav.v
theories/PropertiesMeta.v
theories/Btree.v
theories/TreeStore.v
theories/SpecMap.v
theories/MergeFacts.v
theories/ModifyFacts.v
theories/BtreeRead.v
theories/LookupFacts.v
theories/Db.v
theories/SortFacts.v
theories/ReduceFacts.v
theories/SpecDb.v
theories/DbFacts.v
theories/DbSave.v
theories/DbRead.v
theories/Compact.v
theories/SpecCompact.v
theories/CompactFacts.v
theories/Replay.v
theories/SpecReplay.v
theories/ReplayFacts.v
theories/SpecSession.v
theories/ShowFacts.v
theories/SessionFacts.v
theories/ReadFacts.v
theories/SaveFacts.v
theories/ErrorFacts.v
theories/SessionExample.v
theories/PropertiesDb.v
theories/PropertiesSave.v
theories/PropertiesTree.v
theories/Crc.v
theories/SpecCrc.v
theories/CrcFacts.v
theories/Alloc.v
theories/Bitmap.v
theories/SortedList.v
theories/Flags.v
theories/PSync.v
theories/SpecUtil.v
theories/UtilFacts.v
theories/PropertiesUtil.v
theories/MergeSort.v
theories/MergeSortFacts.v
theories/TreeWriter.v
theories/BulkFacts.v
theories/TreeWriterFacts.v
theories/PropertiesSort.v
theories/PropertiesCompact.v
theories/PropertiesReplay.v
theories/IoBuffer.v
theories/SpecIo.v
theories/IoFacts.v
theories/PropertiesIo.v
theories/ViewCodec.v
theories/IndexHeader.v
theories/SpecView.v
theories/ViewFacts.v
theories/PropertiesView.v
theories/Reducers.v
theories/Cleanup.v
theories/SpecCleanup.v
theories/SpecNode.v
theories/PurgeFacts.v
theories/CleanupFacts.v
theories/GroupFacts.v
theories/CleanupExample.v
theories/PropertiesCleanup.v
theories/NodeFacts.v
theories/PropertiesNode.v
theories/FileMerger.v
theories/Quicksort.v
theories/QuicksortFacts.v
theories/MergerFacts.v
theories/FileSorter.v
theories/SorterFacts.v
theories/ViewFiles.v
theories/SpecSorter.v
theories/RecordFacts.v
theories/PropertiesSorter.v
theories/Collate.v
theories/SpecJson.v
theories/CollateFacts.v
theories/JsonOrder.v
theories/JsonParse.v
theories/PropertiesCollate.v
theories/ViewGroup.v
theories/ModifyPurgeFacts.v
theories/SpecGroup.v
theories/ViewGroupFacts.v
theories/ViewUpdateFacts.v
theories/PropertiesGroup.v
theories/Walk.v
theories/SpecWalk.v
theories/WalkFacts.v
theories/PropertiesWalk.v
theories/BuiltinReducers.v
theories/SpecReduce.v
theories/ReduceValueFacts.v
theories/DoubleExample.v
theories/PropertiesReduce.v
theories/Spatial.v
theories/SpecSpatial.v
theories/SpatialFacts.v
theories/ZorderFacts.v
theories/PropertiesSpatial.v
theories/Stream.v
theories/SpecStream.v
theories/StreamFacts.v
theories/StreamCutFacts.v
theories/PropertiesStream.v
theories/PropertiesNonce.v
theories/OsFile.v
theories/SpecOs.v
theories/OsFacts.v
theories/PropertiesOs.v
theories/Check.v
theories/CheckFacts.v
theories/PropertiesCheck.v
theories/SpecRecover.v
theories/RecoverFacts.v
theories/RecoverCopy.v
theories/RecoverLink.v
theories/PropertiesRecover.v
theories/PropertiesTolerate.v
theories/Dbck.v
theories/SpecDbck.v
theories/DbckFacts.v
theories/DbckLink.v
theories/PropertiesDbck.v
theories/PropertiesTolerateWalk.v
theories/PropertiesDbckVersions.v
theories/Compactor.v
theories/SpecCompactor.v
theories/CompactorFacts.v
theories/PropertiesCompactor.v
theories/Dbinfo.v
theories/DbinfoFacts.v
theories/PropertiesDbinfo.v
theories/Dbdump.v
theories/DbdumpFacts.v
theories/PropertiesDump.v
theories/DbdumpLocal.v
theories/DbdumpLocalFacts.v
theories/PropertiesDumpLocal.v
theories/PropertiesDumpOpen.v
theories/DbdumpJson.v
theories/PropertiesDumpJson.v
theories/DbdumpTree.v
theories/DbdumpTreeFacts.v
theories/PropertiesDumpTree.v
theories/DbdumpIterate.v
theories/PropertiesDumpIterate.v
