-Q theories Verif
theories/B2Session.v
theories/BackupFacts.v
theories/BackupPaths.v
theories/BackupStats.v
theories/Base.v
theories/Browse.v
theories/BrowseFacts.v
theories/BrowseRepo.v
theories/BrowseSpec.v
theories/Bytes.v
theories/BytesFacts.v
theories/BytesRead.v
theories/Cat.v
theories/Cbor.v
theories/CborFacts.v
theories/Changing.v
theories/Check.v
theories/CheckFacts.v
theories/Children.v
theories/Chunker.v
theories/CloudStore.v
theories/CommandFacts.v
theories/Concurrent.v
theories/ConcurrentFacts.v
theories/ConcurrentRun.v
theories/DamageFacts.v
theories/DiffFacts.v
theories/DiffFiles.v
theories/DiskCache.v
theories/DumpTo.v
theories/Exec.v
theories/FailFacts.v
theories/Fails.v
theories/FileMoves.v
theories/Filtered.v
theories/Forest.v
theories/ForestFacts.v
theories/Formats.v
theories/FormatsFacts.v
theories/FsFacts.v
theories/FsSpec.v
theories/FsTree.v
theories/Golden.v
theories/Hashing.v
theories/HashingFacts.v
theories/History.v
theories/HistoryFacts.v
theories/Index.v
theories/IndexFacts.v
theories/Init.v
theories/Interrupt.v
theories/InterruptFacts.v
theories/InterruptRun.v
theories/InterruptSpec.v
theories/Json.v
theories/JsonSpec.v
theories/Leftovers.v
theories/LoadSnapshots.v
theories/Locations.v
theories/Meta.v
theories/OMap.v
theories/Pack.v
theories/PackFacts.v
theories/Parallel.v
theories/ParallelFacts.v
theories/PathFacts.v
theories/Pipeline.v
theories/PipelineFacts.v
theories/PipelineLive.v
theories/PlanFacts.v
theories/Progress.v
theories/PropsB2Session.v
theories/PropsBackup.v
theories/PropsBackupStats.v
theories/PropsBrowse.v
theories/PropsBytes.v
theories/PropsCat.v
theories/PropsChanging.v
theories/PropsCheck.v
theories/PropsChildren.v
theories/PropsChunk.v
theories/PropsCloud.v
theories/PropsConcurrent.v
theories/PropsDamage.v
theories/PropsDiffFiles.v
theories/PropsDiskCache.v
theories/PropsDumpTo.v
theories/PropsFilter.v
theories/PropsForest.v
theories/PropsFormats.v
theories/PropsIndex.v
theories/PropsInit.v
theories/PropsInterrupt.v
theories/PropsJson.v
theories/PropsLeftovers.v
theories/PropsLoadSnapshots.v
theories/PropsLocations.v
theories/PropsMoves.v
theories/PropsNested.v
theories/PropsPack.v
theories/PropsParallel.v
theories/PropsPaths.v
theories/PropsPipeline.v
theories/PropsProgress.v
theories/PropsPruneReport.v
theories/PropsRcu.v
theories/PropsRead.v
theories/PropsRepackStats.v
theories/PropsRepo.v
theories/PropsRestore.v
theories/PropsResume.v
theories/PropsRoundTrip.v
theories/PropsSelect.v
theories/PropsSem.v
theories/PropsSettings.v
theories/PropsSnapshotText.v
theories/PropsSnapshots.v
theories/PropsTimes.v
theories/PropsTransfer.v
theories/PropsUsage.v
theories/PropsWhole.v
theories/PropsWipFile.v
theories/PruneFacts.v
theories/PruneReport.v
theories/PublishFacts.v
theories/Rcu.v
theories/RcuFacts.v
theories/ReadBack.v
theories/ReadFacts.v
theories/Reader.v
theories/ReaderFacts.v
theories/RepackStats.v
theories/RepeatFacts.v
theories/Repo.v
theories/RepoFacts.v
theories/RepoSpec.v
theories/Restore.v
theories/RestoreFacts.v
theories/RestoreForest.v
theories/RestoreRun.v
theories/RestoreSpec.v
theories/RestoreSteps.v
theories/RestoreWitness.v
theories/RewriteFacts.v
theories/Select.v
theories/Semaphore.v
theories/Settings.v
theories/Snapshots.v
theories/SnapshotsFacts.v
theories/SnapshotsSpec.v
theories/Times.v
theories/Toy.v
theories/Transfer.v
theories/Usage.v
theories/Witness.v
