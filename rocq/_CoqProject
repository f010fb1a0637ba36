-Q theories Verif
theories/Base.v
theories/Paths.v
theories/Assets.v
theories/Model.v
theories/Demo.v
theories/Spec.v
theories/AssetFacts.v
theories/DbInv.v
theories/Wp.v
theories/DbOps.v
theories/FsInv.v
theories/Ops.v
theories/UnrefOps.v
theories/RepoOps.v
theories/DeleteOps.v
theories/Pure.v
theories/Loops.v
theories/Emit.v
theories/IndexOps.v
theories/ApiOps.v
theories/History.v
theories/DemoOk.v
theories/PoolFacts.v
theories/PropsPool.v
theories/OpFacts.v
theories/OpFacts2.v
theories/IndexFacts.v
theories/PropsIndex.v
theories/Frame.v
theories/OpFacts3.v
theories/PropsOps.v
theories/LibDb.v
theories/LibDbFacts.v
theories/PropsDb.v
theories/Jobs.v
theories/JobSpec.v
theories/JobFacts.v
theories/JobFacts2.v
theories/PropsJobs.v
theories/Dispatch.v
theories/PropsDispatch.v
theories/Escape.v
theories/PropsEscape.v
theories/Keep.v
theories/PathFacts.v
theories/Reading.v
theories/PropsFiles.v
theories/DeltaProd.v
theories/PropsDelta.v
theories/DeltaJob.v
theories/DeltaJobFacts.v
theories/PropsDeltaJob.v
theories/Lock.v
theories/PropsLock.v
theories/Transit.v
theories/TransitFacts.v
theories/PropsTransit.v
theories/Trees.v
theories/TreeFacts.v
theories/PropsTrees.v
theories/Conc.v
theories/ConcFacts.v
theories/ConcFacts2.v
theories/PropsConc.v
theories/PropsRepeat.v
theories/Daemon.v
theories/DaemonSpec.v
theories/DaemonFacts.v
theories/PropsDaemon.v
theories/PropsProgress.v
theories/PropsDrain.v
theories/Client.v
theories/PropsClient.v
theories/Server.v
theories/PropsServer.v
theories/PropsRetry.v
theories/Sim.v
theories/PropsRestart.v
theories/PropsStale.v
theories/PropsTruth.v
theories/Listing.v
theories/PropsListing.v
theories/Times.v
theories/PropsTimes.v
theories/DeleteRetry.v
theories/PropsDelete.v
theories/RemoveRetry.v
theories/PropsRemove.v
theories/Import.v
theories/Same.v
theories/PropsImport.v
theories/PropsSame.v
theories/RemoveCrash.v
theories/PropsCrash.v
theories/PropsSelf.v
theories/PropsAssets.v
theories/Purge.v
theories/PropsPurge.v
theories/RepoDirs.v
theories/PropsRepoDirs.v
theories/WorkerLoop.v
theories/PropsWorker.v
theories/Faults.v
theories/PropsFaults.v
theories/Gob.v
theories/GobFacts.v
theories/PropsGob.v
theories/Commute.v
theories/PropsCommute.v
theories/PropsFails.v
theories/WorkDir.v
theories/PropsWorkDir.v
theories/Xml.v
theories/XmlSpec.v
theories/XmlFacts.v
theories/XmlTree.v
theories/XmlDoc.v
theories/XmlSays.v
theories/PropsXml.v
theories/ReaderSpec.v
theories/PropsReader.v
theories/Unxml.v
theories/UnxmlSpec.v
theories/UnxmlFacts.v
theories/UnxmlWords.v
theories/PropsUnxml.v
theories/RelaySpec.v
theories/PropsRelay.v
theories/PropsNumbers.v
theories/PropsDecoded.v
theories/FilesXml.v
theories/PropsFilesXml.v
