-Q theories Verif
theories/Base.v
theories/VlqSpec.v
theories/Vlq.v
theories/VlqProofs.v
theories/BitSpec.v
theories/BitPacked.v
theories/BitProofs.v
theories/Types.v
theories/Versioned.v
theories/BitInterp.v
theories/ByteTypes.v
theories/BitTypes.v
theories/VersionedSpec.v
theories/VlqExact.v
theories/VersionedProofs.v
theories/VersionedExact.v
theories/VersionedEncode.v
theories/VersionedPrim.v
theories/ByteFacts.v
theories/PropsVlq.v
theories/PropsVersioned.v
theories/BitFormat.v
theories/BitExact.v
theories/BitTotal.v
theories/BitEncode.v
theories/BitFacts.v
theories/PropsBits.v
theories/Dispatch.v
theories/DispatchFacts.v
theories/PropsDispatch.v
theories/Tags.v
theories/TagFacts.v
theories/PropsTags.v
theories/Utf8.v
theories/Utf8Facts.v
theories/PropsText.v
theories/F32.v
theories/F32Facts.v
theories/Events.v
theories/Convert.v
theories/Typed.v
theories/ConvertSpec.v
theories/ConvertFacts.v
theories/ConvertTracker.v
theories/PropsConvert.v
theories/Stream.v
theories/StreamFacts.v
theories/Iterators.v
theories/IteratorFacts.v
theories/StreamSpec.v
theories/IteratorStreams.v
theories/StreamLoops.v
theories/SectorEncode.v
theories/PropsIterators.v
theories/Maps.v
theories/Balance.v
theories/Lobby.v
theories/State.v
theories/StateSpec.v
theories/StateFacts.v
theories/StateSteps.v
theories/StateProofs.v
theories/StateEvents.v
theories/StateMore.v
theories/StateExample.v
theories/PropsState.v
theories/Merge.v
theories/MergeSpec.v
theories/MergeFacts.v
theories/MergeStreams.v
theories/MergeProofs.v
theories/PropsMerge.v
theories/MergeNear.v
theories/PropsMergeNear.v
theories/TableSpec.v
theories/TableFacts.v
theories/PropsTables.v
theories/Files.v
theories/FilesFacts.v
theories/PropsFiles.v
theories/Times.v
theories/PropsTimes.v
theories/CacheFiles.v
theories/CacheSpec.v
theories/CacheFacts.v
theories/PropsCache.v
theories/DetailsData.v
theories/DetailsSpec.v
theories/DetailsFacts.v
theories/PropsDetails.v
theories/Rows.v
theories/RowSpec.v
theories/RowFacts.v
theories/RowLife.v
theories/RowCommands.v
theories/PropsRows.v
theories/LobbyRows.v
theories/PropsLobby.v
theories/Coords.v
theories/F32Round.v
theories/SecondsFacts.v
theories/CoordFacts.v
theories/PropsNumbers.v
theories/Archive.v
theories/ArchiveSpec.v
theories/ArchiveFacts.v
theories/SnapshotFacts.v
theories/ExportSpec.v
theories/SnapshotTables.v
theories/StatsFacts.v
theories/PropsArchive.v
theories/Writers.v
theories/WritersFacts.v
theories/PropsWriters.v
theories/Header.v
theories/HeaderFacts.v
theories/PropsHeader.v
theories/BalanceFiles.v
theories/BalanceSpec.v
theories/BalanceText.v
theories/BalanceFacts.v
theories/BalanceWrite.v
theories/BalanceNames.v
theories/BalanceXml.v
theories/PropsBalance.v
theories/Cli.v
theories/CliSpec.v
theories/CliFacts.v
theories/PropsCli.v
theories/LookSpec.v
theories/LookFacts.v
theories/PropsLooks.v
theories/Viewer.v
theories/ViewerSpec.v
theories/ViewerFacts.v
theories/PropsViewer.v
theories/ViewerProgram.v
theories/PropsViewerProgram.v
theories/Generator.v
theories/GeneratorSpec.v
theories/GeneratorFacts.v
theories/PropsGenerator.v
theories/ReaderFacts.v
theories/PropsReaders.v
theories/BalanceJson.v
theories/BalanceJsonSpec.v
theories/BalanceJsonFacts.v
theories/BalanceJsonNear.v
theories/PropsBalanceJson.v
theories/ReplayBytes.v
theories/UnitJson.v
theories/Conformance.v
theories/RepoTestBytes.v
theories/RepoTests.v
theories/Program.v
theories/ProgramSpec.v
theories/ProgramFacts.v
theories/PropsProgram.v
theories/LossySpec.v
theories/LossyFacts.v
theories/MapCorners.v
theories/UserSpec.v
theories/UserFacts.v
theories/PropsUsers.v
theories/ByteGen.v
theories/ByteGenSpec.v
theories/ByteGenFacts.v
theories/PropsByteGen.v
theories/SizeSpec.v
theories/SizeFacts.v
theories/SizeStreams.v
theories/MergeSize.v
theories/PropsSizes.v
theories/ExtendFacts.v
theories/ExtendStreams.v
theories/PropsCut.v
theories/StateSize.v
theories/PropsStateSize.v
theories/HashOrder.v
theories/HashOrderMerged.v
theories/PropsHashOrder.v
theories/UnitStory.v
theories/PropsUnits.v
theories/DamagedTables.v
theories/PropsDamaged.v
theories/UnitOrders.v
theories/PropsOrders.v
theories/CacheCuts.v
theories/PropsCacheCuts.v
theories/ExportEnds.v
theories/PropsExport.v
theories/BuildsAgree.v
theories/BuildsAgreeProgram.v
theories/PropsBuilds.v
theories/DamagedBuilds.v
theories/F64.v
theories/F64Round.v
theories/EventPane.v
theories/EventPaneSpec.v
theories/EventPaneFacts.v
theories/PropsPane.v
theories/GenerateRun.v
theories/GenerateSpec.v
theories/GenerateFacts.v
theories/GenerateTexts.v
theories/GenerateTags.v
theories/GenerateNames.v
theories/GenerateEnds.v
theories/PropsGenerate.v
theories/GenJson.v
theories/GenJsonSpec.v
theories/GenJsonFacts.v
theories/PropsGenJson.v
theories/ByteJson.v
theories/ByteJsonSpec.v
theories/ByteJsonFacts.v
theories/PropsByteJson.v
theories/CameraBox.v
theories/CameraBoxSpec.v
theories/CameraBoxFacts.v
theories/PropsCameraBox.v
theories/CircleFacts.v
theories/UnitView.v
theories/UnitViewSpec.v
theories/UnitViewFacts.v
theories/PropsUnitView.v
theories/UnitFileSpec.v
theories/UnitFileFacts.v
theories/UnitRows.v
theories/UnitFileRun.v
theories/PropsUnitFile.v
theories/DirStats.v
theories/DirStatsFacts.v
theories/PropsDirStats.v
theories/WrapSpec.v
theories/WrapFacts.v
theories/VlqOutcomes.v
theories/PropsWrap.v
theories/Stops.v
theories/PropsStops.v
theories/ExportStops.v
theories/PropsExportStops.v
theories/ViewerStops.v
theories/PropsViewerStops.v
