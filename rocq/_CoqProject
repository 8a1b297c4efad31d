-Q theories Verif

theories/Base.v
theories/Layout.v
theories/Image.v
theories/Block.v
theories/Petscii.v
theories/Bam.v
theories/Format.v
theories/Chain.v
theories/GeosTypes.v
theories/DirEntry.v
theories/Header.v
theories/World.v
theories/Directory.v
theories/Writer.v
theories/Rel.v
theories/GeosFile.v
theories/File.v
theories/Validate.v
theories/Sprite.v
theories/Hexdump.v
theories/ListFacts.v
theories/Spec.v
theories/SpecCodec.v
theories/GeomFacts.v
theories/Flat.v
theories/FlatProofs.v
theories/ErrorTable.v
theories/DevFacts.v
theories/BitFacts.v
theories/CodecProofs.v
theories/EntryProofs.v
theories/HeaderProofs.v
theories/SpecText.v
theories/TextProofs.v
theories/CodecMore.v
theories/SpecChain.v
theories/ChainProofs.v
theories/ChainExamples.v
theories/SpecBam.v
theories/BamProofs.v
theories/AllocProofs.v
theories/AllocAny.v
theories/BamState.v
theories/Evolve.v
theories/Holds.v
theories/SpecKinds.v
theories/View.v
theories/Dirs.v
theories/Ops.v
theories/Count.v
theories/OpWrite.v
theories/OpFile.v
theories/OpCreate.v
theories/FormatProofs.v
theories/SpecValidate.v
theories/ValidateProofs.v
theories/Opening.v
theories/Session.v
theories/SpecFiles.v
theories/SpecDisk.v
theories/Refine.v
theories/Tables.v
theories/SpecialFiles.v
theories/OpDelete.v
theories/OpenSound.v
theories/Trace.v
theories/SoundImage.v
theories/ValidSound.v
theories/SpecHandle.v
theories/HandleProofs.v
theories/Demo.v
theories/RelProofs.v
theories/SectorProofs.v
theories/AnyDir.v
theories/SessionMore.v
theories/ReadOnly.v
theories/DemoImages.v
theories/DemoGeos.v
theories/SpecGeos.v
theories/GeosProofs.v
theories/ReadOnlyMore.v
theories/Refutations.v
theories/Partials.v
theories/Robust.v
theories/RobustOps.v
theories/DeleteDurable.v
theories/Cdisk.v
theories/SpecTool.v
theories/ToolProofs.v
theories/ToolMore.v
theories/Text.v
theories/Errors.v
theories/Host.v
theories/Main.v
theories/SpecOutput.v
theories/SpecDetails.v
theories/OutputProofs.v
theories/ListingProofs.v
theories/DumpProofs.v
theories/ReportProofs.v
theories/DetailsProofs.v
theories/DemoTool.v
theories/PropertiesDisk.v
theories/PropertiesCodec.v
theories/PropertiesChain.v
theories/PropertiesBam.v
theories/RecordsKept.v
theories/PropertiesFiles.v
theories/PropertiesImages.v
theories/PropertiesFindings.v
theories/PropertiesTool.v
theories/PropertiesText.v
theories/PropertiesDetails.v
theories/Keeps.v
theories/CmdKeeps.v
theories/SpecHost.v
theories/HostProofs.v
theories/ErrorProofs.v
theories/HostMore.v
theories/DemoHost.v
theories/PropertiesHost.v
theories/DemoMixed.v
theories/DemoBorder.v
theories/GeosDisk.v
theories/SpecLabel.v
theories/Relabel.v
theories/DirIter.v
theories/SpecTurns.v
theories/TurnsRead.v
theories/TurnsList.v
theories/TurnsTable.v
theories/TurnsGeos.v
theories/TurnsGrow.v
theories/Overlap.v
theories/DemoOverlap.v
theories/PropertiesOverlap.v
theories/DemoTurns.v
theories/PropertiesTurns.v
theories/PropertiesLabel.v
theories/PropertiesRecords.v
theories/PropertiesBorder.v
theories/ProgramProofs.v
theories/SpecProgram.v
theories/CopyOut.v
theories/Refused.v
theories/DemoProgram.v
theories/PropertiesProgram.v
