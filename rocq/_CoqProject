-Q theories Verif
theories/Base.v
theories/BaseLemmas.v
theories/Search.v
theories/Diff.v
theories/Sat.v
theories/SearchProofs.v
theories/DiffProofs.v
theories/SpecDelta.v
theories/CopiesProofs.v
theories/ExtentProofs.v
theories/DiffFinal.v
theories/PropsDiff.v
theories/Utils.v
theories/Strerror.v
theories/DeltaComp.v
theories/SpecCodec.v
theories/UtilsProofs.v
theories/CpioHeader.v
theories/CpioHeaderProofs.v
theories/CodecFinal.v
theories/PropsCodec.v
theories/Stream.v
theories/SpecStream.v
theories/StreamProofs.v
theories/ToyCodec.v
theories/DetectProofs.v
theories/StreamFinal.v
theories/PropsStream.v
theories/Rpm.v
theories/Delta.v
theories/DeltaWrite.v
theories/DeltaRead.v
theories/ReadSim.v
theories/SpecFormat.v
theories/FormatProofs.v
theories/FormatFinal.v
theories/FormatSafe.v
theories/ToyLibs.v
theories/FormatCases.v
theories/PropsFormat.v
theories/Seq.v
theories/SeqProofs.v
theories/Expand.v
theories/Archive.v
theories/SeqFinal.v
theories/PropsSeq.v
theories/SpecArchive.v
theories/ArchiveProofs.v
theories/ArchiveMain.v
theories/ArchiveLoop.v
theories/ArchiveFinal.v
theories/ArchiveSafe.v
theories/ArchiveSeq.v
theories/ArchiveCases.v
theories/TextCases.v
theories/PropsArchive.v
theories/Blocks.v
theories/SpecBlocks.v
theories/BlocksProofs.v
theories/PropsBlocks.v
theories/Fill.v
theories/FillProofs.v
theories/FillStd.v
theories/FillSafe.v
theories/FillCases.v
theories/PropsFill.v
theories/FsFill.v
theories/DirectProofs.v
theories/SpecFs.v
theories/FsProofs.v
theories/FsFinal.v
theories/Apply.v
theories/ApplyProofs.v
theories/ApplyRun.v
theories/SpecApply.v
theories/ApplySafe.v
theories/ApplyRefuse.v
theories/ApplyCases.v
theories/PropsApply.v
theories/ApplySafeCases.v
theories/PropsApplySafe.v
theories/FsCases.v
theories/PropsFs.v
theories/Make.v
theories/DiffCounts.v
theories/SpecMake.v
theories/PackageProofs.v
theories/MakeRun.v
theories/MakeOnly.v
theories/MakeStd.v
theories/MakeNodiff.v
theories/MakeFinal.v
theories/MakeCases.v
theories/PropsMake.v
theories/SpecInstalled.v
theories/MakeInstalled.v
theories/InstalledCases.v
theories/PropsInstalled.v
theories/FileSys.v
theories/Ident.v
theories/SpecIdent.v
theories/IdentProofs.v
theories/IdentFinal.v
theories/PropsIdent.v
theories/Prelink.v
theories/SpecPrelink.v
theories/PrelinkProofs.v
theories/Check.v
theories/SpecCheck.v
theories/CheckProofs.v
theories/CheckCases.v
theories/PropsCheck.v
theories/PrelinkOpen.v
theories/PrelinkOpenProofs.v
theories/PropsPrelinkOpen.v
theories/SpecApplySafe.v
theories/DirectSafe.v
theories/FsSafe.v
theories/ApplyInstalledSafe.v
theories/InstalledSafeCases.v
theories/PropsInstalledSafe.v
theories/SpecFaults.v
theories/CheckSafe.v
theories/PropsCheckSafe.v
theories/CheckIo.v
theories/CheckIoProofs.v
theories/PropsCheckIo.v
theories/ApplyFaults.v
theories/PropsApplyFaults.v
theories/Handle.v
theories/SpecHandle.v
theories/HandleProofs.v
theories/HandleFinal.v
theories/PropsHandle.v
theories/Options.v
theories/SpecOptions.v
theories/OptionsProofs.v
theories/PropsOptions.v
theories/Patches.v
theories/SpecPatches.v
theories/PatchesProofs.v
theories/PropsPatches.v
theories/CodecLoop.v
theories/SpecLoop.v
theories/LoopProofs.v
theories/LoopCases.v
theories/LoopFinal.v
theories/PropsLoop.v
theories/SpecMakeSafe.v
theories/MakeSafe.v
theories/MakeSafeCases.v
theories/PropsMakeSafe.v
theories/Own.v
theories/OwnCodec.v
theories/OwnRpm.v
theories/OwnRead.v
theories/OwnClient.v
theories/OwnCheck.v
theories/SpecOwn.v
theories/OwnTools.v
theories/OwnCodecProofs.v
theories/OwnRpmProofs.v
theories/OwnReadProofs.v
theories/OwnApiProofs.v
theories/OwnCheckProofs.v
theories/OwnFinal.v
theories/OwnCases.v
theories/PropsOwn.v
theories/OwnMake.v
theories/OwnMakeProofs.v
theories/OwnMakeFinal.v
theories/PropsOwnMake.v
theories/OwnBlocks.v
theories/OwnBlocksProofs.v
theories/OwnApply.v
theories/OwnApplyProofs.v
theories/OwnApplyFinal.v
theories/OwnPage.v
theories/PropsOwnApply.v
theories/OwnPatches.v
theories/OwnPatchesProofs.v
theories/PropsOwnPatches.v
theories/OwnSuffix.v
theories/OwnSuffixProofs.v
theories/PropsOwnSuffix.v
theories/Suffix.v
theories/SuffixText.v
theories/SuffixSplit.v
theories/SuffixOrder.v
theories/SuffixKeys.v
theories/SuffixCreate.v
theories/SpecSuffix.v
theories/SuffixFinal.v
theories/SuffixSearch.v
theories/PropsSuffix.v
theories/SpecRpm.v
theories/RpmCases.v
theories/RpmProofs.v
theories/PropsRpm.v
theories/SpecWire.v
theories/WireProofs.v
theories/WireCases.v
theories/PropsWire.v
theories/CodecUse.v
theories/SpecUse.v
theories/UseProofs.v
theories/UseCases.v
theories/PropsUse.v
theories/OptionsScarce.v
theories/SpecScarce.v
theories/ScarceProofs.v
theories/PropsScarce.v
theories/DiskOut.v
theories/SpecDisk.v
theories/DiskProofs.v
theories/DiskCases.v
theories/PropsDisk.v
