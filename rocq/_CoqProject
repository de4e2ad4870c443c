-Q theories Verif

theories/Bytes.v
theories/Outcome.v
theories/IO.v
theories/Primitives.v
theories/Crypto.v
theories/Header.v
theories/Stream.v
theories/KeyModel.v
theories/EncDec.v
theories/KeyOps.v
theories/HeaderOps.v
theories/BytesFacts.v
theories/IOSpec.v
theories/IOFacts.v
theories/HeaderSpec.v
theories/HeaderFacts.v
theories/HeaderProofs.v
theories/Samples.v
theories/PropertiesHeader.v
theories/ToyEnv.v
theories/Fixtures.v
theories/StreamSpec.v
theories/StreamFacts.v
theories/StreamProofs.v
theories/PropertiesStream.v
theories/FileSpec.v
theories/FileFacts.v
theories/FileProofs.v
theories/FileCases.v
theories/PropertiesFile.v
theories/KeySpec.v
theories/KeyFacts.v
theories/KeyProofs.v
theories/DecSim.v
theories/KeyResults.v
theories/KeyCrash.v
theories/KeyHistory.v
theories/KeyWrap.v
theories/HeaderOpsProofs.v
theories/KeyCases.v
theories/PropertiesKey.v
theories/Overwrite.v
theories/Hash.v
theories/ToolSpec.v
theories/ToolProofs.v
theories/PropertiesTools.v
theories/FS.v
theories/Erase.v
theories/FSSpec.v
theories/FSFacts.v
theories/EraseProofs.v
theories/EraseDirProofs.v
theories/EraseSched.v
theories/EraseCases.v
theories/PropertiesErase.v
theories/Archive.v
theories/ArchiveSpec.v
theories/ArchiveWalk.v
theories/ArchiveProofs.v
theories/WorldFrames.v
theories/UnpackProofs.v
theories/PackProofs.v
theories/ArchiveCases.v
theories/ArchiveResults.v
theories/PropertiesArchive.v
theories/RestoreSpec.v
theories/RestoreNames.v
theories/RestoreDirs.v
theories/RestoreFiles.v
theories/RestorePack.v
theories/RestoreManySpec.v
theories/RestoreProofs.v
theories/RestoreCases.v
theories/PropertiesRestore.v
theories/Cli.v
theories/CliSpec.v
theories/Utf8Facts.v
theories/CliKeys.v
theories/CliRuns.v
theories/CliCommands.v
theories/CliProofs.v
theories/CliPack.v
theories/CliSafety.v
theories/CliResults.v
theories/CliCases.v
theories/PropertiesCli.v
theories/CliTools.v
theories/CliToolsSpec.v
theories/CliToolsRuns.v
theories/CliToolsProofs.v
theories/CliToolsHeader.v
theories/CliToolsUnpack.v
theories/NoPanic.v
theories/CliToolsKeys.v
theories/CliToolsResults.v
theories/CliToolsCases.v
theories/PropertiesCliTools.v
theories/ChoiceSpec.v
theories/ChoiceProofs.v
theories/PropertiesChoice.v
theories/DecryptSpec.v
theories/DecryptProofs.v
theories/DecryptCases.v
theories/PropertiesDecrypt.v
theories/PackPathSpec.v
theories/EraseMany.v
theories/PackPath.v
theories/PackPathCases.v
theories/PropertiesPackPath.v
theories/WorksSpec.v
theories/WorksProofs.v
theories/WorksCases.v
theories/PropertiesWorks.v
theories/WorksMoreSpec.v
theories/WorksMore.v
theories/PropertiesWorksMore.v
theories/MemStore.v
theories/MemSpec.v
theories/MemDisk.v
theories/MemMap.v
theories/MemProofs.v
theories/MemCases.v
theories/PropertiesMem.v
theories/Wipe.v
theories/WipeSpec.v
theories/WipeLib.v
theories/WipeProofs.v
theories/WipeResults.v
theories/WipeCases.v
theories/PropertiesWipe.v
theories/WipeCli.v
theories/WipeCliSpec.v
theories/WipeCliProofs.v
theories/WipeCliCases.v
theories/PropertiesWipeCli.v
theories/FreshSpec.v
theories/FreshFacts.v
theories/FreshLib.v
theories/FreshCli.v
theories/FreshCases.v
theories/PropertiesFresh.v
theories/PhraseSpec.v
theories/PhraseProofs.v
theories/PhraseCases.v
theories/PropertiesPhrase.v
theories/Clap.v
theories/ClapSpec.v
theories/ClapProofs.v
theories/ClapResults.v
theories/ClapCases.v
theories/PropertiesClap.v
theories/RoundSpec.v
theories/RoundProofs.v
theories/PropertiesRound.v
theories/WipeCmd.v
theories/WipeCmdSpec.v
theories/WipeCmdProofs.v
theories/WipeCmdKeys.v
theories/WipeCmdRest.v
theories/WipeCmdResults.v
theories/WipeCmdCases.v
theories/PropertiesWipeCmd.v
theories/PrintSpec.v
theories/PrintProofs.v
theories/PrintCases.v
theories/PropertiesPrint.v
theories/ReportSpec.v
theories/ReportProofs.v
theories/ReportCases.v
theories/PropertiesReport.v
theories/Watch.v
theories/WatchSpec.v
theories/WatchProofs.v
theories/WatchResults.v
theories/WatchCases.v
theories/PropertiesWatch.v
theories/RevokeProofs.v
theories/PropertiesRevoke.v
theories/CauseSpec.v
theories/CauseProofs.v
theories/PropertiesCause.v
theories/Shared.v
theories/SharedSpec.v
theories/SharedSim.v
theories/SharedProofs.v
theories/SharedDecrypt.v
theories/SharedEncrypt.v
theories/SharedExact.v
theories/SharedOver.v
theories/SharedOracle.v
theories/SharedCalls.v
theories/SharedCases.v
theories/SharedResults.v
theories/PropertiesShared.v
theories/CrashSpec.v
theories/CrashLib.v
theories/CrashLog.v
theories/CrashProofs.v
theories/CrashTake.v
theories/CrashPack.v
theories/CrashExposed.v
theories/CrashCases.v
theories/PropertiesCrash.v
theories/Messages.v
theories/MessageSpec.v
theories/MessageProofs.v
theories/MessageCases.v
theories/PropertiesMessage.v
theories/Names.v
theories/NamesSpec.v
theories/NamesProofs.v
theories/NamesCli.v
theories/NamesCases.v
theories/PropertiesNames.v
theories/Limits.v
theories/LimitsSpec.v
theories/LimitsProofs.v
theories/LimitsCases.v
theories/PropertiesLimits.v
theories/Races.v
theories/RacesSpec.v
theories/RacesProofs.v
theories/RacesCases.v
theories/PropertiesRaces.v
theories/KilledSpec.v
theories/KilledProofs.v
theories/KilledCases.v
theories/PropertiesKilled.v
theories/WrittenSpec.v
theories/WrittenProofs.v
theories/WrittenCli.v
theories/WrittenCases.v
theories/PropertiesWritten.v
theories/FaultsSpec.v
theories/FaultsRuns.v
theories/FaultsProofs.v
theories/FaultsDecrypt.v
theories/FaultsHeader.v
theories/FaultsCases.v
theories/PropertiesFaults.v
theories/FaultsPack.v
theories/FaultsPackPath.v
theories/FaultsPackCases.v
theories/PropertiesFaultsPack.v
theories/FaultsTools.v
theories/FaultsDump.v
theories/FaultsToolsCases.v
theories/PropertiesFaultsTools.v
theories/FaultsHash.v
theories/FaultsHashCases.v
theories/PropertiesFaultsHash.v
theories/FaultsShown.v
theories/FaultsShownCases.v
theories/PropertiesFaultsShown.v
