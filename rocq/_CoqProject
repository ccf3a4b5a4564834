-Q theories Verif
theories/Base.v
theories/BaseLemmas.v
theories/FileObject.v
theories/MappingPairs.v
theories/MappingPairsSpec.v
theories/MappingPairsProofs.v
theories/Properties_Refs.v
theories/Frs.v
theories/FrsSpec.v
theories/FrsProofs.v
theories/Properties_Frs.v
theories/Sorting.v
theories/FileRecord.v
theories/FileRecordSpec.v
theories/FileRecordProofs.v
theories/Properties_FileRecord.v
theories/FragmentedFile.v
theories/FragmentedFileSpec.v
theories/FragmentedFileProofs.v
theories/Properties_FragmentedFile.v
theories/Mft.v
theories/MftSpec.v
theories/MftProofs.v
theories/MftPathProofs.v
theories/MftSamples.v
theories/Properties_Mft.v
theories/Filetime.v
theories/FiletimeProofs.v
theories/Properties_Filetime.v
theories/Usa.v
theories/UsaSpec.v
theories/UsaProofs.v
theories/Attributes.v
theories/Wsl.v
theories/BootSector.v
theories/Utf16.v
theories/AttributesSpec.v
theories/FieldLemmas.v
theories/AttributesProofs.v
theories/IndexProofs.v
theories/WslSpec.v
theories/ExtAttrProofs.v
theories/BootSectorProofs.v
theories/Properties_Boot.v
theories/Properties_Attributes.v
theories/Usn.v
theories/UsnSpec.v
theories/UsnProofs.v
theories/Properties_Usn.v
theories/MoveTable.v
theories/MoveTableSpec.v
theories/MoveTableProofs.v
theories/Properties_MoveTable.v
theories/Crc32.v
theories/Crc32Proofs.v
theories/PartitionTable.v
theories/PartitionTableSpec.v
theories/PartitionTableProofs.v
theories/Properties_Partition.v
theories/FatBasic.v
theories/FatBoot.v
theories/FatTable.v
theories/FatSpec.v
theories/FatProofs.v
theories/Properties_Fat.v
theories/FatDir.v
theories/FatDirSpec.v
theories/FatDirProofs.v
theories/FatDirWrite.v
theories/Properties_FatDir.v
theories/DirWalk.v
theories/DirWalkSpec.v
theories/DirWalkProofs.v
theories/ClusterRead.v
theories/ClusterReadSpec.v
theories/ClusterReadProofs.v
theories/FatFs.v
theories/FatFsSpec.v
theories/FatFsProofs.v
theories/Properties_FatFs.v
theories/ExBasic.v
theories/ExBoot.v
theories/ExSpec.v
theories/ExBasicProofs.v
theories/Properties_ExBoot.v
theories/Properties_ExBasic.v
theories/ExTable.v
theories/ExTableSpec.v
theories/ExTableProofs.v
theories/Properties_ExTable.v
theories/ExDir.v
theories/ExDirSpec.v
theories/ExDirProofs.v
theories/ExDirWrite.v
theories/Properties_ExDir.v
theories/ExFs.v
theories/ExFsSpec.v
theories/ExFsProofs.v
theories/Properties_ExFs.v
theories/LogPage.v
theories/LogFile.v
theories/LogSpec.v
theories/LogPageProofs.v
theories/LogFileProofs.v
theories/LogReadProofs.v
theories/LogWalkProofs.v
theories/LogClientProofs.v
theories/LogCollectProofs.v
theories/LogImages.v
theories/Properties_Log.v
theories/LogRecord.v
theories/LogParse.v
theories/LogParseSpec.v
theories/LogRecordProofs.v
theories/LogParseProofs.v
theories/LogItemsProofs.v
theories/LogParseTop.v
theories/Properties_LogParse.v
theories/Shadow.v
theories/ShadowSpec.v
theories/ShadowChain.v
theories/ShadowTranslate.v
theories/ShadowSelect.v
theories/ShadowSelect2.v
theories/ShadowRead.v
theories/ShadowImages.v
theories/Properties_Shadow.v
theories/Carve.v
theories/CarveSpec.v
theories/CarveProofs.v
theories/CarveFcb.v
theories/Properties_Carve.v
theories/Volume.v
theories/VolumeSpec.v
theories/VolumeProofs.v
theories/VolumeComplete.v
theories/Properties_Volume.v
theories/Layout.v
theories/Getters.v
theories/FieldsSpec.v
theories/FieldsProofs.v
theories/Properties_Fields.v
theories/Report.v
theories/ReportSpec.v
theories/ReportProofs.v
theories/ReportTable.v
theories/ReportSound.v
theories/ReportMoreSpec.v
theories/ReportMore.v
theories/HexdumpProofs.v
theories/Properties_Report.v
theories/LogReport.v
theories/LogReportSpec.v
theories/LogTextProofs.v
theories/LogPartsProofs.v
theories/LogBlocksProofs.v
theories/Properties_LogReport.v
theories/ReportText.v
theories/ReportTextSpec.v
theories/CalendarProofs.v
theories/ReportTextProofs.v
theories/CsvProofs.v
theories/ReportFiles.v
theories/Properties_ReportText.v
theories/FatReport.v
theories/FatReportSpec.v
theories/FatReportProofs.v
theories/Properties_FatReport.v
theories/MoveReport.v
theories/MoveReportSpec.v
theories/MoveReportProofs.v
theories/Properties_MoveReport.v
theories/Mount.v
theories/MountSpec.v
theories/Properties_Mount.v
theories/FatLayoutSpec.v
theories/Properties_FatLayout.v
theories/AllMft.v
theories/AllMftSpec.v
theories/Properties_AllMft.v
theories/WitnessMft.v
theories/PathSpec.v
theories/PathFound.v
theories/Properties_PathFound.v
theories/Examples_Report.v
theories/Examples_LogReport.v
theories/Examples_Log.v
theories/Examples_Dirs.v
theories/Examples_Volume.v
theories/Utf8.v
theories/Utf8Spec.v
theories/Utf8Proofs.v
theories/TextsMft.v
theories/TextsReport.v
theories/TextsLog.v
theories/TextsAll.v
theories/TextsFat.v
theories/Main.v
theories/MainSpec.v
theories/Properties_Texts.v
theories/Properties_Main.v
theories/LogTextSpec.v
theories/Properties_LogText.v
theories/EndsMft.v
theories/EndsLog.v
theories/EndsFat.v
theories/EndsAll.v
theories/Properties_Ends.v
theories/MountMain.v
theories/MountMainSpec.v
theories/MountMainProofs.v
theories/Properties_MountMain.v
theories/Names.v
theories/NamesSpec.v
theories/Properties_Names.v
theories/ShadowBlocksSpec.v
theories/Properties_ShadowBlocks.v
