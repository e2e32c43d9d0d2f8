-Q theories Verif
theories/Base.v
theories/BaseProofs.v
theories/Text.v
theories/LinuxTextModel.v
theories/LinuxTextSpec.v
theories/LinuxTextProofs.v
theories/CpulistProofs.v
theories/CpulistFileProofs.v
theories/LinuxTextProps.v
theories/TopologySpec.v
theories/Runs.v
theories/CpuinfoLineModel.v
theories/CpuinfoLineSpec.v
theories/CpuinfoLineProofs.v
theories/X86CpuinfoModel.v
theories/X86CpuinfoSpec.v
theories/X86CpuinfoProofs.v
theories/X86CpuinfoProps.v
theories/Sorting.v
theories/GroupArray.v
theories/X86LinuxModel.v
theories/X86LinuxSpec.v
theories/X86LoopProofs.v
theories/X86TablesProofs.v
theories/X86DetectProofs.v
theories/Masks.v
theories/X86InitProofs.v
theories/X86ReportProofs.v
theories/X86FinalProofs.v
theories/X86Sample.v
theories/X86LinuxProps.v
theories/X86OfflineSpec.v
theories/X86OfflineProofs.v
theories/X86OfflineSample.v
theories/X86OfflineProps.v
theories/LogModel.v
theories/LogProofs.v
theories/LogProps.v
theories/ApiModel.v
theories/OnceModel.v
theories/ApiProofs.v
theories/X86ApiProofs.v
theories/ApiProps.v
theories/RaceModel.v
theories/RaceSpec.v
theories/RaceProofs.v
theories/RaceSample.v
theories/RaceProps.v
theories/X86DescriptorModel.v
theories/X86DecodeModel.v
theories/X86DecodeSpec.v
theories/X86DecodeProofs.v
theories/X86DescriptorProofs.v
theories/X86LevelsProofs.v
theories/X86LeavesProofs.v
theories/X86GroupProofs.v
theories/X86DecodeSample.v
theories/X86DecodeProps.v
theories/X86IsaModel.v
theories/X86IsaSpec.v
theories/X86IsaSample.v
theories/X86IsaProofs.v
theories/X86IsaProps.v
theories/RiscvLinuxModel.v
theories/RiscvLinuxSpec.v
theories/RiscvGroupProofs.v
theories/RiscvTablesProofs.v
theories/RiscvReportProofs.v
theories/RiscvInitProofs.v
theories/RiscvVendorProofs.v
theories/RiscvDetailProofs.v
theories/RiscvSample.v
theories/RiscvApiModel.v
theories/RiscvApiProofs.v
theories/RiscvLinuxProps.v
theories/ArmMidrModel.v
theories/ArmMidrSpec.v
theories/ArmMidrProofs.v
theories/ArmMidrProps.v
theories/Loops.v
theories/ArmClustersModel.v
theories/ArmClustersSpec.v
theories/ArmClustersProofs.v
theories/ArmScanProofs.v
theories/ArmClustersSample.v
theories/ArmClustersProps.v
theories/ArmClusterMidrModel.v
theories/ArmClusterMidrSpec.v
theories/ArmClusterMidrProofs.v
theories/ArmMidrAssignProofs.v
theories/ArmMidrDecideProofs.v
theories/ArmMidrResultProofs.v
theories/ArmMidrRuleProofs.v
theories/ArmMidrTableProofs.v
theories/ArmClusterMidrSample.v
theories/ArmChipsetTableProofs.v
theories/ArmClusterMidrProps.v
theories/ArmCpuinfoModel.v
theories/ArmCpuinfoSpec.v
theories/ArmCpuinfoProofs.v
theories/ArmCpuinfoFileProofs.v
theories/ArmCpuinfoMeaningProofs.v
theories/ArmCpuinfoResultProofs.v
theories/ArmCpuinfoSample.v
theories/ArmCpuinfoProps.v
theories/ArmLinuxModel.v
theories/ArmOrderProofs.v
theories/ArmSortedProofs.v
theories/ArmTablesProofs.v
theories/ArmBuildProofs.v
theories/ArmLinuxSpec.v
theories/ArmReportProofs.v
theories/ArmCacheReportProofs.v
theories/ArmDetectProofs.v
theories/ArmInitProofs.v
theories/ArmClockProofs.v
theories/ArmApiModel.v
theories/ArmApiProofs.v
theories/ArmUarchModel.v
theories/ArmCacheModel.v
theories/ArmCacheSpec.v
theories/ArmCacheProofs.v
theories/ArmCacheProps.v
theories/ArmDecodersModel.v
theories/ArmLibraryProofs.v
theories/ArmLinuxSample.v
theories/ArmLinuxProps.v
theories/ArmOnlineGroupsProofs.v
theories/ArmOfflineSpec.v
theories/ArmOfflineProofs.v
theories/ArmVersionProofs.v
theories/ArmOfflineSample.v
theories/ArmOfflineProps.v
theories/X86NameModel.v
theories/X86NameSpec.v
theories/X86NameProofs.v
theories/X86NameWords.v
theories/X86NameScan.v
theories/X86NameFinal.v
theories/X86PackageModel.v
theories/X86PackageProofs.v
theories/X86NameProps.v
theories/Fill.v
theories/EmscriptenModel.v
theories/EmscriptenSpec.v
theories/EmscriptenProofs.v
theories/EmscriptenProps.v
theories/X86CountsModel.v
theories/X86CountsSpec.v
theories/X86CountsProofs.v
theories/X86CountsInit.v
theories/X86CountsFinal.v
theories/X86CountsWrap.v
theories/X86CountsProps.v
theories/X86WindowsModel.v
theories/X86WindowsSpec.v
theories/X86WindowsProofs.v
theories/X86WindowsRows.v
theories/X86WindowsTables.v
theories/X86WindowsObjects.v
theories/X86WindowsApic.v
theories/X86WindowsFinal.v
theories/X86WindowsProps.v
theories/ArmIsaModel.v
theories/ArmIsaSpec.v
theories/ArmIsaProofs.v
theories/ArmIsa32Proofs.v
theories/ArmIsaProps.v
theories/ArmMachModel.v
theories/ArmMachSpec.v
theories/ArmMachProofs.v
theories/ArmMachInit.v
theories/ArmMachNameProofs.v
theories/ArmMachIsaProofs.v
theories/ArmMachFinal.v
theories/ArmMachProps.v
theories/ArmWindowsModel.v
theories/ArmWindowsSpec.v
theories/ArmWindowsLoops.v
theories/ArmWindowsCaches.v
theories/ArmWindowsPasses.v
theories/ArmWindowsConnect.v
theories/ArmWindowsFinal.v
theories/ArmWindowsOrder.v
theories/ArmWindowsChip.v
theories/ArmWindowsSample.v
theories/ArmWindowsProps.v
theories/ArmChipsetModel.v
theories/ArmChipsetSpec.v
theories/ArmChipsetNameSpec.v
theories/ArmChipsetFixupSpec.v
theories/ArmChipsetFitProofs.v
theories/ArmChipsetMatchProofs.v
theories/ArmChipsetReadProofs.v
theories/ArmChipsetOtherProofs.v
theories/ArmChipsetDeviceProofs.v
theories/ArmChipsetSourceProofs.v
theories/ArmChipsetExclusiveProofs.v
theories/ArmChipsetNameProofs.v
theories/ArmChipsetFixupProofs.v
theories/ArmChipsetGoodProofs.v
theories/ArmChipsetLinuxProofs.v
theories/ArmChipsetAndroidSpec.v
theories/ArmChipsetAndroidProofs.v
theories/ArmChipsetAndroidResultProofs.v
theories/ArmChipsetResultProofs.v
theories/ArmChipsetSample.v
theories/ArmChipsetCaseProofs.v
theories/ArmChipsetProps.v
theories/ArmManualSpec.v
theories/ArmManualProofs.v
theories/ArmManualCacheProofs.v
theories/ArmManualProps.v
theories/ArmPackageModel.v
theories/ArmPackageSpec.v
theories/ArmPackageProofs.v
theories/ArmPackageSample.v
theories/ArmPackageCaseProofs.v
theories/ArmPackageProps.v
theories/ClogModel.v
theories/ClogSpec.v
theories/ClogProofs.v
theories/ClogProps.v
theories/CpuidDumpModel.v
theories/CpuidDumpSpec.v
theories/CpuidDumpProofs.v
theories/CpuidDumpTextProofs.v
theories/CpuidParseProofs.v
theories/CpuidReplayProofs.v
theories/CpuidDumpSample.v
theories/CpuidDumpProps.v
theories/ToolsModel.v
theories/ReportSpec.v
theories/ReportProofs.v
theories/CacheInfoModel.v
theories/CacheInfoSpec.v
theories/CacheInfoProofs.v
theories/CacheInfoX86Proofs.v
theories/CacheInfoSample.v
theories/CacheInfoProps.v
theories/CpuInfoModel.v
theories/CpuInfoSpec.v
theories/CpuInfoProofs.v
theories/CpuInfoRangeProofs.v
theories/CpuInfoNamesProofs.v
theories/CpuInfoProps.v
theories/IsaInfoModel.v
theories/IsaInfoSpec.v
theories/IsaInfoLists.v
theories/IsaInfoProofs.v
theories/IsaInfoProps.v
theories/MockFileModel.v
theories/MockFileSpec.v
theories/MockFileProofs.v
theories/MockFileProps.v
theories/SysfsNameModel.v
theories/SysfsNameSpec.v
theories/SysfsNameProofs.v
theories/SysfsNameProps.v
theories/RecordModel.v
theories/RecordSpec.v
theories/RecordProofs.v
theories/RecordPathProofs.v
theories/RecordProps.v
theories/AndroidRecordModel.v
theories/AndroidRecordSpec.v
theories/AndroidRecordProofs.v
theories/AndroidHeaderProofs.v
theories/AndroidDeviceProofs.v
theories/AndroidReplayProofs.v
theories/AndroidRecordProps.v
theories/DumpToolsModel.v
theories/DumpToolsSpec.v
theories/DumpToolsProofs.v
theories/DumpToolsProps.v
theories/InitTestModel.v
theories/InitTestSpec.v
theories/InitTestProofs.v
theories/InitTestCacheProofs.v
theories/InitTestX86Proofs.v
theories/InitTestCountsProofs.v
theories/InitTestArmProofs.v
theories/InitTestFinalProofs.v
theories/InitTestSample.v
theories/InitTestProps.v
theories/X86CachesSpec.v
theories/X86CachesProofs.v
theories/X86CachesProps.v
theories/ArmCoresSpec.v
theories/ArmCoresProofs.v
theories/ArmCoresSample.v
theories/ArmCoresProps.v
theories/X86SystemsSpec.v
theories/X86SystemsProofs.v
theories/X86SystemsSample.v
theories/X86SystemsProps.v
theories/OtherApiProofs.v
theories/OtherApiProps.v
theories/SameAnswerSpec.v
theories/SameAnswerTextProofs.v
theories/SameAnswerProofs.v
theories/SameSortProofs.v
theories/SameAnswerSample.v
theories/SameAnswerProps.v
theories/SameMachineSpec.v
theories/SameMachineProofs.v
theories/SameMachineLinux.v
theories/SameMachineOthers.v
theories/SameMachineSample.v
theories/SameMachineProps.v
theories/Arm32CoresSample.v
theories/Arm32CoresProps.v
theories/GetterTablesSpec.v
theories/GetterTablesProofs.v
theories/GetterTablesProps.v
theories/RenumberSpec.v
theories/RenumberProofs.v
theories/RenumberSample.v
theories/RenumberProps.v
theories/ArmRenumberSpec.v
theories/ArmRenumberProofs.v
theories/ArmRenumberSample.v
theories/ArmRenumberProps.v
theories/RiscvRenumberSpec.v
theories/RiscvRenumberProofs.v
theories/RiscvRenumberSample.v
theories/RiscvRenumberProps.v
theories/X86PackageNamesModel.v
theories/X86PackageNamesSpec.v
theories/X86PackageNamesProofs.v
theories/X86PackageNamesProps.v
theories/X86IsaBaseSpec.v
theories/X86IsaBaseProofs.v
theories/X86IsaBaseProps.v
theories/ArmIsaBaseSpec.v
theories/ArmIsaBaseProofs.v
theories/ArmIsaBaseProps.v
theories/FileDescriptorModel.v
theories/FileDescriptorSpec.v
theories/FileDescriptorProofs.v
theories/FileDescriptorProps.v
theories/CurrentTestModel.v
theories/CurrentTestProofs.v
theories/CurrentTestProps.v
theories/BuildsAgreeSpec.v
theories/BuildsAgreeProofs.v
theories/BuildsAgreeProps.v
theories/ArmModesSpec.v
theories/ArmModesProofs.v
theories/ArmModesProps.v
theories/Leaf2Spec.v
theories/Leaf2Proofs.v
theories/Leaf2Sample.v
theories/Leaf2Props.v
theories/SubleafOrderSpec.v
theories/SubleafOrderProofs.v
theories/SubleafOrderSample.v
theories/SubleafOrderProps.v
theories/AbsentLeavesSpec.v
theories/AbsentLeavesProofs.v
theories/AbsentLeavesProps.v
theories/AnyCoreSpec.v
theories/AnyCoreProofs.v
theories/AnyCoreSample.v
theories/AnyCoreProps.v
theories/DetectionEndsSpec.v
theories/DetectionEndsProofs.v
theories/DetectionEndsProps.v
