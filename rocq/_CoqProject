-Q theories Verif
theories/Base.v
theories/BaseLemmas.v
theories/Slot.v
theories/Uboot.v
theories/UbootSpec.v
theories/UbootProofs.v
theories/UbootExamples.v
theories/Prop_Uboot.v
theories/Grub.v
theories/GrubSpec.v
theories/GrubProofs.v
theories/Prop_Grub.v
theories/Barebox.v
theories/BareboxSpec.v
theories/BareboxProofs.v
theories/Prop_Barebox.v
theories/Efi.v
theories/EfiSpec.v
theories/EfiProofs.v
theories/Image.v
theories/Handlers.v
theories/Install.v
theories/InstallSpec.v
theories/InstallProofs.v
theories/HandlersSpec.v
theories/HandlersProofs.v
theories/Prop_Handlers.v
theories/Prop_Install.v
theories/Mark.v
theories/MarkSpec.v
theories/MarkProofs.v
theories/Prop_Mark.v
theories/InstallRun.v
theories/InstallRunSpec.v
theories/InstallRunProofs.v
theories/BootSafeProofs.v
theories/BootInst.v
theories/BootInstProofs.v
theories/InstallRunExamples.v
theories/Semver.v
theories/SemverSpec.v
theories/SemverProofs.v
theories/Prop_Semver.v
theories/KeyFile.v
theories/KeyFileLemmas.v
theories/EnvKey.v
theories/EnvKeyProofs.v
theories/Prop_EnvKey.v
theories/Hex.v
theories/HexProofs.v
theories/Prop_Hex.v
theories/Manifest.v
theories/ManifestSpec.v
theories/ManifestProofs.v
theories/ManifestCheckProofs.v
theories/Prop_Manifest.v
theories/Bundle.v
theories/BundleSpec.v
theories/BundleProofs.v
theories/Prop_Bundle.v
theories/Gates.v
theories/GatesSpec.v
theories/GatesProofs.v
theories/GatesComplete.v
theories/C01Proofs.v
theories/Prop_Gates.v
theories/StatusFile.v
theories/StatusFileSpec.v
theories/StatusFileProofs.v
theories/StatusFileLayout.v
theories/Prop_StatusFile.v
theories/Disk.v
theories/DiskLemmas.v
theories/ExactIO.v
theories/ExactIOSpec.v
theories/ExactIOProofs.v
theories/Prop_ExactIO.v
theories/BootRegion.v
theories/BootRegionSpec.v
theories/BootRegionProofs.v
theories/MbrProofs.v
theories/Gpt.v
theories/GptSpec.v
theories/GptProofs.v
theories/MbrRefuted.v
theories/RawFallbackSpec.v
theories/RawFallbackProofs.v
theories/RawFallbackRom.v
theories/RawFallbackRefuted.v
theories/Emmc.v
theories/EmmcSpec.v
theories/EmmcProofs.v
theories/RawImageProofs.v

theories/Prop_BootRegion.v
theories/HashIndex.v
theories/HashIndexSpec.v
theories/HashIndexProofs.v
theories/AdaptiveProofs.v
theories/HashIndexRefuted.v
theories/Prop_HashIndex.v
theories/Verity.v
theories/VeritySpec.v
theories/VerityLayout.v
theories/VerityProofs.v
theories/VerityTop.v
theories/Prop_Verity.v
theories/EventLog.v
theories/EventLogSpec.v
theories/EventLogProofs.v
theories/Prop_EventLog.v
theories/Stats.v
theories/StatsProofs.v
theories/Prop_Stats.v
theories/Polling.v
theories/PollingProofs.v
theories/Prop_Polling.v
theories/Progress.v
theories/ProgressSpec.v
theories/ProgressProofs.v
theories/Prop_Progress.v
theories/Config.v
theories/ConfigSpec.v
theories/ConfigFormats.v
theories/ConfigParents.v
theories/ConfigRead.v
theories/ConfigProofs.v
theories/ConfigLoad.v
theories/ConfigFinal.v
theories/ConfigSize.v
theories/Prop_Config.v
theories/Artifacts.v
theories/ArtifactsSpec.v
theories/ArtifactsProofs.v
theories/ArtifactsCrash.v
theories/ArtifactsPrepare.v
theories/ArtifactsTop.v
theories/ArtifactsPrune.v
theories/Prop_Artifacts.v
theories/Nbd.v
theories/NbdSpec.v
theories/NbdProofs.v
theories/NbdConfig.v
theories/NbdConfigSpec.v
theories/NbdConfigProofs.v
theories/Prop_Nbd.v
theories/EfiInst.v
theories/Prop_InstallRun.v
theories/Prop_Efi.v
theories/Service.v
theories/ServiceSpec.v
theories/ServiceProofs.v
theories/Prop_Service.v
theories/Bootname.v
theories/BootnameSpec.v
theories/BootnameProofs.v
theories/Prop_Bootname.v
theories/Crypt.v
theories/CryptSpec.v
theories/CryptProofs.v
theories/Prop_Crypt.v
theories/Download.v
theories/DownloadSpec.v
theories/DownloadProofs.v
theories/Prop_Download.v
theories/Context.v
theories/ContextSpec.v
theories/ContextProofs.v
theories/Prop_Context.v
theories/Signature.v
theories/SignatureSpec.v
theories/SignatureProofs.v
theories/SignatureExamples.v
theories/Resign.v
theories/ResignProofs.v
theories/ResignTop.v
theories/SignatureMore.v
theories/Prop_Signature.v
theories/SlotWrite.v
theories/SlotWriteSpec.v
theories/SlotWriteProofs.v
theories/SlotWriteTop.v
theories/SlotWriteThms.v
theories/SlotWriteBal.v
theories/SlotWriteConf.v
theories/SlotWriteEnv.v
theories/SlotWriteRecipe.v
theories/SlotWriteMore.v
theories/SlotWriteMore2.v
theories/SlotWriteMore3.v
theories/SlotWriteMore4.v
theories/SlotWriteExamples.v
theories/Prop_SlotWrite.v
theories/Prop_HookEnv.v
theories/PreCheck.v
theories/PreCheckSpec.v
theories/PreCheckProofs.v
theories/Prop_PreCheck.v
theories/DmStack.v
theories/DmStackSpec.v
theories/DmStackProofs.v
theories/DmStackTop.v
theories/DmStackThms.v
theories/Prop_DmStack.v
theories/BundleCreate.v
theories/BundleCreateSpec.v
theories/BundleCreateLink.v
theories/BundleCreateFrame.v
theories/BundleCreateProofs.v
theories/BundleCreateRun.v
theories/BundleCreateOut.v
theories/BundleCreateDone.v
theories/BundleCreateEnd.v
theories/BundleCreateConv.v
theories/BundleCreateCases.v
theories/BundleCreateMore.v
theories/BundleCreateIndex.v
theories/BundleCreateLive.v
theories/Prop_BundleCreate.v
theories/ShellWords.v
theories/CasyncConvert.v
theories/CasyncConvertSpec.v
theories/CasyncConvertProofs.v
theories/CasyncConvertRun.v
theories/CasyncConvertEnd.v
theories/CasyncConvertDone.v
theories/CasyncConvertTmp.v
theories/CasyncConvertCmd.v
theories/CasyncConvertLive.v
theories/CasyncConvertCases.v
theories/Prop_CasyncConvert.v
theories/ShellOut.v
theories/ShellOutSpec.v
theories/ShellOutProofs.v
theories/ShellOutInfo.v
theories/ShellOutStatus.v
theories/ShellOutDbus.v
theories/ShellOutE2E.v
theories/ShellOutCases.v
theories/Prop_ShellOut.v
theories/HandlerEnv.v
theories/HandlerEnvSpec.v
theories/HandlerEnvProofs.v
theories/HandlerEnvTop.v
theories/HandlerEnvMore.v
theories/Prop_HandlerEnv.v
theories/Custom.v
theories/CustomSpec.v
theories/CustomProofs.v
theories/CustomExamples.v
theories/Prop_Custom.v
theories/EfiText.v
theories/EfiTextSpec.v
theories/EfiTextProofs.v
theories/Prop_EfiText.v
theories/Cfs.v
theories/CfsSpec.v
theories/CfsProofs.v
theories/Prop_Cfs.v
theories/DbusInstall.v
theories/DbusInstallSpec.v
theories/DbusInstallProofs.v
theories/Prop_DbusInstall.v
theories/Http.v
theories/HttpSpec.v
theories/HttpProofs.v
theories/Prop_Http.v
theories/Cli.v
theories/CliSpec.v
theories/CliProofs.v
theories/CliWriteProofs.v
theories/Prop_Cli.v
theories/Startup.v
theories/StartupSpec.v
theories/StartupProofs.v
theories/Prop_Startup.v
theories/Splice.v
theories/SpliceProofs.v
theories/Prop_Splice.v
theories/LogText.v
theories/LogTextSpec.v
theories/LogTextProofs.v
theories/Prop_LogText.v
theories/IndexCache.v
theories/IndexCacheSpec.v
theories/IndexCacheProofs.v
theories/Prop_IndexCache.v
theories/EndToEndSpec.v
theories/EndToEndProofs.v
theories/Prop_EndToEnd.v
theories/Trees.v
theories/TreesSpec.v
theories/TreesProofs.v
theories/Prop_Trees.v
theories/Recipients.v
theories/RecipientsSpec.v
theories/RecipientsProofs.v
theories/Prop_Recipients.v
theories/MountPoints.v
theories/MountPointsSpec.v
theories/MountPointsProofs.v
theories/Prop_MountPoints.v
theories/SystemConf.v
theories/SystemConfSpec.v
theories/SystemConfProofs.v
theories/Prop_SystemConf.v
theories/NbdLife.v
theories/NbdLifeSpec.v
theories/NbdLifeProofs.v
theories/Prop_NbdLife.v
theories/Paths.v
theories/PathsSpec.v
theories/PathsProofs.v
theories/Prop_Paths.v
theories/Signals.v
theories/SignalsSpec.v
theories/SignalsProofs.v
theories/Prop_Signals.v
theories/Json.v
theories/JsonSpec.v
theories/JsonSaysSpec.v
theories/JsonProofs.v
theories/JsonSays.v
theories/JsonTells.v
theories/Prop_Json.v
theories/Duration.v
theories/DurationSpec.v
theories/DurationProofs.v
theories/Prop_Duration.v
theories/ArtType.v
theories/ArtTypeSpec.v
theories/ArtTypeProofs.v
theories/Prop_ArtType.v
theories/Listing.v
theories/ListingSpec.v
theories/ListingProofs.v
theories/Prop_Listing.v
