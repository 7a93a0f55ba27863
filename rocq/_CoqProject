-Q theories Verif
theories/Base.v
theories/BaseLemmas.v
theories/HeaderModel.v
theories/HeaderSpec.v
theories/HeaderProofs.v
theories/BlobProofs.v
theories/HeaderProps.v
theories/SignModel.v
theories/SignSpec.v
theories/SignProofs.v
theories/SignProps.v
theories/Flash.v
theories/FlashLemmas.v
theories/ImageModel.v
theories/TrailerModel.v
theories/SwapModel.v
theories/Geometry.v
theories/TrailerProofs.v
theories/TriggerProofs.v
theories/TrailerProps.v
theories/ImageSpec.v
theories/ImageProofs.v
theories/GenuineProofs.v
theories/Sample.v
theories/ImageProps.v
theories/CopyProofs.v
theories/TrailerCrash.v
theories/SwapSpec.v
theories/SwapInv.v
theories/SwapSteps.v
theories/SwapLoop.v
theories/SwapFinal.v
theories/SwapStart.v
theories/RefuseProofs.v
theories/HistoryProofs.v
theories/SwapProps.v
theories/SwapLimits.v
theories/NobackupModel.v
theories/NobackupSpec.v
theories/NobackupProofs.v
theories/NobackupProps.v
theories/DeltaModel.v
theories/DeltaSpec.v
theories/DeltaProofs.v
theories/DeltaProps.v
theories/DeltaUpdateModel.v
theories/DeltaApply.v
theories/DeltaLoop.v
theories/DeltaFinal.v
theories/DeltaUpdateProofs.v
theories/DeltaUpdateSpec.v
theories/DeltaUpdateLink.v
theories/DeltaUpdateProps.v
theories/DualModel.v
theories/DualSpec.v
theories/DualProofs.v
theories/DualProps.v
theories/WriteOnceModel.v
theories/WriteOnceSpec.v
theories/WriteOnceProofs.v
theories/WriteOnceProps.v
theories/CryptModel.v
theories/CryptSpec.v
theories/CryptProofs.v
theories/CryptProps.v
theories/HeapModel.v
theories/HeapSpec.v
theories/HeapProofs.v
theories/HeapProps.v
theories/OtpModel.v
theories/OtpSpec.v
theories/OtpProofs.v
theories/OtpProps.v
theories/DiskModel.v
theories/DiskSpec.v
theories/DiskProofs.v
theories/DiskProps.v
theories/DiskBootModel.v
theories/DiskBootSpec.v
theories/DiskBootProofs.v
theories/DiskBootProps.v
theories/DecideProofs.v
theories/DecideProps.v
theories/DirectProofs.v
theories/DirectProps.v
theories/EncSwapModel.v
theories/EncSwapSpec.v
theories/EncSwapProofs.v
theories/EncSwapProps.v
theories/StringModel.v
theories/StringSpec.v
theories/StringProofs.v
theories/StringProps.v
theories/VaultModel.v
theories/VaultSpec.v
theories/VaultProofs.v
theories/VaultCalls.v
theories/VaultRefine.v
theories/VaultHist.v
theories/VaultProps.v
theories/FdtModel.v
theories/FdtSpec.v
theories/FdtProofs.v
theories/FdtTree.v
theories/FdtRead.v
theories/FdtEdit.v
theories/FdtOps.v
theories/FdtSafe.v
theories/FdtBuild.v
theories/FdtProps.v
theories/ElfModel.v
theories/ElfSpec.v
theories/ElfProofs.v
theories/ScatterProofs.v
theories/ScatterRun.v
theories/ElfProps.v
theories/SpiSpec.v
theories/SpiModel.v
theories/SpiProofs.v
theories/SpiProps.v
theories/RsaSpec.v
theories/RsaModel.v
theories/RsaProofs.v
theories/RsaProps.v
theories/PciSpec.v
theories/PciModel.v
theories/PciProofs.v
theories/PciTree.v
theories/PciBars.v
theories/PciEnum.v
theories/PciBridge.v
theories/PciScan.v
theories/PciRun.v
theories/PciLoop.v
theories/PciFlat.v
theories/PciProps.v
theories/UartSpec.v
theories/UartModel.v
theories/UartProofs.v
theories/UartRun.v
theories/UartLive.v
theories/UartProps.v
theories/PagingSpec.v
theories/PagingModel.v
theories/PagingProofs.v
theories/PagingMap.v
theories/PagingLoop.v
theories/PagingIdentity.v
theories/PagingProps.v
theories/HobSpec.v
theories/HobModel.v
theories/HobProofs.v
theories/Mb2Proofs.v
theories/HobBuild.v
theories/HobProps.v
theories/TpmSpec.v
theories/TpmModel.v
theories/TpmProofs.v
theories/MeasureProps.v
theories/TpmProps.v
theories/LockSpec.v
theories/LockModel.v
theories/LockProofs.v
theories/LockProps.v
theories/HalSpec.v
theories/HalModel.v
theories/HalProofs.v
theories/HalWriteProofs.v
theories/HalWrite2Proofs.v
theories/HalEraseProofs.v
theories/HalProps.v
theories/GlitchSpec.v
theories/GlitchModel.v
theories/GlitchProofs.v
theories/GlitchCodeProofs.v
theories/GlitchVersionProofs.v
theories/GlitchRunProofs.v
theories/GlitchProps.v
theories/EmergencySpec.v
theories/EmergencyProofs.v
theories/EmergencyProps.v
theories/HomeProofs.v
theories/HomeProps.v
theories/BinModel.v
theories/BinSpec.v
theories/BinProofs.v
theories/BinProps.v
theories/VaultAgain.v
theories/VaultAgainProps.v
theories/ExtFlagsModel.v
theories/ExtFlagsSpec.v
theories/ExtFlagsProofs.v
theories/ExtFlagsProps.v
theories/MpuSpec.v
theories/MpuModel.v
theories/MpuProofs.v
theories/MpuProps.v
theories/PrintModel.v
theories/PrintSpec.v
theories/PrintProps.v
theories/InvertModel.v
theories/InvertSpec.v
theories/InvertProofs.v
theories/InvertProps.v
theories/StartModel.v
theories/StartSpec.v
theories/StartProps.v
theories/MptModel.v
theories/MptSpec.v
theories/MptProps.v
theories/TlbModel.v
theories/TlbSpec.v
theories/TlbProps.v
