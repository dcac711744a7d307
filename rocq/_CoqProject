-Q theories Verif
theories/Base.v
theories/BaseFacts.v
theories/InfoModel.v
theories/Loop.v
theories/MemModel.v
theories/CpuSpec.v
theories/PokeyModel.v
theories/NativeModel.v
theories/InfoSpec.v
theories/NativeSpec.v
theories/Resources.v
theories/WriterModel.v
theories/FlashPackModel.v
theories/WriteModel.v
theories/MachineModel.v
theories/PlayModel.v
theories/DurationProofs.v
theories/InfoProofs.v
theories/PropertiesInfo.v
theories/SapSpec.v
theories/SapProofs.v
theories/WriterProofs.v
theories/SapWriteProofs.v
theories/SapWitness.v
theories/SapLoadProofs.v
theories/PropertiesSap.v
theories/NativeProofs.v
theories/NativeProofs2.v
theories/NativeProofs3.v
theories/NativeFuel.v
theories/NativeWitness.v
theories/NativeLoadProofs.v
theories/NativeDiverge.v
theories/PropertiesNative.v
theories/CpuArith.v
theories/CpuProofs.v
theories/PokeyProofs.v
theories/MachineProofs.v
theories/FrameProofs.v
theories/CpuFacts.v
theories/MachineWitness.v
theories/CpuWitness.v
theories/PropertiesCpu.v
theories/NoiseSpec.v
theories/NoiseProofs.v
theories/PlaySpec.v
theories/StoreProofs.v
theories/PokeyFacts.v
theories/GenerateProofs.v
theories/PlayProofs.v
theories/SessionSpec.v
theories/SessionProofs.v
theories/SessionFacts.v
theories/PokeyWitness.v
theories/PropertiesPokey.v
theories/PlayWitness.v
theories/PropertiesPlay.v
theories/WavSpec.v
theories/WavProofs.v
theories/WavWitness.v
theories/PropertiesWav.v
theories/WindowSpec.v
theories/WindowProofs.v
theories/NameProofs.v
theories/SaveProofs.v
theories/XexSpec.v
theories/XexProofs.v
theories/XexLayout.v
theories/SaveWitness.v
theories/PropertiesSave.v
theories/PropertiesXex.v
theories/TuneSpec.v
theories/TuneProofs.v
theories/PropertiesTune.v
theories/AatrModel.v
theories/AatrSpec.v
theories/AatrProofs.v
theories/AatrList.v
theories/AatrLister.v
theories/AatrStream.v
theories/AatrWitness.v
theories/PropertiesAatr.v
theories/StilModel.v
theories/StilSpec.v
theories/StilProofs.v
theories/StilCovers.v
theories/StilLoad.v
theories/StilFind.v
theories/StilFacts.v
theories/PropertiesStil.v
theories/ConvModel.v
theories/ConvSpec.v
theories/ConvProofs.v
theories/ConvLoop.v
theories/ConvOutputs.v
theories/ConvFacts.v
theories/PropertiesConv.v
theories/FlashSpec.v
theories/FlashEncode.v
theories/FlashCompress.v
theories/FlashFile.v
theories/FlashWitness.v
theories/PropertiesFlash.v
theories/MoveSpec.v
theories/MoveProofs.v
theories/MoveWrite.v
theories/MoveBack.v
theories/MoveSave.v
theories/MoveWitness.v
theories/PropertiesMove.v
theories/LoadSpec.v
theories/LoadProofs.v
theories/LoadWitness.v
theories/PropertiesLoad.v
theories/SoundSpec.v
theories/SoundProofs.v
theories/MuteProofs.v
theories/SoundWitness.v
theories/PropertiesSound.v
theories/CallSpec.v
theories/CallProofs.v
theories/RateSpec.v
theories/RateProofs.v
theories/CallWitness.v
theories/PropertiesCall.v
theories/PropertiesRate.v
theories/StepProofs.v
theories/ExportSpec.v
theories/ExportStub.v
theories/ExportProofs.v
theories/ExportLoad.v
theories/ExportPlay.v
theories/ExportWitness.v
theories/PropertiesExport.v
theories/SilenceSpec.v
theories/SilenceProofs.v
theories/SilenceWitness.v
theories/PropertiesSilence.v
theories/UnpackSpec.v
theories/UnpackStep.v
theories/UnpackProofs.v
theories/UnpackTouch.v
theories/UnpackWitness.v
theories/PropertiesUnpack.v
theories/HardwareSpec.v
theories/HardwareProofs.v
theories/PropertiesHardware.v
theories/NamesModel.v
theories/NamesSpec.v
theories/NamesProofs.v
theories/NamesWitness.v
theories/PropertiesNames.v
theories/DescribeModel.v
theories/DescribeSpec.v
theories/DescribeProofs.v
theories/PropertiesDescribe.v
theories/OptionModel.v
theories/OptionSpec.v
theories/OptionProofs.v
theories/PropertiesOption.v
theories/OutputModel.v
theories/OutputSpec.v
theories/OutputProofs.v
theories/OutputWitness.v
theories/PropertiesOutput.v
theories/RetagModel.v
theories/RetagSpec.v
theories/RetagProofs.v
theories/RetagWitness.v
theories/PropertiesRetag.v
theories/RetagStandardSpec.v
theories/RetagStandardProofs.v
theories/RetagStandardWitness.v
theories/PropertiesRetagStandard.v
theories/RetagAcceptProofs.v
theories/RetagFilesProofs.v
theories/PropertiesRetagFiles.v
