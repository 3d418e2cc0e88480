-Q theories Verif
theories/AES.v
theories/AIFF.v
theories/ALACBits.v
theories/ALACCodec.v
theories/ALACCodecProofs.v
theories/ALACElements.v
theories/ALACGolomb.v
theories/ALACGolombProofs.v
theories/ALACModule.v
theories/ALACPacket.v
theories/ALACPredict.v
theories/ALACReaderProofs.v
theories/ALACSearch.v
theories/ALACSize.v
theories/ALACStream.v
theories/ALACTerm.v
theories/ALACTotal.v
theories/ALACWriterProofs.v
theories/API.v
theories/AVR.v
theories/Arrange.v
theories/ArrangeProofs.v
theories/BlockFiles.v
theories/ByteOrder.v
theories/ByteOrderProofs.v
theories/CAF.v
theories/Chunks.v
theories/Codecs.v
theories/CodecsProofs.v
theories/Convert.v
theories/ConvertProofs.v
theories/Defined.v
theories/Disk.v
theories/DiskProofs.v
theories/Extended.v
theories/Faults.v
theories/FaultsProofs.v
theories/FileIO.v
theories/FileRoundTrip.v
theories/Float.v
theories/FloatBits.v
theories/FloatConv.v
theories/FloatFacts.v
theories/FloatValid.v
theories/FrameSize.v
theories/G711.v
theories/G711Proofs.v
theories/HeaderIO.v
theories/IFF.v
theories/IMA.v
theories/IMAProofs.v
theories/IMASpec.v
theories/IRCAM.v
theories/Identify.v
theories/MSADPCM.v
theories/MSADPCMProofs.v
theories/MSADPCMSpec.v
theories/Memory.v
theories/MemoryProofs.v
theories/Metadata.v
theories/MetadataProofs.v
theories/NIST.v
theories/NeXT.v
theories/PacketTable.v
theories/Prelude.v
theories/PreludeFacts.v
theories/Promised.v
theories/PropertiesAES.v
theories/PropertiesAIFF.v
theories/PropertiesALAC.v
theories/PropertiesALACFile.v
theories/PropertiesAPI.v
theories/PropertiesAVR.v
theories/PropertiesBlocks.v
theories/PropertiesBlocks2.v
theories/PropertiesBlocks3.v
theories/PropertiesBuffers.v
theories/PropertiesBytes.v
theories/PropertiesBytesFile.v
theories/PropertiesCAF.v
theories/PropertiesCAFOpen.v
theories/PropertiesConform.v
theories/PropertiesConform2.v
theories/PropertiesConvert.v
theories/PropertiesCrash.v
theories/PropertiesCrashAIFF.v
theories/PropertiesCrashFiles.v
theories/PropertiesCrashOpen.v
theories/PropertiesCrashRefuted.v
theories/PropertiesCrashWAVE.v
theories/PropertiesDefined.v
theories/PropertiesDisk.v
theories/PropertiesExtended.v
theories/PropertiesFaults.v
theories/PropertiesFloat.v
theories/PropertiesForeign.v
theories/PropertiesForeign2.v
theories/PropertiesForeign3.v
theories/PropertiesFrameSize.v
theories/PropertiesG711.v
theories/PropertiesIFF.v
theories/PropertiesIMA.v
theories/PropertiesIRCAM.v
theories/PropertiesIdentify.v
theories/PropertiesMSADPCM.v
theories/PropertiesMetadata.v
theories/PropertiesNIST.v
theories/PropertiesNeXT.v
theories/PropertiesOpen.v
theories/PropertiesPV.v
theories/PropertiesPacketTable.v
theories/PropertiesQuery.v
theories/PropertiesQuerySetup.v
theories/PropertiesRaw.v
theories/PropertiesReader.v
theories/PropertiesRebuffer.v
theories/PropertiesRoundTrip.v
theories/PropertiesSampleVision.v
theories/PropertiesSetup.v
theories/PropertiesSfConvert.v
theories/PropertiesSfConvertFile.v
theories/PropertiesSfConvertFiles.v
theories/PropertiesSfConvertMore.v
theories/PropertiesTerminate.v
theories/PropertiesTruncated.v
theories/PropertiesUsable.v
theories/PropertiesVOC.v
theories/PropertiesVirtual.v
theories/PropertiesVirtualWrite.v
theories/PropertiesWAVE.v
theories/PropertiesWriter.v
theories/Query.v
theories/Rates.v
theories/Raw.v
theories/Reader.v
theories/ReaderProofs.v
theories/ReaderSpec.v
theories/Rebuffer.v
theories/RebufferProofs.v
theories/RebufferSpec.v
theories/RoundTripProofs.v
theories/SampleVision.v
theories/Setup.v
theories/SetupFacts.v
theories/SetupProofs.v
theories/SetupReuse.v
theories/SetupSpec.v
theories/SfConvert.v
theories/Truncated.v
theories/VOC.v
theories/Virtual.v
theories/VirtualWrite.v
theories/WAVE.v
theories/Writer.v
theories/WriterHistory.v
theories/WriterProofs.v
theories/WriterSpec.v
theories/Yields.v
