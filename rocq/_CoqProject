-Q theories Verif
theories/Base.v
theories/AMap.v
theories/AMapOrder.v
theories/AMapOrderProofs.v
theories/BitsLib.v
theories/BitBuffer.v
theories/BitBufferProofs.v
theories/BitBufferOps.v
theories/BitBufferFacts.v
theories/Scrambler.v
theories/LmacSpec.v
theories/ScramblerProofs.v
theories/Rm3014.v
theories/Rm3014Proofs.v
theories/ArrCopy.v
theories/ArrCopyProofs.v
theories/ConvEnc.v
theories/Trellis.v
theories/ConvDist.v
theories/Crc16.v
theories/Interleaver.v
theories/Viterbi.v
theories/ErrorControl.v
theories/Crc16Proofs.v
theories/AachProofs.v
theories/Codec.v
theories/TypedFields.v
theories/MacFields.v
theories/MacPdus.v
theories/CodecProofs.v
theories/Layout.v
theories/LayoutProofs.v
theories/TdmaTime.v
theories/MacBroadcast.v
theories/MacSpec.v
theories/TdmaTimeProofs.v
theories/TxReceipt.v
theories/VoicePack.v
theories/VoicePackProofs.v
theories/UmacCircuits.v
theories/UmacCircuitsSpec.v
theories/UmacCircuitsProofs.v
theories/UlSched.v
theories/MacPdusProofs.v
theories/TypedFieldsProofs.v
theories/MacBroadcastProofs.v
theories/MacFacts.v
theories/UlSchedSpec.v
theories/UlSchedProofs.v
theories/MleBroadcast.v
theories/Freqs.v
theories/FillBits.v
theories/BsFrag.v
theories/DlSched.v
theories/UmacPrecomps.v
theories/Defrag.v
theories/TimeslotAlloc.v
theories/CircuitMgr.v
theories/UmacBs.v
theories/DefragSpec.v
theories/FragSpec.v
theories/UlBlockSpec.v
theories/FillProofs.v
theories/FragProofs.v
theories/DefragProofs.v
theories/Fcs.v
theories/FcsProofs.v
theories/LlcPdus.v
theories/LlcPdusSpec.v
theories/LlcPdusProofs.v
theories/Llc.v
theories/LlcSpec.v
theories/LlcBits.v
theories/DlSchedSpec.v
theories/DlChunk.v
theories/DlBuild.v
theories/DlNotes.v
theories/DlSlot.v
theories/DlFinal.v
theories/StealSpec.v
theories/StealProofs.v
theories/UlBlockProofs.v
theories/UlBlockPdu.v
theories/DlHistory.v
theories/DlRun.v
theories/UmacSched.v
theories/UlBlockFacts.v
theories/SlotSpec.v
theories/SlotTame.v
theories/StealRun.v
theories/SlotProofs.v
theories/SlotRun.v
theories/SlotFacts.v
theories/ChanSpec.v
theories/InterleaverProofs.v
theories/ViterbiProofs.v
theories/CchProofs.v
theories/SpeechProofs.v
theories/LmacFacts.v
theories/Slotter.v
theories/SlotterSpec.v
theories/SlotterProofs.v
theories/SlotWf.v
theories/LmacBs.v
theories/BsMac.v
theories/AirSpec.v
theories/AirProofs.v
theories/AirRun.v
theories/AirFacts.v
theories/DlFacts.v
theories/StealFacts.v
theories/AliveSpec.v
theories/TickSafe.v
theories/TickTotal.v
theories/AliveRun.v
theories/AliveFacts.v
theories/CmceFields.v
theories/SsiRanges.v
theories/BrewRoute.v
theories/Registry.v
theories/CmcePdus.v
theories/CallControl.v
theories/JitterBuffer.v
theories/BrewProtocol.v
theories/BrewWorker.v
theories/BrewEntity.v
theories/PduSpec.v
theories/CmceSpec.v
theories/CcSpec.v
theories/CcProofs.v
theories/CcInv.v
theories/CcHistory.v
theories/PduProofs.v
theories/CmceFieldsProofs.v
theories/CmceProofs.v
theories/CcFacts.v
theories/BrewSystem.v
theories/BrewSpec.v
theories/BrewFacts.v
theories/CcKeeps.v
theories/JitterSpec.v
theories/JitterProofs.v
theories/BrewProofs.v
theories/CcFloor.v
theories/BrewJoint.v
theories/BrewProtocolSpec.v
theories/BrewProtocolProofs.v
theories/MmFields.v
theories/MmPdus.v
theories/Mobility.v
theories/MobilitySpec.v
theories/RegistrySpec.v
theories/RegistryProofs.v
theories/MobilityProofs.v
theories/MmSpec.v
theories/MmFieldsProofs.v
theories/MmProofs.v
theories/MmFacts.v
theories/ReaderGives.v
theories/MobilityFacts.v
theories/BrewViewSpec.v
theories/BrewViewProofs.v
theories/BrewRegistry.v
theories/BrewRequestSpec.v
theories/BrewRequestFacts.v
theories/BrewRequests.v
theories/SsiRangesProofs.v
theories/BrewRouteProofs.v
theories/BrewViewFacts.v
theories/SilenceSpec.v
theories/SilenceProofs.v
theories/SilenceFacts.v
theories/CallAirSpec.v
theories/CallAirProofs.v
theories/CallAirFacts.v
theories/CallAirExamples.v
theories/CcNetEnd.v
theories/CcNetwork.v
theories/Layer3Spec.v
theories/TypedFieldsFacts.v
theories/Layer3Parse.v
theories/Layer3Proofs.v
theories/Sds.v
theories/SdsSpec.v
theories/SdsProofs.v
theories/Layer3Facts.v
theories/CcSafeSpec.v
theories/CcSafe.v
theories/CcSetup.v
theories/CmceFacts.v
theories/Config.v
theories/HeardSpec.v
theories/StartProofs.v
theories/ConfigSpec.v
theories/ConfigProofs.v
theories/ConfigFacts.v
theories/DlTrace.v
theories/EventLabels.v
theories/EventLabelProofs.v
theories/FragFacts.v
theories/FreqsProofs.v
theories/HeardProofs.v
theories/HeardFacts.v
theories/SdsFacts.v
theories/Layer3Ex.v
theories/UmacMs.v
theories/LinkMs.v
theories/LlcProofs.v
theories/LlcRun.v
theories/LlcFacts.v
theories/MleBs.v
theories/UpPathSpec.v
theories/UpPath.v
theories/UpPathProofs.v
theories/MsSpec.v
theories/LmacMs.v
theories/MobileSpec.v
theories/LmacMsProofs.v
theories/UmacMsProofs.v
theories/LmacMsFacts.v
theories/LinkMsSpec.v
theories/LinkMsFacts.v
theories/NetworkTimeSpec.v
theories/MleSpec.v
theories/MleProofs.v
theories/NetShortSpec.v
theories/NetShortProofs.v
theories/NetShortFacts.v
theories/NetworkTime.v
theories/NetworkTimeProofs.v
theories/OwedSpec.v
theories/OwedProofs.v
theories/Props_Air.v
theories/Props_Alive.v
theories/Props_BitBuffer.v
theories/Props_Brew.v
theories/Props_CallAir.v
theories/Props_CallControl.v
theories/Props_Cmce.v
theories/Props_Config.v
theories/TimeslotAllocSpec.v
theories/TimeslotAllocProofs.v
theories/TxReceiptSpec.v
theories/TxReceiptProofs.v
theories/Props_Core.v
theories/Props_Downlink.v
theories/Props_Frag.v
theories/Props_Heard.v
theories/Props_Layer3.v
theories/Props_LinkMs.v
theories/Props_Llc.v
theories/Props_Lmac.v
theories/Props_LmacMs.v
theories/Props_MacPdus.v
theories/Props_Mm.v
theories/Props_Mobility.v
theories/Props_Network.v
theories/Props_NetworkCalls.v
theories/Props_NetworkView.v
theories/Router.v
theories/RouterSpec.v
theories/RouterProofs.v
theories/Props_Parts.v
theories/Props_Phy.v
theories/Props_Sched.v
theories/Props_Sds.v
theories/Props_Silence.v
theories/Props_Slot.v
theories/Props_Steal.v
theories/StolenSpec.v
theories/StolenFacts.v
theories/Props_Stolen.v
theories/Props_TypedFields.v
theories/Props_UlBlock.v
theories/Props_UmacMs.v
theories/UpPathFacts.v
theories/Props_UpPath.v
theories/UplinkSpec.v
theories/UplinkProofs.v
theories/UplinkFacts.v
theories/Props_Uplink.v
theories/UmacMsFacts.v
