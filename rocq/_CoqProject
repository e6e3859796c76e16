-Q theories Verif
theories/AcrossFacts.v
theories/AdcAccess.v
theories/AdcCustomFacts.v
theories/AdcDecodeFacts.v
theories/AdcEndToEnd.v
theories/AdcExt.v
theories/AdcExtFacts.v
theories/AdcForeign.v
theories/AdcForeignFacts.v
theories/AdcIntoFacts.v
theories/AdcLeft.v
theories/AdcLeftFacts.v
theories/AdcMessage.v
theories/AdcMessageFacts.v
theories/AdcPacket.v
theories/AdcPacketFacts.v
theories/AdcReadFacts.v
theories/AdcReadPackets.v
theories/AdcReader.v
theories/AdcReentry.v
theories/AdcReentryFacts.v
theories/AdcReflect.v
theories/AdcReflectArrive.v
theories/AdcReflectFacts.v
theories/AdcReflectPackage.v
theories/AdcRelayFacts.v
theories/AdcReuse.v
theories/AdcReuseFacts.v
theories/AdcShare.v
theories/AdcShareFacts.v
theories/AdcStreamFacts.v
theories/AdcSurviveFacts.v
theories/AdcText.v
theories/AdcTextFacts.v
theories/AdcValue.v
theories/AdcValueFacts.v
theories/AdcWriteFacts.v
theories/AdcWriter.v
theories/Base.v
theories/Base32.v
theories/Base32Facts.v
theories/BaseFacts.v
theories/BothFacts.v
theories/BothReentry.v
theories/ConnAddr.v
theories/ConnDemo.v
theories/ConnFacts.v
theories/Html.v
theories/HtmlFacts.v
theories/HtmlReadFacts.v
theories/HtmlTable.v
theories/LineEdit.v
theories/LineEditFacts.v
theories/LineFuel.v
theories/LineNest.v
theories/LineNestFacts.v
theories/LineReader.v
theories/LineReaderFacts.v
theories/LineReaderOps.v
theories/LineReaderStream.v
theories/LineReentry.v
theories/LineReentryFacts.v
theories/LineSession.v
theories/LineShare.v
theories/LineShareCalls.v
theories/LineShareFacts.v
theories/LineTransport.v
theories/LineWriter.v
theories/LineWriterFacts.v
theories/LineWriterFinal.v
theories/LineWriterOps.v
theories/Methods.v
theories/MsgReentry.v
theories/MsgReentryFacts.v
theories/NmdcAskedFacts.v
theories/NmdcCallFacts.v
theories/NmdcChat.v
theories/NmdcChatFacts.v
theories/NmdcCrashFacts.v
theories/NmdcDecide.v
theories/NmdcDecodeFacts.v
theories/NmdcEndToEnd.v
theories/NmdcExtraFacts.v
theories/NmdcFiles.v
theories/NmdcFilesFacts.v
theories/NmdcForeign.v
theories/NmdcForeignFacts.v
theories/NmdcFrameFacts.v
theories/NmdcHub.v
theories/NmdcHubFacts.v
theories/NmdcKeyFacts.v
theories/NmdcLeftFacts.v
theories/NmdcLimitsFacts.v
theories/NmdcMessage.v
theories/NmdcMsgFacts.v
theories/NmdcOverFacts.v
theories/NmdcProgram.v
theories/NmdcProgramFacts.v
theories/NmdcReadChat.v
theories/NmdcReadCmd.v
theories/NmdcReadFacts.v
theories/NmdcReadFiles.v
theories/NmdcReadHub.v
theories/NmdcReadMsg.v
theories/NmdcReadUser.v
theories/NmdcReader.v
theories/NmdcReaderCalls.v
theories/NmdcReaderFacts.v
theories/NmdcReaderTypes.v
theories/NmdcReentry.v
theories/NmdcReentryFacts.v
theories/NmdcRetryFacts.v
theories/NmdcReuseFacts.v
theories/NmdcStored.v
theories/NmdcStoredFacts.v
theories/NmdcStreamFacts.v
theories/NmdcSurviveChat.v
theories/NmdcSurviveCmd.v
theories/NmdcSurviveFacts.v
theories/NmdcSurviveFiles.v
theories/NmdcSurviveHub.v
theories/NmdcSurviveUser.v
theories/NmdcText.v
theories/NmdcTextFacts.v
theories/NmdcUnknownFacts.v
theories/NmdcUser.v
theories/NmdcUserFacts.v
theories/NmdcWriteFacts.v
theories/NmdcWriter.v
theories/NmdcWriterFacts.v
theories/Num.v
theories/NumFacts.v
theories/NumSpec.v
theories/PropsAccess.v
theories/PropsAcross.v
theories/PropsAdc.v
theories/PropsAdcForeign.v
theories/PropsAdcInto.v
theories/PropsAdcLeft.v
theories/PropsAdcPacket.v
theories/PropsAdcRead.v
theories/PropsAdcReader.v
theories/PropsAdcReentry.v
theories/PropsAdcRelay.v
theories/PropsAdcReuse.v
theories/PropsAdcStream.v
theories/PropsAdcSurvive.v
theories/PropsAdcWrite.v
theories/PropsBothReentry.v
theories/PropsCalls.v
theories/PropsConn.v
theories/PropsEdit.v
theories/PropsForeign.v
theories/PropsLineNest.v
theories/PropsLineReader.v
theories/PropsLineWriter.v
theories/PropsMethods.v
theories/PropsMsgReentry.v
theories/PropsNmdc.v
theories/PropsNmdcFrame.v
theories/PropsNmdcLeft.v
theories/PropsNmdcRead.v
theories/PropsNmdcReader.v
theories/PropsNmdcReentry.v
theories/PropsNmdcReuse.v
theories/PropsNmdcStored.v
theories/PropsNmdcSurvive.v
theories/PropsNmdcUnknown.v
theories/PropsNmdcWrite.v
theories/PropsNmdcWriter.v
theories/PropsProgram.v
theories/PropsQuery.v
theories/PropsReentry.v
theories/PropsReflect.v
theories/PropsRegistry.v
theories/PropsSession.v
theories/PropsShare.v
theories/PropsStream.v
theories/PropsText.v
theories/PropsTiger.v
theories/PropsTimeoutReentry.v
theories/PropsWriterReentry.v
theories/Query.v
theories/QueryFacts.v
theories/Registry.v
theories/RegistryFacts.v
theories/SpecAccess.v
theories/SpecAcross.v
theories/SpecAdc.v
theories/SpecAdcForeign.v
theories/SpecAdcInto.v
theories/SpecAdcLeft.v
theories/SpecAdcMessage.v
theories/SpecAdcRead.v
theories/SpecAdcReader.v
theories/SpecAdcReentry.v
theories/SpecAdcRelay.v
theories/SpecAdcReuse.v
theories/SpecAdcStream.v
theories/SpecAdcSurvive.v
theories/SpecAdcWrite.v
theories/SpecBothReentry.v
theories/SpecCalls.v
theories/SpecCommand.v
theories/SpecConn.v
theories/SpecEdit.v
theories/SpecExt.v
theories/SpecForeign.v
theories/SpecFrame.v
theories/SpecHash.v
theories/SpecLine.v
theories/SpecLineNest.v
theories/SpecMsgReentry.v
theories/SpecNmdc.v
theories/SpecNmdcLeft.v
theories/SpecNmdcReentry.v
theories/SpecNmdcUnknown.v
theories/SpecNmdcWriter.v
theories/SpecProgram.v
theories/SpecQuery.v
theories/SpecRead.v
theories/SpecReader.v
theories/SpecReentry.v
theories/SpecReflect.v
theories/SpecRegistry.v
theories/SpecReuse.v
theories/SpecSession.v
theories/SpecShare.v
theories/SpecStored.v
theories/SpecStream.v
theories/SpecSurvive.v
theories/SpecText.v
theories/SpecTimeoutReentry.v
theories/SpecWrite.v
theories/SpecWriter.v
theories/SpecWriterReentry.v
theories/TestsAdc.v
theories/TestsNmdc.v
theories/Tiger.v
theories/TigerFacts.v
theories/TimeoutReentry.v
theories/TimeoutReentryFacts.v
theories/TimeoutToldFacts.v
theories/Utf8.v
theories/Utf8Facts.v
theories/WriterReentry.v
theories/WriterReentryFacts.v
