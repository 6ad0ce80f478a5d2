-Q theories Verif
theories/GoBase.v
theories/Bcd.v
theories/Semioctet.v
theories/SevenBit.v
theories/Utf.v
theories/Ucs2.v
theories/CharsetTables.v
theories/Charset.v
theories/Gsm7.v
theories/Dcs.v
theories/FirstOctet.v
theories/TpduError.v
theories/Address.v
theories/AddressOptions.v
theories/GoTime.v
theories/GoFloat.v
theories/ValidityPeriod.v
theories/FloatProofs.v
theories/UserData.v
theories/Tpdu.v
theories/Segment.v
theories/Sms.v
theories/Collector.v
theories/PduMode.v
theories/Cmd.v
theories/GoLemmas.v
theories/SpecBits.v
theories/SpecUssd.v
theories/SevenBitProofs.v
theories/UssdProofs.v
theories/P_SevenBit.v
theories/SpecDigits.v
theories/DigitsProofs.v
theories/P_Digits.v
theories/SpecText.v
theories/UtfProofs.v
theories/CharsetProofs.v
theories/P_Text.v
theories/SpecSelect.v
theories/UserDataProofs.v
theories/P_UserData.v
theories/SpecSegment.v
theories/SpecSegTpdu.v
theories/SegmentProofs.v
theories/SegmentOptProofs.v
theories/SegmentFitProofs.v
theories/P_Segment.v
theories/SafeLemmas.v
theories/AddressProofs.v
theories/PduModeProofs.v
theories/P_Address.v
theories/SpecTime.v
theories/TimeProofs.v
theories/SpecVP.v
theories/VPProofs.v
theories/P_Time.v
theories/SpecTpdu.v
theories/UdProofs.v
theories/TpduProofs.v
theories/TpduSafeProofs.v
theories/P_Tpdu.v
theories/SpecDcs.v
theories/FlagsProofs.v
theories/P_Flags.v
theories/SpecCollect.v
theories/CollectorProofs.v
theories/CollectorMsgProofs.v
theories/CollectorOrderProofs.v
theories/CollectorHistProofs.v
theories/P_Collect.v
theories/SpecSms.v
theories/SmsProofs.v
theories/EncodeProofs.v
theories/CountProofs.v
theories/P_Sms.v
theories/SpecFlow.v
theories/FlowProofs.v
theories/P_Flow.v
theories/P_FlowClock.v
theories/P_Single.v
theories/P_Named.v
theories/P_TimeText.v
theories/SpecUssdBits.v
theories/UssdBitsProofs.v
theories/P_Ussd.v
theories/Readme.v
theories/SpecReadme.v
theories/ReadmeProofs.v
theories/P_Readme.v
theories/ClockReuseProofs.v
theories/P_ClockReuse.v
theories/SpecCopies.v
theories/CopiesProofs.v
theories/P_Copies.v
theories/P_Width.v
theories/SharedCount.v
theories/SpecShared.v
theories/SharedCountProofs.v
theories/P_SharedCount.v
theories/SpecExchange.v
theories/ExchangeProofs.v
theories/P_Exchange.v
theories/P_Unreliable.v
theories/CollectorOptions.v
theories/P_CollectorOptions.v
theories/P_Instances.v
theories/SpecStream.v
theories/StreamProofs.v
theories/P_Stream.v
theories/SpecHeader.v
theories/P_Header.v
theories/SpecAccept.v
theories/AcceptProofs.v
theories/SpecCmd.v
theories/CmdProofs.v
theories/P_Cmd.v
theories/SpecOdd.v
theories/OddProofs.v
theories/P_Odd.v
theories/SpecReencode.v
theories/ReencodeProofs.v
theories/EscapeProofs.v
theories/Heap.v
theories/SpecHeap.v
theories/HeapProofs.v
theories/HeapSegment.v
theories/HeapSegmentProofs.v
theories/P_Heap.v
theories/HeapEncoder.v
theories/SpecConc.v
theories/HeapEncoderProofs.v
theories/P_HeapEncoder.v
theories/HeapDecode.v
theories/HeapDecodeProofs.v
theories/P_HeapDecode.v
theories/HeapRead.v
theories/HeapReadProofs.v
theories/P_HeapRead.v
theories/HeapWrite.v
theories/HeapWriteProofs.v
theories/P_HeapWrite.v
theories/SpecAlphabet.v
theories/SpecScripts.v
theories/AlphabetProofs.v
theories/P_Alphabet.v
theories/Gsm7Options.v
theories/SpecOptions.v
theories/Gsm7OptionsProofs.v
theories/P_Options.v
theories/LazyTables.v
theories/SpecLazy.v
theories/LazyTablesProofs.v
theories/P_Lazy.v
theories/P_LazyRace.v
theories/SpecReuse.v
theories/ReuseProofs.v
theories/P_Reuse.v
theories/CollectorLock.v
theories/SpecLock.v
theories/LockProofs.v
theories/P_Lock.v
theories/SpecRace.v
theories/P_Race.v
theories/P_Shorten.v
theories/TpduLeft.v
theories/SpecLeft.v
theories/LeftProofs.v
theories/P_Left.v
theories/Print.v
theories/SpecPrint.v
theories/PrintProofs.v
theories/DumpProofs.v
theories/P_Print.v
theories/ErrorText.v
theories/SpecErrorText.v
theories/ErrorTextProofs.v
theories/ErrorsProofs.v
theories/P_Errors.v
theories/SpecErrorSays.v
theories/ErrorSaysProofs.v
theories/P_ErrorSays.v
theories/PrintTools.v
theories/SpecTools.v
theories/ToolsProofs.v
theories/P_Tools.v
theories/SpecShown.v
theories/ShownProofs.v
theories/P_Shown.v
theories/SpecWire.v
theories/WireProofs.v
theories/P_Wire.v
theories/AgainProofs.v
theories/P_Reencode.v
theories/SpecNew.v
theories/P_New.v
theories/SpecAlone.v
theories/AloneProofs.v
theories/P_Alone.v
theories/SpecClock.v
theories/ClockProofs.v
theories/P_Clock.v
theories/SpecMarshal.v
theories/MarshalProofs.v
theories/MarshalTpdu.v
theories/P_Marshal.v
theories/SpecPdu.v
theories/PduExact.v
theories/P_Pdu.v
theories/SpecRefuse.v
theories/RefuseProofs.v
theories/RefuseParts.v
theories/RefuseTpdu.v
theories/RefuseTypes.v
theories/P_Refuse.v
theories/SpecDecode.v
theories/DecodeProofs.v
theories/P_Decode.v
theories/SpecBlocks.v
theories/BlocksProofs.v
theories/P_Blocks.v
theories/SpecEncode.v
theories/EncodedProofs.v
theories/P_Encoded.v
theories/PartsLeft.v
theories/SpecPartsLeft.v
theories/PartsLeftProofs.v
theories/P_PartsLeft.v
theories/DeliverReport.v
theories/SpecDeliver.v
theories/DeliverProofs.v
theories/P_Deliver.v
theories/CmdLine.v
theories/SpecCmdLine.v
theories/CmdLineProofs.v
theories/P_CmdLine.v
theories/Vectors.v
