-Q theories Verif
theories/GoBase.v
theories/GoFloat.v
theories/Crc.v
theories/SubRecords.v
theories/Records.v
theories/Package.v
theories/Storage.v
theories/Config.v
theories/Server.v
theories/PacketGen.v
theories/ConcreteEnv.v
theories/SpecBase.v
theories/BaseFacts.v
theories/SpecSub.v
theories/SubFacts.v
theories/FloatFacts.v
theories/PosFacts.v
theories/SubMore.v
theories/PropSub.v
theories/SpecRec.v
theories/RecordFacts.v
theories/DecodeFacts.v
theories/PropRec.v
theories/SpecCrc.v
theories/CrcFacts.v
theories/CrcBurst.v
theories/SpecPkg.v
theories/WireFacts.v
theories/PackageFacts.v
theories/PropPkg.v
theories/PropMore.v
theories/PropCrc.v
theories/PropPkgEx.v
theories/SpecSrv.v
theories/SrvFacts.v
theories/SrvLoop.v
theories/SrvPacket.v
theories/SrvConn.v
theories/SpecConc.v
theories/PropSrv.v
theories/PropStore.v
theories/PropConc.v
theories/PropSrvMore.v
theories/PropSrvEx.v
theories/PropGen.v
theories/PropGenMain.v
theories/Protobuf.v
theories/SpecPb.v
theories/PbFacts.v
theories/PbLeaf.v
theories/PropPb.v
theories/TestVectors.v
theories/NumText.v
theories/SpecNum.v
theories/NumFacts.v
theories/NumTextFacts.v
theories/Json.v
theories/SpecJson.v
theories/Utf8Facts.v
theories/JsonFacts.v
theories/TimeText.v
theories/SpecTime.v
theories/TimeFacts.v
theories/RangeFacts.v
theories/PropNum.v
theories/PropJson.v
theories/Connect.v
theories/SpecConn.v
theories/ConnFacts.v
theories/PropConn.v
theories/PropConnSrv.v
theories/PropOutcome.v
theories/SpecDec.v
theories/DecFacts.v
theories/SpecReads.v
theories/ReadsFacts.v
theories/PropDec.v
theories/PkgJson.v
theories/SpecPkgJson.v
theories/PkgJsonFacts.v
theories/PkgJsonDet.v
theories/PropPkgJson.v
theories/SpecEnc.v
theories/EncFacts.v
theories/PropEnc.v
theories/PropTime.v
theories/SendTool.v
theories/SpecSend.v
theories/PropWhole.v
theories/PropSend.v
theories/PropDamage.v
theories/SpecAns.v
theories/PropAnswer.v
theories/PropBound.v
theories/Flags.v
theories/SpecFlags.v
theories/PropFlags.v
theories/PropEnd.v
theories/PropQuiet.v
theories/EgtsPlus.v
theories/SpecPlus.v
theories/PropPlus.v
theories/PropHead.v
theories/Descriptor.v
theories/SpecDescr.v
theories/PropDescr.v
theories/Assumptions1.v
theories/Assumptions2.v
theories/Assumptions3.v
theories/Assumptions4.v
