-Q theories Verif
theories/Base.v
theories/ZBits.v
theories/UbxSpec.v
theories/UbxModel.v
theories/UbxProofs.v
theories/UbxStream.v
theories/UbxMain.v
theories/UbxMore.v
theories/UbxVersion.v
theories/UbxHist.v
theories/UbxApi.v
theories/UbxOrigin.v
theories/UbxEx.v
theories/Properties_Ubx.v
theories/UbxTx.v
theories/UbxTxSpec.v
theories/UbxTxProofs.v
theories/UbxTxApi.v
theories/Properties_UbxTx.v
theories/BitSpec.v
theories/BitModel.v
theories/BitProofs.v
theories/Properties_Bits.v
theories/CrcModel.v
theories/CrcSpec.v
theories/CrcProofs.v
theories/CrcErr.v
theories/CrcFour.v
theories/Properties_Crc.v
theories/UtcModel.v
theories/UtcSpec.v
theories/UtcProofs.v
theories/Properties_Utc.v
theories/RtcmModel.v
theories/RtcmSpec.v
theories/RtcmProofs.v
theories/RtcmApi.v
theories/RtcmNews.v
theories/Properties_Rtcm.v
theories/UbloxModel.v
theories/UbloxSpec.v
theories/UbloxProofs.v
theories/UbloxApi.v
theories/UbloxThm.v
theories/UbloxCfg.v
theories/Properties_Ublox.v
theories/NmeaModel.v
theories/NmeaProofs.v
theories/NmeaThm.v
theories/Properties_Nmea.v
theories/SerialModel.v
theories/SerialProofs.v
theories/SerialThm.v
theories/Properties_Serial.v
theories/Dbl.v
theories/NavModel.v
theories/NavSpec.v
theories/NavGpsSpec.v
theories/NavBits.v
theories/NavGps.v
theories/NavAcc.v
theories/NavObj.v
theories/NavGpsThm.v
theories/NavGpsApi.v
theories/NavIso.v
theories/Properties_NavGps.v
theories/NavStrSpec.v
theories/NavStr.v
theories/NavGloSpec.v
theories/NavDay.v
theories/NavGlo.v
theories/NavGloThm.v
theories/NavRet.v
theories/NavGloDel.v
theories/Properties_NavGlo.v
theories/NavGalSpec.v
theories/NavPage.v
theories/NavGal.v
theories/NavGalThm.v
theories/NavSafe.v
theories/Properties_NavGal.v
theories/NavDev.v
theories/Properties_NavDev.v
theories/UtcDouble.v
theories/DblFlocq.v
theories/Properties_UtcD.v
theories/RosModel.v
theories/RosSpec.v
theories/RosProofs.v
theories/RosThm.v
theories/Properties_Ros.v
theories/BitField.v
theories/BitFieldProofs.v
theories/Properties_BitField.v
theories/UbloxReg.v
theories/Properties_UbloxReg.v
theories/UbloxFwd.v
theories/Properties_Fwd.v
theories/ListenerVec.v
theories/UbloxConc.v
theories/Lifetime.v
theories/Properties_Conc.v
theories/UpstreamTests.v
theories/UbxWait.v
theories/Properties_Wait.v
theories/RoverShared.v
theories/Properties_Links.v
theories/Shutdown.v
theories/Properties_Shutdown.v
theories/TextSpec.v
theories/ExShow.v
theories/ExShowThm.v
theories/Properties_Examples.v
theories/Calendar.v
theories/UtcShow.v
theories/UtcShowThm.v
theories/ExSat.v
theories/ExSatThm.v
theories/Properties_Show.v
theories/MsgLayout.v
theories/MsgSpec.v
theories/MsgThm.v
theories/MsgUse.v
theories/Properties_Msg.v
theories/NavWire.v
theories/Properties_Wire.v
theories/NavWireGal.v
theories/NavWireGlo.v
theories/Properties_Wire2.v
theories/BitKeep.v
theories/Properties_Bits2.v
theories/ExLog.v
theories/ExLogThm.v
theories/PrintFlocq.v
theories/Properties_Log.v
theories/DeviceSafe.v
theories/Properties_Safe.v
theories/ConsoleSpec.v
theories/Console.v
theories/Properties_Console.v
theories/StartSpec.v
theories/UbloxStart.v
theories/Properties_Start.v
theories/ReportSpec.v
theories/NavShow.v
theories/NavShowThm.v
theories/Properties_Report.v
theories/Properties_Role.v
theories/SerialProg.v
theories/Properties_Program.v
theories/LogProg.v
theories/Properties_Reader.v
theories/TraceSpec.v
theories/NavErr.v
theories/Properties_Trace.v
theories/NmeaErr.v
theories/Properties_Nmea2.v
theories/NavClock.v
theories/Properties_Clock.v
theories/StationProg.v
theories/Properties_Station.v
theories/StationStart.v
theories/Properties_Begin.v
theories/StationMix.v
theories/Properties_Mix.v
theories/StationCut.v
theories/Properties_Cut.v
theories/ReadSerial.v
theories/Properties_ReadSerial.v
theories/RosLife.v
theories/Properties_RosLife.v
