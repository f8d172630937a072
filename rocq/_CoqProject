-Q theories Verif
theories/GoBase.v
theories/GoLemmas.v
theories/GoText.v
theories/Address.v
theories/AddressSpec.v
theories/AddressProofs.v
theories/Command.v
theories/Message.v
theories/MessageSpec.v
theories/MessageProofs.v
theories/Link.v
theories/LinkText.v
theories/LinkSpec.v
theories/LinkProofs.v
theories/PlmPacket.v
theories/PlmReader.v
theories/PlmReaderSpec.v
theories/PlmReaderProofs.v
theories/CodecProofs.v
theories/Props_Codec.v
theories/Props_Reader.v
theories/Plm.v
theories/PlmSpec.v
theories/PlmProofs.v
theories/Props_Plm.v
theories/GoProg.v
theories/PlmLinkdb.v
theories/PlmLinkdbSpec.v
theories/PlmLinkdbProofs.v
theories/Props_PlmLinkdb.v
theories/MsgWriter.v
theories/Filters.v
theories/FiltersSpec.v
theories/FiltersProofs.v
theories/Props_Filters.v
theories/BasicDevice.v
theories/DevLinkdb.v
theories/Query.v
theories/DeviceSpec.v
theories/DeviceProofs.v
theories/Props_Device.v
theories/DevLinkdbSpec.v
theories/DevLinkdbProofs.v
theories/UpdateProofs.v
theories/Props_DevLinkdb.v
theories/UtilLink.v
theories/UtilLinkSpec.v
theories/UtilLinkProofs.v
theories/UtilLinkEditProofs.v
theories/UtilLinkListProofs.v
theories/Props_UtilLink.v
theories/Props_UtilLink2.v
theories/GoJson.v
theories/JsonProofs.v
theories/Database.v
theories/DatabaseSpec.v
theories/DatabaseProofs.v
theories/Props_Database.v
theories/Lights.v
theories/F32.v
theories/F32Spec.v
theories/F32Proofs.v
theories/Thermostat.v
theories/DevReqSpec.v
theories/DevReqProofs.v
theories/Props_Lights.v
theories/Props_Thermostat.v
theories/IcVars.v
theories/IcVarsSpec.v
theories/IcVarsProofs.v
theories/Props_IcVars.v
theories/PlmSnoop.v
theories/PlmSnoopSpec.v
theories/PlmSnoopProofs.v
theories/IcCmd.v
theories/IcCmdSpec.v
theories/IcCmdProofs.v
theories/Props_Snoop.v
theories/Props_IcCmd.v
theories/UtilSnoop.v
theories/UtilSnoopSpec.v
theories/UtilSnoopProofs.v
theories/Props_UtilSnoop.v
theories/Display.v
theories/DisplaySpec.v
theories/DisplayProofs.v
theories/DisplayProofs2.v
theories/Props_Display.v
theories/Anonymize.v
theories/AnonymizeSpec.v
theories/AnonymizeProofs.v
theories/Props_Anonymize.v
theories/Timing.v
theories/TimingSpec.v
theories/Props_Timing.v
theories/IcDev.v
theories/IcDevSpec.v
theories/Props_IcDev.v
theories/IcDevProofs.v
theories/Props_IcReport.v
theories/LineSpec.v
theories/IcLine.v
theories/MovesProofs.v
theories/LineProofs.v
theories/Props_Line.v
theories/IcWalk.v
theories/WalkSpec.v
theories/WalkProofs.v
theories/Props_Walk.v
theories/NetSpec.v
theories/NetProofs.v
theories/Props_Net.v
theories/IcLink.v
theories/LinkLineSpec.v
theories/LinkLineProofs.v
theories/Props_LinkLine.v
theories/DebugLog.v
theories/DebugLogSpec.v
theories/DebugLogProofs.v
theories/Props_DebugLog.v
theories/ByteLine.v
theories/ByteLineSpec.v
theories/ByteLineProofs.v
theories/Props_ByteLine.v
theories/TrafficSpec.v
theories/TrafficProofs.v
theories/Props_Traffic.v
theories/Conc.v
theories/ConcSpec.v
theories/ConcProofs.v
theories/Props_Conc.v
theories/ConcDbSpec.v
theories/ConcDbProofs.v
theories/Props_ConcDb.v
theories/Report.v
theories/ReportSpec.v
theories/Props_Report.v
theories/Props_ModemText.v
theories/SnoopText.v
theories/SnoopTextSpec.v
theories/SnoopTextProofs.v
theories/Props_SnoopText.v
theories/GoSlice.v
theories/MemLinks.v
theories/MemSpec.v
theories/MemProofs.v
theories/Props_Mem.v
theories/EditLineSpec.v
theories/EditLineProofs.v
theories/Props_EditLine.v
theories/PlmObj.v
theories/PlmObjSpec.v
theories/PlmObjProofs.v
theories/Props_PlmObj.v
theories/MemFilters.v
theories/MemFiltersSpec.v
theories/MemFiltersProofs.v
theories/Props_MemFilters.v
theories/Tests_Core.v
theories/Tests_Devices.v
theories/Tests_Plm.v
theories/Tests_Util.v
theories/Autogen.v
theories/AutogenData.v
theories/AutogenSpec.v
theories/AutogenProofs.v
theories/Props_Autogen.v
theories/Props_CmdSet.v
theories/SharedDb.v
theories/SharedDbSpec.v
theories/SharedDbProofs.v
theories/Props_SharedDb.v
theories/Props_FileText.v
theories/SharedLoad.v
theories/SharedLoadSpec.v
theories/SharedLoadProofs.v
theories/Props_SharedLoad.v
theories/Props_Rest.v
theories/EndsSpec.v
theories/EndsProofs.v
theories/EndsNetProofs.v
theories/Props_Ends.v
theories/TextsSpec.v
theories/Props_Texts.v
theories/Parties.v
theories/EndsLinksProofs.v
theories/Props_EndsLinks.v
theories/CostSpec.v
theories/CostProofs.v
theories/Props_Cost.v
theories/CostLinksProofs.v
theories/Props_CostLinks.v
theories/FailureSpec.v
theories/FailureProofs.v
theories/FailureFilterProofs.v
theories/FailureModemProofs.v
theories/Props_Failure.v
theories/FailureIcProofs.v
theories/Props_FailureIc.v
theories/Props_Again.v
theories/Props_Order.v
theories/Props_Distinct.v
