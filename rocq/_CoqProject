-Q theories Verif
theories/Py.v
theories/M_Util.v
theories/P_List.v
theories/M_Float.v
theories/M_Suns.v
theories/S_Codec.v
theories/P_Codec.v
theories/P_Types.v
theories/P_Float.v
theories/P_IntText.v
theories/P_Sizes.v
theories/C_Codec.v
theories/M_Point.v
theories/S_Scale.v
theories/P_Scale.v
theories/C_Scale.v
theories/M_Crc.v
theories/S_Crc.v
theories/P_Crc.v
theories/C_Crc.v
theories/M_Wire.v
theories/M_Rtu.v
theories/S_Modbus.v
theories/P_Rtu.v
theories/C_Rtu.v
theories/M_Tcp.v
theories/S_Tcp.v
theories/P_Tcp.v
theories/C_Tcp.v
theories/M_Registry.v
theories/S_Registry.v
theories/P_Registry.v
theories/C_Registry.v
theories/M_Xml.v
theories/M_Mbmap.v
theories/S_Mbmap.v
theories/P_Mbmap.v
theories/C_Mbmap.v
theories/M_Device.v
theories/S_Device.v
theories/P_Device.v
theories/C_Device.v
theories/P_Chunks.v
theories/C_Chunks.v
theories/M_Client.v
theories/S_Client.v
theories/P_Client.v
theories/P_Client2.v
theories/P_Client3.v
theories/P_Client4.v
theories/C_Client.v
theories/M_Scan.v
theories/S_Scan.v
theories/P_Scan.v
theories/P_Scan2.v
theories/P_Scan3.v
theories/C_Scan.v
theories/S_Stack.v
theories/P_Stack.v
theories/P_Stack2.v
theories/C_Stack.v
theories/M_Path.v
theories/S_Path.v
theories/P_Path.v
theories/C_Path.v
theories/M_Data.v
theories/S_Data.v
theories/P_Data.v
theories/C_Data.v
theories/M_Smdx.v
theories/S_Smdx.v
theories/P_Smdx.v
theories/P_SmdxErr.v
theories/P_SmdxGet.v
theories/C_Smdx.v
theories/C_SmdxErr.v
theories/M_Wrapper.v
theories/S_Wrapper.v
theories/P_Wrapper.v
theories/C_Wrapper.v
theories/M_Pics.v
theories/S_Pics.v
theories/P_Pics.v
theories/P_PicsLoad.v
theories/P_PicsModel.v
theories/P_PicsDevice.v
theories/C_Pics.v
theories/M_NotEq.v
theories/S_NotEq.v
theories/P_NotEq.v
theories/C_NotEq.v
theories/P_SmdxText.v
theories/C_SmdxText.v
theories/M_Hexmap.v
theories/S_Hexmap.v
theories/P_Hexmap.v
theories/C_Hexmap.v
theories/M_Files.v
theories/S_Files.v
theories/C_Files.v
theories/M_Construct.v
theories/S_Construct.v
theories/P_Construct.v
theories/C_Construct.v
theories/S_Fault.v
theories/P_Fault.v
theories/C_Fault.v
theories/M_Line.v
theories/C_Line.v
theories/S_Torn.v
theories/P_Torn.v
theories/C_Torn.v
theories/S_Assign.v
theories/P_Assign.v
theories/C_Assign.v
theories/C_MapGrow.v
theories/M_Report.v
theories/S_Report.v
theories/P_Report.v
theories/C_Report.v
theories/S_PicsRead.v
theories/P_PicsRead.v
theories/C_PicsRead.v
theories/C_DataAdd.v
theories/S_PicsEq.v
theories/P_PicsEq.v
theories/C_PicsEq.v
theories/C_MbmapEq.v
theories/S_TcpFault.v
theories/P_TcpFault.v
theories/C_TcpFault.v
theories/S_Script.v
theories/P_Script.v
theories/C_Script.v
theories/M_Bus.v
theories/S_Bus.v
theories/P_Bus.v
theories/C_Bus.v
theories/T_Docs.v
theories/T_Tests.v
theories/M_Session.v
theories/S_Session.v
theories/P_Session.v
theories/C_Session.v
theories/M_Print.v
theories/S_Print.v
theories/P_Print.v
theories/C_Print.v
theories/S_Addr.v
theories/C_Addr.v
theories/M_Classes.v
theories/S_Classes.v
theories/P_Classes.v
theories/C_Classes.v
theories/M_Port.v
theories/S_Port.v
theories/P_Port.v
theories/C_Port.v
theories/M_Attr.v
theories/S_Attr.v
theories/P_Attr.v
theories/C_Attr.v
theories/M_Threads.v
theories/S_Threads.v
theories/P_Threads.v
theories/C_Threads.v
theories/P_Resume.v
theories/C_Resume.v
theories/M_Main.v
theories/S_Main.v
theories/C_Main.v
theories/C_Nonvac.v
theories/S_Live.v
theories/P_Live.v
theories/C_Live.v
theories/S_LiveScan.v
theories/P_LiveScan.v
theories/C_LiveScan.v
theories/S_Format.v
theories/P_Format.v
theories/C_Format.v
theories/M_SThreads.v
theories/S_SThreads.v
theories/P_SThreads.v
theories/C_SThreads.v
theories/M_Time.v
theories/S_Time.v
theories/P_Time.v
theories/C_Time.v
theories/S_Access.v
theories/P_Access.v
theories/C_Access.v
theories/M_XmlText.v
theories/M_DataText.v
theories/S_XmlText.v
theories/P_XmlText.v
theories/P_XmlDoc.v
theories/P_XmlWrite.v
theories/C_XmlText.v
theories/M_RThreads.v
theories/S_RThreads.v
theories/P_RThreads.v
theories/C_RThreads.v
theories/M_MThreads.v
theories/S_MThreads.v
theories/P_MThreads.v
theories/C_MThreads.v
theories/S_Accuracy.v
theories/P_Accuracy.v
theories/C_Accuracy.v
theories/M_FloatText.v
theories/S_FloatText.v
theories/P_FloatText.v
theories/C_FloatText.v
theories/C_ScaledText.v
theories/M_TypeText.v
theories/S_TypeText.v
theories/P_TypeText.v
theories/C_TypeText.v
theories/M_Output.v
theories/S_Output.v
theories/P_Output.v
theories/C_Output.v
theories/M_PathObj.v
theories/S_PathObj.v
theories/P_PathObj.v
theories/P_Repr.v
theories/C_PathObj.v
theories/S_SameText.v
theories/C_SameText.v
