-Q theories Verif
theories/Base.v
theories/UtilsModel.v
theories/UtilsSpec.v
theories/UtilsProofs.v
theories/JsonSpec.v
theories/JsonModel.v
theories/JsonProofs.v
theories/Types.v
theories/JsonTypesModel.v
theories/JsonScan.v
theories/JsonTypesSpec.v
theories/JsonReaders.v
theories/JsonWriters.v
theories/JsonRoundtrip.v
theories/JsonRoundtrip2.v
theories/JsonRoundtrip3.v
theories/P_Json.v
theories/DistMatrixModel.v
theories/DistMatrixSpec.v
theories/DistMatrixProofs.v
theories/DistPartProofs.v
theories/P_Matrix.v
theories/DistModel.v
theories/DistSpec.v
theories/DistProofs.v
theories/DistProofs2.v
theories/DistProofs3.v
theories/DistFloat.v
theories/CmpModel.v
theories/CmpSpec.v
theories/CmpSpec2.v
theories/CmpProofs.v
theories/CmpProofs2.v
theories/P_Cmp.v
theories/DistProofs4.v
theories/P_Dist.v
theories/ClusterModel.v
theories/ClusterSpec.v
theories/ClusterProofs.v
theories/ClusterProofs2.v
theories/ClusterProofs3.v
theories/ClusterProofs4.v
theories/P_Cluster.v
theories/HeapModel.v
theories/HeapSpec.v
theories/HeapProofs.v
theories/HeapProofs2.v
theories/HeapProofs3.v
theories/P_Heap.v
theories/NormTables.v
theories/NormModel.v
theories/NormSpec.v
theories/NormProofs.v
theories/NormProofs2.v
theories/P_Norm.v
theories/CrashModel.v
theories/CrashSpec.v
theories/CrashProofs.v
theories/CrashProofs2.v
theories/CrashFloat.v
theories/P_Crash.v
theories/TextModel.v
theories/TextSpec.v
theories/TextProofs.v
theories/TextProofs2.v
theories/TextProofs3.v
theories/P_Text.v
theories/RpmModel.v
theories/RpmSpec.v
theories/RpmProofs.v
theories/RpmProofs2.v
theories/RpmProofs3.v
theories/RpmProofs4.v
theories/P_Rpm.v
theories/SystemModel.v
theories/SystemSpec.v
theories/SystemProofs.v
theories/SystemProofs2.v
theories/P_System.v
theories/LookupModel.v
theories/LookupSpec.v
theories/LookupProofs.v
theories/LookupProofs2.v
theories/LookupProofs3.v
theories/P_Lookup.v
theories/ReportModel.v
theories/ReportSpec.v
theories/ReportProofs.v
theories/ReportProofs2.v
theories/ReportProofs3.v
theories/ReportProofs4.v
theories/ReportProofs5.v
theories/ReportProofs6.v
theories/P_Report.v
theories/ParseSpec.v
theories/ParseModel.v
theories/ParseProofs.v
theories/RubyParseModel.v
theories/RubyParseSpec.v
theories/RubyParseProofs.v
theories/P_Ruby.v
theories/JsParseModel.v
theories/JsParseSpec.v
theories/JsParseProofs.v
theories/P_Js.v
theories/PyParseModel.v
theories/PyParseSpec.v
theories/PyParseProofs.v
theories/P_Python.v
theories/JavaParseModel.v
theories/JavaParseSpec.v
theories/JavaParseProofs.v
theories/JavaParseProofs2.v
theories/JavaParseProofs3.v
theories/P_Java.v
theories/FunsModel.v
theories/FunsSpec.v
theories/FunsProofs.v
theories/P_Funs.v
theories/KoopsModel.v
theories/KoopsSpec.v
theories/KoopsProofs.v
theories/KoopsProofs2.v
theories/SkipProofs.v
theories/P_Utils.v
theories/KoopsProofs3.v
theories/KoopsProofs4.v
theories/P_Koops.v
theories/GdbParseModel.v
theories/GdbParseSpec.v
theories/GdbParseProofs.v
theories/GdbParseProofs2.v
theories/GdbParseProofs3.v
theories/GdbParseProofs4.v
theories/GdbParseProofs5.v
theories/GdbParseProofs6.v
theories/GdbParseProofs7.v
theories/P_Gdb.v
theories/GdbLibModel.v
theories/GdbLibSpec.v
theories/GdbLibProofs.v
theories/GdbLibProofs2.v
theories/P_GdbLib.v
theories/ElfModel.v
theories/ElfSpec.v
theories/ElfProofs.v
theories/ElfProofs2.v
theories/P_Elf.v
theories/UnwindModel.v
theories/UnwindSpec.v
theories/UnwindProofs.v
theories/P_Unwind.v
theories/FileModel.v
theories/FileSpec.v
theories/FileProofs.v
theories/P_File.v
theories/AbrtModel.v
theories/AbrtSpec.v
theories/AbrtProofs.v
theories/AbrtProofs2.v
theories/AbrtProofs3.v
theories/P_Abrt.v
theories/HeapListModel.v
theories/HeapListSpec.v
theories/HeapListProofs.v
theories/HeapListProofs2.v
theories/HeapListProofs3.v
theories/HeapListProofs4.v
theories/HeapListProofs5.v
theories/P_HeapList.v
theories/PyModel.v
theories/PySpec.v
theories/PyProofs.v
theories/PyProofs2.v
theories/PyProofs3.v
theories/PyProofs4.v
theories/PyProofs5.v
theories/PyProofs6.v
theories/PyProofs7.v
theories/PyProofs8.v
theories/PyProofs9.v
theories/P_Py.v
theories/P_PyLife.v
theories/PyAttrModel.v
theories/PyAttrSpec.v
theories/PyAttrProofs.v
theories/PyAttrProofs2.v
theories/PyAttrProofs3.v
theories/PyAttrProofs4.v
theories/P_PyAttr.v
theories/PyDistModel.v
theories/PyDistSpec.v
theories/PyDistProofs.v
theories/P_PyDist.v
theories/CliModel.v
theories/CliSpec.v
theories/CliProofs.v
theories/CliProofs2.v
theories/CliProofs3.v
theories/CliProofs4.v
theories/P_Cli.v
theories/PyReportModel.v
theories/PyReportSpec.v
theories/PyReportProofs.v
theories/PyReportProofs2.v
theories/PyReportProofs3.v
theories/PyReportProofs4.v
theories/P_PyReport.v
theories/PyBaseModel.v
theories/PyBaseSpec.v
theories/PyBaseProofs.v
theories/PyBaseProofs2.v
theories/PyBaseProofs3.v
theories/PyBaseProofs4.v
theories/P_PyBase.v
theories/UnwindResModel.v
theories/UnwindResSpec.v
theories/UnwindResProofs.v
theories/UnwindResProofs2.v
theories/UnwindResProofs3.v
theories/UnwindResProofs4.v
theories/P_UnwindRes.v
theories/PyNewModel.v
theories/PyNewSpec.v
theories/PyNewProofs.v
theories/PyNewProofs2.v
theories/PyNewProofs3.v
theories/P_PyNew.v
theories/PyStrModel.v
theories/PyStrSpec.v
theories/PyStrProofs.v
theories/PyStrProofs2.v
theories/P_PyStr.v
theories/PyMethModel.v
theories/PyMethSpec.v
theories/PyMethProofs.v
theories/PyMethProofs2.v
theories/PyMethProofs3.v
theories/PyMethProofs4.v
theories/P_PyMeth.v
theories/PyGdbModel.v
theories/PyGdbSpec.v
theories/PyGdbProofs.v
theories/PyGdbProofs2.v
theories/PyGdbProofs3.v
theories/PyGdbProofs4.v
theories/PyGdbProofs5.v
theories/PyGdbProofs6.v
theories/PyGdbProofs7.v
theories/PyGdbProofs8.v
theories/P_PyGdb.v
theories/RpmDbModel.v
theories/RpmDbSpec.v
theories/RpmDbProofs.v
theories/RpmDbProofs2.v
theories/RpmDbProofs3.v
theories/P_RpmDb.v
theories/LocParseModel.v
theories/LocParseSpec.v
theories/LocParseProofs.v
theories/LocParseProofs2.v
theories/LocParseProofs3.v
theories/LocParseProofs4.v
theories/LocParseProofs5.v
theories/P_LocParse.v
theories/JsonMsgModel.v
theories/JsonMsgSpec.v
theories/JsonMsgProofs.v
theories/JsonMsgProofs2.v
theories/JsonMsgProofs3.v
theories/JsonMsgProofs4.v
theories/JsonMsgProofs5.v
theories/P_JsonMsg.v
theories/RbModel.v
theories/RbSpec.v
theories/RbProofs.v
theories/RbProofs2.v
theories/RbProofs3.v
theories/RbProofs4.v
theories/P_Rb.v
theories/JavaLocModel.v
theories/JavaLocSpec.v
theories/JavaLocProofs.v
theories/JavaLocProofs2.v
theories/JavaLocProofs3.v
theories/JavaLocProofs4.v
theories/JavaLocProofs5.v
theories/P_JavaLoc.v
theories/PyLocModel.v
theories/PyLocSpec.v
theories/PyLocProofs.v
theories/PyLocProofs2.v
theories/P_PyLoc.v
theories/GdbLocModel.v
theories/GdbLocSpec.v
theories/GdbLocProofs.v
theories/GdbLocProofs2.v
theories/GdbLocProofs3.v
theories/GdbLocProofs4.v
theories/GdbLocProofs5.v
theories/P_GdbLoc.v
theories/MetricProofs.v
theories/P_Metric.v
theories/JsonKeepSpec.v
theories/JsonKeepProofs.v
theories/JsonKeepProofs2.v
theories/JsonKeepProofs3.v
theories/P_JsonKeep.v
theories/ParseSendSpec.v
theories/ParseSendProofs.v
theories/ParseSendProofs2.v
theories/ParseSendProofs3.v
theories/P_ParseSend.v
theories/ResendSpec.v
theories/ResendProofs.v
theories/ResendProofs2.v
theories/P_Resend.v
theories/DirSendSpec.v
theories/DirSendProofs.v
theories/DirSendProofs2.v
theories/DirSendProofs3.v
theories/P_DirSend.v
theories/SeparateSpec.v
theories/SeparateProofs.v
theories/SeparateProofs2.v
theories/P_Separate.v
theories/MovedSpec.v
theories/MovedProofs.v
theories/MovedProofs2.v
theories/P_Moved.v
theories/HomeSpec.v
theories/HomeProofs.v
theories/HomeProofs2.v
theories/HomeProofs3.v
theories/HomeProofs4.v
theories/HomeProofs5.v
theories/P_Home.v
theories/SharedSpec.v
theories/SharedProofs.v
theories/P_Shared.v
