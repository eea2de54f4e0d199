Base.v
UtilsModel.v
UtilsSpec.v
UtilsProofs.v
JsonSpec.v
JsonModel.v
JsonProofs.v
Types.v
JsonTypesModel.v
JsonScan.v
JsonTypesSpec.v
JsonReaders.v
JsonWriters.v
JsonRoundtrip.v
JsonRoundtrip2.v
JsonRoundtrip3.v
P_Json.v
DistMatrixModel.v
DistMatrixSpec.v
DistMatrixProofs.v
DistPartProofs.v
P_Matrix.v
DistModel.v
DistSpec.v
DistProofs.v
DistProofs2.v
DistProofs3.v
DistFloat.v
CmpModel.v
CmpSpec.v
CmpSpec2.v
CmpProofs.v
CmpProofs2.v
P_Cmp.v
DistProofs4.v
P_Dist.v
ClusterModel.v
ClusterSpec.v
ClusterProofs.v
ClusterProofs2.v
ClusterProofs3.v
ClusterProofs4.v
P_Cluster.v
HeapModel.v
HeapSpec.v
HeapProofs.v
HeapProofs2.v
HeapProofs3.v
P_Heap.v
NormTables.v
NormModel.v
NormSpec.v
NormProofs.v
NormProofs2.v
P_Norm.v
CrashModel.v
CrashSpec.v
CrashProofs.v
CrashProofs2.v
CrashFloat.v
P_Crash.v
TextModel.v
TextSpec.v
TextProofs.v
TextProofs2.v
TextProofs3.v
P_Text.v
RpmModel.v
RpmSpec.v
RpmProofs.v
RpmProofs2.v
RpmProofs3.v
RpmProofs4.v
P_Rpm.v
SystemModel.v
SystemSpec.v
SystemProofs.v
SystemProofs2.v
P_System.v
LookupModel.v
LookupSpec.v
LookupProofs.v
LookupProofs2.v
LookupProofs3.v
P_Lookup.v
ReportModel.v
ReportSpec.v
ReportProofs.v
ReportProofs2.v
ReportProofs3.v
ReportProofs4.v
ReportProofs5.v
ReportProofs6.v
P_Report.v
ParseSpec.v
ParseModel.v
ParseProofs.v
RubyParseModel.v
RubyParseSpec.v
RubyParseProofs.v
P_Ruby.v
JsParseModel.v
JsParseSpec.v
JsParseProofs.v
P_Js.v
PyParseModel.v
PyParseSpec.v
PyParseProofs.v
P_Python.v
JavaParseModel.v
JavaParseSpec.v
JavaParseProofs.v
JavaParseProofs2.v
JavaParseProofs3.v
P_Java.v
FunsModel.v
FunsSpec.v
FunsProofs.v
P_Funs.v
KoopsModel.v
KoopsSpec.v
KoopsProofs.v
KoopsProofs2.v
SkipProofs.v
P_Utils.v
KoopsProofs3.v
KoopsProofs4.v
P_Koops.v
GdbParseModel.v
GdbParseSpec.v
GdbParseProofs.v
GdbParseProofs2.v
GdbParseProofs3.v
GdbParseProofs4.v
GdbParseProofs5.v
GdbParseProofs6.v
GdbParseProofs7.v
P_Gdb.v
GdbLibModel.v
GdbLibSpec.v
GdbLibProofs.v
GdbLibProofs2.v
P_GdbLib.v
ElfModel.v
ElfSpec.v
ElfProofs.v
ElfProofs2.v
P_Elf.v
UnwindModel.v
UnwindSpec.v
UnwindProofs.v
P_Unwind.v
FileModel.v
FileSpec.v
FileProofs.v
P_File.v
AbrtModel.v
AbrtSpec.v
AbrtProofs.v
AbrtProofs2.v
AbrtProofs3.v
P_Abrt.v
HeapListModel.v
HeapListSpec.v
HeapListProofs.v
HeapListProofs2.v
HeapListProofs3.v
HeapListProofs4.v
HeapListProofs5.v
P_HeapList.v
PyModel.v
PySpec.v
PyProofs.v
PyProofs2.v
PyProofs3.v
PyProofs4.v
PyProofs5.v
PyProofs6.v
PyProofs7.v
PyProofs8.v
PyProofs9.v
P_Py.v
P_PyLife.v
PyAttrModel.v
PyAttrSpec.v
PyAttrProofs.v
PyAttrProofs2.v
PyAttrProofs3.v
PyAttrProofs4.v
P_PyAttr.v
PyDistModel.v
PyDistSpec.v
PyDistProofs.v
P_PyDist.v
CliModel.v
CliSpec.v
CliProofs.v
CliProofs2.v
CliProofs3.v
CliProofs4.v
P_Cli.v
PyReportModel.v
PyReportSpec.v
PyReportProofs.v
PyReportProofs2.v
PyReportProofs3.v
PyReportProofs4.v
P_PyReport.v
PyBaseModel.v
PyBaseSpec.v
PyBaseProofs.v
PyBaseProofs2.v
PyBaseProofs3.v
PyBaseProofs4.v
P_PyBase.v
UnwindResModel.v
UnwindResSpec.v
UnwindResProofs.v
UnwindResProofs2.v
UnwindResProofs3.v
UnwindResProofs4.v
P_UnwindRes.v
PyNewModel.v
PyNewSpec.v
PyNewProofs.v
PyNewProofs2.v
PyNewProofs3.v
P_PyNew.v
PyStrModel.v
PyStrSpec.v
PyStrProofs.v
PyStrProofs2.v
P_PyStr.v
PyMethModel.v
PyMethSpec.v
PyMethProofs.v
PyMethProofs2.v
PyMethProofs3.v
PyMethProofs4.v
P_PyMeth.v
PyGdbModel.v
PyGdbSpec.v
PyGdbProofs.v
PyGdbProofs2.v
PyGdbProofs3.v
PyGdbProofs4.v
PyGdbProofs5.v
PyGdbProofs6.v
PyGdbProofs7.v
PyGdbProofs8.v
P_PyGdb.v
RpmDbModel.v
RpmDbSpec.v
RpmDbProofs.v
RpmDbProofs2.v
RpmDbProofs3.v
P_RpmDb.v
LocParseModel.v
LocParseSpec.v
LocParseProofs.v
LocParseProofs2.v
LocParseProofs3.v
LocParseProofs4.v
LocParseProofs5.v
P_LocParse.v
JsonMsgModel.v
JsonMsgSpec.v
JsonMsgProofs.v
JsonMsgProofs2.v
JsonMsgProofs3.v
JsonMsgProofs4.v
JsonMsgProofs5.v
P_JsonMsg.v
RbModel.v
RbSpec.v
RbProofs.v
RbProofs2.v
RbProofs3.v
RbProofs4.v
P_Rb.v
JavaLocModel.v
JavaLocSpec.v
JavaLocProofs.v
JavaLocProofs2.v
JavaLocProofs3.v
JavaLocProofs4.v
JavaLocProofs5.v
P_JavaLoc.v
PyLocModel.v
PyLocSpec.v
PyLocProofs.v
PyLocProofs2.v
P_PyLoc.v
GdbLocModel.v
GdbLocSpec.v
GdbLocProofs.v
GdbLocProofs2.v
GdbLocProofs3.v
GdbLocProofs4.v
GdbLocProofs5.v
P_GdbLoc.v
MetricProofs.v
P_Metric.v
JsonKeepSpec.v
JsonKeepProofs.v
JsonKeepProofs2.v
JsonKeepProofs3.v
P_JsonKeep.v
ParseSendSpec.v
ParseSendProofs.v
ParseSendProofs2.v
ParseSendProofs3.v
P_ParseSend.v
ResendSpec.v
ResendProofs.v
ResendProofs2.v
P_Resend.v
DirSendSpec.v
DirSendProofs.v
DirSendProofs2.v
DirSendProofs3.v
P_DirSend.v
SeparateSpec.v
SeparateProofs.v
SeparateProofs2.v
P_Separate.v
MovedSpec.v
MovedProofs.v
MovedProofs2.v
P_Moved.v
HomeSpec.v
HomeProofs.v
HomeProofs2.v
HomeProofs3.v
HomeProofs4.v
HomeProofs5.v
P_Home.v
SharedSpec.v
SharedProofs.v
P_Shared.v
