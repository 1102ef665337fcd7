(** The records of a workbook by name, in the manner of [MS-XLS] 2.3.1 "By Name": the name and the number that identifies it.
    The list was made by a script that sorted the code's own table; it was not compared with the specification, of which there
    is no copy here.  So it fixes the table of the model against changes, and is no evidence that the table follows [MS-XLS]. *)
From Coq Require Import List NArith Strings.String.
From Verif Require Import Lib.Bytes Lib.Text.
Import ListNotations.
Local Open Scope N_scope.
Local Open Scope string_scope.

Definition records_by_name : list (string * N) :=
  [("AlRuns", 0x1050); ("Area", 0x101A); ("AreaFormat", 0x100A); ("Array", 0x221); ("AttachedLabel", 0x100C); ("AutoFilter", 0x9E);
   ("AutoFilter12", 0x87E); ("AutoFilterInfo", 0x9D); ("AxcExt", 0x1062); ("AxesUsed", 0x1046); ("Axis", 0x101D);
   ("AxisLine", 0x1021); ("AxisParent", 0x1041); ("Backup", 0x40); ("Bar", 0x1017); ("BCUsrs", 0x197); ("Begin", 0x1033);
   ("BigName", 0x418); ("BkHim", 0xE9); ("Blank", 0x201); ("BOF", 0x809); ("BookBool", 0xDA); ("BookExt", 0x863); ("BoolErr", 0x205);
   ("BopPop", 0x1061); ("BopPopCustom", 0x1067); ("BottomMargin", 0x29); ("BoundSheet8", 0x85); ("BRAI", 0x1051);
   ("BuiltInFnGroupCount", 0x9C); ("CalcCount", 0xC); ("CalcDelta", 0x10); ("CalcIter", 0x11); ("CalcMode", 0xD);
   ("CalcPrecision", 0xE); ("CalcRefMode", 0xF); ("CalcSaveRecalc", 0x5F); ("CatLab", 0x856); ("CatSerRange", 0x1020);
   ("CbUsr", 0x192); ("CellWatch", 0x86C); ("CF", 0x1B1); ("CF12", 0x87A); ("CFEx", 0x87B); ("Chart", 0x1002); ("Chart3d", 0x103A);
   ("Chart3DBarShape", 0x105F); ("ChartFormat", 0x1014); ("ChartFrtInfo", 0x850); ("ClrtClient", 0x105C); ("CodeName", 0x1BA);
   ("CodePage", 0x42); ("ColInfo", 0x7D); ("Compat12", 0x88C); ("CompressPictures", 0x89B); ("CondFmt", 0x1B0); ("CondFmt12", 0x879);
   ("Continue", 0x3C); ("ContinueBigName", 0x43C); ("ContinueFrt", 0x812); ("ContinueFrt11", 0x875); ("ContinueFrt12", 0x87F);
   ("Country", 0x8C); ("CrErr", 0x865); ("CRN", 0x5A); ("CrtLayout12", 0x89D); ("CrtLayout12A", 0x8A7); ("CrtLine", 0x101C);
   ("CrtLink", 0x1022); ("CrtMlFrt", 0x89E); ("CrtMlFrtContinue", 0x89F); ("CUsr", 0x191); ("Dat", 0x1063); ("DataFormat", 0x1006);
   ("DataLabExt", 0x86A); ("DataLabExtContents", 0x86B); ("Date1904", 0x22); ("DBCell", 0xD7); ("DbOrParamQry", 0xDC);
   ("DBQueryExt", 0x803); ("DCon", 0x50); ("DconBin", 0x1B5); ("DConn", 0x876); ("DConName", 0x52); ("DConRef", 0x51);
   ("DefaultRowHeight", 0x225); ("DefaultText", 0x1024); ("DefColWidth", 0x55); ("Dimensions", 0x200); ("DocRoute", 0xB8);
   ("DropBar", 0x103D); ("DropDownObjIds", 0x874); ("DSF", 0x161); ("Dv", 0x1BE); ("DVal", 0x1B2); ("DXF", 0x88D); ("DxGCol", 0x99);
   ("End", 0x1034); ("EndBlock", 0x853); ("EndObject", 0x855); ("EntExU2", 0x1C2); ("EOF", 0xA); ("Excel9File", 0x1C0);
   ("ExternName", 0x23); ("ExternSheet", 0x17); ("ExtSST", 0xFF); ("ExtString", 0x804); ("Fbi", 0x1060); ("Fbi2", 0x1068);
   ("Feat", 0x868); ("FeatHdr", 0x867); ("FeatHdr11", 0x871); ("Feature11", 0x872); ("Feature12", 0x878); ("FileLock", 0x195);
   ("FilePass", 0x2F); ("FileSharing", 0x5B); ("FilterMode", 0x9B); ("FnGroupName", 0x9A); ("FnGrp12", 0x898); ("Font", 0x31);
   ("FontX", 0x1026); ("Footer", 0x15); ("ForceFullCalculation", 0x8A3); ("Format", 0x41E); ("Formula", 0x6); ("Frame", 0x1032);
   ("FrtFontList", 0x85A); ("FrtWrapper", 0x851); ("GelFrame", 0x1066); ("GridSet", 0x82); ("GUIDTypeLib", 0x897); ("Guts", 0x80);
   ("HCenter", 0x83); ("Header", 0x14); ("HeaderFooter", 0x89C); ("HFPicture", 0x866); ("HideObj", 0x8D); ("HLink", 0x1B8);
   ("HLinkTooltip", 0x800); ("HorizontalPageBreaks", 0x1B); ("IFmtRecord", 0x104E); ("Index", 0x20B); ("InterfaceEnd", 0xE2);
   ("InterfaceHdr", 0xE1); ("Intl", 0x61); ("Label", 0x204); ("LabelSst", 0xFD); ("Lbl", 0x18); ("LeftMargin", 0x26);
   ("Legend", 0x1015); ("LegendException", 0x1043); ("Lel", 0x1B9); ("Line", 0x1018); ("LineFormat", 0x1007); ("List12", 0x877);
   ("LPr", 0x98); ("LRng", 0x15F); ("MarkerFormat", 0x1009); ("MDB", 0x88A); ("MDTInfo", 0x884); ("MDXKPI", 0x889);
   ("MDXProp", 0x888); ("MDXSet", 0x887); ("MDXStr", 0x885); ("MDXTuple", 0x886); ("MergeCells", 0xE5); ("Mms", 0xC1);
   ("MsoDrawing", 0xEC); ("MsoDrawingGroup", 0xEB); ("MsoDrawingSelection", 0xED); ("MTRSettings", 0x89A); ("MulBlank", 0xBE);
   ("MulRk", 0xBD); ("NameCmt", 0x894); ("NameFnGrp12", 0x899); ("NamePublish", 0x893); ("Note", 0x1C); ("Number", 0x203);
   ("Obj", 0x5D); ("ObjectLink", 0x1027); ("ObjProtect", 0x63); ("ObNoMacros", 0x1BD); ("ObProj", 0xD3); ("OleDbConn", 0x80A);
   ("OleObjectSize", 0xDE); ("Palette", 0x92); ("Pane", 0x41); ("Password", 0x13); ("PhoneticInfo", 0xEF); ("PicF", 0x103C);
   ("Pie", 0x1019); ("PieFormat", 0x100B); ("PivotChartBits", 0x859); ("PlotArea", 0x1035); ("PlotGrowth", 0x1064); ("Pls", 0x4D);
   ("PLV", 0x88B); ("Pos", 0x104F); ("PrintGrid", 0x2B); ("PrintRowCol", 0x2A); ("PrintSize", 0x33); ("Prot4Rev", 0x1AF);
   ("Prot4RevPass", 0x1BC); ("Protect", 0x12); ("Qsi", 0x1AD); ("Qsif", 0x807); ("Qsir", 0x806); ("QsiSXTag", 0x802);
   ("Radar", 0x103E); ("RadarArea", 0x1040); ("RealTimeData", 0x813); ("RecalcId", 0x1C1); ("RecipName", 0xB9); ("RefreshAll", 0x1B7);
   ("RichTextStream", 0x8A6); ("RightMargin", 0x27); ("RK", 0x27E); ("Row", 0x208); ("RRAutoFmt", 0x14B); ("RRDChgCell", 0x13B);
   ("RRDConflict", 0x152); ("RRDDefName", 0x153); ("RRDHead", 0x138); ("RRDInfo", 0x196); ("RRDInsDel", 0x137);
   ("RRDInsDelBegin", 0x150); ("RRDInsDelEnd", 0x151); ("RRDMove", 0x140); ("RRDMoveBegin", 0x14E); ("RRDMoveEnd", 0x14F);
   ("RRDRenSheet", 0x13E); ("RRDRstEtxp", 0x154); ("RRDTQSIF", 0x808); ("RRDUserView", 0x1AC); ("RRFormat", 0x14A);
   ("RRInsertSh", 0x14D); ("RRSort", 0x13F); ("RRTabId", 0x13D); ("SBaseRef", 0x1048); ("Scatter", 0x101B); ("SCENARIO", 0xAF);
   ("ScenarioProtect", 0xDD); ("ScenMan", 0xAE); ("Scl", 0xA0); ("Selection", 0x1D); ("SerAuxErrBar", 0x105B);
   ("SerAuxTrend", 0x104B); ("SerFmt", 0x105D); ("Series", 0x1003); ("SeriesList", 0x1016); ("SeriesText", 0x100D);
   ("SerParent", 0x104A); ("SerToCrt", 0x1045); ("Setup", 0xA1); ("ShapePropsStream", 0x8A4); ("SheetExt", 0x862); ("ShrFmla", 0x4BC);
   ("ShtProps", 0x1044); ("SIIndex", 0x1065); ("Sort", 0x90); ("SortData", 0x895); ("SST", 0xFC); ("StartBlock", 0x852);
   ("StartObject", 0x854); ("String", 0x207); ("Style", 0x293); ("StyleExt", 0x892); ("SupBook", 0x1AE); ("Surf", 0x103F);
   ("SXAddl", 0x864); ("SxBool", 0xCA); ("SXDB", 0xC6); ("SXDBB", 0xC8); ("SXDBEx", 0x122); ("SXDI", 0xC5); ("SXDtr", 0xCE);
   ("SxDXF", 0xF4); ("SxErr", 0xCB); ("SXEx", 0xF1); ("SXFDB", 0xC7); ("SXFDBType", 0x1BB); ("SxFilt", 0xF2); ("SxFmla", 0xF9);
   ("SxFormat", 0xFB); ("SXFormula", 0x103); ("SXInt", 0xCC); ("SxIsxoper", 0xD9); ("SxItm", 0xF5); ("SxIvd", 0xB4); ("SXLI", 0xB5);
   ("SxName", 0xF6); ("SxNil", 0xCF); ("SXNum", 0xC9); ("SXPair", 0xF8); ("SXPI", 0xB6); ("SXPIEx", 0x80E); ("SXRng", 0xD8);
   ("SxRule", 0xF0); ("SxSelect", 0xF7); ("SXStreamID", 0xD5); ("SXString", 0xCD); ("SXTbl", 0xD0); ("SxTbpg", 0xD2);
   ("SXTBRGIITM", 0xD1); ("SXTH", 0x80D); ("Sxvd", 0xB1); ("SXVDEx", 0x100); ("SXVDTEx", 0x80F); ("SXVI", 0xB2); ("SxView", 0xB0);
   ("SXViewEx", 0x80C); ("SXViewEx9", 0x810); ("SXViewLink", 0x858); ("SXVS", 0xE3); ("Sync", 0x97); ("Table", 0x236);
   ("TableStyle", 0x88F); ("TableStyleElement", 0x890); ("TableStyles", 0x88E); ("Template", 0x60); ("Text", 0x1025);
   ("TextPropsStream", 0x8A5); ("Theme", 0x896); ("Tick", 0x101E); ("TopMargin", 0x28); ("TxO", 0x1B6); ("TxtQry", 0x805);
   ("Uncalced", 0x5E); ("Units", 0x1001); ("UserBView", 0x1A9); ("UserSViewBegin", 0x1AA); ("UserSViewEnd", 0x1AB);
   ("UsesELFs", 0x160); ("UsrChk", 0x198); ("UsrExcl", 0x194); ("UsrInfo", 0x193); ("ValueRange", 0x101F); ("VCenter", 0x84);
   ("VerticalPageBreaks", 0x1A); ("WebPub", 0x801); ("Window1", 0x3D); ("Window2", 0x23E); ("WinProtect", 0x19); ("WOpt", 0x80B);
   ("WriteAccess", 0x5C); ("WriteProtect", 0x86); ("WsBool", 0x81); ("XCT", 0x59); ("XF", 0xE0); ("XFCRC", 0x87C); ("XFExt", 0x87D);
   ("YMult", 0x857)].

(** The name a record is shown with *)
Definition record_name (number : N) (name : string) : Prop :=
  In (name, number) records_by_name \/ ((forall s, ~ In (s, number) records_by_name) /\ name = "Unknown/Undocumented RecordType").
(** How the documents of a record begin *)
Definition json_begins (name : string) (length : N) (doc : bytes) : Prop :=
  exists z, (doc = B "{""Type"":""" ++ B name ++ B """,""Length"":" ++ dec length ++ z)%list.
Definition xml_begins (name : string) (length : N) (doc : bytes) : Prop :=
  exists z, (doc = B "<Record><Type>" ++ B name ++ B "</Type><Length>" ++ dec length ++ B "</Length>" ++ z)%list.
