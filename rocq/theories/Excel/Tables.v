(** Tables of /repo/fileid/document/excel, copied by a script. *)
From Coq Require Import List NArith Strings.String.
From Verif Require Import Lib.Bytes Lib.Text.
Import ListNotations.
Local Open Scope N_scope.

(** document/excel/records/Record.hpp:19-376 *)
Definition record_types : list (N * bytes) := [
  (6, B "Formula");
  (10, B "EOF");
  (12, B "CalcCount");
  (13, B "CalcMode");
  (14, B "CalcPrecision");
  (15, B "CalcRefMode");
  (16, B "CalcDelta");
  (17, B "CalcIter");
  (18, B "Protect");
  (19, B "Password");
  (20, B "Header");
  (21, B "Footer");
  (23, B "ExternSheet");
  (24, B "Lbl");
  (25, B "WinProtect");
  (26, B "VerticalPageBreaks");
  (27, B "HorizontalPageBreaks");
  (28, B "Note");
  (29, B "Selection");
  (34, B "Date1904");
  (35, B "ExternName");
  (38, B "LeftMargin");
  (39, B "RightMargin");
  (40, B "TopMargin");
  (41, B "BottomMargin");
  (42, B "PrintRowCol");
  (43, B "PrintGrid");
  (47, B "FilePass");
  (49, B "Font");
  (51, B "PrintSize");
  (60, B "Continue");
  (61, B "Window1");
  (64, B "Backup");
  (65, B "Pane");
  (66, B "CodePage");
  (77, B "Pls");
  (80, B "DCon");
  (81, B "DConRef");
  (82, B "DConName");
  (85, B "DefColWidth");
  (89, B "XCT");
  (90, B "CRN");
  (91, B "FileSharing");
  (92, B "WriteAccess");
  (93, B "Obj");
  (94, B "Uncalced");
  (95, B "CalcSaveRecalc");
  (96, B "Template");
  (97, B "Intl");
  (99, B "ObjProtect");
  (125, B "ColInfo");
  (128, B "Guts");
  (129, B "WsBool");
  (130, B "GridSet");
  (131, B "HCenter");
  (132, B "VCenter");
  (133, B "BoundSheet8");
  (134, B "WriteProtect");
  (140, B "Country");
  (141, B "HideObj");
  (144, B "Sort");
  (146, B "Palette");
  (151, B "Sync");
  (152, B "LPr");
  (153, B "DxGCol");
  (154, B "FnGroupName");
  (155, B "FilterMode");
  (156, B "BuiltInFnGroupCount");
  (157, B "AutoFilterInfo");
  (158, B "AutoFilter");
  (160, B "Scl");
  (161, B "Setup");
  (174, B "ScenMan");
  (175, B "SCENARIO");
  (176, B "SxView");
  (177, B "Sxvd");
  (178, B "SXVI");
  (180, B "SxIvd");
  (181, B "SXLI");
  (182, B "SXPI");
  (184, B "DocRoute");
  (185, B "RecipName");
  (189, B "MulRk");
  (190, B "MulBlank");
  (193, B "Mms");
  (197, B "SXDI");
  (198, B "SXDB");
  (199, B "SXFDB");
  (200, B "SXDBB");
  (201, B "SXNum");
  (202, B "SxBool");
  (203, B "SxErr");
  (204, B "SXInt");
  (205, B "SXString");
  (206, B "SXDtr");
  (207, B "SxNil");
  (208, B "SXTbl");
  (209, B "SXTBRGIITM");
  (210, B "SxTbpg");
  (211, B "ObProj");
  (213, B "SXStreamID");
  (215, B "DBCell");
  (216, B "SXRng");
  (217, B "SxIsxoper");
  (218, B "BookBool");
  (220, B "DbOrParamQry");
  (221, B "ScenarioProtect");
  (222, B "OleObjectSize");
  (224, B "XF");
  (225, B "InterfaceHdr");
  (226, B "InterfaceEnd");
  (227, B "SXVS");
  (229, B "MergeCells");
  (233, B "BkHim");
  (235, B "MsoDrawingGroup");
  (236, B "MsoDrawing");
  (237, B "MsoDrawingSelection");
  (239, B "PhoneticInfo");
  (240, B "SxRule");
  (241, B "SXEx");
  (242, B "SxFilt");
  (244, B "SxDXF");
  (245, B "SxItm");
  (246, B "SxName");
  (247, B "SxSelect");
  (248, B "SXPair");
  (249, B "SxFmla");
  (251, B "SxFormat");
  (252, B "SST");
  (253, B "LabelSst");
  (255, B "ExtSST");
  (256, B "SXVDEx");
  (259, B "SXFormula");
  (290, B "SXDBEx");
  (311, B "RRDInsDel");
  (312, B "RRDHead");
  (315, B "RRDChgCell");
  (317, B "RRTabId");
  (318, B "RRDRenSheet");
  (319, B "RRSort");
  (320, B "RRDMove");
  (330, B "RRFormat");
  (331, B "RRAutoFmt");
  (333, B "RRInsertSh");
  (334, B "RRDMoveBegin");
  (335, B "RRDMoveEnd");
  (336, B "RRDInsDelBegin");
  (337, B "RRDInsDelEnd");
  (338, B "RRDConflict");
  (339, B "RRDDefName");
  (340, B "RRDRstEtxp");
  (351, B "LRng");
  (352, B "UsesELFs");
  (353, B "DSF");
  (401, B "CUsr");
  (402, B "CbUsr");
  (403, B "UsrInfo");
  (404, B "UsrExcl");
  (405, B "FileLock");
  (406, B "RRDInfo");
  (407, B "BCUsrs");
  (408, B "UsrChk");
  (425, B "UserBView");
  (426, B "UserSViewBegin");
  (427, B "UserSViewEnd");
  (428, B "RRDUserView");
  (429, B "Qsi");
  (430, B "SupBook");
  (431, B "Prot4Rev");
  (432, B "CondFmt");
  (433, B "CF");
  (434, B "DVal");
  (437, B "DconBin");
  (438, B "TxO");
  (439, B "RefreshAll");
  (440, B "HLink");
  (441, B "Lel");
  (442, B "CodeName");
  (443, B "SXFDBType");
  (444, B "Prot4RevPass");
  (445, B "ObNoMacros");
  (446, B "Dv");
  (448, B "Excel9File");
  (449, B "RecalcId");
  (450, B "EntExU2");
  (512, B "Dimensions");
  (513, B "Blank");
  (515, B "Number");
  (516, B "Label");
  (517, B "BoolErr");
  (519, B "String");
  (520, B "Row");
  (523, B "Index");
  (545, B "Array");
  (549, B "DefaultRowHeight");
  (566, B "Table");
  (574, B "Window2");
  (638, B "RK");
  (659, B "Style");
  (1048, B "BigName");
  (1054, B "Format");
  (1084, B "ContinueBigName");
  (1212, B "ShrFmla");
  (2048, B "HLinkTooltip");
  (2049, B "WebPub");
  (2050, B "QsiSXTag");
  (2051, B "DBQueryExt");
  (2052, B "ExtString");
  (2053, B "TxtQry");
  (2054, B "Qsir");
  (2055, B "Qsif");
  (2056, B "RRDTQSIF");
  (2057, B "BOF");
  (2058, B "OleDbConn");
  (2059, B "WOpt");
  (2060, B "SXViewEx");
  (2061, B "SXTH");
  (2062, B "SXPIEx");
  (2063, B "SXVDTEx");
  (2064, B "SXViewEx9");
  (2066, B "ContinueFrt");
  (2067, B "RealTimeData");
  (2128, B "ChartFrtInfo");
  (2129, B "FrtWrapper");
  (2130, B "StartBlock");
  (2131, B "EndBlock");
  (2132, B "StartObject");
  (2133, B "EndObject");
  (2134, B "CatLab");
  (2135, B "YMult");
  (2136, B "SXViewLink");
  (2137, B "PivotChartBits");
  (2138, B "FrtFontList");
  (2146, B "SheetExt");
  (2147, B "BookExt");
  (2148, B "SXAddl");
  (2149, B "CrErr");
  (2150, B "HFPicture");
  (2151, B "FeatHdr");
  (2152, B "Feat");
  (2154, B "DataLabExt");
  (2155, B "DataLabExtContents");
  (2156, B "CellWatch");
  (2161, B "FeatHdr11");
  (2162, B "Feature11");
  (2164, B "DropDownObjIds");
  (2165, B "ContinueFrt11");
  (2166, B "DConn");
  (2167, B "List12");
  (2168, B "Feature12");
  (2169, B "CondFmt12");
  (2170, B "CF12");
  (2171, B "CFEx");
  (2172, B "XFCRC");
  (2173, B "XFExt");
  (2174, B "AutoFilter12");
  (2175, B "ContinueFrt12");
  (2180, B "MDTInfo");
  (2181, B "MDXStr");
  (2182, B "MDXTuple");
  (2183, B "MDXSet");
  (2184, B "MDXProp");
  (2185, B "MDXKPI");
  (2186, B "MDB");
  (2187, B "PLV");
  (2188, B "Compat12");
  (2189, B "DXF");
  (2190, B "TableStyles");
  (2191, B "TableStyle");
  (2192, B "TableStyleElement");
  (2194, B "StyleExt");
  (2195, B "NamePublish");
  (2196, B "NameCmt");
  (2197, B "SortData");
  (2198, B "Theme");
  (2199, B "GUIDTypeLib");
  (2200, B "FnGrp12");
  (2201, B "NameFnGrp12");
  (2202, B "MTRSettings");
  (2203, B "CompressPictures");
  (2204, B "HeaderFooter");
  (2205, B "CrtLayout12");
  (2206, B "CrtMlFrt");
  (2207, B "CrtMlFrtContinue");
  (2211, B "ForceFullCalculation");
  (2212, B "ShapePropsStream");
  (2213, B "TextPropsStream");
  (2214, B "RichTextStream");
  (2215, B "CrtLayout12A");
  (4097, B "Units");
  (4098, B "Chart");
  (4099, B "Series");
  (4102, B "DataFormat");
  (4103, B "LineFormat");
  (4105, B "MarkerFormat");
  (4106, B "AreaFormat");
  (4107, B "PieFormat");
  (4108, B "AttachedLabel");
  (4109, B "SeriesText");
  (4116, B "ChartFormat");
  (4117, B "Legend");
  (4118, B "SeriesList");
  (4119, B "Bar");
  (4120, B "Line");
  (4121, B "Pie");
  (4122, B "Area");
  (4123, B "Scatter");
  (4124, B "CrtLine");
  (4125, B "Axis");
  (4126, B "Tick");
  (4127, B "ValueRange");
  (4128, B "CatSerRange");
  (4129, B "AxisLine");
  (4130, B "CrtLink");
  (4132, B "DefaultText");
  (4133, B "Text");
  (4134, B "FontX");
  (4135, B "ObjectLink");
  (4146, B "Frame");
  (4147, B "Begin");
  (4148, B "End");
  (4149, B "PlotArea");
  (4154, B "Chart3d");
  (4156, B "PicF");
  (4157, B "DropBar");
  (4158, B "Radar");
  (4159, B "Surf");
  (4160, B "RadarArea");
  (4161, B "AxisParent");
  (4163, B "LegendException");
  (4164, B "ShtProps");
  (4165, B "SerToCrt");
  (4166, B "AxesUsed");
  (4168, B "SBaseRef");
  (4170, B "SerParent");
  (4171, B "SerAuxTrend");
  (4174, B "IFmtRecord");
  (4175, B "Pos");
  (4176, B "AlRuns");
  (4177, B "BRAI");
  (4187, B "SerAuxErrBar");
  (4188, B "ClrtClient");
  (4189, B "SerFmt");
  (4191, B "Chart3DBarShape");
  (4192, B "Fbi");
  (4193, B "BopPop");
  (4194, B "AxcExt");
  (4195, B "Dat");
  (4196, B "PlotGrowth");
  (4197, B "SIIndex");
  (4198, B "GelFrame");
  (4199, B "BopPopCustom");
  (4200, B "Fbi2")].
(** document/excel/records/CountryRecord.hpp:16-67 *)
Definition country_names : list (N * bytes) := [
  (1, B "United States");
  (2, B "Canada");
  (3, B "Latin America, except Brazil");
  (7, B "Russia");
  (20, B "Egypt");
  (30, B "Greece");
  (31, B "Netherlands");
  (32, B "Belgium");
  (33, B "France");
  (34, B "Spain");
  (36, B "Hungary");
  (39, B "Italy");
  (41, B "Switzerland");
  (43, B "Austria");
  (44, B "United Kingdom");
  (45, B "Denmark");
  (46, B "Sweden");
  (47, B "Norway");
  (48, B "Poland");
  (49, B "Germany");
  (52, B "Mexico");
  (55, B "Brazil");
  (61, B "Australia");
  (64, B "New Zealand");
  (66, B "Thailand");
  (81, B "Japan");
  (82, B "Korea");
  (84, B "Viet Nam");
  (86, B "People's Republic of China");
  (90, B "Turkey");
  (213, B "Algeria");
  (216, B "Morocco");
  (218, B "Libya");
  (351, B "Portugal");
  (354, B "Iceland");
  (358, B "Finland");
  (420, B "Czech Republic");
  (886, B "Taiwan");
  (961, B "Lebanon");
  (962, B "Jordan");
  (963, B "Syria");
  (964, B "Iraq");
  (965, B "Kuwait");
  (966, B "Saudi Arabia");
  (971, B "United Arab Emirates");
  (972, B "Israel");
  (974, B "Qatar");
  (981, B "Iran")].
(** document/excel/records/CodePageRecord.hpp:10-165 *)
Definition code_pages : list (N * bytes) := [
  (37, B "IBM EBCDIC US-Canada");
  (437, B "OEM United States");
  (500, B "IBM EBCDIC International");
  (708, B "Arabic (ASMO 708)");
  (709, B "Arabic (ASMO-449+, BCON V4)");
  (710, B "Arabic - Transparent Arabic");
  (720, B "Arabic (Transparent ASMO); Arabic (DOS)");
  (737, B "OEM Greek (formerly 437G); Greek (DOS)");
  (775, B "OEM Baltic; Baltic (DOS)");
  (850, B "OEM Multilingual Latin 1; Western European (DOS)");
  (852, B "OEM Latin 2; Central European (DOS)");
  (855, B "OEM Cyrillic (primarily Russian)");
  (857, B "OEM Turkish; Turkish (DOS)");
  (858, B "OEM Multilingual Latin 1 + Euro symbol");
  (860, B "OEM Portuguese; Portuguese (DOS)");
  (861, B "OEM Icelandic; Icelandic (DOS)");
  (862, B "OEM Hebrew; Hebrew (DOS)");
  (863, B "OEM French Canadian; French Canadian (DOS)");
  (864, B "OEM Arabic; Arabic (864)");
  (865, B "OEM Nordic; Nordic (DOS)");
  (866, B "OEM Russian; Cyrillic (DOS)");
  (869, B "OEM Modern Greek; Greek, Modern (DOS)");
  (870, B "IBM EBCDIC Multilingual/ROECE (Latin 2); IBM EBCDIC Multilingual Latin 2");
  (874, B "ANSI/OEM Thai (ISO 8859-11); Thai (Windows)");
  (875, B "IBM EBCDIC Greek Modern");
  (932, B "ANSI/OEM Japanese; Japanese (Shift-JIS)");
  (936, B "ANSI/OEM Simplified Chinese (PRC, Singapore); Chinese Simplified (GB2312)");
  (949, B "ANSI/OEM Korean (Unified Hangul Code)");
  (950, B "ANSI/OEM Traditional Chinese (Taiwan; Hong Kong SAR, PRC); Chinese Traditional (Big5)");
  (1026, B "IBM EBCDIC Turkish (Latin 5)");
  (1047, B "IBM EBCDIC Latin 1/Open System");
  (1140, B "IBM EBCDIC US-Canada (037 + Euro symbol); IBM EBCDIC (US-Canada-Euro)");
  (1141, B "IBM EBCDIC Germany (20273 + Euro symbol); IBM EBCDIC (Germany-Euro)");
  (1142, B "IBM EBCDIC Denmark-Norway (20277 + Euro symbol); IBM EBCDIC (Denmark-Norway-Euro)");
  (1143, B "IBM EBCDIC Finland-Sweden (20278 + Euro symbol); IBM EBCDIC (Finland-Sweden-Euro)");
  (1144, B "IBM EBCDIC Italy (20280 + Euro symbol); IBM EBCDIC (Italy-Euro)");
  (1145, B "IBM EBCDIC Latin America-Spain (20284 + Euro symbol); IBM EBCDIC (Spain-Euro)");
  (1146, B "IBM EBCDIC United Kingdom (20285 + Euro symbol); IBM EBCDIC (UK-Euro)");
  (1147, B "IBM EBCDIC France (20297 + Euro symbol); IBM EBCDIC (France-Euro)");
  (1148, B "IBM EBCDIC International (500 + Euro symbol); IBM EBCDIC (International-Euro)");
  (1149, B "IBM EBCDIC Icelandic (20871 + Euro symbol); IBM EBCDIC (Icelandic-Euro)");
  (1200, B "Unicode UTF-16, little endian byte order (BMP of ISO 10646)");
  (1201, B "Unicode UTF-16, big endian byte order");
  (1250, B "ANSI Central European; Central European (Windows)");
  (1251, B "ANSI Cyrillic; Cyrillic (Windows)");
  (1252, B "ANSI Latin 1; Western European (Windows)");
  (1253, B "ANSI Greek; Greek (Windows)");
  (1254, B "ANSI Turkish; Turkish (Windows)");
  (1255, B "ANSI Hebrew; Hebrew (Windows)");
  (1256, B "ANSI Arabic; Arabic (Windows)");
  (1257, B "ANSI Baltic; Baltic (Windows)");
  (1258, B "ANSI/OEM Vietnamese; Vietnamese (Windows)");
  (1361, B "Korean (Johab)");
  (10000, B "MAC Roman; Western European (Mac)");
  (10001, B "Japanese (Mac)");
  (10002, B "MAC Traditional Chinese (Big5); Chinese Traditional (Mac)");
  (10003, B "Korean (Mac)");
  (10004, B "Arabic (Mac)");
  (10005, B "Hebrew (Mac)");
  (10006, B "Greek (Mac)");
  (10007, B "Cyrillic (Mac)");
  (10008, B "MAC Simplified Chinese (GB 2312); Chinese Simplified (Mac)");
  (10010, B "Romanian (Mac)");
  (10017, B "Ukrainian (Mac)");
  (10021, B "Thai (Mac)");
  (10029, B "MAC Latin 2; Central European (Mac)");
  (10079, B "Icelandic (Mac)");
  (10081, B "Turkish (Mac)");
  (10082, B "Croatian (Mac)");
  (12000, B "Unicode UTF-32, little endian byte order; available only to managed applications");
  (12001, B "Unicode UTF-32, big endian byte order; available only to managed applications");
  (20000, B "CNS Taiwan; Chinese Traditional (CNS)");
  (20001, B "TCA Taiwan");
  (20002, B "Eten Taiwan; Chinese Traditional (Eten)");
  (20003, B "IBM5550 Taiwan");
  (20004, B "TeleText Taiwan");
  (20005, B "Wang Taiwan");
  (20105, B "IA5 (IRV International Alphabet No. 5, 7-bit); Western European (IA5)");
  (20106, B "IA5 German (7-bit)");
  (20107, B "IA5 Swedish (7-bit)");
  (20108, B "IA5 Norwegian (7-bit)");
  (20127, B "US-ASCII (7-bit)");
  (20261, B "T.61");
  (20269, B "ISO 6937 Non-Spacing Accent");
  (20273, B "IBM EBCDIC Germany");
  (20277, B "IBM EBCDIC Denmark-Norway");
  (20278, B "IBM EBCDIC Finland-Sweden");
  (20280, B "IBM EBCDIC Italy");
  (20284, B "IBM EBCDIC Latin America-Spain");
  (20285, B "IBM EBCDIC United Kingdom");
  (20290, B "IBM EBCDIC Japanese Katakana Extended");
  (20297, B "IBM EBCDIC France");
  (20420, B "IBM EBCDIC Arabic");
  (20423, B "IBM EBCDIC Greek");
  (20424, B "IBM EBCDIC Hebrew");
  (20833, B "IBM EBCDIC Korean Extended");
  (20838, B "IBM EBCDIC Thai");
  (20866, B "Russian (KOI8-R); Cyrillic (KOI8-R)");
  (20871, B "IBM EBCDIC Icelandic");
  (20880, B "IBM EBCDIC Cyrillic Russian");
  (20905, B "IBM EBCDIC Turkish");
  (20924, B "IBM EBCDIC Latin 1/Open System (1047 + Euro symbol)");
  (20932, B "Japanese (JIS 0208-1990 and 0212-1990)");
  (20936, B "Simplified Chinese (GB2312); Chinese Simplified (GB2312-80)");
  (20949, B "Korean Wansung");
  (21025, B "IBM EBCDIC Cyrillic Serbian-Bulgarian");
  (21027, B "(deprecated)");
  (21866, B "Ukrainian (KOI8-U); Cyrillic (KOI8-U)");
  (28591, B "ISO 8859-1 Latin 1; Western European (ISO)");
  (28592, B "ISO 8859-2 Central European; Central European (ISO)");
  (28593, B "ISO 8859-3 Latin 3");
  (28594, B "ISO 8859-4 Baltic");
  (28595, B "ISO 8859-5 Cyrillic");
  (28596, B "ISO 8859-6 Arabic");
  (28597, B "ISO 8859-7 Greek");
  (28598, B "ISO 8859-8 Hebrew; Hebrew (ISO-Visual)");
  (28599, B "ISO 8859-9 Turkish");
  (28603, B "ISO 8859-13 Estonian");
  (28605, B "ISO 8859-15 Latin 9");
  (29001, B "Europa 3");
  (38598, B "ISO 8859-8 Hebrew; Hebrew (ISO-Logical)");
  (50220, B "ISO 2022 Japanese with no halfwidth Katakana; Japanese (JIS)");
  (50221, B "ISO 2022 Japanese with halfwidth Katakana; Japanese (JIS-Allow 1 byte Kana)");
  (50222, B "ISO 2022 Japanese JIS X 0201-1989; Japanese (JIS-Allow 1 byte Kana - SO/SI)");
  (50225, B "ISO 2022 Korean");
  (50227, B "ISO 2022 Simplified Chinese; Chinese Simplified (ISO 2022)");
  (50229, B "ISO 2022 Traditional Chinese");
  (50930, B "EBCDIC Japanese (Katakana) Extended");
  (50931, B "EBCDIC US-Canada and Japanese");
  (50933, B "EBCDIC Korean Extended and Korean");
  (50935, B "EBCDIC Simplified Chinese Extended and Simplified Chinese");
  (50936, B "EBCDIC Simplified Chinese");
  (50937, B "EBCDIC US-Canada and Traditional Chinese");
  (50939, B "EBCDIC Japanese (Latin) Extended and Japanese");
  (51932, B "EUC Japanese");
  (51936, B "EUC Simplified Chinese; Chinese Simplified (EUC)");
  (51949, B "EUC Korean");
  (51950, B "EUC Traditional Chinese");
  (52936, B "HZ-GB2312 Simplified Chinese; Chinese Simplified (HZ)");
  (54936, B "Windows XP and later:?GB18030 Simplified Chinese (4 byte); Chinese Simplified (GB18030)");
  (57002, B "ISCII Devanagari");
  (57003, B "ISCII Bangla");
  (57004, B "ISCII Tamil");
  (57005, B "ISCII Telugu");
  (57006, B "ISCII Assamese");
  (57007, B "ISCII Odia");
  (57008, B "ISCII Kannada");
  (57009, B "ISCII Malayalam");
  (57010, B "ISCII Gujarati");
  (57011, B "ISCII Punjabi");
  (65000, B "Unicode (UTF-7)");
  (65001, B "Unicode (UTF-8)")].
(** document/excel/structures/formulas/helper.hpp:16-392 *)
Definition ftab_names : list (N * bytes) := [
  (0, B "COUNT");
  (1, B "IF");
  (2, B "ISNA");
  (3, B "ISERROR");
  (4, B "SUM");
  (5, B "AVERAGE");
  (6, B "MIN");
  (7, B "MAX");
  (8, B "ROW");
  (9, B "COLUMN");
  (10, B "NA");
  (11, B "NPV");
  (12, B "STDEV");
  (13, B "DOLLAR");
  (14, B "FIXED");
  (15, B "SIN");
  (16, B "COS");
  (17, B "TAN");
  (18, B "ATAN");
  (19, B "PI");
  (20, B "SQRT");
  (21, B "EXP");
  (22, B "LN");
  (23, B "LOG10");
  (24, B "ABS");
  (25, B "INT");
  (26, B "SIGN");
  (27, B "ROUND");
  (28, B "LOOKUP");
  (29, B "INDEX");
  (30, B "REPT");
  (31, B "MID");
  (32, B "LEN");
  (33, B "VALUE");
  (34, B "TRUE");
  (35, B "FALSE");
  (36, B "AND");
  (37, B "OR");
  (38, B "NOT");
  (39, B "MOD");
  (40, B "DCOUNT");
  (41, B "DSUM");
  (42, B "DAVERAGE");
  (43, B "DMIN");
  (44, B "DMAX");
  (45, B "DSTDEV");
  (46, B "VAR");
  (47, B "DVAR");
  (48, B "TEXT");
  (49, B "LINEST");
  (50, B "TREND");
  (51, B "LOGEST");
  (52, B "GROWTH");
  (53, B "GOTO");
  (54, B "HALT");
  (55, B "RETURN");
  (56, B "PV");
  (57, B "FV");
  (58, B "NPER");
  (59, B "PMT");
  (60, B "RATE");
  (61, B "MIRR");
  (62, B "IRR");
  (63, B "RAND");
  (64, B "MATCH");
  (65, B "DATE");
  (66, B "TIME");
  (67, B "DAY");
  (68, B "MONTH");
  (69, B "YEAR");
  (70, B "WEEKDAY");
  (71, B "HOUR");
  (72, B "MINUTE");
  (73, B "SECOND");
  (74, B "NOW");
  (75, B "AREAS");
  (76, B "ROWS");
  (77, B "COLUMNS");
  (78, B "OFFSET");
  (79, B "ABSREF");
  (80, B "RELREF");
  (81, B "ARGUMENT");
  (82, B "SEARCH");
  (83, B "TRANSPOSE");
  (84, B "ERROR");
  (85, B "STEP");
  (86, B "TYPE");
  (87, B "ECHO");
  (88, B "SET.NAME");
  (89, B "CALLER");
  (90, B "DEREF");
  (91, B "WINDOWS");
  (92, B "SERIES");
  (93, B "DOCUMENTS");
  (94, B "ACTIVE.CELL");
  (95, B "SELECTION");
  (96, B "RESULT");
  (97, B "ATAN2");
  (98, B "ASIN");
  (99, B "ACOS");
  (100, B "CHOOSE");
  (101, B "HLOOKUP");
  (102, B "VLOOKUP");
  (103, B "LINKS");
  (104, B "INPUT");
  (105, B "ISREF");
  (106, B "GET.FORMULA");
  (107, B "GET.NAME");
  (108, B "SET.VALUE");
  (109, B "LOG");
  (110, B "EXEC");
  (111, B "CHAR");
  (112, B "LOWER");
  (113, B "UPPER");
  (114, B "PROPER");
  (115, B "LEFT");
  (116, B "RIGHT");
  (117, B "EXACT");
  (118, B "TRIM");
  (119, B "REPLACE");
  (120, B "SUBSTITUTE");
  (121, B "CODE");
  (122, B "NAMES");
  (123, B "DIRECTORY");
  (124, B "FIND");
  (125, B "CELL");
  (126, B "ISERR");
  (127, B "ISTEXT");
  (128, B "ISNUMBER");
  (129, B "ISBLANK");
  (130, B "T");
  (131, B "N");
  (132, B "FOPEN");
  (133, B "FCLOSE");
  (134, B "FSIZE");
  (135, B "FREADLN");
  (136, B "FREAD");
  (137, B "FWRITELN");
  (138, B "FWRITE");
  (139, B "FPOS");
  (140, B "DATEVALUE");
  (141, B "TIMEVALUE");
  (142, B "SLN");
  (143, B "SYD");
  (144, B "DDB");
  (145, B "GET.DEF");
  (146, B "REFTEXT");
  (147, B "TEXTREF");
  (148, B "INDIRECT");
  (149, B "REGISTER");
  (150, B "CALL");
  (151, B "ADD.BAR");
  (152, B "ADD.MENU");
  (153, B "ADD.COMMAND");
  (154, B "ENABLE.COMMAND");
  (155, B "CHECK.COMMAND");
  (156, B "RENAME.COMMAND");
  (157, B "SHOW.BAR");
  (158, B "DELETE.MENU");
  (159, B "DELETE.COMMAND");
  (160, B "GET.CHART.ITEM");
  (161, B "DIALOG.BOX");
  (162, B "CLEAN");
  (163, B "MDETERM");
  (164, B "MINVERSE");
  (165, B "MMULT");
  (166, B "FILES");
  (167, B "IPMT");
  (168, B "PPMT");
  (169, B "COUNTA");
  (170, B "CANCEL.KEY");
  (171, B "FOR");
  (172, B "WHILE");
  (173, B "BREAK");
  (174, B "NEXT");
  (175, B "INITIATE");
  (176, B "REQUEST");
  (177, B "POKE");
  (178, B "EXECUTE");
  (179, B "TERMINATE");
  (180, B "RESTART");
  (181, B "HELP");
  (182, B "GET.BAR");
  (183, B "PRODUCT");
  (184, B "FACT");
  (185, B "GET.CELL");
  (186, B "GET.WORKSPACE");
  (187, B "GET.WINDOW");
  (188, B "GET.DOCUMENT");
  (189, B "DPRODUCT");
  (190, B "ISNONTEXT");
  (191, B "GET.NOTE");
  (192, B "NOTE");
  (193, B "STDEVP");
  (194, B "VARP");
  (195, B "DSTDEVP");
  (196, B "DVARP");
  (197, B "TRUNC");
  (198, B "ISLOGICAL");
  (199, B "DCOUNTA");
  (200, B "DELETE.BAR");
  (201, B "UNREGISTER");
  (204, B "USDOLLAR");
  (205, B "FINDB");
  (206, B "SEARCHB");
  (207, B "REPLACEB");
  (208, B "LEFTB");
  (209, B "RIGHTB");
  (210, B "MIDB");
  (211, B "LENB");
  (212, B "ROUNDUP");
  (213, B "ROUNDDOWN");
  (214, B "ASC");
  (215, B "DBCS");
  (216, B "RANK");
  (219, B "ADDRESS");
  (220, B "DAYS360");
  (221, B "TODAY");
  (222, B "VDB");
  (223, B "ELSE");
  (224, B "ELSE.IF");
  (225, B "END.IF");
  (226, B "FOR.CELL");
  (227, B "MEDIAN");
  (228, B "SUMPRODUCT");
  (229, B "SINH");
  (230, B "COSH");
  (231, B "TANH");
  (232, B "ASINH");
  (233, B "ACOSH");
  (234, B "ATANH");
  (235, B "DGET");
  (236, B "CREATE.OBJECT");
  (237, B "VOLATILE");
  (238, B "LAST.ERROR");
  (239, B "CUSTOM.UNDO");
  (240, B "CUSTOM.REPEAT");
  (241, B "FORMULA.CONVERT");
  (242, B "GET.LINK.INFO");
  (243, B "TEXT.BOX");
  (244, B "INFO");
  (245, B "GROUP");
  (246, B "GET.OBJECT");
  (247, B "DB");
  (248, B "PAUSE");
  (251, B "RESUME");
  (252, B "FREQUENCY");
  (253, B "ADD.TOOLBAR");
  (254, B "DELETE.TOOLBAR");
  (255, B "User Defined Function");
  (256, B "RESET.TOOLBAR");
  (257, B "EVALUATE");
  (258, B "GET.TOOLBAR");
  (259, B "GET.TOOL");
  (260, B "SPELLING.CHECK");
  (261, B "ERROR.TYPE");
  (262, B "APP.TITLE");
  (263, B "WINDOW.TITLE");
  (264, B "SAVE.TOOLBAR");
  (265, B "ENABLE.TOOL");
  (266, B "PRESS.TOOL");
  (267, B "REGISTER.ID");
  (268, B "GET.WORKBOOK");
  (269, B "AVEDEV");
  (270, B "BETADIST");
  (271, B "GAMMALN");
  (272, B "BETAINV");
  (273, B "BINOMDIST");
  (274, B "CHIDIST");
  (275, B "CHIINV");
  (276, B "COMBIN");
  (277, B "CONFIDENCE");
  (278, B "CRITBINOM");
  (279, B "EVEN");
  (280, B "EXPONDIST");
  (281, B "FDIST");
  (282, B "FINV");
  (283, B "FISHER");
  (284, B "FISHERINV");
  (285, B "FLOOR");
  (286, B "GAMMADIST");
  (287, B "GAMMAINV");
  (288, B "CEILING");
  (289, B "HYPGEOMDIST");
  (290, B "LOGNORMDIST");
  (291, B "LOGINV");
  (292, B "NEGBINOMDIST");
  (293, B "NORMDIST");
  (294, B "NORMSDIST");
  (295, B "NORMINV");
  (296, B "NORMSINV");
  (297, B "STANDARDIZE");
  (298, B "ODD");
  (299, B "PERMUT");
  (300, B "POISSON");
  (301, B "TDIST");
  (302, B "WEIBULL");
  (303, B "SUMXMY2");
  (304, B "SUMX2MY2");
  (305, B "SUMX2PY2");
  (306, B "CHITEST");
  (307, B "CORREL");
  (308, B "COVAR");
  (309, B "FORECAST");
  (310, B "FTEST");
  (311, B "INTERCEPT");
  (312, B "PEARSON");
  (313, B "RSQ");
  (314, B "STEYX");
  (315, B "SLOPE");
  (316, B "TTEST");
  (317, B "PROB");
  (318, B "DEVSQ");
  (319, B "GEOMEAN");
  (320, B "HARMEAN");
  (321, B "SUMSQ");
  (322, B "KURT");
  (323, B "SKEW");
  (324, B "ZTEST");
  (325, B "LARGE");
  (326, B "SMALL");
  (327, B "QUARTILE");
  (328, B "PERCENTILE");
  (329, B "PERCENTRANK");
  (330, B "MODE");
  (331, B "TRIMMEAN");
  (332, B "TINV");
  (334, B "MOVIE.COMMAND");
  (335, B "GET.MOVIE");
  (336, B "CONCATENATE");
  (337, B "POWER");
  (338, B "PIVOT.ADD.DATA");
  (339, B "GET.PIVOT.TABLE");
  (340, B "GET.PIVOT.FIELD");
  (341, B "GET.PIVOT.ITEM");
  (342, B "RADIANS");
  (343, B "DEGREES");
  (344, B "SUBTOTAL");
  (345, B "SUMIF");
  (346, B "COUNTIF");
  (347, B "COUNTBLANK");
  (348, B "SCENARIO.GET");
  (349, B "OPTIONS.LISTS.GET");
  (350, B "ISPMT");
  (351, B "DATEDIF");
  (352, B "DATESTRING");
  (353, B "NUMBERSTRING");
  (354, B "ROMAN");
  (355, B "OPEN.DIALOG");
  (356, B "SAVE.DIALOG");
  (357, B "VIEW.GET");
  (358, B "GETPIVOTDATA");
  (359, B "HYPERLINK");
  (360, B "PHONETIC");
  (361, B "AVERAGEA");
  (362, B "MAXA");
  (363, B "MINA");
  (364, B "STDEVPA");
  (365, B "VARPA");
  (366, B "STDEVA");
  (367, B "VARA");
  (368, B "BAHTTEXT");
  (369, B "THAIDAYOFWEEK");
  (370, B "THAIDIGIT");
  (371, B "THAIMONTHOFYEAR");
  (372, B "THAINUMSOUND");
  (373, B "THAINUMSTRING");
  (374, B "THAISTRINGLENGTH");
  (375, B "ISTHAIDIGIT");
  (376, B "ROUNDBAHTDOWN");
  (377, B "ROUNDBAHTUP");
  (378, B "THAIYEAR");
  (379, B "RTD")].
(** document/excel/structures/formulas/helper.hpp:403-802 *)
Definition cetab_names : list (N * bytes) := [
  (0, B "BEEP");
  (1, B "OPEN");
  (2, B "OPEN.LINKS");
  (3, B "CLOSE.ALL");
  (4, B "SAVE");
  (5, B "SAVE.AS");
  (6, B "FILE.DELETE");
  (7, B "PAGE.SETUP");
  (8, B "PRINT");
  (9, B "PRINTER.SETUP");
  (10, B "QUIT");
  (11, B "NEW.WINDOW");
  (12, B "ARRANGE.ALL");
  (13, B "WINDOW.SIZE");
  (14, B "WINDOW.MOVE");
  (15, B "FULL");
  (16, B "CLOSE");
  (17, B "RUN");
  (22, B "SET.PRINT.AREA");
  (23, B "SET.PRINT.TITLES");
  (24, B "SET.PAGE.BREAK");
  (25, B "REMOVE.PAGE.BREAK");
  (26, B "FONT");
  (27, B "DISPLAY");
  (28, B "PROTECT.DOCUMENT");
  (29, B "PRECISION");
  (30, B "A1.R1C1");
  (31, B "CALCULATE.NOW");
  (32, B "CALCULATION");
  (34, B "DATA.FIND");
  (35, B "EXTRACT");
  (36, B "DATA.DELETE");
  (37, B "SET.DATABASE");
  (38, B "SET.CRITERIA");
  (39, B "SORT");
  (40, B "DATA.SERIES");
  (41, B "TABLE");
  (42, B "FORMAT.NUMBER");
  (43, B "ALIGNMENT");
  (44, B "STYLE");
  (45, B "BORDER");
  (46, B "CELL.PROTECTION");
  (47, B "COLUMN.WIDTH");
  (48, B "UNDO");
  (49, B "CUT");
  (50, B "COPY");
  (51, B "PASTE");
  (52, B "CLEAR");
  (53, B "PASTE.SPECIAL");
  (54, B "EDIT.DELETE");
  (55, B "INSERT");
  (56, B "FILL.RIGHT");
  (57, B "FILL.DOWN");
  (61, B "DEFINE.NAME");
  (62, B "CREATE.NAMES");
  (63, B "FORMULA.GOTO");
  (64, B "FORMULA.FIND");
  (65, B "SELECT.LAST.CELL");
  (66, B "SHOW.ACTIVE.CELL");
  (67, B "GALLERY.AREA");
  (68, B "GALLERY.BAR");
  (69, B "GALLERY.COLUMN");
  (70, B "GALLERY.LINE");
  (71, B "GALLERY.PIE");
  (72, B "GALLERY.SCATTER");
  (73, B "COMBINATION");
  (74, B "PREFERRED");
  (75, B "ADD.OVERLAY");
  (76, B "GRIDLINES");
  (77, B "SET.PREFERRED");
  (78, B "AXES");
  (79, B "LEGEND");
  (80, B "ATTACH.TEXT");
  (81, B "ADD.ARROW");
  (82, B "SELECT.CHART");
  (83, B "SELECT.PLOT.AREA");
  (84, B "PATTERNS");
  (85, B "MAIN.CHART");
  (86, B "OVERLAY");
  (87, B "SCALE");
  (88, B "FORMAT.LEGEND");
  (89, B "FORMAT.TEXT");
  (90, B "EDIT.REPEAT");
  (91, B "PARSE");
  (92, B "JUSTIFY");
  (93, B "HIDE");
  (94, B "UNHIDE");
  (95, B "WORKSPACE");
  (96, B "FORMULA");
  (97, B "FORMULA.FILL");
  (98, B "FORMULA.ARRAY");
  (99, B "DATA.FIND.NEXT");
  (100, B "DATA.FIND.PREV");
  (101, B "FORMULA.FIND.NEXT");
  (102, B "FORMULA.FIND.PREV");
  (103, B "ACTIVATE");
  (104, B "ACTIVATE.NEXT");
  (105, B "ACTIVATE.PREV");
  (106, B "UNLOCKED.NEXT");
  (107, B "UNLOCKED.PREV");
  (108, B "COPY.PICTURE");
  (109, B "SELECT");
  (110, B "DELETE.NAME");
  (111, B "DELETE.FORMAT");
  (112, B "VLINE");
  (113, B "HLINE");
  (114, B "VPAGE");
  (115, B "HPAGE");
  (116, B "VSCROLL");
  (117, B "HSCROLL");
  (118, B "ALERT");
  (119, B "NEW");
  (120, B "CANCEL.COPY");
  (121, B "SHOW.CLIPBOARD");
  (122, B "MESSAGE");
  (124, B "PASTE.LINK");
  (125, B "APP.ACTIVATE");
  (126, B "DELETE.ARROW");
  (127, B "ROW.HEIGHT");
  (128, B "FORMAT.MOVE");
  (129, B "FORMAT.SIZE");
  (130, B "FORMULA.REPLACE");
  (131, B "SEND.KEYS");
  (132, B "SELECT.SPECIAL");
  (133, B "APPLY.NAMES");
  (134, B "REPLACE.FONT");
  (135, B "FREEZE.PANES");
  (136, B "SHOW.INFO");
  (137, B "SPLIT");
  (138, B "ON.WINDOW");
  (139, B "ON.DATA");
  (140, B "DISABLE.INPUT");
  (142, B "OUTLINE");
  (143, B "LIST.NAMES");
  (144, B "FILE.CLOSE");
  (145, B "SAVE.WORKBOOK");
  (146, B "DATA.FORM");
  (147, B "COPY.CHART");
  (148, B "ON.TIME");
  (149, B "WAIT");
  (150, B "FORMAT.FONT");
  (151, B "FILL.UP");
  (152, B "FILL.LEFT");
  (153, B "DELETE.OVERLAY");
  (155, B "SHORT.MENUS");
  (159, B "SET.UPDATE.STATUS");
  (161, B "COLOR.PALETTE");
  (162, B "DELETE.STYLE");
  (163, B "WINDOW.RESTORE");
  (164, B "WINDOW.MAXIMIZE");
  (166, B "CHANGE.LINK");
  (167, B "CALCULATE.DOCUMENT");
  (168, B "ON.KEY");
  (169, B "APP.RESTORE");
  (170, B "APP.MOVE");
  (171, B "APP.SIZE");
  (172, B "APP.MINIMIZE");
  (173, B "APP.MAXIMIZE");
  (174, B "BRING.TO.FRONT");
  (175, B "SEND.TO.BACK");
  (185, B "MAIN.CHART.TYPE");
  (186, B "OVERLAY.CHART.TYPE");
  (187, B "SELECT.END");
  (188, B "OPEN.MAIL");
  (189, B "SEND.MAIL");
  (190, B "STANDARD.FONT");
  (191, B "CONSOLIDATE");
  (192, B "SORT.SPECIAL");
  (193, B "GALLERY.3D.AREA");
  (194, B "GALLERY.3D.COLUMN");
  (195, B "GALLERY.3D.LINE");
  (196, B "GALLERY.3D.PIE");
  (197, B "VIEW.3D");
  (198, B "GOAL.SEEK");
  (199, B "WORKGROUP");
  (200, B "FILL.GROUP");
  (201, B "UPDATE.LINK");
  (202, B "PROMOTE");
  (203, B "DEMOTE");
  (204, B "SHOW.DETAIL");
  (206, B "UNGROUP");
  (207, B "OBJECT.PROPERTIES");
  (208, B "SAVE.NEW.OBJECT");
  (209, B "SHARE");
  (210, B "SHARE.NAME");
  (211, B "DUPLICATE");
  (212, B "APPLY.STYLE");
  (213, B "ASSIGN.TO.OBJECT");
  (214, B "OBJECT.PROTECTION");
  (215, B "HIDE.OBJECT");
  (216, B "SET.EXTRACT");
  (217, B "CREATE.PUBLISHER");
  (218, B "SUBSCRIBE.TO");
  (219, B "ATTRIBUTES");
  (220, B "SHOW.TOOLBAR");
  (222, B "PRINT.PREVIEW");
  (223, B "EDIT.COLOR");
  (224, B "SHOW.LEVELS");
  (225, B "FORMAT.MAIN");
  (226, B "FORMAT.OVERLAY");
  (227, B "ON.RECALC");
  (228, B "EDIT.SERIES");
  (229, B "DEFINE.STYLE");
  (240, B "LINE.PRINT");
  (243, B "ENTER.DATA");
  (249, B "GALLERY.RADAR");
  (250, B "MERGE.STYLES");
  (251, B "EDITION.OPTIONS");
  (252, B "PASTE.PICTURE");
  (253, B "PASTE.PICTURE.LINK");
  (254, B "SPELLING");
  (256, B "ZOOM");
  (259, B "INSERT.OBJECT");
  (260, B "WINDOW.MINIMIZE");
  (265, B "SOUND.NOTE");
  (266, B "SOUND.PLAY");
  (267, B "FORMAT.SHAPE");
  (268, B "EXTEND.POLYGON");
  (269, B "FORMAT.AUTO");
  (272, B "GALLERY.3D.BAR");
  (273, B "GALLERY.3D.SURFACE");
  (274, B "FILL.AUTO");
  (276, B "CUSTOMIZE.TOOLBAR");
  (277, B "ADD.TOOL");
  (278, B "EDIT.OBJECT");
  (279, B "ON.DOUBLECLICK");
  (280, B "ON.ENTRY");
  (281, B "WORKBOOK.ADD");
  (282, B "WORKBOOK.MOVE");
  (283, B "WORKBOOK.COPY");
  (284, B "WORKBOOK.OPTIONS");
  (285, B "SAVE.WORKSPACE");
  (288, B "CHART.WIZARD");
  (289, B "DELETE.TOOL");
  (290, B "MOVE.TOOL");
  (291, B "WORKBOOK.SELECT");
  (292, B "WORKBOOK.ACTIVATE");
  (293, B "ASSIGN.TO.TOOL");
  (295, B "COPY.TOOL");
  (296, B "RESET.TOOL");
  (297, B "CONSTRAIN.NUMERIC");
  (298, B "PASTE.TOOL");
  (302, B "WORKBOOK.NEW");
  (305, B "SCENARIO.CELLS");
  (306, B "SCENARIO.DELETE");
  (307, B "SCENARIO.ADD");
  (308, B "SCENARIO.EDIT");
  (309, B "SCENARIO.SHOW");
  (310, B "SCENARIO.SHOW.NEXT");
  (311, B "SCENARIO.SUMMARY");
  (312, B "PIVOT.TABLE.WIZARD");
  (313, B "PIVOT.FIELD.PROPERTIES");
  (314, B "PIVOT.FIELD");
  (315, B "PIVOT.ITEM");
  (316, B "PIVOT.ADD.FIELDS");
  (318, B "OPTIONS.CALCULATION");
  (319, B "OPTIONS.EDIT");
  (320, B "OPTIONS.VIEW");
  (321, B "ADDIN.MANAGER");
  (322, B "MENU.EDITOR");
  (323, B "ATTACH.TOOLBARS");
  (324, B "VBAActivate");
  (325, B "OPTIONS.CHART");
  (328, B "VBA.INSERT.FILE");
  (330, B "VBA.PROCEDURE.DEFINITION");
  (336, B "ROUTING.SLIP");
  (338, B "ROUTE.DOCUMENT");
  (339, B "MAIL.LOGON");
  (342, B "INSERT.PICTURE");
  (343, B "EDIT.TOOL");
  (344, B "GALLERY.DOUGHNUT");
  (350, B "CHART.TREND");
  (352, B "PIVOT.ITEM.PROPERTIES");
  (354, B "WORKBOOK.INSERT");
  (355, B "OPTIONS.TRANSITION");
  (356, B "OPTIONS.GENERAL");
  (370, B "FILTER.ADVANCED");
  (373, B "MAIL.ADD.MAILER");
  (374, B "MAIL.DELETE.MAILER");
  (375, B "MAIL.REPLY");
  (376, B "MAIL.REPLY.ALL");
  (377, B "MAIL.FORWARD");
  (378, B "MAIL.NEXT.LETTER");
  (379, B "DATA.LABEL");
  (380, B "INSERT.TITLE");
  (381, B "FONT.PROPERTIES");
  (382, B "MACRO.OPTIONS");
  (383, B "WORKBOOK.HIDE");
  (384, B "WORKBOOK.UNHIDE");
  (385, B "WORKBOOK.DELETE");
  (386, B "WORKBOOK.NAME");
  (388, B "GALLERY.CUSTOM");
  (390, B "ADD.CHART.AUTOFORMAT");
  (391, B "DELETE.CHART.AUTOFORMAT");
  (392, B "CHART.ADD.DATA");
  (393, B "AUTO.OUTLINE");
  (394, B "TAB.ORDER");
  (395, B "SHOW.DIALOG");
  (396, B "SELECT.ALL");
  (397, B "UNGROUP.SHEETS");
  (398, B "SUBTOTAL.CREATE");
  (399, B "SUBTOTAL.REMOVE");
  (400, B "RENAME.OBJECT");
  (412, B "WORKBOOK.SCROLL");
  (413, B "WORKBOOK.NEXT");
  (414, B "WORKBOOK.PREV");
  (415, B "WORKBOOK.TAB.SPLIT");
  (416, B "FULL.SCREEN");
  (417, B "WORKBOOK.PROTECT");
  (420, B "SCROLLBAR.PROPERTIES");
  (421, B "PIVOT.SHOW.PAGES");
  (422, B "TEXT.TO.COLUMNS");
  (423, B "FORMAT.CHARTTYPE");
  (424, B "LINK.FORMAT");
  (425, B "TRACER.DISPLAY");
  (430, B "TRACER.NAVIGATE");
  (431, B "TRACER.CLEAR");
  (432, B "TRACER.ERROR");
  (433, B "PIVOT.FIELD.GROUP");
  (434, B "PIVOT.FIELD.UNGROUP");
  (435, B "CHECKBOX.PROPERTIES");
  (436, B "LABEL.PROPERTIES");
  (437, B "LISTBOX.PROPERTIES");
  (438, B "EDITBOX.PROPERTIES");
  (439, B "PIVOT.REFRESH");
  (440, B "LINK.COMBO");
  (441, B "OPEN.TEXT");
  (442, B "HIDE.DIALOG");
  (443, B "SET.DIALOG.FOCUS");
  (444, B "ENABLE.OBJECT");
  (445, B "PUSHBUTTON.PROPERTIES");
  (446, B "SET.DIALOG.DEFAULT");
  (447, B "FILTER");
  (448, B "FILTER.SHOW.ALL");
  (449, B "CLEAR.OUTLINE");
  (450, B "FUNCTION.WIZARD");
  (451, B "ADD.LIST.ITEM");
  (452, B "SET.LIST.ITEM");
  (453, B "REMOVE.LIST.ITEM");
  (454, B "SELECT.LIST.ITEM");
  (455, B "SET.CONTROL.VALUE");
  (456, B "SAVE.COPY.AS");
  (458, B "OPTIONS.LISTS.ADD");
  (459, B "OPTIONS.LISTS.DELETE");
  (460, B "SERIES.AXES");
  (461, B "SERIES.X");
  (462, B "SERIES.Y");
  (463, B "ERRORBAR.X");
  (464, B "ERRORBAR.Y");
  (465, B "FORMAT.CHART");
  (466, B "SERIES.ORDER");
  (467, B "MAIL.LOGOFF");
  (468, B "CLEAR.ROUTING.SLIP");
  (469, B "APP.ACTIVATE.MICROSOFT");
  (470, B "MAIL.EDIT.MAILER");
  (471, B "ON.SHEET");
  (472, B "STANDARD.WIDTH");
  (473, B "SCENARIO.MERGE");
  (474, B "SUMMARY.INFO");
  (475, B "FIND.FILE");
  (476, B "ACTIVE.CELL.FONT");
  (477, B "ENABLE.TIPWIZARD");
  (478, B "VBA.MAKE.ADDIN");
  (480, B "INSERTDATATABLE");
  (481, B "WORKGROUP.OPTIONS");
  (482, B "MAIL.SEND.MAILER");
  (485, B "AUTOCORRECT");
  (489, B "POST.DOCUMENT");
  (491, B "PICKLIST");
  (493, B "VIEW.SHOW");
  (494, B "VIEW.DEFINE");
  (495, B "VIEW.DELETE");
  (509, B "SHEET.BACKGROUND");
  (510, B "INSERT.MAP.OBJECT");
  (511, B "OPTIONS.MENONO");
  (517, B "MSOCHECKS");
  (518, B "NORMAL");
  (519, B "LAYOUT");
  (520, B "RM.PRINT.AREA");
  (521, B "CLEAR.PRINT.AREA");
  (522, B "ADD.PRINT.AREA");
  (523, B "MOVE.BRK");
  (545, B "HIDECURR.NOTE");
  (546, B "HIDEALL.NOTES");
  (547, B "DELETE.NOTE");
  (548, B "TRAVERSE.NOTES");
  (549, B "ACTIVATE.NOTES");
  (620, B "PROTECT.REVISIONS");
  (621, B "UNPROTECT.REVISIONS");
  (647, B "OPTIONS.ME");
  (653, B "WEB.PUBLISH");
  (667, B "NEWWEBQUERY");
  (673, B "PIVOT.TABLE.CHART");
  (753, B "OPTIONS.SAVE");
  (755, B "OPTIONS.SPELL");
  (808, B "HIDEALL.INKANNOTS")].
(** document/excel/records/BOFRecord.hpp:56-65 *)
Definition bof_types : list (N * bytes) := [
  (5, B "Globals");
  (6, B "VB Module");
  (16, B "Sheet");
  (32, B "Chart");
  (64, B "Macro");
  (256, B "Workspace")].
