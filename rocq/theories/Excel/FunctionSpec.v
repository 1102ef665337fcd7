(** The functions of formulas by number: [MS-XLS] 2.5.198.17 (Ftab).  Independent of the model; the
    names are in runs of consecutive numbers. *)
From Coq Require Import List NArith Bool Strings.String.
From Verif Require Import Lib.Bytes Lib.Text.
Import ListNotations.
Local Open Scope N_scope.
Local Open Scope string_scope.

Definition function_runs : list (N * list string) := [
  (0, ["COUNT"; "IF"; "ISNA"; "ISERROR"; "SUM"; "AVERAGE"; "MIN"; "MAX"; "ROW"; "COLUMN"; "NA"; "NPV"; "STDEV";
    "DOLLAR"; "FIXED"; "SIN"; "COS"; "TAN"; "ATAN"; "PI"; "SQRT"; "EXP"; "LN"; "LOG10"; "ABS"; "INT"; "SIGN";
    "ROUND"; "LOOKUP"; "INDEX"; "REPT"; "MID"; "LEN"; "VALUE"; "TRUE"; "FALSE"; "AND"; "OR"; "NOT"; "MOD";
    "DCOUNT"; "DSUM"; "DAVERAGE"; "DMIN"; "DMAX"; "DSTDEV"; "VAR"; "DVAR"; "TEXT"; "LINEST"; "TREND"; "LOGEST";
    "GROWTH"; "GOTO"; "HALT"; "RETURN"; "PV"; "FV"; "NPER"; "PMT"; "RATE"; "MIRR"; "IRR"; "RAND"; "MATCH";
    "DATE"; "TIME"; "DAY"; "MONTH"; "YEAR"; "WEEKDAY"; "HOUR"; "MINUTE"; "SECOND"; "NOW"; "AREAS"; "ROWS";
    "COLUMNS"; "OFFSET"; "ABSREF"; "RELREF"; "ARGUMENT"; "SEARCH"; "TRANSPOSE"; "ERROR"; "STEP"; "TYPE";
    "ECHO"; "SET.NAME"; "CALLER"; "DEREF"; "WINDOWS"; "SERIES"; "DOCUMENTS"; "ACTIVE.CELL"; "SELECTION";
    "RESULT"; "ATAN2"; "ASIN"; "ACOS"; "CHOOSE"; "HLOOKUP"; "VLOOKUP"; "LINKS"; "INPUT"; "ISREF";
    "GET.FORMULA"; "GET.NAME"; "SET.VALUE"; "LOG"; "EXEC"; "CHAR"; "LOWER"; "UPPER"; "PROPER"; "LEFT"; "RIGHT";
    "EXACT"; "TRIM"; "REPLACE"; "SUBSTITUTE"; "CODE"; "NAMES"; "DIRECTORY"; "FIND"; "CELL"; "ISERR"; "ISTEXT";
    "ISNUMBER"; "ISBLANK"; "T"; "N"; "FOPEN"; "FCLOSE"; "FSIZE"; "FREADLN"; "FREAD"; "FWRITELN"; "FWRITE";
    "FPOS"; "DATEVALUE"; "TIMEVALUE"; "SLN"; "SYD"; "DDB"; "GET.DEF"; "REFTEXT"; "TEXTREF"; "INDIRECT";
    "REGISTER"; "CALL"; "ADD.BAR"; "ADD.MENU"; "ADD.COMMAND"; "ENABLE.COMMAND"; "CHECK.COMMAND";
    "RENAME.COMMAND"; "SHOW.BAR"; "DELETE.MENU"; "DELETE.COMMAND"; "GET.CHART.ITEM"; "DIALOG.BOX"; "CLEAN";
    "MDETERM"; "MINVERSE"; "MMULT"; "FILES"; "IPMT"; "PPMT"; "COUNTA"; "CANCEL.KEY"; "FOR"; "WHILE"; "BREAK";
    "NEXT"; "INITIATE"; "REQUEST"; "POKE"; "EXECUTE"; "TERMINATE"; "RESTART"; "HELP"; "GET.BAR"; "PRODUCT";
    "FACT"; "GET.CELL"; "GET.WORKSPACE"; "GET.WINDOW"; "GET.DOCUMENT"; "DPRODUCT"; "ISNONTEXT"; "GET.NOTE";
    "NOTE"; "STDEVP"; "VARP"; "DSTDEVP"; "DVARP"; "TRUNC"; "ISLOGICAL"; "DCOUNTA"; "DELETE.BAR"; "UNREGISTER"]);
  (204, ["USDOLLAR"; "FINDB"; "SEARCHB"; "REPLACEB"; "LEFTB"; "RIGHTB"; "MIDB"; "LENB"; "ROUNDUP"; "ROUNDDOWN";
    "ASC"; "DBCS"; "RANK"]);
  (219, ["ADDRESS"; "DAYS360"; "TODAY"; "VDB"; "ELSE"; "ELSE.IF"; "END.IF"; "FOR.CELL"; "MEDIAN"; "SUMPRODUCT";
    "SINH"; "COSH"; "TANH"; "ASINH"; "ACOSH"; "ATANH"; "DGET"; "CREATE.OBJECT"; "VOLATILE"; "LAST.ERROR";
    "CUSTOM.UNDO"; "CUSTOM.REPEAT"; "FORMULA.CONVERT"; "GET.LINK.INFO"; "TEXT.BOX"; "INFO"; "GROUP";
    "GET.OBJECT"; "DB"; "PAUSE"]);
  (251, ["RESUME"; "FREQUENCY"; "ADD.TOOLBAR"; "DELETE.TOOLBAR"]);
  (256, ["RESET.TOOLBAR"; "EVALUATE"; "GET.TOOLBAR"; "GET.TOOL"; "SPELLING.CHECK"; "ERROR.TYPE"; "APP.TITLE";
    "WINDOW.TITLE"; "SAVE.TOOLBAR"; "ENABLE.TOOL"; "PRESS.TOOL"; "REGISTER.ID"; "GET.WORKBOOK"; "AVEDEV";
    "BETADIST"; "GAMMALN"; "BETAINV"; "BINOMDIST"; "CHIDIST"; "CHIINV"; "COMBIN"; "CONFIDENCE"; "CRITBINOM";
    "EVEN"; "EXPONDIST"; "FDIST"; "FINV"; "FISHER"; "FISHERINV"; "FLOOR"; "GAMMADIST"; "GAMMAINV"; "CEILING";
    "HYPGEOMDIST"; "LOGNORMDIST"; "LOGINV"; "NEGBINOMDIST"; "NORMDIST"; "NORMSDIST"; "NORMINV"; "NORMSINV";
    "STANDARDIZE"; "ODD"; "PERMUT"; "POISSON"; "TDIST"; "WEIBULL"; "SUMXMY2"; "SUMX2MY2"; "SUMX2PY2";
    "CHITEST"; "CORREL"; "COVAR"; "FORECAST"; "FTEST"; "INTERCEPT"; "PEARSON"; "RSQ"; "STEYX"; "SLOPE";
    "TTEST"; "PROB"; "DEVSQ"; "GEOMEAN"; "HARMEAN"; "SUMSQ"; "KURT"; "SKEW"; "ZTEST"; "LARGE"; "SMALL";
    "QUARTILE"; "PERCENTILE"; "PERCENTRANK"; "MODE"; "TRIMMEAN"; "TINV"]);
  (334, ["MOVIE.COMMAND"; "GET.MOVIE"; "CONCATENATE"; "POWER"; "PIVOT.ADD.DATA"; "GET.PIVOT.TABLE";
    "GET.PIVOT.FIELD"; "GET.PIVOT.ITEM"; "RADIANS"; "DEGREES"; "SUBTOTAL"; "SUMIF"; "COUNTIF"; "COUNTBLANK";
    "SCENARIO.GET"; "OPTIONS.LISTS.GET"; "ISPMT"; "DATEDIF"; "DATESTRING"; "NUMBERSTRING"; "ROMAN";
    "OPEN.DIALOG"; "SAVE.DIALOG"; "VIEW.GET"; "GETPIVOTDATA"; "HYPERLINK"; "PHONETIC"; "AVERAGEA"; "MAXA";
    "MINA"; "STDEVPA"; "VARPA"; "STDEVA"; "VARA"; "BAHTTEXT"; "THAIDAYOFWEEK"; "THAIDIGIT"; "THAIMONTHOFYEAR";
    "THAINUMSOUND"; "THAINUMSTRING"; "THAISTRINGLENGTH"; "ISTHAIDIGIT"; "ROUNDBAHTDOWN"; "ROUNDBAHTUP";
    "THAIYEAR"; "RTD"])].
Fixpoint numbered (k : N) (l : list string) : list (N * bytes) :=
  match l with [] => [] | s :: r => (k, B s) :: numbered (k + 1) r end.
Definition functions : list (N * bytes) := flat_map (fun r => numbered (fst r) (snd r)) function_runs.
