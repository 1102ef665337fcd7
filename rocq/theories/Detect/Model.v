(** The contents of compound files: fileid/oless/oless.hpp, OleCommon.hpp and olessmagic.h. *)
From Coq Require Import List NArith Bool Strings.String.
From Verif Require Import Lib.Res Lib.Bytes Lib.Text Common.Model Magic.Model Ole.Model Vba.Analyze Vba.Output Propset.Model
     Docs.Model Media.WordPerfect.
Import ListNotations.
Local Open Scope N_scope.

(** A wide string literal with ASCII characters *)
Definition W (s : string) : list N := wide (B s).
(** [operator==] on wide strings *)
Fixpoint weq (a b : list N) : bool :=
  match a, b with
  | [], [] => true
  | x :: a', y :: b' => (x =? y) && weq a' b'
  | _, _ => false
  end.

(** ** The table *)

(** The functions that look into a stream *)
Inductive detail := DWord | DExcel | DPowerPoint | DPublisher | DVisio | DWordPerfect | DMsi.
(** OleCommon.hpp:62-82; the constructor does not use its parameter [sub], so that member is empty. *)
Record OlessInfo := mkOle {
  oi_Extension : bytes; oi_Name : bytes; oi_Version : bytes; oi_ignoreCase : bool; oi_matcher : list N;
  oi_extraFunc : option detail }.
Definition row (ext name ver sub : string) (ignore : bool) (matcher : list N) (f : option detail) : OlessInfo :=
  mkOle (B ext) (B name) (B ver) ignore matcher f.
(** olessmagic.h:13-38 *)
Definition ole_list : list OlessInfo := [
  row "irm" "Microsoft Office Information Rights Managed File" "" "drm" false (W "/DRMContent") None;
  row "irm" "Microsoft Office Encrypted Office File" "" "encrypted" false (W "/" ++ [6] ++ W "DataSpaces/DataSpaceMap") None;
  row "doc" "Microsoft Office Word File" "" "" false (W "/WordDocument") (Some DWord);
  row "xls" "Microsoft Office Excel File" "" "" true (W "/Workbook") (Some DExcel);
  row "xls" "Microsoft Office Excel File" "" "" true (W "/Book") (Some DExcel);
  row "ppt" "Microsoft Office PowerPoint File" "" "" false (W "/PowerPoint Document") (Some DPowerPoint);
  row "ppt" "Microsoft Office PowerPoint File" "Powerpoint 4.0" "" false (W "/PP40") None;
  row "pub" "Microsoft Office Publisher File" "" "" false (W "/Contents") (Some DPublisher);
  row "vsd" "Microsoft Office Visio File" "" "" false (W "/VisioDocument") (Some DVisio);
  row "msg" "Microsoft Office Outlook Mail Message" "" "" false (W "/__properties_version1.0") None;
  row "obd" "Microsoft Office Binder" "" "" false (W "/Binder") None;
  row "mpp" "Microsoft Project File" "Project 9" "Office 2003" false (W "/Props9") None;
  row "mpp" "Microsoft Project File" "Project 12" "Office 2007" false (W "/Props12") None;
  row "mpp" "Microsoft Project File" "Project 14" "Office 2010" false (W "/Props14") None;
  row "bup" "McAfee Quarantied File" "" "" false (W "/Details") None;
  row "wps" "Microsoft Works File" "" "" false (W "/CONTENTS") None;
  row "wps" "Microsoft Works File" "" "" false (W "/MatOST") None;
  row "sdc" "StarOffice Calc File" "" "" false (W "/StarCalcDocument") None;
  row "sdw" "StarOffice Write File" "" "" false (W "/StarWriterDocument") None;
  row "hwp" "Hangul Word Processor File" "" "" false (W "/HwpSummaryInformation") None;
  row "hwp" "Hangul Word Processor File" "" "" false (W "/" ++ [5] ++ W "HwpSummaryInformation") None;
  row "wp" "WordPerfect File" "" "" false (W "/PerfectOffice_MAIN") (Some DWordPerfect);
  row "msi" "Microsoft Installer File" "" "" false (W "/" ++ [18496; 16191; 17783; 17516; 15210; 17892; 18468]) (Some DMsi);
  row "ole_embedded" "OLE Native Stream (Embedded Object)" "" "" true (W "/" ++ [1] ++ W "Ole10Native") None;
  row "ole_dat" "Internet Explorer Recovery Store" "" "" false (W "/TravelLog") None;
  row "ole_eq" "OLE Equation Editor" "" "" true (W "/Equation Native") None].

(** ** What is found *)

(** A workbook as document/excel/ExcelExtensionInfo.hpp:75-93 leaves it: the inherited members, and
    what its documents have after the members of the base class.  The parser of the records is not
    part of this model; it is a parameter below. *)
Record workbook := mkWorkbook { wb_ext : ExtensionInfo; wb_json : res bytes; wb_xml : res bytes }.
(** [std::map<std::wstring, std::vector<propset::Property*>>], in the order of the keys *)
Definition groups := list (list N * list property).
Inductive found :=
| FOless (e : ExtensionInfo) (paths : list (list N)) (props : groups)
| FExcel (x : workbook) (paths : list (list N)) (props : groups)
| FWordPerfect (i : WpInfo)
| FVba (e : ExtensionInfo) (p : project).

(** [insert]: a key that is present keeps its value. *)
Fixpoint insert (pl : platform) (k : list N) (v : list property) (m : groups) : groups :=
  match m with
  | [] => [(k, v)]
  | (k', v') :: r =>
      match wcompare pl k k' with
      | Lt => (k, v) :: m
      | Eq => m
      | Gt => (k', v') :: insert pl k v r
      end
  end.

(** oless.hpp:34-36 *)
Record state := mkState { st_paths : list (list N); st_results : list found; st_props : groups }.
Definition push_path (p : list N) (t : state) : state := mkState (st_paths t ++ [p]) (st_results t) (st_props t).
Definition push_result (r : found) (t : state) : state := mkState (st_paths t) (st_results t ++ [r]) (st_props t).

(** OleCommon.hpp:150-153 *)
Definition oless_ext : ExtensionInfo := mkExt (B "oless") [] [] 0 (B "OLE Structured Storage").

(** oless.hpp:55 *)
Definition vba_storage (name fullname : list N) : bool :=
  weq name (W "Macros") || weq name (W "_VBA_PROJECT_CUR") || weq fullname (W "/VBA") || weq fullname (W "/VBA_Project").
(** oless.hpp:69 *)
Definition property_stream (name : list N) : bool :=
  weq name ([5] ++ W "DocumentSummaryInformation") || weq name ([5] ++ W "SummaryInformation") || weq name (W "GlobalInfo") ||
  weq name (W "ImageContents") || weq name (W "ImageInfo").
(** oless.hpp:90 *)
Definition matches (m : OlessInfo) (fullname : list N) : bool :=
  (oi_ignoreCase m && iequals_w fullname (oi_matcher m)) || weq fullname (oi_matcher m).
(** oless.hpp:93-97 *)
Definition row_ext (m : OlessInfo) : ExtensionInfo := mkExt (oi_Extension m) (oi_Name m) [] 0 (oi_Version m).

(** [what()] of a caught [std::exception] (oless.hpp:61-65).  It is caught by value: the copy of
    libstdc++ has lost the message, the copy of Microsoft's library keeps it.  The messages are those
    of common.hpp:277-406, of vbahelper.hpp:311 and of the library. *)
Definition what (pl : platform) (x : exn) : bytes :=
  if sizeof_wchar pl =? 4 then B "std::exception"
  else match x with
       | RangeError => B "Offset would read past end of buffer"
       | OutOfRange => B "invalid string position"
       | LengthError => B "string too long"
       | BadAlloc => B "bad array new length"
       | OtherExn => B "Attempted to read past end of buffer"
       end.
(** oless.hpp:61-65 *)
Definition vba_error (pl : platform) (x : exn) : found :=
  FVba (mkExt (B "vba") (B "Visual Basic for Applications") (B "ERROR") 0 [])
       (mkProject 0 (what pl x) [] [] 0 0).

Section Guessing.
Variable pl : platform.
(** document/excel/ExcelExtensionInfo.hpp:75-93 on the bytes of the stream *)
Variable excel : bytes -> res workbook.
Variable rows : list OlessInfo.
Variable s : storage.

(** A stream as an argument.  Every use of a stream with bytes that were never written is taken to be
    undefined, whichever bytes are used. *)
Definition stream_bytes (name : list N) : res bytes :=
  m <- ReadStream pl s name ;;
  match known m with
  | Some b => Ok b
  | None => UB
  end.

(** oless.hpp:99-101 with the functions of olessdetails.hpp *)
Definition details (d : detail) (e : ExtensionInfo) (fullname : list N) : res found :=
  b <- stream_bytes fullname ;;
  match d with
  | DWord => e <- word_Detailer e b ;; Ok (FOless e [] [])
  | DExcel => x <- excel b ;; Ok (FExcel x [] [])
  | DPowerPoint =>
      c <- stream_bytes (W "/Current User") ;;
      e <- powerpoint_Detailer pl e c b ;; Ok (FOless e [] [])
  | DPublisher => e <- publisher_Detailer pl e b ;; Ok (FOless e [] [])
  | DVisio => e <- visio_Detailer e b ;; Ok (FOless e [] [])
  | DWordPerfect => Ok (FWordPerfect (wp_after_return (wp_StreamDetailer b)))
  | DMsi => Ok (FOless (msi_Detailer e b) [] [])
  end.
(** oless.hpp:83-103: the last row that matches wins *)
Fixpoint guess_rows (rest : list OlessInfo) (fullname : list N) (ei : option found) : res (option found) :=
  match rest with
  | [] => Ok ei
  | m :: r =>
      if matches m fullname then
        f <- (match oi_extraFunc m with
              | None => Ok (FOless (row_ext m) [] [])
              | Some d => details d (row_ext m) fullname
              end) ;;
        guess_rows r fullname (Some f)
      else guess_rows r fullname ei
  end.

(** propset/DocumentSummary.hpp:38-81 on the stream with a path; without an entry the size is 0 *)
Definition parse_stream (fullname : list N) : res (list property) :=
  e <- open_stream pl s fullname ;;
  match e with
  | None => Ok []
  | Some e => ParseStream pl s e
  end.

(** oless.hpp:50-109 *)
Definition guessStreamInfo (name fullname : list N) (t : state) : res state :=
  dir <- isDirectory pl s fullname ;;
  if dir : bool then
    if vba_storage name fullname then
      match Analyze pl fullname s with
      | Ok p => Ok (push_result (FVba (vba_base p) p) t)
      | Throw x => Ok (push_result (vba_error pl x) t)
      | UB => UB
      | Fuel => Fuel
      end
    else Ok t
  else if property_stream name then
    match parse_stream fullname with
    | Ok props => Ok (mkState (st_paths t) (st_results t) (insert pl fullname props (st_props t)))
    | Throw RangeError => Ok t
    | Throw x => Throw x
    | UB => UB
    | Fuel => Fuel
    end
  else
    ei <- guess_rows rows fullname None ;;
    Ok (match ei with Some r => push_result r t | None => t end).

(** oless.hpp:110-128.  The fuel bounds the depth; the calls inside one loop have the same. *)
Fixpoint recurse (fuel : nat) (path : list N) (t : state) : res state :=
  match fuel with
  | O => Fuel
  | S k =>
      names <- storage_entries pl s path ;;
      (fix visit (names : list (list N)) (t : state) : res state :=
         match names with
         | [] => Ok t
         | name :: r =>
             let fullname := path ++ name in
             t <- guessStreamInfo name fullname t ;;
             dir <- isDirectory pl s fullname ;;
             t <- (if dir : bool then recurse k (fullname ++ [slash]) t else Ok (push_path fullname t)) ;;
             visit r t
         end) names (push_path path t)
  end.
End Guessing.

(** oless.hpp:152-158: [dynamic_cast] finds the classes derived from [OLESSExtensionInfo]. *)
Fixpoint attach (paths : list (list N)) (props : groups) (l : list found) : list found :=
  match l with
  | [] => []
  | FOless e _ _ :: r => FOless e paths props :: r
  | FExcel x _ _ :: r => FExcel x paths props :: r
  | f :: r => f :: attach paths props r
  end.

(** oless.hpp:138-162; OleCommon.hpp:13-26.  A file that cannot be opened gives an empty state. *)
Definition Guess (pl : platform) (excel : bytes -> res workbook) (rows : list OlessInfo) (file : option bytes) : res (list found) :=
  o <- storage_load pl file ;;
  t <- (match o with
        | Opened s => recurse pl excel rows s (S (List.length (st_dir s))) [slash] (mkState [] [] [])
        | _ => Ok (mkState [] [] [])
        end) ;;
  Ok (match st_results t with
      | [] => [FOless oless_ext (st_paths t) (st_props t)]
      | l => attach (st_paths t) (st_props t) l
      end).

(** oless.hpp:219-223: the rows are appended to a global list, whose content [rows] is returned. *)
Definition Detailer (pl : platform) (excel : bytes -> res workbook) (rows : list OlessInfo) (file : option bytes)
  : res (list found) * list OlessInfo :=
  (Guess pl excel (rows ++ ole_list) file, rows ++ ole_list).

(** oless.hpp:204-215.  Of a short file, bytes are read that were never written. *)
Definition IsOless (file : option bytes) : res bool :=
  let f := match file with Some f => f | None => [] end in
  if lenN f <? 8 then UB else Ok (bytes_eqb (takeN 8 f) [xd0; xcf; x11; xe0; xa1; xb1; x1a; xe1]).
