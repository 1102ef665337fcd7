(** The numbers in the records of a workbook, by [MS-XLS].  Nothing here refers to the model. *)
From Coq Require Import List NArith Bool Strings.String.
From Verif Require Import Lib.Bytes.
Import ListNotations.
Local Open Scope string_scope.
Local Open Scope list_scope.
Local Open Scope N_scope.

(** The bytes of a record are one number, least significant byte first; a field is a run of its
    bits. *)
Definition bit_field (d : bytes) (pos width : N) : N := (le d / 2 ^ pos) mod 2 ^ width.

(** The fields of a record from its first bit on, with their widths, [MS-XLS] 2.4.  A field is
    called by the name it has in the reports; the fields that no report has are called "". *)
Definition layout (t : N) : list (string * N) :=
  if t =? 0x006 then (* Formula: rw, col, ixfe, val, flags, then the application's own [chn], whose parts the reports name *)
    [("rw", 16); ("col", 16); ("", 16); ("", 64); ("fAlwaysCalc", 1); ("fCaclOnLoad", 1); ("fFill", 1); ("fShrFmla", 1);
     ("fNeedBuild", 1); ("fClearErrors", 1); ("reserved3", 10); ("", 16); ("", 8); ("fIamNotTop", 1); ("fNotNull", 1);
     ("fEnt", 1); ("itab", 5)]
  else if t =? 0x018 then (* Lbl *)
    [("fHidden", 1); ("fFunc", 1); ("fOB", 1); ("fProc", 1); ("fCalcExp", 1); ("fBuiltin", 1); ("fGrp", 6);
     ("reserved1", 1); ("fPublished", 1); ("fWorkbookParam", 1); ("", 1); ("chKey", 8); ("cch", 8); ("cce", 16);
     ("reserved3", 16); ("itab", 16); ("reserved4", 8); ("reserved5", 8); ("reserved6", 8); ("reserved7", 8)]
  else if t =? 0x019 then (* WinProtect *) [("fLockWn", 16)]
  else if t =? 0x023 then (* ExternName *)
    [("fBuiltin", 1); ("fWantAdvise", 1); ("fWantPict", 1); ("fOle", 1); ("fOleLink", 1); ("cf", 10); ("fIcon", 1)]
  else if t =? 0x042 then (* CodePage *) [("CodePage", 16)]
  else if t =? 0x085 then (* BoundSheet8: lbPlyPos, hsState, unused, dt *)
    [("", 32); ("State", 2); ("", 6); ("SheetType", 8)]
  else if t =? 0x09C then (* BuiltInFnGroupCount *) [("Count", 16)]
  else if t =? 0x0BE then (* MulBlank *) [("rw", 16)]
  else if t =? 0x0FD then (* LabelSst *) [("", 16); ("", 16); ("", 16); ("isst", 32)]
  else if t =? 0x1AE then (* SupBook *) [("ctab", 16); ("cch", 16)]
  else if t =? 0x205 then (* BoolErr *) [("", 16); ("", 16); ("", 16); ("bBoolErr", 8); ("fError", 8)]
  else if t =? 0x208 then (* Row *)
    [("rw", 16); ("colMic", 16); ("colMac", 16); ("miyRw", 16); ("reserved1", 16); ("unused1", 16); ("iOutlevel", 3);
     ("reserved2", 1); ("fCollapsed", 1); ("fDyZero", 1); ("fUnsynced", 1); ("fGhostDirty", 1); ("reserved3", 8);
     ("ixfe_val", 12); ("fExAsc", 1); ("fExDes", 1); ("fPhonetic", 1); ("unused", 1)]
  else if t =? 0x27E then (* RK *) [("rw", 16); ("col", 16); ("ixfe", 16); ("fX100", 1); ("fInt", 1); ("num", 30)]
  else if t =? 0x809 then (* BOF *)
    [("Version", 16); ("DocumentType", 16); ("RUPBuild", 16); ("RUPYear", 16); ("LastEditWindows", 1);
     ("LastEditRisc", 1); ("LastEditBeta", 1); ("AnyEditWindows", 1); ("AnyEditMac", 1); ("AnyEditBeta", 1); ("", 2);
     ("AnyEditRisc", 1); ("FailureOutOfMemory", 1); ("FailureOutOfMemoryRender", 1); ("", 2); ("FontLimitHit", 1);
     ("HighestXLVersion", 4); ("", 1); ("", 13); ("LowestBiff", 8); ("LastSavedXLVersion", 4)]
  else if t =? 0x100A then (* AreaFormat: rgbFore, rgbBack, fls, fAuto, fInvertNeg, reserved, icvFore, icvBack *)
    [("", 32); ("", 32); ("fls", 16); ("A", 1); ("B", 1); ("reserved", 14); ("ivcFore", 16); ("ivcBack", 16)]
  else [].

Fixpoint places_from (pos : N) (l : list (string * N)) : list (string * (N * N)) :=
  match l with
  | [] => []
  | (name, w) :: r =>
      if String.eqb name "" then places_from (pos + w) r else (name, (pos, w)) :: places_from (pos + w) r
  end.
(** The field [name] of a record of type [t]: its first bit and its width *)
Definition places (t : N) : list (string * (N * N)) := places_from 0 (layout t).
Definition stands (t : N) (name : string) (pos width : N) : Prop := In (name, (pos, width)) (places t).

(** How the program takes a number from a record: the bits of a field, or two bytes in the
    order opposite to that of the format *)
Inductive reading := At (pos width : N) | Swapped (pos : N).
Definition taken (d : bytes) (r : reading) : N :=
  match r with
  | At pos width => bit_field d pos width
  | Swapped pos => 256 * bit_field d pos 8 + bit_field d (pos + 8) 8
  end.

(** The fields that are not taken from their places *)
Definition misread (windows : bool) (t : N) : list (string * reading) :=
  if t =? 0x006 then [("rw", At 128 16); ("col", At 144 8)]
  else if t =? 0x019 then [("fLockWn", Swapped 0)]
  else if t =? 0x023 then (if windows then [("cf", At 16 10)] else []) ++ [("fIcon", At 0 1)]
  else if t =? 0x208 then
    [("colMic", Swapped 32); ("colMac", Swapped 48); ("miyRw", Swapped 64); ("reserved1", Swapped 80);
     ("unused1", Swapped 96); ("ixfe_val", At 116 12)]
  else if t =? 0x809 then [("HighestXLVersion", At 78 1)]
  else if t =? 0x100A then
    [("fls", Swapped 64); ("reserved", At 80 14); ("ivcFore", Swapped 96); ("ivcBack", Swapped 112)]
  else [].

Definition find_reading (name : string) (l : list (string * reading)) : option reading :=
  option_map snd (find (fun x => String.eqb (fst x) name) l).
(** All numbers a report has for a record of type [t] *)
Definition readings (windows : bool) (t : N) : list (string * reading) :=
  map (fun x => (fst x, match find_reading (fst x) (misread windows t) with
                        | Some r => r
                        | None => At (fst (snd x)) (snd (snd x))
                        end)) (places t).

(** The bytes that have to be there *)
Definition reading_end (r : reading) : N := match r with At pos w => pos + w | Swapped pos => pos + 16 end.
Definition needed (windows : bool) (t : N) : N :=
  fold_right (fun x m => N.max ((reading_end (snd x) + 7) / 8) m) 0 (readings windows t).

(** ** Codes *)
(** Countries, [MS-XLS] 2.4.63 *)
Definition countries : list (N * string) :=
  [(1, "United States"); (2, "Canada"); (3, "Latin America, except Brazil"); (7, "Russia"); (20, "Egypt"); (30, "Greece");
   (31, "Netherlands"); (32, "Belgium"); (33, "France"); (34, "Spain"); (36, "Hungary"); (39, "Italy"); (41, "Switzerland");
   (43, "Austria"); (44, "United Kingdom"); (45, "Denmark"); (46, "Sweden"); (47, "Norway"); (48, "Poland"); (49, "Germany");
   (52, "Mexico"); (55, "Brazil"); (61, "Australia"); (64, "New Zealand"); (66, "Thailand"); (81, "Japan"); (82, "Korea");
   (84, "Viet Nam"); (86, "People's Republic of China"); (90, "Turkey"); (213, "Algeria"); (216, "Morocco"); (218, "Libya");
   (351, "Portugal"); (354, "Iceland"); (358, "Finland"); (420, "Czech Republic"); (886, "Taiwan"); (961, "Lebanon");
   (962, "Jordan"); (963, "Syria"); (964, "Iraq"); (965, "Kuwait"); (966, "Saudi Arabia"); (971, "United Arab Emirates");
   (972, "Israel"); (974, "Qatar"); (981, "Iran")].
(** Kinds of substreams, [MS-XLS] 2.4.21 *)
Definition substreams : list (N * string) :=
  [(5, "Globals"); (6, "VB Module"); (16, "Sheet"); (32, "Chart"); (64, "Macro"); (256, "Workspace")].
(** The code pages of Windows *)
Definition windows_pages : list (N * string) :=
  [(874, "ANSI/OEM Thai (ISO 8859-11); Thai (Windows)"); (932, "ANSI/OEM Japanese; Japanese (Shift-JIS)");
   (936, "ANSI/OEM Simplified Chinese (PRC, Singapore); Chinese Simplified (GB2312)");
   (949, "ANSI/OEM Korean (Unified Hangul Code)");
   (1200, "Unicode UTF-16, little endian byte order (BMP of ISO 10646)");
   (1250, "ANSI Central European; Central European (Windows)"); (1251, "ANSI Cyrillic; Cyrillic (Windows)");
   (1252, "ANSI Latin 1; Western European (Windows)"); (1253, "ANSI Greek; Greek (Windows)");
   (1254, "ANSI Turkish; Turkish (Windows)"); (1255, "ANSI Hebrew; Hebrew (Windows)");
   (1256, "ANSI Arabic; Arabic (Windows)"); (1257, "ANSI Baltic; Baltic (Windows)");
   (1258, "ANSI/OEM Vietnamese; Vietnamese (Windows)")].
(** The name of a code: the one of the table, or "Unknown" *)
Definition code_name (l : list (N * string)) (c : N) (s : string) : Prop :=
  In (c, s) l \/ ((forall t, ~ In (c, t) l) /\ s = "Unknown").

(** ** Links, colours and blank cells *)
(** A link to another workbook, [MS-XLS] 2.4.271: the number of its sheets, the length of its
    path, a byte of flags, the path with one byte for a character and the names of the sheets *)
Definition link_data (sheets : N) (path names : bytes) : bytes :=
  to_le 2 sheets ++ to_le 2 (lenN path) ++ x00 :: path ++ names.
(** The name of a function of an add-in, [MS-XLS] 2.4.105 and 2.5.4: flags, a reserved number, the
    length of the name, a byte of flags and the name with one byte for a character *)
Definition add_in_data (flags reserved high : N) (name more : bytes) : bytes :=
  to_le 2 flags ++ to_le 4 reserved ++ n2b (lenN name) :: n2b (2 * high) :: name ++ more.
(** Blank cells of a row, [MS-XLS] 2.4.174: the row, the first column, a format for every cell
    and the last column *)
Definition blank_data (row first : N) (formats : list N) : bytes :=
  to_le 2 row ++ to_le 2 first ++ List.concat (map (to_le 2) formats) ++ to_le 2 (first + lenN formats - 1).
