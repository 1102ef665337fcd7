(** Property sets of compound files: fileid/oless/propset/*.hpp. *)
From Coq Require Import List NArith ZArith Bool Strings.String.
From Verif Require Import Lib.Res Lib.Bytes Lib.Text Common.Model Ole.Model.
Import ListNotations.
Local Open Scope N_scope.

(** ** Names *)

(** FormatId.hpp:6-11 *)
Inductive FormatId := FMTID_Unknown | FMTID_SummaryInformation | FMTID_DocSummaryInformation | FMTID_UserDefined.

(** FormatId.hpp:12-14 *)
Definition guid_SummaryInformation : bytes :=
  [xe0; x85; x9f; xf2; xf9; x4f; x68; x10; xab; x91; x08; x00; x2b; x27; xb3; xd9].
Definition guid_DocumentSummaryInformation : bytes :=
  [x02; xd5; xcd; xd5; x9c; x2e; x1b; x10; x93; x97; x08; x00; x2b; x2c; xf9; xae].
Definition guid_UserDefinedProperties : bytes :=
  [x05; xd5; xcd; xd5; x9c; x2e; x1b; x10; x93; x97; x08; x00; x2b; x2c; xf9; xae].

(** FormatId.hpp:37-49 *)
Definition FormatIdFromGuid (guid : bytes) : res FormatId :=
  a <- VerifyGuids guid guid_SummaryInformation ;;
  if a : bool then Ok FMTID_SummaryInformation
  else
    b <- VerifyGuids guid guid_DocumentSummaryInformation ;;
    if b : bool then Ok FMTID_DocSummaryInformation
    else
      c <- VerifyGuids guid guid_UserDefinedProperties ;;
      Ok (if c : bool then FMTID_UserDefined else FMTID_Unknown).

Fixpoint lookup (n : N) (t : list (N * bytes)) : option bytes :=
  match t with
  | [] => None
  | (k, v) :: r => if n =? k then Some v else lookup n r
  end.

(** PropertyIdentifier.hpp:57-77 *)
Definition doc_names : list (N * bytes) :=
  [(0, B "Dictionary"); (1, B "CodePage"); (2147483648, B "Locale");
   (2147483651, B "Behavior"); (2, B "Category"); (3, B "PresentationTarget");
   (4, B "Bytes"); (5, B "Lines"); (6, B "Paragraphs");
   (7, B "Slides"); (8, B "Notes"); (9, B "HiddenSlides");
   (10, B "MMClips"); (11, B "ScaleCrop"); (12, B "HeadingPairs");
   (13, B "TitlesofParts"); (14, B "Manager"); (15, B "Company");
   (16, B "LinksUpToDate")].
(** PropertyIdentifier.hpp:82-103 *)
Definition summary_names : list (N * bytes) :=
  [(0, B "Dictionary"); (1, B "CodePage"); (2, B "Title");
   (3, B "Subject"); (4, B "Author"); (5, B "Keywords");
   (6, B "Comments"); (7, B "Template"); (8, B "Last Author");
   (9, B "Revision"); (10, B "Edit Time"); (11, B "Last Printed");
   (12, B "Creation Time"); (13, B "Last Save Time"); (14, B "Page Count");
   (15, B "Word Count"); (16, B "Character Count"); (17, B "Thumbnail");
   (18, B "Application"); (19, B "DocSecurity")].
(** PropertyIdentifier.hpp:52-114 *)
Definition PropertyIdentifierToString (f : FormatId) (pid : N) : bytes :=
  let ans := B "Unknown Property Identifier (" ++ dec pid ++ B ")" in
  match f with
  | FMTID_DocSummaryInformation => match lookup pid doc_names with Some n => n | None => ans end
  | FMTID_SummaryInformation => match lookup pid summary_names with Some n => n | None => ans end
  | _ => ans
  end.

(** PropertyType.hpp:47-118 *)
Definition type_names : list (N * bytes) :=
  [(0, B "VT_EMPTY"); (1, B "VT_NULL"); (2, B "VT_I2");
   (3, B "VT_I4"); (4, B "VT_R4"); (5, B "VT_R8");
   (6, B "VT_CY"); (7, B "VT_DATE"); (8, B "VT_BSTR");
   (10, B "VT_ERROR"); (11, B "VT_BOOL"); (14, B "VT_DECIMAL");
   (16, B "VT_I1"); (17, B "VT_UI1"); (18, B "VT_UI2");
   (19, B "VT_UI4"); (20, B "VT_I8"); (21, B "VT_UI8");
   (22, B "VT_INT"); (23, B "VT_UINT"); (30, B "VT_LPSTR");
   (31, B "VT_LPWSTR"); (64, B "VT_FILETIME"); (65, B "VT_BLOB");
   (66, B "VT_STREAM"); (67, B "VT_STORAGE"); (68, B "VT_STREAMED_OBJECT");
   (69, B "VT_STORED_OBJECT"); (70, B "VT_BLOB_OBJECT"); (71, B "VT_CF");
   (72, B "VT_CLSID"); (73, B "VT_VERSIONED_STREAM"); (4098, B "VT_VECTOR|VT_I2");
   (4099, B "VT_VECTOR|VT_I4"); (4100, B "VT_VECTOR|VT_R4"); (4101, B "VT_VECTOR|VT_R8");
   (4102, B "VT_VECTOR|VT_CY"); (4103, B "VT_VECTOR|VT_DATE"); (4104, B "VT_VECTOR|VT_BSTR");
   (4106, B "VT_VECTOR|VT_ERROR"); (4107, B "VT_VECTOR|VT_BOOL"); (4108, B "VT_VECTOR|VT_VARIANT");
   (4112, B "VT_VECTOR|VT_I1"); (4113, B "VT_VECTOR|VT_UI1"); (4114, B "VT_VECTOR|VT_UI2");
   (4115, B "VT_VECTOR|VT_UI4"); (4116, B "VT_VECTOR|VT_I8"); (4117, B "VT_VECTOR|VT_UI8");
   (4126, B "VT_VECTOR|VT_LPSTR"); (4127, B "VT_VECTOR|VT_LPWSTR"); (4160, B "VT_VECTOR|VT_FILETIME");
   (4167, B "VT_VECTOR|VT_CF"); (4168, B "VT_VECTOR|VT_CLSID"); (8194, B "VT_ARRAY|VT_I2");
   (8195, B "VT_ARRAY|VT_I4"); (8196, B "VT_ARRAY|VT_R4"); (8197, B "VT_ARRAY|VT_R8");
   (8198, B "VT_ARRAY|VT_CY"); (8199, B "VT_ARRAY|VT_DATE"); (8200, B "VT_ARRAY|VT_BSTR");
   (8202, B "VT_ARRAY|VT_ERROR"); (8203, B "VT_ARRAY|VT_BOOL"); (8204, B "VT_ARRAY|VT_VARIANT");
   (8206, B "VT_ARRAY|VT_DECIMAL"); (8208, B "VT_ARRAY|VT_I1"); (8209, B "VT_ARRAY|VT_UI1");
   (8210, B "VT_ARRAY|VT_UI2"); (8211, B "VT_ARRAY|VT_UI4"); (8214, B "VT_ARRAY|VT_INT");
   (8215, B "VT_ARRAY|VT_UINT")].
(** PropertyType.hpp:46-121 *)
Definition PropertyTypeToString (t : N) : bytes :=
  match lookup t type_names with
  | Some n => n
  | None => B "Unknown Property Type (" ++ dec t ++ B ")"
  end.

(** ** Values *)

(** A [double]: its sign, and the significand and binary exponent of a number, or the fraction
    bits of a NaN *)
Inductive double :=
| Num (neg : bool) (m : N) (e : Z)
| Inf (neg : bool)
| NaN (neg : bool) (fraction : N).
(** The value of the bits of a [double] *)
Definition double_of_bits (b : N) : double :=
  let neg := 2 ^ 63 <=? b in
  let e := b / 2 ^ 52 mod 2048 in
  let f := b mod 2 ^ 52 in
  if e =? 2047 then (if f =? 0 then Inf neg else NaN neg f)
  else if e =? 0 then Num neg f (-1074)
  else Num neg (2 ^ 52 + f) (Z.of_N e - 1075).
(** The bits of a [float], converted to [double]; the conversion makes a NaN quiet. *)
Definition double_of_float_bits (b : N) : double :=
  let neg := 2 ^ 31 <=? b in
  let e := b / 2 ^ 23 mod 256 in
  let f := b mod 2 ^ 23 in
  if e =? 255 then (if f =? 0 then Inf neg else NaN neg (N.lor (2 ^ 51) (f * 2 ^ 29)))
  else if e =? 0 then Num neg f (-149)
  else Num neg (2 ^ 23 + f) (Z.of_N e - 150).

(** Property.hpp:21-31, 48-76: the first of the [Has...] members that is set; never more than
    one is *)
Inductive value :=
| VString (s : bytes) | VFloat (d : double) | VInt (n : N) | VBool (b : bool) | VNone.
(** Property.hpp:15-31 *)
Record property := mkProp { p_pid : N; p_fmt : FormatId; p_type : N; p_value : value }.

(** The conversion of a signed number to [unsigned long long] *)
Definition to_u64 (z : Z) : N := Z.to_N (z mod 2 ^ 64).

(** Property.hpp:119-176, the value at [index] *)
Definition ReadValue (pl : platform) (buf : bytes) (type index : N) : res value :=
  let max := lenN buf in
  if type =? 11 then n <- ReadUShort buf max index false ;; Ok (VBool (n =? 65535))
  else if type =? 2 then z <- ReadSShort buf max index false ;; Ok (VInt (to_u64 z))
  else if type =? 3 then z <- ReadSInt buf max index false ;; Ok (VInt (to_u64 z))
  else if type =? 4 then b <- ReadFloatBits buf max index ;; Ok (VFloat (double_of_float_bits b))
  else if type =? 5 then b <- ReadDoubleBits buf max index ;; Ok (VFloat (double_of_bits b))
  else if type =? 64 then
    low <- ReadUInt buf max index true ;;
    high <- ReadUInt buf max (u32 (index + 4)) true ;;
    Ok (VInt (N.lor (N.shiftl high 32) low))
  else if (type =? 8) || (type =? 30) then
    size <- ReadUInt buf max index true ;;
    s <- ReadString buf max (u32 (index + 4)) size ;;
    Ok (VString (erasenulls s))
  else if (type =? 31) || (type =? 66) || (type =? 67) || (type =? 68) || (type =? 69) then
    size <- ReadUInt buf max index true ;;
    w <- ReadWString pl buf max (u32 (index + 4)) (u32 (subw 32 size 1 * 2)) ;;
    s <- convert w ;;
    Ok (VString (erasenulls s))
  else Ok VNone.

(** Property.hpp:110-178.  The type is read without a check.  [p_fmt] is set by the caller. *)
Definition ReadProperty (pl : platform) (buf : bytes) (offset pid : N) (f : FormatId) : res property :=
  t <- slice buf offset 2 ;;
  v <- ReadValue pl buf (le t) (u32 (offset + 4)) ;;
  Ok (mkProp pid f (le t) v).

(** ** The stream *)

(** DocumentSummary.hpp:67-77: [n] properties whose table continues at [index].  The entry of the
    table is read without a check.  [FormatIdFromGuid] is called for each property; the result is
    always the same and cannot fail, as the sixteen bytes are inside the buffer. *)
Fixpoint parse_properties (fuel : nat) (pl : platform) (buf : bytes) (offset : N) (f : FormatId)
         (index n : N) : res (list property) :=
  if n =? 0 then Ok []
  else
    match fuel with
    | O => Fuel
    | S k =>
        piao <- slice buf index 8 ;;
        p <- ReadProperty pl buf (u32 (offset + le (dropN 4 piao))) (le (takeN 4 piao)) f ;;
        l <- parse_properties k pl buf offset f (u32 (index + 8)) (n - 1) ;;
        Ok (p :: l)
    end.

(** DocumentSummary.hpp:55-77: one set, whose table entry is at [index].  The sums with [sizeof]
    are 64-bit sums. *)
Definition parse_set (pl : platform) (buf : bytes) (index : N) : res (list property) :=
  if lenN buf <? index + 20 then Throw RangeError
  else
    guid <- slice buf index 16 ;;
    o <- slice buf (index + 16) 4 ;;
    let offset := le o in
    if lenN buf <? offset + 8 then Throw RangeError
    else
      n <- slice buf (offset + 4) 4 ;;
      f <- FormatIdFromGuid guid ;;
      parse_properties (S (List.length buf)) pl buf offset f (u32 (offset + 8)) (le n).

(** DocumentSummary.hpp:52-78: the sets from number [i] on *)
Fixpoint parse_sets (fuel : nat) (pl : platform) (buf : bytes) (i n : N) : res (list property) :=
  if n <=? i then Ok []
  else
    match fuel with
    | O => Fuel
    | S k =>
        l <- parse_set pl buf (u32 (28 + i * 20)) ;;
        m <- parse_sets k pl buf (u32 (i + 1)) n ;;
        Ok (l ++ m)
    end.

(** DocumentSummary.hpp:43-80, on the bytes of a stream that was read in full *)
Definition ParseBytes (pl : platform) (buf : bytes) : res (list property) :=
  if lenN buf =? 0 then Ok []
  else if lenN buf <? 28 then Throw RangeError
  else
    n <- slice buf 24 4 ;;
    parse_sets (S (List.length buf)) pl buf 0 (le n).

(** DocumentSummary.hpp:38-81, for the stream with directory entry [e].  Every use of a buffer with
    bytes that were never written is taken to be undefined, whichever bytes are used. *)
Definition ParseStream (pl : platform) (s : storage) (e : dirent) : res (list property) :=
  blocks <- stream_blocks s e ;;
  '(data, n) <- stream_read s e blocks 0 (blank (d_size e)) (d_size e) ;;
  if n =? d_size e then
    match known data with
    | Some buf => ParseBytes pl buf
    | None => UB
    end
  else Ok [].
