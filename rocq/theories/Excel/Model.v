(** Model of /repo/fileid/document/excel: the strings, cells, formulas and records of a
    workbook stream.  Definitions only; every definition cites the lines it models (paths are
    relative to /repo/fileid/document/excel).

    A record keeps its bytes in a [std::vector] whose capacity is its size; every read outside
    of it is undefined.  Structures laid over the bytes with [reinterpret_cast] are read field
    by field with the x86-64 layout, little endian; strict aliasing and alignment are not
    modelled.  Values that are stored and never read again are not kept. *)
From Coq Require Import List NArith ZArith Bool Strings.String.
From Verif Require Import Lib.Res Lib.Bytes Lib.Text Common.Model Excel.Tables Excel.Number.
Import ListNotations.
Local Open Scope N_scope.

(** ** Tables and small functions *)
Fixpoint named (t : list (N * bytes)) (other : bytes) (k : N) : bytes :=
  match t with
  | [] => other
  | (n, s) :: r => if n =? k then s else named r other k
  end.
(** records/Record.hpp:19-379 *)
Definition GetRecordTypeStr (t : N) : bytes := named record_types (B "Unknown/Undocumented RecordType") t.
(** records/CountryRecord.hpp:16-70 *)
Definition GetCountryName (c : N) : bytes := named country_names (B "Unknown") c.
(** records/CodePageRecord.hpp:10-168 *)
Definition CPToString (c : N) : bytes := named code_pages (B "Unknown") c.
(** structures/formulas/helper.hpp:16-395 and 403-805 *)
Definition GetFunctionName_FTab (t : N) : bytes := named ftab_names (B "Unknown_fTab_Function") t.
Definition GetFunctionName_CeTab (t : N) : bytes := named cetab_names (B "Unknown_CeTab_Function") t.
(** records/BOFRecord.hpp:56-67 *)
Definition GetBOFType (t : N) : bytes := named bof_types (B "Unknown") t.

(** MSExcel.common.hpp:18-33 *)
Definition GetVersion_Excel (v : N) : bytes :=
  if v =? 512 then B "BIFF2" else if v =? 768 then B "BIFF3" else if v =? 1024 then B "BIFF4"
  else if v =? 1280 then B "BIFF5" else if v =? 1536 then B "BIFF8" else B "Unknown".
(** MSExcel.common.hpp:35-44 *)
Definition GetVisibilityStr (v : N) : bytes :=
  if v =? 0 then B "Visible" else if v =? 1 then B "Hidden" else if v =? 2 then B "Very Hidden"
  else B "Unknown/Undocumented visiblitiy".
(** MSExcel.common.hpp:46-56 *)
Definition GetSheetTypeStr (t : N) : bytes :=
  if t =? 0 then B "Worksheet/Dialog" else if t =? 1 then B "Macro sheet"
  else if t =? 2 then B "Chart sheet" else if t =? 6 then B "VBA Module"
  else B "Unknown/Undocumented type".
(** structures/formulas/BErr.hpp:23-35 *)
Definition ErrorValueString (e : N) : bytes :=
  if e =? 0 then B "#NULL!" else if e =? 7 then B "#DIV/0!" else if e =? 15 then B "#VALUE!"
  else if e =? 23 then B "#REF!" else if e =? 29 then B "#NAME?" else if e =? 36 then B "#NUM!"
  else if e =? 42 then B "#N/A" else if e =? 43 then B "#GETTING_DATA" else B "#UNKNOWN".

(** MSExcel.common.hpp:70-79.  The parameter is an [unsigned short]: callers that pass
    [col + 1] pass it modulo 2^16.  Sixteen bits have at most four letters. *)
Fixpoint letters (fuel : nat) (n : N) (acc : bytes) : bytes :=
  match fuel with
  | O => acc
  | S k => if n =? 0 then acc else letters k ((n - 1) / 26) (n2b (65 + (n - 1) mod 26) :: acc)
  end.
Definition ColNumToName (col : N) : bytes := letters 5 (u16 col) [].

(** The bits of a 16- or 32-bit field: [n] bits from bit [k] *)
Definition bits (x k n : N) : N := N.shiftr x k mod 2 ^ n.

(** Unchecked little-endian loads through a structure pointer *)
Definition load (d : bytes) (off n : N) : res N := s <- slice d off n ;; Ok (le s).

(** ** Strings *)

(** [std::wstring(reinterpret_cast<wchar_t const*>(buffer + index), n)] *)
Definition wide (p : platform) (d : bytes) (off n : N) : res (list N) :=
  s <- slice d off (n * sizeof_wchar p) ;; Ok (to_wchars p s).

(** structures/ShortXLUnicodeString.hpp:14-50: the text and [bytesRead] *)
Definition ShortString (p : platform) (d : bytes) (off : N) : res (bytes * N) :=
  cch <- rd d off ;;
  f <- rd d (u32 (off + 1)) ;;
  let i := u32 (off + 2) in
  if bits f 0 1 =? 0 then s <- slice d i cch ;; Ok (s, 2 + cch)
  else w <- wide p d i cch ;; s <- convert w ;; Ok (s, 2 + cch).

(** structures/XLUnicodeString.hpp:14-52.  [fHighByte] is a one-bit field that receives
    [buffer[index] & 128]: it is always 0. *)
Definition UnicodeString (d : bytes) (off max : N) : res (bytes * N) :=
  cch <- ReadUShort d max off false ;;
  _ <- rd d (u32 (off + 2)) ;;
  let n := if max <? cch then max else cch in
  s <- slice d (u32 (off + 3)) n ;;
  Ok (s, 3 + n).

(** structures/XLUnicodeStringNoCch.hpp:14-62.  [size] comes from an [unsigned char].  When the
    offset lies beyond the end [fHighByte] is read without a value. *)
Definition NoCchString (p : platform) (d : bytes) (max off size : N) : res (bytes * N) :=
  if off <=? max then
    f <- rd d off ;;
    let i := u32 (off + 1) in
    if bits f 0 1 =? 0 then
      if u32 (i + size) <=? max then s <- slice d i size ;; Ok (s, 1 + size)
      else Ok ([], 1)
    else
      if u32 (i + 2 * size) <=? max then
        w <- wide p d i (2 * size) ;; s <- convert w ;; Ok (s, 1 + 2 * size)
      else Ok ([], 1)
  else UB.

(** structures/XLUnicodeRichExtendedString.hpp:14-82.  [byteCount] is an [int]; a negative one
    is a length no string can have. *)
Definition RichString (p : platform) (d : bytes) (off max : N) : res (bytes * N) :=
  cch <- ReadUShort d max off false ;;
  f <- rd d (u32 (off + 2)) ;;
  let i0 := u32 (off + 3) in
  i1 <- (if bits f 3 1 =? 1 then _ <- ReadUShort d max i0 false ;; Ok (u32 (i0 + 2)) else Ok i0) ;;
  i2 <- (if bits f 2 1 =? 1 then _ <- ReadSInt d max i1 false ;; Ok (u32 (i1 + 4)) else Ok i1) ;;
  let n := if max <? u32 (cch + i2) then signed 32 (subw 32 max i2) else Z.of_N cch in
  if (n <? 0)%Z then Throw LengthError
  else
    let n := Z.to_N n in
    if bits f 0 1 =? 0 then s <- slice d i2 n ;; Ok (s, i2 + n - off)
    else w <- wide p d i2 n ;; s <- convert w ;; Ok (erasenulls s, i2 + 2 * n - off).

(** ** Formulas *)

(** A token: the text it is written with, or the name it refers to. *)
Inductive ptg := Text (s : bytes) | PtgName (i : N) | PtgNameX (i : N).

Section Tokens.
Variables (p : platform) (d : bytes) (max : N).

Definition us (off : N) : res N := ReadUShort d max (u32 off) false.
(** structures/formulas/Ptg.hpp:29-55: the first byte of every token *)
Definition first (off : N) : res N := rd d off.

(** structures/ColRelU.hpp:14-34, ColElfU.hpp:14-29 and ColRelNegU.hpp:14-36: the low 14 bits;
    the two flags are taken from a byte that has been read and are not used. *)
Definition column (off : N) : res N := c <- us off ;; Ok (c mod 2 ^ 14).
(** structures/formulas/RgceLoc.hpp:18-38 *)
Definition cell_name (row col : N) : bytes := ColNumToName (col + 1) ++ dec (row + 1).
Definition loc (off : N) : res bytes :=
  r <- us off ;; c <- column (off + 2) ;; Ok (cell_name r c).
(** structures/formulas/RgceArea.hpp:17-45 *)
Definition area (off : N) : res bytes :=
  r1 <- us off ;; r2 <- us (off + 2) ;; c1 <- column (off + 4) ;; c2 <- column (off + 6) ;;
  Ok (cell_name r1 c1 ++ B ":" ++ cell_name r2 c2).
(** structures/formulas/RgceElfLoc.hpp:15-24 *)
Definition elf_loc (off : N) : res unit := _ <- us off ;; _ <- us (off + 2) ;; Ok tt.
(** structures/formulas/Ptg.hpp:57-69 *)
Definition elf (off : N) : res unit :=
  _ <- first off ;; _ <- rd d (u32 (off + 1)) ;; elf_loc (off + 2).
(** structures/formulas/Ptg.hpp:71-85 *)
Definition ixti (off : N) : res unit := _ <- first off ;; _ <- us (off + 1) ;; Ok tt.
(** The offsets read by PtgAttrChoose.hpp:16-52 *)
Fixpoint offsets (n : nat) (i : N) : res unit :=
  match n with
  | O => Ok tt
  | S k => _ <- us i ;; offsets k (u32 (i + 2))
  end.

Definition text (s : string) (n : N) : res (ptg * N) := Ok (Text (B s), n).
Definition said (s : string) (inner : bytes) (n : N) : res (ptg * N) :=
  Ok (Text (B s ++ B "(" ++ inner ++ B ")"), n).

(** One token of [buffer] at [off]: what it prints and [bytesRead] *)

(** structures/formulas/PtgAdd.hpp and the other operators without operands *)
Definition basic (s : string) (off : N) : res (ptg * N) := _ <- first off ;; text s 1.
(** PtgAttrSemi.hpp:17-42, PtgAttrIf.hpp:17-45, PtgAttrGoto.hpp:17-45, PtgAttrSum.hpp:18-47,
    PtgAttrBaxcel.hpp:16-49 *)
Definition attr (s : string) (off : N) : res (ptg * N) :=
  _ <- first off ;; _ <- rd d (u32 (off + 1)) ;; _ <- us (off + 2) ;; text s 4.
(** PtgAttrSpace.hpp:19-49 and PtgAttrSpaceSemi.hpp:19-43 with PtgAttrSpaceType.hpp:16-31: when the
    pair lies beyond the end, [bytesRead] of the type has no value. *)
Definition attr_space (s : string) (off : N) : res (ptg * N) :=
  _ <- first off ;; _ <- rd d (u32 (off + 1)) ;;
  if u32 (off + 2) + 1 <=? max then
    _ <- rd d (u32 (off + 2)) ;; _ <- rd d (u32 (off + 3)) ;; text s 4
  else UB.
(** PtgAttrChoose.hpp:16-52.  [bytesRead] is [offset - index], a negative number modulo 2^32. *)
Definition attr_choose (off : N) : res (ptg * N) :=
  _ <- first off ;; _ <- rd d (u32 (off + 1)) ;; n <- us (off + 2) ;;
  _ <- offsets (N.to_nat n) (u32 (off + 4)) ;;
  text "PtgAttrChoose" (subw 32 0 (4 + 2 * n)).
(** PtgElfCol.hpp:17-28, PtgElfColS.hpp:18-29, PtgElfColSV.hpp:18-29 and PtgElfColV.hpp:17-28 *)
Definition elf_basic (s : string) (off : N) : res (ptg * N) := _ <- elf off ;; text s 6.
(** PtgElfRw.hpp:18-38, PtgElfRwV.hpp:18-37, PtgElfRadical.hpp:18-38 *)
Definition elf_more (s : string) (off : N) : res (ptg * N) :=
  _ <- elf off ;; _ <- elf_loc (off + 6) ;; text s 10.
(** PtgElfLel.hpp:18-45, PtgElfRadicalLel.hpp:18-43 *)
Definition elf_lel (s : string) (off : N) : res (ptg * N) :=
  _ <- elf off ;; _ <- us (off + 6) ;; _ <- rd d (u32 (off + 8)) ;; _ <- us (off + 8) ;; text s 10.
(** PtgElfRadicalS.hpp:19-39: the four bytes are read at the start of the token. *)
Definition elf_radical_s (off : N) : res (ptg * N) :=
  _ <- elf off ;; _ <- ReadUInt d max off false ;; text "PtgElfRadicalS" 10.
(** PtgSxName.hpp:18-38 *)
Definition sx_name (off : N) : res (ptg * N) :=
  _ <- elf off ;; _ <- ReadUInt d max (u32 (off + 6)) false ;; text "PtgSxName" 10.
(** PtgMemErr.hpp:18-48 *)
Definition mem_err (off : N) : res (ptg * N) :=
  _ <- first off ;; _ <- rd d (u32 (off + 1)) ;; _ <- us (off + 2) ;; _ <- us (off + 4) ;;
  text "PtgMemErr" 6.
(** PtgMemArea.hpp:18-43, PtgMemNoMem.hpp:17-43 *)
Definition mem (s : string) (off : N) : res (ptg * N) :=
  _ <- first off ;; _ <- ReadUInt d max (u32 (off + 1)) false ;; _ <- us (off + 5) ;; text s 7.
(** PtgAreaErr.hpp:16-49 *)
Definition area_err (off : N) : res (ptg * N) :=
  _ <- first off ;; _ <- us (off + 1) ;; _ <- us (off + 3) ;; _ <- us (off + 5) ;; _ <- us (off + 7) ;;
  text "PtgAreaErr" 9.
(** PtgAreaErr3d.hpp:16-48: the three bytes of the base class are counted twice. *)
Definition area_err3d (off : N) : res (ptg * N) :=
  _ <- ixti off ;; _ <- us (off + 3) ;; _ <- us (off + 5) ;; _ <- us (off + 7) ;; _ <- us (off + 9) ;;
  text "PtgAreaErr3d" 14.

(** structures/formulas/Rgce.hpp:26-175: the token at [off] *)
Definition token (off : N) : res (ptg * N) :=
  t <- rd d off ;;
  if t =? 0x01 then (* PtgExp.hpp:18-44 *)
    _ <- first off ;; r <- us (off + 1) ;; c <- us (off + 3) ;; said "PtgExp" (cell_name r c) 5
  else if t =? 0x02 then (* PtgTbl.hpp:17-41 *)
    _ <- first off ;; r <- us (off + 1) ;; c <- us (off + 3) ;;
    said "PtgTbl" (ColNumToName c ++ dec r) 5
  else if t =? 0x03 then basic "PtgAdd" off
  else if t =? 0x04 then basic "PtgSub" off
  else if t =? 0x05 then basic "PtgMul" off
  else if t =? 0x06 then basic "PtgDiv" off
  else if t =? 0x07 then basic "PtgPower" off
  else if t =? 0x08 then basic "PtgConcat" off
  else if t =? 0x09 then basic "PtgLt" off
  else if t =? 0x0A then basic "PtgLe" off
  else if t =? 0x0B then basic "PtgEq" off
  else if t =? 0x0C then basic "PtgGe" off
  else if t =? 0x0D then basic "PtgGt" off
  else if t =? 0x0E then basic "PtgNe" off
  else if t =? 0x0F then basic "PtgIsect" off
  else if t =? 0x10 then basic "PtgUnion" off
  else if t =? 0x11 then basic "PtgRange" off
  else if t =? 0x12 then basic "PtgUplus" off
  else if t =? 0x13 then basic "PtgUminus" off
  else if t =? 0x14 then basic "PtgPercent" off
  else if t =? 0x15 then basic "PtgParen" off
  else if t =? 0x16 then basic "PtgMissArg" off
  else if t =? 0x17 then (* PtgStr.hpp:18-39 *)
    _ <- first off ;; s <- ShortString p d (u32 (off + 1)) ;;
    said "PtgStr" ([x22] ++ fst s ++ [x22]) (1 + snd s)
  else if t =? 0x18 then
    s <- rd d (u32 (off + 1)) ;;
    if s =? 0x01 then elf_lel "PtgElfLel" off
    else if s =? 0x02 then elf_more "PtgElfRw" off
    else if s =? 0x03 then elf_basic "PtgElfCol" off
    else if s =? 0x06 then elf_more "PtgElfRwV" off
    else if s =? 0x07 then elf_basic "PtgElfColV" off
    else if s =? 0x0A then elf_more "PtgElfRadical" off
    else if s =? 0x0B then elf_radical_s off
    else if s =? 0x0D then elf_basic "PtgElfColS" off
    else if s =? 0x0F then elf_basic "PtgElfColSV" off
    else if s =? 0x10 then elf_lel "PtgElfRadicalLel" off
    else if s =? 0x1D then sx_name off
    else said "UnknownPTG" (B "type=24,subType=" ++ dec s) 0
  else if t =? 0x19 then
    s <- rd d (u32 (off + 1)) ;;
    if s =? 0x01 then attr "PtgAttrSemi" off
    else if s =? 0x02 then attr "PtgAttrIf" off
    else if s =? 0x04 then attr_choose off
    else if s =? 0x08 then attr "PtgAttrGoto" off
    else if s =? 0x10 then attr "PtgAttrSum" off
    else if (s =? 0x20) || (s =? 0x21) then attr "PtgAttrBaxcel" off
    else if s =? 0x40 then attr_space "PtgAttrSpace" off
    else if s =? 0x41 then attr_space "PtgAttrSpaceSemi" off
    else said "UnknownPTG" (B "type=25,subType=" ++ dec s) 0
  else if t =? 0x1C then (* PtgErr.hpp:19-37 *)
    _ <- first off ;; e <- rd d (u32 (off + 1)) ;;
    said "PtgErr" (B "'" ++ ErrorValueString e ++ B "'") 2
  else if t =? 0x1D then (* PtgBool.hpp:18-39 *)
    _ <- first off ;; b <- rd d (u32 (off + 1)) ;;
    said "PtgBool" (if b =? 0 then B "false" else B "true") 2
  else if t =? 0x1E then (* PtgInt.hpp:18-35 *)
    _ <- first off ;; n <- us (off + 1) ;; said "PtgInt" (dec n) 3
  else if t =? 0x1F then (* PtgNum.hpp:18-34, MSExcel.common.hpp:58-68 *)
    _ <- first off ;; x <- load d (u32 (off + 1)) 8 ;; said "PtgNum" (fixed6 (decode64 x)) 9
  else if (0x20 <=? t) && (t <? 0x80) then
    let c := t mod 0x20 in
    if c =? 0x00 then (* PtgArray.hpp:16-45 *)
      _ <- first off ;; _ <- rd d (u32 (off + 1)) ;; _ <- us (off + 2) ;;
      _ <- ReadUInt d max (u32 (off + 4)) false ;; text "PtgArray" 8
    else if c =? 0x01 then (* PtgFunc.hpp:18-36 *)
      _ <- first off ;; f <- us (off + 1) ;; said "PtgFunc" (GetFunctionName_FTab f) 3
    else if c =? 0x02 then (* PtgFuncVar.hpp:18-47 *)
      _ <- first off ;; _ <- rd d (u32 (off + 1)) ;; f <- us (off + 2) ;;
      hi <- rd d (u32 (off + 3)) ;;
      let tab := f mod 2 ^ 15 in
      said "PtgFuncVar" (if bits hi 6 1 =? 1 then GetFunctionName_CeTab tab else GetFunctionName_FTab tab) 4
    else if c =? 0x03 then (* PtgName.hpp:17-39 *)
      _ <- first off ;; i <- ReadUInt d max (u32 (off + 1)) true ;; Ok (PtgName i, 5)
    else if c =? 0x04 then (* PtgRef.hpp:19-39 *)
      _ <- first off ;; l <- loc (off + 1) ;; said "PtgRef" l 5
    else if c =? 0x05 then (* PtgArea.hpp:15-33: the area is read at the start of the token *)
      _ <- first off ;; a <- area off ;; said "PtgArea" a 9
    else if c =? 0x06 then mem "PtgMemArea" off
    else if c =? 0x07 then mem_err off
    else if c =? 0x08 then mem "PtgMemNoMem" off
    else if c =? 0x09 then (* PtgMemFunc.hpp:18-40 *)
      _ <- first off ;; _ <- us (off + 1) ;; text "PtgMemFunc" 3
    else if c =? 0x0A then (* PtgRefErr.hpp:18-43 *)
      _ <- first off ;; _ <- us (off + 1) ;; _ <- us (off + 3) ;; text "PtgRefErr" 5
    else if c =? 0x0B then area_err off
    else if c =? 0x0C then (* PtgRefN.hpp:19-39, RgceLocRel.hpp:16-32: the column is read at the row *)
      _ <- first off ;; _ <- us (off + 1) ;; _ <- us (off + 1) ;; text "PtgRefN" 5
    else if c =? 0x0D then (* PtgAreaN.hpp:18-36, RgceAreaRel.hpp:14-29 *)
      _ <- first off ;; _ <- us (off + 1) ;; _ <- us (off + 3) ;; _ <- us (off + 5) ;; _ <- us (off + 7) ;;
      text "PtgAreaN" 9
    else if c =? 0x19 then (* PtgNameX.hpp:19-41 *)
      _ <- ixti off ;; i <- ReadUInt d max (u32 (off + 3)) true ;; Ok (PtgNameX i, 7)
    else if c =? 0x1A then (* PtgRef3d.hpp:19-42 *)
      _ <- ixti off ;; l <- loc (off + 3) ;; said "PtgRef3d" l 7
    else if c =? 0x1B then (* PtgArea3d.hpp:18-36 *)
      _ <- ixti off ;; a <- area (off + 3) ;; said "PtgArea3d" a 11
    else if c =? 0x1C then (* PtgRefErr3d.hpp:18-43 *)
      _ <- ixti off ;; _ <- us (off + 3) ;; _ <- us (off + 5) ;; text "PtgRefErr3d" 7
    else if c =? 0x1D then area_err3d off
    else said "UnknownPTG" (B "type=" ++ dec t ++ B ",subType=0") 1
  else said "UnknownPTG" (B "type=" ++ dec t ++ B ",subType=0") 1.

(** structures/formulas/Rgce.hpp:20-180: the tokens, and the index after them.  The loop need not end. *)
Fixpoint rgce (fuel : nat) (i : N) : res (list ptg * N) :=
  match fuel with
  | O => Fuel
  | S k =>
      if i <? max then
        t <- token i ;;
        r <- rgce k (u32 (i + snd t)) ;;
        Ok (fst t :: fst r, snd r)
      else Ok ([], i)
  end.
End Tokens.
