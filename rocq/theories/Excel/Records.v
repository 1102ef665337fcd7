(** Model of /repo/fileid/document/excel: the records of a workbook stream and the fields they
    print.  Definitions only; paths are relative to /repo/fileid/document/excel. *)
From Coq Require Import List NArith ZArith Bool Strings.String.
From Verif Require Import Lib.Res Lib.Bytes Lib.Text Common.Model Excel.Number Excel.Model.
Import ListNotations.
Local Open Scope N_scope.

(** ** Fields of a record

    [Num] and [Int] are written with [operator<<]; [Str] is put between quotes as it is, [Esc]
    with [JsonEscape] or [XmlEscape]; [Raw] is a value whose two forms are given. *)
Inductive value := Num (n : N) | Int (z : Z) | Str (s : bytes) | Esc (s : bytes) | Raw (j x : bytes)
| Bare (s : bytes).   (* the same text without quotes in both forms *)
Definition field : Type := bytes * bytes * value.   (* name in JSON, name in XML, value *)
Definition fld (n : string) (v : value) : field := (B n, B n, v).

Definition json_value (v : value) : bytes :=
  match v with
  | Num n => dec n
  | Int z => dec_z z
  | Str s => q ++ s ++ q
  | Esc s => q ++ JsonEscape s ++ q
  | Raw j _ => j
  | Bare s => s
  end.
Definition xml_value (v : value) : bytes :=
  match v with
  | Num n => dec n
  | Int z => dec_z z
  | Str s => s
  | Esc s => XmlEscape s
  | Raw _ x => x
  | Bare s => s
  end.
Definition json_field (f : field) : bytes := B "," ++ q ++ fst (fst f) ++ q ++ B ":" ++ json_value (snd f).
Definition xml_field (f : field) : bytes :=
  B "<" ++ snd (fst f) ++ B ">" ++ xml_value (snd f) ++ B "</" ++ snd (fst f) ++ B ">".

(** ** Records *)

(** The class of a record, with the members it keeps.  A class that keeps a pointer into its
    bytes reads them again when it is printed. *)
Inductive body :=
| Fields (l : list field)                      (* every member is copied by the constructor *)
| Lbl (name : bytes)
| ExternName (udf : option bytes)
| BOF
| BoundSheet8 (name : bytes)
| BoundSheet5 (name : bytes)
| CellOver (l : list field)                    (* a pointer to a [Cell], then copied members *)
| RK (rw col ixfe : N)
| SST (strings : list bytes) (l : list field)
| SupBook (cch : N) (rgst : list bytes) (l : list field)
| Country (workbook system : N)
| FilePassXor (key verification : N)
| FilePassRC4 (major minor : N) (salt verifier hash : bytes)
| FilePassCrypto (major minor : N) (csp : list N) (verifier : N) (hash : bytes)
| FilePassUnset                                (* the member [flags] has no value *)
| FilePassOther (t : N).

(** records/Record.hpp:397-407.  [r_data] are the bytes the record was built from.  A Continue
    record appends to them, which moves them ([r_moved]): pointers into them are then
    dangling.  The appended bytes are not read by anything. *)
Record rec := mkRec { r_type : N; r_data : bytes; r_moved : bool; r_body : body }.
Definition r_length (r : rec) : N := lenN (r_data r).

(** ** Construction *)

(** records/SSTRecord.hpp:21-37 and the fields of lines 38-73; [i < cstUnique] compares as unsigned.  Every string takes at
    least three bytes. *)
Fixpoint sst_strings (p : platform) (d : bytes) (fuel : nat) (i unique index : N) : res (list bytes) :=
  match fuel with
  | O => Fuel
  | S k =>
      if (i <? unique) && (index <? lenN d) then
        s <- RichString p d index (lenN d) ;;
        r <- sst_strings p d k (u32 (i + 1)) unique (u32 (index + snd s)) ;;
        Ok (fst s :: r)
      else Ok []
  end.
Definition SSTRecord (p : platform) (d : bytes) : res body :=
  total <- ReadSInt d (lenN d) 0 true ;;
  unique <- ReadSInt d (lenN d) 4 true ;;
  l <- sst_strings p d (S (List.length d)) 0 (Z.to_N (unique mod 2 ^ 32)) 8 ;;
  Ok (SST l ([fld "cstTotal" (Int total); fld "cstUnique" (Int unique)] ++
             match l with
             | [] => []
             | _ => [fld "strings" (Raw (B "[" ++ join (B ",") (map (fun s => q ++ JsonEscape s ++ q) l) ++ B "]")
                                        (List.concat (map (fun s => B "<string>" ++ XmlEscape s ++ B "</string>") l)))]
             end)).

(** records/SupBookRecord.hpp:20-86 *)
Fixpoint sup_strings (d : bytes) (n : nat) (index : N) : res (list bytes) :=
  match n with
  | O => Ok []
  | S k =>
      s <- UnicodeString d index (lenN d) ;;
      r <- sup_strings d k (u32 (index + snd s)) ;;
      Ok (fst s :: r)
  end.
Definition SupBookRecord (d : bytes) : res body :=
  ctab <- ReadUShort d (lenN d) 0 false ;;
  cch <- ReadUShort d (lenN d) 2 false ;;
  path <- (if (4 <? lenN d) && (1 <=? cch) && (cch <=? 0xFF)
           then s <- ReadString d (lenN d) 4 cch ;; Ok (Some s) else Ok None) ;;
  let index := match path with Some _ => 4 + cch | None => 4 end in
  rgst <- (if (index <? lenN d) && ((cch =? 0x3A01) || (cch =? 0x0401))
           then sup_strings d (N.to_nat ctab) index else Ok []) ;;
  Ok (SupBook cch rgst
        ([fld "ctab" (Num ctab); fld "cch" (Num cch)] ++
         match path with Some s => [fld "virtPath" (Str s)] | None => [] end ++
         match rgst with
         | [] => []
         | _ => [fld "rgst" (Raw (B "[" ++ vector_join rgst (B ",") true ++ B "]")
                                 (List.concat (map (fun s => B "<string>" ++ s ++ B "</string>") rgst)))]
         end)).

(** records/RowRecord.hpp:34-130.  Five two-byte fields are read as four-byte big-endian integers
    and cut to 16 bits. *)
Definition RowRecord (d : bytes) : res body :=
  let max := lenN d in
  rw <- ReadUShort d max 0 false ;;
  colMic <- ReadUInt d max 2 false ;;
  colMac <- ReadUInt d max 4 false ;;
  miyRw <- ReadUInt d max 6 false ;;
  reserved1 <- ReadUInt d max 8 false ;;
  unused1 <- ReadUInt d max 10 false ;;
  a <- rd d 12 ;;
  reserved3 <- rd d 13 ;;
  x <- ReadUShort d max 14 false ;;
  b <- rd d 15 ;;
  Ok (Fields
        [fld "rw" (Num rw); fld "colMic" (Num (u16 colMic)); fld "colMac" (Num (u16 colMac));
         fld "miyRw" (Num (u16 miyRw)); fld "reserved1" (Num (u16 reserved1));
         fld "unused1" (Num (u16 unused1)); fld "iOutlevel" (Num (bits a 0 3));
         fld "reserved2" (Num (bits a 3 1)); fld "fCollapsed" (Num (bits a 4 1));
         fld "fDyZero" (Num (bits a 5 1)); fld "fUnsynced" (Num (bits a 6 1));
         fld "fGhostDirty" (Num (bits a 7 1)); fld "reserved3" (Num reserved3);
         fld "ixfe_val" (Num (N.shiftr x 4)); fld "fExAsc" (Num (bits b 4 1));
         fld "fExDes" (Num (bits b 5 1)); fld "fPhonetic" (Num (bits b 6 1));
         fld "unused" (Num (bits b 7 1))]).

(** structures/LongRGB.hpp:22-55 *)
Definition LongRGB (d : bytes) (off : N) : res (bytes * bytes) :=
  r <- rd d off ;; g <- rd d (off + 1) ;; b <- rd d (off + 2) ;; v <- rd d (off + 3) ;;
  Ok (B "{" ++ q ++ B "red" ++ q ++ B ":" ++ dec r ++ B "," ++ q ++ B "green" ++ q ++ B ":" ++ dec g ++
      B "," ++ q ++ B "blue" ++ q ++ B ":" ++ dec b ++ B "," ++ q ++ B "reserved" ++ q ++ B ":" ++ dec v ++ B "}",
      B "<LongRGB><red>" ++ dec r ++ B "</red><green>" ++ dec g ++ B "</green><blue>" ++ dec b ++
      B "</blue><reserved>" ++ dec v ++ B "</reserved></LongRGB>").
(** records/AreaFormatRecord.hpp:24-83.  [reserved] keeps the low 14 bits. *)
Definition AreaFormatRecord (d : bytes) : res body :=
  let max := lenN d in
  f <- LongRGB d 0 ;; b <- LongRGB d 4 ;;
  fls <- ReadUShort d max 8 true ;;
  x <- rd d 10 ;;
  reserved <- ReadUShort d max 10 false ;;
  fore <- ReadUShort d max 12 true ;;
  back <- ReadUShort d max 14 true ;;
  Ok (Fields
        [fld "rgbFore" (Raw (fst f) (snd f)); fld "rgbBack" (Raw (fst b) (snd b)); fld "fls" (Num fls);
         fld "A" (Num (bits x 0 1)); fld "B" (Num (bits x 1 1)); fld "reserved" (Num (reserved mod 2 ^ 14));
         fld "ivcFore" (Num fore); fld "ivcBack" (Num back)]).

(** records/MulBlankRecord.hpp:20-73.  [max - 2] is cut to 32 bits; the count is an [int]
    expression assigned to an [unsigned int]. *)
Fixpoint ushorts (d : bytes) (n : nat) (index : N) : res (list N) :=
  match n with
  | O => Ok []
  | S k => x <- ReadUShort d (lenN d) index false ;; r <- ushorts d k (u32 (index + 2)) ;; Ok (x :: r)
  end.
(** As long as the bytes last: the loop stops with an exception (or reads past the end) after at
    most [length d] values. *)
Definition MulBlankRecord (d : bytes) : res body :=
  let max := lenN d in
  rw <- ReadUShort d max 0 false ;;
  first <- ReadUShort d max 2 false ;;
  last <- ReadUShort d max (subw 32 max 2) false ;;
  let count := u32 (last + 2 ^ 32 + 1 - first) in
  l <- ushorts d (N.to_nat (N.min count (max + 1))) 4 ;;
  Ok (Fields
        ([fld "rw" (Num rw); fld "colFirst" (Str (ColNumToName first)); fld "colLast" (Str (ColNumToName last))] ++
         match l with
         | [] => []
         | _ => [fld "rgixfe" (Raw (B "[" ++ vector_join (map dec l) (B ",") false ++ B "]")
                                   (List.concat (map (fun x => B "<ixfe>" ++ dec x ++ B "</ixfe>") l)))]
         end)).

(** structures/FormatRun.hpp:17-27 and records/AlRunsRecord.hpp:15-47: only the positions matter *)
Fixpoint runs (d : bytes) (n : nat) (index : N) : res unit :=
  match n with
  | O => Ok tt
  | S k =>
      _ <- ReadUShort d (lenN d) index false ;;
      _ <- ReadUShort d (lenN d) (u32 (index + 2)) false ;;
      runs d k (u32 (index + 4))
  end.
Definition AlRunsRecord (d : bytes) : res body :=
  n <- ReadUShort d (lenN d) 0 false ;; _ <- runs d (N.to_nat n) 2 ;; Ok (Fields []).


(** structures/Cell.hpp:35-39 *)
Definition cell_str (rw col : N) : bytes := ColNumToName (col + 1) ++ dec (rw + 1).

(** structures/FormulaValue.hpp:46-85, for the eight bytes of the value *)
Definition formula_value (v : bytes) : bytes :=
  let b k := b2n (nth k v x00) in
  if le (skipn 6 v) =? 0xFFFF then
    if b 0%nat =? 1 then (if b 2%nat =? 0 then B "false" else B "true")
    else if b 0%nat =? 2 then ErrorValueString (b 2%nat)
    else []
  else fixed6 (decode64 (le v)).

(** ** The records read so far, latest first *)

(** ParseEngine.hpp:32-46: [lastRecord] is the head of the list; without records it has no
    value. *)
Definition prev_of_type (t : N) (l : list rec) : res (option rec) :=
  match l with
  | [] => UB
  | _ => Ok (find (fun r => r_type r =? t) l)
  end.
(** ParseEngine.hpp:64-79 *)
Definition nth_of_type (t idx : N) (l : list rec) : option rec :=
  nth_error (filter (fun r => r_type r =? t) (rev l)) (N.to_nat (u16 idx)).
(** records/LblRecord.hpp:42-44, records/ExternNameRecord.hpp:31-37 *)
Definition GetName (r : rec) : option bytes :=
  match r_body r with
  | Lbl n => Some n
  | ExternName (Some n) => Some n
  | ExternName None => Some []
  | _ => None
  end.
(** structures/formulas/Rgce.hpp:182-204 *)
Definition ptg_text (l : list rec) (t : ptg) : bytes :=
  let name kind ty i :=
    match nth_of_type ty (subw 32 i 1) l with
    | Some r => match GetName r with Some n => kind ++ B "(" ++ n ++ B ")" | None => [] end
    | None => []
    end in
  match t with
  | Text s => s
  | PtgName i => name (B "PtgName") 0x18 i
  | PtgNameX i => name (B "PtgNameX") 0x23 i
  end.
Definition formula_text (l : list rec) (ts : list ptg) : bytes := join (B ";") (map (ptg_text l) ts).

(** structures/formulas/RgbExtra.hpp:18-22: the bytes up to [max]; an inverted range is
    undefined. *)
Definition extra (index max : N) : res unit := if index <=? max then Ok tt else UB.

(** records/FormulaRecord.hpp:41-62 with structures/formulas/ParsedFormulaBase.hpp:26-58.  The
    length of the formula is read and not used: the tokens go on to the end of the record. *)
Definition FormulaRecord (p : platform) (l : list rec) (d : bytes) : res body :=
  let max := lenN d in
  rw <- ReadUShort d max 0 false ;;
  col <- ReadUShort d max 2 false ;;
  _ <- ReadUShort d max 4 false ;;
  _ <- slice d 6 6 ;;
  _ <- ReadUShort d max 12 false ;;
  v <- slice d 6 8 ;;
  f <- load d 14 2 ;; frw <- load d 16 2 ;; g <- load d 18 2 ;;
  _ <- ReadUShort d max 20 false ;;
  ts <- rgce p d max (S (List.length d)) 22 ;;
  _ <- extra (snd ts) max ;;
  Ok (Fields
        [fld "fAlwaysCalc" (Num (bits f 0 1)); fld "fCaclOnLoad" (Num (bits f 1 1));
         fld "fFill" (Num (bits f 2 1)); fld "fShrFmla" (Num (bits f 3 1));
         fld "fNeedBuild" (Num (bits f 4 1)); fld "fClearErrors" (Num (bits f 5 1));
         fld "reserved3" (Num (bits f 6 10)); fld "rw" (Num frw); fld "col" (Num (bits g 0 8));
         fld "fIamNotTop" (Num (bits g 8 1)); fld "fNotNull" (Num (bits g 9 1));
         fld "fEnt" (Num (bits g 10 1)); fld "itab" (Num (bits g 11 5));
         fld "Cell" (Str (cell_str rw col)); fld "Value" (Esc (formula_value v));
         fld "FormulaString" (Esc (formula_text l (fst ts)))]).

(** records/LblRecord.hpp:46-60, structures/formulas/NameParsedFormula.hpp:28-38 *)
Definition LblRecord (p : platform) (d : bytes) : res body :=
  let max := lenN d in
  cch <- rd d 3 ;;
  n <- NoCchString p d max 14 cch ;;
  cce <- load d 4 2 ;;
  let index := u32 (14 + snd n) in
  let stop := u32 (index + cce) in
  ts <- rgce p d stop (S (N.to_nat stop)) index ;;
  _ <- extra (snd ts) max ;;
  Ok (Lbl (fst n)).

(** records/ExternNameRecord.hpp:39-73, structures/AddinUdf.hpp:20-33.  Without an add-in the
    header is looked at, without effect. *)
Definition ExternNameRecord (p : platform) (l : list rec) (d : bytes) : res body :=
  s <- prev_of_type 0x1AE l ;;
  match s with
  | Some r =>
      match r_body r with
      | SupBook cch _ _ =>
          if cch =? 0x3A01 then
            _ <- ReadUInt d (lenN d) 2 true ;;
            u <- ShortString p d 6 ;;
            Ok (ExternName (Some (fst u)))
          else _ <- rd d 0 ;; Ok (ExternName None)
      | _ => Ok (ExternName None)
      end
  | None => Ok (ExternName None)
  end.

(** records/LabelSstRecord.hpp:21-41 *)
Definition LabelSstRecord (l : list rec) (d : bytes) : res body :=
  i <- ReadUInt d (lenN d) 6 true ;;
  s <- prev_of_type 0xFC l ;;
  Ok (CellOver (fld "isst" (Num i) ::
        match s with
        | Some r =>
            match r_body r with
            | SST strings _ =>
                if i <? lenN strings
                then match nth_error strings (N.to_nat i) with Some v => [fld "Value" (Esc v)] | None => [] end
                else []
            | _ => []
            end
        | None => []
        end)).

(** records/BoolErrRecord.hpp:21-43; [std::boolalpha] has no effect on an [unsigned short]. *)
Definition BoolErrRecord (d : bytes) : res body :=
  if lenN d <? 8 then Throw RangeError
  else
    b <- rd d 6 ;; e <- rd d 7 ;;
    Ok (CellOver [fld "fError" (Num e); fld "bBoolErr" (Num b);
                  fld "Value" (Str (if e =? 0 then dec b else ErrorValueString b))]).
(** records/BlankRecord.hpp:16-26 *)
Definition BlankRecord (d : bytes) : res body :=
  if lenN d <? 6 then Throw RangeError else Ok (CellOver []).

(** records/BoundSheet8Record.hpp:27-32 *)
Definition BoundSheet8Record (p : platform) (d : bytes) : res body :=
  s <- ShortString p d 6 ;; Ok (BoundSheet8 (fst s)).
(** records/BoundSheet5Record.hpp:18-40 *)
Definition BoundSheet5Record (d : bytes) : res body :=
  _ <- ReadUInt d (lenN d) 0 true ;;
  _ <- rd d 4 ;; _ <- rd d 5 ;; cch <- rd d 6 ;; s <- slice d 7 cch ;; Ok (BoundSheet5 s).

(** records/RKRecord.hpp:38-54 *)
Definition RKRecord (d : bytes) : res body :=
  rw <- ReadUShort d (lenN d) 0 false ;;
  col <- ReadUShort d (lenN d) 2 false ;;
  ixfe <- ReadUShort d (lenN d) 4 false ;;
  Ok (RK rw col ixfe).
(** records/RKRecord.hpp:13-27.  The bits of [num] are read as a [float]. *)
Definition rk_value (x : N) : bytes :=
  let num := bits x 2 30 in
  if bits x 1 1 =? 1 then (if bits x 0 1 =? 0 then dec num else dec (num / 100))
  else general6 (decode32 num).

(** records/FilePassRecord.hpp:174-226.  [readBuffer] copies from the start of the record. *)
Definition FilePassRecord (p : platform) (d : bytes) : res body :=
  let max := lenN d in
  t <- ReadUShort d max 0 false ;;
  if t =? 0 then
    k <- ReadUShort d max 2 false ;; v <- ReadUShort d max 4 false ;; Ok (FilePassXor k v)
  else if t =? 1 then
    major <- ReadUShort d max 2 false ;;
    minor <- ReadUShort d max 4 false ;;
    if ((major =? 2) || (major =? 3) || (major =? 4)) && (minor =? 2) then
      size <- ReadUInt d max 10 true ;;
      let n := subw 32 size 32 in
      csp <- ReadWString p d max 46 n ;;
      let v := u32 (46 + n) in
      h <- load d (v + 36) 4 ;;
      hash <- slice d 0 h ;;
      Ok (FilePassCrypto major minor csp v hash)
    else if (major =? 1) && (minor =? 1) then
      a <- slice d 6 16 ;; b <- slice d 22 16 ;; c <- slice d 38 16 ;;
      Ok (FilePassRC4 major minor a b c)
    else Ok FilePassUnset
  else Ok (FilePassOther t).

(** The records with one string: records/StringRecord.hpp:19-45, WriteAccessRecord.hpp:14-40,
    FnGroupNameRecord.hpp:16-40, CodeNameRecord.hpp:15-42 *)
Definition string_record (d : bytes) (f : bytes -> field) : res body :=
  s <- UnicodeString d 0 (lenN d) ;; Ok (Fields [f (fst s)]).
(** records/CodePageRecord.hpp:176-202 *)
Definition CodePageRecord (d : bytes) : res body :=
  c <- ReadUShort d (lenN d) 0 false ;;
  Ok (Fields [fld "CodePage" (Num c); fld "CodePageStr" (Esc (CPToString c))]).
(** records/WinProtectRecord.hpp:15-42 and BuiltInFnGroupCountRecord.hpp:14-42 *)
Definition ushort_record (d : bytes) (big : bool) (n : string) : res body :=
  x <- ReadUShort d (lenN d) 0 big ;; Ok (Fields [fld n (Num x)]).
(** records/CountryRecord.hpp:80-85 *)
Definition CountryRecord (d : bytes) : res body :=
  a <- ReadUShort d (lenN d) 0 false ;; b <- ReadUShort d (lenN d) 2 false ;; Ok (Country a b).

(** records/ContinueRecord.hpp:11-21 with ParseEngine.hpp:48-62: the record whose bytes move *)
Definition continue_prev (n : N) (l : list rec) : res (list rec) :=
  let fix go l :=
    match l with
    | [] => UB
    | r :: t =>
        if r_type r =? 0x3C then t' <- go t ;; Ok (r :: t')
        else Ok (mkRec (r_type r) (r_data r) (r_moved r || (0 <? n)) (r_body r) :: t)
    end in
  go l.

(** records/Record.Parser.hpp:25-405: the records of BIFF8.  All other classes keep and print
    nothing but the type and the length. *)
Definition biff8 (p : platform) (l : list rec) (t : N) (d : bytes) : res body :=
  if t =? 0x06 then FormulaRecord p l d
  else if t =? 0x18 then LblRecord p d
  else if t =? 0x19 then ushort_record d true "fLockWn"
  else if t =? 0x23 then ExternNameRecord p l d
  else if t =? 0x2F then FilePassRecord p d
  else if t =? 0x42 then CodePageRecord d
  else if t =? 0x5C then string_record d (fun s => fld "username" (Str s))
  else if t =? 0x85 then BoundSheet8Record p d
  else if t =? 0x8C then CountryRecord d
  else if t =? 0x9A then string_record d (fun s => fld "Name" (Str s))
  else if t =? 0x9C then ushort_record d false "Count"
  else if t =? 0xBE then MulBlankRecord d
  else if t =? 0xFC then SSTRecord p d
  else if t =? 0xFD then LabelSstRecord l d
  else if t =? 0x1AE then SupBookRecord d
  else if t =? 0x1BA then string_record d (fun s => fld "CodeName" (Str s))
  else if t =? 0x201 then BlankRecord d
  else if t =? 0x205 then BoolErrRecord d
  else if t =? 0x207 then
    string_record d (fun s => fld "String" (Raw (q ++ JsonEscape s ++ q) (B "<![CDATA[" ++ XmlEscape s ++ B "]]>")))
  else if t =? 0x208 then RowRecord d
  else if t =? 0x27E then RKRecord d
  else if t =? 0x809 then Ok BOF
  else if t =? 0x100A then AreaFormatRecord d
  else if t =? 0x1050 then AlRunsRecord d
  else Ok (Fields []).

Definition bof_type (t : N) : bool := (t =? 0x009) || (t =? 0x209) || (t =? 0x409) || (t =? 0x809).

(** records/Record.Parser.hpp:19-447 *)
Definition record_body (p : platform) (l : list rec) (version t : N) (d : bytes) : res body :=
  if version =? 1536 then biff8 p l t d
  else if version =? 1280 then
    if t =? 0x809 then Ok BOF else if t =? 0x85 then BoundSheet5Record d else Ok (Fields [])
  else if version =? 1024 then if t =? 0x409 then Ok BOF else Ok (Fields [])
  else if version =? 768 then if t =? 0x209 then Ok BOF else Ok (Fields [])
  else if version =? 512 then if t =? 0x009 then Ok BOF else Ok (Fields [])
  else if bof_type t then Ok BOF else Ok (Fields []).
(** The handler of lines 439-446 catches [std::range_error] only. *)
Definition ParseRecord (p : platform) (l : list rec) (version t : N) (d : bytes) : res (option rec) :=
  match record_body p l version t d with
  | Ok b => Ok (Some (mkRec t d false b))
  | Throw RangeError => Ok None
  | Throw e => Throw e
  | UB => UB
  | Fuel => Fuel
  end.

(** ** Output *)

(** records/BOFRecord.hpp:14-37 and 83-146 *)
Definition bof_fields (d : bytes) : res (list field) :=
  vers <- load d 0 2 ;; dt <- load d 2 2 ;; build <- load d 4 2 ;; year <- load d 6 2 ;;
  f <- load d 8 2 ;; low <- rd d 12 ;; last <- rd d 13 ;;
  Ok [fld "Version" (Num vers); fld "DocumentType" (Num dt); fld "DocumentTypeStr" (Str (GetBOFType dt));
      fld "RUPBuild" (Num build); fld "RUPYear" (Num year); fld "LastEditWindows" (Num (bits f 0 1));
      fld "LastEditRisc" (Num (bits f 1 1)); fld "LastEditBeta" (Num (bits f 2 1));
      fld "AnyEditWindows" (Num (bits f 3 1)); fld "AnyEditRisc" (Num (bits f 8 1));
      fld "AnyEditMac" (Num (bits f 4 1)); fld "AnyEditBeta" (Num (bits f 5 1));
      fld "FailureOutOfMemory" (Num (bits f 9 1)); fld "FailureOutOfMemoryRender" (Num (bits f 10 1));
      fld "FontLimitHit" (Num (bits f 13 1)); fld "HighestXLVersion" (Num (bits f 14 1));
      fld "LowestBiff" (Num low); fld "LastSavedXLVersion" (Num (bits last 0 4))].

(** records/LblRecord.hpp:11-32 and 62-119, without the last field *)
Definition lbl_fields (d name : bytes) : res (list field) :=
  f <- load d 0 2 ;; key <- rd d 2 ;; cch <- rd d 3 ;; cce <- load d 4 2 ;; r3 <- load d 6 2 ;;
  itab <- load d 8 2 ;; r4 <- rd d 10 ;; r5 <- rd d 11 ;; r6 <- rd d 12 ;; r7 <- rd d 13 ;;
  Ok [fld "fHidden" (Num (bits f 0 1)); fld "fFunc" (Num (bits f 1 1)); fld "fOB" (Num (bits f 2 1));
      fld "fProc" (Num (bits f 3 1)); fld "fCalcExp" (Num (bits f 4 1)); fld "fBuiltin" (Num (bits f 5 1));
      fld "fGrp" (Num (bits f 6 6)); fld "reserved1" (Num (bits f 12 1)); fld "fPublished" (Num (bits f 13 1));
      fld "fWorkbookParam" (Num (bits f 14 1)); fld "chKey" (Num key); fld "cch" (Num cch);
      fld "cce" (Num cce); fld "reserved3" (Num r3); fld "itab" (Num itab); fld "reserved4" (Num r4);
      fld "reserved5" (Num r5); fld "reserved6" (Num r6); fld "reserved7" (Num r7);
      fld "name" (Esc name); (B "namedparsedformula", B "NameParsedFormula", Raw (B "{}") [])].

(** records/ExternNameRecord.hpp:11-19 and 75-111.  [cf] straddles two storage units: g++ packs
    it after the flags, the Microsoft compiler starts a new unit for it. *)
Definition extern_fields (p : platform) (d : bytes) (udf : option bytes) : res (list field) :=
  f <- rd d 0 ;;
  cf <- (if sizeof_wchar p =? 2 then x <- load d 2 2 ;; Ok (bits x 0 10)
         else x <- load d 0 2 ;; Ok (bits x 5 10)) ;;
  Ok ([fld "fBuiltin" (Num (bits f 0 1)); fld "fWantAdvise" (Num (bits f 1 1));
       fld "fWantPict" (Num (bits f 2 1)); fld "fOle" (Num (bits f 3 1)); fld "fOleLink" (Num (bits f 4 1));
       fld "cf" (Num cf); fld "fIcon" (Num (bits f 0 1))] ++
      match udf with Some s => [fld "addinUdf" (Str s)] | None => [] end).

(** records/BoundSheet8Record.hpp:12-17 and 38-61 *)
Definition sheet_fields (d name : bytes) : res (list field) :=
  s <- rd d 4 ;; t <- rd d 5 ;;
  Ok [fld "Name" (Esc name); fld "State" (Num (bits s 0 2)); fld "SheetType" (Num t)].

(** A [Cell] laid over the bytes: after the pointer to the virtual functions and [bytesRead],
    the row is at 12 and the column at 14. *)
Definition cell_over (d : bytes) : res bytes :=
  col <- load d 14 2 ;; rw <- load d 12 2 ;; Ok (cell_str rw col).

(** records/RKRecord.hpp:56-88 *)
Definition rk_fields (d : bytes) (rw col ixfe : N) : res (list field) :=
  x <- load d 6 4 ;;
  Ok [fld "rw" (Num rw); fld "col" (Num col); fld "ixfe" (Num ixfe); fld "fX100" (Num (bits x 0 1));
      fld "fInt" (Num (bits x 1 1)); fld "num" (Num (bits x 2 30));
      fld "Cell" (Str (ColNumToName col ++ dec (rw + 1))); fld "Value" (Bare (rk_value x))].

(** records/CountryRecord.hpp:86-105 *)
Definition country_json (n : string) (c : N) : bytes :=
  B "," ++ q ++ B n ++ q ++ B " : { " ++ q ++ B "Code" ++ q ++ B ":" ++ dec c ++ B ", " ++ q ++ B "Name" ++
  q ++ B ": " ++ q ++ GetCountryName c ++ q ++ B "}".
Definition country_xml (n : string) (c : N) : bytes :=
  B "<" ++ B n ++ B "><Code>" ++ dec c ++ B "</Code><Name>" ++ GetCountryName c ++ B "</Name></" ++ B n ++ B ">".

(** Members and elements by name *)
Definition key (n : string) : bytes := q ++ B n ++ q ++ B ":".
Definition elem (n : string) (v : bytes) : bytes := B "<" ++ B n ++ B ">" ++ v ++ B "</" ++ B n ++ B ">".
Definition members (l : list (string * bytes)) : bytes := join (B ",") (map (fun x => key (fst x) ++ snd x) l).
Definition elems (l : list (string * bytes)) : bytes := List.concat (map (fun x => elem (fst x) (snd x)) l).

(** records/FilePassRecord.hpp:10-40 *)
Definition flag_list (f : N) : list (string * bytes) :=
  [("Reserved1"%string, dec (bits f 0 1)); ("Reserved2"%string, dec (bits f 1 1));
   ("fCryptoAPI"%string, dec (bits f 2 1)); ("fDocProps"%string, dec (bits f 3 1));
   ("fExternal"%string, dec (bits f 4 1)); ("fAES"%string, dec (bits f 5 1));
   ("Unused"%string, dec (bits f 6 26))].
(** records/FilePassRecord.hpp:41-78; [Reserved1] is written twice. *)
Definition enc_header (d : bytes) : res (N * list (string * bytes)) :=
  f <- load d 14 4 ;; size <- load d 18 4 ;; alg <- load d 22 4 ;; hash <- load d 26 4 ;;
  ks <- load d 30 4 ;; prov <- load d 34 4 ;; r1 <- load d 38 4 ;;
  Ok (f, [("SizeExtra"%string, dec size); ("AlgID"%string, dec alg); ("AlgIDHash"%string, dec hash);
          ("KeySize"%string, dec ks); ("ProviderType"%string, dec prov); ("Reserved1"%string, dec r1);
          ("Reserved2"%string, dec r1)]).
(** records/FilePassRecord.hpp:80-105 *)
Record verifier := mkVerifier { v_size : N; v_salt : bytes; v_verifier : bytes; v_hash : N }.
Definition enc_verifier (d : bytes) (off : N) : res verifier :=
  n <- load d off 4 ;; s <- slice d (off + 4) 16 ;; v <- slice d (off + 20) 16 ;; h <- load d (off + 36) 4 ;;
  Ok (mkVerifier n s v h).
Definition quoted (s : bytes) : bytes := q ++ s ++ q.

(** What a record writes after its type and length: in JSON and in XML *)
Definition of_fields (l : list field) : bytes * bytes :=
  (List.concat (map json_field l), List.concat (map xml_field l)).
Definition over {A} (r : rec) (f : bytes -> res A) : res A := if r_moved r then UB else f (r_data r).

(** The fields of a record; the locale and the encryption records have a form of their own. *)
Definition fields (p : platform) (r : rec) : res (list field) :=
  match r_body r with
  | Fields l | SST _ l | SupBook _ _ l => Ok l
  | Lbl n => over r (fun d => lbl_fields d n)
  | ExternName u => over r (fun d => extern_fields p d u)
  | BOF => over r bof_fields
  | BoundSheet8 n => over r (fun d => sheet_fields d n)
  | CellOver l => c <- over r cell_over ;; Ok (fld "Cell" (Str c) :: l)
  | RK rw col ixfe => over r (fun d => rk_fields d rw col ixfe)
  | _ => Ok []
  end.

Definition rest (p : platform) (r : rec) : res (bytes * bytes) :=
  match r_body r with
  | Country a b =>
      Ok (country_json "WorkbookLocale" a ++ country_json "OSLocale" b,
          country_xml "WorkbookLocale" a ++ country_xml "OSLocale" b)
  (* records/FilePassRecord.hpp:227-297 *)
  | FilePassXor k v =>
      Ok (B "," ++ key "EncryptionType" ++ quoted (B "XOR") ++ B "," ++ key "XorKey" ++ B " " ++ dec k ++
          B "," ++ key "XorVerification" ++ dec v,
          elem "EncryptionType" (B "XOR") ++ elem "XorKey" (dec k) ++ elem "XorVerification" (dec v))
  | FilePassRC4 major minor s v h =>
      Ok (B "," ++ key "EncryptionType" ++ quoted (B "RC4") ++ B "," ++ key "RC4Version" ++ B " {" ++
          members [("Major"%string, dec major); ("Minor"%string, dec minor)] ++ B "}," ++
          members [("Salt"%string, quoted (bin2hex11 s)); ("EncryptedVerifier"%string, quoted (bin2hex11 v));
                   ("EncryptedVerifierHash"%string, quoted (bin2hex11 h))],
          elem "EncryptionType" (B "RC4") ++
          elem "RC4Version" (elem "Major" (dec major) ++ elem "Minor" (dec minor)) ++
          elem "Salt" (bin2hex11 s) ++ elem "EncryptedVerifier" (bin2hex11 v) ++
          elem "EncryptedVerifierHash" (bin2hex11 h))
  | FilePassCrypto major minor csp voff h =>
      f <- over r (fun d => load d 6 4) ;;
      e <- over r enc_header ;;
      n <- convert csp ;;
      let n := erasenulls n in
      v <- over r (fun d => enc_verifier d voff) ;;
      Ok (B "," ++ key "EncryptionType" ++ quoted (B "RC4") ++ B "," ++ key "RC4Version" ++ B " {" ++
          members [("Major"%string, dec major); ("Minor"%string, dec minor)] ++ B "}," ++
          members [("Flags"%string, B "{" ++ members (flag_list f) ++ B "}");
                   ("EncryptionHeader"%string,
                    B "{" ++ members (("Flags"%string, B "{" ++ members (flag_list (fst e)) ++ B "}") :: snd e) ++ B "}");
                   ("CSPName"%string, quoted (JsonEscape n));
                   ("EncryptionVerifierHeader"%string,
                    B "{" ++ members [("SaltSize"%string, dec (v_size v)); ("Salt"%string, quoted (bin2hex11 (v_salt v)));
                                      ("EncryptedVerifier"%string, quoted (bin2hex11 (v_verifier v)));
                                      ("VerifierHashSize"%string, dec (v_hash v))] ++ B "}");
                   ("EncryptedVerifierHash"%string, quoted (bin2hex11 h))],
          elem "EncryptionType" (B "RC4") ++
          elem "RC4Version" (elem "Major" (dec major) ++ elem "Minor" (dec minor)) ++
          elem "Flags" (elems (flag_list f)) ++
          elem "EncryptionHeader" (elem "Flags" (elems (flag_list (fst e))) ++ elems (snd e)) ++
          elem "CSPName" (XmlEscape n) ++
          elem "EncryptionVerifierHeader"
            (elem "SaltSize" (dec (v_size v)) ++ elem "Salt" (bin2hex11 (v_salt v)) ++
             elem "EncryptedVerifier" (bin2hex11 (v_verifier v)) ++ elem "VerifierHashSize" (dec (v_hash v))) ++
          elem "EncryptedVerifierHash" (bin2hex11 h))
  | FilePassUnset => UB
  | FilePassOther t => Ok (B "," ++ key "EncryptionType" ++ dec t, elem "EncryptionType" (dec t))
  | _ => l <- fields p r ;; Ok (of_fields l)
  end.

(** records/Record.hpp:383-396 and 409-426 *)
Definition record_json (p : platform) (r : rec) : res bytes :=
  x <- rest p r ;;
  Ok (B "{" ++ key "Type" ++ q ++ GetRecordTypeStr (r_type r) ++ q ++ B "," ++ key "Length" ++
      dec (r_length r) ++ fst x ++ B "}").
Definition record_xml (p : platform) (r : rec) : res bytes :=
  x <- rest p r ;;
  Ok (B "<Record>" ++ elem "Type" (GetRecordTypeStr (r_type r)) ++ elem "Length" (dec (r_length r)) ++
      snd x ++ B "</Record>").
