(** Model of /repo/fileid/common.hpp.  Definitions only; every definition cites the
    lines it models. *)
From Coq Require Import List NArith ZArith Bool Strings.String.
From Verif Require Import Lib.Res Lib.Bytes Lib.Text.
Import ListNotations.
Local Open Scope N_scope.

(** ** Reading integers out of a buffer

    [buf] is the object the C++ pointer refers to, [max] the length the caller passes,
    [off] an [unsigned int].  The guards are written as in the code: [offset + 1] and
    [offset + 3] are [unsigned int] additions and wrap modulo 2^32 before the comparison
    with the 64-bit [max]; the index expressions [offset + k] wrap as well. *)

(** common.hpp:274-286 *)
Definition ReadUShort (buf : bytes) (max off : N) (bigEndian : bool) : res N :=
  if max <? u32 (off + 1) then Throw RangeError
  else
    b0 <- rd buf off ;;
    b1 <- rd buf (u32 (off + 1)) ;;
    if bigEndian
    then Ok (u16 (N.lor (N.shiftl b0 8) b1))
    else Ok (u16 (N.lor (N.shiftl b1 8) b0)).

(** common.hpp:289-301.  The promoted [int] is converted to [signed short] modulo 2^16
    (gcc and MSVC). *)
Definition ReadSShort (buf : bytes) (max off : N) (bigEndian : bool) : res Z :=
  if max <? u32 (off + 1) then Throw RangeError
  else
    b0 <- rd buf off ;;
    b1 <- rd buf (u32 (off + 1)) ;;
    if bigEndian
    then Ok (signed 16 (u16 (N.lor (N.shiftl b0 8) b1)))
    else Ok (signed 16 (u16 (N.lor (N.shiftl b1 8) b0))).

(** The four-byte [or] of common.hpp:310-320 with [b0] in the low byte. *)
Definition or4 (b3 b2 b1 b0 : N) : N :=
  N.lor (N.lor (N.lor (N.shiftl b3 24) (N.shiftl b2 16)) (N.shiftl b1 8)) b0.

(** common.hpp:304-322.  Note which branch puts [buffer[offset]] in the low byte. *)
Definition ReadUInt (buf : bytes) (max off : N) (bigEndian : bool) : res N :=
  if max <? u32 (off + 3) then Throw RangeError
  else
    b0 <- rd buf off ;;
    b1 <- rd buf (u32 (off + 1)) ;;
    b2 <- rd buf (u32 (off + 2)) ;;
    b3 <- rd buf (u32 (off + 3)) ;;
    if bigEndian
    then Ok (u32 (or4 b3 b2 b1 b0))
    else Ok (u32 (or4 b0 b1 b2 b3)).

(** common.hpp:325-343 *)
Definition ReadSInt (buf : bytes) (max off : N) (bigEndian : bool) : res Z :=
  if max <? u32 (off + 3) then Throw RangeError
  else
    b0 <- rd buf off ;;
    b1 <- rd buf (u32 (off + 1)) ;;
    b2 <- rd buf (u32 (off + 2)) ;;
    b3 <- rd buf (u32 (off + 3)) ;;
    if bigEndian
    then Ok (signed 32 (u32 (or4 b3 b2 b1 b0)))
    else Ok (signed 32 (u32 (or4 b0 b1 b2 b3))).

(** common.hpp:346-355.  [offset + sizeof(unsigned long)] is a 64-bit addition.  The
    unaligned [reinterpret_cast] load is modelled as the little-endian value of the bytes
    (x86-64); strict-aliasing and alignment rules are not modelled. *)
Definition ReadULong (p : platform) (buf : bytes) (max off : N) : res N :=
  if max <? off + sizeof_long p then Throw RangeError
  else s <- slice buf off (sizeof_long p) ;; Ok (le s).

(** common.hpp:358-367 *)
Definition ReadULongLong (buf : bytes) (max off : N) : res N :=
  if max <? off + 8 then Throw RangeError
  else s <- slice buf off 8 ;; Ok (le s).

(** common.hpp:370-376.  [offset + strLength] is an [unsigned int] addition. *)
Definition ReadString (buf : bytes) (max off len : N) : res bytes :=
  if max <? u32 (off + len) then Throw RangeError
  else slice buf off len.

(** The [wchar_t] units of a byte string, little endian, dropping an incomplete tail. *)
Fixpoint wchars (w : nat) (fuel : nat) (l : bytes) : list N :=
  match fuel with
  | O => []
  | S f =>
      if Nat.ltb (List.length l) w then []
      else le (firstn w l) :: wchars w f (skipn w l)
  end.
Definition to_wchars (p : platform) (l : bytes) : list N :=
  wchars (N.to_nat (sizeof_wchar p)) (S (List.length l)) l.

(** common.hpp:379-386.  The range constructor takes [&buffer[offset + strLength]] with
    the same wrapped sum; the pointer difference in [wchar_t] units is the number of
    characters.  A wrapped sum makes the range invalid (undefined). *)
Definition ReadWString (p : platform) (buf : bytes) (max off len : N) : res (list N) :=
  if max <? u32 (off + len) then Throw RangeError
  else if off + len <? 2 ^ 32
       then s <- slice buf off len ;; Ok (to_wchars p s)
       else UB.

(** common.hpp:389-398.  The result is the bit pattern of the [float]; [offset + 4] wraps. *)
Definition ReadFloatBits (buf : bytes) (max off : N) : res N :=
  if max <? u32 (off + 4) then Throw RangeError
  else s <- slice buf off 4 ;; Ok (le s).

(** common.hpp:401-410.  The bit pattern of the [double]; [offset + 8] wraps. *)
Definition ReadDoubleBits (buf : bytes) (max off : N) : res N :=
  if max <? u32 (off + 8) then Throw RangeError
  else s <- slice buf off 8 ;; Ok (le s).

(** common.hpp:259-261.  A shift count of -1 (bitOffset = 0), or a [bitCount] for which
    [1 << bitCount] is not representable, is undefined. *)
Definition ExtractBits (num bitCount bitOffset : N) : res N :=
  if (bitOffset =? 0) || (32 <? bitOffset) || (30 <? bitCount) then UB
  else Ok (u8 (N.land (N.shiftl 1 bitCount - 1) (N.shiftr num (bitOffset - 1)))).

(** common.hpp:264-271, on two 16-byte arrays. *)
Fixpoint guid_loop (a b : bytes) (i : nat) : res bool :=
  match i with
  | O => Ok true
  | S k =>
      match a, b with
      | x :: a', y :: b' => if byte_eqb x y then guid_loop a' b' k else Ok false
      | _, _ => UB
      end
  end.
Definition VerifyGuids (a b : bytes) : res bool := guid_loop a b 16.

(** ** checkMagic, common.hpp:413-434 *)

(** The comparison loop 430-431: [i] runs from [offset] while the answer is true. *)
Fixpoint magic_loop (maxxer minner : bytes) (i offset : N) (count : nat) : res bool :=
  match count with
  | O => Ok true
  | S k =>
      x <- rd maxxer i ;;
      y <- rd minner (i - offset) ;;
      if x =? y then magic_loop maxxer minner (i + 1) offset k else Ok false
  end.

(** [expected] is the magic array, [expectedLength] the length declared in the table. *)
Definition checkMagic (actual : bytes) (actualLength : N)
           (expected : bytes) (expectedLength offset : N) : res bool :=
  let '(mn, mx, minner, maxxer) :=
    if actualLength <? expectedLength
    then (actualLength, expectedLength, actual, expected)
    else (expectedLength, actualLength, expected, actual) in
  if (mx <? offset + mn) || (actualLength <? expectedLength) then Ok false
  else magic_loop maxxer minner offset offset (N.to_nat mn).

(** ** Character classes of the "C" locale *)
Definition iscntrl (c : N) : bool := (c <? 32) || (c =? 127).
(** Bytes above 127 are left alone (glibc; passing a negative [char] is formally outside
    the C contract of [tolower]). *)
Definition tolower (c : N) : N := if (65 <=? c) && (c <=? 90) then c + 32 else c.

(** common.hpp:113-120: [std::equal] on two ranges *)
Fixpoint iequals (a b : bytes) : bool :=
  match a, b with
  | [], [] => true
  | x :: a', y :: b' => (tolower (b2n x) =? tolower (b2n y)) && iequals a' b'
  | _, _ => false
  end.

(** common.hpp:123-130.  The lambda takes [char] parameters, so each [wchar_t] is
    converted to its low byte first. *)
Fixpoint iequals_w (a b : list N) : bool :=
  match a, b with
  | [], [] => true
  | x :: a', y :: b' => (tolower (u8 x) =? tolower (u8 y)) && iequals_w a' b'
  | _, _ => false
  end.

(** ** Trimming *)

(** The default character set "\t\n\v\f\r " *)
Definition ws_chars : bytes := [x09; x0a; x0b; x0c; x0d; x20].
Definition in_set (chars : bytes) (c : byte) : bool := existsb (byte_eqb c) chars.

(** common.hpp:134-138: erase up to [find_first_not_of] (everything when it is npos). *)
Fixpoint ltrim (chars : bytes) (s : bytes) : bytes :=
  match s with
  | [] => []
  | c :: t => if in_set chars c then ltrim chars t else s
  end.

(** The number of characters up to and including the last one outside [chars]:
    [find_last_not_of(chars) + 1] (0 when npos). *)
Fixpoint last_not_of (chars : bytes) (s : bytes) : nat :=
  match s with
  | [] => O
  | c :: t =>
      match last_not_of chars t with
      | O => if in_set chars c then O else 1%nat
      | S k => S (S k)
      end
  end.

(** common.hpp:142-146 *)
Definition rtrim (chars : bytes) (s : bytes) : bytes := firstn (last_not_of chars s) s.

(** common.hpp:150-153 *)
Definition trim (chars : bytes) (s : bytes) : bytes := ltrim chars (rtrim chars s).

(** common.hpp:156-165 *)
Definition erasenulls (s : bytes) : bytes := filter (fun c => negb (byte_eqb c x00)) s.

(** ** UTF-8 output of wide strings, common.hpp:169-174

    [codecvt_utf8<wchar_t>]: a unit above 0x10FFFF is an error and [to_bytes] throws
    [std::range_error].  Surrogate units are encoded like any other code point (libstdc++
    before GCC 13, MSVC's UCS-2 facet). *)
Definition utf8_unit (c : N) : res bytes :=
  if c <? 128 then Ok [n2b c]
  else if c <? 2048 then Ok [n2b (192 + c / 64); n2b (128 + c mod 64)]
  else if c <? 65536 then
    Ok [n2b (224 + c / 4096); n2b (128 + c / 64 mod 64); n2b (128 + c mod 64)]
  else if c <? 1114112 then
    Ok [n2b (240 + c / 262144); n2b (128 + c / 4096 mod 64);
        n2b (128 + c / 64 mod 64); n2b (128 + c mod 64)]
  else Throw RangeError.
Definition convert (w : list N) : res bytes :=
  l <- mapM utf8_unit w ;; Ok (List.concat l).

(** ** Hexadecimal *)

(** common.hpp:184-192 for an unsigned integer type of [size] bytes *)
Definition int_to_hex (size : nat) (i : N) : bytes := B "0x" ++ pad0 (size * 2) (hex i).

(** common.hpp:207-219 (and 195-203 on [buffer[0..size)]) *)
Definition bin2hex11 (l : bytes) : bytes :=
  List.concat (map (fun b => pad0 2 (hex (b2n b))) l).

(** ** Time *)

(** common.hpp:55-79.  [std::chrono::microseconds] holds a signed 64-bit count; the
    quotient of a 64-bit number by 10 always fits. *)
Definition displayDuration (filetime : N) : bytes :=
  let micro0 := filetime / 10 in
  let ms0 := micro0 / 1000 in
  let micro := micro0 - ms0 * 1000 in
  let secs0 := ms0 / 1000 in
  let ms := ms0 - secs0 * 1000 in
  let mins0 := secs0 / 60 in
  let secs := secs0 - mins0 * 60 in
  let hour := mins0 / 60 in
  let mins := mins0 - hour * 60 in
  pad0 2 (dec hour) ++ B ":" ++ pad0 2 (dec mins) ++ B ":" ++ pad0 2 (dec secs) ++
  (if (0 <? ms) || (0 <? micro)
   then B "." ++ pad0 3 (dec ms) ++ pad0 3 (dec micro)
   else []).

(** common.hpp:82-84: unsigned 64-bit subtraction, then the conversion to [time_t]
    (a signed 64-bit type on both platforms) *)
Definition convertFILETIME (time : N) : Z :=
  signed 64 (subw 64 (time / 10000000) 11644473600).

(** [gmtime_r] for a non-negative [time_t], by the usual day-number algorithm: eras of
    400 years starting on 1 March 0000.  Library code, modelled by its contract. *)
Record tm := { tm_year : N; tm_mon : N; tm_day : N; tm_hour : N; tm_min : N; tm_sec : N }.
Definition civil_from_days (days : N) : N * N * N :=
  let z := days + 719468 in
  let era := z / 146097 in
  let doe := z - era * 146097 in
  let yoe := (doe - doe / 1460 + doe / 36524 - doe / 146096) / 365 in
  let doy := doe - (365 * yoe + yoe / 4 - yoe / 100) in
  let mp := (5 * doy + 2) / 153 in
  let d := doy - (153 * mp + 2) / 5 + 1 in
  let m := if mp <? 10 then mp + 3 else mp - 9 in
  let y := yoe + era * 400 + (if m <=? 2 then 1 else 0) in
  (y, m, d).
Definition gmtime (t : N) : tm :=
  let '(y, m, d) := civil_from_days (t / 86400) in
  let s := t mod 86400 in
  {| tm_year := y; tm_mon := m; tm_day := d;
     tm_hour := s / 3600; tm_min := s / 60 mod 60; tm_sec := s mod 60 |}.

(** strftime "%F %T".  For the years that can occur (at least 1970) "%Y" needs no
    padding. *)
Definition strftime_FT (t : tm) : bytes :=
  dec (tm_year t) ++ B "-" ++ pad0 2 (dec (tm_mon t)) ++ B "-" ++ pad0 2 (dec (tm_day t)) ++
  B " " ++ pad0 2 (dec (tm_hour t)) ++ B ":" ++ pad0 2 (dec (tm_min t)) ++ B ":" ++
  pad0 2 (dec (tm_sec t)).

(** common.hpp:87-109, Linux branch.  The [errno == EOVERFLOW] branch is not taken: no
    64-bit FILETIME reaches the years [gmtime_r] rejects, and a stale [errno] is not
    modelled. *)
Definition FileTimeToString (time : N) : bytes :=
  let t := convertFILETIME time in
  if (0 <? t)%Z then strftime_FT (gmtime (Z.to_N t)) else B "1601-01-01 00:00:00".

(** ** Escaping *)

(** common.hpp:437-476.  The loop runs on [c_str()] until the first NUL. *)
Definition json_char (c : byte) : bytes :=
  match c with
  | x22 => B "\" ++ [x22]
  | x5c => B "\\"
  | x08 => B "\b"
  | x0c => B "\f"
  | x0a => B "\n"
  | x0d => B "\r"
  | x09 => B "\t"
  | _ => if iscntrl (b2n c) || (127 <? b2n c)
         then B "\u" ++ pad0 4 (hex_up (b2n c))
         else [c]
  end.
Fixpoint JsonEscape (s : bytes) : bytes :=
  match s with
  | [] => []
  | c :: t => if byte_eqb c x00 then [] else json_char c ++ JsonEscape t
  end.

(** common.hpp:479-516 *)
Definition xml_char (c : byte) : bytes :=
  match c with
  | x22 => B "&#34;"
  | x26 => B "&#38;"
  | x27 => B "&#39;"
  | x3e => B "&#60;"
  | x3c => B "&#62;"
  | _ => if iscntrl (b2n c) || (127 <? b2n c)
         then B "&#" ++ pad0 2 (dec (b2n c)) ++ B ";"
         else [c]
  end.
Definition XmlEscape (s : bytes) : bytes := List.concat (map xml_char s).

(** ** ExtensionInfo, common.hpp:539-624 *)
Record ExtensionInfo := mkExt {
  Extension : bytes; Name : bytes; SubType : bytes; Version : N; VersionName : bytes }.

(** common.hpp:583-585: the constructor *)
Definition ext0 : ExtensionInfo := mkExt [] [] [] 0 [].

Definition nonempty (s : bytes) : bool := match s with [] => false | _ => true end.
Definition q : bytes := [x22].   (* the double quote character *)

(** common.hpp:541-557 *)
Definition buildBaseJson (e : ExtensionInfo) : bytes :=
  q ++ B "extension" ++ q ++ B " : " ++ q ++ Extension e ++ q ++
  (if nonempty (Name e)
   then B ", " ++ q ++ B "name" ++ q ++ B ":" ++ q ++ Name e ++ q else []) ++
  (if nonempty (SubType e)
   then B ", " ++ q ++ B "subtype" ++ q ++ B ":" ++ q ++ JsonEscape (SubType e) ++ q else []) ++
  (if 0 <? Version e
   then B ", " ++ q ++ B "version" ++ q ++ B " : " ++ q ++ dec (Version e) ++ q else []) ++
  (if nonempty (VersionName e)
   then B ", " ++ q ++ B "versionname" ++ q ++ B " : " ++ q ++ VersionName e ++ q else []).

(** common.hpp:558-574 *)
Definition buildBaseXml (e : ExtensionInfo) : bytes :=
  B "<extension>" ++ Extension e ++ B "</extension>" ++
  (if nonempty (Name e) then B "<name>" ++ Name e ++ B "</name>" else []) ++
  (if nonempty (SubType e) then B "<subtype>" ++ XmlEscape (SubType e) ++ B "</subtype>" else []) ++
  (if 0 <? Version e then B "<version>" ++ dec (Version e) ++ B "</version>" else []) ++
  (if nonempty (VersionName e)
   then B "<versionname>" ++ VersionName e ++ B "</versionname>" else []).

(** common.hpp:591-597 *)
Definition ext_ToJson (e : ExtensionInfo) : bytes := B "{" ++ buildBaseJson e ++ B "}".
(** common.hpp:598-604 *)
Definition ext_ToXml (e : ExtensionInfo) : bytes := B "<item>" ++ buildBaseXml e ++ B "</item>".

(** A separator-joined row *)
Fixpoint join (sep : bytes) (l : list bytes) : bytes :=
  match l with
  | [] => []
  | [x] => x
  | x :: t => x ++ sep ++ join sep t
  end.
(** common.hpp:605-613 *)
Definition ext_ToText (e : ExtensionInfo) : bytes :=
  join [x09] [Extension e; Name e; SubType e; dec (Version e); VersionName e].
(** common.hpp:614-622 *)
Definition ext_ToCsv (e : ExtensionInfo) : bytes :=
  join [x2c] [Extension e; Name e; SubType e; dec (Version e); VersionName e].

(** common.hpp:677-689: [vector_join] *)
Definition vector_join (v : list bytes) (token : bytes) (useQuotes : bool) : bytes :=
  join token (map (fun s => if useQuotes then q ++ s ++ q else s) v).

(** ** Output, common.hpp:626-733 *)
Inductive OutputFormat := TEXT | JSON | XML | CSV.

(** common.hpp:661-675 *)
Definition ParseOutputFormat (s : bytes) : OutputFormat :=
  if bytes_eqb s (B "xml") then XML
  else if bytes_eqb s (B "csv") then CSV
  else if bytes_eqb s (B "txt") then TEXT
  else if bytes_eqb s (B "json") then JSON
  else TEXT.

(** What the output routine needs from a result: its four renderings (the virtual
    methods of [IExportable], common.hpp:518-536). *)
Record Exportable := mkExp { eJson : bytes; eXml : bytes; eText : bytes; eCsv : bytes }.

Definition export_ext (e : ExtensionInfo) : Exportable :=
  mkExp (ext_ToJson e) (ext_ToXml e) (ext_ToText e) (ext_ToCsv e).

Definition nl : bytes := [x0a].

(** common.hpp:691-731: everything written to standard output *)
Definition Output (f : OutputFormat) (file headerName : bytes) (summary : list Exportable) : bytes :=
  match f with
  | TEXT => file ++ nl ++ List.concat (map (fun e => [x09] ++ eText e ++ nl) summary)
  | XML => B "<file>" ++ B "<name>" ++ XmlEscape file ++ B "</name>" ++
           B "<" ++ headerName ++ B ">" ++
           List.concat (map eXml summary) ++
           B "</" ++ headerName ++ B ">" ++ B "</file>"
  | JSON => B "{" ++ q ++ B "name" ++ q ++ B ":" ++ q ++ JsonEscape file ++ q ++ B "," ++
            q ++ headerName ++ q ++ B ":[" ++
            join (B ",") (map eJson summary) ++ B "]}"
  | CSV => List.concat (map (fun e => eCsv e ++ nl) summary)
  end.

(** ** Files

    A file is its contents; [None] is a path that cannot be opened. *)

(** common.hpp:240-256.  [tellg()] is truncated to [unsigned int].  When the truncated
    size is used, [read] delivers exactly that many bytes of the file. *)
Definition readFile (f : option bytes) (max : N) : bytes :=
  match f with
  | None => []
  | Some content =>
      let fileSize := u32 (lenN content) in
      let size := if fileSize <? max then fileSize else max in
      takeN size content
  end.

(** common.hpp:230-237.  [tellg] of a stream that failed to open is -1. *)
Definition getFileSize (f : option bytes) : N :=
  match f with None => 2 ^ 32 - 1 | Some content => u32 (lenN content) end.
