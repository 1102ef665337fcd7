(** Properties C01-C16: the helpers of common.hpp.  Statements only; the vocabulary is in
    [Lib/Bytes.v] ([le], [be]), [Lib/NumSpec.v] and [Common/Spec.v]. *)
From Coq Require Import List NArith ZArith Bool Strings.String.
From Verif Require Import Lib.Res Lib.Bytes Lib.NumSpec
     Common.Model Common.Spec Common.ReadProofs Common.EscapeProofs Common.StringProofs
     Common.TimeProofs Common.PropertyLemmas.
Import ListNotations.
Local Open Scope N_scope.

(** ** C01: two-byte reads return the encoded value *)
Theorem C01_unsigned_short_value : forall buf off w bigEndian,
  off + 1 < 2 ^ 32 -> window buf off 2 w ->
  ReadUShort buf (lenN buf) off bigEndian = Ok (if bigEndian then be w else le w).
Proof. exact ReadUShort_value. Qed.
Print Assumptions C01_unsigned_short_value.

Theorem C01_signed_short_value : forall buf off w bigEndian,
  off + 1 < 2 ^ 32 -> window buf off 2 w ->
  exists z, ReadSShort buf (lenN buf) off bigEndian = Ok z /\
            twos_complement 16 (if bigEndian then be w else le w) z.
Proof. exact ReadSShort_value. Qed.
Print Assumptions C01_signed_short_value.

Example C01_example :
  window [x01; xfe; xff; x02] 1 2 [xfe; xff] /\
  ReadUShort [x01; xfe; xff; x02] 4 1 false = Ok 65534 /\
  ReadUShort [x01; xfe; xff; x02] 4 1 true = Ok 65279 /\
  ReadSShort [x01; xfe; xff; x02] 4 1 false = Ok (-2)%Z.
Proof. exact C01_ex. Qed.

(** ** C02: bounds-checked reads stay inside the buffer — false; exact failure sets *)
Theorem C02_in_bounds_refuted :
  exists buf off, off < 2 ^ 32 /\
    ReadUShort buf (lenN buf) off false = UB /\ ReadSShort buf (lenN buf) off true = UB.
Proof. exact C02_short_ub. Qed.
Print Assumptions C02_in_bounds_refuted.

Theorem C02_in_bounds_int_refuted :
  exists buf off, off < 2 ^ 32 /\
    ReadUInt buf (lenN buf) off false = UB /\ ReadSInt buf (lenN buf) off true = UB.
Proof. exact C02_int_ub. Qed.
Print Assumptions C02_in_bounds_int_refuted.

Theorem C02_unsigned_short_unsafe_iff : forall buf off bigEndian, off < 2 ^ 32 ->
  (~ safe (ReadUShort buf (lenN buf) off bigEndian) <->
   (off + 1 = lenN buf /\ off + 1 < 2 ^ 32) \/ (off = 2 ^ 32 - 1 /\ lenN buf <= off)).
Proof. exact ReadUShort_unsafe_iff. Qed.
Print Assumptions C02_unsigned_short_unsafe_iff.

Theorem C02_signed_short_unsafe_iff : forall buf off bigEndian, off < 2 ^ 32 ->
  (~ safe (ReadSShort buf (lenN buf) off bigEndian) <->
   (off + 1 = lenN buf /\ off + 1 < 2 ^ 32) \/ (off = 2 ^ 32 - 1 /\ lenN buf <= off)).
Proof. exact ReadSShort_unsafe_iff. Qed.
Print Assumptions C02_signed_short_unsafe_iff.

Theorem C02_unsigned_int_unsafe_iff : forall buf off bigEndian, off < 2 ^ 32 ->
  (~ safe (ReadUInt buf (lenN buf) off bigEndian) <->
   (off + 3 = lenN buf /\ off + 3 < 2 ^ 32) \/
   (2 ^ 32 <= off + 3 /\ off + 3 - 2 ^ 32 <= lenN buf /\ lenN buf < 2 ^ 32)).
Proof. exact ReadUInt_unsafe_iff. Qed.
Print Assumptions C02_unsigned_int_unsafe_iff.

Theorem C02_signed_int_unsafe_iff : forall buf off bigEndian, off < 2 ^ 32 ->
  (~ safe (ReadSInt buf (lenN buf) off bigEndian) <->
   (off + 3 = lenN buf /\ off + 3 < 2 ^ 32) \/
   (2 ^ 32 <= off + 3 /\ off + 3 - 2 ^ 32 <= lenN buf /\ lenN buf < 2 ^ 32)).
Proof. exact ReadSInt_unsafe_iff. Qed.
Print Assumptions C02_signed_int_unsafe_iff.

Example C02_example : safe (ReadUInt [x01; x02; x03; x04] 4 0 false) /\
                      ~ safe (ReadUInt [x01; x02; x03; x04] 4 1 false) /\
                      safe (ReadUInt [x01; x02; x03; x04] 4 2 false).
Proof. exact C02_ex. Qed.

(** ** C03: 32-bit reads and the byte-order flag — false; the flag is inverted *)
Theorem C03_byte_order_refuted :
  exists buf off w, window buf off 4 w /\ off + 3 < 2 ^ 32 /\
    ReadUInt buf (lenN buf) off true <> Ok (be w) /\
    ReadUInt buf (lenN buf) off false <> Ok (le w).
Proof. exact C03_swapped. Qed.
Print Assumptions C03_byte_order_refuted.

Theorem C03_unsigned_int_value : forall buf off w bigEndian,
  off + 3 < 2 ^ 32 -> window buf off 4 w ->
  ReadUInt buf (lenN buf) off bigEndian = Ok (if bigEndian then le w else be w).
Proof. exact ReadUInt_value. Qed.
Print Assumptions C03_unsigned_int_value.

Theorem C03_signed_int_value : forall buf off w bigEndian,
  off + 3 < 2 ^ 32 -> window buf off 4 w ->
  exists z, ReadSInt buf (lenN buf) off bigEndian = Ok z /\
            twos_complement 32 (if bigEndian then le w else be w) z.
Proof. exact ReadSInt_value. Qed.
Print Assumptions C03_signed_int_value.

Example C03_example : window [x00; x01; x02; x03; x04] 1 4 [x01; x02; x03; x04] /\
  ReadUInt [x00; x01; x02; x03; x04] 5 1 true = Ok 67305985.
Proof. exact C03_ex. Qed.

(** ** C04: eight-byte integer reads *)
Theorem C04_unsigned_long : forall p buf off, supported p ->
  (forall w, window buf off (sizeof_long p) w -> ReadULong p buf (lenN buf) off = Ok (le w)) /\
  (lenN buf < off + sizeof_long p -> ReadULong p buf (lenN buf) off = Throw RangeError) /\
  safe (ReadULong p buf (lenN buf) off).
Proof. exact ReadULong_all. Qed.
Print Assumptions C04_unsigned_long.

Theorem C04_unsigned_long_long : forall buf off,
  (forall w, window buf off 8 w -> ReadULongLong buf (lenN buf) off = Ok (le w)) /\
  (lenN buf < off + 8 -> ReadULongLong buf (lenN buf) off = Throw RangeError) /\
  safe (ReadULongLong buf (lenN buf) off).
Proof. exact ReadULongLong_all. Qed.
Print Assumptions C04_unsigned_long_long.

Example C04_example :
  supported linux64 /\ supported windows /\
  window [x00; x01; x02; x03; x04; x05; x06; x07; x08] 1 8 [x01; x02; x03; x04; x05; x06; x07; x08] /\
  ReadULong windows [x00; x01; x02; x03; x04; x05; x06; x07; x08] 9 5 = Ok 134678021 /\
  ReadULong linux64 [x00; x01; x02; x03; x04; x05; x06; x07; x08] 9 5 = Throw RangeError.
Proof. exact C04_ex. Qed.

(** ** C05: string and floating reads — false near 2^32; exact failure sets *)
Theorem C05_string_in_bounds_refuted :
  exists buf off len, off < 2 ^ 32 /\ len < 2 ^ 32 /\ ReadString buf (lenN buf) off len = UB.
Proof. exact C05_string_ub. Qed.
Print Assumptions C05_string_in_bounds_refuted.

Theorem C05_string_unsafe_iff : forall buf off len, off < 2 ^ 32 -> len < 2 ^ 32 ->
  (~ safe (ReadString buf (lenN buf) off len) <->
   2 ^ 32 <= off + len /\ off + len - 2 ^ 32 <= lenN buf /\ lenN buf < off + len).
Proof. exact ReadString_unsafe_iff. Qed.
Print Assumptions C05_string_unsafe_iff.

Theorem C05_string_value : forall buf off len, off + len < 2 ^ 32 ->
  (forall w, window buf off len w -> ReadString buf (lenN buf) off len = Ok w) /\
  (lenN buf < off + len -> ReadString buf (lenN buf) off len = Throw RangeError).
Proof. exact ReadString_all. Qed.
Print Assumptions C05_string_value.

Theorem C05_double_value : forall buf off, off + 8 < 2 ^ 32 ->
  (forall w, window buf off 8 w -> ReadDoubleBits buf (lenN buf) off = Ok (le w)) /\
  (lenN buf < off + 8 -> ReadDoubleBits buf (lenN buf) off = Throw RangeError).
Proof. exact ReadDouble_all. Qed.
Print Assumptions C05_double_value.

Theorem C05_double_wrap : forall buf off, off < 2 ^ 32 -> 2 ^ 32 <= off + 8 ->
  off + 8 - 2 ^ 32 <= lenN buf -> lenN buf < off + 8 ->
  ReadDoubleBits buf (lenN buf) off = UB.
Proof. exact ReadDoubleBits_wrap. Qed.
Print Assumptions C05_double_wrap.

Theorem C05_float_value : forall buf off, off + 4 < 2 ^ 32 ->
  (forall w, window buf off 4 w -> ReadFloatBits buf (lenN buf) off = Ok (le w)) /\
  (lenN buf < off + 4 -> ReadFloatBits buf (lenN buf) off = Throw RangeError).
Proof. exact ReadFloat_all. Qed.
Print Assumptions C05_float_value.

Example C05_example :
  window [x61; x62; x63; x64] 1 2 [x62; x63] /\
  ReadString [x61; x62; x63; x64] 4 1 2 = Ok [x62; x63] /\
  ReadString [x61; x62; x63; x64] 4 3 2 = Throw RangeError /\
  ReadDoubleBits [x61; x62; x63; x64] 4 4294967292 = UB.
Proof. exact C05_ex. Qed.

(** ** C06: the magic check is exact and in bounds *)
Theorem C06_check_magic_exact : forall buf pattern off,
  exists r, checkMagic buf (lenN buf) pattern (lenN pattern) off = Ok r /\
            (r = true <-> occurs_at pattern buf off).
Proof. exact checkMagic_iff. Qed.
Print Assumptions C06_check_magic_exact.

Example C06_example :
  occurs_at [x02; x03] [x01; x02; x03] 1 /\
  checkMagic [x01; x02; x03] 3 [x02; x03] 2 1 = Ok true /\
  checkMagic [x01; x02; x03] 3 [x02; x03] 2 2 = Ok false.
Proof. exact C06_ex. Qed.

(** ** C07: JSON escaping *)
Theorem C07_json_denotes : forall s, ~ In x00 s -> json_str (JsonEscape s) (map b2n s).
Proof. exact JsonEscape_str. Qed.
Print Assumptions C07_json_denotes.

Theorem C07_json_unambiguous : forall t v v', json_str t v -> json_str t v' -> v = v'.
Proof. exact json_str_fun. Qed.
Print Assumptions C07_json_unambiguous.

Theorem C07_json_injective : forall s t, ~ In x00 s -> ~ In x00 t ->
  JsonEscape s = JsonEscape t -> s = t.
Proof. exact JsonEscape_inj. Qed.
Print Assumptions C07_json_injective.

Theorem C07_json_printable : forall s, Forall (fun b => 32 <= b2n b < 127) (JsonEscape s).
Proof. exact JsonEscape_ascii. Qed.
Print Assumptions C07_json_printable.

(** With a NUL only the part before it is rendered. *)
Theorem C07_json_nul_truncates : forall s t, before_nul s t -> JsonEscape s = JsonEscape t.
Proof. exact JsonEscape_before_nul. Qed.
Print Assumptions C07_json_nul_truncates.

Example C07_example :
  ~ In x00 [x61; x22; x0a; xff; x5c] /\
  JsonEscape [x61; x22; x0a; xff; x5c] = B "a\" ++ [x22] ++ B "\n\" ++ B "u00FF\\".
Proof. exact C07_ex. Qed.

(** ** C08: XML escaping — safe, but [<] and [>] are exchanged *)
Theorem C08_xml_lossless_refuted :
  exists s, ~ xml_text (XmlEscape s) (map b2n s).
Proof. exact C08_swapped. Qed.
Print Assumptions C08_xml_lossless_refuted.

Theorem C08_xml_lossless_iff : forall s,
  xml_text (XmlEscape s) (map b2n s) <-> ~ In x3c s /\ ~ In x3e s.
Proof. exact XmlEscape_lossless_iff. Qed.
Print Assumptions C08_xml_lossless_iff.

Theorem C08_xml_injective : forall s t, XmlEscape s = XmlEscape t -> s = t.
Proof. exact XmlEscape_inj. Qed.
Print Assumptions C08_xml_injective.

Theorem C08_xml_no_markup : forall s,
  Forall (fun b => 32 <= b2n b < 127 /\ b <> x22 /\ b <> x27 /\ b <> x3c /\ b <> x3e) (XmlEscape s).
Proof. exact XmlEscape_plain. Qed.
Print Assumptions C08_xml_no_markup.

Theorem C08_xml_always_decodes : forall s,
  exists v, xml_text (XmlEscape s) v /\ List.length v = List.length s.
Proof. exact XmlEscape_decodes. Qed.
Print Assumptions C08_xml_always_decodes.

(** Characters below 32 are written as references that XML 1.0 does not allow. *)
Theorem C08_xml_characters_refuted : exists s v, xml_text (XmlEscape s) v /\ ~ Forall xml_character v.
Proof. exact C08_control. Qed.
Print Assumptions C08_xml_characters_refuted.

Theorem C08_xml_characters_iff : forall s v, xml_text (XmlEscape s) v ->
  (Forall xml_character v <-> Forall (fun c => xml_character (b2n c)) s).
Proof. exact XmlEscape_legal. Qed.
Print Assumptions C08_xml_characters_iff.

Example C08_example : (~ In x3c [x61; x26; x07] /\ ~ In x3e [x61; x26; x07]) /\
  XmlEscape [x61; x26; x07] = B "a&#38;&#07;" /\ XmlEscape [x3c] = B "&#62;".
Proof. exact C08_ex. Qed.

(** ** C09: hexadecimal rendering *)
Theorem C09_hex_dump : forall l, hex_dump (bin2hex11 l) l.
Proof. exact bin2hex11_dump. Qed.
Print Assumptions C09_hex_dump.

Theorem C09_hex_dump_unambiguous : forall t l l', hex_dump t l -> hex_dump t l' -> l = l'.
Proof. exact hex_dump_fun. Qed.
Print Assumptions C09_hex_dump_unambiguous.

Theorem C09_int_to_hex : forall size n, (1 <= size)%nat -> n < 256 ^ N.of_nat size ->
  exists d, int_to_hex size n = x30 :: x78 :: d /\ List.length d = (2 * size)%nat /\
            hex_num d = Some n.
Proof. exact int_to_hex_spec. Qed.
Print Assumptions C09_int_to_hex.

Example C09_example : bin2hex11 [x0a; xff] = B "0aff" /\
  int_to_hex 4 48879 = B "0x0000beef" /\ 48879 < 256 ^ N.of_nat 4.
Proof. exact C09_ex. Qed.

(** ** C10: durations *)
Theorem C10_duration_text : forall ticks, duration_text (displayDuration ticks) (ticks / 10).
Proof. exact displayDuration_text. Qed.
Print Assumptions C10_duration_text.

Theorem C10_duration_unambiguous : forall t a b, duration_text t a -> duration_text t b -> a = b.
Proof. exact duration_text_fun. Qed.
Print Assumptions C10_duration_unambiguous.

Example C10_example : displayDuration 1657127941371 = B "46:01:52.794137" /\
                      displayDuration 2592000000000 = B "72:00:00".
Proof. exact C10_ex. Qed.

(** ** C11: file times after 1970 *)
Theorem C11_filetime_calendar : forall ft, ft < 2 ^ 64 -> unix_epoch_ticks + 10000000 <= ft ->
  shows_second (FileTimeToString ft) ((ft - unix_epoch_ticks) / 10000000).
Proof. exact FileTimeToString_after. Qed.
Print Assumptions C11_filetime_calendar.

Theorem C11_timestamp_unambiguous : forall text t t',
  shows_second text t -> shows_second text t' -> t = t'.
Proof. exact shows_second_fun. Qed.
Print Assumptions C11_timestamp_unambiguous.

Example C11_example :
  unix_epoch_ticks + 10000000 <= 132223284000000000 < 2 ^ 64 /\
  FileTimeToString 132223284000000000 = B "2020-01-01 05:00:00" /\
  FileTimeToString (2 ^ 64 - 1) = B "60056-05-28 05:36:10".
Proof. exact C11_ex. Qed.

(** ** C12: distinct seconds print differently — false up to 1970; exact *)
Theorem C12_distinct_refuted :
  exists a b, a < 2 ^ 64 /\ b < 2 ^ 64 /\ a + 10000000 <= b /\
              FileTimeToString a = FileTimeToString b.
Proof. exact C12_collision. Qed.
Print Assumptions C12_distinct_refuted.

Theorem C12_collision_iff : forall a b, a < 2 ^ 64 -> b < 2 ^ 64 ->
  a / 10000000 <> b / 10000000 ->
  (FileTimeToString a = FileTimeToString b <->
   a < unix_epoch_ticks + 10000000 /\ b < unix_epoch_ticks + 10000000).
Proof. exact FileTimeToString_collision_iff. Qed.
Print Assumptions C12_collision_iff.

Example C12_example : 132223284000000000 / 10000000 <> 132223285000000000 / 10000000 /\
  FileTimeToString 132223284000000000 <> FileTimeToString 132223285000000000.
Proof. exact C12_ex. Qed.

(** ** C13: trimming *)
Theorem C13_trim : forall s, trimmed s (trim ws_chars s).
Proof. exact trim_trimmed. Qed.
Print Assumptions C13_trim.

Theorem C13_trim_determined : forall s t t', trimmed s t -> trimmed s t' -> t = t'.
Proof. exact trimmed_unique. Qed.
Print Assumptions C13_trim_determined.

Theorem C13_trim_idempotent : forall s, trim ws_chars (trim ws_chars s) = trim ws_chars s.
Proof. exact trim_idempotent. Qed.
Print Assumptions C13_trim_idempotent.

Example C13_example : trim ws_chars (B "  a b	 ") = B "a b" /\ trim ws_chars (B "   ") = [].
Proof. exact C13_ex. Qed.

(** ** C14: case-insensitive comparison *)
Theorem C14_iequals_iff : forall a b,
  iequals a b = true <-> Forall2 (fun x y => same_letter (b2n x) (b2n y)) a b.
Proof. exact iequals_iff. Qed.
Print Assumptions C14_iequals_iff.

Theorem C14_iequals_equivalence :
  (forall a, iequals a a = true) /\ (forall a b, iequals a b = iequals b a) /\
  (forall a b c, iequals a b = true -> iequals b c = true -> iequals a c = true).
Proof. exact (conj iequals_refl (conj iequals_sym iequals_trans)). Qed.
Print Assumptions C14_iequals_equivalence.

(** Wide strings: only the low byte of each character is compared. *)
Theorem C14_wide_refuted :
  exists a b, iequals_w a b = true /\ ~ Forall2 same_letter a b.
Proof. exact C14_wide_collision. Qed.
Print Assumptions C14_wide_refuted.

Theorem C14_wide_iff : forall a b,
  iequals_w a b = true <-> Forall2 (fun x y => same_letter (x mod 256) (y mod 256)) a b.
Proof. exact iequals_w_iff. Qed.
Print Assumptions C14_wide_iff.

Theorem C14_wide_latin1 : forall a b,
  Forall (fun x => x < 256) a -> Forall (fun x => x < 256) b ->
  (iequals_w a b = true <-> Forall2 same_letter a b).
Proof. exact iequals_w_ascii. Qed.
Print Assumptions C14_wide_latin1.

Example C14_example : iequals (B "WordDocument") (B "wORDdOCUMENT") = true /\
                      iequals (B "a[") (B "a{") = false /\
                      Forall (fun x => x < 256) [86; 66; 65].
Proof. exact C14_ex. Qed.

(** ** C15: bit fields *)
Theorem C15_extract_bits : forall num n k, num < 256 -> 1 <= k <= 8 -> n <= 8 ->
  ExtractBits num n k = Ok ((num / 2 ^ (k - 1)) mod 2 ^ n).
Proof. exact ExtractBits_value. Qed.
Print Assumptions C15_extract_bits.

Example C15_example : ExtractBits 180 3 3 = Ok 5 /\ ExtractBits 180 3 0 = UB.
Proof. exact C15_ex. Qed.

(** ** C16: erasing NULs *)
Theorem C16_erase_nulls : forall s, without_nuls s (erasenulls s).
Proof. exact erasenulls_spec. Qed.
Print Assumptions C16_erase_nulls.

Theorem C16_none_left : forall s, ~ In x00 (erasenulls s).
Proof. exact erasenulls_none. Qed.
Print Assumptions C16_none_left.

Theorem C16_determined : forall s t t', without_nuls s t -> without_nuls s t' -> t = t'.
Proof. exact without_nuls_fun. Qed.
Print Assumptions C16_determined.

Example C16_example : erasenulls [x00; x61; x00; x62] = [x61; x62].
Proof. exact C16_ex. Qed.
