(** Property set streams as [MS-OLEPS] describes them.  Independent of [Propset/Model.v]. *)
From Coq Require Import List NArith ZArith Bool Strings.String.
From Verif Require Import Lib.Bytes Common.Spec Common.Fields Common.Utf8.
Import ListNotations.
Local Open Scope N_scope.

(** A stored value: numbers, a truth value, a point in time or a duration in units of 100 ns, a
    string of bytes ([type] is VT_BSTR or VT_LPSTR), a string of 16-bit units without its
    terminator, the name of a stream or storage, or something of another type. *)
Inductive stored :=
| SI2 (z : Z)
| SI4 (z : Z)
| SR4 (bits : N)
| SR8 (bits : N)
| SBool (b : bool)
| STime (ticks : N)
| SText (type : N) (s : bytes)
| SWide (u : list N)
| SName (type : N) (s : bytes)
| SOther (type : N).

Definition type_of (v : stored) : N :=
  match v with
  | SI2 _ => 2 | SI4 _ => 3 | SR4 _ => 4 | SR8 _ => 5 | SBool _ => 11 | STime _ => 64
  | SText t _ => t | SWide _ => 31 | SName t _ => t | SOther t => t
  end.

Definition other_type (t : N) : Prop := ~ In t [2; 3; 4; 5; 8; 11; 30; 31; 64; 66; 67; 68; 69].

(** What follows the four bytes of the type. *)
Inductive data_at (buf : bytes) (off : N) : stored -> Prop :=
| at_i2 n z : number_at buf off 2 n -> twos_complement 16 n z -> data_at buf off (SI2 z)
| at_i4 n z : number_at buf off 4 n -> twos_complement 32 n z -> data_at buf off (SI4 z)
| at_r4 n : number_at buf off 4 n -> data_at buf off (SR4 n)
| at_r8 n : number_at buf off 8 n -> data_at buf off (SR8 n)
| at_true : number_at buf off 2 65535 -> data_at buf off (SBool true)
| at_false : number_at buf off 2 0 -> data_at buf off (SBool false)
| at_time n : number_at buf off 8 n -> data_at buf off (STime n)
| at_text t s : In t [8; 30] -> number_at buf off 4 (lenN s) -> window buf (off + 4) (lenN s) s ->
    data_at buf off (SText t s)
| at_wide u : Forall (fun c => c < 65536) u -> number_at buf off 4 (lenN u + 1) ->
    window buf (off + 4) (2 * lenN u) (units 2 u) -> data_at buf off (SWide u)
| at_name t s : In t [66; 67; 68; 69] -> number_at buf off 4 (lenN s) -> window buf (off + 4) (lenN s) s ->
    data_at buf off (SName t s)
| at_other t : other_type t -> data_at buf off (SOther t).

Definition value_at (buf : bytes) (off : N) (v : stored) : Prop :=
  number_at buf off 2 (type_of v) /\ data_at buf (off + 4) v.

(** A property: its identifier, where its value is (from the start of its set), the value. *)
Record entry := mkEntry { e_id : N; e_offset : N; e_value : stored }.
(** A set: its format identifier, where it starts in the stream, its properties. *)
Record pset := mkPset { s_format : bytes; s_start : N; s_entries : list entry }.

Definition entry_in (buf : bytes) (start j : N) (e : entry) : Prop :=
  number_at buf (start + 8 + 8 * j) 4 (e_id e) /\ number_at buf (start + 12 + 8 * j) 4 (e_offset e) /\
  value_at buf (start + e_offset e) (e_value e).
Definition set_in (buf : bytes) (i : N) (s : pset) : Prop :=
  window buf (28 + 20 * i) 16 (s_format s) /\ number_at buf (44 + 20 * i) 4 (s_start s) /\
  number_at buf (s_start s + 4) 4 (lenN (s_entries s)) /\
  forall j e, nthN (s_entries s) j = Some e -> entry_in buf (s_start s) j e.
(** The stream holds these sets. *)
Definition property_sets (buf : bytes) (sets : list pset) : Prop :=
  number_at buf 24 4 (lenN sets) /\ forall i s, nthN sets i = Some s -> set_in buf i s.

(** ** Numbers in binary floating point (IEEE 754)

    [significand * 2 ^ exponent], for a format with [f] fraction bits and a largest exponent field
    [top], which is reserved. *)
Definition field (bits f top : N) : N := bits / 2 ^ f mod (top + 1).
Definition fraction (bits f : N) : N := bits mod 2 ^ f.
Inductive ieee (f top : N) (bias : Z) (bits : N) : N -> Z -> Prop :=
| ieee_small : field bits f top = 0 -> ieee f top bias bits (fraction bits f) (1 - bias)
| ieee_normal : 0 < field bits f top -> field bits f top < top ->
    ieee f top bias bits (2 ^ f + fraction bits f) (Z.of_N (field bits f top) - bias).
Definition single : N -> N -> Z -> Prop := ieee 23 255 150.
Definition double_precision : N -> N -> Z -> Prop := ieee 52 2047 1075.

(** The decimal number [m * 10 ^ e] is the nearest one with six digits to the fraction
    [num / den], which is between [10 ^ 5 * 10 ^ e] and [10 ^ 6 * 10 ^ e]. *)
Definition times10 (e : Z) (n : N) : N := n * 10 ^ Z.to_N e.
Definition times2 (e : Z) (n : N) : N := n * 2 ^ Z.to_N e.
Definition six_digits_of (num den m : N) (e : Z) : Prop :=
  let a := times10 (- e) num in
  let b := times10 e den in
  100000 <= m <= 1000000 /\ 100000 * b <= a /\ a < 1000000 * b /\ 2 * a <= (2 * m + 1) * b /\ (2 * m - 1) * b <= 2 * a.

(** ** Format identifiers, by their printed form *)
Definition guid (a b c : N) (d : list N) : bytes := to_le 4 a ++ to_le 2 b ++ to_le 2 c ++ map n2b d.
(** F29F85E0-4FF9-1068-AB91-08002B27B3D9 *)
Definition fmtid_summary : bytes := guid 0xF29F85E0 0x4FF9 0x1068 [0xAB; 0x91; 0x08; 0x00; 0x2B; 0x27; 0xB3; 0xD9].
(** D5CDD502-2E9C-101B-9397-08002B2CF9AE *)
Definition fmtid_document : bytes := guid 0xD5CDD502 0x2E9C 0x101B [0x93; 0x97; 0x08; 0x00; 0x2B; 0x2C; 0xF9; 0xAE].
(** D5CDD505-2E9C-101B-9397-08002B2CF9AE *)
Definition fmtid_user : bytes := guid 0xD5CDD505 0x2E9C 0x101B [0x93; 0x97; 0x08; 0x00; 0x2B; 0x2C; 0xF9; 0xAE].

(** A 32-bit number and the one with its four bytes in the opposite order. *)
Definition byte_reversed (z z' : Z) : Prop :=
  exists n, n < 2 ^ 32 /\ twos_complement 32 n z /\ twos_complement 32 (be (to_le 4 n)) z'.

(** ** The tables alone

    The table of set [i]: its format identifier, its start, and the identifiers and offsets of its
    properties; nothing is said about the values. *)
Record table := mkTable { t_format : bytes; t_start : N; t_rows : list (N * N) }.
Definition table_in (buf : bytes) (i : N) (t : table) : Prop :=
  window buf (28 + 20 * i) 16 (t_format t) /\ number_at buf (44 + 20 * i) 4 (t_start t) /\
  number_at buf (t_start t + 4) 4 (lenN (t_rows t)) /\
  forall j e, nthN (t_rows t) j = Some e ->
    number_at buf (t_start t + 8 + 8 * j) 4 (fst e) /\ number_at buf (t_start t + 12 + 8 * j) 4 (snd e).
Definition tables_in (buf : bytes) (ts : list table) : Prop :=
  number_at buf 24 4 (lenN ts) /\ forall i t, nthN ts i = Some t -> table_in buf i t.
(** The places of the values. *)
Definition places (ts : list table) : list (N * N) :=
  flat_map (fun t => map (fun e => (fst e, t_start t + snd e)) (t_rows t)) ts.

(** ** Where reading a value leaves the stream

    The value is of type [t] and stored at [off].  The checks accept an end one byte too late, and
    compare sums modulo 2^32. *)
Definition wraps (buf : bytes) (off n : N) : Prop := 2 ^ 32 <= off + 8 + n /\ off + 8 + n - 2 ^ 32 <= lenN buf.
Definition value_overrun (buf : bytes) (off t : N) : Prop :=
  (In t [2; 11] /\ lenN buf = off + 5) \/
  (In t [3; 8; 30; 31; 64; 66; 67; 68; 69] /\ lenN buf = off + 7) \/
  (t = 64 /\ lenN buf = off + 11) \/
  (In t [8; 30] /\ exists n, number_at buf (off + 4) 4 n /\ wraps buf off n) \/
  (In t [31; 66; 67; 68; 69] /\ exists n, number_at buf (off + 4) 4 n /\ wraps buf off ((2 * n + 2 ^ 32 - 2) mod 2 ^ 32)).

(** ** The names of types *)
Definition plain_types : list (N * bytes) :=
  [(0, B "VT_EMPTY"); (1, B "VT_NULL"); (2, B "VT_I2"); (3, B "VT_I4"); (4, B "VT_R4"); (5, B "VT_R8");
   (6, B "VT_CY"); (7, B "VT_DATE"); (8, B "VT_BSTR"); (10, B "VT_ERROR"); (11, B "VT_BOOL"); (14, B "VT_DECIMAL");
   (16, B "VT_I1"); (17, B "VT_UI1"); (18, B "VT_UI2"); (19, B "VT_UI4"); (20, B "VT_I8"); (21, B "VT_UI8");
   (22, B "VT_INT"); (23, B "VT_UINT"); (30, B "VT_LPSTR"); (31, B "VT_LPWSTR"); (64, B "VT_FILETIME");
   (65, B "VT_BLOB"); (66, B "VT_STREAM"); (67, B "VT_STORAGE"); (68, B "VT_STREAMED_OBJECT");
   (69, B "VT_STORED_OBJECT"); (70, B "VT_BLOB_OBJECT"); (71, B "VT_CF"); (72, B "VT_CLSID");
   (73, B "VT_VERSIONED_STREAM")].
(** What vectors and arrays may hold; values of any type as well. *)
Definition element_types : list (N * bytes) := (12, B "VT_VARIANT") :: plain_types.
Definition vector_elements : list N := [2; 3; 4; 5; 6; 7; 8; 10; 11; 12; 16; 17; 18; 19; 20; 21; 30; 31; 64; 71; 72].
Definition array_elements : list N := [2; 3; 4; 5; 6; 7; 8; 10; 11; 12; 14; 16; 17; 18; 19; 22; 23].
Inductive type_named : N -> bytes -> Prop :=
| tn_plain t s : In (t, s) plain_types -> type_named t s
| tn_vector t s : In t vector_elements -> In (t, s) element_types -> type_named (4096 + t) (B "VT_VECTOR|" ++ s)
| tn_array t s : In t array_elements -> In (t, s) element_types -> type_named (8192 + t) (B "VT_ARRAY|" ++ s).

(** ** The names of properties: [MS-OLEPS] 2.18 and 3.1, [MS-OSHARED] 2.3.3.2 *)
Definition summary_properties : list (N * bytes) :=
  [(1, B "CodePage"); (2, B "Title"); (3, B "Subject"); (4, B "Author"); (5, B "Keywords"); (6, B "Comments");
   (7, B "Template"); (8, B "Last Author"); (9, B "Revision"); (10, B "Edit Time"); (11, B "Last Printed");
   (12, B "Creation Time"); (13, B "Last Save Time"); (14, B "Page Count"); (15, B "Word Count");
   (16, B "Character Count"); (17, B "Thumbnail"); (18, B "Application"); (19, B "DocSecurity")].
Definition document_properties : list (N * bytes) :=
  [(1, B "CodePage"); (2, B "Category"); (3, B "PresentationTarget"); (4, B "Bytes"); (5, B "Lines");
   (6, B "Paragraphs"); (7, B "Slides"); (8, B "Notes"); (9, B "HiddenSlides"); (10, B "MMClips");
   (11, B "ScaleCrop"); (12, B "HeadingPairs"); (13, B "TitlesofParts"); (14, B "Manager"); (15, B "Company");
   (16, B "LinksUpToDate")].
