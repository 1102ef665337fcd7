(** What the items of data.xml say, apart from the script. *)
From Coq Require Import List NArith Bool Strings.String.
From Verif Require Import Lib.Res Lib.Bytes Lib.Text Common.Model Common.Spec Magic.Table Detect.Model Gen.Model.
Import ListNotations.
Local Open Scope N_scope.

(** Digits of the base 16 in both cases. *)
Definition hex_digit (d : N) (c : byte) : Prop :=
  (d < 10 /\ b2n c = 48 + d) \/ (10 <= d < 16 /\ (b2n c = 55 + d \/ b2n c = 87 + d)).
(** The byte [v] as [0xHH]. *)
Definition hex_byte (v : byte) (t : bytes) : Prop :=
  exists x h l, t = [x30; x; h; l] /\ (x = x78 \/ x = x58) /\ hex_digit (b2n v / 16) h /\ hex_digit (b2n v mod 16) l.
(** Bytes with commas between them. *)
Inductive hex_bytes : bytes -> bytes -> Prop :=
| hb_one v t : hex_byte v t -> hex_bytes [v] t
| hb_more v t vs ts : hex_byte v t -> hex_bytes vs ts -> hex_bytes (v :: vs) (t ++ [x2c] ++ ts).
(** Text that stands for itself. *)
Definition ascii_text (t : bytes) : Prop := t <> [] /\ Forall (fun c => b2n c < 128) t /\ ~ In x2c t.
(** The bytes of a signature as an item writes them: in hexadecimal, or as text that does not begin so. *)
Definition written (t bs : bytes) : Prop :=
  hex_bytes bs t \/ (ascii_text t /\ (forall v p r, hex_byte v p -> t <> p ++ r) /\ bs = t).

(** A decimal number without leading zeros. *)
Fixpoint decimal_digits (acc : N) (t : bytes) : N := match t with [] => acc | c :: r => decimal_digits (10 * acc + (b2n c - 48)) r end.
Definition decimal (t : bytes) (n : N) : Prop :=
  t <> [] /\ Forall (fun c => 48 <= b2n c <= 57) t /\ (hd x30 t = x30 -> t = [x30]) /\ decimal_digits 0 t = n.
(** The value of an attribute whose name is written in this case; absent values are given. *)
Definition value_is (i : item) (name : string) (absent v : bytes) : Prop :=
  In (B name, v) (it_attributes i) \/ ((forall w, ~ In (B name, w) (it_attributes i)) /\ v = absent).

(** Names a C++ program may have: letters, digits and low lines, behind [magic_]. *)
Definition identifier_tail (t : bytes) : Prop :=
  Forall (fun c => 48 <= b2n c <= 57 \/ 65 <= b2n c <= 90 \/ b2n c = 95 \/ 97 <= b2n c <= 122) t.

(** The functions by their names. *)
Definition parser_names : list (bytes * option parser) :=
  [(B "nullptr", None); (B "Exec::Detailer", Some PExec); (B "Exec::MachO::Detailer", Some PMachO); (B "zip::Detailer", Some PZip);
   (B "oless::Detailer", Some POless); (B "document::dwg::DwgHelper", Some PDwg); (B "document::wp::Detailer", Some PWordPerfect);
   (B "media::mp4::Detailer", Some PMp4); (B "media::asf::Detailer", Some PAsf); (B "media::riff::RIFFHelper", Some PRiff);
   (B "media::jpeg::Detailer", Some PJpeg)].
Definition detail_names : list (bytes * option detail) :=
  [(B "nullptr", None); (B "document::word::Detailer", Some DWord); (B "oless::excel::Detailer", Some DExcel);
   (B "document::powerpoint::Detailer", Some DPowerPoint); (B "document::publisher::Detailer", Some DPublisher);
   (B "document::visio::Detailer", Some DVisio); (B "document::wp::StreamDetailer", Some DWordPerfect); (B "document::msi::Detailer", Some DMsi)].
(** What an item says about files. *)
Definition says (i : item) (m : MagicInfo) : Prop :=
  value_is i "extension" [] (mi_ext m) /\ value_is i "name" [] (mi_name m) /\ value_is i "version" [] (mi_version m) /\
  (exists t, value_is i "offset" (B "0") t /\ decimal t (mi_offset m)) /\
  (exists t, value_is i "extra" (B "nullptr") t /\ In (t, mi_func m) parser_names) /\
  written (it_text i) (mi_magic m) /\ mi_size m = lenN (mi_magic m).

(** Text with [\uHHHH] for characters. *)
Inductive wide_text : bytes -> list N -> Prop :=
| wt_end : wide_text [] []
| wt_plain c t w : b2n c < 128 -> c <> x5c -> c <> x22 -> wide_text t w -> wide_text (c :: t) (b2n c :: w)
| wt_escape d1 d2 d3 d4 c1 c2 c3 c4 t w : hex_digit d1 c1 -> hex_digit d2 c2 -> hex_digit d3 c3 -> hex_digit d4 c4 -> wide_text t w ->
    wide_text ([x5c; x75; c1; c2; c3; c4] ++ t) (4096 * d1 + 256 * d2 + 16 * d3 + d4 :: w).
(** What an item says about entries of compound files. *)
Definition says_ole (i : item) (m : OlessInfo) : Prop :=
  value_is i "extension" [] (oi_Extension m) /\ value_is i "name" [] (oi_Name m) /\ value_is i "version" [] (oi_Version m) /\
  value_is i "ignoreCase" (B "False") (if oi_ignoreCase m then B "True" else B "False") /\
  (exists t, value_is i "extra" (B "nullptr") t /\ In (t, oi_extraFunc m) detail_names) /\ wide_text (it_text i) (oi_matcher m).

(** The file has the bytes of the item at its offset. *)
Definition has_signature (content : bytes) (i : item) : Prop :=
  exists bs t off, written (it_text i) bs /\ value_is i "offset" (B "0") t /\ decimal t off /\ occurs_at bs content off.
(** The result for such a file when no other function is named; the version becomes the subtype. *)
Definition described (i : item) (e : ExtensionInfo) : Prop :=
  value_is i "extension" [] (Extension e) /\ value_is i "name" [] (Name e) /\ value_is i "version" [] (SubType e).
