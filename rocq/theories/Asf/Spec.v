(** Vocabulary for the ASF properties: how a file stores objects, codec lists and texts.
    Independent of [Asf/Model.v]. *)
From Coq Require Import List NArith ZArith Bool Strings.String.
From Verif Require Import Lib.Bytes Lib.NumSpec Lib.Text Common.Spec Common.Utf8.
Import ListNotations.
Local Open Scope N_scope.

(** An object: its GUID, its size including the 24 bytes before the data, its data. *)
Definition stored (o : bytes * bytes) : bytes := fst o ++ to_le 8 (24 + lenN (snd o)) ++ snd o.
Definition stored_all (l : list (bytes * bytes)) : bytes := List.concat (map stored l).

(** GUIDs of the ASF specification, as stored (the first three fields little endian). *)
Definition header_guid : bytes := [x30; x26; xb2; x75; x8e; x66; xcf; x11; xa6; xd9; x00; xaa; x00; x62; xce; x6c].
Definition file_properties_guid : bytes := [xa1; xdc; xab; x8c; x47; xa9; xcf; x11; x8e; xe4; x00; xc0; x0c; x20; x53; x65].
Definition stream_guid : bytes := [x91; x07; xdc; xb7; xb7; xa9; xcf; x11; x8e; xe6; x00; xc0; x0c; x20; x53; x65].
Definition extension_guid : bytes := [xb5; x03; xbf; x5f; x2e; xa9; xcf; x11; x8e; xe3; x00; xc0; x0c; x20; x53; x65].
Definition content_guid : bytes := [x33; x26; xb2; x75; x8e; x66; xcf; x11; xa6; xd9; x00; xaa; x00; x62; xce; x6c].
Definition ext_content_guid : bytes := [x40; xa4; xd0; xd2; x07; xe3; xd2; x11; x97; xf0; x00; xa0; xc9; x5e; xa8; x50].
Definition codec_guid : bytes := [x40; x52; xd1; x86; x1d; x31; xd0; x11; xa3; xa4; x00; xa0; xc9; x03; x48; xf6].

(** An object whose data the program does not look into. *)
Definition opaque (o : bytes * bytes) : Prop :=
  lenN (fst o) = 16 /\
  ~ In (fst o) [header_guid; file_properties_guid; stream_guid; extension_guid; content_guid;
                ext_content_guid; codec_guid].

(** A file: the header object (count of objects, two reserved bytes, the objects), then the rest. *)
Definition asf_bytes (number : N) (r1 r2 : byte) (body rest : bytes) : bytes :=
  stored (header_guid, to_le 4 number ++ [r1; r2] ++ body) ++ rest.
Definition asf_file (number : N) (r1 r2 : byte) (objs : list (bytes * bytes)) (rest : bytes) : bytes :=
  asf_bytes number r1 r2 (stored_all objs) rest.

(** UTF-16 text of one unit per character. *)
Definition utf16 : list N -> bytes := units 2.

(** One codec: type, name and description with their lengths in characters, information. *)
Record codec := mkC { k_type : N; k_name : list N; k_desc : list N; k_info : bytes }.
Definition codec_ok (c : codec) : Prop :=
  k_type c < 65536 /\ lenN (k_name c) < 65536 /\ lenN (k_desc c) < 65536 /\ lenN (k_info c) < 65536 /\
  Forall (fun u => u < 65536) (k_name c) /\ Forall (fun u => u < 65536) (k_desc c).
Definition codec_bytes (c : codec) : bytes :=
  to_le 2 (k_type c) ++ to_le 2 (lenN (k_name c)) ++ utf16 (k_name c) ++
  to_le 2 (lenN (k_desc c)) ++ utf16 (k_desc c) ++ to_le 2 (lenN (k_info c)) ++ k_info c.
Definition codec_data (reserved : bytes) (l : list codec) : bytes :=
  reserved ++ to_le 4 (lenN l) ++ List.concat (map codec_bytes l).

(** ASCII text as UTF-16, with a terminating zero. *)
Definition ascii16 (s : bytes) : list N := map b2n s ++ [0].

(** A content description: five lengths in bytes, then the five texts. *)
Definition content_texts (a b c d e : list N) : bytes :=
  to_le 2 (2 * lenN a) ++ to_le 2 (2 * lenN b) ++ to_le 2 (2 * lenN c) ++ to_le 2 (2 * lenN d) ++ to_le 2 (2 * lenN e) ++
  utf16 a ++ utf16 b ++ utf16 c ++ utf16 d ++ utf16 e.

(** Stream properties: two GUIDs, a time, the lengths of the two data blocks, flags, a
    reserved number, the blocks. *)
Definition stream_data (type correction : bytes) (time flags reserved : N) (own corr : bytes) : bytes :=
  type ++ correction ++ to_le 8 time ++ to_le 4 (lenN own) ++ to_le 4 (lenN corr) ++ to_le 2 flags ++
  to_le 4 reserved ++ own ++ corr.

(** One attribute of an extended content description: a name and a typed value. *)
Inductive avalue :=
| VText (u : list N) | VBytes (b : bytes) | VBool (b : bool) | VDword (n : N) | VQword (n : N) | VWord (n : N).
Definition avalue_type (v : avalue) : N :=
  match v with VText _ => 0 | VBytes _ => 1 | VBool _ => 2 | VDword _ => 3 | VQword _ => 4 | VWord _ => 5 end.
Definition avalue_bytes (v : avalue) : bytes :=
  match v with
  | VText u => utf16 u
  | VBytes b => b
  | VBool b => to_le 4 (if b then 1 else 0)
  | VDword n => to_le 4 n
  | VQword n => to_le 8 n
  | VWord n => to_le 2 n
  end.
Definition avalue_ok (v : avalue) : Prop :=
  lenN (avalue_bytes v) < 65536 /\
  match v with
  | VText u => Forall (fun c => c < 65536 /\ scalar c) u
  | VDword n => n < 2 ^ 32
  | VQword n => n < 2 ^ 64
  | VWord n => n < 2 ^ 16
  | _ => True
  end.
Definition attribute : Type := list N * avalue.
Definition attribute_ok (a : attribute) : Prop :=
  2 * lenN (fst a) < 65536 /\ Forall (fun c => c < 65536 /\ scalar c) (fst a) /\ avalue_ok (snd a).
Definition attribute_bytes (a : attribute) : bytes :=
  to_le 2 (2 * lenN (fst a)) ++ utf16 (fst a) ++ to_le 2 (avalue_type (snd a)) ++
  to_le 2 (lenN (avalue_bytes (snd a))) ++ avalue_bytes (snd a).
Definition attributes_data (l : list attribute) : bytes :=
  to_le 2 (lenN l) ++ List.concat (map attribute_bytes l).

(** The characters of a text that are shown: all but the zero ones. *)
Definition nonzero_chars (u : list N) : list N := filter (fun c => negb (c =? 0)) u.
(** The text that shows a value; [dword] is the number shown for a 32-bit number. *)
Definition value_text (dword : N -> N) (v : avalue) (s : bytes) : Prop :=
  match v with
  | VText u => utf8 s (nonzero_chars u)
  | VBytes b => hex_dump s b
  | VBool b => s = if b then B "true" else B "false"
  | VDword n => dec_num s = Some (dword n)
  | VQword n | VWord n => dec_num s = Some n
  end.
Definition attribute_text (dword : N -> N) (a : attribute) (shown : bytes * bytes) : Prop :=
  utf8 (fst shown) (nonzero_chars (fst a)) /\ value_text dword (snd a) (snd shown).
(** The number with the bytes of [n] in the opposite order. *)
Definition reversed (n : N) : N := be (to_le 4 n).
