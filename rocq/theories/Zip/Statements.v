(** Vocabulary that mentions the objects of [Zip/Model.v]. *)
From Coq Require Import List NArith Bool Strings.String.
From Verif Require Import Lib.Res Lib.Bytes Lib.Text Lib.NumSpec Common.Model Magic.Model Magic.Spec Vba.Statements Zip.Model Zip.Spec.
Import ListNotations.
Local Open Scope N_scope.

(** [e] is the first entry with this name. *)
Definition first_entry (es : list zentry) (name : bytes) (e : zentry) : Prop :=
  exists before after, es = before ++ e :: after /\ z_name e = name /\ Forall (fun x => z_name x <> name) before.
Definition has_entry (es : list zentry) (name : bytes) : Prop := exists e, In e es /\ z_name e = name.
(** The text of a part; empty if there is none. *)
Definition part_text (es : list zentry) (name s : bytes) : Prop :=
  (exists e, first_entry es name e /\ (z_data e = Some s \/ (z_data e = None /\ s = []))) \/ (~ has_entry es name /\ s = []).
(** Some entry ends in "bin". *)
Definition has_bin (es : list zentry) : Prop := exists e, In e es /\ ends_with (z_name e) (B "bin").

(** A result that is the extension [x] and a name, and nothing more. *)
Definition just (x : bytes) (r : Result) : Prop := exists name, r = plain_result (mkExt x name [] 0 []).
Definition known_types : list (bytes * bytes) := office_types ++ excel_types ++ [(macro_type, B "vba")].
(** As the types of OpenDocument are taken: one row differs from [document_types]. *)
Definition known_mimes : list (bytes * bytes) :=
  map (fun r => (fst r, if bytes_eqb (fst r) presentation_type then B "opd" else snd r)) document_types ++ database_types.

(** The kinds of an archive: [files] by the files it has, [kinds] by types that [m] lacks. *)
Definition archive_kinds (es : list zentry) (m files kinds : list bytes) : Prop :=
  exists s mime vs xs ys,
    part_text es (B "[Content_Types].xml") s /\ part_text es (B "mimetype") mime /\
    taken_from s vs /\ known known_types vs xs /\ known known_mimes [mime] ys /\ (In macro_type vs -> ~ has_bin es) /\
    selected (has_entry es) marker_files files /\ firsts m (xs ++ ys) kinds.
(** The results for [files] and [kinds]. *)
Definition reports (es : list zentry) (l : list bytes) (ans : list Result) : Prop :=
  (l <> [] /\ Forall2 just l ans) \/ (l = [] /\ ans = [zip_result es]).
(** A part with a project of macros is declared, and there is a file for it. *)
Definition has_macros (es : list zentry) : Prop :=
  exists s vs, part_text es (B "[Content_Types].xml") s /\ taken_from s vs /\ In macro_type vs /\ has_bin es.

(** ** Documents *)
Definition digit_bit (b : bool) : bytes := if b then B "1" else B "0".
Definition method_name (e : zentry) : bytes := if z_deflate e then B "DEFLATE" else B "stored".
(** The low 32 bits as a signed number *)
Inductive as_int : N -> bytes -> Prop :=
| ai_pos k n : n < 2 ^ 31 -> as_int (k * 2 ^ 32 + n) (dec n)
| ai_neg k n : 0 < n -> n <= 2 ^ 31 -> as_int (k * 2 ^ 32 + (2 ^ 32 - n)) (B "-" ++ dec n).
Definition entry_fields (e : zentry) (csize : bytes) : list (bytes * bytes) :=
  [(B "Name", z_name e); (B "Size", dec (z_size e)); (B "CompressedSize", csize); (B "CompressionMethod", method_name e);
   (B "IsPassworded", digit_bit (z_password e)); (B "Comment", z_comment e); (B "CRC32", dec (z_crc e))].
Definition json_fields (fs : list (bytes * bytes)) : jval := JObj (map (fun f => jfield (fst f) (snd f)) fs).
Definition xml_fields (fs : list (bytes * bytes)) : xnode := XElem (B "file") (map (fun f => xfield (fst f) (snd f)) fs).
(** The descriptions of the entries, with the compressed sizes as shown *)
Inductive described {A} (f : list (bytes * bytes) -> A) : list zentry -> list A -> Prop :=
| de_nil : described f [] []
| de_cons e es c l : as_int (z_csize e) c -> described f es l -> described f (e :: es) (f (entry_fields e c) :: l).
Definition zip_object (l : list jval) : jval :=
  JObj ([jfield (B "extension") (B "zip"); jfield (B "name") (B "Zip File")] ++
        match l with [] => [] | _ => [(map b2n (B "children"), JArr l)] end).
Definition zip_element (l : list xnode) : xnode :=
  XElem (B "item") ([xfield (B "extension") (B "zip"); xfield (B "name") (B "Zip File")] ++
        match l with [] => [] | _ => [XElem (B "children") l] end).
