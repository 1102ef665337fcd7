(** Readings of the texts of a workbook, used in the statements. *)
From Coq Require Import List NArith ZArith Bool Strings.String.
From Verif Require Import Lib.Res Lib.Bytes Lib.Text Common.Model Common.Utf8 Excel.Records Excel.Engine Excel.StringSpec.
Import ListNotations.
Local Open Scope N_scope.

(** The strings kept by the record with the shared strings *)
Definition strings_of (r : rec) : option (list bytes) := match r_body r with SST l _ => Some l | _ => None end.
(** What the record writes for them *)
Definition strings_json (l : list bytes) : bytes := B "[" ++ join (B ",") (map (fun s => q ++ JsonEscape s ++ q) l) ++ B "]".
Definition strings_xml (l : list bytes) : bytes := List.concat (map (fun s => B "<string>" ++ XmlEscape s ++ B "</string>") l).
(** Strings that the program reads as they are meant: characters of 7 bits in one byte; where a wide
    character has 16 bits, any character of 16 bits in two *)
Definition legible (p : platform) (s : shared) : Prop :=
  (h_wide s = false /\ ascii_text (h_text s)) \/ (h_wide s = true /\ sizeof_wchar p = 2 /\ bmp_text (h_text s)).
(** The record before was read when the list was [before], latest first: the last one of its type *)
Definition last_of_type (t : N) (before : list rec) (r : rec) : Prop :=
  exists a b, before = a ++ r :: b /\ r_type r = t /\ Forall (fun x => r_type x <> t) a.
(** A sheet with a name of two bytes per character *)
Definition wide_sheet (offset b4 b5 flags : N) (name : list N) (more : bytes) : bytes :=
  to_le 4 offset ++ [n2b b4; n2b b5; n2b (lenN name); n2b flags] ++ units 2 name ++ more.
