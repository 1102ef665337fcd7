(** Vocabulary for the texts of a workbook.  Independent of the model in this directory. *)
From Coq Require Import List NArith ZArith Bool Strings.String.
From Verif Require Import Lib.Bytes Lib.Text Common.Utf8.
Import ListNotations.
Local Open Scope N_scope.

(** ** Shared strings: [MS-XLS] 2.5.293.  The characters, stored in two bytes each or in one, the
    formatting runs of four bytes and the phonetic data *)
Record shared := mkShared { h_wide : bool; h_text : list N; h_runs : option (list N); h_phonetic : option bytes }.
Definition flag {A} (k : N) (o : option A) : N := match o with Some _ => k | None => 0 end.
Definition shared_flags (s : shared) : N :=
  (if h_wide s then 1 else 0) + flag 4 (h_phonetic s) + flag 8 (h_runs s).
Definition characters (w : bool) (l : list N) : bytes := if w then units 2 l else map n2b l.
Definition shared_bytes (s : shared) : bytes :=
  to_le 2 (lenN (h_text s)) ++ [n2b (shared_flags s)] ++
  match h_runs s with Some r => to_le 2 (lenN r) | None => [] end ++
  match h_phonetic s with Some e => to_le 4 (lenN e) | None => [] end ++
  characters (h_wide s) (h_text s) ++
  match h_runs s with Some r => units 4 r | None => [] end ++
  match h_phonetic s with Some e => e | None => [] end.
Definition shared_ok (s : shared) : Prop :=
  lenN (h_text s) < 2 ^ 16 /\ Forall (fun c => c < if h_wide s then 2 ^ 16 else 2 ^ 8) (h_text s) /\
  match h_runs s with Some r => lenN r < 2 ^ 16 | None => True end /\
  match h_phonetic s with Some e => lenN e < 2 ^ 31 | None => True end.
(** without formatting runs and phonetic data *)
Definition simple (s : shared) : Prop := h_runs s = None /\ h_phonetic s = None.

(** the record with the shared strings, [MS-XLS] 2.4.265: how often they are used, and the strings *)
Definition sst_data (total : N) (l : list shared) : bytes :=
  to_le 4 total ++ to_le 4 (lenN l) ++ List.concat (map shared_bytes l).
(** the record of a cell with a shared string, [MS-XLS] 2.4.149; [more] does not belong to it *)
Definition label_sst (rw col ixfe i : N) (more : bytes) : bytes :=
  to_le 2 rw ++ to_le 2 col ++ to_le 2 ixfe ++ to_le 4 i ++ more.

(** Characters of 7 bits; 16-bit characters that are neither 0 nor half of a pair *)
Definition ascii_text (l : list N) : Prop := Forall (fun c => c < 128) l.
Definition bmp_text (l : list N) : Prop := Forall (fun c => 0 < c < 2 ^ 16 /\ scalar c) l.
