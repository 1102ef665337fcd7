(** Example workbook streams. *)
From Coq Require Import List NArith ZArith Bool Strings.String.
From Verif Require Import Lib.Res Lib.Bytes Lib.Text Common.Model Excel.Model Excel.Records Excel.Engine Excel.Spec.
Import ListNotations.
Local Open Scope N_scope.

Definition bof8 (kind : N) : bytes :=
  to_le 2 0x600 ++ to_le 2 kind ++ to_le 2 0x1FAA ++ to_le 2 1997 ++ to_le 4 0xC1 ++ to_le 4 0x306.
Definition bound (offset : N) (name : string) : bytes :=
  to_le 4 offset ++ [x00; x00] ++ [n2b (lenN (B name)); x00] ++ B name.
Definition text_of (s : string) : bytes := to_le 2 (lenN (B s)) ++ [x00] ++ B s.
Definition globals (a b : N) : list (N * bytes) :=
  [(0x809, bof8 5); (0x42, to_le 2 1200); (0x5C, text_of "me"); (0x8C, to_le 2 1 ++ to_le 2 44);
   (0x85, bound a "First"); (0x85, bound b "Second");
   (0xFC, to_le 4 3 ++ to_le 4 2 ++ text_of "alpha" ++ text_of "be""ta" ++ [x00]);
   (0x18, to_le 2 0 ++ [x00; x03] ++ to_le 2 0 ++ repeat x00 8 ++ [x00] ++ B "nam"); (0x0A, [])].
Definition formula : bytes :=
  to_le 2 4 ++ to_le 2 1 ++ to_le 2 15 ++ to_le 8 0x3FF8000000000000 ++ to_le 6 0 ++ to_le 2 7 ++
  [x1e; x05; x00; x24; x00; x00; x01; xc0; x03; x23; x01; x00; x00; x00].
Definition sheet1 : list (N * bytes) :=
  [(0x809, bof8 16); (0x06, formula); (0x27E, rk_data 0 1 15 (4 * 1234 + 2)); (0x0A, [])].
Definition sheet2 : list (N * bytes) :=
  [(0x809, bof8 16); (0x208, to_le 8 0 ++ to_le 8 0x0001000100010001); (0x0A, [])].
Definition first_at : N := lenN (stream_of (globals 0 0)).
Definition second_at : N := lenN (stream_of (globals 0 0 ++ sheet1)).
Definition book_records : list (N * bytes) := globals first_at second_at ++ sheet1 ++ sheet2.
Definition book : bytes := stream_of book_records.
Definition said_text (e : exn) : bytes := B "bad".
(** The result for the example *)
Definition book_info : excel_info :=
  match Detailer linux64 said_text book with Ok x => x | _ => mkExcel (mkExt [] [] [] 0 []) [] [] [] end.

(** A workbook of plain records *)
Definition plain_book (last : N * bytes) : bytes :=
  stream_of ([(0x809, bof8 5); (0x22, to_le 2 0); (0x1234, B "abc")] ++ [last]).
(** A workbook with one record between the first and the last *)
Definition one_book (t : N) (d : bytes) : bytes := stream_of ([(0x809, bof8 5); (t, d)] ++ [(0x0A, [])]).
