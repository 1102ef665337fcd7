(** Properties C92-C97: workbooks.  Statements only; the vocabulary is in [Excel/Spec.v] and
    [Excel/Statements.v], the examples in [Excel/Samples.v] and [Excel/PropertyLemmas.v]. *)
From Coq Require Import List NArith ZArith Bool Strings.String Strings.Byte.
From Verif Require Import Lib.Res Lib.Bytes Lib.Text Common.Model Excel.Number Excel.Model Excel.Records Excel.Engine
     Excel.Spec Excel.Statements Excel.Samples Excel.PropertyLemmas.
From Verif Require Propset.Spec Propset.Statements Magic.Spec.
Import ListNotations.
Local Open Scope N_scope.
Notation column := Excel.Spec.column.

(** ** C92: the records of a workbook stream *)
Theorem C92_records_in_order : forall p what (S : bytes) x, lenN S < 2 ^ 30 -> has_text what -> Detailer p what S = Ok x ->
  exists a c, seen S = a ++ c /\ reported a (entries x) /\ (x_error x = [] <-> c = []).
Proof. exact C92_reported. Qed.
Print Assumptions C92_records_in_order.

Theorem C92_records_seen : forall l r, Forall record_ok l -> record_ok r -> seen (stream_of (l ++ [r])) = without_last_data l r.
Proof. exact C92_stream. Qed.
Print Assumptions C92_records_seen.

Theorem C92_plain_streams : forall p what t d l r, Forall record_ok ((t, d) :: l) -> record_ok r ->
  lenN (stream_of ((t, d) :: l ++ [r])) < 2 ^ 30 -> begins_stream t -> 2 <= lenN d ->
  Forall (fun r => ~ In (fst r) content_types) ((t, d) :: l ++ [r]) ->
  exists x, Detailer p what (stream_of ((t, d) :: l ++ [r])) = Ok x /\ x_error x = [] /\
    entries x = without_last_data ((t, d) :: l) r.
Proof. exact C92_plain. Qed.
Print Assumptions C92_plain_streams.

Theorem C92_last_record_refuted : forall p what, exists l r, Forall record_ok (l ++ [r]) /\
  exists x, Detailer p what (stream_of (l ++ [r])) = Ok x /\ entries x = l.
Proof. exact C92_end. Qed.
Print Assumptions C92_last_record_refuted.

Theorem C92_data_of_last_record_refuted : forall p what, exists l t d, Forall record_ok (l ++ [(t, d)]) /\ d <> [] /\
  exists x, Detailer p what (stream_of (l ++ [(t, d)])) = Ok x /\ entries x = l ++ [(t, [])].
Proof. exact C92_data. Qed.
Print Assumptions C92_data_of_last_record_refuted.

Example C92_example : seen book = without_last_data (removelast book_records) (0x0A, []) /\ entries book_info = seen book /\ x_error book_info = [].
Proof. exact C92_ex. Qed.

(** ** C93: the version of a workbook *)
Theorem C93_version_of_first_record : forall p what (S : bytes) x, lenN S < 2 ^ 30 -> Detailer p what S = Ok x ->
  exists t d more name, seen S = (t, d) :: more /\ begins_stream t /\ 2 <= lenN d /\
    version_name (le (takeN 2 d)) name /\
    x_ext x = mkExt (B "xls") (B "Microsoft Office Excel Workbook") name (le (takeN 2 d)) name.
Proof. exact C93_version. Qed.
Print Assumptions C93_version_of_first_record.

Theorem C93_no_version : forall p what (S : bytes), lenN S < 2 ^ 30 ->
  (forall t d more, seen S = (t, d) :: more -> ~ begins_stream t) -> Detailer p what S = UB.
Proof. exact C93_unset. Qed.
Print Assumptions C93_no_version.

Theorem C93_short_first_record : forall p what (S : bytes) t d more, lenN S < 2 ^ 30 -> seen S = (t, d) :: more -> lenN d < 2 -> Detailer p what S = UB.
Proof. exact C93_short. Qed.
Print Assumptions C93_short_first_record.

Theorem C93_any_stream_refuted : forall p what, exists S, Detailer p what S = UB.
Proof. exact C93_empty. Qed.
Print Assumptions C93_any_stream_refuted.

Example C93_example : x_ext book_info = mkExt (B "xls") (B "Microsoft Office Excel Workbook") (B "BIFF8") 0x600 (B "BIFF8").
Proof. exact C93_ex. Qed.

(** ** C94: the sheets of a workbook *)
Theorem C94_sheets_named : forall p what (S : bytes) x, lenN S < 2 ^ 30 -> Detailer p what S = Ok x -> Version (x_ext x) = 0x600 ->
  Forall2 sheet_for (sheet_records (entries x)) (x_sheets x).
Proof. exact C94_sheets. Qed.
Print Assumptions C94_sheets_named.

Theorem C94_records_in_their_sheets : forall p what (S : bytes) x, lenN S < 2 ^ 30 -> Detailer p what S = Ok x ->
  exists a c, seen S = a ++ c /\
    placed (place_of (Version (x_ext x))) place_start a (map (fun e => (entry e, snd e)) (x_list x)) /\
    (x_error x = [] -> has_text what -> c = []).
Proof. exact C94_places. Qed.
Print Assumptions C94_records_in_their_sheets.

Example C94_example : map snd (x_list book_info) =
    repeat None 9 ++ repeat (Some 0) 4 ++ repeat (Some 1) 2 /\
  x_sheets book_info = [mkSheet (B "First") 0 0 first_at; mkSheet (B "Second") 0 0 second_at].
Proof. exact C94_ex. Qed.

(** ** C95: names of columns and cells *)
Theorem C95_column_names : forall n, n < 2 ^ 16 -> column n (ColNumToName n).
Proof. exact C95_columns. Qed.
Print Assumptions C95_column_names.

Theorem C95_column_names_unique : forall n s t, column n s -> column n t -> s = t.
Proof. exact C95_unique. Qed.
Print Assumptions C95_column_names_unique.

Theorem C95_cell_of_a_formula : forall p before d r, built p before 0x600 0x06 d r -> le (takeN 2 (dropN 2 d)) < 2 ^ 16 - 1 ->
  exists s, shows p r "Cell" (Str s) /\ a1 (le (takeN 2 d)) (le (takeN 2 (dropN 2 d))) s.
Proof. exact C95_formula. Qed.
Print Assumptions C95_cell_of_a_formula.

Theorem C95_cell_of_a_number : forall p before rw col ixfe x, rw < 2 ^ 16 -> col < 2 ^ 16 -> ixfe < 2 ^ 16 -> x < 2 ^ 32 ->
  exists r s c, built p before 0x600 0x27E (rk_data rw col ixfe x) r /\ shows p r "Cell" (Str s) /\
    column col c /\ s = c ++ dec (rw + 1).
Proof. exact C95_rk. Qed.
Print Assumptions C95_cell_of_a_number.

Theorem C95_columns_of_blank_cells : forall p before d r, built p before 0x600 0xBE d r -> 4 <= lenN d ->
  exists s, shows p r "colFirst" (Str s) /\ column (le (takeN 2 (dropN 2 d))) s.
Proof. exact C95_mulblank. Qed.
Print Assumptions C95_columns_of_blank_cells.

Theorem C95_other_cells : forall p before t d r, In t [0x201; 0x205; 0xFD] -> built p before 0x600 t d r ->
  (lenN d < 16 -> fields p r = UB) /\
  (16 <= lenN d -> le (takeN 2 (dropN 14 d)) < 2 ^ 16 - 1 ->
   exists s, shows p r "Cell" (Str s) /\ a1 (le (takeN 2 (dropN 12 d))) (le (takeN 2 (dropN 14 d))) s).
Proof. exact C95_other_bytes. Qed.
Print Assumptions C95_other_cells.

Theorem C95_cell_of_a_number_refuted : forall p before, exists rw col ixfe x r s, built p before 0x600 0x27E (rk_data rw col ixfe x) r /\
  shows p r "Cell" (Str s) /\ ~ a1 rw col s.
Proof. exact C95_refuted. Qed.
Print Assumptions C95_cell_of_a_number_refuted.

Example C95_example : column 28 (B "AB") /\ a1 4 1 (B "B5") /\
  exists r, built linux64 [] 0x600 0x06 formula r /\ shows linux64 r "Cell" (Str (B "B5")).
Proof. exact C95_ex. Qed.

(** ** C96: numbers of cells *)
Theorem C96_whole_numbers : forall p before rw col ixfe x, rw < 2 ^ 16 -> col < 2 ^ 16 -> ixfe < 2 ^ 16 -> x < 2 ^ 32 ->
  rk_integer x = true -> rk_hundredths x = false -> (0 <= rk_int x)%Z ->
  rk_reported p before rw col ixfe x (dec_z (rk_int x)).
Proof. exact C96_whole. Qed.
Print Assumptions C96_whole_numbers.

Theorem C96_negative_numbers : forall p before rw col ixfe x, rw < 2 ^ 16 -> col < 2 ^ 16 -> ixfe < 2 ^ 16 -> x < 2 ^ 32 ->
  rk_integer x = true -> rk_hundredths x = false -> (rk_int x < 0)%Z ->
  rk_reported p before rw col ixfe x (dec_z (rk_int x + 2 ^ 30)).
Proof. exact C96_negative. Qed.
Print Assumptions C96_negative_numbers.

Theorem C96_hundredths : forall p before rw col ixfe x, rw < 2 ^ 16 -> col < 2 ^ 16 -> ixfe < 2 ^ 16 -> x < 2 ^ 32 ->
  rk_integer x = true -> rk_hundredths x = true -> (0 <= rk_int x)%Z ->
  rk_reported p before rw col ixfe x (dec_z (rk_int x / 100)).
Proof. exact C96_cents. Qed.
Print Assumptions C96_hundredths.

Theorem C96_negative_hundredths : forall p before rw col ixfe x, rw < 2 ^ 16 -> col < 2 ^ 16 -> ixfe < 2 ^ 16 -> x < 2 ^ 32 ->
  rk_integer x = true -> rk_hundredths x = true -> (rk_int x < 0)%Z ->
  rk_reported p before rw col ixfe x (dec_z ((rk_int x + 2 ^ 30) / 100)).
Proof. exact C96_negative_cents. Qed.
Print Assumptions C96_negative_hundredths.

Theorem C96_floating_numbers : forall p before rw col ixfe x, rw < 2 ^ 16 -> col < 2 ^ 16 -> ixfe < 2 ^ 16 -> x < 2 ^ 32 -> rk_integer x = false ->
  exists m e t v, Propset.Spec.single (rk_num x) m e /\ rk_reported p before rw col ixfe x t /\
    Magic.Spec.json_value t v /\ Propset.Statements.nearest_six false m e v.
Proof. exact C96_float. Qed.
Print Assumptions C96_floating_numbers.

Theorem C96_negative_numbers_refuted : exists x, rk_integer x = true /\ rk_hundredths x = false /\ rk_int x = (-1)%Z /\
  rk_reported linux64 [] 0 0 15 x (B "1073741823").
Proof. exact C96_minus_one. Qed.
Print Assumptions C96_negative_numbers_refuted.

Theorem C96_hundredths_refuted : exists x, rk_integer x = true /\ rk_hundredths x = true /\ rk_int x = 150%Z /\
  rk_reported linux64 [] 0 0 15 x (B "1").
Proof. exact C96_half. Qed.
Print Assumptions C96_hundredths_refuted.

Theorem C96_floating_numbers_refuted : exists x, rk_integer x = false /\ rk_hundredths x = false /\
  Propset.Spec.double_precision (rk_num x * 2 ^ 34) (2 ^ 52) (-52) /\ rk_reported linux64 [] 0 0 15 x (B "2.48491e-29").
Proof. exact C96_one. Qed.
Print Assumptions C96_floating_numbers_refuted.

Example C96_example : rk_integer (4 * 1234 + 2) = true /\ rk_int (4 * 1234 + 2) = 1234%Z /\
  rk_reported linux64 [] 0 1 15 (4 * 1234 + 2) (B "1234").
Proof. exact C96_ex. Qed.

(** ** C97: writing a workbook *)
Theorem C97_output_exact : forall p what (S : bytes) x, lenN S < 2 ^ 30 -> Detailer p what S = Ok x -> Version (x_ext x) = 0x600 ->
  ~ In FilePass (map fst (entries x)) ->
  (dangling p (entries x) -> excel_json p x = UB /\ excel_xml p x = UB) /\
  (~ dangling p (entries x) -> (exists j, excel_json p x = Ok j) /\ (exists y, excel_xml p x = Ok y)).
Proof. exact C97_exact. Qed.
Print Assumptions C97_output_exact.

Theorem C97_standard_cells : forall p what (S : bytes) x t d, lenN S < 2 ^ 30 -> Detailer p what S = Ok x -> Version (x_ext x) = 0x600 ->
  ~ In FilePass (map fst (entries x)) -> In (t, d) (entries x) ->
  (t = 0x201 /\ lenN d = 6) \/ (t = 0x205 /\ lenN d = 8) \/ (t = 0xFD /\ lenN d = 10) ->
  excel_json p x = UB /\ excel_xml p x = UB.
Proof. exact C97_small. Qed.
Print Assumptions C97_standard_cells.

Theorem C97_output_safe_refuted : forall p what, exists x, Detailer p what (one_book 0x201 (to_le 2 0 ++ to_le 2 0 ++ to_le 2 15)) = Ok x /\
  excel_json p x = UB /\ excel_xml p x = UB.
Proof. exact C97_refuted. Qed.
Print Assumptions C97_output_safe_refuted.

Example C97_example : ~ In FilePass (map fst (entries book_info)) /\ ~ dangling linux64 (entries book_info) /\
  exists j, excel_json linux64 book_info = Ok j.
Proof. exact C97_ex. Qed.
