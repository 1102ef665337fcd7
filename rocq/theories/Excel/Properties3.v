(** Properties of formulas in workbooks.  Statements only; the vocabulary is in [Excel/Spec.v],
    [Excel/FormulaSpec.v], [Excel/FormulaSpec2.v], [Excel/Statements.v], [Excel/FormulaStatements.v] and
    [Excel/FormulaStatements2.v], the examples in [Excel/Samples.v] and [Excel/PropertyLemmas3.v]. *)
From Coq Require Import List NArith ZArith Bool Strings.String Strings.Byte.
From Verif Require Import Lib.Res Lib.Bytes Lib.Text Common.Model Common.Spec Excel.Model Excel.Records Excel.Engine
     Excel.Spec Excel.Statements Excel.NumberSpec Excel.FunctionSpec Excel.FormulaSpec Excel.FormulaStatements Excel.FormulaSpec2
     Excel.FormulaStatements2 Excel.Samples Excel.PropertyLemmas3.
From Verif Require Propset.Spec.
Import ListNotations.
Local Open Scope N_scope.

(** ** C99: the text of a formula *)
Theorem C99_formula_text : forall p before row col ixfe value flags chn cce ts, lenN value = 8 -> Forall token_ok ts ->
  lenN (tokens_bytes ts) < 2 ^ 31 - 22 ->
  exists ss, texts before ts ss /\ formula_shown p before (formula_data row col ixfe value flags chn cce (tokens_bytes ts)) ss.
Proof. exact C99_formula. Qed.
Print Assumptions C99_formula_text.

Theorem C99_formula_of_any_tokens : forall p before row col ixfe value flags chn cce l, lenN value = 8 -> Forall item_ok l ->
  lenN (items_bytes l) < 2 ^ 31 - 22 ->
  exists ss, item_texts before l ss /\ formula_shown p before (formula_data row col ixfe value flags chn cce (items_bytes l)) ss.
Proof. exact C99_items. Qed.
Print Assumptions C99_formula_of_any_tokens.

Theorem C99_defined_names : forall p before flags key itab name ts more, flags < 2 ^ 16 -> key < 256 -> itab < 2 ^ 16 -> lenN name < 256 -> Forall token_ok ts ->
  lenN (tokens_bytes ts) < 2 ^ 16 -> lenN more < 2 ^ 30 ->
  exists r, built p before 0x600 0x18 (lbl_data flags key itab name (tokens_bytes ts) more) r /\ r_type r = 0x18 /\ GetName r = Some name.
Proof. exact C99_name. Qed.
Print Assumptions C99_defined_names.

Theorem C99_error_range_undefined : forall p before row col ixfe value flags chn cce l c data, lenN value = 8 -> Forall item_ok l -> c < 3 ->
  lenN data = 10 -> lenN (items_bytes l) < 2 ^ 31 - 40 ->
  ParseRecord p before 0x600 0x06 (formula_data row col ixfe value flags chn cce (items_bytes l ++ class c 0x1D :: data)) = UB.
Proof. exact C99_area_error. Qed.
Print Assumptions C99_error_range_undefined.

Theorem C99_ranges_refuted : forall p before, exists r, cell_ok cell_a1 /\ cell_ok cell_b2 /\ a1 0 0 (B "A1") /\ a1 1 1 (B "B2") /\
  built p before 0x600 0x06 (example_formula 9 (class 1 0x05 :: range_bytes cell_a1 cell_b2)) r /\
  shows p r "FormulaString" (Esc (B "PtgArea(A70:QG257)")).
Proof. exact C99_range. Qed.
Print Assumptions C99_ranges_refuted.

Theorem C99_size_of_errors_refuted : forall p before, exists r,
  built p before 0x600 0x06 (example_formula 7 (class 0 0x07 :: [x2a; x00; x00; x00; x05; x00])) r /\
  shows p r "FormulaString" (Esc (B "PtgMemErr;UnknownPTG(type=0,subType=0)")).
Proof. exact C99_mem_error. Qed.
Print Assumptions C99_size_of_errors_refuted.

Theorem C99_natural_references_refuted : forall p before,
  ParseRecord p before 0x600 0x06 (example_formula 6 (n2b 0x18 :: n2b 0x02 :: to_le 2 0 ++ to_le 2 0xC000)) = Ok None.
Proof. exact C99_natural. Qed.
Print Assumptions C99_natural_references_refuted.

Theorem C99_commands_refuted : forall p before, exists r, In (0, B "COUNT") functions /\
  built p before 0x600 0x06 (example_formula 4 (class 1 0x02 :: x00 :: to_le 2 (2 ^ 15 + 0))) r /\
  shows p r "FormulaString" (Esc (B "PtgFuncVar(COUNT)")).
Proof. exact C99_command. Qed.
Print Assumptions C99_commands_refuted.

Theorem C99_tables_refuted : forall p before, exists r, a1 1 1 (B "B2") /\
  built p before 0x600 0x06 (example_formula 5 (n2b 0x02 :: to_le 2 1 ++ to_le 2 1)) r /\
  shows p r "FormulaString" (Esc (B "PtgTbl(A1)")).
Proof. exact C99_table. Qed.
Print Assumptions C99_tables_refuted.

Theorem C99_length_of_formula_refuted : forall p before, exists r s, token_ok array_token /\ lenN (token_bytes array_token) = 8 /\
  texts before [array_token] [B "PtgArray"] /\
  built p before 0x600 0x06 (example_formula 8 (token_bytes array_token ++ array_data)) r /\
  shows p r "FormulaString" (Esc s) /\ s <> B "PtgArray".
Proof. exact C99_extra. Qed.
Print Assumptions C99_length_of_formula_refuted.

Theorem C99_wide_names_refuted : forall p before, sizeof_wchar p = 2 -> exists r w,
  built p before 0x600 0x18 (wide_lbl_data 0 0 0 [0x61; 0x62] [n2b 0x1E; x01; x00; n2b 0x1E; x02; x00; n2b 0x03] []) r /\ GetName r = Some w /\ w <> B "ab".
Proof. exact C99_wide_name. Qed.
Print Assumptions C99_wide_names_refuted.

Example C99_example : Forall token_ok example_tokens /\ exists r, built linux64 [name_record] 0x600 0x06 (example_formula 70 (tokens_bytes example_tokens)) r /\
  shows linux64 r "FormulaString" (Esc (B
    "PtgRef(B5);PtgInt(25);PtgMul;PtgNum(1.500000);PtgStr(""ab"");PtgErr('#N/A');PtgBool(true);PtgFunc(ROUND);PtgFuncVar(AND);PtgName(total);PtgAttrSum;PtgArea3d(A1:B2)")).
Proof. exact C99_ex. Qed.

(** ** C100: the value of a formula *)
Theorem C100_value_reported : forall p before row col ixfe value flags chn cce rest r t, row < 2 ^ 16 -> col < 2 ^ 14 -> value_text value t ->
  lenN rest < 2 ^ 31 - 22 -> built p before 0x600 0x06 (formula_data row col ixfe value flags chn cce rest) r ->
  shows p r "Value" (Esc t) /\ exists w, a1 row col w /\ shows p r "Cell" (Str w).
Proof. exact C100_value. Qed.
Print Assumptions C100_value_reported.

Theorem C100_number_reported : forall p before row col ixfe x m e flags chn cce rest r, row < 2 ^ 16 -> col < 2 ^ 14 -> x < 2 ^ 64 ->
  Propset.Spec.double_precision x m e ->
  lenN rest < 2 ^ 31 - 22 -> built p before 0x600 0x06 (formula_data row col ixfe (to_le 8 x) flags chn cce rest) r ->
  (exists t, fixed_point (2 ^ 63 <=? x) m e t /\ shows p r "Value" (Esc t)) /\ exists w, a1 row col w /\ shows p r "Cell" (Str w).
Proof. exact C100_number. Qed.
Print Assumptions C100_number_reported.

Theorem C100_small_numbers_refuted : forall p before, exists x m e r, x < 2 ^ 64 /\ Propset.Spec.double_precision x m e /\ 0 < m /\
  built p before 0x600 0x06 (formula_data 0 2 15 (to_le 8 x) 0 0 3 [n2b 0x1E; x01; x00]) r /\ shows p r "Value" (Esc (B "0.000000")).
Proof. exact C100_small. Qed.
Print Assumptions C100_small_numbers_refuted.

Example C100_example : value_text [x02; x00; x2a; x00; x00; x00; xff; xff] (B "#N/A") /\ exists r r' m e,
  built linux64 [] 0x600 0x06 (formula_data 0 2 15 [x02; x00; x2a; x00; x00; x00; xff; xff] 0 0 3 [n2b 0x1E; x01; x00]) r /\
  shows linux64 r "Value" (Esc (B "#N/A")) /\ shows linux64 r "Cell" (Str (B "C1")) /\
  Propset.Spec.double_precision 0xBFF8000000000000 m e /\
  built linux64 [] 0x600 0x06 (formula_data 0 2 15 (to_le 8 0xBFF8000000000000) 0 0 3 [n2b 0x1E; x01; x00]) r' /\
  shows linux64 r' "Value" (Esc (B "-1.500000")).
Proof. exact C100_ex. Qed.

(** ** C101: reading ends *)
Theorem C101_reading_ends : forall p what (S : bytes), lenN S < 2 ^ 30 ->
  (forall t d j a b, In (t, d) (seen S) -> t = 0x06 \/ t = 0x18 -> occurs_at [a; b] d j -> moves_on (b2n a) (b2n b)) ->
  Detailer p what S <> Fuel.
Proof. exact C101_ends. Qed.
Print Assumptions C101_reading_ends.

Theorem C101_fuel_is_enough : forall p before d, lenN d < 2 ^ 31 -> ParseRecord p before 0x600 0x06 d = Fuel -> never_ends p before d.
Proof. exact C101_exact. Qed.
Print Assumptions C101_fuel_is_enough.

Theorem C101_unknown_tokens_never_end : forall p before row col ixfe value flags chn cce ts a b more, lenN value = 8 -> Forall token_ok ts ->
  lenN (tokens_bytes ts ++ a :: b :: more) < 2 ^ 31 - 22 -> unknown (b2n a) (b2n b) ->
  never_ends p before (formula_data row col ixfe value flags chn cce (tokens_bytes ts ++ a :: b :: more)).
Proof. exact C101_unknown. Qed.
Print Assumptions C101_unknown_tokens_never_end.

Theorem C101_choose_never_ends : forall p before row col ixfe value flags chn cce l1 l2 n w more, lenN value = 8 -> Forall item_ok l1 -> Forall item_ok l2 ->
  n < 2 ^ 16 -> lenN w = 2 * n -> lenN (items_bytes l2) = 4 + 2 * n ->
  lenN (items_bytes l1 ++ items_bytes l2 ++ n2b 0x19 :: n2b 0x04 :: to_le 2 n ++ w ++ more) < 2 ^ 31 - 22 ->
  never_ends p before (formula_data row col ixfe value flags chn cce
    (items_bytes l1 ++ items_bytes l2 ++ n2b 0x19 :: n2b 0x04 :: to_le 2 n ++ w ++ more)).
Proof. exact C101_choose. Qed.
Print Assumptions C101_choose_never_ends.

Theorem C101_legal_formula_refuted : forall p before, lenN choose_formula = 22 + 33 /\ never_ends p before choose_formula.
Proof. exact C101_choose_legal. Qed.
Print Assumptions C101_legal_formula_refuted.

Theorem C101_whole_stream_refuted : forall p what, exists S, Forall record_ok [(0x809, bof8 5); (0x06, choose_formula); (0x0A, [])] /\ S = one_book 0x06 choose_formula /\ Detailer p what S = Fuel.
Proof. exact C101_stream. Qed.
Print Assumptions C101_whole_stream_refuted.

Example C101_example : (forall t d j a b, In (t, d) (seen book) -> t = 0x06 \/ t = 0x18 -> occurs_at [a; b] d j -> moves_on (b2n a) (b2n b)) /\
  unknown 0x19 0x80 /\ (exists x, Detailer linux64 said_text book = Ok x).
Proof. exact C101_ex. Qed.
