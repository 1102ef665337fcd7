(** Further properties of workbooks.  Statements only; the vocabulary is in [Excel/Spec.v],
    [Excel/StringSpec.v], [Excel/Statements.v] and [Excel/TextStatements.v], the examples in
    [Excel/Samples.v] and [Excel/PropertyLemmas2.v]. *)
From Coq Require Import List NArith ZArith Bool Strings.String Strings.Byte.
From Verif Require Import Lib.Res Lib.Bytes Lib.Text Common.Model Common.Utf8 Excel.Number Excel.Model Excel.Records Excel.Engine
     Excel.Spec Excel.StringSpec Excel.Statements Excel.TextStatements Excel.Samples Excel.PropertyLemmas2.
Import ListNotations.
Local Open Scope N_scope.

(** ** C92: the records of a workbook stream *)
Theorem C92_each_record_built : forall p what (S : bytes) x a e b, lenN S < 2 ^ 30 -> Detailer p what S = Ok x ->
  x_list x = a ++ e :: b -> a <> [] ->
  built p (rev (map fst a)) (Version (x_ext x)) (r_type (fst e)) (r_data (fst e))
    (mkRec (r_type (fst e)) (r_data (fst e)) false (r_body (fst e))).
Proof. exact C92_built. Qed.
Print Assumptions C92_each_record_built.

(** ** C98: texts of a workbook *)
Theorem C98_strings_reported : forall p before total l more, total < 2 ^ 32 -> Forall shared_ok l -> Forall simple l -> Forall (legible p) l -> l <> [] ->
  lenN (sst_data total l ++ more) < 2 ^ 31 ->
  exists r ts, built p before 0x600 0xFC (sst_data total l ++ more) r /\ strings_of r = Some ts /\
    Forall2 utf8 ts (map h_text l) /\ shows p r "strings" (Raw (strings_json ts) (strings_xml ts)).
Proof. exact C98_strings. Qed.
Print Assumptions C98_strings_reported.

Theorem C98_bytes_of_strings : forall p before total l more, total < 2 ^ 32 -> Forall shared_ok l -> Forall simple l -> Forall (fun s => h_wide s = false) l ->
  lenN (sst_data total l ++ more) < 2 ^ 31 ->
  exists r, built p before 0x600 0xFC (sst_data total l ++ more) r /\ strings_of r = Some (map (fun s => map n2b (h_text s)) l).
Proof. exact C98_bytes. Qed.
Print Assumptions C98_bytes_of_strings.

Theorem C98_first_string : forall p before total s l more r, shared_ok s -> legible p s ->
  lenN (sst_data total (s :: l) ++ more) < 2 ^ 31 ->
  built p before 0x600 0xFC (sst_data total (s :: l) ++ more) r ->
  exists t ts, strings_of r = Some (t :: ts) /\ utf8 t (h_text s).
Proof. exact C98_first. Qed.
Print Assumptions C98_first_string.

Theorem C98_text_of_cells : forall p before rs ts rw col ixfe i more r, last_of_type 0xFC before rs -> strings_of rs = Some ts ->
  i < 2 ^ 32 -> 6 <= lenN more -> built p before 0x600 0xFD (label_sst rw col ixfe i more) r ->
  match nth_error ts (N.to_nat i) with
  | Some t => shows p r "Value" (Esc t)
  | None => forall v, ~ shows p r "Value" v
  end.
Proof. exact C98_cell. Qed.
Print Assumptions C98_text_of_cells.

Theorem C98_wide_sheet_names : forall p before offset b4 b5 flags name more, sizeof_wchar p = 2 -> lenN name < 256 -> flags < 256 -> N.odd flags = true ->
  bmp_text name ->
  exists r t, built p before 0x600 0x85 (wide_sheet offset b4 b5 flags name more) r /\ shows p r "Name" (Esc t) /\ utf8 t name.
Proof. exact C98_names. Qed.
Print Assumptions C98_wide_sheet_names.

Theorem C98_wide_strings_linux : forall p before total s l more, sizeof_wchar p = 4 -> total < 2 ^ 32 -> shared_ok s -> simple s -> h_wide s = true ->
  lenN (sst_data total (s :: l) ++ more) < 2 ^ 31 ->
  lenN (List.concat (map shared_bytes l) ++ more) < 2 * lenN (h_text s) ->
  ParseRecord p before 0x600 0xFC (sst_data total (s :: l) ++ more) = UB.
Proof. exact C98_wide_linux. Qed.
Print Assumptions C98_wide_strings_linux.

Theorem C98_wide_sheet_names_linux : forall p before offset b4 b5 flags name more, sizeof_wchar p = 4 -> lenN name < 256 -> flags < 256 -> N.odd flags = true ->
  lenN more < 2 * lenN name ->
  ParseRecord p before 0x600 0x85 (wide_sheet offset b4 b5 flags name more) = UB.
Proof. exact C98_names_linux. Qed.
Print Assumptions C98_wide_sheet_names_linux.

Theorem C98_characters_of_8_bits_refuted : forall p before, exists l r t, Forall shared_ok l /\ Forall simple l /\ map h_text l = [[233]] /\
  built p before 0x600 0xFC (sst_data 1 l) r /\ strings_of r = Some [t] /\ forall m, ~ utf8 t m.
Proof. exact C98_latin. Qed.
Print Assumptions C98_characters_of_8_bits_refuted.

Theorem C98_formatted_strings_refuted : forall p before, Forall shared_ok rich_table /\ exists r ts, built p before 0x600 0xFC (sst_data 2 rich_table) r /\
  strings_of r = Some ts /\ ts = [B "A"; []].
Proof. exact C98_runs. Qed.
Print Assumptions C98_formatted_strings_refuted.

Theorem C98_wide_strings_refuted : exists l, Forall shared_ok l /\ Forall simple l /\ Forall (fun s => bmp_text (h_text s)) l /\
  ParseRecord linux64 [] 0x600 0xFC (sst_data 1 l) = UB.
Proof. exact C98_wide_refuted. Qed.
Print Assumptions C98_wide_strings_refuted.

Example C98_example : Forall shared_ok sst_table /\ Forall simple sst_table /\ Forall (legible linux64) sst_table /\
  exists r, built linux64 [] 0x600 0xFC (sst_data 4 sst_table) r /\ strings_of r = Some [B "hello"; []; B """<"] /\
    exists c, built linux64 [r] 0x600 0xFD (label_sst 0 0 15 2 (repeat x00 6)) c /\ shows linux64 c "Value" (Esc (B """<")).
Proof. exact C98_ex. Qed.
