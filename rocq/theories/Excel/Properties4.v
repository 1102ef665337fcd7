(** Properties of the documents for workbooks.  Statements only; the vocabulary is in [Excel/DocStatements.v],
    [Excel/Statements.v], [Magic/Spec.v] and [Vba/Statements.v], the examples in [Excel/Samples.v] and
    [Excel/PropertyLemmas4.v]. *)
From Coq Require Import List NArith ZArith Bool Strings.String Strings.Byte.
From Verif Require Import Lib.Res Lib.Bytes Lib.Text Common.Model Common.Spec Excel.Model Excel.Records Excel.Engine
     Excel.Spec Excel.Statements Excel.Samples Magic.Spec Vba.Statements Excel.DocStatements Excel.PropertyLemmas4.
Import ListNotations.
Local Open Scope N_scope.

(** ** C102: the JSON document for a workbook *)
Theorem C102_workbook_json : forall p what (S : bytes) x t, lenN S < 2 ^ 30 -> Detailer p what S = Ok x -> excel_json p x = Ok t ->
  Forall json_literal (raw_of x) -> exists j, excel_doc p x j /\ forall k, json_value t k <-> k = j.
Proof. exact C102_json. Qed.
Print Assumptions C102_workbook_json.

Theorem C102_one_document : forall p x j k, excel_doc p x j -> excel_doc p x k -> j = k.
Proof. exact C102_unique. Qed.
Print Assumptions C102_one_document.

Theorem C102_shared_strings : forall p before d r ss l j, built p before 0x600 0xFC d r -> r_body r = SST ss l -> record_doc p r j ->
  exists total unique, shows p r "cstTotal" (Int total) /\ shows p r "cstUnique" (Int unique) /\
  j = JObj ([jfield (B "Type") (GetRecordTypeStr (r_type r)); jmem "Length" (JNum (lenN (r_data r)));
             jmem "cstTotal" (jint total); jmem "cstUnique" (jint unique)] ++
            match ss with [] => [] | _ => [jmem "strings" (JArr (map (fun s => JStr (map b2n (until_nul s))) ss))] end).
Proof. exact C102_strings. Qed.
Print Assumptions C102_shared_strings.

Theorem C102_user_name_refuted : forall p what, exists S x t, reads p what S x /\ S = user_book "Ann ""A"" Lee" /\ excel_json p x = Ok t /\ forall j, ~ json_value t j.
Proof. exact C102_user. Qed.
Print Assumptions C102_user_name_refuted.

Theorem C102_path_refuted : forall p what, exists S x t, reads p what S x /\ S = sup_book "C:\books\a.xls" /\ excel_json p x = Ok t /\ forall j, ~ json_value t j.
Proof. exact C102_path. Qed.
Print Assumptions C102_path_refuted.

Example C102_example : reads linux64 said_text book book_info /\ Forall json_literal (raw_of book_info) /\ In (B "me") (raw_of book_info) /\
  is_ok (excel_json linux64 book_info) = true /\ List.length (x_sheets book_info) = 2%nat.
Proof. exact C102_ex. Qed.

(** ** C103: the XML document for a workbook *)
Theorem C103_workbook_xml : forall p what (S : bytes) x t, lenN S < 2 ^ 30 -> Detailer p what S = Ok x -> excel_xml p x = Ok t ->
  Forall xml_literal (raw_of x) -> exists e, excel_element p x e /\ forall k, xml_document t k <-> k = e.
Proof. exact C103_xml. Qed.
Print Assumptions C103_workbook_xml.

Theorem C103_one_document : forall p x j k, excel_element p x j -> excel_element p x k -> j = k.
Proof. exact C103_unique. Qed.
Print Assumptions C103_one_document.

Theorem C103_shared_strings : forall p before d r ss l e, built p before 0x600 0xFC d r -> r_body r = SST ss l -> record_element p r e ->
  exists total unique, shows p r "cstTotal" (Int total) /\ shows p r "cstUnique" (Int unique) /\
  e = xel "Record" ([xfield (B "Type") (GetRecordTypeStr (r_type r)); xnum "Length" (lenN (r_data r));
             xfield (B "cstTotal") (dec_z total); xfield (B "cstUnique") (dec_z unique)] ++
            match ss with [] => [] | _ => [xel "strings" (map (xescaped (B "string")) ss)] end).
Proof. exact C103_strings. Qed.
Print Assumptions C103_shared_strings.

Theorem C103_user_name_refuted : forall p what, exists S x t, reads p what S x /\ S = user_book "Smith & Co" /\ excel_xml p x = Ok t /\ forall e, ~ xml_document t e.
Proof. exact C103_user. Qed.
Print Assumptions C103_user_name_refuted.

Theorem C103_escaped_twice_refuted : forall p before, exists r, built p before 0x600 0x207 (text_of "a&b") r /\
  forall e, record_element p r e -> e = xel "Record" [xfield (B "Type") (B "String"); xnum "Length" 6; xel "String" [XCData (B "a&#38;b")]].
Proof. exact C103_cdata. Qed.
Print Assumptions C103_escaped_twice_refuted.

Example C103_example : reads linux64 said_text book book_info /\ Forall xml_literal (raw_of book_info) /\ In (B "me") (raw_of book_info) /\
  is_ok (excel_xml linux64 book_info) = true.
Proof. exact C103_ex. Qed.
