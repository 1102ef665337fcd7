(** Properties of the names of records. Statements only; the vocabulary is in [Excel/RecordSpec.v]. *)
From Coq Require Import List NArith Bool Strings.String Strings.Byte.
From Verif Require Import Lib.Res Lib.Bytes Lib.Text Common.Model Excel.Model Excel.Records Excel.Statements Excel.RecordSpec Excel.PropertyLemmas6.
Import ListNotations.
Local Open Scope N_scope.

(** ** C138: names of records *)
Theorem C138_json_name : forall p r t s, record_json p r = Ok t -> record_name (r_type r) s -> json_begins s (lenN (r_data r)) t.
Proof. exact C138_json. Qed.
Print Assumptions C138_json_name.

Theorem C138_xml_name : forall p r t s, record_xml p r = Ok t -> record_name (r_type r) s -> xml_begins s (lenN (r_data r)) t.
Proof. exact C138_xml. Qed.
Print Assumptions C138_xml_name.

Theorem C138_every_number_has_one_name : forall n, exists s, record_name n s /\ forall s', record_name n s' -> s' = s.
Proof. exact C138_one_name. Qed.
Print Assumptions C138_every_number_has_one_name.

Theorem C138_number_from_name : forall n m s, In (s, n) records_by_name -> record_name m s -> n = m.
Proof. exact C138_number. Qed.
Print Assumptions C138_number_from_name.

Theorem C138_unlisted_numbers_refuted : exists p r r' t u, built p [] 0x600 1 [] r /\ built p [] 0x600 2 [] r' /\ record_json p r = Ok t /\ record_json p r' = Ok t /\ record_xml p r = Ok u /\ record_xml p r' = Ok u.
Proof. exact C138_refuted. Qed.
Print Assumptions C138_unlisted_numbers_refuted.

Example C138_example : record_name 0xFD "LabelSst" /\ record_name 1 "Unknown/Undocumented RecordType" /\ lenN records_by_name = 353 /\
  exists r t, built linux64 [] 0x600 0x9E [x01; x02] r /\ record_json linux64 r = Ok t /\ t = B "{""Type"":""AutoFilter"",""Length"":2}".
Proof. exact C138_ex. Qed.
