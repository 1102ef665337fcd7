(** Properties of the names of code pages. Statements only; the vocabulary is in [Excel/PageSpec.v] and [Excel/FieldSpec.v]. *)
From Coq Require Import List NArith Bool Strings.String Strings.Byte.
From Verif Require Import Lib.Res Lib.Bytes Lib.Text Excel.Model Excel.Records Excel.Statements Excel.DocStatements Excel.FieldSpec Excel.FieldStatements Excel.PageSpec Excel.PropertyLemmas7.
Import ListNotations.
Local Open Scope N_scope.

(** ** C141: code pages *)
Theorem C141_listed_pages : forall p before d r l s, built p before 0x600 0x42 d r -> fields p r = Ok l -> In (bit_field d 0 16, s) page_identifiers -> bit_field d 0 16 <> gb18030 ->
  l = [fld "CodePage" (Num (bit_field d 0 16)); fld "CodePageStr" (Esc (B s))].
Proof. exact C141_listed. Qed.
Print Assumptions C141_listed_pages.

Theorem C141_unlisted_pages : forall p before d r l, built p before 0x600 0x42 d r -> fields p r = Ok l -> (forall s, ~ In (bit_field d 0 16, s) page_identifiers) ->
  l = [fld "CodePage" (Num (bit_field d 0 16)); fld "CodePageStr" (Esc (B "Unknown"))].
Proof. exact C141_unlisted. Qed.
Print Assumptions C141_unlisted_pages.

Theorem C141_gb18030 : forall p before d r l, built p before 0x600 0x42 d r -> fields p r = Ok l -> bit_field d 0 16 = gb18030 ->
  l = [fld "CodePage" (Num gb18030); fld "CodePageStr" (Esc (B "Windows XP and later:?GB18030 Simplified Chinese (4 byte); Chinese Simplified (GB18030)"))].
Proof. exact C141_chinese. Qed.
Print Assumptions C141_gb18030.

Theorem C141_pages_of_old_workbooks : forall p before d r l, built p before 0x600 0x42 d r -> fields p r = Ok l -> In (bit_field d 0 16) workbook_pages ->
  l = [fld "CodePage" (Num (bit_field d 0 16)); fld "CodePageStr" (Esc (B "Unknown"))].
Proof. exact C141_workbook. Qed.
Print Assumptions C141_pages_of_old_workbooks.

Theorem C141_every_page_refuted : exists p d r l s, built p [] 0x600 0x42 d r /\ fields p r = Ok l /\ In (bit_field d 0 16, s) page_identifiers /\ ~ In (fld "CodePageStr" (Esc (B s))) l.
Proof. exact C141_refuted. Qed.
Print Assumptions C141_every_page_refuted.

Example C141_example : In (437, "OEM United States"%string) page_identifiers /\ (forall s, ~ In (438, s) page_identifiers) /\ lenN page_identifiers = 152 /\
  exists r, built linux64 [] 0x600 0x42 (to_le 2 437) r /\ fields linux64 r = Ok [fld "CodePage" (Num 437); fld "CodePageStr" (Esc (B "OEM United States"))].
Proof. exact C141_ex. Qed.
