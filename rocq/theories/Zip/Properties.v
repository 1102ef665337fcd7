(** Properties C85-C91: archives.  Statements only; the vocabulary is in [Zip/Spec.v] and
    [Zip/Statements.v], the examples in [Zip/PropertyLemmas.v]. *)
From Coq Require Import List NArith ZArith Bool Strings.String Strings.Byte.
From Verif Require Import Lib.Res Lib.Bytes Lib.Text Lib.NumSpec Common.Model Common.Spec Magic.Model Magic.Spec
     Vba.Statements Docs.Spec Zip.Model Zip.Spec Zip.Statements Zip.PropertyLemmas.
Import ListNotations.
Local Open Scope N_scope.

(** ** C85: declared content types *)
Theorem C85_declared_type_reported : forall pl es s vs v x, part_text es (B "[Content_Types].xml") s -> types_in s vs -> In v vs ->
  In (v, x) office_types -> ~ has_macros es ->
  exists ans m, zip_Detailer pl (Ok es) [] = Ok (ans, m) /\ exists r, In r ans /\ just x r.
Proof. exact C85_found. Qed.
Print Assumptions C85_declared_type_reported.

Theorem C85_single_quotes_refuted : exists es s a v x, part_text es (B "[Content_Types].xml") s /\ contains a s /\ xml_attribute a v /\ In (v, x) office_types /\
  forall pl m, zip_Detailer pl (Ok es) m = Ok ([zip_result es], m).
Proof. exact C85_single. Qed.
Print Assumptions C85_single_quotes_refuted.

Theorem C85_spaces_refuted : exists es s a v x, part_text es (B "[Content_Types].xml") s /\ contains a s /\ xml_attribute a v /\ In (v, x) office_types /\
  forall pl m, zip_Detailer pl (Ok es) m = Ok ([zip_result es], m).
Proof. exact C85_spaces. Qed.
Print Assumptions C85_spaces_refuted.

Theorem C85_after_empty_type_refuted : exists es v x, part_text es (B "[Content_Types].xml") (B "<Default ContentType=""""/><Override " ++ plain_attribute v ++ B "/>") /\
  In (v, x) office_types /\ forall pl m, zip_Detailer pl (Ok es) m = Ok ([zip_result es], m).
Proof. exact C85_empty. Qed.
Print Assumptions C85_after_empty_type_refuted.

Theorem C85_only_attributes_refuted : exists es v x, part_text es (B "[Content_Types].xml") (B "<Types><!-- " ++ plain_attribute v ++ B " --></Types>") /\
  In (v, x) office_types /\ forall pl, exists ans m, zip_Detailer pl (Ok es) [] = Ok (ans, m) /\ Forall2 just [x] ans.
Proof. exact C85_comment. Qed.
Print Assumptions C85_only_attributes_refuted.

Example C85_example : exists es s vs x, part_text es (B "[Content_Types].xml") s /\ types_in s vs /\ List.length vs = 2%nat /\
  In (docx_type, x) office_types /\ In docx_type vs /\ ~ has_macros es.
Proof. exact C85_ex. Qed.

(** ** C86: the kinds of an archive *)
Theorem C86_kinds_exact : forall pl es m files kinds, archive_kinds es m files kinds ->
  exists ans, zip_Detailer pl (Ok es) m = Ok (ans, rev kinds ++ m) /\ reports es (files ++ kinds) ans.
Proof. exact C86_exact. Qed.
Print Assumptions C86_kinds_exact.

Theorem C86_every_archive : forall es m, (exists files kinds, archive_kinds es m files kinds) \/ has_macros es.
Proof. exact C86_total. Qed.
Print Assumptions C86_every_archive.

Theorem C86_kinds_unique : forall es m f1 k1 f2 k2, archive_kinds es m f1 k1 -> archive_kinds es m f2 k2 -> f1 = f2 /\ k1 = k2 /\ NoDup k1.
Proof. exact C86_unique. Qed.
Print Assumptions C86_kinds_unique.

Theorem C86_archive_not_opened : forall pl m x, zip_Detailer pl (Throw x) m = Throw x.
Proof. exact C86_failed. Qed.
Print Assumptions C86_archive_not_opened.

Theorem C86_reported_once_refuted : exists es, forall pl m, exists ans, zip_Detailer pl (Ok es) m = Ok (ans, m) /\ Forall2 just [B "xpi"; B "xpi"] ans.
Proof. exact C86_twice. Qed.
Print Assumptions C86_reported_once_refuted.

Example C86_example : exists es, forall pl, exists ans m, zip_Detailer pl (Ok es) [] = Ok (ans, m) /\ Forall2 just [B "jar"; B "docx"] ans.
Proof. exact C86_ex. Qed.

(** ** C87: one archive after another *)
Theorem C87_second_call : forall pl es m ans1 m1, zip_Detailer pl (Ok es) m = Ok (ans1, m1) ->
  exists files ans2, selected (has_entry es) marker_files files /\ zip_Detailer pl (Ok es) m1 = Ok (ans2, m1) /\ reports es files ans2.
Proof. exact C87_again. Qed.
Print Assumptions C87_second_call.

Theorem C87_calls_independent_refuted : exists es ans1 m ans2, (forall pl, zip_Detailer pl (Ok es) [] = Ok (ans1, m)) /\ (forall pl, zip_Detailer pl (Ok es) m = Ok (ans2, m)) /\
  Forall2 just [B "docx"] ans1 /\ ans2 = [zip_result es].
Proof. exact C87_refuted. Qed.
Print Assumptions C87_calls_independent_refuted.

(** ** C88: OpenDocument *)
Theorem C88_document_type_reported : forall pl es v x, part_text es (B "mimetype") v -> In (v, x) document_types -> v <> presentation_type -> ~ has_macros es ->
  exists ans m, zip_Detailer pl (Ok es) [] = Ok (ans, m) /\ exists r, In r ans /\ just x r.
Proof. exact C88_found. Qed.
Print Assumptions C88_document_type_reported.

Theorem C88_presentation_never_odp : forall pl es m ans m', part_text es (B "mimetype") presentation_type -> part_text es (B "[Content_Types].xml") [] ->
  zip_Detailer pl (Ok es) m = Ok (ans, m') -> forall r, In r ans -> ~ just (B "odp") r.
Proof. exact C88_presentation. Qed.
Print Assumptions C88_presentation_never_odp.

Theorem C88_presentation_refuted : exists es v x, part_text es (B "mimetype") v /\ In (v, x) document_types /\ x = B "odp" /\
  forall pl, exists ans m, zip_Detailer pl (Ok es) [] = Ok (ans, m) /\ Forall2 just [B "opd"] ans.
Proof. exact C88_refuted. Qed.
Print Assumptions C88_presentation_refuted.

Theorem C88_trailing_newline_refuted : exists es v x, part_text es (B "mimetype") (v ++ [x0a]) /\ In (v, x) document_types /\
  forall pl m, zip_Detailer pl (Ok es) m = Ok ([zip_result es], m).
Proof. exact C88_newline. Qed.
Print Assumptions C88_trailing_newline_refuted.

Example C88_example : exists es v x, part_text es (B "mimetype") v /\ In (v, x) document_types /\ v <> presentation_type /\ ~ has_macros es.
Proof. exact C88_ex. Qed.

(** ** C89: projects of macros *)
Theorem C89_macros_undefined : forall pl es m, has_macros es -> zip_Detailer pl (Ok es) m = UB.
Proof. exact C89_undefined. Qed.
Print Assumptions C89_macros_undefined.

Theorem C89_undefined_only_for_macros : forall pl es m, zip_Detailer pl (Ok es) m = UB <-> has_macros es.
Proof. exact C89_only. Qed.
Print Assumptions C89_undefined_only_for_macros.

Theorem C89_macros_reported_refuted : exists es, has_macros es /\ forall pl m, zip_Detailer pl (Ok es) m = UB.
Proof. exact C89_refuted. Qed.
Print Assumptions C89_macros_reported_refuted.

Example C89_example : exists es, forall pl, exists ans m, zip_Detailer pl (Ok es) [] = Ok (ans, m) /\ Forall2 just [B "vba"] ans.
Proof. exact C89_plain. Qed.

(** ** C90: the documents of an archive *)
Theorem C90_json_document : forall es l, Forall (fun e => json_literal (z_name e) /\ json_literal (z_comment e)) es -> described json_fields es l ->
  json_value (eJson (r_out (zip_result es))) (zip_object l).
Proof. exact C90_json. Qed.
Print Assumptions C90_json_document.

Theorem C90_xml_document : forall es l, Forall (fun e => xml_literal (z_name e) /\ xml_literal (z_comment e)) es -> described xml_fields es l ->
  xml_document (eXml (r_out (zip_result es))) (zip_element l).
Proof. exact C90_xml. Qed.
Print Assumptions C90_xml_document.

Theorem C90_text_and_csv : forall es, eText (r_out (zip_result es)) = B "zip" ++ [x09] ++ B "Zip File" ++ [x09] ++ [x09] ++ B "0" ++ [x09] /\
  eCsv (r_out (zip_result es)) = B "zip,Zip File,,0,".
Proof. exact C90_rows. Qed.
Print Assumptions C90_text_and_csv.

Theorem C90_any_name_json_refuted : exists es, forall v, ~ json_value (eJson (r_out (zip_result es))) v.
Proof. exact C90_json_refuted. Qed.
Print Assumptions C90_any_name_json_refuted.

Theorem C90_any_name_xml_refuted : exists es, forall v, ~ xml_document (eXml (r_out (zip_result es))) v.
Proof. exact C90_xml_refuted. Qed.
Print Assumptions C90_any_name_xml_refuted.

Theorem C90_name_as_member_refuted : exists es v, json_value (eJson (r_out (zip_result es))) v /\ ~ (exists l, described json_fields es l /\ v = zip_object l).
Proof. exact C90_injected_refuted. Qed.
Print Assumptions C90_name_as_member_refuted.

Example C90_example : exists es l, Forall (fun e => json_literal (z_name e) /\ json_literal (z_comment e)) es /\
  Forall (fun e => xml_literal (z_name e) /\ xml_literal (z_comment e)) es /\ described json_fields es l /\ List.length es = 2%nat.
Proof. exact C90_ex. Qed.

(** ** C91: the sizes *)
Theorem C91_small_sizes : forall es, Forall (fun e => z_csize e < 2 ^ 31) es ->
  described json_fields es (map (fun e => json_fields (entry_fields e (dec (z_csize e)))) es) /\
  described xml_fields es (map (fun e => xml_fields (entry_fields e (dec (z_csize e)))) es).
Proof. exact C91_small. Qed.
Print Assumptions C91_small_sizes.

Theorem C91_one_reading : forall n, exists c, as_int n c /\ forall c', as_int n c' -> c' = c.
Proof. exact C91_function. Qed.
Print Assumptions C91_one_reading.

Theorem C91_large_size_refuted : exists e, z_csize e < 2 ^ 32 /\ json_value (eJson (r_out (zip_result [e]))) (zip_object [json_fields (entry_fields e (B "-1294967296"))]).
Proof. exact C91_refuted. Qed.
Print Assumptions C91_large_size_refuted.

Theorem C91_sizes_distinguished_refuted : exists e f, z_csize e <> z_csize f /\ eJson (r_out (zip_result [e])) = eJson (r_out (zip_result [f])).
Proof. exact C91_same_refuted. Qed.
Print Assumptions C91_sizes_distinguished_refuted.

Example C91_example : exists es, Forall (fun e => z_csize e < 2 ^ 31) es /\ List.length es = 2%nat.
Proof. exact C91_ex. Qed.
