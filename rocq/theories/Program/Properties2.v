(** Properties of the whole program for compound files.  Statements only; the vocabulary is in
    [Program/PartStatements.v], [Program/Statements.v], [Detect/Spec.v], [Docs/Spec.v],
    [Propset/Spec.v], [Vba/FileSpec.v] and [Excel/DocStatements.v], the examples in
    [Program/PartSamples.v] and [Program/PropertyLemmas2.v]. *)
From Coq Require Import List NArith ZArith Bool Strings.String Strings.Byte.
From Verif Require Import Lib.Res Lib.Bytes Lib.Text Common.Model Common.Spec Common.Utf8 Magic.Table Magic.Model Ole.Model Ole.Spec Ole.Statements Ole.Samples
     Vba.Analyze Vba.FileSpec Vba.Samples Propset.Spec Propset.Samples Zip.Model Detect.Model Detect.Spec Detect.Statements Detect.Samples Program.Model.
From Verif Require Excel.Engine Excel.DocStatements Excel.Samples.
From Verif Require Import Magic.Spec Magic.DocProofs Magic.DocBase Vba.Statements Propset.Statements.
From Verif Require Import Program.Statements Program.Samples Program.PartStatements Program.PartSamples Program.PropertyLemmas2.
Import Magic.Table.
Import ListNotations.
Local Open Scope N_scope.

(** ** C116: the JSON document of a compound file *)
Theorem C116_json_document : forall f c items parts msg archive fs file, stored_as f c -> clean c -> holds f c 0 items ->
  Forall2 (holds_part f c msg (root_stream (a "Current User") items)) (all_visits items) parts ->
  fs file = Some f -> lenN f < 2 ^ 32 -> Forall unicode (all_paths items) -> ~ In x00 file -> Forall json_part parts ->
  exists out before after ms objs, program windows msg archive fs [file; B "json"] = Ok out /\
    carried f (rows_before table) before /\ carried f (rows_behind table) after /\ part_members items parts ms /\ shown_objects ms parts objs /\
    (forall d, json_value out d <->
       d = JObj [(map b2n (B "name"), JStr (map b2n file)); (map b2n (B "extensions"), JArr (map row_object before ++ objs ++ map row_object after))]).
Proof. exact C116_json. Qed.
Print Assumptions C116_json_document.

Theorem C116_wordperfect_document : forall f c items before after msg archive fs file, stored_as f c -> clean c -> holds f c 0 items ->
  Forall2 (holds_part f c msg (root_stream (a "Current User") items)) (all_visits items) (before ++ PPerfect :: after) ->
  fs file = Some f -> lenN f < 2 ^ 32 -> Forall unicode (all_paths items) -> (forall i, In (PWorkbook i) before -> exists t, Engine.contents_json windows i = Ok t) ->
  program windows msg archive fs [file; B "json"] = UB.
Proof. exact C116_perfect. Qed.
Print Assumptions C116_wordperfect_document.

Theorem C116_every_compound_file_refuted : exists f c items parts, stored_as f c /\ clean c /\ holds f c 0 items /\
  (forall msg, Forall2 (holds_part f c msg (root_stream (a "Current User") items)) (all_visits items) parts) /\ lenN f < 2 ^ 32 /\ Forall unicode (all_paths items) /\
  forall msg archive fs file, fs file = Some f -> program windows msg archive fs [file; B "json"] = UB.
Proof. exact C116_refuted. Qed.
Print Assumptions C116_every_compound_file_refuted.

Example C116_example : stored_as file_doc comp_doc /\ clean comp_doc /\ holds file_doc comp_doc 0 items_doc /\
  (forall msg, Forall2 (holds_part file_doc comp_doc msg (root_stream (a "Current User") items_doc)) (all_visits items_doc) doc_parts) /\
  lenN file_doc < 2 ^ 32 /\ Forall unicode (all_paths items_doc) /\ Forall json_part doc_parts /\ Forall xml_part doc_parts /\
  program windows no_text no_archive (one_file file_doc) [B "f"; B "json"] = Ok (B
"{""name"":""f"",""extensions"":[{""extension"" : ""doc"", ""name"":""Microsoft Office Word File"", ""version"" : ""108"", ""versionname"" : ""Unknown"", ""Paths"": [""/"",""/ObjectPool/"",""/ObjectPool/Notes"",""/WordDocument"",""/\u0005SummaryInformation""],""properties"": [{""Group"":""/\u0005SummaryInformation"",""properties"": [{""Property"":""Lines"",""Type"":""VT_I4"",""Value"":16777216}]}]}]}").
Proof. exact C116_ex. Qed.

Example C116_example_with_macros : stored_as filev compv /\ clean compv /\ holds filev compv 0 items_v /\
  (forall msg, Forall2 (holds_part filev compv msg (root_stream (a "Current User") items_v)) (all_visits items_v) v_parts) /\
  lenN filev < 2 ^ 32 /\ Forall unicode (all_paths items_v) /\ Forall json_part v_parts /\ Forall xml_part v_parts /\
  program windows no_text no_archive (one_file filev) [B "f"; B "json"] = Ok (B
"{""name"":""f"",""extensions"":[{""extension"" : ""vba"", ""name"":""Visual Basic for Applications"", ""version"" : ""151"", ""projectname"":""P"", ""VBAVersionMajor"" : 481640, ""VBAVersionMinor"" : 12, ""Modules"" : [{""Name"":""M"",""StreamName"":""M"",""Offset"":3,""isPrivate"":1,""isReadOnly"":0,""Code"":""Sub a()""}]}]}").
Proof. exact C116_ex_macros. Qed.

Example C116_example_of_a_workbook : Forall2 (holds_part file_book comp_book Excel.Samples.said_text (root_stream (a "Current User") items_book)) (all_visits items_book) book_parts /\
  Forall json_part book_parts /\ Forall xml_part book_parts.
Proof. exact C116_ex_workbook. Qed.

(** ** C117: the XML document of a compound file *)
Theorem C117_xml_document : forall f c items parts msg archive fs file, stored_as f c -> clean c -> holds f c 0 items ->
  Forall2 (holds_part f c msg (root_stream (a "Current User") items)) (all_visits items) parts ->
  fs file = Some f -> lenN f < 2 ^ 32 -> Forall unicode (all_paths items) -> Forall xml_part parts ->
  exists out shown before after ms objs, program windows msg archive fs [file; B "xml"] = Ok out /\
    carried f (rows_before table) before /\ carried f (rows_behind table) after /\ part_elements items parts ms /\ shown_elements ms parts objs /\
    (forall d, xml_document out d <->
       d = XElem (B "file") [XElem (B "name") shown; XElem (B "extensions") (map row_element before ++ objs ++ map row_element after)]) /\
    (shown = xtext file <-> ~ In x3c file /\ ~ In x3e file).
Proof. exact C117_xml. Qed.
Print Assumptions C117_xml_document.

Theorem C117_wordperfect_document : forall f c items before after msg archive fs file, stored_as f c -> clean c -> holds f c 0 items ->
  Forall2 (holds_part f c msg (root_stream (a "Current User") items)) (all_visits items) (before ++ PPerfect :: after) ->
  fs file = Some f -> lenN f < 2 ^ 32 -> Forall unicode (all_paths items) -> (forall i, In (PWorkbook i) before -> exists t, Engine.contents_xml windows i = Ok t) ->
  program windows msg archive fs [file; B "xml"] = UB.
Proof. exact C117_perfect. Qed.
Print Assumptions C117_wordperfect_document.

Theorem C117_every_compound_file_refuted : exists f c items parts, stored_as f c /\ clean c /\ holds f c 0 items /\
  (forall msg, Forall2 (holds_part f c msg (root_stream (a "Current User") items)) (all_visits items) parts) /\ lenN f < 2 ^ 32 /\ Forall unicode (all_paths items) /\
  forall msg archive fs file, fs file = Some f -> program windows msg archive fs [file; B "xml"] = UB.
Proof. exact C117_refuted. Qed.
Print Assumptions C117_every_compound_file_refuted.

Example C117_example : stored_as file_doc comp_doc /\ clean comp_doc /\ holds file_doc comp_doc 0 items_doc /\
  (forall msg, Forall2 (holds_part file_doc comp_doc msg (root_stream (a "Current User") items_doc)) (all_visits items_doc) doc_parts) /\ Forall xml_part doc_parts /\
  program windows no_text no_archive (one_file file_doc) [B "f"; B "xml"] = Ok (B
"<file><name>f</name><extensions><item><extension>doc</extension><name>Microsoft Office Word File</name><version>108</version><versionname>Unknown</versionname><Paths><Path>/</Path>,<Path>/ObjectPool/</Path>,<Path>/ObjectPool/Notes</Path>,<Path>/WordDocument</Path>,<Path>/&#05;SummaryInformation</Path></Paths><properties><Group><Name>/&#05;SummaryInformation</Name><properties><PropertyItem><Property>Lines</Property><Type>VT_I4</Type><Value>16777216</Value></PropertyItem></properties></Group></properties></item></extensions></file>").
Proof. exact C117_ex. Qed.

(** ** C118: the rows of a compound file *)
Theorem C118_lines : forall f c items parts msg archive fs file, stored_as f c -> clean c -> holds f c 0 items ->
  Forall2 (holds_part f c msg (root_stream (a "Current User") items)) (all_visits items) parts -> fs file = Some f -> lenN f < 2 ^ 32 ->
  exists before after, carried f (rows_before table) before /\ carried f (rows_behind table) after /\
  forall args, args = [] \/ (exists format, args = [format] /\ format <> B "xml" /\ format <> B "csv" /\ format <> B "json") ->
  program windows msg archive fs (file :: args) = Ok (file ++ [x0a] ++ List.concat (map (fun row => [x09] ++ row ++ [x0a])
    (map (fun mi => five [x09] (row_info mi)) before ++ part_rows [x09] parts ++ map (fun mi => five [x09] (row_info mi)) after))).
Proof. exact C118_text. Qed.
Print Assumptions C118_lines.

Theorem C118_comma_separated : forall f c items parts msg archive fs file, stored_as f c -> clean c -> holds f c 0 items ->
  Forall2 (holds_part f c msg (root_stream (a "Current User") items)) (all_visits items) parts -> fs file = Some f -> lenN f < 2 ^ 32 ->
  exists before after, carried f (rows_before table) before /\ carried f (rows_behind table) after /\
  program windows msg archive fs [file; B "csv"] = Ok (List.concat (map (fun row => row ++ [x0a])
    (map (fun mi => five [x2c] (row_info mi)) before ++ part_rows [x2c] parts ++ map (fun mi => five [x2c] (row_info mi)) after))).
Proof. exact C118_csv. Qed.
Print Assumptions C118_comma_separated.

Example C118_example : program windows no_text no_archive (one_file file_doc) [B "f"] = Ok (B "f" ++ [x0a; x09] ++ B "doc" ++ [x09] ++ B "Unknown" ++ [x09] ++ B "108" ++ [x0a]) /\
  program windows no_text no_archive (one_file filev) [B "f"; B "csv"] = Ok (B "vba,Visual Basic for Applications,,151," ++ [x0a]) /\
  program windows no_text no_archive (one_file (file_one n_perfect)) [B "f"; B "csv"] = Ok (B "wp,Word Perfect File,0" ++ [x0a]).
Proof. exact C118_ex. Qed.

(** ** C119: entries that cannot be read *)
Theorem C119_one_entry_stops_the_program : forall f c items before v after parts r msg archive fs file format, stored_as f c -> clean c -> holds f c 0 items ->
  all_visits items = before ++ v :: after -> Forall2 (holds_part f c msg (root_stream (a "Current User") items)) before parts -> spoils f c msg v r ->
  fs file = Some f -> lenN f < 2 ^ 32 -> program windows msg archive fs [file; format] = r.
Proof. exact C119_stops. Qed.
Print Assumptions C119_one_entry_stops_the_program.

Theorem C119_answer_refuted : exists f c items, stored_as f c /\ clean c /\ holds f c 0 items /\ lenN f < 2 ^ 32 /\
  forall msg archive fs file format, fs file = Some f -> program windows msg archive fs [file; format] = UB.
Proof. exact C119_refuted. Qed.
Print Assumptions C119_answer_refuted.

Example C119_example : stored_as file_drawing comp_drawing /\ clean comp_drawing /\ holds file_drawing comp_drawing 0 items_drawing /\
  all_visits items_drawing = [VStream [a "DRMContent"] (counting 64); VStream [a "VisioDocument"] (repeatN x41 10)] /\
  spoils file_drawing comp_drawing no_text (VStream [a "VisioDocument"] (repeatN x41 10)) UB /\
  program windows no_text no_archive (one_file file_drawing) [B "f"; B "csv"] = UB.
Proof. exact C119_ex. Qed.
