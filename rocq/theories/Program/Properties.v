(** Properties of the whole program.  Statements only; the vocabulary is in [Program/Statements.v],
    [Magic/Spec.v], [Detect/Spec.v], [Zip/Statements.v] and [Excel/DocStatements.v], the examples in
    [Program/Samples.v] and [Program/PropertyLemmas.v]. *)
From Coq Require Import List NArith ZArith Bool Strings.String Strings.Byte.
From Verif Require Import Lib.Res Lib.Bytes Lib.Text Common.Model Common.Spec Magic.Table Magic.Model Ole.Model Ole.Spec Ole.Statements
     Vba.FileSpec Zip.Model Detect.Model Detect.Output Detect.Spec Detect.Statements Program.Model.
From Verif Require Excel.Engine Excel.DocStatements Excel.Samples Zip.Statements Zip.PropertyLemmas.
From Verif Require Import Magic.Spec Magic.DocProofs Magic.DocBase Vba.Statements Program.Statements Program.Samples Program.PropertyLemmas.
Import ListNotations.
Local Open Scope N_scope.

(** ** C104: the program reports what the signatures and their parsers say *)
Theorem C104_answers_of_signatures : forall pl msg archive content rs, lenN content < 2 ^ 32 ->
  (results pl msg archive (Some content) = Ok rs <->
   exists found, reports content row_says (parser_says pl msg archive content) table found /\ rs = or_unknown content found).
Proof. exact C104_results. Qed.
Print Assumptions C104_answers_of_signatures.

Theorem C104_first_failure_decides : forall pl msg archive content r, lenN content < 2 ^ 32 -> fails r ->
  (results pl msg archive (Some content) = r <-> stopped pl msg archive content table r).
Proof. exact C104_failure. Qed.
Print Assumptions C104_first_failure_decides.

Theorem C104_printed_results : forall pl msg archive fs file f out,
  (program pl msg archive fs [file; f] = Ok out <->
   exists rs ts, results pl msg archive (fs file) = Ok rs /\ Forall2 (fun o t => show pl (ParseOutputFormat f) o = Ok t) rs ts /\
     out = layout (ParseOutputFormat f) file (B "extensions") ts).
Proof. exact C104_printed. Qed.
Print Assumptions C104_printed_results.

Theorem C104_arguments_of_the_program : forall pl msg archive fs file f more,
  program pl msg archive fs [] = Ok (B "fileid {file} [format]" ++ nl) /\
  program pl msg archive fs [file] = program pl msg archive fs [file; B "text"] /\
  program pl msg archive fs (file :: f :: more) = program pl msg archive fs [file; f].
Proof. exact C104_arguments. Qed.
Print Assumptions C104_arguments_of_the_program.

Theorem C104_missing_file : forall pl msg archive (fs : bytes -> option bytes) file, fs file = None ->
  results pl msg archive (fs file) = Ok [OResult (plain_result (mkExt (B "empty") (B "Empty File") [] 0 []))].
Proof. exact C104_missing. Qed.
Print Assumptions C104_missing_file.

Example C104_example : results linux64 no_text no_archive (Some both) =
  Ok [OResult (plain_result (mkExt (B "bmp") (B "Bitmap Image") [] 0 [])); OResult (plain_result (mkExt (B "mp4") [] [] 0 (B "MPEG-4 Media File")))].
Proof. exact C104_ex. Qed.

Example C104_example_of_a_failure : results linux64 no_text no_archive (Some (B "MZ")) = UB.
Proof. exact C104_ex_fails. Qed.

(** ** C105: which files are answered *)
Theorem C105_answered_iff : forall pl msg archive content fs file f, supported pl -> lenN content < 2 ^ 32 -> no_container content -> fs file = Some content ->
  ((exists out, program pl msg archive fs [file; f] = Ok out) <->
   long_enough content /\ (starts_one content wp_magics -> rows_only (ParseOutputFormat f))).
Proof. exact C105_iff. Qed.
Print Assumptions C105_answered_iff.

Theorem C105_all_outcomes : forall pl msg archive content fs file f, supported pl -> lenN content < 2 ^ 32 -> no_container content -> fs file = Some content ->
  (exists out, program pl msg archive fs [file; f] = Ok out) \/ program pl msg archive fs [file; f] = UB \/ program pl msg archive fs [file; f] = Throw RangeError.
Proof. exact C105_outcomes. Qed.
Print Assumptions C105_all_outcomes.

Theorem C105_exception_iff : forall pl msg archive content fs file f, supported pl -> lenN content < 2 ^ 32 -> no_container content -> fs file = Some content ->
  (program pl msg archive fs [file; f] = Throw RangeError <->
   occurs_at (B "ftyp") content 4 /\ lenN content < 15 /\ ~ starts content (B "MZ") /\ ~ starts_one content mach_magics).
Proof. exact C105_throws. Qed.
Print Assumptions C105_exception_iff.

Theorem C105_every_file_refuted : exists content1 content2 content3,
  (forall pl msg archive f, program pl msg archive (one_file content1) [B "f"; f] = UB) /\
  (forall pl msg archive, program pl msg archive (one_file content2) [B "f"; B "json"] = UB) /\
  (forall pl msg archive f, program pl msg archive (one_file content3) [B "f"; f] = Throw RangeError).
Proof. exact C105_refuted. Qed.
Print Assumptions C105_every_file_refuted.

Example C105_example : no_container both /\ lenN both < 2 ^ 32 /\ long_enough both /\ ~ starts_one both wp_magics.
Proof. exact C105_ex. Qed.

(** ** C106: the JSON document of the program *)
Theorem C106_document : forall pl msg archive fs file rs, results pl msg archive (fs file) = Ok rs -> ~ In x00 file -> Forall (fun o => exists v, json_of pl msg o v) rs ->
  exists out vs, program pl msg archive fs [file; B "json"] = Ok out /\ Forall2 (json_of pl msg) rs vs /\
    (forall d, json_value out d <-> d = JObj [(map b2n (B "name"), JStr (map b2n file)); (map b2n (B "extensions"), JArr vs)]).
Proof. exact C106_json. Qed.
Print Assumptions C106_document.

Theorem C106_document_of_plain_files : forall pl msg archive content fs file, supported pl -> lenN content < 2 ^ 32 -> no_container content -> fs file = Some content ->
  long_enough content -> ~ starts_one content wp_magics -> ~ In x00 file ->
  exists rs out vs, results pl msg archive (fs file) = Ok rs /\ program pl msg archive fs [file; B "json"] = Ok out /\ Forall2 (json_of pl msg) rs vs /\
    (forall d, json_value out d <-> d = JObj [(map b2n (B "name"), JStr (map b2n file)); (map b2n (B "extensions"), JArr vs)]).
Proof. exact C106_plain. Qed.
Print Assumptions C106_document_of_plain_files.

Theorem C106_document_of_archives : forall pl msg archive content es fs file, supported pl -> lenN content < 2 ^ 32 -> starts content (B "PK") -> archive (Some content) = Ok es ->
  fs file = Some content -> ~ Zip.Statements.has_macros es -> movie_ok content -> ~ In x00 file ->
  Forall (fun e => json_literal (z_name e) /\ json_literal (z_comment e)) es ->
  exists rs out vs, results pl msg archive (fs file) = Ok rs /\ program pl msg archive fs [file; B "json"] = Ok out /\ Forall2 (json_of pl msg) rs vs /\
    (forall d, json_value out d <-> d = JObj [(map b2n (B "name"), JStr (map b2n file)); (map b2n (B "extensions"), JArr vs)]).
Proof. exact C106_archives. Qed.
Print Assumptions C106_document_of_archives.

Example C106_example : no_container both /\ lenN both < 2 ^ 32 /\ long_enough both /\ ~ starts_one both wp_magics.
Proof. exact C105_ex. Qed.

(** ** C107: the XML document of the program *)
Theorem C107_document : forall pl msg archive fs file rs, results pl msg archive (fs file) = Ok rs -> Forall (fun o => exists v, xml_of pl msg o v) rs ->
  exists out shown es, program pl msg archive fs [file; B "xml"] = Ok out /\ Forall2 (xml_of pl msg) rs es /\
    (forall d, xml_document out d <-> d = XElem (B "file") [XElem (B "name") shown; XElem (B "extensions") es]) /\
    (shown = xtext file <-> ~ In x3c file /\ ~ In x3e file).
Proof. exact C107_xml. Qed.
Print Assumptions C107_document.

Theorem C107_document_of_plain_files : forall pl msg archive content fs file, supported pl -> lenN content < 2 ^ 32 -> no_container content -> fs file = Some content ->
  long_enough content -> ~ starts_one content wp_magics ->
  exists rs out shown es, results pl msg archive (fs file) = Ok rs /\ program pl msg archive fs [file; B "xml"] = Ok out /\ Forall2 (xml_of pl msg) rs es /\
    (forall d, xml_document out d <-> d = XElem (B "file") [XElem (B "name") shown; XElem (B "extensions") es]) /\
    (shown = xtext file <-> ~ In x3c file /\ ~ In x3e file).
Proof. exact C107_plain. Qed.
Print Assumptions C107_document_of_plain_files.

Theorem C107_document_of_archives : forall pl msg archive content es fs file, supported pl -> lenN content < 2 ^ 32 -> starts content (B "PK") -> archive (Some content) = Ok es ->
  fs file = Some content -> ~ Zip.Statements.has_macros es -> movie_ok content ->
  Forall (fun e => xml_literal (z_name e) /\ xml_literal (z_comment e)) es ->
  exists rs out shown ns, results pl msg archive (fs file) = Ok rs /\ program pl msg archive fs [file; B "xml"] = Ok out /\ Forall2 (xml_of pl msg) rs ns /\
    (forall d, xml_document out d <-> d = XElem (B "file") [XElem (B "name") shown; XElem (B "extensions") ns]) /\
    (shown = xtext file <-> ~ In x3c file /\ ~ In x3e file).
Proof. exact C107_archives. Qed.
Print Assumptions C107_document_of_archives.

Example C107_example : no_container both /\ lenN both < 2 ^ 32 /\ long_enough both /\ ~ starts_one both wp_magics.
Proof. exact C105_ex. Qed.

(** ** C108: archives *)
Theorem C108_answered_iff : forall pl msg archive content es fs file f, supported pl -> lenN content < 2 ^ 32 -> starts content (B "PK") -> archive (Some content) = Ok es ->
  fs file = Some content ->
  ((exists out, program pl msg archive fs [file; f] = Ok out) <-> ~ Zip.Statements.has_macros es /\ movie_ok content).
Proof. exact C108_iff. Qed.
Print Assumptions C108_answered_iff.

Theorem C108_macro_projects : forall pl msg archive content es fs file f, supported pl -> lenN content < 2 ^ 32 -> starts content (B "PK") -> archive (Some content) = Ok es ->
  fs file = Some content -> Zip.Statements.has_macros es -> program pl msg archive fs [file; f] = UB.
Proof. exact C108_macros. Qed.
Print Assumptions C108_macro_projects.

Theorem C108_every_archive_refuted : exists es content, starts content (B "PK") /\ Zip.Statements.has_macros es /\
  forall pl msg f, supported pl -> program pl msg (packed es) (one_file content) [B "f"; f] = UB.
Proof. exact C108_refuted. Qed.
Print Assumptions C108_every_archive_refuted.

Example C108_example : starts (B "PK") (B "PK") /\ movie_ok (B "PK") /\ ~ Zip.Statements.has_macros Zip.PropertyLemmas.docx /\
  Forall (fun e => json_literal (z_name e) /\ json_literal (z_comment e)) Zip.PropertyLemmas.docx /\
  is_ok (program linux64 no_text (packed Zip.PropertyLemmas.docx) (one_file (B "PK")) [B "f"; B "json"]) = true.
Proof. exact C108_ex. Qed.

(** ** C109: compound files *)
Theorem C109_answered_iff : forall pl msg archive content fs file f, lenN content < 2 ^ 32 -> starts content [xd0; xcf; x11; xe0] -> fs file = Some content ->
  ((exists out, program pl msg archive fs [file; f] = Ok out) <->
   (exists l, Guess pl (read_workbook pl msg) ole_list (Some content) = Ok l /\ forall x, In x l -> exists t, render pl (ParseOutputFormat f) x = Ok t) /\
   movie_ok content).
Proof. exact C109_iff. Qed.
Print Assumptions C109_answered_iff.

Theorem C109_failure : forall pl msg archive content fs file f r, lenN content < 2 ^ 32 -> starts content [xd0; xcf; x11; xe0] -> fs file = Some content -> movie_ok content ->
  Guess pl (read_workbook pl msg) ole_list (Some content) = r -> fails r -> program pl msg archive fs [file; f] = (_ <- r ;; Ok []).
Proof. exact C109_fails. Qed.
Print Assumptions C109_failure.

Theorem C109_json_document : forall pl msg archive content fs file l, lenN content < 2 ^ 32 -> starts content [xd0; xcf; x11; xe0] -> fs file = Some content -> movie_ok content ->
  Guess pl (read_workbook pl msg) ole_list (Some content) = Ok l -> ~ In x00 file -> Forall (json_found pl msg) l ->
  exists rs out vs, results pl msg archive (fs file) = Ok rs /\ program pl msg archive fs [file; B "json"] = Ok out /\ Forall2 (json_of pl msg) rs vs /\
    (forall x, In x l -> In (OFile x) rs) /\
    (forall d, json_value out d <-> d = JObj [(map b2n (B "name"), JStr (map b2n file)); (map b2n (B "extensions"), JArr vs)]).
Proof. exact C109_json. Qed.
Print Assumptions C109_json_document.

Theorem C109_xml_document : forall pl msg archive content fs file l, lenN content < 2 ^ 32 -> starts content [xd0; xcf; x11; xe0] -> fs file = Some content -> movie_ok content ->
  Guess pl (read_workbook pl msg) ole_list (Some content) = Ok l -> Forall (xml_found pl msg) l ->
  exists rs out shown ns, results pl msg archive (fs file) = Ok rs /\ program pl msg archive fs [file; B "xml"] = Ok out /\ Forall2 (xml_of pl msg) rs ns /\
    (forall x, In x l -> In (OFile x) rs) /\
    (forall d, xml_document out d <-> d = XElem (B "file") [XElem (B "name") shown; XElem (B "extensions") ns]) /\
    (shown = xtext file <-> ~ In x3c file /\ ~ In x3e file).
Proof. exact C109_xml. Qed.
Print Assumptions C109_xml_document.

Example C109_example : stored_as file_book comp_book /\ clean comp_book /\ holds file_book comp_book 0 items_book /\ workbook_at items_book [a "Workbook"] Excel.Samples.book /\
  lenN file_book < 2 ^ 32 /\ lenN Excel.Samples.book < 2 ^ 30 /\ Forall unicode (all_paths items_book) /\
  Engine.Detailer windows Excel.Samples.said_text Excel.Samples.book = Ok book_result /\
  is_ok (Engine.contents_json windows book_result) = true /\ is_ok (Engine.contents_xml windows book_result) = true /\
  Forall json_literal (Excel.DocStatements.raw_of book_result) /\ Forall xml_literal (Excel.DocStatements.raw_of book_result) /\
  is_ok (program windows Excel.Samples.said_text no_archive (one_file file_book) [B "f"; B "json"]) = true.
Proof. exact C110_ex. Qed.

(** ** C110: workbooks *)
Theorem C110_json_document : forall f c items names b msg archive fs file i t, stored_as f c -> clean c -> holds f c 0 items -> workbook_at items names b ->
  fs file = Some f -> lenN f < 2 ^ 32 -> lenN b < 2 ^ 30 -> Forall unicode (all_paths items) -> ~ In x00 file ->
  Engine.Detailer windows msg b = Ok i -> Engine.contents_json windows i = Ok t -> Forall json_literal (Excel.DocStatements.raw_of i) ->
  exists out vs ms ws, program windows msg archive fs [file; B "json"] = Ok out /\
    path_members windows (all_paths items) [] ms /\ Excel.DocStatements.workbook_members windows i ws /\
    In (JObj (item_members (Engine.x_ext i) ++ ms ++ ws)) vs /\
    (forall d, json_value out d <-> d = JObj [(map b2n (B "name"), JStr (map b2n file)); (map b2n (B "extensions"), JArr vs)]).
Proof. exact C110_json. Qed.
Print Assumptions C110_json_document.

Theorem C110_xml_document : forall f c items names b msg archive fs file i t, stored_as f c -> clean c -> holds f c 0 items -> workbook_at items names b ->
  fs file = Some f -> lenN f < 2 ^ 32 -> lenN b < 2 ^ 30 -> Forall unicode (all_paths items) ->
  Engine.Detailer windows msg b = Ok i -> Engine.contents_xml windows i = Ok t -> Forall xml_literal (Excel.DocStatements.raw_of i) ->
  exists out shown es l ws, program windows msg archive fs [file; B "xml"] = Ok out /\
    path_elements (all_paths items) [] l /\ Excel.DocStatements.workbook_elements windows i ws /\
    In (XElem (B "item") (base_elements (Engine.x_ext i) ++ l ++ ws)) es /\
    (forall d, xml_document out d <-> d = XElem (B "file") [XElem (B "name") shown; XElem (B "extensions") es]) /\
    (shown = xtext file <-> ~ In x3c file /\ ~ In x3e file).
Proof. exact C110_xml. Qed.
Print Assumptions C110_xml_document.

Theorem C110_failure : forall f c items names b msg archive fs file format r, stored_as f c -> clean c -> holds f c 0 items -> workbook_at items names b ->
  fs file = Some f -> lenN f < 2 ^ 32 -> Engine.Detailer windows msg b = r -> fails r ->
  program windows msg archive fs [file; format] = (_ <- r ;; Ok []).
Proof. exact C110_fails. Qed.
Print Assumptions C110_failure.

Example C110_example : stored_as file_book comp_book /\ clean comp_book /\ holds file_book comp_book 0 items_book /\ workbook_at items_book [a "Workbook"] Excel.Samples.book /\
  lenN file_book < 2 ^ 32 /\ lenN Excel.Samples.book < 2 ^ 30 /\ Forall unicode (all_paths items_book) /\
  Engine.Detailer windows Excel.Samples.said_text Excel.Samples.book = Ok book_result /\
  is_ok (Engine.contents_json windows book_result) = true /\ is_ok (Engine.contents_xml windows book_result) = true /\
  Forall json_literal (Excel.DocStatements.raw_of book_result) /\ Forall xml_literal (Excel.DocStatements.raw_of book_result) /\
  is_ok (program windows Excel.Samples.said_text no_archive (one_file file_book) [B "f"; B "json"]) = true.
Proof. exact C110_ex. Qed.
