(** Properties of the whole program for archives.  Statements only; the vocabulary is in
    [Program/RowStatements.v], [Program/PartStatements.v], [Program/Statements.v] and [Zip/Statements.v]. *)
From Coq Require Import List NArith Bool Strings.String Strings.Byte.
From Verif Require Import Lib.Res Lib.Bytes Lib.BytesFacts Lib.Text Common.Model Common.Spec Magic.Table Magic.Model Zip.Model Program.Model.
From Verif Require Zip.Statements Zip.PropertyLemmas Program.PropertyLemmas.
From Verif Require Import Magic.Spec Magic.DocProofs Magic.DocBase Vba.Statements Program.Statements Program.PartStatements Program.Samples Program.RowStatements Program.PropertyLemmas7.
Import Magic.Table.
Import ListNotations.
Local Open Scope N_scope.

(** ** C129: archives, from the entries to the output *)
Theorem C129_rows : forall pl msg archive content es files kinds fs file, lenN content < 2 ^ 32 -> starts content (B "PK") -> ~ occurs_at (B "ftyp") content 4 ->
  archive (Some content) = Ok es -> Zip.Statements.archive_kinds es [] files kinds -> fs file = Some content ->
  exists before after infos, carried content (rows_upto is_zip_row table) before /\ carried content (rows_from is_zip_row table) after /\ kind_infos (files ++ kinds) infos /\
  (forall args, args = [] \/ (exists format, args = [format] /\ format <> B "xml" /\ format <> B "csv" /\ format <> B "json") ->
   program pl msg archive fs (file :: args) = Ok (file ++ [x0a] ++ List.concat (map (fun row => [x09] ++ row ++ [x0a])
     (map (five [x09]) (map row_info before ++ infos ++ map row_info after))))) /\
  program pl msg archive fs [file; B "csv"] = Ok (List.concat (map (fun row => row ++ [x0a]) (map (five [x2c]) (map row_info before ++ infos ++ map row_info after)))).
Proof. exact C129_lines. Qed.
Print Assumptions C129_rows.

Theorem C129_json_document : forall pl msg archive content es files kinds fs file, lenN content < 2 ^ 32 -> starts content (B "PK") -> ~ occurs_at (B "ftyp") content 4 ->
  archive (Some content) = Ok es -> Zip.Statements.archive_kinds es [] files kinds -> fs file = Some content -> ~ In x00 file ->
  (files ++ kinds = [] -> Forall (fun e => json_literal (z_name e) /\ json_literal (z_comment e)) es) ->
  exists out before after vs, program pl msg archive fs [file; B "json"] = Ok out /\ carried content (rows_upto is_zip_row table) before /\ carried content (rows_from is_zip_row table) after /\
    archive_values es (files ++ kinds) vs /\ forall d, json_value out d <-> d = JObj [(map b2n (B "name"), JStr (map b2n file));
      (map b2n (B "extensions"), JArr (map row_object before ++ vs ++ map row_object after))].
Proof. exact C129_json. Qed.
Print Assumptions C129_json_document.

Theorem C129_xml_document : forall pl msg archive content es files kinds fs file, lenN content < 2 ^ 32 -> starts content (B "PK") -> ~ occurs_at (B "ftyp") content 4 ->
  archive (Some content) = Ok es -> Zip.Statements.archive_kinds es [] files kinds -> fs file = Some content ->
  (files ++ kinds = [] -> Forall (fun e => xml_literal (z_name e) /\ xml_literal (z_comment e)) es) ->
  exists out shown before after vs, program pl msg archive fs [file; B "xml"] = Ok out /\ carried content (rows_upto is_zip_row table) before /\ carried content (rows_from is_zip_row table) after /\
    archive_nodes es (files ++ kinds) vs /\ (forall d, xml_document out d <-> d = XElem (B "file") [XElem (B "name") shown; XElem (B "extensions") (map row_element before ++ vs ++ map row_element after)]) /\
    (shown = xtext file <-> ~ In x3c file /\ ~ In x3e file).
Proof. exact C129_xml. Qed.
Print Assumptions C129_xml_document.

Theorem C129_documents_refuted : exists es1 es2,
  (forall out, program windows no_text (Program.PropertyLemmas.packed es1) (one_file (B "PK")) [B "f"; B "json"] = Ok out -> forall v, ~ json_value out v) /\
  is_ok (program windows no_text (Program.PropertyLemmas.packed es1) (one_file (B "PK")) [B "f"; B "json"]) = true /\
  (forall out, program windows no_text (Program.PropertyLemmas.packed es2) (one_file (B "PK")) [B "f"; B "xml"] = Ok out -> forall v, ~ xml_document out v) /\
  is_ok (program windows no_text (Program.PropertyLemmas.packed es2) (one_file (B "PK")) [B "f"; B "xml"]) = true.
Proof. exact C129_refuted. Qed.
Print Assumptions C129_documents_refuted.

Example C129_example : (exists files kinds, Zip.Statements.archive_kinds Zip.PropertyLemmas.docx [] files kinds) /\ starts (B "PK") (B "PK") /\ ~ occurs_at (B "ftyp") (B "PK") 4 /\
  program linux64 no_text (Program.PropertyLemmas.packed Zip.PropertyLemmas.docx) (one_file (B "PK")) [B "f"] =
    Ok (B "f" ++ [x0a; x09] ++ B "docx" ++ [x09] ++ B "Microsoft Office Open XML Document" ++ [x09; x09] ++ B "0" ++ [x09; x0a]).
Proof. exact C129_ex. Qed.
