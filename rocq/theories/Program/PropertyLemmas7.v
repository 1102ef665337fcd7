(** Lemmas for C129: archives, from the entries to the output. *)
From Coq Require Import List NArith ZArith Lia Bool Strings.String ZifyBool ZifyNat ZifyN.
From Verif Require Import Lib.Res Lib.Bytes Lib.BytesFacts Lib.Text Common.Model Common.Spec Magic.Table Magic.Model Zip.Model Program.Model.
From Verif Require Magic.DocUnique Zip.Statements Zip.KindProofs Zip.PropertyLemmas Program.PropertyLemmas.
From Verif Require Import Magic.Spec Magic.DocProofs Magic.DocBase Vba.Statements.
From Verif Require Import Program.Statements Program.PartStatements Program.Samples Program.RowStatements Program.ZipProofs.
Import Magic.Table.
Import ListNotations.
Local Open Scope N_scope.

Lemma C129_lines : forall pl msg archive content es files kinds fs file, lenN content < 2 ^ 32 -> starts content (B "PK") -> ~ occurs_at (B "ftyp") content 4 ->
  archive (Some content) = Ok es -> Zip.Statements.archive_kinds es [] files kinds -> fs file = Some content ->
  exists before after infos, carried content (rows_upto is_zip_row table) before /\ carried content (rows_from is_zip_row table) after /\ kind_infos (files ++ kinds) infos /\
  (forall args, args = [] \/ (exists format, args = [format] /\ format <> B "xml" /\ format <> B "csv" /\ format <> B "json") ->
   program pl msg archive fs (file :: args) = Ok (file ++ [x0a] ++ List.concat (map (fun row => [x09] ++ row ++ [x0a])
     (map (five [x09]) (map row_info before ++ infos ++ map row_info after))))) /\
  program pl msg archive fs [file; B "csv"] = Ok (List.concat (map (fun row => row ++ [x0a]) (map (five [x2c]) (map row_info before ++ infos ++ map row_info after)))).
Proof. intros pl msg archive content es files kinds fs file L S M O K E. exact (zip_lines pl msg archive fs file content es files kinds L S M O K E). Qed.
Lemma C129_json : forall pl msg archive content es files kinds fs file, lenN content < 2 ^ 32 -> starts content (B "PK") -> ~ occurs_at (B "ftyp") content 4 ->
  archive (Some content) = Ok es -> Zip.Statements.archive_kinds es [] files kinds -> fs file = Some content -> ~ In x00 file ->
  (files ++ kinds = [] -> Forall (fun e => json_literal (z_name e) /\ json_literal (z_comment e)) es) ->
  exists out before after vs, program pl msg archive fs [file; B "json"] = Ok out /\ carried content (rows_upto is_zip_row table) before /\ carried content (rows_from is_zip_row table) after /\
    archive_values es (files ++ kinds) vs /\ forall d, json_value out d <-> d = JObj [(map b2n (B "name"), JStr (map b2n file));
      (map b2n (B "extensions"), JArr (map row_object before ++ vs ++ map row_object after))].
Proof. intros pl msg archive content es files kinds fs file L S M O K E. exact (zip_document_json pl msg archive fs file content es files kinds L S M O K E). Qed.
Lemma C129_xml : forall pl msg archive content es files kinds fs file, lenN content < 2 ^ 32 -> starts content (B "PK") -> ~ occurs_at (B "ftyp") content 4 ->
  archive (Some content) = Ok es -> Zip.Statements.archive_kinds es [] files kinds -> fs file = Some content ->
  (files ++ kinds = [] -> Forall (fun e => xml_literal (z_name e) /\ xml_literal (z_comment e)) es) ->
  exists out shown before after vs, program pl msg archive fs [file; B "xml"] = Ok out /\ carried content (rows_upto is_zip_row table) before /\ carried content (rows_from is_zip_row table) after /\
    archive_nodes es (files ++ kinds) vs /\ (forall d, xml_document out d <-> d = XElem (B "file") [XElem (B "name") shown; XElem (B "extensions") (map row_element before ++ vs ++ map row_element after)]) /\
    (shown = xtext file <-> ~ In x3c file /\ ~ In x3e file).
Proof. intros pl msg archive content es files kinds fs file L S M O K E. exact (zip_document_xml pl msg archive fs file content es files kinds L S M O K E). Qed.
(** Names of entries are written as they are. *)
Definition quoted_entries : list zentry := [Zip.PropertyLemmas.entry [x61; x22; x62] []].
Definition angled_entries : list zentry := [Zip.PropertyLemmas.entry [x61; x3c; x62] []].
Lemma C129_refuted : exists es1 es2,
  (forall out, program windows no_text (Program.PropertyLemmas.packed es1) (one_file (B "PK")) [B "f"; B "json"] = Ok out -> forall v, ~ json_value out v) /\
  is_ok (program windows no_text (Program.PropertyLemmas.packed es1) (one_file (B "PK")) [B "f"; B "json"]) = true /\
  (forall out, program windows no_text (Program.PropertyLemmas.packed es2) (one_file (B "PK")) [B "f"; B "xml"] = Ok out -> forall v, ~ xml_document out v) /\
  is_ok (program windows no_text (Program.PropertyLemmas.packed es2) (one_file (B "PK")) [B "f"; B "xml"]) = true.
Proof.
  exists quoted_entries, angled_entries. split; [|split; [vm_compute; reflexivity|split; [|vm_compute; reflexivity]]].
  - intros out E. vm_compute in E. injection E as <-. apply Magic.DocUnique.json_reject. vm_compute. reflexivity.
  - intros out E. vm_compute in E. injection E as <-. apply Magic.DocUnique.xml_reject. vm_compute. reflexivity.
Qed.
Lemma C129_ex : (exists files kinds, Zip.Statements.archive_kinds Zip.PropertyLemmas.docx [] files kinds) /\ starts (B "PK") (B "PK") /\ ~ occurs_at (B "ftyp") (B "PK") 4 /\
  program linux64 no_text (Program.PropertyLemmas.packed Zip.PropertyLemmas.docx) (one_file (B "PK")) [B "f"] =
    Ok (B "f" ++ [x0a; x09] ++ B "docx" ++ [x09] ++ B "Microsoft Office Open XML Document" ++ [x09; x09] ++ B "0" ++ [x09; x0a]).
Proof.
  split.
  - destruct (Zip.KindProofs.kinds_total Zip.PropertyLemmas.docx []) as [K|K]; [exact K|].
    exfalso. pose proof (Zip.KindProofs.detailer_macros linux64 _ [] K) as U. vm_compute in U. discriminate U.
  - split; [exists [], []; split; reflexivity|]. split; [|vm_compute; reflexivity]. intros (pre & post & E & L). apply (f_equal lenN) in E. rewrite !lenN_app in E. change (lenN (B "PK")) with 2 in E. change (lenN (B "ftyp")) with 4 in E. lia.
Qed.
