(** Properties of the whole program: files without a parser, WordPerfect files and files of several kinds.  Statements only; the vocabulary
    is in [Program/RestStatements.v], [Program/KindStatements.v] and [Program/Statements.v]. *)
From Coq Require Import List NArith Bool Strings.String Strings.Byte.
From Verif Require Import Lib.Res Lib.Bytes Lib.Text Common.Model Common.Spec Magic.Table Magic.Model Zip.Model Program.Model.
From Verif Require Import Magic.Spec Magic.DocProofs Magic.DocBase Program.Statements Program.PartStatements Program.Samples Program.RowStatements Program.KindStatements Program.RestStatements Program.PropertyLemmas10.
Import Magic.Table.
Import ListNotations.
Local Open Scope N_scope.

(** ** C132: files without a parser and WordPerfect files *)
Theorem C132_parsers_called : forall content, (forall p, ~ signed content p) \/ (exists p, only_parser content p) \/
  (exists p, p <> PMp4 /\ p <> PAsf /\ signed content p /\ signed content PMp4 /\ forall q, signed content q -> q = p \/ q = PMp4).
Proof. exact C132_cases. Qed.
Print Assumptions C132_parsers_called.

Theorem C132_rows : forall pl msg archive content fs file, lenN content < 2 ^ 32 -> fs file = Some content -> (forall p, ~ signed content p) ->
  exists l, carried content table l /\
  (forall args, args = [] \/ (exists format, args = [format] /\ format <> B "xml" /\ format <> B "csv" /\ format <> B "json") ->
   program pl msg archive fs (file :: args) = Ok (file ++ [x0a] ++ List.concat (map (fun row => [x09] ++ row ++ [x0a]) (rest_rows [x09] content l)))) /\
  program pl msg archive fs [file; B "csv"] = Ok (List.concat (map (fun row => row ++ [x0a]) (rest_rows [x2c] content l))).
Proof. exact C132_lines. Qed.
Print Assumptions C132_rows.

Theorem C132_json_document : forall pl msg archive content fs file, lenN content < 2 ^ 32 -> fs file = Some content -> (forall p, ~ signed content p) -> ~ In x00 file ->
  exists out l vs, program pl msg archive fs [file; B "json"] = Ok out /\ carried content table l /\ rest_values content l vs /\
    forall d, json_value out d <-> d = JObj [(map b2n (B "name"), JStr (map b2n file)); (map b2n (B "extensions"), JArr vs)].
Proof. exact C132_json. Qed.
Print Assumptions C132_json_document.

Theorem C132_xml_document : forall pl msg archive content fs file, lenN content < 2 ^ 32 -> fs file = Some content -> (forall p, ~ signed content p) ->
  exists out shown l vs, program pl msg archive fs [file; B "xml"] = Ok out /\ carried content table l /\ rest_nodes content l vs /\
    (forall d, xml_document out d <-> d = XElem (B "file") [XElem (B "name") shown; XElem (B "extensions") vs]) /\
    (shown = xtext file <-> ~ In x3c file /\ ~ In x3e file).
Proof. exact C132_xml. Qed.
Print Assumptions C132_xml_document.

Theorem C132_missing_file : forall pl msg archive fs1 fs2 file args, fs1 file = None -> fs2 file = Some [] ->
  program pl msg archive fs1 (file :: args) = program pl msg archive fs2 (file :: args).
Proof. exact C132_missing. Qed.
Print Assumptions C132_missing_file.

Theorem C132_wordperfect : forall pl msg archive content m fs file, lenN content < 2 ^ 32 -> fs file = Some content -> In m wp_magics -> starts content m -> ~ occurs_at (B "ftyp") content 4 ->
  exists before after, carried content (rows_upto (is_perfect m) table) before /\ carried content (rows_from (is_perfect m) table) after /\
  (forall args, args = [] \/ (exists format, args = [format] /\ format <> B "xml" /\ format <> B "csv" /\ format <> B "json") ->
   program pl msg archive fs (file :: args) = Ok (file ++ [x0a] ++ List.concat (map (fun row => [x09] ++ row ++ [x0a])
     (map (fun mi => five [x09] (row_info mi)) before ++ [three [x09] perfect_file] ++ map (fun mi => five [x09] (row_info mi)) after)))) /\
  program pl msg archive fs [file; B "csv"] = Ok (List.concat (map (fun row => row ++ [x0a])
     (map (fun mi => five [x2c] (row_info mi)) before ++ [three [x2c] perfect_file] ++ map (fun mi => five [x2c] (row_info mi)) after))) /\
  program pl msg archive fs [file; B "json"] = UB /\ program pl msg archive fs [file; B "xml"] = UB.
Proof. exact C132_perfect. Qed.
Print Assumptions C132_wordperfect.

Theorem C132_wordperfect_json_refuted : exists content, lenN content < 2 ^ 32 /\ program windows no_text no_archive (one_file content) [B "f"; B "json"] = UB /\
  program windows no_text no_archive (one_file content) [B "f"; B "csv"] = Ok (B "wp,Word Perfect File,0" ++ [x0a]).
Proof. exact C132_refuted. Qed.
Print Assumptions C132_wordperfect_json_refuted.

Example C132_example : (forall p, ~ signed (B "hello") p) /\
  program windows no_text no_archive (one_file (B "hello")) [B "f"; B "csv"] = Ok (B "unknown,Unknown File,0" ++ [x0a]) /\
  program windows no_text no_archive (one_file []) [B "f"; B "csv"] = Ok (B "empty,Empty File,,0," ++ [x0a]) /\
  program windows no_text no_archive (one_file []) [B "missing"; B "csv"] = Ok (B "empty,Empty File,,0," ++ [x0a]).
Proof. exact C132_ex. Qed.

(** ** C133: files of several kinds *)
Theorem C133_rows : forall pl msg archive content fs file, lenN content < 2 ^ 32 -> supported pl -> fs file = Some content ->
  (forall p, signed content p -> exists e, one_kind content p e) -> (exists p, signed content p) -> exists es, entries content table es /\
  (forall args, args = [] \/ (exists format, args = [format] /\ format <> B "xml" /\ format <> B "csv" /\ format <> B "json") ->
   program pl msg archive fs (file :: args) = Ok (file ++ [x0a] ++ List.concat (map (fun row => [x09] ++ row ++ [x0a]) (map (five [x09]) es)))) /\
  program pl msg archive fs [file; B "csv"] = Ok (List.concat (map (fun row => row ++ [x0a]) (map (five [x2c]) es))).
Proof. exact C133_lines. Qed.
Print Assumptions C133_rows.

Theorem C133_json_document : forall pl msg archive content fs file, lenN content < 2 ^ 32 -> supported pl -> fs file = Some content ->
  (forall p, signed content p -> exists e, one_kind content p e) -> (exists p, signed content p) -> ~ In x00 file ->
  exists out es, program pl msg archive fs [file; B "json"] = Ok out /\ entries content table es /\
    forall d, json_value out d <-> d = JObj [(map b2n (B "name"), JStr (map b2n file)); (map b2n (B "extensions"), JArr (map (fun e => JObj (item_members e)) es))].
Proof. exact C133_json. Qed.
Print Assumptions C133_json_document.

Theorem C133_xml_document : forall pl msg archive content fs file, lenN content < 2 ^ 32 -> supported pl -> fs file = Some content ->
  (forall p, signed content p -> exists e, one_kind content p e) -> (exists p, signed content p) ->
  exists out shown es, program pl msg archive fs [file; B "xml"] = Ok out /\ entries content table es /\
    (forall d, xml_document out d <-> d = XElem (B "file") [XElem (B "name") shown; XElem (B "extensions") (map item_element es)]) /\
    (shown = xtext file <-> ~ In x3c file /\ ~ In x3e file).
Proof. exact C133_xml. Qed.
Print Assumptions C133_xml_document.

Theorem C133_entries_are_determined : forall content es1 es2, lenN content < 2 ^ 32 -> entries content table es1 -> entries content table es2 -> es1 = es2.
Proof. exact C133_unique. Qed.
Print Assumptions C133_entries_are_determined.

Theorem C133_one_kind_refuted : exists content, lenN content < 2 ^ 32 /\ signed content PRiff /\ signed content PMp4 /\
  exists rest, program linux64 no_text no_archive (one_file content) [B "f"; B "csv"] = Ok (B "mp4,,,0,MPEG-4 Media File" ++ [x0a] ++ B "wav,,,0," ++ [x0a] ++ rest).
Proof. exact C133_refuted. Qed.
Print Assumptions C133_one_kind_refuted.

Example C133_example : exists e1 e2, signed sound_film PRiff /\ signed sound_film PMp4 /\ one_kind sound_film PRiff e1 /\ one_kind sound_film PMp4 e2 /\
  (forall p, signed sound_film p -> exists e, one_kind sound_film p e) /\
  program linux64 no_text no_archive (one_file sound_film) [B "f"; B "csv"] = Ok (B "mp4,,,0,MPEG-4 Media File" ++ [x0a] ++ B "wav,,,0," ++ [x0a]).
Proof. exact C133_ex. Qed.
