(** Properties of the whole program for ASF files.  Statements only; the vocabulary is in
    [Program/RowStatements.v], [Program/PartStatements.v], [Program/Statements.v] and [Asf/Statements.v]. *)
From Coq Require Import List NArith Bool Strings.String Strings.Byte.
From Verif Require Import Lib.Res Lib.Bytes Lib.BytesFacts Lib.Text Common.Model Common.Spec Magic.Table Magic.Model Zip.Model Asf.Model Asf.Spec Asf.Statements Program.Model.
From Verif Require Import Magic.Spec Magic.DocProofs Magic.DocBase Asf.PropertyLemmas Program.Statements Program.PartStatements Program.Samples Program.RowStatements Program.PropertyLemmas6.
Import Magic.Table.
Import ListNotations.
Local Open Scope N_scope.

(** ** C128: ASF files, from the bytes to the output *)
Theorem C128_answered_iff : forall pl msg archive content fs file more, lenN content < 2 ^ 32 -> starts content asf_magic -> fs file = Some content ->
  ((exists out, program pl msg archive fs (file :: more) = Ok out) <-> exists base hs, asf_answer pl content = Ok [asf_result base hs]).
Proof. exact C128_iff. Qed.
Print Assumptions C128_answered_iff.

Theorem C128_failures : forall pl msg archive content fs file more, lenN content < 2 ^ 32 -> starts content asf_magic -> fs file = Some content ->
  (forall e, asf_answer pl content = Throw e -> program pl msg archive fs (file :: more) = Throw e) /\
  (asf_answer pl content = UB -> program pl msg archive fs (file :: more) = UB) /\
  (asf_answer pl content = Fuel -> program pl msg archive fs (file :: more) = Fuel).
Proof. exact C128_fail. Qed.
Print Assumptions C128_failures.

Theorem C128_rows : forall pl msg archive content fs file base hs, lenN content < 2 ^ 32 -> starts content asf_magic -> fs file = Some content ->
  asf_answer pl content = Ok [asf_result base hs] ->
  (Extension base = B "asf" \/ Extension base = B "wma" \/ Extension base = B "wmv") /\
  exists before after, carried content (rows_upto is_asf table) before /\ carried content (rows_from is_asf table) after /\
  (forall args, args = [] \/ (exists format, args = [format] /\ format <> B "xml" /\ format <> B "csv" /\ format <> B "json") ->
   program pl msg archive fs (file :: args) = Ok (file ++ [x0a] ++ List.concat (map (fun row => [x09] ++ row ++ [x0a])
     (map (fun mi => five [x09] (row_info mi)) before ++ [three [x09] base] ++ map (fun mi => five [x09] (row_info mi)) after)))) /\
  program pl msg archive fs [file; B "csv"] = Ok (List.concat (map (fun row => row ++ [x0a])
     (map (fun mi => five [x2c] (row_info mi)) before ++ [three [x2c] base] ++ map (fun mi => five [x2c] (row_info mi)) after))).
Proof. exact C128_lines. Qed.
Print Assumptions C128_rows.

Theorem C128_json_document : forall pl msg archive content fs file base hs, lenN content < 2 ^ 32 -> starts content asf_magic -> fs file = Some content ->
  asf_answer pl content = Ok [asf_result base hs] -> forallb obj_plain hs = true -> ~ In x00 file ->
  exists out before after, program pl msg archive fs [file; B "json"] = Ok out /\ carried content (rows_upto is_asf table) before /\ carried content (rows_from is_asf table) after /\
    forall d, json_value out d <-> d = JObj [(map b2n (B "name"), JStr (map b2n file));
      (map b2n (B "extensions"), JArr (map row_object before ++ [asf_value base hs] ++ map row_object after))].
Proof. exact C128_json. Qed.
Print Assumptions C128_json_document.

Theorem C128_xml_document : forall pl msg archive content fs file base hs, lenN content < 2 ^ 32 -> starts content asf_magic -> fs file = Some content ->
  asf_answer pl content = Ok [asf_result base hs] -> forallb obj_plain hs = true ->
  exists out shown before after, program pl msg archive fs [file; B "xml"] = Ok out /\ carried content (rows_upto is_asf table) before /\ carried content (rows_from is_asf table) after /\
    (forall d, xml_document out d <-> d = XElem (B "file") [XElem (B "name") shown; XElem (B "extensions") (map row_element before ++ [asf_node base hs] ++ map row_element after)]) /\
    (shown = xtext file <-> ~ In x3c file /\ ~ In x3e file).
Proof. exact C128_xml. Qed.
Print Assumptions C128_xml_document.

Theorem C128_objects_windows : forall msg archive fs file number r1 r2 objs rest, lenN (asf_file number r1 r2 objs rest) < 2 ^ 32 -> header_size objs <= 65536 -> number < 2 ^ 32 ->
  Forall opaque objs -> fs file = Some (asf_file number r1 r2 objs rest) -> ~ In x00 file ->
  exists out before after, program windows msg archive fs [file; B "json"] = Ok out /\
    carried (asf_file number r1 r2 objs rest) (rows_upto is_asf table) before /\ carried (asf_file number r1 r2 objs rest) (rows_from is_asf table) after /\
    forall d, json_value out d <-> d = JObj [(map b2n (B "name"), JStr (map b2n file));
      (map b2n (B "extensions"), JArr (map row_object before ++
         [asf_value asf_base (AHeader (header_size objs) number (b2n r1) (b2n r2) :: map reported (takeN number objs))] ++ map row_object after))].
Proof. exact C128_windows. Qed.
Print Assumptions C128_objects_windows.

Theorem C128_objects_linux : forall msg archive fs file number r1 r2 o objs rest, lenN (asf_file number r1 r2 (o :: objs) rest) < 2 ^ 32 -> header_size (o :: objs) <= 65536 -> number < 2 ^ 32 ->
  Forall opaque (o :: objs) -> r1 <> x00 \/ r2 <> x00 -> fs file = Some (asf_file number r1 r2 (o :: objs) rest) -> ~ In x00 file ->
  exists out before after, program linux64 msg archive fs [file; B "json"] = Ok out /\
    carried (asf_file number r1 r2 (o :: objs) rest) (rows_upto is_asf table) before /\ carried (asf_file number r1 r2 (o :: objs) rest) (rows_from is_asf table) after /\
    forall d, json_value out d <-> d = JObj [(map b2n (B "name"), JStr (map b2n file));
      (map b2n (B "extensions"), JArr (map row_object before ++
         [asf_value asf_base (AHeader (header_size (o :: objs)) (number + 2 ^ 32 * le (r1 :: r2 :: takeN 2 (fst o))) (b2n r1) (b2n r2) :: map reported (o :: objs))] ++ map row_object after))].
Proof. exact C128_linux. Qed.
Print Assumptions C128_objects_linux.

Theorem C128_documents_refuted : exists content1 content2, starts content1 asf_magic /\ starts content2 asf_magic /\
  (forall out, program windows no_text no_archive (one_file content1) [B "f"; B "json"] = Ok out -> forall v, ~ json_value out v) /\
  is_ok (program windows no_text no_archive (one_file content1) [B "f"; B "json"]) = true /\
  (forall out, program windows no_text no_archive (one_file content2) [B "f"; B "xml"] = Ok out -> forall v, ~ xml_document out v) /\
  is_ok (program windows no_text no_archive (one_file content2) [B "f"; B "xml"]) = true.
Proof. exact C128_refuted. Qed.
Print Assumptions C128_documents_refuted.

Example C128_example : Forall opaque [padding; padding] /\ lenN (asf_file 2 x01 x02 [padding; padding] []) < 2 ^ 32 /\
  program windows no_text no_archive (one_file (asf_file 2 x01 x02 [padding; padding] [])) [B "f"] = Ok (B "f" ++ [x0a; x09] ++ B "asf" ++ [x09; x09] ++ B "0" ++ [x0a]) /\
  program linux64 no_text no_archive (one_file (asf_file 2 x01 x02 [padding; padding] [])) [B "f"] = Ok (B "f" ++ [x0a; x09] ++ B "asf" ++ [x09; x09] ++ B "0" ++ [x0a]).
Proof. exact C128_ex. Qed.
