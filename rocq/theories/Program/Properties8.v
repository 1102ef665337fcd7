(** Properties of the whole program for executables, drawings, pictures, sounds and films.  Statements only; the vocabulary
    is in [Program/KindStatements.v], [Program/RowStatements.v], [Program/PartStatements.v], [Program/Statements.v], [Exe/Spec.v] and [Media/Spec.v]. *)
From Coq Require Import List NArith Bool Strings.String Strings.Byte.
From Verif Require Import Lib.Res Lib.Bytes Lib.BytesFacts Lib.Text Lib.NumSpec Common.Model Common.Spec Common.Fields Magic.Table Magic.Model Zip.Model Exe.Tables Exe.Spec Program.Model.
From Verif Require Exe.PropertyLemmas.
From Verif Require Import Magic.Spec Magic.DocProofs Magic.DocBase Program.Statements Program.PartStatements Program.Samples Program.RowStatements Program.KindStatements Program.PropertyLemmas8.
Import Magic.Table.
Import ListNotations.
Local Open Scope N_scope.

(** ** C130: executables, drawings, pictures, sounds and films, from the bytes to the output *)
Theorem C130_every_file_has_a_kind : forall content p, lenN content + 80 <= 2 ^ 32 -> signed content p ->
  match p with PExec => 64 <= lenN content | PMp4 => 16 <= lenN content | PRiff | PDwg | PJpeg => True | _ => False end -> exists e, one_kind content p e.
Proof. exact C130_total. Qed.
Print Assumptions C130_every_file_has_a_kind.

Theorem C130_rows : forall pl msg archive content fs file p e, lenN content < 2 ^ 32 -> supported pl -> fs file = Some content -> only_parser content p -> one_kind content p e ->
  exists before after, carried content (rows_upto (is_parser p) table) before /\ carried content (rows_from (is_parser p) table) after /\
  (forall args, args = [] \/ (exists format, args = [format] /\ format <> B "xml" /\ format <> B "csv" /\ format <> B "json") ->
   program pl msg archive fs (file :: args) = Ok (file ++ [x0a] ++ List.concat (map (fun row => [x09] ++ row ++ [x0a])
     (map (five [x09]) (map row_info before ++ [e] ++ map row_info after))))) /\
  program pl msg archive fs [file; B "csv"] = Ok (List.concat (map (fun row => row ++ [x0a]) (map (five [x2c]) (map row_info before ++ [e] ++ map row_info after)))).
Proof. exact C130_lines. Qed.
Print Assumptions C130_rows.

Theorem C130_json_document : forall pl msg archive content fs file p e, lenN content < 2 ^ 32 -> supported pl -> fs file = Some content -> only_parser content p -> one_kind content p e -> ~ In x00 file ->
  exists out before after, program pl msg archive fs [file; B "json"] = Ok out /\ carried content (rows_upto (is_parser p) table) before /\ carried content (rows_from (is_parser p) table) after /\
    forall d, json_value out d <-> d = JObj [(map b2n (B "name"), JStr (map b2n file));
      (map b2n (B "extensions"), JArr (map row_object before ++ [JObj (item_members e)] ++ map row_object after))].
Proof. exact C130_json. Qed.
Print Assumptions C130_json_document.

Theorem C130_xml_document : forall pl msg archive content fs file p e, lenN content < 2 ^ 32 -> supported pl -> fs file = Some content -> only_parser content p -> one_kind content p e ->
  exists out shown before after, program pl msg archive fs [file; B "xml"] = Ok out /\ carried content (rows_upto (is_parser p) table) before /\ carried content (rows_from (is_parser p) table) after /\
    (forall d, xml_document out d <-> d = XElem (B "file") [XElem (B "name") shown; XElem (B "extensions") (map row_element before ++ [item_element e] ++ map row_element after)]) /\
    (shown = xtext file <-> ~ In x3c file /\ ~ In x3e file).
Proof. exact C130_xml. Qed.
Print Assumptions C130_xml_document.

Theorem C130_macho_rows : forall pl msg archive content m fs file, lenN content < 2 ^ 32 -> 28 <= lenN content -> In m mach_magics -> starts content m -> ~ occurs_at (B "ftyp") content 4 -> fs file = Some content ->
  exists before after digits cname sname mg ncmds size, carried content (rows_upto (is_mach m) table) before /\ carried content (rows_from (is_mach m) table) after /\
  mach_header content digits cname sname mg ncmds size /\
  (forall args, args = [] \/ (exists format, args = [format] /\ format <> B "xml" /\ format <> B "csv" /\ format <> B "json") ->
   program pl msg archive fs (file :: args) = Ok (file ++ [x0a] ++ List.concat (map (fun row => [x09] ++ row ++ [x0a])
     (map (fun mi => five [x09] (row_info mi)) before ++ [B "o" ++ [x09] ++ B "0x" ++ digits] ++ map (fun mi => five [x09] (row_info mi)) after)))) /\
  program pl msg archive fs [file; B "csv"] = Ok (List.concat (map (fun row => row ++ [x0a])
     (map (fun mi => five [x2c] (row_info mi)) before ++ [B "o" ++ [x2c] ++ B "0x" ++ digits] ++ map (fun mi => five [x2c] (row_info mi)) after))).
Proof. exact C130_mach_lines. Qed.
Print Assumptions C130_macho_rows.

Theorem C130_macho_json_document : forall pl msg archive content m fs file, lenN content < 2 ^ 32 -> 28 <= lenN content -> In m mach_magics -> starts content m -> ~ occurs_at (B "ftyp") content 4 -> fs file = Some content -> ~ In x00 file ->
  exists out before after digits cname sname mg ncmds size, program pl msg archive fs [file; B "json"] = Ok out /\ carried content (rows_upto (is_mach m) table) before /\
    carried content (rows_from (is_mach m) table) after /\ mach_header content digits cname sname mg ncmds size /\
    forall d, json_value out d <-> d = JObj [(map b2n (B "name"), JStr (map b2n file));
      (map b2n (B "extensions"), JArr (map row_object before ++ [JObj (macho_members (B "0x" ++ digits) cname sname (dec ncmds) (dec size))] ++ map row_object after))].
Proof. exact C130_mach_json. Qed.
Print Assumptions C130_macho_json_document.

Theorem C130_macho_xml_document : forall pl msg archive content m fs file, lenN content < 2 ^ 32 -> 28 <= lenN content -> In m mach_magics -> starts content m -> ~ occurs_at (B "ftyp") content 4 -> fs file = Some content ->
  exists out shown before after digits cname sname mg ncmds size, program pl msg archive fs [file; B "xml"] = Ok out /\ carried content (rows_upto (is_mach m) table) before /\
    carried content (rows_from (is_mach m) table) after /\ mach_header content digits cname sname mg ncmds size /\
    (forall d, xml_document out d <-> d = XElem (B "file") [XElem (B "name") shown; XElem (B "extensions") (map row_element before ++
      [XElem (B "item") (macho_children (if mg mod 2 ^ 16 =? 0 then [] else dec (mg mod 2 ^ 16)) (B "0x" ++ digits) cname sname (dec ncmds) (dec size))] ++ map row_element after)]) /\
    (shown = xtext file <-> ~ In x3c file /\ ~ In x3e file).
Proof. exact C130_mach_xml. Qed.
Print Assumptions C130_macho_xml_document.

Example C130_example : only_parser Exe.PropertyLemmas.small_dll PExec /\ one_kind Exe.PropertyLemmas.small_dll PExec (mkExt (B "dll") [] [] 0 (B "Dynamic Link Library")) /\
  program windows no_text no_archive (one_file Exe.PropertyLemmas.small_dll) [B "f"; B "csv"] = Ok (B "dll,,,0,Dynamic Link Library" ++ [x0a]).
Proof. exact C130_ex. Qed.

Example C130_example_of_macho : 28 <= lenN Exe.PropertyLemmas.mach64 /\ In [xcf; xfa; xed; xfe] mach_magics /\ starts Exe.PropertyLemmas.mach64 [xcf; xfa; xed; xfe] /\
  program linux64 no_text no_archive (one_file Exe.PropertyLemmas.mach64) [B "f"] = Ok (B "f" ++ [x0a; x09] ++ B "o" ++ [x09] ++ B "0xfeedfacf" ++ [x0a]).
Proof. exact C130_mach_ex. Qed.
