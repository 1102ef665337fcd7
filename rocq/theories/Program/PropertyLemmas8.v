(** Lemmas for C130: executables, drawings, pictures, sounds and films, from the bytes to the output. *)
From Coq Require Import List NArith ZArith Lia Bool Strings.String Strings.Byte ZifyBool ZifyNat ZifyN.
From Verif Require Import Lib.Res Lib.Bytes Lib.BytesFacts Lib.Text Lib.NumSpec Common.Model Common.Spec Common.Fields Magic.Table Magic.Model Zip.Model Exe.Tables Exe.Spec Program.Model.
From Verif Require Exe.PropertyLemmas Program.ArchiveProofs.
From Verif Require Import Magic.Spec Magic.DocProofs Magic.DocBase.
From Verif Require Import Program.Statements Program.PartStatements Program.Samples Program.RowStatements Program.KindStatements Program.KindProofs Program.MachProofs.
Import Magic.Table.
Import ListNotations.
Local Open Scope N_scope.

Lemma C130_total : forall content p, lenN content + 80 <= 2 ^ 32 -> signed content p ->
  match p with PExec => 64 <= lenN content | PMp4 => 16 <= lenN content | PRiff | PDwg | PJpeg => True | _ => False end -> exists e, one_kind content p e.
Proof. intros content p L S. apply (kind_total content); [lia|exact S|exact L]. Qed.
Lemma C130_lines : forall pl msg archive content fs file p e, lenN content < 2 ^ 32 -> supported pl -> fs file = Some content -> only_parser content p -> one_kind content p e ->
  exists before after, carried content (rows_upto (is_parser p) table) before /\ carried content (rows_from (is_parser p) table) after /\
  (forall args, args = [] \/ (exists format, args = [format] /\ format <> B "xml" /\ format <> B "csv" /\ format <> B "json") ->
   program pl msg archive fs (file :: args) = Ok (file ++ [x0a] ++ List.concat (map (fun row => [x09] ++ row ++ [x0a])
     (map (five [x09]) (map row_info before ++ [e] ++ map row_info after))))) /\
  program pl msg archive fs [file; B "csv"] = Ok (List.concat (map (fun row => row ++ [x0a]) (map (five [x2c]) (map row_info before ++ [e] ++ map row_info after)))).
Proof. intros pl msg archive content fs file p e L S F O K. exact (kind_lines pl msg archive content L S fs file p e F O K). Qed.
Lemma C130_json : forall pl msg archive content fs file p e, lenN content < 2 ^ 32 -> supported pl -> fs file = Some content -> only_parser content p -> one_kind content p e -> ~ In x00 file ->
  exists out before after, program pl msg archive fs [file; B "json"] = Ok out /\ carried content (rows_upto (is_parser p) table) before /\ carried content (rows_from (is_parser p) table) after /\
    forall d, json_value out d <-> d = JObj [(map b2n (B "name"), JStr (map b2n file));
      (map b2n (B "extensions"), JArr (map row_object before ++ [JObj (item_members e)] ++ map row_object after))].
Proof. intros pl msg archive content fs file p e L S F O K. exact (kind_json pl msg archive content L S fs file p e F O K). Qed.
Lemma C130_xml : forall pl msg archive content fs file p e, lenN content < 2 ^ 32 -> supported pl -> fs file = Some content -> only_parser content p -> one_kind content p e ->
  exists out shown before after, program pl msg archive fs [file; B "xml"] = Ok out /\ carried content (rows_upto (is_parser p) table) before /\ carried content (rows_from (is_parser p) table) after /\
    (forall d, xml_document out d <-> d = XElem (B "file") [XElem (B "name") shown; XElem (B "extensions") (map row_element before ++ [item_element e] ++ map row_element after)]) /\
    (shown = xtext file <-> ~ In x3c file /\ ~ In x3e file).
Proof. intros pl msg archive content fs file p e L S F O K. exact (kind_xml pl msg archive content L S fs file p e F O K). Qed.
Lemma C130_mach_lines : forall pl msg archive content m fs file, lenN content < 2 ^ 32 -> 28 <= lenN content -> In m mach_magics -> starts content m -> ~ occurs_at (B "ftyp") content 4 -> fs file = Some content ->
  exists before after digits cname sname mg ncmds size, carried content (rows_upto (is_mach m) table) before /\ carried content (rows_from (is_mach m) table) after /\
  mach_header content digits cname sname mg ncmds size /\
  (forall args, args = [] \/ (exists format, args = [format] /\ format <> B "xml" /\ format <> B "csv" /\ format <> B "json") ->
   program pl msg archive fs (file :: args) = Ok (file ++ [x0a] ++ List.concat (map (fun row => [x09] ++ row ++ [x0a])
     (map (fun mi => five [x09] (row_info mi)) before ++ [B "o" ++ [x09] ++ B "0x" ++ digits] ++ map (fun mi => five [x09] (row_info mi)) after)))) /\
  program pl msg archive fs [file; B "csv"] = Ok (List.concat (map (fun row => row ++ [x0a])
     (map (fun mi => five [x2c] (row_info mi)) before ++ [B "o" ++ [x2c] ++ B "0x" ++ digits] ++ map (fun mi => five [x2c] (row_info mi)) after))).
Proof. intros pl msg archive content m fs file L L' I S N F. exact (mach_lines pl msg archive content m fs file L L' I S N F). Qed.
Lemma C130_mach_json : forall pl msg archive content m fs file, lenN content < 2 ^ 32 -> 28 <= lenN content -> In m mach_magics -> starts content m -> ~ occurs_at (B "ftyp") content 4 -> fs file = Some content -> ~ In x00 file ->
  exists out before after digits cname sname mg ncmds size, program pl msg archive fs [file; B "json"] = Ok out /\ carried content (rows_upto (is_mach m) table) before /\
    carried content (rows_from (is_mach m) table) after /\ mach_header content digits cname sname mg ncmds size /\
    forall d, json_value out d <-> d = JObj [(map b2n (B "name"), JStr (map b2n file));
      (map b2n (B "extensions"), JArr (map row_object before ++ [JObj (macho_members (B "0x" ++ digits) cname sname (dec ncmds) (dec size))] ++ map row_object after))].
Proof. intros pl msg archive content m fs file L L' I S N F. exact (mach_json pl msg archive content m fs file L L' I S N F). Qed.
Lemma C130_mach_xml : forall pl msg archive content m fs file, lenN content < 2 ^ 32 -> 28 <= lenN content -> In m mach_magics -> starts content m -> ~ occurs_at (B "ftyp") content 4 -> fs file = Some content ->
  exists out shown before after digits cname sname mg ncmds size, program pl msg archive fs [file; B "xml"] = Ok out /\ carried content (rows_upto (is_mach m) table) before /\
    carried content (rows_from (is_mach m) table) after /\ mach_header content digits cname sname mg ncmds size /\
    (forall d, xml_document out d <-> d = XElem (B "file") [XElem (B "name") shown; XElem (B "extensions") (map row_element before ++
      [XElem (B "item") (macho_children (if mg mod 2 ^ 16 =? 0 then [] else dec (mg mod 2 ^ 16)) (B "0x" ++ digits) cname sname (dec ncmds) (dec size))] ++ map row_element after)]) /\
    (shown = xtext file <-> ~ In x3c file /\ ~ In x3e file).
Proof. intros pl msg archive content m fs file L L' I S N F. exact (mach_xml pl msg archive content m fs file L L' I S N F). Qed.

Lemma C130_ex : only_parser Exe.PropertyLemmas.small_dll PExec /\ one_kind Exe.PropertyLemmas.small_dll PExec (mkExt (B "dll") [] [] 0 (B "Dynamic Link Library")) /\
  program windows no_text no_archive (one_file Exe.PropertyLemmas.small_dll) [B "f"; B "csv"] = Ok (B "dll,,,0,Dynamic Link Library" ++ [x0a]).
Proof.
  assert (S : starts Exe.PropertyLemmas.small_dll (B "MZ")) by (exists [], (dropN 2 Exe.PropertyLemmas.small_dll); split; vm_compute; reflexivity).
  split; [split; [exact S|]|split; [|vm_compute; reflexivity]].
  - intros p' C. assert (M : ~ occurs_at (B "ftyp") Exe.PropertyLemmas.small_dll 4).
    { intros (pre & post & E & L). apply (f_equal (dropN 4)) in E. rewrite <- L in E. rewrite dropN_app_exact in E. rewrite L in E. apply (f_equal (takeN 4)) in E. vm_compute in E. discriminate E. }
    destruct p'; cbn [signed] in C; try reflexivity; try (exfalso; pose proof (Program.ArchiveProofs.one_start _ _ _ _ _ C S) as K; discriminate K); [| |elim M; exact C].
    + destruct C as (m & I & C). unfold mach_magics in I. cbn [In] in I. exfalso. destruct I as [<-|[<-|[<-|[<-|[]]]]]; pose proof (Program.ArchiveProofs.one_start _ _ _ _ _ C S) as K; discriminate K.
    + destruct C as (m & I & C). unfold wp_magics in I. cbn [In] in I. exfalso. destruct I as [<-|[<-|[]]]; pose proof (Program.ArchiveProofs.one_start _ _ _ _ _ C S) as K; discriminate K.
  - destruct Exe.PropertyLemmas.C27_ex as (N1 & N2 & L & _). apply (k_pe _ 64 8450 N1 N2 L). vm_compute. reflexivity.
Qed.
Lemma C130_mach_ex : 28 <= lenN Exe.PropertyLemmas.mach64 /\ In [xcf; xfa; xed; xfe] mach_magics /\ starts Exe.PropertyLemmas.mach64 [xcf; xfa; xed; xfe] /\
  program linux64 no_text no_archive (one_file Exe.PropertyLemmas.mach64) [B "f"] = Ok (B "f" ++ [x0a; x09] ++ B "o" ++ [x09] ++ B "0xfeedfacf" ++ [x0a]).
Proof.
  split; [vm_compute; discriminate|]. split; [unfold mach_magics; cbn [In]; auto|]. split; [|vm_compute; reflexivity].
  exists [], (dropN 4 Exe.PropertyLemmas.mach64). split; vm_compute; reflexivity.
Qed.
