(** The documents for a VBA project: fileid/oless/vbahelper.hpp:126-237. *)
From Coq Require Import List NArith Bool Strings.String.
From Verif Require Import Lib.Res Lib.Bytes Lib.Text Common.Model Magic.Model Vba.Analyze.
Import ListNotations.
Local Open Scope N_scope.

(** A [bool] written to a stream *)
Definition flag (b : bool) : bytes := if b then B "1" else B "0".
(** vbahelper.hpp:133-138, 346: the inherited fields *)
Definition vba_base (p : project) : ExtensionInfo :=
  mkExt (B "vba") (B "Visual Basic for Applications") [] (pr_Version p) [].

(** vbahelper.hpp:158-168 *)
Definition module_json (m : module) : bytes :=
  B "{" ++ q ++ B "Name" ++ q ++ B ":" ++ q ++ JsonEscape (md_Name m) ++ q ++
  B "," ++ q ++ B "StreamName" ++ q ++ B ":" ++ q ++ JsonEscape (md_StreamName m) ++ q ++
  B "," ++ q ++ B "Offset" ++ q ++ B ":" ++ dec (md_Offset m) ++
  B "," ++ q ++ B "isPrivate" ++ q ++ B ":" ++ flag (md_isPrivate m) ++
  B "," ++ q ++ B "isReadOnly" ++ q ++ B ":" ++ flag (md_isReadOnly m) ++
  B "," ++ q ++ B "Code" ++ q ++ B ":" ++ q ++ JsonEscape (md_Code m) ++ q ++ B "}".
(** vbahelper.hpp:139-174 *)
Definition vba_json (e : ExtensionInfo) (p : project) : bytes :=
  B "{" ++ buildBaseJson e ++
  (if nonempty (pr_Name p) then B ", " ++ q ++ B "projectname" ++ q ++ B ":" ++ q ++ JsonEscape (pr_Name p) ++ q else []) ++
  (if 0 <? pr_Major p then B ", " ++ q ++ B "VBAVersionMajor" ++ q ++ B " : " ++ dec (pr_Major p) else []) ++
  (if 0 <? pr_Minor p then B ", " ++ q ++ B "VBAVersionMinor" ++ q ++ B " : " ++ dec (pr_Minor p) else []) ++
  (match pr_References p with
   | [] => []
   | l => B ", " ++ q ++ B "References" ++ q ++ B " : [" ++ vector_join l (B ",") true ++ B "]"
   end) ++
  (match pr_Modules p with
   | [] => []
   | l => B ", " ++ q ++ B "Modules" ++ q ++ B " : [" ++ join (B ",") (map module_json l) ++ B "]"
   end) ++ B "}".

(** vbahelper.hpp:201-208 *)
Definition module_xml (m : module) : bytes :=
  B "<Module>" ++ B "<Name>" ++ XmlEscape (md_Name m) ++ B "</Name>" ++
  B "<StreamName>" ++ XmlEscape (md_StreamName m) ++ B "</StreamName>" ++
  B "<Offset>" ++ dec (md_Offset m) ++ B "</Offset>" ++
  B "<isPrivate>" ++ flag (md_isPrivate m) ++ B "</isPrivate>" ++
  B "<isReadOnly>" ++ flag (md_isReadOnly m) ++ B "</isReadOnly>" ++
  B "<Code><![CDATA[" ++ md_Code m ++ B "]]></Code>" ++ B "</Module>".
(** vbahelper.hpp:175-213 *)
Definition vba_xml (e : ExtensionInfo) (p : project) : bytes :=
  B "<item>" ++ buildBaseXml e ++
  (if nonempty (pr_Name p) then B "<projectname>" ++ XmlEscape (pr_Name p) ++ B "</projectname>" else []) ++
  (if 0 <? pr_Major p then B "<VBAVersionMajor>" ++ dec (pr_Major p) ++ B "</VBAVersionMajor>" else []) ++
  (if 0 <? pr_Minor p then B "<VBAVersionMinor>" ++ dec (pr_Minor p) ++ B "</VBAVersionMinor>" else []) ++
  (match pr_References p with
   | [] => []
   | l => B "<References>" ++ List.concat (map (fun r => B "<Reference>" ++ r ++ B "</Reference>") l) ++ B "</References>"
   end) ++
  (match pr_Modules p with
   | [] => []
   | l => B "<Modules>" ++ join (B ",") (map module_xml l) ++ B "</Modules>"
   end) ++ B "</item>".

(** vbahelper.hpp:214-236 are not [const], so they do not override: the inherited rows are printed. *)
Definition vba_result (e : ExtensionInfo) (p : project) : Result :=
  mkResult e (mkExp (vba_json e p) (vba_xml e p) (ext_ToText e) (ext_ToCsv e)).
