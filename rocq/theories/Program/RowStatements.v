(** Vocabulary: files for which one parser is called. *)
From Coq Require Import List NArith Strings.String.
From Verif Require Import Lib.Bytes Lib.Text Common.Model Magic.Table Magic.Model Magic.Spec Magic.DocProofs Magic.DocBase Asf.Model Asf.Statements Zip.Model.
From Verif Require Zip.Statements.
Import ListNotations.
Local Open Scope N_scope.

(** The rows of the table before and behind the one with a parser. *)
Definition is_asf (mi : MagicInfo) : bool := match mi_func mi with Some PAsf => true | _ => false end.
Definition is_zip_row (mi : MagicInfo) : bool := match mi_func mi with Some PZip => true | _ => false end.
Fixpoint rows_upto (is : MagicInfo -> bool) (l : list MagicInfo) : list MagicInfo :=
  match l with [] => [] | mi :: r => if is mi then [] else mi :: rows_upto is r end.
Fixpoint rows_from (is : MagicInfo -> bool) (l : list MagicInfo) : list MagicInfo :=
  match l with [] => [] | mi :: r => if is mi then r else rows_from is r end.

(** What the documents say about an ASF file with these objects. *)
Definition asf_value (base : ExtensionInfo) (hs : list asf_object) : jval :=
  JObj (item_members base ++ match hs with [] => [] | _ => [(map b2n (B "headers"), JArr (map obj_jval hs))] end).
Definition asf_node (base : ExtensionInfo) (hs : list asf_object) : xnode :=
  XElem (B "item") (base_elements base ++ match hs with [] => [] | _ => [XElem (B "headers") (map obj_xnode hs)] end).

(** The entries shown for an archive of these kinds; a plain archive if there is none. *)
Definition kind_info (x : bytes) (e : ExtensionInfo) : Prop := exists name, e = mkExt x name [] 0 [].
Definition plain_archive : ExtensionInfo := mkExt (B "zip") (B "Zip File") [] 0 [].
Definition kind_infos (l : list bytes) (infos : list ExtensionInfo) : Prop :=
  (l <> [] /\ Forall2 kind_info l infos) \/ (l = [] /\ infos = [plain_archive]).
(** The values and elements of an archive with these entries and kinds. *)
Definition archive_values (es : list zentry) (l : list bytes) (vs : list jval) : Prop :=
  (l <> [] /\ exists infos, Forall2 kind_info l infos /\ vs = map (fun e => JObj (item_members e)) infos) \/
  (l = [] /\ exists ds, Zip.Statements.described Zip.Statements.json_fields es ds /\ vs = [Zip.Statements.zip_object ds]).
Definition archive_nodes (es : list zentry) (l : list bytes) (vs : list xnode) : Prop :=
  (l <> [] /\ exists infos, Forall2 kind_info l infos /\ vs = map item_element infos) \/
  (l = [] /\ exists ds, Zip.Statements.described Zip.Statements.xml_fields es ds /\ vs = [Zip.Statements.zip_element ds]).
