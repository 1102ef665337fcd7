(** Model of the methods that hide the ones the program calls: they are not [const] and so override nothing.
    They are reached through a pointer to the class itself only. *)
From Coq Require Import List NArith Bool Strings.String.
From Verif Require Import Lib.Bytes Lib.Text Common.Model Magic.Model Exe.Model Media.Model Asf.Model Vba.Analyze Vba.Output Zip.Model.
Import ListNotations.
Local Open Scope N_scope.

(** A string member written with a space on both sides of the colon *)
Definition jmember (key v : bytes) : bytes := q ++ key ++ q ++ B " : " ++ q ++ v ++ q.
Definition jopt (key v : bytes) : bytes := if nonempty v then B ", " ++ jmember key v else [].
(** Exec.hpp:29-51 *)
Definition exec_ToJson (i : ExecInfo) : bytes :=
  B "{" ++ jmember (B "extension") (Extension (x_base i)) ++ B ", " ++ jmember (B "name") (VersionName (x_base i)) ++
  jopt (B "machinetype") (x_MachineType i) ++ jopt (B "subsystem") (x_Subsystem i) ++ jopt (B "LinkerVersion") (x_LinkerVersion i) ++
  jopt (B "OsVersion") (x_OsVersion i) ++ jopt (B "ImageVersion") (x_ImageVersion i) ++
  match x_Characteristics i with
  | [] => []
  | l => B "," ++ q ++ B "Characteristics" ++ q ++ B ": [" ++ join (B ",") (map (fun s => q ++ s ++ q) l) ++ B "]"
  end ++ B "}".
(** Exec.hpp:52-61 *)
Definition exec_ToXml (i : ExecInfo) : bytes :=
  B "<item>" ++ xs (B "extension") (Extension (x_base i)) ++ xs (B "name") (VersionName (x_base i)) ++
  xs (B "machinetype") (x_MachineType i) ++ xs (B "subsystem") (x_Subsystem i) ++ B "</item>".
(** Exec.hpp:62-77: the version is written twice. *)
Definition exec_row (sep : byte) (i : ExecInfo) : bytes :=
  Extension (x_base i) ++ sep :: dec (Version (x_base i)) ++ sep :: VersionName (x_base i) ++
  sep :: dec (Version (x_base i)) ++ sep :: x_MachineType i ++ sep :: x_Subsystem i.
Definition exec_ToText : ExecInfo -> bytes := exec_row x09.
Definition exec_ToCsv : ExecInfo -> bytes := exec_row x2c.

(** mp4.hpp:19-29: nothing is escaped. *)
Definition mp4_ToJson (i : Mp4Info) : bytes :=
  B "{" ++ jmember (B "extension") (Extension (v_base i)) ++ B ", " ++ jmember (B "name") (VersionName (v_base i)) ++ B ", " ++
  q ++ B "version" ++ q ++ B " : " ++ dec (v_Version i) ++ B ", " ++ jmember (B "brand") (v_Brand i) ++ B ", " ++
  jmember (B "brandcode") (v_BrandCode i) ++ B "}".
(** mp4.hpp:30-40 *)
Definition mp4_ToXml (i : Mp4Info) : bytes :=
  B "<item>" ++ xs (B "extension") (Extension (v_base i)) ++ xs (B "name") (VersionName (v_base i)) ++
  xs (B "version") (dec (v_Version i)) ++ xs (B "brand") (v_Brand i) ++ xs (B "brandcode") (v_BrandCode i) ++ B "</item>".
(** mp4.hpp:41-58 *)
Definition mp4_row (sep : byte) (i : Mp4Info) : bytes :=
  Extension (v_base i) ++ sep :: VersionName (v_base i) ++ sep :: dec (v_Version i) ++ sep :: v_BrandCode i ++ sep :: v_Brand i.
Definition mp4_ToText : Mp4Info -> bytes := mp4_row x09.
Definition mp4_ToCsv : Mp4Info -> bytes := mp4_row x2c.

(** vbahelper.hpp:214-237 *)
Definition vba_row (sep : byte) (e : ExtensionInfo) (p : project) : bytes :=
  Extension e ++ sep :: Name e ++ sep :: SubType e ++ sep :: dec (Version e) ++ sep :: VersionName e ++
  sep :: pr_Name p ++ sep :: dec (pr_Major p) ++ sep :: dec (pr_Minor p).
Definition vba_ToText : ExtensionInfo -> project -> bytes := vba_row x09.
Definition vba_ToCsv : ExtensionInfo -> project -> bytes := vba_row x2c.
