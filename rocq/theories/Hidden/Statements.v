(** Vocabulary: rows of cells, and the documents of executables and films. *)
From Coq Require Import List NArith Strings.String Strings.Byte.
From Verif Require Import Lib.Bytes Lib.Text Lib.NumSpec Common.Model Common.Spec Common.Fields Magic.Model Magic.Spec Exe.Model Media.Model Vba.Statements.
Import ListNotations.
Local Open Scope N_scope.

(** The row reads as these cells: they are joined by the separator, which is in none of them. *)
Inductive cells (sep : byte) : bytes -> list bytes -> Prop :=
| ce_last c : ~ In sep c -> cells sep c [c]
| ce_more c row l : ~ In sep c -> cells sep row l -> cells sep (c ++ sep :: row) (c :: l).
(** How often a byte is in a text *)
Fixpoint times (c : byte) (s : bytes) : N := match s with [] => 0 | d :: s => (if byte_eqb d c then 1 else 0) + times c s end.

(** What JSON and XML say about an executable *)
Definition exec_members (i : ExecInfo) : list (list N * jval) :=
  [jfield (B "extension") (Extension (x_base i)); jfield (B "name") (VersionName (x_base i))] ++
  optional (x_MachineType i) (jfield (B "machinetype") (x_MachineType i)) ++ optional (x_Subsystem i) (jfield (B "subsystem") (x_Subsystem i)) ++
  optional (x_LinkerVersion i) (jfield (B "LinkerVersion") (x_LinkerVersion i)) ++ optional (x_OsVersion i) (jfield (B "OsVersion") (x_OsVersion i)) ++
  optional (x_ImageVersion i) (jfield (B "ImageVersion") (x_ImageVersion i)) ++
  match x_Characteristics i with [] => [] | l => [(map b2n (B "Characteristics"), JArr (map (fun s => JStr (map b2n s)) l))] end.
Definition exec_children (i : ExecInfo) : list xnode :=
  [xfield (B "extension") (Extension (x_base i)); xfield (B "name") (VersionName (x_base i)); xfield (B "machinetype") (x_MachineType i); xfield (B "subsystem") (x_Subsystem i)].
(** What they say about a film *)
Definition film_members (version : N) (brand code : bytes) : list (list N * jval) :=
  [jfield (B "extension") (B "mp4"); jfield (B "name") (B "MPEG-4 Media File"); (map b2n (B "version"), JNum version); jfield (B "brand") brand; jfield (B "brandcode") code].
Definition film_children (version : N) (brand code : bytes) : list xnode :=
  [xfield (B "extension") (B "mp4"); xfield (B "name") (B "MPEG-4 Media File"); xfield (B "version") (dec version); xfield (B "brand") brand; xfield (B "brandcode") code].
(** The codes of the brands whose names have commas *)
Definition comma_brands : list bytes :=
  map B ["da0a"; "da0b"; "da1a"; "da1b"; "da2a"; "da2b"; "da3a"; "da3b"; "dv1a"; "dv1b"; "dv2a"; "dv2b"; "dv3a"; "dv3b"; "mjp2"]%string.
