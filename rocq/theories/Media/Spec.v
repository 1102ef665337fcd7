(** Vocabulary for the properties of the small content parsers (MP4, RIFF, DWG,
    WordPerfect).  Independent of [Media/Model.v] and [Media/WordPerfect.v]. *)
From Coq Require Import List NArith ZArith Bool Strings.String.
From Verif Require Import Lib.Bytes Lib.Text Lib.NumSpec Common.Model Common.Spec Common.Fields Magic.Spec.
Import ListNotations.
Local Open Scope N_scope.

(** The name listed for a four-character code, or the fallback text. *)
Definition code_named (rows : list (bytes * bytes)) (fallback code name : bytes) : Prop :=
  In (code, name) rows \/ (name = fallback /\ forall n, ~ In (code, n) rows).

(** A RIFF file: "RIFF", a length, the form type, then the first chunk's type. *)
Definition riff_form (content form : bytes) : Prop := window content 8 4 form.
Definition riff_first_chunk (content kind : bytes) : Prop := window content 12 4 kind.

(** The extension that belongs to a form type together with the expected first chunk. *)
Definition riff_extensions : list (bytes * bytes * bytes) := [
  (B "CDDA", B "fmt ", B "cda"); (B "WAVE", B "fmt ", B "wav"); (B "AVI ", B "LIST", B "avi");
  (B "QLCM", B "fmt ", B "qcp"); (B "RMID", B "data", B "rmi")].

(** The release an AutoCAD drawing's version tag stands for. *)
Definition dwg_releases : list (bytes * bytes) := [
  (B "AC1002", B "AutoCAD R2.5"); (B "AC1003", B "AutoCAD R2.6"); (B "AC1004", B "AutoCAD R9");
  (B "AC1006", B "AutoCAD R10"); (B "AC1009", B "AutoCAD R11/R12");
  (B "AC1010", B "AutoCAD R13 (subtype 10)"); (B "AC1011", B "AutoCAD R13 (subtype 11)");
  (B "AC1012", B "AutoCAD R13 (subtype 12)"); (B "AC1013", B "AutoCAD R14 (subtype 13)");
  (B "AC1014", B "AutoCAD R14 (subtype 14)"); (B "AC1015", B "AutoCAD R2000");
  (B "AC1018", B "AutoCAD R2004"); (B "AC1021", B "AutoCAD R2007")].

(** The members of the JSON description of a WordPerfect header. *)
Definition wp_members (base : ExtensionInfo) (prod kind major minor encrypt : bytes) : list (list N * jval) :=
  item_members base ++
  [(map b2n (B "Header"),
    JObj [jfield (B "ProductType") prod; jfield (B "FileType") kind; jfield (B "MajorVersion") major;
          jfield (B "MinorVersion") minor; jfield (B "Encrypt") encrypt])].
