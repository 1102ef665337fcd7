(** Vocabulary for archives.  Independent of [Zip/Model.v]. *)
From Coq Require Import List NArith Bool Strings.String.
From Verif Require Import Lib.Bytes Lib.Text Docs.Spec.
Import ListNotations.
Local Open Scope N_scope.

(** ** Content types *)
Definition attribute : bytes := B "ContentType=""".
(** The values of the attributes [ContentType="value"] of a text, in order; a value is neither empty
    nor does it contain a quote. *)
Inductive types_in : bytes -> list bytes -> Prop :=
| ti_none s : ~ contains attribute s -> types_in s []
| ti_next gap v rest vs : ~ contains attribute gap -> v <> [] -> ~ In x22 v -> types_in rest vs ->
    types_in (gap ++ attribute ++ v ++ [x22] ++ rest) (v :: vs).
(** What is taken for the values of any text: from behind the attribute to the first quote that is
    not the first character; no value behind the last quote. *)
Inductive taken_from : bytes -> list bytes -> Prop :=
| tf_none s : ~ contains attribute s -> taken_from s []
| tf_end gap : ~ contains attribute gap -> taken_from (gap ++ attribute) []
| tf_open gap c u : ~ contains attribute gap -> ~ In x22 u -> taken_from (gap ++ attribute ++ c :: u) []
| tf_next gap c u rest vs : ~ contains attribute gap -> ~ In x22 u -> taken_from rest vs ->
    taken_from (gap ++ attribute ++ c :: u ++ [x22] ++ rest) ((c :: u) :: vs).
(** An attribute as in XML: white space around the sign and either quote. *)
Definition white (b : byte) : bool := byte_eqb b x20 || byte_eqb b x09 || byte_eqb b x0a || byte_eqb b x0d.
Inductive xml_attribute : bytes -> bytes -> Prop :=
| xa w1 w2 quote v : forallb white w1 = true -> forallb white w2 = true -> quote = x22 \/ quote = x27 -> ~ In quote v -> ~ In x3c v ->
    xml_attribute (B "ContentType" ++ w1 ++ B "=" ++ w2 ++ [quote] ++ v ++ [quote]) v.

(** ** Names for the content types of the main parts: ECMA-376 and [MS-OFFMACRO2], and XPS *)
Definition office_types : list (bytes * bytes) := [
  (B "application/vnd.openxmlformats-officedocument.wordprocessingml.document.main+xml", B "docx");
  (B "application/vnd.openxmlformats-officedocument.wordprocessingml.template.main+xml", B "dotx");
  (B "application/vnd.ms-word.document.macroEnabled.main+xml", B "docm");
  (B "application/vnd.ms-word.template.macroEnabledTemplate.main+xml", B "dotm");
  (B "application/vnd.openxmlformats-officedocument.spreadsheetml.sheet.main+xml", B "xlsx");
  (B "application/vnd.openxmlformats-officedocument.spreadsheetml.template.main+xml", B "xltx");
  (B "application/vnd.ms-excel.sheet.macroEnabled.main+xml", B "xlsm");
  (B "application/vnd.ms-excel.template.macroEnabled.main+xml", B "xltm");
  (B "application/vnd.ms-excel.addin.macroEnabled.main+xml", B "xlam");
  (B "application/vnd.openxmlformats-officedocument.presentationml.presentation.main+xml", B "pptx");
  (B "application/vnd.openxmlformats-officedocument.presentationml.template.main+xml", B "potx");
  (B "application/vnd.openxmlformats-officedocument.presentationml.slideshow.main+xml", B "ppsx");
  (B "application/vnd.ms-powerpoint.presentation.macroEnabled.main+xml", B "pptm");
  (B "application/vnd.ms-powerpoint.template.macroEnabled.main+xml", B "potm");
  (B "application/vnd.ms-powerpoint.slideshow.macroEnabled.main+xml", B "ppsm");
  (B "application/vnd.ms-powerpoint.addin.macroEnabled.main+xml", B "ppam");
  (B "application/vnd.ms-package.xps-fixeddocumentsequence+xml", B "xps")].
(** OpenDocument 1.2, part 3, and the registered names of its kinds *)
Definition document_types : list (bytes * bytes) := [
  (B "application/vnd.oasis.opendocument.text", B "odt"); (B "application/vnd.oasis.opendocument.text-template", B "ott");
  (B "application/vnd.oasis.opendocument.graphics", B "odg"); (B "application/vnd.oasis.opendocument.graphics-template", B "otg");
  (B "application/vnd.oasis.opendocument.presentation", B "odp"); (B "application/vnd.oasis.opendocument.presentation-template", B "otp");
  (B "application/vnd.oasis.opendocument.spreadsheet", B "ods"); (B "application/vnd.oasis.opendocument.spreadsheet-template", B "ots");
  (B "application/vnd.oasis.opendocument.chart", B "odc"); (B "application/vnd.oasis.opendocument.chart-template", B "otc");
  (B "application/vnd.oasis.opendocument.image", B "odi"); (B "application/vnd.oasis.opendocument.image-template", B "oti");
  (B "application/vnd.oasis.opendocument.formula", B "odf"); (B "application/vnd.oasis.opendocument.formula-template", B "otf");
  (B "application/vnd.oasis.opendocument.text-master", B "odm"); (B "application/vnd.oasis.opendocument.text-web", B "oth");
  (B "application/vnd.oasis.opendocument.base", B "odb")].

(** The further types of the workbooks of Excel: binary ones, and sheets of macros. *)
Definition excel_types : list (bytes * bytes) := [
  (B "application/vnd.ms-excel.worksheet", B "xlsb"); (B "application/vnd.ms-excel.main", B "xlsb");
  (B "application/vnd.ms-excel.macrosheet", B "xlsb_e4m"); (B "application/vnd.ms-excel.macrosheet+xml", B "xlsm_e4m")].
Definition macro_type : bytes := B "application/vnd.ms-office.vbaProject".
Definition presentation_type : bytes := B "application/vnd.oasis.opendocument.presentation".
(** Other names of the type of databases *)
Definition database_types : list (bytes * bytes) := [
  (B "application/vnd.sun.xml.base", B "odb"); (B "application/vnd.oasis.opendocument.database", B "odb")].
(** Files that tell the kind of an archive *)
Definition marker_files : list (bytes * bytes) := [
  (B "META-INF/MANIFEST.MF", B "jar"); (B "WEB-INF/web.xml", B "war"); (B "META-INF/application.xml", B "ear");
  (B "AndroidManifest.xml", B "apk"); (B "install.js", B "xpi"); (B "install.rdf", B "xpi");
  (B "AppManifest.xaml", B "xap"); (B "WMAppManifest.xml", B "xap"); (B "Payload/Application.app", B "ipa");
  (B "imsmanifest.xml", B "scorm_pif")].

(** ** Selections *)

(** The values of the keys that the table has, in order. *)
Inductive known {A} (t : list (bytes * A)) : list bytes -> list A -> Prop :=
| kn_nil : known t [] []
| kn_yes k x ks xs : In (k, x) t -> known t ks xs -> known t (k :: ks) (x :: xs)
| kn_no k ks xs : (forall x, ~ In (k, x) t) -> known t ks xs -> known t (k :: ks) xs.
(** The values of the rows whose keys are as wanted, in order. *)
Inductive selected {A} (P : bytes -> Prop) : list (bytes * A) -> list A -> Prop :=
| se_nil : selected P [] []
| se_yes k x t xs : P k -> selected P t xs -> selected P ((k, x) :: t) (x :: xs)
| se_no k x t xs : ~ P k -> selected P t xs -> selected P ((k, x) :: t) xs.
(** [firsts before l m]: [m] are the elements of [l] that are not among [before], without later
    copies. *)
Inductive firsts {A} : list A -> list A -> list A -> Prop :=
| fi_nil before : firsts before [] []
| fi_old before x l m : In x before -> firsts before l m -> firsts before (x :: l) m
| fi_new before x l m : ~ In x before -> firsts (x :: before) l m -> firsts before (x :: l) (x :: m).
(** The ending of a name. *)
Definition ends_with (s e : bytes) : Prop := exists t, s = t ++ e.
