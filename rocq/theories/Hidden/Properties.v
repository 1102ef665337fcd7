(** Properties of the documents that the classes for executables, films and macro projects write themselves.
    Statements only; the vocabulary is in [Hidden/Statements.v], [Exe/Spec.v] and [Media/Spec.v]. *)
From Coq Require Import List NArith Bool Strings.String Strings.Byte.
From Verif Require Import Lib.Res Lib.Bytes Lib.Text Lib.NumSpec Common.Model Common.Spec Common.Fields Magic.Spec Magic.Model
     Exe.Model Media.Model Media.Spec Vba.Analyze Vba.Output Vba.Statements Hidden.Model Hidden.Statements Hidden.PropertyLemmas.
Import ListNotations.
Local Open Scope N_scope.

(** ** C134: executables *)
Theorem C134_json_document : forall p f i, exec_detail p f = Ok i -> forall d, json_value (exec_ToJson i) d <-> d = JObj (exec_members i).
Proof. exact C134_json. Qed.
Print Assumptions C134_json_document.

Theorem C134_xml_document : forall p f i, exec_detail p f = Ok i -> forall d, xml_document (exec_ToXml i) d <-> d = XElem (B "item") (exec_children i).
Proof. exact C134_xml. Qed.
Print Assumptions C134_xml_document.

Theorem C134_rows : forall p f i, exec_detail p f = Ok i ->
  cells x2c (exec_ToCsv i) [Extension (x_base i); B "0"; VersionName (x_base i); B "0"; x_MachineType i; x_Subsystem i] /\
  cells x09 (exec_ToText i) [Extension (x_base i); B "0"; VersionName (x_base i); B "0"; x_MachineType i; x_Subsystem i].
Proof. exact C134_cells. Qed.
Print Assumptions C134_rows.

Theorem C134_cells_are_determined : forall sep row l1 l2, cells sep row l1 -> cells sep row l2 -> l1 = l2.
Proof. exact C134_unique. Qed.
Print Assumptions C134_cells_are_determined.

Theorem C134_all_details_refuted : exists c1 c2 i1 i2, exec_detail linux64 (Some c1) = Ok i1 /\ exec_detail linux64 (Some c2) = Ok i2 /\ x_DllCharacteristics i1 <> x_DllCharacteristics i2 /\
  exec_ToJson i1 = exec_ToJson i2 /\ exec_ToXml i1 = exec_ToXml i2.
Proof. exact C134_refuted. Qed.
Print Assumptions C134_all_details_refuted.

Theorem C134_versions_in_xml_refuted : exists c1 c2 i1 i2, exec_detail linux64 (Some c1) = Ok i1 /\ exec_detail linux64 (Some c2) = Ok i2 /\
  exec_ToXml i1 = exec_ToXml i2 /\ exec_ToJson i1 <> exec_ToJson i2.
Proof. exact C134_xml_refuted. Qed.
Print Assumptions C134_versions_in_xml_refuted.

Example C134_example : exists i, exec_detail linux64 (Some (image x0e x40)) = Ok i /\ x_LinkerVersion i = B "14.0" /\ exec_ToCsv i = B "exe,0,Executable,0,x64,Unknown Subsystem".
Proof. exact C134_ex. Qed.

(** ** C135: films *)
Theorem C135_json_document : forall buffer code v, window buffer 8 4 code -> be_number_at buffer 12 4 v -> json_literal code -> exists i brand, mp4_detail buffer = Ok i /\
  code_named brand_names (B "Unknonw FTYP") code brand /\ forall d, json_value (mp4_ToJson i) d <-> d = JObj (film_members v brand code).
Proof. exact C135_json. Qed.
Print Assumptions C135_json_document.

Theorem C135_xml_document : forall buffer code v, window buffer 8 4 code -> be_number_at buffer 12 4 v -> xml_literal code -> exists i brand, mp4_detail buffer = Ok i /\
  code_named brand_names (B "Unknonw FTYP") code brand /\ forall d, xml_document (mp4_ToXml i) d <-> d = XElem (B "item") (film_children v brand code).
Proof. exact C135_xml. Qed.
Print Assumptions C135_xml_document.

Theorem C135_csv_row : forall buffer code v, window buffer 8 4 code -> be_number_at buffer 12 4 v -> exists i brand, mp4_detail buffer = Ok i /\
  code_named brand_names (B "Unknonw FTYP") code brand /\
  ((exists l, cells x2c (mp4_ToCsv i) l /\ lenN l = 5) <-> ~ In x2c code /\ ~ In code comma_brands) /\
  (~ In x2c code /\ ~ In code comma_brands -> cells x2c (mp4_ToCsv i) [B "mp4"; B "MPEG-4 Media File"; dec v; code; brand]).
Proof. exact C135_csv. Qed.
Print Assumptions C135_csv_row.

Theorem C135_text_row : forall buffer code v, window buffer 8 4 code -> be_number_at buffer 12 4 v -> exists i brand, mp4_detail buffer = Ok i /\
  code_named brand_names (B "Unknonw FTYP") code brand /\
  ((exists l, cells x09 (mp4_ToText i) l /\ lenN l = 5) <-> ~ In x09 code) /\ (~ In x09 code -> cells x09 (mp4_ToText i) [B "mp4"; B "MPEG-4 Media File"; dec v; code; brand]).
Proof. exact C135_text. Qed.
Print Assumptions C135_text_row.

Theorem C135_json_of_every_film_refuted : exists buffer i, mp4_detail buffer = Ok i /\ forall d, ~ json_value (mp4_ToJson i) d.
Proof. exact C135_json_refuted. Qed.
Print Assumptions C135_json_of_every_film_refuted.

Theorem C135_xml_of_every_film_refuted : exists buffer i, mp4_detail buffer = Ok i /\ forall d, ~ xml_document (mp4_ToXml i) d.
Proof. exact C135_xml_refuted. Qed.
Print Assumptions C135_xml_of_every_film_refuted.

Theorem C135_five_columns_refuted : exists buffer code i, window buffer 8 4 code /\ json_literal code /\ xml_literal code /\ mp4_detail buffer = Ok i /\
  ~ exists l, cells x2c (mp4_ToCsv i) l /\ lenN l = 5.
Proof. exact C135_csv_refuted. Qed.
Print Assumptions C135_five_columns_refuted.

Example C135_example : window (film_of (B "isom")) 8 4 (B "isom") /\ be_number_at (film_of (B "isom")) 12 4 512 /\ json_literal (B "isom") /\ xml_literal (B "isom") /\
  ~ In x2c (B "isom") /\ ~ In (B "isom") comma_brands.
Proof. exact C135_ex. Qed.

(** ** C136: macro projects *)
Theorem C136_csv_row : forall p, ((exists l, cells x2c (vba_ToCsv (vba_base p) p) l /\ lenN l = 8) <-> ~ In x2c (pr_Name p)) /\
  (~ In x2c (pr_Name p) -> cells x2c (vba_ToCsv (vba_base p) p) [B "vba"; B "Visual Basic for Applications"; []; dec (pr_Version p); []; pr_Name p; dec (pr_Major p); dec (pr_Minor p)]).
Proof. exact C136_csv. Qed.
Print Assumptions C136_csv_row.

Theorem C136_text_row : forall p, ((exists l, cells x09 (vba_ToText (vba_base p) p) l /\ lenN l = 8) <-> ~ In x09 (pr_Name p)) /\
  (~ In x09 (pr_Name p) -> cells x09 (vba_ToText (vba_base p) p) [B "vba"; B "Visual Basic for Applications"; []; dec (pr_Version p); []; pr_Name p; dec (pr_Major p); dec (pr_Minor p)]).
Proof. exact C136_text. Qed.
Print Assumptions C136_text_row.

Theorem C136_eight_columns_refuted : exists p, ~ exists l, cells x2c (vba_ToCsv (vba_base p) p) l /\ lenN l = 8.
Proof. exact C136_refuted. Qed.
Print Assumptions C136_eight_columns_refuted.

Example C136_example : ~ In x2c (B "VBAProject") /\ vba_ToCsv (vba_base (mkProject 1 (B "VBAProject") [] [] 6 15)) (mkProject 1 (B "VBAProject") [] [] 6 15) =
  B "vba,Visual Basic for Applications,,1,,VBAProject,6,15".
Proof. exact C136_ex. Qed.
