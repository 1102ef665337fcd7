(** Lemmas for C134 to C136: the documents the classes write themselves. *)
From Coq Require Import List NArith ZArith Bool Lia Strings.String Strings.Byte ZifyBool ZifyNat ZifyN.
From Verif Require Import Lib.Res Lib.Bytes Lib.BytesFacts Lib.Text Lib.NumSpec Common.Model Common.Spec Common.Fields Magic.Spec Magic.Model Magic.DocUnique
     Exe.Tables Exe.Model Media.Model Media.Spec Vba.Analyze Vba.Output Vba.Statements Hidden.Model Hidden.Statements Hidden.Proofs.
From Verif Require Exe.PropertyLemmas Media.PropertyLemmas.
Import ListNotations.
Local Open Scope N_scope.

Lemma C134_json : forall p f i, exec_detail p f = Ok i -> forall d, json_value (exec_ToJson i) d <-> d = JObj (exec_members i).
Proof. exact exec_json. Qed.
Lemma C134_xml : forall p f i, exec_detail p f = Ok i -> forall d, xml_document (exec_ToXml i) d <-> d = XElem (B "item") (exec_children i).
Proof. exact exec_xml. Qed.
Lemma C134_cells : forall p f i, exec_detail p f = Ok i ->
  cells x2c (exec_ToCsv i) [Extension (x_base i); B "0"; VersionName (x_base i); B "0"; x_MachineType i; x_Subsystem i] /\
  cells x09 (exec_ToText i) [Extension (x_base i); B "0"; VersionName (x_base i); B "0"; x_MachineType i; x_Subsystem i].
Proof. exact exec_cells. Qed.
Lemma C134_unique : forall sep row l1 l2, cells sep row l1 -> cells sep row l2 -> l1 = l2.
Proof. intros sep row l1 l2 H1 H2. exact (cells_unique sep row l1 H1 l2 H2). Qed.
(** An image with the version of the linker and the characteristics of a library *)
Definition image (linker flags : byte) : bytes :=
  B "MZ" ++ repeat x00 58 ++ [x40; x00; x00; x00] ++ B "PE" ++ [x00; x00; x64; x86] ++ repeat x00 16 ++ [x22; x00] ++
  [x0b; x02; linker; x00] ++ repeat x00 68 ++ [flags; x01; x00; x00] ++ repeat x00 16.
Lemma C134_refuted : exists c1 c2 i1 i2, exec_detail linux64 (Some c1) = Ok i1 /\ exec_detail linux64 (Some c2) = Ok i2 /\ x_DllCharacteristics i1 <> x_DllCharacteristics i2 /\
  exec_ToJson i1 = exec_ToJson i2 /\ exec_ToXml i1 = exec_ToXml i2.
Proof.
  exists (image x0e x00), (image x0e x40). eexists _, _. split; [vm_compute; reflexivity|]. split; [vm_compute; reflexivity|]. split; [vm_compute; discriminate|]. split; vm_compute; reflexivity.
Qed.
Lemma C134_xml_refuted : exists c1 c2 i1 i2, exec_detail linux64 (Some c1) = Ok i1 /\ exec_detail linux64 (Some c2) = Ok i2 /\
  exec_ToXml i1 = exec_ToXml i2 /\ exec_ToJson i1 <> exec_ToJson i2.
Proof.
  exists (image x0e x00), (image x0d x00). eexists _, _. split; [vm_compute; reflexivity|]. split; [vm_compute; reflexivity|]. split; vm_compute; [reflexivity|discriminate].
Qed.
Lemma C134_ex : exists i, exec_detail linux64 (Some (image x0e x40)) = Ok i /\ x_LinkerVersion i = B "14.0" /\ exec_ToCsv i = B "exe,0,Executable,0,x64,Unknown Subsystem".
Proof. eexists. split; [vm_compute; reflexivity|]. split; vm_compute; reflexivity. Qed.

Lemma C135_json : forall buffer code v, window buffer 8 4 code -> be_number_at buffer 12 4 v -> json_literal code -> exists i brand, mp4_detail buffer = Ok i /\
  code_named brand_names (B "Unknonw FTYP") code brand /\ forall d, json_value (mp4_ToJson i) d <-> d = JObj (film_members v brand code).
Proof.
  intros buffer code v Hc Hv L. eexists _, (GetBrandName code). split; [apply film_parts; eassumption|]. split; [|apply film_json; exact L].
  destruct (Media.PropertyLemmas.C35_lemma buffer code v Hc Hv) as (i & E & _ & _ & K). rewrite (film_parts buffer code v Hc Hv) in E. injection E as <-. exact K.
Qed.
Lemma C135_xml : forall buffer code v, window buffer 8 4 code -> be_number_at buffer 12 4 v -> xml_literal code -> exists i brand, mp4_detail buffer = Ok i /\
  code_named brand_names (B "Unknonw FTYP") code brand /\ forall d, xml_document (mp4_ToXml i) d <-> d = XElem (B "item") (film_children v brand code).
Proof.
  intros buffer code v Hc Hv L. eexists _, (GetBrandName code). split; [apply film_parts; eassumption|]. split; [|apply film_xml; exact L].
  destruct (Media.PropertyLemmas.C35_lemma buffer code v Hc Hv) as (i & E & _ & _ & K). rewrite (film_parts buffer code v Hc Hv) in E. injection E as <-. exact K.
Qed.
Lemma C135_csv : forall buffer code v, window buffer 8 4 code -> be_number_at buffer 12 4 v -> exists i brand, mp4_detail buffer = Ok i /\
  code_named brand_names (B "Unknonw FTYP") code brand /\
  ((exists l, cells x2c (mp4_ToCsv i) l /\ lenN l = 5) <-> ~ In x2c code /\ ~ In code comma_brands) /\
  (~ In x2c code /\ ~ In code comma_brands -> cells x2c (mp4_ToCsv i) [B "mp4"; B "MPEG-4 Media File"; dec v; code; brand]).
Proof.
  intros buffer code v Hc Hv. eexists _, (GetBrandName code). split; [apply film_parts; eassumption|]. split.
  - destruct (Media.PropertyLemmas.C35_lemma buffer code v Hc Hv) as (i & E & _ & _ & K). rewrite (film_parts buffer code v Hc Hv) in E. injection E as <-. exact K.
  - rewrite <- brand_commas. apply (film_cells code v x2c). left. reflexivity.
Qed.
Lemma C135_text : forall buffer code v, window buffer 8 4 code -> be_number_at buffer 12 4 v -> exists i brand, mp4_detail buffer = Ok i /\
  code_named brand_names (B "Unknonw FTYP") code brand /\
  ((exists l, cells x09 (mp4_ToText i) l /\ lenN l = 5) <-> ~ In x09 code) /\ (~ In x09 code -> cells x09 (mp4_ToText i) [B "mp4"; B "MPEG-4 Media File"; dec v; code; brand]).
Proof.
  intros buffer code v Hc Hv. eexists _, (GetBrandName code). split; [apply film_parts; eassumption|]. split.
  - destruct (Media.PropertyLemmas.C35_lemma buffer code v Hc Hv) as (i & E & _ & _ & K). rewrite (film_parts buffer code v Hc Hv) in E. injection E as <-. exact K.
  - destruct (film_cells code v x09) as (A & C); [right; left; reflexivity|]. unfold mp4_ToText. assert (N : ~ In x09 (GetBrandName code)).
    { intros I. pose proof (brand_lit code) as L. unfold lit in L. rewrite forallb_forall in L. specialize (L _ I). discriminate L. }
    rewrite A. split; [tauto|]. intros H. apply C. tauto.
Qed.
Definition film_of (code : bytes) : bytes := [x00; x00; x00; x18] ++ B "ftyp" ++ code ++ [x00; x00; x02; x00].
Lemma C135_json_refuted : exists buffer i, mp4_detail buffer = Ok i /\ forall d, ~ json_value (mp4_ToJson i) d.
Proof. exists (film_of [x61; x22; x62; x63]). eexists. split; [vm_compute; reflexivity|]. apply json_reject. vm_compute. reflexivity. Qed.
Lemma C135_xml_refuted : exists buffer i, mp4_detail buffer = Ok i /\ forall d, ~ xml_document (mp4_ToXml i) d.
Proof. exists (film_of (B "a<bc")). eexists. split; [vm_compute; reflexivity|]. apply xml_reject. vm_compute. reflexivity. Qed.
Lemma film_of_parts code : lenN code = 4 -> window (film_of code) 8 4 code /\ be_number_at (film_of code) 12 4 512.
Proof.
  intros L. split.
  - split; [exact L|]. exists ([x00; x00; x00; x18] ++ B "ftyp"), [x00; x00; x02; x00]. split; reflexivity.
  - exists [x00; x00; x02; x00]. split; [|reflexivity]. split; [reflexivity|]. exists ([x00; x00; x00; x18] ++ B "ftyp" ++ code), []. split; [unfold film_of; rewrite <- !app_assoc; reflexivity|].
    rewrite !lenN_app, L. reflexivity.
Qed.
Lemma C135_csv_refuted : exists buffer code i, window buffer 8 4 code /\ json_literal code /\ xml_literal code /\ mp4_detail buffer = Ok i /\
  ~ exists l, cells x2c (mp4_ToCsv i) l /\ lenN l = 5.
Proof.
  destruct (film_of_parts (B "mjp2") eq_refl) as (H1 & H2). destruct (C135_csv _ _ _ H1 H2) as (i & brand & E & _ & K & _).
  exists (film_of (B "mjp2")), (B "mjp2"), i. split; [exact H1|]. split; [apply lit_json; reflexivity|]. split; [apply lit_xml; reflexivity|]. split; [exact E|].
  rewrite K. intros (_ & N). apply N. unfold comma_brands. cbn [map In]. tauto.
Qed.
Lemma C135_ex : window (film_of (B "isom")) 8 4 (B "isom") /\ be_number_at (film_of (B "isom")) 12 4 512 /\ json_literal (B "isom") /\ xml_literal (B "isom") /\
  ~ In x2c (B "isom") /\ ~ In (B "isom") comma_brands.
Proof.
  destruct (film_of_parts (B "isom") eq_refl) as (H1 & H2). split; [exact H1|]. split; [exact H2|]. split; [apply lit_json; reflexivity|]. split; [apply lit_xml; reflexivity|].
  split; [apply (comma_free_in (B "isom")); reflexivity|]. apply brand_commas. apply (comma_free_in (GetBrandName (B "isom"))). vm_compute. reflexivity.
Qed.

Lemma C136_csv : forall p, ((exists l, cells x2c (vba_ToCsv (vba_base p) p) l /\ lenN l = 8) <-> ~ In x2c (pr_Name p)) /\
  (~ In x2c (pr_Name p) -> cells x2c (vba_ToCsv (vba_base p) p) [B "vba"; B "Visual Basic for Applications"; []; dec (pr_Version p); []; pr_Name p; dec (pr_Major p); dec (pr_Minor p)]).
Proof. intros p. apply (project_cells p x2c). left. reflexivity. Qed.
Lemma C136_text : forall p, ((exists l, cells x09 (vba_ToText (vba_base p) p) l /\ lenN l = 8) <-> ~ In x09 (pr_Name p)) /\
  (~ In x09 (pr_Name p) -> cells x09 (vba_ToText (vba_base p) p) [B "vba"; B "Visual Basic for Applications"; []; dec (pr_Version p); []; pr_Name p; dec (pr_Major p); dec (pr_Minor p)]).
Proof. intros p. apply (project_cells p x09). right. left. reflexivity. Qed.
Lemma C136_refuted : exists p, ~ exists l, cells x2c (vba_ToCsv (vba_base p) p) l /\ lenN l = 8.
Proof. exists (mkProject 0 (B "a,b") [] [] 0 0). rewrite (proj1 (C136_csv _)). cbn [pr_Name]. intros N. apply N. right. left. reflexivity. Qed.
Lemma C136_ex : ~ In x2c (B "VBAProject") /\ vba_ToCsv (vba_base (mkProject 1 (B "VBAProject") [] [] 6 15)) (mkProject 1 (B "VBAProject") [] [] 6 15) =
  B "vba,Visual Basic for Applications,,1,,VBAProject,6,15".
Proof. split; [apply (comma_free_in (B "VBAProject")); reflexivity|vm_compute; reflexivity]. Qed.
