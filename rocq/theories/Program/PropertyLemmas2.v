(** Lemmas in the form of the properties about compound files, with examples and refutations. *)
From Coq Require Import List NArith ZArith Lia Bool Strings.String ZifyBool ZifyNat ZifyN.
From Verif Require Import Lib.Res Lib.Bytes Lib.BytesFacts Lib.Text Common.Model Common.Spec Common.Utf8 Magic.Table Magic.Model Ole.Model Ole.Spec Ole.Statements Ole.Samples Ole.DirProofs
     Vba.Analyze Vba.FileSpec Vba.Samples Propset.Spec Propset.Samples Zip.Model Detect.Model Detect.Spec Detect.Statements Detect.Samples Program.Model.
From Verif Require Excel.Engine Excel.DocStatements Excel.Samples.
From Verif Require Import Magic.Spec Magic.DocProofs Magic.DocBase Vba.Statements Propset.Statements.
From Verif Require Import Program.Statements Program.Samples Program.PropertyLemmas Program.PartStatements Program.PartProgram Program.PartSamples.
Import Magic.Table.
Import ListNotations.
Local Open Scope N_scope.
Arguments N.pow : simpl never.

(** ** C116 *)
Lemma C116_json : forall f c items parts msg archive fs file, stored_as f c -> clean c -> holds f c 0 items ->
  Forall2 (holds_part f c msg (root_stream (a "Current User") items)) (all_visits items) parts ->
  fs file = Some f -> lenN f < 2 ^ 32 -> Forall unicode (all_paths items) -> ~ In x00 file -> Forall json_part parts ->
  exists out before after ms objs, program windows msg archive fs [file; B "json"] = Ok out /\
    carried f (rows_before table) before /\ carried f (rows_behind table) after /\ part_members items parts ms /\ shown_objects ms parts objs /\
    (forall d, json_value out d <->
       d = JObj [(map b2n (B "name"), JStr (map b2n file)); (map b2n (B "extensions"), JArr (map row_object before ++ objs ++ map row_object after))]).
Proof.
  intros f c items parts msg archive fs file St Cl Ho F Fs Sm U Nf J. destruct (open_ok windows f c (or_intror eq_refl) St) as (s & Eo & _).
  exact (parts_json f c s items msg parts archive fs file St Cl Eo Ho F Fs Sm U Nf J).
Qed.
Lemma C116_perfect : forall f c items before after msg archive fs file, stored_as f c -> clean c -> holds f c 0 items ->
  Forall2 (holds_part f c msg (root_stream (a "Current User") items)) (all_visits items) (before ++ PPerfect :: after) ->
  fs file = Some f -> lenN f < 2 ^ 32 -> Forall unicode (all_paths items) -> (forall i, In (PWorkbook i) before -> exists t, Engine.contents_json windows i = Ok t) ->
  program windows msg archive fs [file; B "json"] = UB.
Proof.
  intros f c items before after msg archive fs file St Cl Ho F Fs Sm U W. destruct (open_ok windows f c (or_intror eq_refl) St) as (s & Eo & _).
  exact (parts_perfect f c s items msg (before ++ PPerfect :: after) archive fs file St Cl Eo Ho Fs Sm F JSON _ (B "json") before after eq_refl (or_introl (conj eq_refl eq_refl)) eq_refl W U).
Qed.
Lemma doc_unicode : Forall unicode (all_paths items_doc).
Proof. apply good_codes. vm_compute. reflexivity. Qed.
Lemma C116_refuted : exists f c items parts, stored_as f c /\ clean c /\ holds f c 0 items /\
  (forall msg, Forall2 (holds_part f c msg (root_stream (a "Current User") items)) (all_visits items) parts) /\ lenN f < 2 ^ 32 /\ Forall unicode (all_paths items) /\
  forall msg archive fs file, fs file = Some f -> program windows msg archive fs [file; B "json"] = UB.
Proof.
  exists (file_one n_perfect), (comp_one n_perfect), items_perfect, [PPerfect]. split; [exact perfect_stored|]. split; [exact perfect_clean|]. split; [exact perfect_holds|].
  split; [exact perfect_holds_parts|]. assert (Sm : lenN (file_one n_perfect) < 2 ^ 32) by (vm_compute; reflexivity). split; [exact Sm|].
  assert (U : Forall unicode (all_paths items_perfect)) by (apply good_codes; vm_compute; reflexivity). split; [exact U|]. intros msg archive fs file Fs.
  apply (C116_perfect _ _ items_perfect [] [] msg archive fs file perfect_stored perfect_clean perfect_holds (perfect_holds_parts msg) Fs Sm U). intros i [].
Qed.
Lemma C116_ex : stored_as file_doc comp_doc /\ clean comp_doc /\ holds file_doc comp_doc 0 items_doc /\
  (forall msg, Forall2 (holds_part file_doc comp_doc msg (root_stream (a "Current User") items_doc)) (all_visits items_doc) doc_parts) /\
  lenN file_doc < 2 ^ 32 /\ Forall unicode (all_paths items_doc) /\ Forall json_part doc_parts /\ Forall xml_part doc_parts /\
  program windows no_text no_archive (one_file file_doc) [B "f"; B "json"] = Ok (B
"{""name"":""f"",""extensions"":[{""extension"" : ""doc"", ""name"":""Microsoft Office Word File"", ""version"" : ""108"", ""versionname"" : ""Unknown"", ""Paths"": [""/"",""/ObjectPool/"",""/ObjectPool/Notes"",""/WordDocument"",""/\u0005SummaryInformation""],""properties"": [{""Group"":""/\u0005SummaryInformation"",""properties"": [{""Property"":""Lines"",""Type"":""VT_I4"",""Value"":16777216}]}]}]}").
Proof.
  split; [exact doc_stored|]. split; [exact doc_clean|]. split; [exact doc_holds|]. split; [exact doc_holds_parts|]. split; [vm_compute; reflexivity|]. split; [exact doc_unicode|].
  split; [repeat constructor|]. split; [repeat constructor|]. vm_compute. reflexivity.
Qed.

Lemma C116_ex_macros : stored_as filev compv /\ clean compv /\ holds filev compv 0 items_v /\
  (forall msg, Forall2 (holds_part filev compv msg (root_stream (a "Current User") items_v)) (all_visits items_v) v_parts) /\
  lenN filev < 2 ^ 32 /\ Forall unicode (all_paths items_v) /\ Forall json_part v_parts /\ Forall xml_part v_parts /\
  program windows no_text no_archive (one_file filev) [B "f"; B "json"] = Ok (B
"{""name"":""f"",""extensions"":[{""extension"" : ""vba"", ""name"":""Visual Basic for Applications"", ""version"" : ""151"", ""projectname"":""P"", ""VBAVersionMajor"" : 481640, ""VBAVersionMinor"" : 12, ""Modules"" : [{""Name"":""M"",""StreamName"":""M"",""Offset"":3,""isPrivate"":1,""isReadOnly"":0,""Code"":""Sub a()""}]}]}").
Proof.
  split; [exact filev_stored|]. split; [exact filev_clean|]. split; [exact v_holds|]. split; [exact v_holds_parts|]. split; [vm_compute; reflexivity|].
  split; [apply good_codes; vm_compute; reflexivity|]. split; [repeat constructor|]. split; [|vm_compute; reflexivity].
  constructor; [|repeat constructor]. cbn [xml_part pr_Modules v_project]. constructor; [|constructor]. cbn [md_Code]. intros (pre & post & E). apply (f_equal (fun l => existsb (byte_eqb x5d) l)) in E.
  rewrite existsb_app in E. cbn in E. rewrite orb_true_r in E. discriminate E.
Qed.
Lemma C116_ex_workbook : Forall2 (holds_part file_book comp_book Excel.Samples.said_text (root_stream (a "Current User") items_book)) (all_visits items_book) book_parts /\
  Forall json_part book_parts /\ Forall xml_part book_parts.
Proof.
  split; [exact book_holds_parts|]. destruct C110_ex as (_ & _ & _ & _ & _ & _ & _ & _ & Cj & Cx & Rj & Rx & _). split.
  - constructor; [exact I|]. constructor; [|constructor]. split; [|exact Rj]. destruct (Engine.contents_json windows book_result) as [t| | |]; [exists t; reflexivity|discriminate Cj..].
  - constructor; [exact I|]. constructor; [|constructor]. split; [|exact Rx]. destruct (Engine.contents_xml windows book_result) as [t| | |]; [exists t; reflexivity|discriminate Cx..].
Qed.

(** ** C117 *)
Lemma C117_xml : forall f c items parts msg archive fs file, stored_as f c -> clean c -> holds f c 0 items ->
  Forall2 (holds_part f c msg (root_stream (a "Current User") items)) (all_visits items) parts ->
  fs file = Some f -> lenN f < 2 ^ 32 -> Forall unicode (all_paths items) -> Forall xml_part parts ->
  exists out shown before after ms objs, program windows msg archive fs [file; B "xml"] = Ok out /\
    carried f (rows_before table) before /\ carried f (rows_behind table) after /\ part_elements items parts ms /\ shown_elements ms parts objs /\
    (forall d, xml_document out d <->
       d = XElem (B "file") [XElem (B "name") shown; XElem (B "extensions") (map row_element before ++ objs ++ map row_element after)]) /\
    (shown = xtext file <-> ~ In x3c file /\ ~ In x3e file).
Proof.
  intros f c items parts msg archive fs file St Cl Ho F Fs Sm U J. destruct (open_ok windows f c (or_intror eq_refl) St) as (s & Eo & _).
  exact (parts_xml f c s items msg parts archive fs file St Cl Eo Ho F Fs Sm U J).
Qed.
Lemma C117_perfect : forall f c items before after msg archive fs file, stored_as f c -> clean c -> holds f c 0 items ->
  Forall2 (holds_part f c msg (root_stream (a "Current User") items)) (all_visits items) (before ++ PPerfect :: after) ->
  fs file = Some f -> lenN f < 2 ^ 32 -> Forall unicode (all_paths items) -> (forall i, In (PWorkbook i) before -> exists t, Engine.contents_xml windows i = Ok t) ->
  program windows msg archive fs [file; B "xml"] = UB.
Proof.
  intros f c items before after msg archive fs file St Cl Ho F Fs Sm U W. destruct (open_ok windows f c (or_intror eq_refl) St) as (s & Eo & _).
  exact (parts_perfect f c s items msg (before ++ PPerfect :: after) archive fs file St Cl Eo Ho Fs Sm F XML _ (B "xml") before after eq_refl (or_intror (conj eq_refl eq_refl)) eq_refl W U).
Qed.
Lemma C117_refuted : exists f c items parts, stored_as f c /\ clean c /\ holds f c 0 items /\
  (forall msg, Forall2 (holds_part f c msg (root_stream (a "Current User") items)) (all_visits items) parts) /\ lenN f < 2 ^ 32 /\ Forall unicode (all_paths items) /\
  forall msg archive fs file, fs file = Some f -> program windows msg archive fs [file; B "xml"] = UB.
Proof.
  exists (file_one n_perfect), (comp_one n_perfect), items_perfect, [PPerfect]. split; [exact perfect_stored|]. split; [exact perfect_clean|]. split; [exact perfect_holds|].
  split; [exact perfect_holds_parts|]. assert (Sm : lenN (file_one n_perfect) < 2 ^ 32) by (vm_compute; reflexivity). split; [exact Sm|].
  assert (U : Forall unicode (all_paths items_perfect)) by (apply good_codes; vm_compute; reflexivity). split; [exact U|]. intros msg archive fs file Fs.
  apply (C117_perfect _ _ items_perfect [] [] msg archive fs file perfect_stored perfect_clean perfect_holds (perfect_holds_parts msg) Fs Sm U). intros i [].
Qed.
Lemma C117_ex : stored_as file_doc comp_doc /\ clean comp_doc /\ holds file_doc comp_doc 0 items_doc /\
  (forall msg, Forall2 (holds_part file_doc comp_doc msg (root_stream (a "Current User") items_doc)) (all_visits items_doc) doc_parts) /\ Forall xml_part doc_parts /\
  program windows no_text no_archive (one_file file_doc) [B "f"; B "xml"] = Ok (B
"<file><name>f</name><extensions><item><extension>doc</extension><name>Microsoft Office Word File</name><version>108</version><versionname>Unknown</versionname><Paths><Path>/</Path>,<Path>/ObjectPool/</Path>,<Path>/ObjectPool/Notes</Path>,<Path>/WordDocument</Path>,<Path>/&#05;SummaryInformation</Path></Paths><properties><Group><Name>/&#05;SummaryInformation</Name><properties><PropertyItem><Property>Lines</Property><Type>VT_I4</Type><Value>16777216</Value></PropertyItem></properties></Group></properties></item></extensions></file>").
Proof.
  split; [exact doc_stored|]. split; [exact doc_clean|]. split; [exact doc_holds|]. split; [exact doc_holds_parts|]. split; [repeat constructor|]. vm_compute. reflexivity.
Qed.

(** ** C118 *)
Lemma C118_text : forall f c items parts msg archive fs file, stored_as f c -> clean c -> holds f c 0 items ->
  Forall2 (holds_part f c msg (root_stream (a "Current User") items)) (all_visits items) parts -> fs file = Some f -> lenN f < 2 ^ 32 ->
  exists before after, carried f (rows_before table) before /\ carried f (rows_behind table) after /\
  forall args, args = [] \/ (exists format, args = [format] /\ format <> B "xml" /\ format <> B "csv" /\ format <> B "json") ->
  program windows msg archive fs (file :: args) = Ok (file ++ [x0a] ++ List.concat (map (fun row => [x09] ++ row ++ [x0a])
    (map (fun mi => five [x09] (row_info mi)) before ++ part_rows [x09] parts ++ map (fun mi => five [x09] (row_info mi)) after))).
Proof.
  intros f c items parts msg archive fs file St Cl Ho F Fs Sm. destruct (open_ok windows f c (or_intror eq_refl) St) as (s & Eo & _).
  exact (parts_text f c s items msg parts archive fs file St Cl Eo Ho F Fs Sm).
Qed.
Lemma C118_csv : forall f c items parts msg archive fs file, stored_as f c -> clean c -> holds f c 0 items ->
  Forall2 (holds_part f c msg (root_stream (a "Current User") items)) (all_visits items) parts -> fs file = Some f -> lenN f < 2 ^ 32 ->
  exists before after, carried f (rows_before table) before /\ carried f (rows_behind table) after /\
  program windows msg archive fs [file; B "csv"] = Ok (List.concat (map (fun row => row ++ [x0a])
    (map (fun mi => five [x2c] (row_info mi)) before ++ part_rows [x2c] parts ++ map (fun mi => five [x2c] (row_info mi)) after))).
Proof.
  intros f c items parts msg archive fs file St Cl Ho F Fs Sm. destruct (open_ok windows f c (or_intror eq_refl) St) as (s & Eo & _).
  exact (parts_csv f c s items msg parts archive fs file St Cl Eo Ho F Fs Sm).
Qed.
Lemma C118_ex : program windows no_text no_archive (one_file file_doc) [B "f"] = Ok (B "f" ++ [x0a; x09] ++ B "doc" ++ [x09] ++ B "Unknown" ++ [x09] ++ B "108" ++ [x0a]) /\
  program windows no_text no_archive (one_file filev) [B "f"; B "csv"] = Ok (B "vba,Visual Basic for Applications,,151," ++ [x0a]) /\
  program windows no_text no_archive (one_file (file_one n_perfect)) [B "f"; B "csv"] = Ok (B "wp,Word Perfect File,0" ++ [x0a]).
Proof. repeat split; vm_compute; reflexivity. Qed.

(** ** C119 *)
Lemma C119_stops : forall f c items before v after parts r msg archive fs file format, stored_as f c -> clean c -> holds f c 0 items ->
  all_visits items = before ++ v :: after -> Forall2 (holds_part f c msg (root_stream (a "Current User") items)) before parts -> spoils f c msg v r ->
  fs file = Some f -> lenN f < 2 ^ 32 -> program windows msg archive fs [file; format] = r.
Proof.
  intros f c items before v after parts r msg archive fs file format St Cl Ho V F S Fs Sm. destruct (open_ok windows f c (or_intror eq_refl) St) as (s & Eo & _).
  exact (parts_spoiled f c s items msg parts archive fs file St Cl Eo Ho Fs Sm before v after r format V F S).
Qed.
Lemma C119_refuted : exists f c items, stored_as f c /\ clean c /\ holds f c 0 items /\ lenN f < 2 ^ 32 /\
  forall msg archive fs file format, fs file = Some f -> program windows msg archive fs [file; format] = UB.
Proof.
  exists file_drawing, comp_drawing, items_drawing. split; [exact drawing_stored|]. split; [exact drawing_clean|]. split; [exact drawing_holds|].
  assert (Sm : lenN file_drawing < 2 ^ 32) by (vm_compute; reflexivity). split; [exact Sm|]. intros msg archive fs file format Fs. destruct (drawing_parts msg) as (v & V & F & S).
  exact (C119_stops _ _ _ _ v [] _ UB msg archive fs file format drawing_stored drawing_clean drawing_holds V F S Fs Sm).
Qed.
Lemma C119_ex : stored_as file_drawing comp_drawing /\ clean comp_drawing /\ holds file_drawing comp_drawing 0 items_drawing /\
  all_visits items_drawing = [VStream [a "DRMContent"] (counting 64); VStream [a "VisioDocument"] (repeatN x41 10)] /\
  spoils file_drawing comp_drawing no_text (VStream [a "VisioDocument"] (repeatN x41 10)) UB /\
  program windows no_text no_archive (one_file file_drawing) [B "f"; B "csv"] = UB.
Proof.
  split; [exact drawing_stored|]. split; [exact drawing_clean|]. split; [exact drawing_holds|]. split; [reflexivity|]. split; [|vm_compute; reflexivity].
  destruct (drawing_parts no_text) as (v & V & _ & S). change (all_visits items_drawing) with ([VStream [a "DRMContent"] (counting 64)] ++ [VStream [a "VisioDocument"] (repeatN x41 10)]) in V.
  apply app_inv_head in V. injection V as <-. exact S.
Qed.
