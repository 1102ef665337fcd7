(** Properties C61-C65: VBA projects.  Statements only; the vocabulary is in [Vba/DirSpec.v],
    [Vba/FileSpec.v] and [Vba/Statements.v], the examples in [Vba/Samples.v]. *)
From Coq Require Import List NArith ZArith Bool Strings.String.
From Verif Require Import Lib.Res Lib.Bytes Lib.Text Common.Model Common.Spec Common.Fields Magic.Spec Magic.Model Magic.DocBase
     Ole.Model Ole.Spec Ole.Statements Ole.Samples Vba.Model Vba.Spec Vba.Analyze Vba.DirSpec Vba.FileSpec Vba.Statements Vba.Output
     Vba.Samples Vba.ProjectLemmas.
Import ListNotations.
Local Open Scope N_scope.

(** ** C61: projects without references *)
Theorem C61_project_without_references : forall p z version code, good_project p -> lenN (dir_stored p) < 2 ^ 32 - 64 -> vp_references p = [] ->
  project_info windows code version (in_memory (dir_stored p) z) =
  (codes <- mapM (fun m => code (vm_stream_wide m) (vm_offset m)) (vp_modules p) ;;
   Ok (mkProject version (vp_name p) [] (map (fun '(m, c) => module_of m c) (combine (vp_modules p) codes))
                 (vp_major p / 65536 + 65536 * vp_minor p) 12)).
Proof. exact C61_reads. Qed.
Print Assumptions C61_project_without_references.

Example C61_example : good_project project1 /\ vp_references project1 = [] /\ lenN (dir_stored project1) < 2 ^ 32 - 64 /\
  project_info windows (fun w o => Ok (map n2b w ++ [n2b o])) 151 (in_memory (dir_stored project1) 40) =
  Ok (mkProject 151 (B "P") []
        [mkModule (B "M1") (B "M1") (B "M1") [77; 49] 3 [x4d; x31; x03] true false;
         mkModule (B "M2") (B "M2") (B "M2") [77; 50] 5 [x4d; x32; x05] false true] 481640 12).
Proof. exact C61_ex. Qed.

(** ** C62: versions, references, compatibility version *)
Theorem C62_version_numbers_refuted : exists p q, good_project p /\ lenN (dir_stored p) < 2 ^ 32 - 64 /\ vp_references p = [] /\
  (forall z, project_info windows (fun _ _ => Ok []) 151 (in_memory (dir_stored p) z) = Ok q) /\
  pr_Major q <> vp_major p /\ pr_Minor q <> vp_minor p.
Proof. exact C62_version_refuted. Qed.
Print Assumptions C62_version_numbers_refuted.

Theorem C62_only_the_first_reference : forall p z version pl code r rs q, good_project p -> lenN (dir_stored p) < 2 ^ 32 - 64 -> vp_references p = r :: rs ->
  (let t := (lenN (rf_libid r) + 10) mod 65536 in t <> 13 /\ t <> 14 /\ t <> 22 /\ t <> 47 /\ t <> 51) ->
  project_info pl code version (in_memory (dir_stored p) z) = Ok q -> pr_References q = [rf_name r].
Proof. exact C62_first. Qed.
Print Assumptions C62_only_the_first_reference.

Theorem C62_short_identifiers : forall p z version code, good_project p -> lenN (dir_stored p) < 2 ^ 32 - 64 ->
  Forall (fun r => lenN (rf_libid r) mod 65536 = 3) (vp_references p) ->
  project_info windows code version (in_memory (dir_stored p) z) =
  (codes <- mapM (fun m => code (vm_stream_wide m) (vm_offset m)) (vp_modules p) ;;
   Ok (mkProject version (vp_name p) (map rf_name (vp_references p)) (map (fun '(m, c) => module_of m c) (combine (vp_modules p) codes))
                 (vp_major p / 65536 + 65536 * vp_minor p) 12)).
Proof. exact C62_three. Qed.
Print Assumptions C62_short_identifiers.

Example C62_example_short : good_project project3 /\ lenN (dir_stored project3) < 2 ^ 32 - 64 /\
  Forall (fun r => lenN (rf_libid r) mod 65536 = 3) (vp_references project3) /\ map rf_name (vp_references project3) = [B "stdole"; B "Office"] /\
  lenN (vp_modules project3) = 1.
Proof. exact C62_three_ex. Qed.

Theorem C62_all_references_refuted : exists p q, good_project p /\ lenN (vp_references p) = 2 /\
  project_info windows (fun _ _ => Ok []) 151 (in_memory (dir_stored p) 40) = Ok q /\ pr_References q = [rf_name stdole].
Proof. exact C62_references_refuted. Qed.
Print Assumptions C62_all_references_refuted.

Theorem C62_modules_after_references_refuted : exists p q, good_project p /\ vp_modules p = [module1] /\ vp_references p = [stdole] /\
  project_info windows (fun _ _ => Ok []) 151 (in_memory (dir_stored p) 40) = Ok q /\ pr_Modules q = [].
Proof. exact C62_modules_refuted. Qed.
Print Assumptions C62_modules_after_references_refuted.

Theorem C62_compat_version_always_fails : forall syskind compat lcid lcid_invoke code_page rest z pl code version,
  let d := compat_head syskind compat lcid lcid_invoke code_page ++ rest in
  lenN d < 131119 -> project_info pl code version (in_memory d z) = Throw RangeError.
Proof. exact C62_compat. Qed.
Print Assumptions C62_compat_version_always_fails.

Theorem C62_compat_version_refuted : exists p compat, good_project p /\
  forall pl code version z, project_info pl code version (in_memory (compat_head 1 compat 1033 1033 1252 ++ dropN 38 (dir_stored p)) z) = Throw RangeError.
Proof. exact C62_compat_refuted. Qed.
Print Assumptions C62_compat_version_refuted.

Example C62_example : good_project project2 /\ lenN (dir_stored project2) < 2 ^ 32 - 64 /\ vp_references project2 = [stdole] /\
  lenN (rf_libid stdole) + 10 = 35 /\ takeN 38 (dir_stored project1) = head38 /\ lenN (compat_head 1 1 1033 1033 1252) = 48.
Proof. exact C62_ex. Qed.

(** ** C63: memory *)
Theorem C63_memory_safe_partial : forall w d pl code version, container w d -> lenN w <= 4194272 -> sizeof_wchar pl <> 0 ->
  (forall name offset, safe (code name offset)) -> short_lengths (d ++ repeatN x00 (1024 * lenN w - lenN d)) ->
  exists b, Decompressed (lenN w) w = Ok b /\ safe (project_info pl code version b).
Proof. exact C63_safe. Qed.
Print Assumptions C63_memory_safe_partial.

Theorem C63_wrapped_length : forall len mem n pl code version, 43 <= len -> number_at mem 40 4 n -> 2 ^ 32 <= 44 + n -> 44 + n - 2 ^ 32 <= len ->
  lenN mem < 44 + n -> project_info pl code version (len, mem) = UB.
Proof. exact C63_wrap. Qed.
Print Assumptions C63_wrapped_length.

Theorem C63_memory_refuted : exists w d, container w d /\ lenN w <= 4194272 /\ exists b, Decompressed (lenN w) w = Ok b /\
  forall pl code version, project_info pl code version b = UB.
Proof. exact C63_refuted. Qed.
Print Assumptions C63_memory_refuted.

Example C63_example : container dir_text (dir_stored project0) /\ lenN dir_text <= 4194272 /\
  short_lengths (dir_stored project0 ++ repeatN x00 (1024 * lenN dir_text - lenN (dir_stored project0))) /\
  number_at (repeatN x00 40 ++ repeatN xff 4) 40 4 4294967295.
Proof. exact C63_ex. Qed.

(** ** C64: documents *)
Theorem C64_json_document : forall p, Forall json_literal (pr_References p) ->
  json_value (eJson (r_out (vba_result (vba_base p) p))) (JObj (item_members (vba_base p) ++ project_members p)).
Proof. exact C64_json. Qed.
Print Assumptions C64_json_document.

Theorem C64_xml_document : forall p, Forall xml_literal (pr_References p) -> Forall (fun m => ~ contains cdata_close (md_Code m)) (pr_Modules p) ->
  xml_document (eXml (r_out (vba_result (vba_base p) p))) (XElem (B "item") (base_elements (vba_base p) ++ project_nodes p)).
Proof. exact C64_xml. Qed.
Print Assumptions C64_xml_document.

Theorem C64_rows_say_nothing_of_the_project : forall p p', pr_Version p = pr_Version p' ->
  eText (r_out (vba_result (vba_base p) p)) = eText (r_out (vba_result (vba_base p') p')) /\
  eCsv (r_out (vba_result (vba_base p) p)) = eCsv (r_out (vba_result (vba_base p') p')).
Proof. exact C64_rows. Qed.
Print Assumptions C64_rows_say_nothing_of_the_project.

Theorem C64_json_document_refuted : exists p, forall v, ~ json_value (eJson (r_out (vba_result (vba_base p) p))) v.
Proof. exact C64_json_refuted. Qed.
Print Assumptions C64_json_document_refuted.

Theorem C64_json_is_unambiguous_refuted : exists p q, pr_References p <> pr_References q /\
  eJson (r_out (vba_result (vba_base p) p)) = eJson (r_out (vba_result (vba_base q) q)).
Proof. exact C64_ambiguous_refuted. Qed.
Print Assumptions C64_json_is_unambiguous_refuted.

Theorem C64_xml_code_refuted : exists p, pr_References p = [] /\ forall e, ~ xml_document (eXml (r_out (vba_result (vba_base p) p))) e.
Proof. exact C64_xml_refuted. Qed.
Print Assumptions C64_xml_code_refuted.

Theorem C64_xml_reference_is_escaped_refuted : exists p, pr_Modules p = [] /\ forall e, ~ xml_document (eXml (r_out (vba_result (vba_base p) p))) e.
Proof. exact C64_xml_reference_refuted. Qed.
Print Assumptions C64_xml_reference_is_escaped_refuted.

Example C64_example : exists p, Forall json_literal (pr_References p) /\ Forall xml_literal (pr_References p) /\
  Forall (fun m => ~ contains cdata_close (md_Code m)) (pr_Modules p) /\ lenN (pr_References p) = 2 /\ lenN (pr_Modules p) = 2.
Proof. exact C64_ex. Qed.

(** ** C65: projects in compound files *)
Theorem C65_project_of_a_file : forall f c s names version p codes, stored_as f c -> clean c -> storage_load windows (Some f) = Ok (Opened s) ->
  Forall plain_name names -> good_project p -> vp_references p = [] -> lenN (dir_stored p) < 2 ^ 32 - 64 ->
  project_streams f c names version p codes ->
  Analyze windows (path_text names) s =
  Ok (mkProject version (vp_name p) [] (map (fun '(m, code) => module_of m code) (combine (vp_modules p) codes))
                (vp_major p / 65536 + 65536 * vp_minor p) 12).
Proof. exact C65_analyze. Qed.
Print Assumptions C65_project_of_a_file.

Theorem C65_without_version_stream : forall f c s names, stored_as f c -> clean c -> storage_load windows (Some f) = Ok (Opened s) ->
  Forall plain_name names -> lacks c (names ++ [text (B "VBA"); text (B "_VBA_PROJECT")]) ->
  Analyze windows (path_text names) s = UB.
Proof. exact C65_no_version. Qed.
Print Assumptions C65_without_version_stream.

Theorem C65_without_dir_stream : forall f c s names h version, stored_as f c -> clean c -> storage_load windows (Some f) = Ok (Opened s) ->
  Forall plain_name names ->
  stream_at f c (names ++ [text (B "VBA"); text (B "_VBA_PROJECT")]) h -> 8 <= lenN h -> number_at h 2 2 version ->
  lacks c (names ++ [text (B "VBA"); text (B "dir")]) ->
  Analyze windows (path_text names) s = UB.
Proof. exact C65_no_dir. Qed.
Print Assumptions C65_without_dir_stream.

Theorem C65_without_module_stream : forall f c s names version p codes ms1 m ms2, stored_as f c -> clean c -> storage_load windows (Some f) = Ok (Opened s) ->
  Forall plain_name names -> good_project p -> vp_references p = [] -> lenN (dir_stored p) < 2 ^ 32 - 64 ->
  (exists h, stream_at f c (names ++ [text (B "VBA"); text (B "_VBA_PROJECT")]) h /\ 8 <= lenN h /\ number_at h 2 2 version) ->
  (exists w, stream_at f c (names ++ [text (B "VBA"); text (B "dir")]) w /\ container w (dir_stored p) /\ lenN w <= 4194272) ->
  vp_modules p = ms1 ++ m :: ms2 -> Forall2 (module_stream f c names) ms1 codes ->
  plain_name (vm_stream_wide m) -> lacks c (names ++ [text (B "VBA"); vm_stream_wide m]) ->
  Analyze windows (path_text names) s = UB.
Proof. exact C65_no_module. Qed.
Print Assumptions C65_without_module_stream.

Theorem C65_linux_never : forall f c s names, stored_as f c -> storage_load linux64 (Some f) = Ok (Opened s) -> Forall plain_name names ->
  Analyze linux64 (path_text names) s = UB \/ Analyze linux64 (path_text names) s = Fuel.
Proof. exact C65_linux. Qed.
Print Assumptions C65_linux_never.

Theorem C65_linux_finds_project_refuted : exists f c s names version p codes, stored_as f c /\ clean c /\ good_project p /\ vp_references p = [] /\
  project_streams f c names version p codes /\ storage_load linux64 (Some f) = Ok (Opened s) /\ Analyze linux64 (path_text names) s = UB.
Proof. exact C65_linux_refuted. Qed.
Print Assumptions C65_linux_finds_project_refuted.

Theorem C65_defined_without_stream_refuted : exists f c s names, stored_as f c /\ clean c /\ storage_load windows (Some f) = Ok (Opened s) /\
  Forall plain_name names /\ lacks c (names ++ [text (B "VBA"); text (B "_VBA_PROJECT")]) /\ Analyze windows (path_text names) s = UB.
Proof. exact C65_absent_refuted. Qed.
Print Assumptions C65_defined_without_stream_refuted.

Example C65_example : stored_as filev compv /\ clean compv /\ project_streams filev compv [n_macros] 151 project0 [code1] /\
  good_project project0 /\
  (r <- storage_load windows (Some filev) ;; match r with Opened s => Analyze windows (path_text [n_macros]) s | _ => Fuel end) =
  Ok (mkProject 151 (B "P") [] [mkModule (B "M") (B "M") (B "M1") [77; 49] 3 (B "Sub a()") true false] 481640 12).
Proof. exact C65_ex. Qed.
