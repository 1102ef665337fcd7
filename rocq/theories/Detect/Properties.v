(** Properties C75-C84: the contents of compound files.  Statements only; the vocabulary is in
    [Detect/Spec.v] and [Detect/Statements.v], the examples in [Detect/Samples.v] and
    [Detect/PropertyLemmas.v]. *)
From Coq Require Import List NArith ZArith Bool Strings.String Strings.Byte.
From Verif Require Import Lib.Res Lib.Bytes Lib.Text Common.Model Common.Spec Common.Fields Common.Utf8
     Magic.Model Magic.Spec Magic.DocProofs Magic.DocBase Ole.Model Ole.Spec Ole.Statements Vba.Analyze Vba.Output Vba.DirSpec Vba.FileSpec
     Vba.Statements Vba.Samples Propset.Model Propset.Output Propset.Spec Propset.Statements Docs.Model Media.WordPerfect
     Detect.Model Detect.Output Detect.Spec Detect.Statements Detect.Samples Detect.PropertyLemmas.
Import ListNotations.
Local Open Scope N_scope.

(** ** C75: the entries of a compound file *)
Theorem C75_answer_iff : forall f c s items excel l, stored_as f c -> clean c -> storage_load windows (Some f) = Ok (Opened s) -> holds f c 0 items ->
  (Guess windows excel ole_list (Some f) = Ok l <->
   exists outs g, Forall2 (fun v o => yields windows excel (root_stream (a "Current User") items) s v (Ok o)) (all_visits items) outs /\
     sorted_by_key (groups_of outs) g /\ reported (all_paths items) g (results_of outs) l).
Proof. exact C75_iff. Qed.
Print Assumptions C75_answer_iff.

Theorem C75_first_failure : forall f c s items excel before v after outs (r : res outcome), stored_as f c -> clean c -> storage_load windows (Some f) = Ok (Opened s) ->
  holds f c 0 items -> all_visits items = before ++ v :: after ->
  Forall2 (fun v o => yields windows excel (root_stream (a "Current User") items) s v (Ok o)) before outs ->
  yields windows excel (root_stream (a "Current User") items) s v r -> (forall o, r <> Ok o) ->
  Guess windows excel ole_list (Some f) = (_ <- r ;; Ok []).
Proof. exact C75_failure. Qed.
Print Assumptions C75_first_failure.

Theorem C75_every_entry_decided : forall pl excel current s v, exists r, yields pl excel current s v r /\ forall r', yields pl excel current s v r' -> r' = r.
Proof. exact C75_decided. Qed.
Print Assumptions C75_every_entry_decided.

Theorem C75_file_not_opened : forall pl excel rows file o, storage_load pl file = Ok o -> (forall s, o <> Opened s) ->
  Guess pl excel rows file = Ok [FOless (mkExt (B "oless") [] [] 0 (B "OLE Structured Storage")) [] []].
Proof. exact C75_unopened. Qed.
Print Assumptions C75_file_not_opened.

Example C75_example : stored_as file_doc comp_doc /\ clean comp_doc /\ holds file_doc comp_doc 0 items_doc /\
  Guess windows no_excel ole_list (Some file_doc) =
  Ok [FOless (mkExt (B "doc") (B "Microsoft Office Word File") [] 108 (B "Unknown"))
        [a "/"; a "/ObjectPool/"; a "/ObjectPool/Notes"; a "/WordDocument"; a "/" ++ [5] ++ a "SummaryInformation"]
        [(a "/" ++ [5] ++ a "SummaryInformation", [mkProp 5 FMTID_DocSummaryInformation 3 (VInt 16777216)])]].
Proof. exact C75_ex. Qed.

(** ** C76: kinds of documents and projects *)
Theorem C76_kind_is_reported : forall f c s items excel l names b k, stored_as f c -> clean c -> storage_load windows (Some f) = Ok (Opened s) -> holds f c 0 items ->
  Guess windows excel ole_list (Some f) = Ok l -> In (VStream names b) (all_visits items) ->
  ~ In (last names []) property_names -> In k kinds -> tells (path_text names) k ->
  exists x z, read_kind windows excel (root_stream (a "Current User") items) k b = Ok x /\ alike x z /\ In z l.
Proof. exact C76_named. Qed.
Print Assumptions C76_kind_is_reported.

Theorem C76_reported_by_low_bytes : forall f c s items excel l names b k, stored_as f c -> clean c -> storage_load windows (Some f) = Ok (Opened s) -> holds f c 0 items ->
  Guess windows excel ole_list (Some f) = Ok l -> In (VStream names b) (all_visits items) ->
  ~ In (last names []) property_names -> In k kinds -> tells_low (path_text names) k ->
  exists x z, read_kind windows excel (root_stream (a "Current User") items) k b = Ok x /\ alike x z /\ In z l.
Proof. exact C76_kinds. Qed.
Print Assumptions C76_reported_by_low_bytes.

Theorem C76_project_is_reported : forall f c s items excel l names version p codes, stored_as f c -> clean c -> storage_load windows (Some f) = Ok (Opened s) -> holds f c 0 items ->
  Guess windows excel ole_list (Some f) = Ok l -> In (VStorage names) (all_visits items) -> macro_storage names -> Forall plain_name names ->
  good_project p -> vp_references p = [] -> lenN (dir_stored p) < 2 ^ 32 - 64 -> project_streams f c names version p codes ->
  let q := mkProject version (vp_name p) [] (map (fun '(m, code) => module_of m code) (combine (vp_modules p) codes))
                     (vp_major p / 65536 + 65536 * vp_minor p) 12 in
  In (FVba (vba_base q) q) l.
Proof. exact C76_projects. Qed.
Print Assumptions C76_project_is_reported.

Theorem C76_nothing_else_reported : forall f c s items excel l z, stored_as f c -> clean c -> storage_load windows (Some f) = Ok (Opened s) -> holds f c 0 items ->
  Guess windows excel ole_list (Some f) = Ok l -> In z l ->
  l = [z] /\ (exists g, z = FOless (mkExt (B "oless") [] [] 0 (B "OLE Structured Storage")) (all_paths items) g) /\
     (forall v r, In v (all_visits items) -> ~ yields windows excel (root_stream (a "Current User") items) s v (Ok (OFound r))) \/
  exists v x, In v (all_visits items) /\ yields windows excel (root_stream (a "Current User") items) s v (Ok (OFound x)) /\ alike x z.
Proof. exact C76_origin. Qed.
Print Assumptions C76_nothing_else_reported.

Theorem C76_at_most_one_kind : forall path k1 k2, In k1 kinds -> In k2 kinds -> tells_low path k1 -> tells_low path k2 -> k1 = k2.
Proof. exact C76_one_kind. Qed.
Print Assumptions C76_at_most_one_kind.

Theorem C76_only_kinds_refuted : exists f c items, stored_as f c /\ clean c /\ holds f c 0 items /\
  (forall names b k, In (VStream names b) (all_visits items) -> In k kinds -> ~ tells (path_text names) k) /\
  Guess windows some_excel ole_list (Some f) = Ok [FExcel (mkWorkbook (mkExt (B "xls") [] [] 0 []) (Ok []) (Ok [])) (all_paths items) []].
Proof. exact C76_refuted. Qed.
Print Assumptions C76_only_kinds_refuted.

Example C76_example : stored_as filev compv /\ clean compv /\ holds filev compv 0 items_v /\ macro_storage [a "Macros"] /\
  project_streams filev compv [a "Macros"] 151 project0 [code1] /\
  Guess windows no_excel ole_list (Some filev) =
  Ok [FVba (vba_base (mkProject 151 (B "P") [] [mkModule (B "M") (B "M") (B "M1") [77; 49] 3 (B "Sub a()") true false] 481640 12))
           (mkProject 151 (B "P") [] [mkModule (B "M") (B "M") (B "M1") [77; 49] 3 (B "Sub a()") true false] 481640 12)].
Proof. exact C76_ex. Qed.

(** ** C77: variants *)
Theorem C77_no_variant : forall pl excel current k b e p g, read_kind pl excel current k b = Ok (FOless e p g) -> k_reader k <> Some RInstaller -> SubType e = [].
Proof. exact C77_exact. Qed.
Print Assumptions C77_no_variant.

Theorem C77_variant_reported_refuted : exists f c items names b k e, stored_as f c /\ clean c /\ holds f c 0 items /\
  In (VStream names b) (all_visits items) /\ In k kinds /\ tells (path_text names) k /\ k_variant k = B "drm" /\
  Guess windows no_excel ole_list (Some f) = Ok [FOless e (all_paths items) []] /\ SubType e = [].
Proof. exact C77_refuted. Qed.
Print Assumptions C77_variant_reported_refuted.

(** ** C78: calls one after the other *)
Theorem C78_calls_independent : forall pl excel files, calls pl excel [] files = map (Guess pl excel ole_list) files.
Proof. exact C78_calls. Qed.
Print Assumptions C78_calls_independent.

Theorem C78_list_grows : forall pl excel rows file, snd (Detailer pl excel rows file) = rows ++ ole_list.
Proof. exact C78_growth. Qed.
Print Assumptions C78_list_grows.

Example C78_example : calls windows no_excel [] [Some file_doc; Some file_doc; Some (file_one (a "DRMContent"))] =
  [Guess windows no_excel ole_list (Some file_doc); Guess windows no_excel ole_list (Some file_doc);
   Ok [FOless (mkExt (B "irm") (B "Microsoft Office Information Rights Managed File") [] 0 []) [a "/"; a "/DRMContent"] []]].
Proof. exact C78_ex. Qed.

(** ** C79: compound files on Linux *)
Theorem C79_linux_exact : forall f c excel, stored_as f c ->
  Guess linux64 excel ole_list (Some f) = Fuel \/
  exists l, Guess linux64 excel ole_list (Some f) = Ok l /\
    ((exists paths, l = [FOless (mkExt (B "oless") [] [] 0 (B "OLE Structured Storage")) paths []]) \/
     (Exists (fun n => lenN (visible (n_name n)) = 15) (c_dir c) /\
      Forall (fun r => exists p, r = FOless (mkExt (B "ole_eq") (B "OLE Equation Editor") [] 0 []) p []) l)).
Proof. exact C79_linux. Qed.
Print Assumptions C79_linux_exact.

Theorem C79_linux_documents_throw : forall f c excel root ks k n u0 u1 r l, stored_as f c ->
  nthN (c_dir c) 0 = Some root -> n_type root = 5 -> members (c_dir c) 0 ks -> In k ks -> nthN (c_dir c) k = Some n ->
  n_name n = u0 :: u1 :: r -> u0 mod 256 <> 0 -> 17 <= u1 ->
  Guess linux64 excel ole_list (Some f) = Ok l ->
  exists x others, l = x :: others /\ render linux64 JSON x = Throw RangeError /\ render linux64 XML x = Throw RangeError.
Proof. exact C79_documents. Qed.
Print Assumptions C79_linux_documents_throw.

Theorem C79_same_on_linux_refuted : exists f c items l paths, stored_as f c /\ clean c /\ holds f c 0 items /\
  (exists names b k, In (VStream names b) (all_visits items) /\ In k kinds /\ tells (path_text names) k) /\
  Guess windows no_excel ole_list (Some f) = Ok l /\ (exists e p g, l = [FOless e p g] /\ Extension e = B "doc") /\
  Guess linux64 no_excel ole_list (Some f) = Ok [FOless (mkExt (B "oless") [] [] 0 (B "OLE Structured Storage")) paths []] /\
  render linux64 JSON (FOless (mkExt (B "oless") [] [] 0 (B "OLE Structured Storage")) paths []) = Throw RangeError.
Proof. exact C79_refuted. Qed.
Print Assumptions C79_same_on_linux_refuted.

Example C79_example : exists root ks k n u0 u1 r, stored_as file_doc comp_doc /\ nthN (c_dir comp_doc) 0 = Some root /\ n_type root = 5 /\
  members (c_dir comp_doc) 0 ks /\ In k ks /\ nthN (c_dir comp_doc) k = Some n /\ n_name n = u0 :: u1 :: r /\ u0 mod 256 <> 0 /\ 17 <= u1.
Proof. exact C79_ex. Qed.

(** ** C80: storages inside themselves *)
Theorem C80_never_answers : forall f c s excel above top loop, stored_as f c -> clean c -> storage_load windows (Some f) = Ok (Opened s) ->
  below (c_dir c) 0 above top -> below (c_dir c) top loop top -> loop <> [] ->
  (forall l, Guess windows excel ole_list (Some f) <> Ok l) /\ (forall fuel t t', recurse windows excel ole_list s fuel [47] t <> Ok t').
Proof. exact C80_never. Qed.
Print Assumptions C80_never_answers.

Theorem C80_terminates_refuted : exists f c s, stored_as f c /\ clean c /\ lenN f = 3072 /\ storage_load windows (Some f) = Ok (Opened s) /\
  (forall l, Guess windows no_excel ole_list (Some f) <> Ok l) /\ forall fuel t t', recurse windows no_excel ole_list s fuel [47] t <> Ok t'.
Proof. exact C80_refuted. Qed.
Print Assumptions C80_terminates_refuted.

Example C80_example : stored_as file_loop comp_loop /\ clean comp_loop /\ below (c_dir comp_loop) 0 [a "A"] 1 /\ below (c_dir comp_loop) 1 [a "A"] 1 /\
  Guess windows no_excel ole_list (Some file_loop) = Fuel.
Proof. exact C80_ex. Qed.

(** ** C81: projects in the root *)
Theorem C81_undefined_without_version : forall f c s items excel before names after outs, stored_as f c -> clean c -> storage_load windows (Some f) = Ok (Opened s) ->
  holds f c 0 items -> all_visits items = before ++ VStorage names :: after ->
  Forall2 (fun v o => yields windows excel (root_stream (a "Current User") items) s v (Ok o)) before outs ->
  macro_storage names -> Forall plain_name names -> lacks c (names ++ [text (B "VBA"); text (B "_VBA_PROJECT")]) ->
  Guess windows excel ole_list (Some f) = UB.
Proof. exact C81_stops. Qed.
Print Assumptions C81_undefined_without_version.

Theorem C81_error_reported : forall pl excel current s names x, macro_storage names -> Analyze pl (path_text names) s = Throw x ->
  exists p, yields pl excel current s (VStorage names) (Ok (OFound (FVba (mkExt (B "vba") (B "Visual Basic for Applications") (B "ERROR") 0 []) p))).
Proof. exact C81_error. Qed.
Print Assumptions C81_error_reported.

Theorem C81_root_project_refuted : exists f c items, stored_as f c /\ clean c /\ holds f c 0 items /\
  (exists sub b, items = [IStorage (a "VBA") sub] /\ In (IStream (a "_VBA_PROJECT") b) sub) /\
  Guess windows no_excel ole_list (Some f) = UB.
Proof. exact C81_refuted. Qed.
Print Assumptions C81_root_project_refuted.

(** ** C82: JSON documents *)
Theorem C82_json_document : forall pl e paths props, info_plain e = true -> Forall unicode paths ->
  Forall (fun g => unicode (fst g) /\ Forall (fun p => value_ok (p_value p) /\ is_finite (p_value p)) (snd g)) props ->
  exists t us gs, render pl JSON (FOless e paths props) = Ok t /\ Forall2 (fun p u => utf8 u p) paths us /\ Forall2 (group_value pl) props gs /\
    json_value t (JObj (item_members e ++ list_member (B "Paths") (map (fun u => JStr (map b2n u)) us) ++ list_member (B "properties") gs)).
Proof. exact C82_json. Qed.
Print Assumptions C82_json_document.

Theorem C82_fields_are_plain : forall pl excel current k b e p g, In k kinds -> read_kind pl excel current k b = Ok (FOless e p g) -> info_plain e = true.
Proof. exact C82_plain. Qed.
Print Assumptions C82_fields_are_plain.

Theorem C82_paths_that_throw : forall pl e paths props, Exists (fun w => exists p, before_zero w p /\ ~ Forall (fun c => c < 1114112) p) paths ->
  render pl JSON (FOless e paths props) = Throw RangeError /\ render pl XML (FOless e paths props) = Throw RangeError.
Proof. exact C82_throws. Qed.
Print Assumptions C82_paths_that_throw.

Theorem C82_text_before_zero : forall pl f e x paths shorter props, Forall2 before_zero paths shorter ->
  render pl f (FOless e paths props) = render pl f (FOless e shorter props) /\ render pl f (FExcel x paths props) = render pl f (FExcel x shorter props).
Proof. exact C82_zero. Qed.
Print Assumptions C82_text_before_zero.

Example C82_example : exists e paths props t, Guess windows no_excel ole_list (Some file_doc) = Ok [FOless e paths props] /\
  info_plain e = true /\ Forall unicode paths /\
  Forall (fun g => unicode (fst g) /\ Forall (fun p => value_ok (p_value p) /\ is_finite (p_value p)) (snd g)) props /\
  render windows JSON (FOless e paths props) = Ok t.
Proof. exact C82_ex. Qed.

Example C82_example_of_zero : Forall2 before_zero [a "/A" ++ [0] ++ a "B"; a "/C"] [a "/A"; a "/C"].
Proof. exact C82_ex_zero. Qed.

(** ** C83: XML documents and rows *)
Theorem C83_xml_document : forall pl e paths props, info_plain e = true -> Forall unicode paths ->
  Forall (fun g => unicode (fst g) /\ Forall (fun p => value_ok (p_value p)) (snd g)) props ->
  exists t us gs, render pl XML (FOless e paths props) = Ok t /\ Forall2 (fun p u => utf8 u p) paths us /\ Forall2 group_node props gs /\
    xml_document t (XElem (B "item") (base_elements e ++ list_element (B "Paths") (comma_separated (map (xescaped (B "Path")) us)) ++
                                      list_element (B "properties") gs)).
Proof. exact C83_xml. Qed.
Print Assumptions C83_xml_document.

Theorem C83_text_and_csv : forall pl e paths props,
  render pl TEXT (FOless e paths props) = Ok (Extension e ++ [x09] ++ VersionName e ++ [x09] ++ dec (Version e)) /\
  render pl CSV (FOless e paths props) = Ok (Extension e ++ [x2c] ++ VersionName e ++ [x2c] ++ dec (Version e)).
Proof. exact C83_rows. Qed.
Print Assumptions C83_text_and_csv.

Example C83_example : exists t, render windows XML (FOless (mkExt (B "irm") (B "Microsoft Office Information Rights Managed File") [] 0 []) [a "/"; a "/DRMContent"] []) = Ok t /\
  t = B "<item><extension>irm</extension><name>Microsoft Office Information Rights Managed File</name><Paths><Path>/</Path>,<Path>/DRMContent</Path></Paths></item>".
Proof. exact C83_ex. Qed.

(** ** C84: the signature *)
Theorem C84_signature_test : forall f, 8 <= lenN f -> IsOless (Some f) = Ok true /\ window f 0 8 cfb_magic \/ IsOless (Some f) = Ok false /\ ~ window f 0 8 cfb_magic.
Proof. exact C84_signature. Qed.
Print Assumptions C84_signature_test.

Theorem C84_undefined_iff_short : forall file, IsOless file = UB <-> (file = None \/ exists f, file = Some f /\ lenN f < 8).
Proof. exact C84_short. Qed.
Print Assumptions C84_undefined_iff_short.

Theorem C84_defined_refuted : exists f, lenN f = 7 /\ IsOless (Some f) = UB.
Proof. exact C84_refuted. Qed.
Print Assumptions C84_defined_refuted.

Example C84_example : IsOless (Some file_doc) = Ok true /\ IsOless (Some (repeatN x41 9)) = Ok false.
Proof. exact C84_ex. Qed.
