(** Lemmas in the form of the properties, with examples and refutations. *)
From Coq Require Import List NArith ZArith Lia Bool Sorted Permutation Strings.String Strings.Byte ZifyBool ZifyNat ZifyN.
From Verif Require Import Lib.Res Lib.Bytes Lib.BytesFacts Lib.Text Common.Model Common.Spec Common.Fields Common.Utf8
  Magic.Model Magic.Spec Magic.DocProofs Magic.DocBase Ole.Model Ole.Spec Ole.Statements Ole.Samples Ole.PathSamples Ole.TreeProofs Ole.DirProofs Ole.PropertyLemmas
  Vba.Analyze Vba.Output Vba.DirSpec Vba.FileSpec Vba.Statements Vba.Samples Vba.ProjectLemmas Propset.Model Propset.Output Propset.Spec Propset.Statements
  Propset.DocProofs Docs.Model Media.WordPerfect Detect.Model Detect.Output Detect.Spec Detect.Statements Detect.TreeProofs Detect.Proofs Detect.MoreProofs
  Detect.LinuxProofs Detect.EndlessProofs Detect.OutputProofs Detect.LinuxOutput Detect.Samples.
Import ListNotations.
Local Open Scope N_scope.
Arguments N.pow : simpl never.

(** ** C75 *)
Lemma C75_iff : forall f c s items excel l, stored_as f c -> clean c -> storage_load windows (Some f) = Ok (Opened s) -> holds f c 0 items ->
  (Guess windows excel ole_list (Some f) = Ok l <->
   exists outs g, Forall2 (fun v o => yields windows excel (root_stream (a "Current User") items) s v (Ok o)) (all_visits items) outs /\
     sorted_by_key (groups_of outs) g /\ reported (all_paths items) g (results_of outs) l).
Proof. intros. apply guess_answers with (c := c); try assumption. exact table_itself. Qed.
Lemma C75_failure : forall f c s items excel before v after outs (r : res outcome), stored_as f c -> clean c -> storage_load windows (Some f) = Ok (Opened s) ->
  holds f c 0 items -> all_visits items = before ++ v :: after ->
  Forall2 (fun v o => yields windows excel (root_stream (a "Current User") items) s v (Ok o)) before outs ->
  yields windows excel (root_stream (a "Current User") items) s v r -> (forall o, r <> Ok o) ->
  Guess windows excel ole_list (Some f) = (_ <- r ;; Ok []).
Proof. intros. eapply guess_stops; try eassumption. exact table_itself. Qed.
Lemma C75_decided : forall pl excel current s v, exists r, yields pl excel current s v r /\ forall r', yields pl excel current s v r' -> r' = r.
Proof.
  intros. destruct (yields_total pl excel current s v) as [r Y]. exists r. split; [exact Y|]. intros r' Y'. eapply yields_fun; eassumption.
Qed.
Lemma C75_unopened : forall pl excel rows file o, storage_load pl file = Ok o -> (forall s, o <> Opened s) ->
  Guess pl excel rows file = Ok [FOless (mkExt (B "oless") [] [] 0 (B "OLE Structured Storage")) [] []].
Proof. intros pl excel rows file o E H. unfold Guess. rewrite E. cbn [bind]. destruct o; try reflexivity. destruct (H s). reflexivity. Qed.
Definition no_excel (b : bytes) : res workbook := Throw OtherExn.
Lemma C75_ex : stored_as file_doc comp_doc /\ clean comp_doc /\ holds file_doc comp_doc 0 items_doc /\
  Guess windows no_excel ole_list (Some file_doc) =
  Ok [FOless (mkExt (B "doc") (B "Microsoft Office Word File") [] 108 (B "Unknown"))
        [a "/"; a "/ObjectPool/"; a "/ObjectPool/Notes"; a "/WordDocument"; a "/" ++ [5] ++ a "SummaryInformation"]
        [(a "/" ++ [5] ++ a "SummaryInformation", [mkProp 5 FMTID_DocSummaryInformation 3 (VInt 16777216)])]].
Proof. split; [exact doc_stored|]. split; [exact doc_clean|]. split; [exact doc_holds|]. vm_compute. reflexivity. Qed.

(** ** C76 *)
Lemma C76_kinds : forall f c s items excel l names b k, stored_as f c -> clean c -> storage_load windows (Some f) = Ok (Opened s) -> holds f c 0 items ->
  Guess windows excel ole_list (Some f) = Ok l -> In (VStream names b) (all_visits items) ->
  ~ In (last names []) property_names -> In k kinds -> tells_low (path_text names) k ->
  exists x z, read_kind windows excel (root_stream (a "Current User") items) k b = Ok x /\ alike x z /\ In z l.
Proof. intros. eapply kind_reported with (c := c) (s := s); try eassumption. exact table_itself. Qed.
Lemma tells_low_of path k : tells path k -> tells_low path k.
Proof.
  intros [E|[C S]]; [left; exact E|right; split; [exact C|]]. unfold same_letters, same_low_letters in *. eapply Forall2_impl; [|exact S].
  intros p q E. cbn beta in *. unfold lower in *.
  destruct ((65 <=? p) && (p <=? 90)) eqn:Ep; destruct ((65 <=? q) && (q <=? 90)) eqn:Eq; try (assert (p = q) by lia; subst; reflexivity).
  - assert (Q : q = p + 32) by lia. rewrite Q. rewrite (N.mod_small p 256), (N.mod_small (p + 32) 256) by lia. rewrite Ep. replace ((65 <=? p + 32) && (p + 32 <=? 90)) with false by lia. reflexivity.
  - assert (Q : p = q + 32) by lia. rewrite Q. rewrite (N.mod_small q 256), (N.mod_small (q + 32) 256) by lia. rewrite Eq. replace ((65 <=? q + 32) && (q + 32 <=? 90)) with false by lia. reflexivity.
Qed.
Lemma C76_named : forall f c s items excel l names b k, stored_as f c -> clean c -> storage_load windows (Some f) = Ok (Opened s) -> holds f c 0 items ->
  Guess windows excel ole_list (Some f) = Ok l -> In (VStream names b) (all_visits items) ->
  ~ In (last names []) property_names -> In k kinds -> tells (path_text names) k ->
  exists x z, read_kind windows excel (root_stream (a "Current User") items) k b = Ok x /\ alike x z /\ In z l.
Proof. intros. eapply C76_kinds; try eassumption. apply tells_low_of. assumption. Qed.
Lemma C76_projects : forall f c s items excel l names version p codes, stored_as f c -> clean c -> storage_load windows (Some f) = Ok (Opened s) -> holds f c 0 items ->
  Guess windows excel ole_list (Some f) = Ok l -> In (VStorage names) (all_visits items) -> macro_storage names -> Forall plain_name names ->
  good_project p -> vp_references p = [] -> lenN (dir_stored p) < 2 ^ 32 - 64 -> project_streams f c names version p codes ->
  let q := mkProject version (vp_name p) [] (map (fun '(m, code) => module_of m code) (combine (vp_modules p) codes))
                     (vp_major p / 65536 + 65536 * vp_minor p) 12 in
  In (FVba (vba_base q) q) l.
Proof.
  intros. eapply project_reported with (c := c) (s := s) (items := items); try eassumption; [exact table_itself|]. eapply C65_analyze; eassumption.
Qed.
Lemma C76_origin : forall f c s items excel l z, stored_as f c -> clean c -> storage_load windows (Some f) = Ok (Opened s) -> holds f c 0 items ->
  Guess windows excel ole_list (Some f) = Ok l -> In z l ->
  l = [z] /\ (exists g, z = FOless (mkExt (B "oless") [] [] 0 (B "OLE Structured Storage")) (all_paths items) g) /\
     (forall v r, In v (all_visits items) -> ~ yields windows excel (root_stream (a "Current User") items) s v (Ok (OFound r))) \/
  exists v x, In v (all_visits items) /\ yields windows excel (root_stream (a "Current User") items) s v (Ok (OFound x)) /\ alike x z.
Proof. intros. eapply result_origin; try eassumption. exact table_itself. Qed.
Lemma C76_one_kind : forall path k1 k2, In k1 kinds -> In k2 kinds -> tells_low path k1 -> tells_low path k2 -> k1 = k2.
Proof. exact one_kind. Qed.
Definition some_excel (b : bytes) : res workbook := Ok (mkWorkbook (mkExt (B "xls") [] [] 0 []) (Ok []) (Ok [])).
Lemma C76_refuted : exists f c items, stored_as f c /\ clean c /\ holds f c 0 items /\
  (forall names b k, In (VStream names b) (all_visits items) -> In k kinds -> ~ tells (path_text names) k) /\
  Guess windows some_excel ole_list (Some f) = Ok [FExcel (mkWorkbook (mkExt (B "xls") [] [] 0 []) (Ok []) (Ok [])) (all_paths items) []].
Proof.
  exists (file_one n_orkbook), (comp_one n_orkbook), [IStream n_orkbook (counting 64)].
  split; [exact orkbook_stored|]. split; [exact orkbook_clean|]. split; [exact orkbook_holds|]. split; [|vm_compute; reflexivity].
  intros names b k I. destruct I as [I|[]]. injection I as <- <-. unfold kinds. intros Ik T. cbn [In] in Ik.
  repeat (destruct Ik as [<-|Ik]; [destruct T as [T|[C T]]; [vm_compute in T; discriminate T|]; try (vm_compute in C; discriminate C);
    unfold same_letters in T; vm_compute in T;
    inversion T as [|? ? ? ? _ T1]; subst; inversion T1 as [|? ? ? ? E _]; subst; vm_compute in E; discriminate E|]).
  destruct Ik.
Qed.
Lemma C76_ex : stored_as filev compv /\ clean compv /\ holds filev compv 0 items_v /\ macro_storage [a "Macros"] /\
  project_streams filev compv [a "Macros"] 151 project0 [code1] /\
  Guess windows no_excel ole_list (Some filev) =
  Ok [FVba (vba_base (mkProject 151 (B "P") [] [mkModule (B "M") (B "M") (B "M1") [77; 49] 3 (B "Sub a()") true false] 481640 12))
           (mkProject 151 (B "P") [] [mkModule (B "M") (B "M") (B "M1") [77; 49] 3 (B "Sub a()") true false] 481640 12)].
Proof.
  split; [exact filev_stored|]. split; [exact filev_clean|]. split; [exact v_holds|]. split; [left; left; reflexivity|]. split; [exact filev_project|]. vm_compute. reflexivity.
Qed.

(** ** C77 *)
Lemma C77_exact : forall pl excel current k b e p g, read_kind pl excel current k b = Ok (FOless e p g) -> k_reader k <> Some RInstaller -> SubType e = [].
Proof.
  intros pl excel current k b e p g. unfold read_kind, word_Detailer, powerpoint_Detailer, publisher_Detailer, visio_Detailer.
  destruct (k_reader k) as [[]|]; intros E N.
  - destruct (GetnFib b); cbn [bind] in E; try discriminate E. injection E as <- _ _. reflexivity.
  - destruct (excel b); cbn [bind] in E; discriminate E.
  - destruct (PptVersion pl current b); cbn [bind] in E; try discriminate E. injection E as <- _ _. reflexivity.
  - destruct (GetPubVersion pl b); cbn [bind] in E; try discriminate E. injection E as <- _ _. reflexivity.
  - destruct (GetVisoVersion b); cbn [bind] in E; try discriminate E. injection E as <- _ _. reflexivity.
  - discriminate E.
  - contradiction.
  - injection E as <- _ _. reflexivity.
Qed.
Lemma C77_refuted : exists f c items names b k e, stored_as f c /\ clean c /\ holds f c 0 items /\
  In (VStream names b) (all_visits items) /\ In k kinds /\ tells (path_text names) k /\ k_variant k = B "drm" /\
  Guess windows no_excel ole_list (Some f) = Ok [FOless e (all_paths items) []] /\ SubType e = [].
Proof.
  exists (file_one (a "DRMContent")), (comp_one (a "DRMContent")), [IStream (a "DRMContent") (counting 64)], [a "DRMContent"], (counting 64),
    (mkKind (a "/DRMContent") false (B "irm") (B "Microsoft Office Information Rights Managed File") [] (B "drm") None),
    (mkExt (B "irm") (B "Microsoft Office Information Rights Managed File") [] 0 []).
  split; [exact drm_stored|]. split; [exact drm_clean|]. split; [exact drm_holds|]. split; [left; reflexivity|]. split; [left; reflexivity|].
  split; [left; reflexivity|]. split; [reflexivity|]. split; [vm_compute; reflexivity|reflexivity].
Qed.

(** ** C78 *)
Lemma C78_calls : forall pl excel files, calls pl excel [] files = map (Guess pl excel ole_list) files.
Proof. intros. exact (calls_alike pl excel files 0%nat). Qed.
Lemma C78_growth : forall pl excel rows file, snd (Detailer pl excel rows file) = rows ++ ole_list.
Proof. reflexivity. Qed.
Lemma C78_ex : calls windows no_excel [] [Some file_doc; Some file_doc; Some (file_one (a "DRMContent"))] =
  [Guess windows no_excel ole_list (Some file_doc); Guess windows no_excel ole_list (Some file_doc);
   Ok [FOless (mkExt (B "irm") (B "Microsoft Office Information Rights Managed File") [] 0 []) [a "/"; a "/DRMContent"] []]].
Proof. vm_compute. reflexivity. Qed.

(** ** C79 *)
Lemma C79_linux : forall f c excel, stored_as f c ->
  Guess linux64 excel ole_list (Some f) = Fuel \/
  exists l, Guess linux64 excel ole_list (Some f) = Ok l /\
    ((exists paths, l = [FOless (mkExt (B "oless") [] [] 0 (B "OLE Structured Storage")) paths []]) \/
     (Exists (fun n => lenN (visible (n_name n)) = 15) (c_dir c) /\
      Forall (fun r => exists p, r = FOless (mkExt (B "ole_eq") (B "OLE Equation Editor") [] 0 []) p []) l)).
Proof. intros f c excel St. apply linux_guess; [exact St|]. intros m I. exact I. Qed.
Lemma C79_documents : forall f c excel root ks k n u0 u1 r l, stored_as f c ->
  nthN (c_dir c) 0 = Some root -> n_type root = 5 -> members (c_dir c) 0 ks -> In k ks -> nthN (c_dir c) k = Some n ->
  n_name n = u0 :: u1 :: r -> u0 mod 256 <> 0 -> 17 <= u1 ->
  Guess linux64 excel ole_list (Some f) = Ok l ->
  exists x others, l = x :: others /\ render linux64 JSON x = Throw RangeError /\ render linux64 XML x = Throw RangeError.
Proof. intros. eapply linux_document; try eassumption. intros m I. exact I. Qed.
Lemma C79_refuted : exists f c items l paths, stored_as f c /\ clean c /\ holds f c 0 items /\
  (exists names b k, In (VStream names b) (all_visits items) /\ In k kinds /\ tells (path_text names) k) /\
  Guess windows no_excel ole_list (Some f) = Ok l /\ (exists e p g, l = [FOless e p g] /\ Extension e = B "doc") /\
  Guess linux64 no_excel ole_list (Some f) = Ok [FOless (mkExt (B "oless") [] [] 0 (B "OLE Structured Storage")) paths []] /\
  render linux64 JSON (FOless (mkExt (B "oless") [] [] 0 (B "OLE Structured Storage")) paths []) = Throw RangeError.
Proof.
  exists file_doc, comp_doc, items_doc. eexists. eexists. split; [exact doc_stored|]. split; [exact doc_clean|]. split; [exact doc_holds|]. split.
  { exists [a "WordDocument"], word_part, (mkKind (a "/WordDocument") false (B "doc") (B "Microsoft Office Word File") [] [] (Some RWord)).
    split; [right; right; left; reflexivity|]. split; [right; right; left; reflexivity|left; reflexivity]. }
  split; [vm_compute; reflexivity|]. split; [do 3 eexists; split; reflexivity|]. split; vm_compute; reflexivity.
Qed.
Lemma C79_ex : exists root ks k n u0 u1 r, stored_as file_doc comp_doc /\ nthN (c_dir comp_doc) 0 = Some root /\ n_type root = 5 /\
  members (c_dir comp_doc) 0 ks /\ In k ks /\ nthN (c_dir comp_doc) k = Some n /\ n_name n = u0 :: u1 :: r /\ u0 mod 256 <> 0 /\ 17 <= u1.
Proof.
  do 2 eexists. exists 1. do 4 eexists. split; [exact doc_stored|]. split; [reflexivity|]. split; [reflexivity|]. split.
  { assert (K : members_of (c_dir comp_doc) 0 = Some [2; 1; 3]) by (vm_compute; reflexivity). apply members_of_sound in K. exact (proj1 K). }
  split; [right; left; reflexivity|]. split; [reflexivity|]. split; [reflexivity|]. split; [discriminate|vm_compute; discriminate].
Qed.

(** ** C80 *)
Lemma C80_never : forall f c s excel above top loop, stored_as f c -> clean c -> storage_load windows (Some f) = Ok (Opened s) ->
  below (c_dir c) 0 above top -> below (c_dir c) top loop top -> loop <> [] ->
  (forall l, Guess windows excel ole_list (Some f) <> Ok l) /\ (forall fuel t t', recurse windows excel ole_list s fuel [47] t <> Ok t').
Proof.
  intros f c s excel above top loop St Cl Eo A L N. split.
  - intros l. eapply guess_never; eassumption.
  - intros fuel t t'. eapply recurse_never; eassumption.
Qed.
Lemma loop_below : below (c_dir comp_loop) 1 [a "A"] 1.
Proof.
  eapply (below_member _ 1 (mkNode (a "A") 1 FREE FREE 1 0 0) [1] 1 (mkNode (a "A") 1 FREE FREE 1 0 0) []); try reflexivity; [left; reflexivity| | |apply plain_b_sound; reflexivity|constructor].
  - apply members_of_sound. vm_compute. reflexivity.
  - left. reflexivity.
Qed.
Lemma root_below : below (c_dir comp_loop) 0 [a "A"] 1.
Proof.
  eapply (below_member _ 0 (mkNode n_root 5 FREE FREE 1 3 512) [1] 1 (mkNode (a "A") 1 FREE FREE 1 0 0) []); try reflexivity; [right; reflexivity| | |apply plain_b_sound; reflexivity|constructor].
  - apply members_of_sound. vm_compute. reflexivity.
  - left. reflexivity.
Qed.
Lemma C80_refuted : exists f c s, stored_as f c /\ clean c /\ lenN f = 3072 /\ storage_load windows (Some f) = Ok (Opened s) /\
  (forall l, Guess windows no_excel ole_list (Some f) <> Ok l) /\ forall fuel t t', recurse windows no_excel ole_list s fuel [47] t <> Ok t'.
Proof.
  destruct (open_ok windows file_loop comp_loop (or_intror eq_refl) loop_stored) as (s & Eo & _).
  exists file_loop, comp_loop, s. split; [exact loop_stored|]. split; [exact loop_clean|]. split; [vm_compute; reflexivity|]. split; [exact Eo|].
  apply (C80_never file_loop comp_loop s no_excel [a "A"] 1 [a "A"]); [exact loop_stored|exact loop_clean|exact Eo|exact root_below|exact loop_below|discriminate].
Qed.
Lemma C80_ex : stored_as file_loop comp_loop /\ clean comp_loop /\ below (c_dir comp_loop) 0 [a "A"] 1 /\ below (c_dir comp_loop) 1 [a "A"] 1 /\
  Guess windows no_excel ole_list (Some file_loop) = Fuel.
Proof. split; [exact loop_stored|]. split; [exact loop_clean|]. split; [exact root_below|]. split; [exact loop_below|]. vm_compute. reflexivity. Qed.

(** ** C81 *)
Lemma C81_stops : forall f c s items excel before names after outs, stored_as f c -> clean c -> storage_load windows (Some f) = Ok (Opened s) ->
  holds f c 0 items -> all_visits items = before ++ VStorage names :: after ->
  Forall2 (fun v o => yields windows excel (root_stream (a "Current User") items) s v (Ok o)) before outs ->
  macro_storage names -> Forall plain_name names -> lacks c (names ++ [text (B "VBA"); text (B "_VBA_PROJECT")]) ->
  Guess windows excel ole_list (Some f) = UB.
Proof.
  intros f c s items excel before names after outs St Cl Eo Hi Ev F M P L.
  pose proof (C65_no_version f c s names St Cl Eo P L) as An.
  apply (C75_failure f c s items excel before (VStorage names) after outs UB St Cl Eo Hi Ev F); [|discriminate].
  exact (y_project_stop _ _ _ _ names UB M An (or_introl eq_refl)).
Qed.
Lemma C81_refuted : exists f c items, stored_as f c /\ clean c /\ holds f c 0 items /\
  (exists sub b, items = [IStorage (a "VBA") sub] /\ In (IStream (a "_VBA_PROJECT") b) sub) /\
  Guess windows no_excel ole_list (Some f) = UB.
Proof.
  exists file_bin, comp_bin, items_bin. split; [exact bin_stored|]. split; [exact bin_clean|]. split; [exact bin_holds|].
  split; [do 2 eexists; split; [reflexivity|]; right; right; left; reflexivity|]. vm_compute. reflexivity.
Qed.
Lemma C81_error : forall pl excel current s names x, macro_storage names -> Analyze pl (path_text names) s = Throw x ->
  exists p, yields pl excel current s (VStorage names) (Ok (OFound (FVba (mkExt (B "vba") (B "Visual Basic for Applications") (B "ERROR") 0 []) p))).
Proof. intros pl excel current s names x M A. eexists. exact (y_project_error _ _ _ _ names x M A). Qed.

(** ** C82 *)
Lemma C82_json : forall pl e paths props, info_plain e = true -> Forall unicode paths ->
  Forall (fun g => unicode (fst g) /\ Forall (fun p => value_ok (p_value p) /\ is_finite (p_value p)) (snd g)) props ->
  exists t us gs, render pl JSON (FOless e paths props) = Ok t /\ Forall2 (fun p u => utf8 u p) paths us /\ Forall2 (group_value pl) props gs /\
    json_value t (JObj (item_members e ++ list_member (B "Paths") (map (fun u => JStr (map b2n u)) us) ++ list_member (B "properties") gs)).
Proof. intros. apply oless_json; assumption. Qed.
Lemma C82_plain : forall pl excel current k b e p g, In k kinds -> read_kind pl excel current k b = Ok (FOless e p g) -> info_plain e = true.
Proof. exact read_kind_plain. Qed.
Lemma C82_throws : forall pl e paths props, Exists (fun w => exists p, before_zero w p /\ ~ Forall (fun c => c < 1114112) p) paths ->
  render pl JSON (FOless e paths props) = Throw RangeError /\ render pl XML (FOless e paths props) = Throw RangeError.
Proof.
  intros pl e paths props H. apply oless_throws. rewrite Exists_exists in *. destruct H as (w & I & p & Hb & N). exists w. split; [exact I|]. eapply too_big_before; eassumption.
Qed.
Lemma C82_zero : forall pl f e x paths shorter props, Forall2 before_zero paths shorter ->
  render pl f (FOless e paths props) = render pl f (FOless e shorter props) /\ render pl f (FExcel x paths props) = render pl f (FExcel x shorter props).
Proof. intros. apply render_before. assumption. Qed.
Lemma unicode_b x : forallb (fun c => (0 <? c) && (c <? 55296)) x = true -> unicode x.
Proof. intros H. apply Forall_forall. intros c I. rewrite forallb_forall in H. specialize (H c I). cbn beta in H. unfold scalar. lia. Qed.
Lemma C82_ex : exists e paths props t, Guess windows no_excel ole_list (Some file_doc) = Ok [FOless e paths props] /\
  info_plain e = true /\ Forall unicode paths /\
  Forall (fun g => unicode (fst g) /\ Forall (fun p => value_ok (p_value p) /\ is_finite (p_value p)) (snd g)) props /\
  render windows JSON (FOless e paths props) = Ok t.
Proof.
  do 4 eexists. split; [exact (proj2 (proj2 (proj2 C75_ex)))|]. split; [vm_compute; reflexivity|]. split.
  { repeat (constructor; [apply unicode_b; vm_compute; reflexivity|]). constructor. }
  split; [|vm_compute; reflexivity].
  constructor; [|constructor]. split; [apply unicode_b; vm_compute; reflexivity|]. constructor; [|constructor]. cbn [p_value]. split; [vm_compute; reflexivity|exact I].
Qed.

Lemma C82_ex_zero : Forall2 before_zero [a "/A" ++ [0] ++ a "B"; a "/C"] [a "/A"; a "/C"].
Proof.
  constructor; [|constructor; [|constructor]]; (split; [intros I; vm_compute in I; intuition discriminate|]); [right; exists (a "B")|left]; reflexivity.
Qed.

(** ** C83 *)
Lemma C83_xml : forall pl e paths props, info_plain e = true -> Forall unicode paths ->
  Forall (fun g => unicode (fst g) /\ Forall (fun p => value_ok (p_value p)) (snd g)) props ->
  exists t us gs, render pl XML (FOless e paths props) = Ok t /\ Forall2 (fun p u => utf8 u p) paths us /\ Forall2 group_node props gs /\
    xml_document t (XElem (B "item") (base_elements e ++ list_element (B "Paths") (comma_separated (map (xescaped (B "Path")) us)) ++
                                      list_element (B "properties") gs)).
Proof. intros. apply oless_xml; assumption. Qed.
Lemma C83_rows : forall pl e paths props,
  render pl TEXT (FOless e paths props) = Ok (Extension e ++ [x09] ++ VersionName e ++ [x09] ++ dec (Version e)) /\
  render pl CSV (FOless e paths props) = Ok (Extension e ++ [x2c] ++ VersionName e ++ [x2c] ++ dec (Version e)).
Proof. intros. split; cbn [render oless_render join]; reflexivity. Qed.
Lemma C83_ex : exists t, render windows XML (FOless (mkExt (B "irm") (B "Microsoft Office Information Rights Managed File") [] 0 []) [a "/"; a "/DRMContent"] []) = Ok t /\
  t = B "<item><extension>irm</extension><name>Microsoft Office Information Rights Managed File</name><Paths><Path>/</Path>,<Path>/DRMContent</Path></Paths></item>".
Proof. eexists. split; vm_compute; reflexivity. Qed.

(** ** C84 *)
Lemma C84_signature : forall f, 8 <= lenN f -> IsOless (Some f) = Ok true /\ window f 0 8 cfb_magic \/ IsOless (Some f) = Ok false /\ ~ window f 0 8 cfb_magic.
Proof.
  intros f L. unfold IsOless. replace (lenN f <? 8) with false by lia.
  change [xd0; xcf; x11; xe0; xa1; xb1; x1a; xe1] with cfb_magic.
  destruct (bytes_eqb (takeN 8 f) cfb_magic) eqn:E; [left|right]; (split; [reflexivity|]).
  - apply bytes_eqb_eq in E. split; [reflexivity|]. exists [], (dropN 8 f). split; [|reflexivity]. cbn [app]. rewrite <- E. symmetry. apply takeN_dropN.
  - intros [_ (pre & post & -> & P)]. destruct pre; [|rewrite lenN_cons in P; lia]. cbn [app] in E.
    rewrite takeN_app1 in E by (vm_compute; discriminate). change (takeN 8 cfb_magic) with cfb_magic in E. rewrite bytes_eqb_refl in E. discriminate E.
Qed.
Lemma C84_short : forall file, IsOless file = UB <-> (file = None \/ exists f, file = Some f /\ lenN f < 8).
Proof.
  intros [f|]; unfold IsOless.
  - destruct (N.ltb_spec (lenN f) 8) as [L|L].
    + split; [intros _; right; exists f; auto|reflexivity].
    + split; [discriminate|]. intros [K|(f' & K & L')]; [discriminate K|]. injection K as <-. lia.
  - split; [intros _; left; reflexivity|reflexivity].
Qed.
Lemma C84_refuted : exists f, lenN f = 7 /\ IsOless (Some f) = UB.
Proof. exists (repeatN x00 7). split; reflexivity. Qed.
Lemma C84_ex : IsOless (Some file_doc) = Ok true /\ IsOless (Some (repeatN x41 9)) = Ok false.
Proof. split; vm_compute; reflexivity. Qed.
