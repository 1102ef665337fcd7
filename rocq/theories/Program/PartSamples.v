(** Compound files for the examples about parts. *)
From Coq Require Import List NArith ZArith Lia Bool Strings.String ZifyBool ZifyNat ZifyN.
From Verif Require Import Lib.Res Lib.Bytes Lib.BytesFacts Lib.Text Common.Model Common.Spec Ole.Model Ole.Spec Ole.Statements Ole.Samples Ole.DirProofs
     Vba.Analyze Vba.DirSpec Vba.FileSpec Vba.Samples Vba.ProjectLemmas Propset.Model Propset.Spec Propset.Samples Docs.Model Docs.Spec Docs.PropertyLemmas
     Detect.Model Detect.Spec Detect.Statements Detect.Samples Program.Model Program.Samples.
From Verif Require Excel.Engine Excel.Samples.
From Verif Require Import Vba.Statements Propset.Statements Program.Statements Program.PartStatements.
From Verif Require Program.PropertyLemmas.
Import ListNotations.
Local Open Scope N_scope.
Arguments N.pow : simpl never.

Lemma other_name x l : existsb (fun y => if list_eq_dec N.eq_dec x y then true else false) l = false -> ~ In x l.
Proof. intros E I. enough (existsb (fun y => if list_eq_dec N.eq_dec x y then true else false) l = true) by congruence. apply existsb_exists. exists x. split; [exact I|]. destruct (list_eq_dec N.eq_dec x x); congruence. Qed.
Ltac no_name := apply other_name; vm_compute; reflexivity.
Ltac no_kind :=
  let k := fresh "k" in let Ik := fresh "Ik" in let T := fresh "T" in let Tc := fresh "Tc" in
  intros k Ik T; unfold kinds in Ik; cbn [In] in Ik;
  repeat (destruct Ik as [<-|Ik]; [destruct T as [T|(Tc & T)]; [vm_compute in T; discriminate T|cbn [k_any_case] in Tc; try discriminate Tc; vm_compute in T; unfold same_low_letters in T;
      repeat match goal with H : Forall2 _ _ _ |- _ => inversion H; clear H; subst end; discriminate]|]);
  destruct Ik.
Ltac no_storage := intros [I|I]; revert I; no_name.

Definition word_kind : kind := mkKind (a "/WordDocument") false (B "doc") (B "Microsoft Office Word File") [] [] (Some RWord).
Definition visio_kind : kind := mkKind (a "/VisioDocument") false (B "vsd") (B "Microsoft Office Visio File") [] [] (Some RVisio).
Definition excel_kind : kind := mkKind (a "/Workbook") true (B "xls") (B "Microsoft Office Excel File") [] [] (Some RExcel).
Definition perfect_kind : kind := mkKind (a "/PerfectOffice_MAIN") false (B "wp") (B "WordPerfect File") [] [] (Some RWordPerfect).

(** ** A document with a property set *)
Definition doc_info : ExtensionInfo := mkExt (B "doc") (B "Microsoft Office Word File") [] 108 (B "Unknown").
Definition doc_parts : list part := [PNone; PNone; PDocument doc_info; PSets (a "/" ++ [5] ++ a "SummaryInformation") [count]].
Lemma doc_holds_parts msg : Forall2 (holds_part file_doc comp_doc msg (root_stream (a "Current User") items_doc)) (all_visits items_doc) doc_parts.
Proof.
  change (all_visits items_doc) with [VStorage [a "ObjectPool"]; VStream [a "ObjectPool"; a "Notes"] (repeatN x41 30); VStream [a "WordDocument"] word_part; VStream [[5] ++ a "SummaryInformation"] count_bytes].
  constructor; [|constructor; [|constructor; [|constructor; [|constructor]]]].
  - apply hp_none. cbn [quiet]. no_storage.
  - apply hp_none. split; [no_name|no_kind].
  - apply hp_document with (k := word_kind).
    + no_name.
    + do 2 right. left. reflexivity.
    + left. reflexivity.
    + apply (doc_word _ _ word_kind 101 (Some 108) (B "Unknown")); [reflexivity| |].
      * apply word_with_new with (cb := 0) (csw := 1); try num; lia.
      * right. split; [reflexivity|]. intros m I. cbn [In word_products] in I. intuition discriminate.
  - apply hp_sets.
    + vm_compute. tauto.
    + vm_compute. reflexivity.
    + exact count_ok.
    + repeat constructor; intros [].
Qed.

(** ** Macros *)
Definition v_project : project := mkProject 151 (B "P") [] [mkModule (B "M") (B "M") (B "M1") [77; 49] 3 (B "Sub a()") true false] 481640 12.
Definition v_parts : list part := [PMacros v_project; PNone; PNone; PNone; PNone].
Lemma v_holds_parts msg : Forall2 (holds_part filev compv msg (root_stream (a "Current User") items_v)) (all_visits items_v) v_parts.
Proof.
  change (all_visits items_v) with [VStorage [a "Macros"]; VStorage [a "Macros"; a "VBA"]; VStream [a "Macros"; a "VBA"; a "M1"] m1_text; VStream [a "Macros"; a "VBA"; a "dir"] dir_text;
    VStream [a "Macros"; a "VBA"; a "_VBA_PROJECT"] version_text].
  constructor; [|constructor; [|constructor; [|constructor; [|constructor; [|constructor]]]]].
  - assert (E : v_project = project_for 151 project0 [code1]) by (vm_compute; reflexivity). rewrite E. apply hp_macros.
    + left. left. reflexivity.
    + exact good0.
    + reflexivity.
    + vm_compute. reflexivity.
    + exact filev_project.
  - apply hp_none. cbn [quiet]. no_storage.
  - apply hp_none. split; [no_name|no_kind].
  - apply hp_none. split; [no_name|no_kind].
  - apply hp_none. split; [no_name|no_kind].
Qed.

(** ** A workbook *)
Definition book_parts : list part := [PNone; PWorkbook book_result].
Lemma book_holds_parts : Forall2 (holds_part file_book comp_book Excel.Samples.said_text (root_stream (a "Current User") items_book)) (all_visits items_book) book_parts.
Proof.
  change (all_visits items_book) with [VStream [a "Notes"] (repeatN x41 64); VStream [a "Workbook"] Excel.Samples.book].
  constructor; [|constructor; [|constructor]].
  - apply hp_none. exact Program.PropertyLemmas.quiet_notes.
  - apply hp_workbook with (k := excel_kind).
    + no_name.
    + do 3 right. left. reflexivity.
    + left. reflexivity.
    + reflexivity.
    + vm_compute. reflexivity.
    + vm_compute. reflexivity.
Qed.

(** ** WordPerfect *)
Definition n_perfect : list N := a "PerfectOffice_MAIN".
Definition items_perfect : list item := [IStream n_perfect (counting 64)].
Lemma perfect_stored : stored_as (file_one n_perfect) (comp_one n_perfect).
Proof. apply (stored_ok_sound _ _ 2 1). vm_compute. reflexivity. Qed.
Lemma perfect_clean : clean (comp_one n_perfect).
Proof. repeat constructor. Qed.
Lemma perfect_holds : holds (file_one n_perfect) (comp_one n_perfect) 0 items_perfect.
Proof. apply (tree_sound _ _ 3). vm_compute. reflexivity. Qed.
Lemma perfect_holds_parts msg : Forall2 (holds_part (file_one n_perfect) (comp_one n_perfect) msg (root_stream (a "Current User") items_perfect)) (all_visits items_perfect) [PPerfect].
Proof.
  change (all_visits items_perfect) with [VStream [n_perfect] (counting 64)]. constructor; [|constructor]. apply hp_perfect with (k := perfect_kind).
  - no_name.
  - vm_compute. tauto.
  - left. reflexivity.
  - reflexivity.
Qed.

(** ** A drawing of ten bytes behind a document *)
Definition dir_drawing : list node :=
  [mkNode n_root 5 FREE FREE 1 3 512; mkNode (a "DRMContent") 2 FREE 2 FREE 0 64; mkNode (a "VisioDocument") 2 FREE FREE FREE 1 10; unused; unused; unused; unused; unused].
Definition file_drawing : bytes := build 2 fat_d [EOC; EOC] dir_drawing (counting 64 ++ pad 64 (repeatN x41 10)) [].
Definition comp_drawing : compound := compound_of fat_d [EOC; EOC] dir_drawing (counting 64 ++ pad 64 (repeatN x41 10)).
Definition items_drawing : list item := [IStream (a "DRMContent") (counting 64); IStream (a "VisioDocument") (repeatN x41 10)].
Lemma drawing_stored : stored_as file_drawing comp_drawing.
Proof. apply (stored_ok_sound _ _ 2 1). vm_compute. reflexivity. Qed.
Lemma drawing_clean : clean comp_drawing.
Proof. repeat constructor. Qed.
Lemma drawing_holds : holds file_drawing comp_drawing 0 items_drawing.
Proof. apply (tree_sound _ _ 3). vm_compute. reflexivity. Qed.
Definition drm_info : ExtensionInfo := mkExt (B "irm") (B "Microsoft Office Information Rights Managed File") [] 0 [].
Lemma drawing_parts (msg : exn -> bytes) : exists v : visit, all_visits items_drawing = [VStream [a "DRMContent"] (counting 64)] ++ [v] /\
  Forall2 (holds_part file_drawing comp_drawing msg (root_stream (a "Current User") items_drawing)) [VStream [a "DRMContent"] (counting 64)] [PDocument drm_info] /\
  spoils file_drawing comp_drawing msg v UB.
Proof.
  exists (VStream [a "VisioDocument"] (repeatN x41 10)). split; [reflexivity|]. split.
  - constructor; [|constructor]. apply hp_document with (k := mkKind (a "/DRMContent") false (B "irm") (B "Microsoft Office Information Rights Managed File") [] (B "drm") None).
    + no_name.
    + left. reflexivity.
    + left. reflexivity.
    + apply (doc_plain _ _ (mkKind (a "/DRMContent") false (B "irm") (B "Microsoft Office Information Rights Managed File") [] (B "drm") None)). reflexivity.
  - apply sp_drawing with (k := visio_kind).
    + no_name.
    + vm_compute. tauto.
    + left. reflexivity.
    + reflexivity.
    + vm_compute. reflexivity.
Qed.
