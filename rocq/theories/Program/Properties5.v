(** The whole program ends.  Statements only; the vocabulary is in [Ole/Spec.v], [Detect/TreeSpec.v],
    [Program/EndStatements.v] and [Program/Statements.v]. *)
From Coq Require Import List NArith Bool Strings.String Strings.Byte.
From Verif Require Import Lib.Res Lib.Bytes Lib.BytesFacts Lib.Text Common.Model Common.Spec Magic.Table Magic.Model Ole.Model Ole.Spec Ole.Statements
     Asf.Spec Asf.Statements Zip.Model Detect.Model Detect.Spec Detect.Statements Detect.TreeSpec Program.Model.
From Verif Require Import Program.Statements Program.Samples Program.EndStatements Program.PropertyLemmas5.
Import ListNotations.
Local Open Scope N_scope.

(** ** C127: the program ends *)
Theorem C127_ends : forall pl msg archive content fs file more, supported pl -> lenN content < 2 ^ 32 -> fs file = Some content ->
  (starts content (B "PK") -> archive (Some content) <> Fuel) ->
  (starts content asf_magic -> forall i, ~ occurs_at extension_guid content i) ->
  (starts content [xd0; xcf; x11; xe0] -> readable_compound pl content) ->
  program pl msg archive fs (file :: more) <> Fuel.
Proof. exact C127_end. Qed.
Print Assumptions C127_ends.

Theorem C127_other_files_end : forall pl msg archive content fs file more, supported pl -> lenN content < 2 ^ 32 -> fs file = Some content ->
  ~ starts content (B "PK") -> ~ starts content asf_magic -> ~ starts content [xd0; xcf; x11; xe0] ->
  program pl msg archive fs (file :: more) <> Fuel.
Proof. exact C127_most. Qed.
Print Assumptions C127_other_files_end.

Theorem C127_asf_refuted : exists content, starts content asf_magic /\ lenN content < 1000 /\
  forall more, program windows no_text no_archive (one_file content) (B "f" :: more) = Fuel.
Proof. exact C127_asf. Qed.
Print Assumptions C127_asf_refuted.

Theorem C127_directory_refuted : exists f c, stored_as f c /\ clean c /\ chains_end c /\ (forall n, In n (c_dir c) -> ~ book_name (n_name n)) /\
  forall more, program windows no_text no_archive (one_file f) (B "f" :: more) = Fuel.
Proof. exact C127_tree. Qed.
Print Assumptions C127_directory_refuted.

Theorem C127_chain_refuted : exists f c, stored_as f c /\ clean c /\ finite_tree (c_dir c) /\
  forall more, program windows no_text no_archive (one_file f) (B "f" :: more) = Fuel.
Proof. exact C127_chain. Qed.
Print Assumptions C127_chain_refuted.

Theorem C127_workbook_refuted : exists f c, stored_as f c /\ clean c /\ finite_tree (c_dir c) /\ chains_end c /\
  forall more, program windows no_text no_archive (one_file f) (B "f" :: more) = Fuel.
Proof. exact C127_book. Qed.
Print Assumptions C127_workbook_refuted.

Example C127_example : readable_compound windows file_book /\ lenN file_book < 2 ^ 32 /\ starts file_book [xd0; xcf; x11; xe0].
Proof. exact C127_ex. Qed.
