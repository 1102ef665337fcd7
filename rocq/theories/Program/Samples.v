(** Files for the examples about the whole program. *)
From Coq Require Import List NArith Bool Strings.String.
From Verif Require Import Lib.Res Lib.Bytes Lib.Text Common.Model Common.Spec Magic.Table Magic.Model Ole.Model Ole.Spec Ole.Statements Ole.Samples Ole.PathSamples Vba.FileSpec Zip.Model
     Detect.Model Detect.Spec Detect.Statements Detect.Samples Program.Model Program.Statements.
From Verif Require Excel.Samples Excel.Engine.
Import ListNotations.
Local Open Scope N_scope.

Definition no_text (e : exn) : bytes := [].
Definition no_archive (f : option bytes) : res (list zentry) := Throw OtherExn.
Definition one_file (content : bytes) (name : bytes) : option bytes := if bytes_eqb name (B "f") then Some content else None.
(** A bitmap that is also a movie *)
Definition both : bytes := B "BM" ++ [x00; x00] ++ B "ftypisom" ++ [x00; x00; x00; x00].

(** A compound file with a workbook and a stream that means nothing *)
Definition dir_book : list node :=
  [mkNode n_root 5 FREE FREE 1 3 512; mkNode (a "Workbook") 2 2 FREE FREE 0 255; mkNode (a "Notes") 2 FREE FREE FREE 4 64;
   unused; unused; unused; unused; unused].
Definition small_book : bytes := pad 256 Excel.Samples.book ++ repeatN x41 64.
Definition mini_book : list N := [1; 2; 3; EOC; EOC].
Definition file_book : bytes := build 2 fat_d mini_book dir_book small_book [].
Definition comp_book : compound := compound_of fat_d mini_book dir_book small_book.
Definition items_book : list item := [IStream (a "Notes") (repeatN x41 64); IStream (a "Workbook") Excel.Samples.book].
Lemma book_stored : stored_as file_book comp_book.
Proof. apply (stored_ok_sound _ _ 2 1). vm_compute. reflexivity. Qed.
Lemma book_clean : clean comp_book.
Proof. repeat constructor. Qed.
Lemma book_holds : holds file_book comp_book 0 items_book.
Proof. apply (tree_sound _ _ 3). vm_compute. reflexivity. Qed.
(** The result for the workbook *)
Definition book_result : Excel.Engine.excel_info :=
  match Excel.Engine.Detailer windows Excel.Samples.said_text Excel.Samples.book with Ok x => x | _ => Excel.Engine.mkExcel (mkExt [] [] [] 0 []) [] [] [] end.
