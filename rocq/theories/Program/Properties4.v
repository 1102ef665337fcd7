(** Properties of the whole program for compound files on Linux.  Statements only; the vocabulary is in
    [Ole/Spec.v], [Program/PartStatements.v] and [Program/Statements.v]. *)
From Coq Require Import List NArith Bool Strings.String Strings.Byte.
From Verif Require Import Lib.Res Lib.Bytes Lib.BytesFacts Lib.Text Common.Model Common.Spec Magic.Table Magic.Model Ole.Model Ole.Spec Ole.Statements
     Zip.Model Detect.Model Detect.Output Detect.Statements Program.Model.
From Verif Require Import Magic.Spec Detect.Spec Detect.Samples Detect.TreeSpec Program.Statements Program.PartStatements Program.PartSamples Program.Samples Program.PropertyLemmas4.
Import ListNotations.
Local Open Scope N_scope.

(** ** C124: compound files on Linux *)
Theorem C124_lines : forall f c msg archive fs file format, stored_as f c -> fs file = Some f -> lenN f < 2 ^ 32 ->
  format <> B "xml" -> format <> B "csv" -> format <> B "json" ->
  program linux64 msg archive fs [file; format] = Fuel \/
  exists before after rows, carried f (rows_before table) before /\ carried f (rows_behind table) after /\
    (rows = [separated [x09] [B "oless"; B "OLE Structured Storage"; B "0"]] \/
     Exists (fun n => lenN (visible (n_name n)) = 15) (c_dir c) /\ rows <> [] /\ Forall (eq (separated [x09] [B "ole_eq"; []; B "0"])) rows) /\
    program linux64 msg archive fs [file; format] = Ok (file ++ [x0a] ++ List.concat (map (fun row => [x09] ++ row ++ [x0a])
      (map (fun mi => five [x09] (row_info mi)) before ++ rows ++ map (fun mi => five [x09] (row_info mi)) after))).
Proof. exact C124_text. Qed.
Print Assumptions C124_lines.

Theorem C124_comma_separated : forall f c msg archive fs file, stored_as f c -> fs file = Some f -> lenN f < 2 ^ 32 ->
  program linux64 msg archive fs [file; B "csv"] = Fuel \/
  exists before after rows, carried f (rows_before table) before /\ carried f (rows_behind table) after /\
    (rows = [separated [x2c] [B "oless"; B "OLE Structured Storage"; B "0"]] \/
     Exists (fun n => lenN (visible (n_name n)) = 15) (c_dir c) /\ rows <> [] /\ Forall (eq (separated [x2c] [B "ole_eq"; []; B "0"])) rows) /\
    program linux64 msg archive fs [file; B "csv"] = Ok (List.concat (map (fun row => row ++ [x0a])
      (map (fun mi => five [x2c] (row_info mi)) before ++ rows ++ map (fun mi => five [x2c] (row_info mi)) after))).
Proof. exact C124_csv. Qed.
Print Assumptions C124_comma_separated.

Theorem C124_documents_throw : forall f c msg archive fs file format root ks k n u0 u1 r, stored_as f c -> fs file = Some f -> lenN f < 2 ^ 32 ->
  nthN (c_dir c) 0 = Some root -> n_type root = 5 -> members (c_dir c) 0 ks -> In k ks -> nthN (c_dir c) k = Some n -> n_name n = u0 :: u1 :: r -> u0 mod 256 <> 0 -> 17 <= u1 ->
  format = B "json" \/ format = B "xml" ->
  program linux64 msg archive fs [file; format] = Fuel \/ program linux64 msg archive fs [file; format] = Throw RangeError.
Proof. exact C124_documents. Qed.
Print Assumptions C124_documents_throw.

Theorem C124_documents_refuted : exists f c, stored_as f c /\ lenN f < 2 ^ 32 /\
  (exists out, program windows no_text no_archive (one_file f) [B "f"; B "json"] = Ok out) /\ program linux64 no_text no_archive (one_file f) [B "f"; B "json"] = Throw RangeError /\
  (exists out, program windows no_text no_archive (one_file f) [B "f"; B "xml"] = Ok out) /\ program linux64 no_text no_archive (one_file f) [B "f"; B "xml"] = Throw RangeError.
Proof. exact C124_refuted. Qed.
Print Assumptions C124_documents_refuted.

Theorem C124_ends : forall f c msg archive fs file format, stored_as f c -> finite_tree (c_dir c) -> fs file = Some f -> lenN f < 2 ^ 32 ->
  (exists out, program linux64 msg archive fs [file; format] = Ok out) \/ program linux64 msg archive fs [file; format] = Throw RangeError.
Proof. exact C124_end. Qed.
Print Assumptions C124_ends.

Theorem C124_ends_always_refuted : exists f c s, stored_as f c /\ lenN f < 2 ^ 32 /\ storage_load linux64 (Some f) = Ok (Opened s) /\
  (forall excel fuel t, recurse linux64 excel ole_list s fuel [47] t = Fuel) /\
  forall format, program linux64 no_text no_archive (one_file f) [B "f"; format] = Fuel.
Proof. exact C124_loop_lemma. Qed.
Print Assumptions C124_ends_always_refuted.

Example C124_example : program linux64 no_text no_archive (one_file file_doc) [B "f"] = Ok (B "f" ++ [x0a; x09] ++ B "oless" ++ [x09] ++ B "OLE Structured Storage" ++ [x09] ++ B "0" ++ [x0a]) /\
  program windows no_text no_archive (one_file file_doc) [B "f"] = Ok (B "f" ++ [x0a; x09] ++ B "doc" ++ [x09] ++ B "Unknown" ++ [x09] ++ B "108" ++ [x0a]).
Proof. exact C124_ex. Qed.

Example C124_tree_example : finite_tree (c_dir comp_doc) /\ stored_as file_doc comp_doc.
Proof. exact C124_tree. Qed.
