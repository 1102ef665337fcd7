(** Properties of the tables of signatures and the file they are made from.  Statements only; the
    vocabulary is in [Gen/Spec.v], the items of data.xml in [Gen/Source.v], the lines of the headers in
    [Gen/Header.v], the examples in [Gen/PropertyLemmas.v]. *)
From Coq Require Import List NArith Bool Strings.String Strings.Byte.
From Verif Require Import Lib.Res Lib.Bytes Lib.Text Common.Model Common.Spec Ole.Model Detect.Model Zip.Model Program.Model Gen.Model Gen.Spec Gen.Source Gen.Header.
From Verif Require Import Magic.Spec Magic.Model Magic.Table Gen.PropertyLemmas.
Import ListNotations.
Local Open Scope N_scope.

(** ** C120: the tables of signatures are those of data.xml *)
Theorem C120_lines_of_the_headers : map array_line magic_items = map Some magic_arrays /\ map entry_line magic_items = map Some magic_entries /\ map ole_line ole_items = ole_entries.
Proof. exact C120_lines. Qed.
Print Assumptions C120_lines_of_the_headers.

Theorem C120_signatures_of_files : Forall2 says magic_items table.
Proof. exact C120_rows. Qed.
Print Assumptions C120_signatures_of_files.

Theorem C120_signatures_of_entries : Forall2 says_ole ole_items ole_list.
Proof. exact C120_ole_rows. Qed.
Print Assumptions C120_signatures_of_entries.

Theorem C120_bytes_as_written : forall t bs, written t bs -> (exists a, magic_of t = Some (lenN bs, a)) /\ signature_of t = Some bs.
Proof. exact C120_signatures. Qed.
Print Assumptions C120_bytes_as_written.

Theorem C120_written_bytes_are_unique : forall t bs bs', written t bs -> written t bs' -> bs = bs'.
Proof. exact C120_one_meaning. Qed.
Print Assumptions C120_written_bytes_are_unique.

Theorem C120_trailing_comma_adds_a_byte_refuted : forall vs t, hex_bytes vs t -> signature_of (t ++ B ",") = Some (vs ++ [x00]).
Proof. exact C120_trailing_comma. Qed.
Print Assumptions C120_trailing_comma_adds_a_byte_refuted.

Theorem C120_missing_comma_is_no_program : forall v p w r, hex_byte v p -> hex_byte w r -> signature_of (p ++ r) = None.
Proof. exact C120_no_comma. Qed.
Print Assumptions C120_missing_comma_is_no_program.

Theorem C120_names_of_arrays : exists names, Forall2 (fun i n => In (B "shortname", n) (it_attributes i)) magic_items names /\ NoDup names /\ Forall identifier_tail names.
Proof. exact C120_names. Qed.
Print Assumptions C120_names_of_arrays.

Theorem C120_files_with_a_signature : forall pl msg archive content rs i, lenN content < 2 ^ 32 -> In i magic_items -> has_signature content i -> (forall w, ~ In (B "extra", w) (it_attributes i)) ->
  results pl msg archive (Some content) = Ok rs -> exists e, described i e /\ In (OResult (plain_result e)) rs.
Proof. exact C120_described_files. Qed.
Print Assumptions C120_files_with_a_signature.

Theorem C120_files_without_signatures : forall pl msg archive content, lenN content < 2 ^ 32 -> (forall i, In i magic_items -> ~ has_signature content i) ->
  results pl msg archive (Some content) =
    Ok [OResult (match content with [] => plain_result (mkExt (B "empty") (B "Empty File") [] 0 []) | _ => unknown_result (takeN 512 content) end)].
Proof. exact C120_unknown_files. Qed.
Print Assumptions C120_files_without_signatures.

Example C120_example_hexadecimal : hex_bytes [x4d; x5a] (B "0x4D,0x5A").
Proof. exact C120_case_hex. Qed.

Example C120_example_cases : written (B "0x4d,0x5a") [x4d; x5a] /\ written (B "MZ") [x4d; x5a].
Proof. exact C120_case_lower. Qed.

Example C120_example_commas : signature_of (B "0x4D,0x5A,") = Some [x4d; x5a; x00] /\ signature_of (B "0x4D0x5A") = None.
Proof. exact C120_case_refuted. Qed.

Example C120_example_of_a_file : exists i, In i magic_items /\ it_text i = B "0x7F,0x45,0x4C,0x46" /\ has_signature (x7f :: B "ELF and more") i /\ (forall w, ~ In (B "extra", w) (it_attributes i)).
Proof. exact C120_case_item. Qed.

Example C120_example_of_an_unknown_file : forall i, In i magic_items -> ~ has_signature (B "!?") i.
Proof. exact C120_case_unknown. Qed.
