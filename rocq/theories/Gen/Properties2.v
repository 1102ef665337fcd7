(** Properties of the extensions of results.  Statements only; the list of extensions is in
    [Gen/Extensions.v], the list of formats in [Gen/Coverage.v], a file for every extension in
    [Gen/ExtensionSamples.v]. *)
From Coq Require Import List NArith Bool Strings.String Strings.Byte.
From Verif Require Import Lib.Res Lib.Bytes Lib.Text Common.Model Zip.Model Program.Model Program.Samples Gen.Coverage Gen.Extensions Gen.ExtensionSamples Gen.PropertyLemmas2.
Import ListNotations.
Local Open Scope N_scope.

(** ** C122: the extensions the program reports *)
Theorem C122_only_listed_extensions : forall pl msg archive file x, reports_extension pl msg archive file x -> In x all_extensions.
Proof. exact C122_closed. Qed.
Print Assumptions C122_only_listed_extensions.

Theorem C122_every_listed_extension : forall x, In x all_extensions -> exists archive content, lenN content < 2 ^ 32 /\ reports_extension windows no_text archive (Some content) x.
Proof. exact C122_reached. Qed.
Print Assumptions C122_every_listed_extension.

Theorem C122_exactly_the_listed_extensions : forall x, In x all_extensions <-> exists pl msg archive file, reports_extension pl msg archive file x.
Proof. exact C122_exact. Qed.
Print Assumptions C122_exactly_the_listed_extensions.

Theorem C122_formats_of_the_coverage_list : forall x, claimed x -> ((exists pl msg archive file, reports_extension pl msg archive file x) <-> x <> B "odp" /\ x <> B "wp5").
Proof. exact C122_formats. Qed.
Print Assumptions C122_formats_of_the_coverage_list.

Theorem C122_every_format_of_the_coverage_list_refuted : claimed (B "odp") /\ claimed (B "wp5") /\ forall pl msg archive file, ~ reports_extension pl msg archive file (B "odp") /\ ~ reports_extension pl msg archive file (B "wp5").
Proof. exact C122_formats_missing. Qed.
Print Assumptions C122_every_format_of_the_coverage_list_refuted.

Theorem C122_formats_not_on_the_coverage_list : forall x, In x all_extensions -> (claimed x <-> ~ In x
  [B "ace"; B "class"; B "dll"; B "emf"; B "empty"; B "eps"; B "o"; B "obd"; B "ole_dat"; B "ole_embedded"; B "ole_eq"; B "slk"; B "sys"; B "unknown"; B "vba"; B "vbe"; B "vhdx"; B "wma"; B "wmv"; B "xlsb_e4m"]).
Proof. exact C122_other_formats. Qed.
Print Assumptions C122_formats_not_on_the_coverage_list.

Example C122_example_of_a_presentation : exists rs, results windows no_text (fun _ => Ok [entry (B "mimetype") (B "application/vnd.oasis.opendocument.presentation")]) (Some (B "PK" ++ [x03; x04])) = Ok rs /\ map extension_of rs = [B "opd"].
Proof. exact C122_presentation. Qed.

Example C122_example : claimed (B "docx") /\ In (B "docx") all_extensions.
Proof. exact C122_claims. Qed.
