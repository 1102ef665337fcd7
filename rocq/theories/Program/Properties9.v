(** Properties of the whole program: how much of a file the output depends on.  Statements only; the vocabulary
    is in [Program/Statements.v] and [Common/Fields.v]. *)
From Coq Require Import List NArith Bool Strings.String Strings.Byte.
From Verif Require Import Lib.Res Lib.Bytes Lib.BytesFacts Lib.Text Lib.NumSpec Common.Model Common.Spec Common.Fields Magic.Table Magic.Model Zip.Model Program.Model.
From Verif Require Import Magic.Spec Program.Statements Program.Samples Program.PropertyLemmas9.
Import ListNotations.
Local Open Scope N_scope.

(** ** C131: the first 64 KiB decide *)
Theorem C131_first_64_KiB_decide : forall pl msg archive c1 c2 fs1 fs2 file args, supported pl -> lenN c1 < 2 ^ 32 -> lenN c2 < 2 ^ 32 -> takeN 65536 c1 = takeN 65536 c2 ->
  ~ starts c1 (B "PK") -> ~ starts c1 [xd0; xcf; x11; xe0] -> (starts c1 (B "MZ") -> forall pe, number_at c1 60 4 pe -> pe + 24 < 65536) ->
  fs1 file = Some c1 -> fs2 file = Some c2 -> program pl msg archive fs1 (file :: args) = program pl msg archive fs2 (file :: args).
Proof. exact C131_prefix. Qed.
Print Assumptions C131_first_64_KiB_decide.

Theorem C131_appended_data : forall pl msg archive content tail fs1 fs2 file args, supported pl -> lenN (content ++ tail) < 2 ^ 32 -> 65536 <= lenN content ->
  ~ starts content (B "PK") -> ~ starts content [xd0; xcf; x11; xe0] -> ~ starts content (B "MZ") ->
  fs1 file = Some content -> fs2 file = Some (content ++ tail) -> program pl msg archive fs1 (file :: args) = program pl msg archive fs2 (file :: args).
Proof. exact C131_append. Qed.
Print Assumptions C131_appended_data.

Theorem C131_every_file_refuted : exists c1 c2, takeN 65536 c1 = takeN 65536 c2 /\ lenN c1 < 2 ^ 32 /\ lenN c2 < 2 ^ 32 /\
  program linux64 no_text no_archive (one_file c1) [B "f"; B "csv"] <> program linux64 no_text no_archive (one_file c2) [B "f"; B "csv"].
Proof. exact C131_refuted. Qed.
Print Assumptions C131_every_file_refuted.

Example C131_example : exists content, 65536 <= lenN content /\ lenN content < 2 ^ 32 /\ ~ starts content (B "PK") /\ ~ starts content [xd0; xcf; x11; xe0] /\ ~ starts content (B "MZ") /\
  starts content (B "RIFF").
Proof. exact C131_ex. Qed.
