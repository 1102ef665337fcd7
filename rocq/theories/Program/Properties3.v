(** Properties of the words for the formats of the output.  Statements only. *)
From Coq Require Import List NArith Bool Strings.String Strings.Byte.
From Verif Require Import Lib.Res Lib.Bytes Lib.Text Common.Model Zip.Model Program.Model Program.Samples Program.PropertyLemmas3.
Import ListNotations.
Local Open Scope N_scope.

(** ** C123: the words for formats *)
Theorem C123_other_words : forall pl msg archive fs file word, word <> B "xml" -> word <> B "csv" -> word <> B "json" ->
  program pl msg archive fs [file; word] = program pl msg archive fs [file].
Proof. exact C123_words. Qed.
Print Assumptions C123_other_words.

Theorem C123_shape_of_the_output : forall pl msg archive fs file word out, program pl msg archive fs [file; word] = Ok out ->
  (word = B "json" -> exists rest, out = B "{" ++ rest ++ B "]}") /\
  (word = B "xml" -> exists rest, out = B "<file><name>" ++ rest ++ B "</extensions></file>") /\
  (word <> B "xml" -> word <> B "csv" -> word <> B "json" -> exists rest, out = file ++ [x0a] ++ rest).
Proof. exact C123_shape. Qed.
Print Assumptions C123_shape_of_the_output.

Theorem C123_words_of_the_usage_refuted : ~ (forall pl msg archive fs file word format, In (word, format) [(B "CSV", B "csv"); (B "JSON", B "json"); (B "XML", B "xml")] ->
  program pl msg archive fs [file; word] = program pl msg archive fs [file; format]).
Proof. exact C123_capitals. Qed.
Print Assumptions C123_words_of_the_usage_refuted.

Theorem C123_words_in_capitals : forall pl msg archive fs file word, In word [B "TEXT"; B "CSV"; B "JSON"; B "XML"] ->
  program pl msg archive fs [file; word] = program pl msg archive fs [file].
Proof. exact C123_all_capitals. Qed.
Print Assumptions C123_words_in_capitals.

Example C123_example : exists t j, program windows no_text (fun _ => Ok []) (fun _ => Some (B "MSCF")) [B "a"; B "JSON"] = Ok t /\ program windows no_text (fun _ => Ok []) (fun _ => Some (B "MSCF")) [B "a"; B "json"] = Ok j /\ t <> j.
Proof. exact C123_runs. Qed.
