(** The words for the formats of the output. *)
From Coq Require Import List NArith Lia Bool Strings.String Strings.Byte.
From Verif Require Import Lib.Res Lib.Bytes Lib.BytesFacts Lib.Text Common.Model Zip.Model Program.Model Program.Samples Program.PartProgram.
Import ListNotations.
Local Open Scope N_scope.

Lemma C123_words : forall pl msg archive fs file word, word <> B "xml" -> word <> B "csv" -> word <> B "json" ->
  program pl msg archive fs [file; word] = program pl msg archive fs [file].
Proof. intros pl msg archive fs file word X C J. cbn [program]. rewrite (other_format word X C J). reflexivity. Qed.
Lemma C123_shape : forall pl msg archive fs file word out, program pl msg archive fs [file; word] = Ok out ->
  (word = B "json" -> exists rest, out = B "{" ++ rest ++ B "]}") /\
  (word = B "xml" -> exists rest, out = B "<file><name>" ++ rest ++ B "</extensions></file>") /\
  (word <> B "xml" -> word <> B "csv" -> word <> B "json" -> exists rest, out = file ++ [x0a] ++ rest).
Proof.
  intros pl msg archive fs file word out E. cbn [program] in E. apply bind_ok in E. destruct E as (rs & R & E). apply bind_ok in E. destruct E as (ts & T & E). injection E as <-. split; [|split].
  - intros ->. exists (q ++ B "name" ++ q ++ B ":" ++ q ++ JsonEscape file ++ q ++ B "," ++ q ++ B "extensions" ++ q ++ B ":[" ++ join (B ",") ts).
    change (ParseOutputFormat (B "json")) with JSON. unfold layout. rewrite <- !app_assoc. reflexivity.
  - intros ->. exists (XmlEscape file ++ B "</name>" ++ B "<" ++ B "extensions" ++ B ">" ++ List.concat ts).
    change (ParseOutputFormat (B "xml")) with XML. unfold layout. rewrite <- !app_assoc. reflexivity.
  - intros X C J. rewrite (other_format word X C J). unfold layout, nl. eexists. reflexivity.
Qed.
(** The usage in README.md lists the formats in capital letters *)
Lemma C123_capitals : ~ (forall pl msg archive fs file word format, In (word, format) [(B "CSV", B "csv"); (B "JSON", B "json"); (B "XML", B "xml")] ->
  program pl msg archive fs [file; word] = program pl msg archive fs [file; format]).
Proof.
  intros H. specialize (H windows no_text (fun _ => Ok []) (fun _ => None) (B "a") (B "JSON") (B "json") (or_intror (or_introl eq_refl))). vm_compute in H. discriminate H.
Qed.
Lemma C123_all_capitals : forall pl msg archive fs file word, In word [B "TEXT"; B "CSV"; B "JSON"; B "XML"] ->
  program pl msg archive fs [file; word] = program pl msg archive fs [file].
Proof. intros pl msg archive fs file word I. apply C123_words; intros ->; cbn in I; repeat (destruct I as [I|I]; [discriminate I|]); exact I. Qed.
Lemma C123_runs : exists t j, program windows no_text (fun _ => Ok []) (fun _ => Some (B "MSCF")) [B "a"; B "JSON"] = Ok t /\ program windows no_text (fun _ => Ok []) (fun _ => Some (B "MSCF")) [B "a"; B "json"] = Ok j /\ t <> j.
Proof. do 2 eexists. split; [vm_compute; reflexivity|]. split; [vm_compute; reflexivity|]. discriminate. Qed.
