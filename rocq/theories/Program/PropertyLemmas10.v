(** Lemmas for C132 and C133: files without a parser, WordPerfect files and files of several kinds. *)
From Coq Require Import List NArith ZArith Lia Bool Strings.String Strings.Byte ZifyBool ZifyNat ZifyN.
From Verif Require Import Lib.Res Lib.Bytes Lib.BytesFacts Lib.Text Lib.NumSpec Common.Model Common.Spec Common.Fields Common.EscapeProofs Magic.Table Magic.Model Magic.GuessProofs Zip.Model Exe.Spec Media.Spec Program.Model.
From Verif Require Import Magic.Spec Magic.DocProofs Magic.DocBase Program.Statements Program.PartStatements Program.Samples Program.RowStatements Program.KindStatements Program.RestStatements Program.RestProofs Program.BothProofs.
Import Magic.Table.
Import ListNotations.
Local Open Scope N_scope.

Lemma C132_cases : forall content, (forall p, ~ signed content p) \/ (exists p, only_parser content p) \/
  (exists p, p <> PMp4 /\ p <> PAsf /\ signed content p /\ signed content PMp4 /\ forall q, signed content q -> q = p \/ q = PMp4).
Proof. exact parsers_cases. Qed.
Lemma C132_lines : forall pl msg archive content fs file, lenN content < 2 ^ 32 -> fs file = Some content -> (forall p, ~ signed content p) ->
  exists l, carried content table l /\
  (forall args, args = [] \/ (exists format, args = [format] /\ format <> B "xml" /\ format <> B "csv" /\ format <> B "json") ->
   program pl msg archive fs (file :: args) = Ok (file ++ [x0a] ++ List.concat (map (fun row => [x09] ++ row ++ [x0a]) (rest_rows [x09] content l)))) /\
  program pl msg archive fs [file; B "csv"] = Ok (List.concat (map (fun row => row ++ [x0a]) (rest_rows [x2c] content l))).
Proof. intros. apply rest_lines; assumption. Qed.
Lemma C132_json : forall pl msg archive content fs file, lenN content < 2 ^ 32 -> fs file = Some content -> (forall p, ~ signed content p) -> ~ In x00 file ->
  exists out l vs, program pl msg archive fs [file; B "json"] = Ok out /\ carried content table l /\ rest_values content l vs /\
    forall d, json_value out d <-> d = JObj [(map b2n (B "name"), JStr (map b2n file)); (map b2n (B "extensions"), JArr vs)].
Proof. intros. apply rest_json; assumption. Qed.
Lemma C132_xml : forall pl msg archive content fs file, lenN content < 2 ^ 32 -> fs file = Some content -> (forall p, ~ signed content p) ->
  exists out shown l vs, program pl msg archive fs [file; B "xml"] = Ok out /\ carried content table l /\ rest_nodes content l vs /\
    (forall d, xml_document out d <-> d = XElem (B "file") [XElem (B "name") shown; XElem (B "extensions") vs]) /\
    (shown = xtext file <-> ~ In x3c file /\ ~ In x3e file).
Proof. intros. apply rest_xml; assumption. Qed.
Lemma C132_missing : forall pl msg archive fs1 fs2 file args, fs1 file = None -> fs2 file = Some [] ->
  program pl msg archive fs1 (file :: args) = program pl msg archive fs2 (file :: args).
Proof. exact missing_file. Qed.
Lemma C132_perfect : forall pl msg archive content m fs file, lenN content < 2 ^ 32 -> fs file = Some content -> In m wp_magics -> starts content m -> ~ occurs_at (B "ftyp") content 4 ->
  exists before after, carried content (rows_upto (is_perfect m) table) before /\ carried content (rows_from (is_perfect m) table) after /\
  (forall args, args = [] \/ (exists format, args = [format] /\ format <> B "xml" /\ format <> B "csv" /\ format <> B "json") ->
   program pl msg archive fs (file :: args) = Ok (file ++ [x0a] ++ List.concat (map (fun row => [x09] ++ row ++ [x0a])
     (map (fun mi => five [x09] (row_info mi)) before ++ [three [x09] perfect_file] ++ map (fun mi => five [x09] (row_info mi)) after)))) /\
  program pl msg archive fs [file; B "csv"] = Ok (List.concat (map (fun row => row ++ [x0a])
     (map (fun mi => five [x2c] (row_info mi)) before ++ [three [x2c] perfect_file] ++ map (fun mi => five [x2c] (row_info mi)) after))) /\
  program pl msg archive fs [file; B "json"] = UB /\ program pl msg archive fs [file; B "xml"] = UB.
Proof. intros. apply perfect_lines; assumption. Qed.
(** A document of WordPerfect has no JSON. *)
Lemma C132_refuted : exists content, lenN content < 2 ^ 32 /\ program windows no_text no_archive (one_file content) [B "f"; B "json"] = UB /\
  program windows no_text no_archive (one_file content) [B "f"; B "csv"] = Ok (B "wp,Word Perfect File,0" ++ [x0a]).
Proof. exists (xff :: B "WPC" ++ [x10; x00; x00; x00]). split; [reflexivity|]. split; vm_compute; reflexivity. Qed.
Lemma C132_ex : (forall p, ~ signed (B "hello") p) /\
  program windows no_text no_archive (one_file (B "hello")) [B "f"; B "csv"] = Ok (B "unknown,Unknown File,0" ++ [x0a]) /\
  program windows no_text no_archive (one_file []) [B "f"; B "csv"] = Ok (B "empty,Empty File,,0," ++ [x0a]) /\
  program windows no_text no_archive (one_file []) [B "missing"; B "csv"] = Ok (B "empty,Empty File,,0," ++ [x0a]).
Proof.
  assert (N : forall p, ~ signed (B "hello") p).
  { intros p S. assert (Q : p = PMp4 \/ p <> PMp4) by (destruct p; ((left; reflexivity) || (right; discriminate))). destruct Q as [-> |Q].
    - destruct S as (pre & post & E & L). apply (f_equal lenN) in E. rewrite !lenN_app, L in E. change (lenN (B "hello")) with 5 in E. change (lenN (B "ftyp")) with 4 in E. lia.
    - destruct (kind_signed _ p S Q) as (a & b & r & E & K). injection E as <- <- _. cbn in K. subst p. destruct S as (x & I & S). unfold mach_magics in I. cbn [In] in I.
      destruct I as [<-|[<-|[<-|[<-|[]]]]]; destruct (start_two _ _ _ _ S) as (r' & K); discriminate K. }
  split; [exact N|]. repeat split; vm_compute; reflexivity.
Qed.

Lemma C133_lines : forall pl msg archive content fs file, lenN content < 2 ^ 32 -> supported pl -> fs file = Some content ->
  (forall p, signed content p -> exists e, one_kind content p e) -> (exists p, signed content p) -> exists es, entries content table es /\
  (forall args, args = [] \/ (exists format, args = [format] /\ format <> B "xml" /\ format <> B "csv" /\ format <> B "json") ->
   program pl msg archive fs (file :: args) = Ok (file ++ [x0a] ++ List.concat (map (fun row => [x09] ++ row ++ [x0a]) (map (five [x09]) es)))) /\
  program pl msg archive fs [file; B "csv"] = Ok (List.concat (map (fun row => row ++ [x0a]) (map (five [x2c]) es))).
Proof. intros. apply both_lines; assumption. Qed.
Lemma C133_json : forall pl msg archive content fs file, lenN content < 2 ^ 32 -> supported pl -> fs file = Some content ->
  (forall p, signed content p -> exists e, one_kind content p e) -> (exists p, signed content p) -> ~ In x00 file ->
  exists out es, program pl msg archive fs [file; B "json"] = Ok out /\ entries content table es /\
    forall d, json_value out d <-> d = JObj [(map b2n (B "name"), JStr (map b2n file)); (map b2n (B "extensions"), JArr (map (fun e => JObj (item_members e)) es))].
Proof. intros. apply both_json; assumption. Qed.
Lemma C133_xml : forall pl msg archive content fs file, lenN content < 2 ^ 32 -> supported pl -> fs file = Some content ->
  (forall p, signed content p -> exists e, one_kind content p e) -> (exists p, signed content p) ->
  exists out shown es, program pl msg archive fs [file; B "xml"] = Ok out /\ entries content table es /\
    (forall d, xml_document out d <-> d = XElem (B "file") [XElem (B "name") shown; XElem (B "extensions") (map item_element es)]) /\
    (shown = xtext file <-> ~ In x3c file /\ ~ In x3e file).
Proof. intros. apply both_xml; assumption. Qed.
Lemma C133_unique : forall content es1 es2, lenN content < 2 ^ 32 -> entries content table es1 -> entries content table es2 -> es1 = es2.
Proof. intros content es1 es2 L. apply (entries_unique linux64 no_text no_archive content L); [left; reflexivity|auto]. Qed.
(** A sound that is also a film *)
Definition sound_film : bytes := B "RIFF" ++ B "ftyp" ++ B "WAVE" ++ B "fmt ".
Lemma sound_film_signed p : signed sound_film p -> p = PRiff \/ p = PMp4.
Proof.
  intros S. assert (Q : p = PMp4 \/ p <> PMp4) by (destruct p; ((left; reflexivity) || (right; discriminate))). destruct Q as [Q|Q]; [right; exact Q|left].
  apply (signed_exclusive sound_film); [exact S| |exact Q|discriminate]. exists [], (B "ftyp" ++ B "WAVE" ++ B "fmt "). split; reflexivity.
Qed.
Lemma C133_ex : exists e1 e2, signed sound_film PRiff /\ signed sound_film PMp4 /\ one_kind sound_film PRiff e1 /\ one_kind sound_film PMp4 e2 /\
  (forall p, signed sound_film p -> exists e, one_kind sound_film p e) /\
  program linux64 no_text no_archive (one_file sound_film) [B "f"; B "csv"] = Ok (B "mp4,,,0,MPEG-4 Media File" ++ [x0a] ++ B "wav,,,0," ++ [x0a]).
Proof.
  assert (K1 : one_kind sound_film PRiff (mkExt (B "wav") [] [] 0 [])).
  { apply (k_riff _ (B "WAVE") (B "fmt ")); [unfold riff_extensions; cbn [In]; auto| |]; (split; [reflexivity|]).
    - exists (B "RIFF" ++ B "ftyp"), (B "fmt "). split; reflexivity.
    - exists (B "RIFF" ++ B "ftyp" ++ B "WAVE"), []. split; reflexivity. }
  assert (K2 : one_kind sound_film PMp4 (mkExt (B "mp4") [] [] 0 (B "MPEG-4 Media File"))) by (apply k_mp4; vm_compute; discriminate).
  eexists _, _. split; [exists [], (B "ftyp" ++ B "WAVE" ++ B "fmt "); split; reflexivity|]. split; [exists (B "RIFF"), (B "WAVE" ++ B "fmt "); split; reflexivity|].
  split; [exact K1|]. split; [exact K2|]. split; [|vm_compute; reflexivity]. intros p S. destruct (sound_film_signed p S) as [-> | ->]; eexists; eassumption.
Qed.
(** A file need not have one kind. *)
Lemma C133_refuted : exists content, lenN content < 2 ^ 32 /\ signed content PRiff /\ signed content PMp4 /\
  exists rest, program linux64 no_text no_archive (one_file content) [B "f"; B "csv"] = Ok (B "mp4,,,0,MPEG-4 Media File" ++ [x0a] ++ B "wav,,,0," ++ [x0a] ++ rest).
Proof.
  exists sound_film. split; [reflexivity|]. split; [exists [], (B "ftyp" ++ B "WAVE" ++ B "fmt "); split; reflexivity|]. split; [exists (B "RIFF"), (B "WAVE" ++ B "fmt "); split; reflexivity|].
  exists []. vm_compute. reflexivity.
Qed.
