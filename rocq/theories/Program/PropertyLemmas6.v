(** Lemmas for C128: ASF files, from the bytes to the output. *)
From Coq Require Import List NArith ZArith Lia Bool Strings.String ZifyBool ZifyNat ZifyN.
From Verif Require Import Lib.Res Lib.Bytes Lib.BytesFacts Lib.Text Common.Model Common.Spec Magic.Table Magic.Model Zip.Model Asf.Model Asf.Spec Asf.Statements Program.Model.
From Verif Require Import Magic.Spec Magic.DocProofs Magic.DocBase.
From Verif Require Import Magic.DocUnique Asf.PropertyLemmas Program.Statements Program.PartStatements Program.Samples Program.RowStatements Program.AsfProofs.
Import Magic.Table.
Import ListNotations.
Local Open Scope N_scope.

Lemma asf_starts number r1 r2 objs rest : starts (asf_file number r1 r2 objs rest) asf_magic.
Proof. unfold asf_file, asf_bytes, stored. cbn [fst snd]. exists []. eexists. split; [|reflexivity]. rewrite <- !app_assoc. reflexivity. Qed.
Lemma C128_iff : forall pl msg archive content fs file more, lenN content < 2 ^ 32 -> starts content asf_magic -> fs file = Some content ->
  ((exists out, program pl msg archive fs (file :: more) = Ok out) <-> exists base hs, asf_answer pl content = Ok [asf_result base hs]).
Proof.
  intros pl msg archive content fs file more L S E. rewrite (asf_answered pl msg archive fs file content L S E more). split.
  - intros (l & A). destruct (answer_shape pl content l A) as (base & hs & _ & ->). exists base, hs. exact A.
  - intros (base & hs & A). eexists. exact A.
Qed.
Lemma C128_fail : forall pl msg archive content fs file more, lenN content < 2 ^ 32 -> starts content asf_magic -> fs file = Some content ->
  (forall e, asf_answer pl content = Throw e -> program pl msg archive fs (file :: more) = Throw e) /\
  (asf_answer pl content = UB -> program pl msg archive fs (file :: more) = UB) /\
  (asf_answer pl content = Fuel -> program pl msg archive fs (file :: more) = Fuel).
Proof.
  intros pl msg archive content fs file more L S E. split; [intros e A|split; intros A]; rewrite (asf_fails pl msg archive fs file content L S E _ A); try reflexivity; intros x Q; discriminate Q.
Qed.
Lemma answer_media pl content base hs : asf_answer pl content = Ok [asf_result base hs] -> media_base base.
Proof.
  intros A. destruct (answer_shape pl content _ A) as (base' & hs' & M & E).
  assert (Q : r_info (asf_result base hs) = r_info (asf_result base' hs')) by congruence. cbn in Q. subst base'. exact M.
Qed.
Lemma C128_json : forall pl msg archive content fs file base hs, lenN content < 2 ^ 32 -> starts content asf_magic -> fs file = Some content ->
  asf_answer pl content = Ok [asf_result base hs] -> forallb obj_plain hs = true -> ~ In x00 file ->
  exists out before after, program pl msg archive fs [file; B "json"] = Ok out /\ carried content (rows_upto is_asf table) before /\ carried content (rows_from is_asf table) after /\
    forall d, json_value out d <-> d = JObj [(map b2n (B "name"), JStr (map b2n file));
      (map b2n (B "extensions"), JArr (map row_object before ++ [asf_value base hs] ++ map row_object after))].
Proof.
  intros pl msg archive content fs file base hs L S E A P N. exact (asf_document_json pl msg archive fs file content L S E base hs A (answer_media _ _ _ _ A) P N).
Qed.
Lemma C128_xml : forall pl msg archive content fs file base hs, lenN content < 2 ^ 32 -> starts content asf_magic -> fs file = Some content ->
  asf_answer pl content = Ok [asf_result base hs] -> forallb obj_plain hs = true ->
  exists out shown before after, program pl msg archive fs [file; B "xml"] = Ok out /\ carried content (rows_upto is_asf table) before /\ carried content (rows_from is_asf table) after /\
    (forall d, xml_document out d <-> d = XElem (B "file") [XElem (B "name") shown; XElem (B "extensions") (map row_element before ++ [asf_node base hs] ++ map row_element after)]) /\
    (shown = xtext file <-> ~ In x3c file /\ ~ In x3e file).
Proof.
  intros pl msg archive content fs file base hs L S E A P. exact (asf_document_xml pl msg archive fs file content L S E base hs A (answer_media _ _ _ _ A) P).
Qed.
Lemma C128_lines : forall pl msg archive content fs file base hs, lenN content < 2 ^ 32 -> starts content asf_magic -> fs file = Some content ->
  asf_answer pl content = Ok [asf_result base hs] ->
  (Extension base = B "asf" \/ Extension base = B "wma" \/ Extension base = B "wmv") /\
  exists before after, carried content (rows_upto is_asf table) before /\ carried content (rows_from is_asf table) after /\
  (forall args, args = [] \/ (exists format, args = [format] /\ format <> B "xml" /\ format <> B "csv" /\ format <> B "json") ->
   program pl msg archive fs (file :: args) = Ok (file ++ [x0a] ++ List.concat (map (fun row => [x09] ++ row ++ [x0a])
     (map (fun mi => five [x09] (row_info mi)) before ++ [three [x09] base] ++ map (fun mi => five [x09] (row_info mi)) after)))) /\
  program pl msg archive fs [file; B "csv"] = Ok (List.concat (map (fun row => row ++ [x0a])
     (map (fun mi => five [x2c] (row_info mi)) before ++ [three [x2c] base] ++ map (fun mi => five [x2c] (row_info mi)) after))).
Proof.
  intros pl msg archive content fs file base hs L S E A. split; [|exact (asf_lines pl msg archive fs file content L S E base hs A)].
  destruct (answer_media _ _ _ _ A) as [-> |[-> | ->]]; [left|right; left|right; right]; reflexivity.
Qed.
Lemma C128_windows : forall msg archive fs file number r1 r2 objs rest, lenN (asf_file number r1 r2 objs rest) < 2 ^ 32 -> header_size objs <= 65536 -> number < 2 ^ 32 ->
  Forall opaque objs -> fs file = Some (asf_file number r1 r2 objs rest) -> ~ In x00 file ->
  exists out before after, program windows msg archive fs [file; B "json"] = Ok out /\
    carried (asf_file number r1 r2 objs rest) (rows_upto is_asf table) before /\ carried (asf_file number r1 r2 objs rest) (rows_from is_asf table) after /\
    forall d, json_value out d <-> d = JObj [(map b2n (B "name"), JStr (map b2n file));
      (map b2n (B "extensions"), JArr (map row_object before ++
         [asf_value asf_base (AHeader (header_size objs) number (b2n r1) (b2n r2) :: map reported (takeN number objs))] ++ map row_object after))].
Proof.
  intros msg archive fs file number r1 r2 objs rest L H N O E Nf.
  apply (C128_json windows msg archive _ fs file _ _ L (asf_starts number r1 r2 objs rest) E (C40_windows_lemma number r1 r2 objs rest H N O)); [|exact Nf].
  apply C45_opaque.
Qed.
Definition quoted_file : bytes := asf_file 1 x01 x02 [quoted_title] [].
Definition angled_file : bytes := asf_file 1 x01 x02 [angled_title] [].
Lemma C128_refuted : exists content1 content2, starts content1 asf_magic /\ starts content2 asf_magic /\
  (forall out, program windows no_text no_archive (one_file content1) [B "f"; B "json"] = Ok out -> forall v, ~ json_value out v) /\
  is_ok (program windows no_text no_archive (one_file content1) [B "f"; B "json"]) = true /\
  (forall out, program windows no_text no_archive (one_file content2) [B "f"; B "xml"] = Ok out -> forall v, ~ xml_document out v) /\
  is_ok (program windows no_text no_archive (one_file content2) [B "f"; B "xml"]) = true.
Proof.
  exists quoted_file, angled_file. split; [apply asf_starts|]. split; [apply asf_starts|]. split; [|split; [vm_compute; reflexivity|split; [|vm_compute; reflexivity]]].
  - intros out E. vm_compute in E. injection E as <-. apply json_reject. vm_compute. reflexivity.
  - intros out E. vm_compute in E. injection E as <-. apply xml_reject. vm_compute. reflexivity.
Qed.
Lemma C128_ex : Forall opaque [padding; padding] /\ lenN (asf_file 2 x01 x02 [padding; padding] []) < 2 ^ 32 /\
  program windows no_text no_archive (one_file (asf_file 2 x01 x02 [padding; padding] [])) [B "f"] = Ok (B "f" ++ [x0a; x09] ++ B "asf" ++ [x09; x09] ++ B "0" ++ [x0a]) /\
  program linux64 no_text no_archive (one_file (asf_file 2 x01 x02 [padding; padding] [])) [B "f"] = Ok (B "f" ++ [x0a; x09] ++ B "asf" ++ [x09; x09] ++ B "0" ++ [x0a]).
Proof. split; [exact (proj1 C40_ex)|]. repeat split; vm_compute; reflexivity. Qed.
Lemma C128_linux : forall msg archive fs file number r1 r2 o objs rest, lenN (asf_file number r1 r2 (o :: objs) rest) < 2 ^ 32 -> header_size (o :: objs) <= 65536 -> number < 2 ^ 32 ->
  Forall opaque (o :: objs) -> r1 <> x00 \/ r2 <> x00 -> fs file = Some (asf_file number r1 r2 (o :: objs) rest) -> ~ In x00 file ->
  exists out before after, program linux64 msg archive fs [file; B "json"] = Ok out /\
    carried (asf_file number r1 r2 (o :: objs) rest) (rows_upto is_asf table) before /\ carried (asf_file number r1 r2 (o :: objs) rest) (rows_from is_asf table) after /\
    forall d, json_value out d <-> d = JObj [(map b2n (B "name"), JStr (map b2n file));
      (map b2n (B "extensions"), JArr (map row_object before ++
         [asf_value asf_base (AHeader (header_size (o :: objs)) (number + 2 ^ 32 * le (r1 :: r2 :: takeN 2 (fst o))) (b2n r1) (b2n r2) :: map reported (o :: objs))] ++ map row_object after))].
Proof.
  intros msg archive fs file number r1 r2 o objs rest L H N O R E Nf.
  apply (C128_json linux64 msg archive _ fs file _ _ L (asf_starts number r1 r2 (o :: objs) rest) E (C40_linux_lemma number r1 r2 o objs rest H N O R)); [|exact Nf].
  apply C45_opaque.
Qed.
