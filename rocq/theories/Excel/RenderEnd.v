(** Writing a workbook ends. *)
From Coq Require Import List NArith Bool.
From Verif Require Import Lib.Res Lib.Bytes Lib.Text Common.Model Excel.Model Excel.Number Excel.Tables Excel.Records Excel.Engine Excel.LoopProofs.
Import ListNotations.
Local Open Scope N_scope.

Lemma ends_over {A} r (f : bytes -> res A) : (forall d, ends (f d)) -> ends (over r f).
Proof. intros H. unfold over. destruct (r_moved r); [discriminate|apply H]. Qed.
Ltac loads := repeat match goal with
  | |- ends (Ok _) => discriminate
  | |- ends (bind _ _) => apply ends_bind; [|intros ? _]
  | |- ends (load _ _ _) => apply ends_load
  | |- ends (rd _ _) => apply ends_rd
  | |- ends (slice _ _ _) => apply ends_slice
  | |- ends (convert _) => apply ends_convert
  | |- ends (over _ _) => apply ends_over; intros ?
  | |- ends (if ?b then _ else _) => destruct b
  end.
Lemma fields_end p r : ends (fields p r).
Proof. unfold fields. destruct (r_body r); try discriminate; unfold lbl_fields, extern_fields, bof_fields, sheet_fields, cell_over, rk_fields; loads. Qed.
Lemma rest_end p r : ends (rest p r).
Proof. unfold rest. pose proof (fields_end p r) as F. destruct (r_body r); try discriminate; try (apply ends_bind; [exact F|discriminate]). unfold enc_header, enc_verifier. loads. Qed.
Lemma record_json_end p r : ends (record_json p r).
Proof. unfold record_json. apply ends_bind; [apply rest_end|discriminate]. Qed.
Lemma record_xml_end p r : ends (record_xml p r).
Proof. unfold record_xml. apply ends_bind; [apply rest_end|discriminate]. Qed.
Lemma substream_json_end p l : ends (substream_json p l).
Proof. unfold substream_json. apply ends_bind; [apply ends_mapM; intros; apply record_json_end|discriminate]. Qed.
Lemma substream_xml_end p l : ends (substream_xml p l).
Proof. unfold substream_xml. apply ends_bind; [apply ends_mapM; intros; apply record_xml_end|discriminate]. Qed.
Lemma sheet_json_end p x i s : ends (sheet_json p x i s).
Proof. unfold sheet_json. apply ends_bind; [|discriminate]. destruct (records_of x (Some i)); [discriminate|]. apply ends_bind; [apply substream_json_end|discriminate]. Qed.
Lemma sheet_xml_end p x i s : ends (sheet_xml p x i s).
Proof. unfold sheet_xml. apply ends_bind; [|discriminate]. destruct (records_of x (Some i)); [discriminate|]. apply substream_xml_end. Qed.
Lemma contents_json_end p x : contents_json p x <> Fuel.
Proof. unfold contents_json. apply ends_bind; [apply substream_json_end|]. intros ? _. apply ends_bind; [apply ends_mapM; intros [? ?]; apply sheet_json_end|discriminate]. Qed.
Lemma contents_xml_end p x : contents_xml p x <> Fuel.
Proof. unfold contents_xml. apply ends_bind; [apply substream_xml_end|]. intros ? _. apply ends_bind; [apply ends_mapM; intros [? ?]; apply sheet_xml_end|discriminate]. Qed.
