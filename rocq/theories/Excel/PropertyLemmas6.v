(** Instances and refutations for the names of records. *)
From Coq Require Import List NArith ZArith Bool Lia Strings.String Strings.Byte.
From Verif Require Import Lib.Res Lib.Bytes Lib.Text Common.Model Excel.Model Excel.Records Excel.Engine Excel.Statements Excel.DocStatements Excel.FieldSpec Excel.FieldStatements Excel.RecordSpec Excel.RecordProofs.
Import ListNotations.
Local Open Scope N_scope.

Lemma C138_json : forall p r t s, record_json p r = Ok t -> record_name (r_type r) s -> json_begins s (lenN (r_data r)) t.
Proof. exact json_name. Qed.
Lemma C138_xml : forall p r t s, record_xml p r = Ok t -> record_name (r_type r) s -> xml_begins s (lenN (r_data r)) t.
Proof. exact xml_name. Qed.
Lemma C138_one_name : forall n, exists s, record_name n s /\ forall s', record_name n s' -> s' = s.
Proof. intros n. destruct (name_exists n) as (s & H). exists s. split; [exact H|]. intros s' H'. exact (name_unique n s' s H' H). Qed.
Lemma C138_number : forall n m s, In (s, n) records_by_name -> record_name m s -> n = m.
Proof. exact number_of_name. Qed.
Lemma C138_refuted : exists p r r' t u, built p [] 0x600 1 [] r /\ built p [] 0x600 2 [] r' /\ record_json p r = Ok t /\ record_json p r' = Ok t /\ record_xml p r = Ok u /\ record_xml p r' = Ok u.
Proof.
  exists linux64, (mkRec 1 [] false (Fields [])), (mkRec 2 [] false (Fields [])). eexists. eexists. repeat split; vm_compute; reflexivity.
Qed.
Lemma C138_ex : record_name 0xFD "LabelSst" /\ record_name 1 "Unknown/Undocumented RecordType" /\ lenN records_by_name = 353 /\
  exists r t, built linux64 [] 0x600 0x9E [x01; x02] r /\ record_json linux64 r = Ok t /\ t = B "{""Type"":""AutoFilter"",""Length"":2}".
Proof.
  split; [left; unfold records_by_name; cbn [In]; repeat (try (left; reflexivity); right); exact I|]. split; [|split; [reflexivity|]].
  - right. split; [|reflexivity]. intros s I. assert (K : forallb (fun e => negb (snd e =? 1)) records_by_name = true) by (vm_compute; reflexivity).
    rewrite forallb_forall in K. specialize (K _ I). discriminate K.
  - eexists. eexists. split; [vm_compute; reflexivity|]. split; vm_compute; reflexivity.
Qed.
