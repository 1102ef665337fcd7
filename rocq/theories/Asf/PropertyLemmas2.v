(** Lemmas about published GUIDs. *)
From Coq Require Import List NArith ZArith Bool Lia Strings.String.
From Verif Require Import Lib.Res Lib.Bytes Lib.BytesFacts Lib.Text Common.Model Asf.Tables Asf.Model Asf.Spec Asf.Statements Asf.Proofs Asf.PropertyLemmas Asf.Published.
Import ListNotations.
Local Open Scope N_scope.

Definition compatibility : string := "ASF_Compatibility_Object".
Definition content_description_name : string := "ASF_Content_Description_Object".
Lemma published_rows : forallb (fun e => bytes_eqb (ASFTypeFromGuid (stored_guid (snd e))) (if String.eqb (fst e) compatibility then B "Unknown" else B (fst e))) published_guids = true.
Proof. vm_compute. reflexivity. Qed.
Lemma C140_names : forall name g, In (name, g) published_guids -> name <> "ASF_Compatibility_Object"%string -> ASFTypeFromGuid (stored_guid g) = B name.
Proof.
  intros name g I N. pose proof published_rows as F. rewrite forallb_forall in F. apply F in I. cbn [fst snd] in I. apply bytes_eqb_eq in I.
  apply String.eqb_neq in N. unfold compatibility in I. rewrite N in I. exact I.
Qed.
Lemma C140_missing : forall g, In ("ASF_Compatibility_Object"%string, g) published_guids -> ASFTypeFromGuid (stored_guid g) = B "Unknown".
Proof.
  intros g I. pose proof published_rows as F. rewrite forallb_forall in F. apply F in I. cbn [fst snd] in I. apply bytes_eqb_eq in I. exact I.
Qed.
Lemma table_published : forallb (fun e => existsb (fun f => bytes_eqb (stored_guid (snd f)) (fst e)) published_guids) guid_types = true.
Proof. vm_compute. reflexivity. Qed.
Lemma C140_others : forall guid, (forall name g, In (name, g) published_guids -> stored_guid g <> guid) -> ASFTypeFromGuid guid = B "Unknown".
Proof.
  intros guid H. destruct (guid_lookup_cases guid_types guid) as [I|[I _]]; [|exact I]. exfalso.
  pose proof table_published as F. rewrite forallb_forall in F. apply F in I. cbn [fst] in I. apply existsb_exists in I. destruct I as ((name & g) & J & E).
  cbn [snd] in E. apply bytes_eqb_eq in E. exact (H name g J E).
Qed.
Lemma stored_16 g : lenN (stored_guid g) = 16.
Proof. unfold stored_guid, lenN. rewrite !app_length, !rev_length, !length_to_le. reflexivity. Qed.
Lemma C140_label : forall F p name g data size o, In (name, g) published_guids ->
  name <> "ASF_Compatibility_Object"%string -> name <> "ASF_Content_Description_Object"%string ->
  make_object F (Parse F p) p (stored_guid g) data size = Ok o -> obj_type o = B name.
Proof.
  intros F p name g data size o I N1 N2 H. rewrite (C47_labels F p _ data size o (stored_16 g) H).
  assert (D : bytes_eqb (stored_guid g) content_guid = false).
  { assert (K : forallb (fun e => String.eqb (fst e) "ASF_Content_Description_Object" || negb (bytes_eqb (stored_guid (snd e)) content_guid)) published_guids = true) by (vm_compute; reflexivity).
    rewrite forallb_forall in K. apply K in I. cbn [fst snd] in I. apply String.eqb_neq in N2. rewrite N2 in I. apply negb_true_iff in I. exact I. }
  rewrite D. apply C140_names; assumption.
Qed.
Lemma C140_content : forall F p g data size o, In ("ASF_Content_Description_Object"%string, g) published_guids ->
  make_object F (Parse F p) p (stored_guid g) data size = Ok o -> obj_type o = B "ASF_Header_Extension_Object".
Proof.
  intros F p g data size o I H. rewrite (C47_labels F p _ data size o (stored_16 g) H).
  assert (K : forallb (fun e => negb (String.eqb (fst e) "ASF_Content_Description_Object") || bytes_eqb (stored_guid (snd e)) content_guid) published_guids = true) by (vm_compute; reflexivity).
  rewrite forallb_forall in K. apply K in I. cbn [fst snd] in I. rewrite String.eqb_refl in I. cbn [negb orb] in I. rewrite I. reflexivity.
Qed.
Lemma C140_refuted : exists name g, In (name, g) published_guids /\ ASFTypeFromGuid (stored_guid g) <> B name.
Proof.
  exists "ASF_Compatibility_Object"%string, (G 0x26F18B5D 0x4584 0x47EC 0x9F5F 0x0E651F0452C9).
  assert (I : In ("ASF_Compatibility_Object"%string, G 0x26F18B5D 0x4584 0x47EC 0x9F5F 0x0E651F0452C9) published_guids) by (unfold published_guids; cbn [In]; tauto).
  split; [exact I|]. rewrite (C140_missing _ I). discriminate.
Qed.
Lemma C140_ex : In ("ASF_Padding_Object"%string, G 0x1806D474 0xCADF 0x4509 0xA4BA 0x9AABCB96AAE8) published_guids /\ lenN published_guids = 62 /\
  stored_guid (G 0x1806D474 0xCADF 0x4509 0xA4BA 0x9AABCB96AAE8) = [x74; xd4; x06; x18; xdf; xca; x09; x45; xa4; xba; x9a; xab; xcb; x96; xaa; xe8] /\
  exists o, make_object 3 (Parse 3 windows) windows (stored_guid (G 0x1806D474 0xCADF 0x4509 0xA4BA 0x9AABCB96AAE8)) [x01] 25 = Ok o.
Proof.
  split; [unfold published_guids; cbn [In]; tauto|]. split; [reflexivity|]. split; [vm_compute; reflexivity|]. eexists. vm_compute. reflexivity.
Qed.
