(** Properties of the names of GUIDs. Statements only; the vocabulary is in [Asf/Published.v]. *)
From Coq Require Import List NArith Bool Strings.String.
From Verif Require Import Lib.Res Lib.Bytes Lib.Text Asf.Model Asf.Published Asf.PropertyLemmas2.
Import ListNotations.
Local Open Scope N_scope.

(** ** C140: published GUIDs *)
Theorem C140_published_names : forall name g, In (name, g) published_guids -> name <> "ASF_Compatibility_Object"%string -> ASFTypeFromGuid (stored_guid g) = B name.
Proof. exact C140_names. Qed.
Print Assumptions C140_published_names.

Theorem C140_labels_of_objects : forall F p name g data size o, In (name, g) published_guids ->
  name <> "ASF_Compatibility_Object"%string -> name <> "ASF_Content_Description_Object"%string ->
  make_object F (Parse F p) p (stored_guid g) data size = Ok o -> obj_type o = B name.
Proof. exact C140_label. Qed.
Print Assumptions C140_labels_of_objects.

Theorem C140_label_of_content_descriptions : forall F p g data size o, In ("ASF_Content_Description_Object"%string, g) published_guids ->
  make_object F (Parse F p) p (stored_guid g) data size = Ok o -> obj_type o = B "ASF_Header_Extension_Object".
Proof. exact C140_content. Qed.
Print Assumptions C140_label_of_content_descriptions.

Theorem C140_compatibility_object : forall g, In ("ASF_Compatibility_Object"%string, g) published_guids -> ASFTypeFromGuid (stored_guid g) = B "Unknown".
Proof. exact C140_missing. Qed.
Print Assumptions C140_compatibility_object.

Theorem C140_other_guids : forall guid, (forall name g, In (name, g) published_guids -> stored_guid g <> guid) -> ASFTypeFromGuid guid = B "Unknown".
Proof. exact C140_others. Qed.
Print Assumptions C140_other_guids.

Theorem C140_every_name_refuted : exists name g, In (name, g) published_guids /\ ASFTypeFromGuid (stored_guid g) <> B name.
Proof. exact C140_refuted. Qed.
Print Assumptions C140_every_name_refuted.

Example C140_example : In ("ASF_Padding_Object"%string, G 0x1806D474 0xCADF 0x4509 0xA4BA 0x9AABCB96AAE8) published_guids /\ lenN published_guids = 62 /\
  stored_guid (G 0x1806D474 0xCADF 0x4509 0xA4BA 0x9AABCB96AAE8) = [x74; xd4; x06; x18; xdf; xca; x09; x45; xa4; xba; x9a; xab; xcb; x96; xaa; xe8] /\
  exists o, make_object 3 (Parse 3 windows) windows (stored_guid (G 0x1806D474 0xCADF 0x4509 0xA4BA 0x9AABCB96AAE8)) [x01] 25 = Ok o.
Proof. exact C140_ex. Qed.
