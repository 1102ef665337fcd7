(** Properties C71-C74: the detail functions for the streams of documents.  Statements only; the
    vocabulary is in [Docs/Spec.v] and [Docs/Statements.v], the examples in
    [Docs/PropertyLemmas.v]. *)
From Coq Require Import List NArith ZArith Bool Strings.String Strings.Byte.
From Verif Require Import Lib.Res Lib.Bytes Lib.Text Common.Model Common.Spec Common.Fields
     Docs.Model Docs.Spec Docs.Statements Docs.PropertyLemmas.
Import ListNotations.
Local Open Scope N_scope.

(** ** C71: the version of a Word document *)
Theorem C71_version_from_header : forall e s n o, word_stream s n o -> exists name, name_in word_products (match o with Some v => v | None => n end) name /\
  word_Detailer e s = Ok (mkExt (Extension e) (Name e) (SubType e) (match o with Some v => v | None => n end) name).
Proof. exact C71_stream. Qed.
Print Assumptions C71_version_from_header.

Theorem C71_short_stream : forall e s, lenN s < 154 -> word_Detailer e s = Ok (mkExt (Extension e) (Name e) (SubType e) 65535 (B "Unknown")).
Proof. exact C71_short. Qed.
Print Assumptions C71_short_stream.

Theorem C71_no_extension : forall e s n cb, number_at s 2 2 n -> number_at s 152 2 cb -> 255 < cb \/ lenN s < 158 + 8 * cb ->
  exists name, name_in word_products n name /\ word_Detailer e s = Ok (mkExt (Extension e) (Name e) (SubType e) n name).
Proof. exact C71_long. Qed.
Print Assumptions C71_no_extension.

Theorem C71_always_defined : forall e s, exists v name, v < 65536 /\ name_in word_products v name /\
  word_Detailer e s = Ok (mkExt (Extension e) (Name e) (SubType e) v name).
Proof. exact C71_all. Qed.
Print Assumptions C71_always_defined.

Theorem C71_old_formats_refuted : exists e s n e', 154 <= lenN s /\ number_at s 2 2 n /\ before_word97 n /\ word_Detailer e s = Ok e' /\ Version e' <> n.
Proof. exact C71_refuted. Qed.
Print Assumptions C71_old_formats_refuted.

Example C71_example : word_stream word2003 193 (Some 268) /\ word_Detailer ext0 word2003 = Ok (mkExt [] [] [] 268 (B "Word2003")).
Proof. exact C71_ex. Qed.

(** ** C72: the version of a Visio or Publisher document *)
Theorem C72_visio_version : forall e s v, number_at s 26 2 v -> exists name, name_in visio_products v name /\
  visio_Detailer e s = Ok (mkExt (Extension e) (Name e) (SubType e) v name).
Proof. exact C72_visio. Qed.
Print Assumptions C72_visio_version.

Theorem C72_visio_undefined_iff : forall e s, visio_Detailer e s = UB <-> lenN s < 28.
Proof. exact C72_visio_short. Qed.
Print Assumptions C72_visio_undefined_iff.

Theorem C72_publisher_version : forall pl e s v, supported pl -> number_at s 4 2 v -> v <> 300 ->
  exists name, name_in publisher_products v name /\ publisher_Detailer pl e s = Ok (mkExt (Extension e) (Name e) (SubType e) v name).
Proof. exact C72_publisher. Qed.
Print Assumptions C72_publisher_version.

Theorem C72_publisher_second_version : forall pl e s v, supported pl -> number_at s 4 2 300 -> number_at s (second pl) 2 v ->
  exists name, name_in publisher_products v name /\ publisher_Detailer pl e s = Ok (mkExt (Extension e) (Name e) (SubType e) v name).
Proof. exact C72_publisher_300. Qed.
Print Assumptions C72_publisher_second_version.

Theorem C72_publisher_undefined_iff : forall pl e s, supported pl ->
  (publisher_Detailer pl e s = UB <-> lenN s < 6 \/ number_at s 4 2 300 /\ lenN s < second pl + 2).
Proof. exact C72_publisher_short. Qed.
Print Assumptions C72_publisher_undefined_iff.

Theorem C72_visio_safe_refuted : exists e s, s <> [] /\ visio_Detailer e s = UB.
Proof. exact C72_refuted_visio. Qed.
Print Assumptions C72_visio_safe_refuted.

Theorem C72_publisher_safe_refuted : exists e s, 4 <= lenN s /\ publisher_Detailer linux64 e s = UB /\ publisher_Detailer windows e s = UB.
Proof. exact C72_refuted_publisher. Qed.
Print Assumptions C72_publisher_safe_refuted.

Theorem C72_same_on_platforms_refuted : exists e s a b, publisher_Detailer linux64 e s = Ok a /\ publisher_Detailer windows e s = Ok b /\ Version a <> Version b.
Proof. exact C72_refuted_same. Qed.
Print Assumptions C72_same_on_platforms_refuted.

Example C72_example : number_at (B "Visio (TM) Drawing" ++ [x0d; x0a; x00; x00; x00; x00; x00; x00; x0b; x00]) 26 2 11 /\
  number_at pub_sample 4 2 300 /\ number_at pub_sample (second windows) 2 717 /\ number_at pub_sample (second linux64) 2 1000.
Proof. exact C72_ex. Qed.

(** ** C73: the version of a PowerPoint document *)
Theorem C73_version_windows : forall e c s v, presentation c s v -> powerpoint_Detailer windows e c s =
  Ok (mkExt (Extension e) (Name e) (SubType e) v (GetVersion_Powerpoint v)).
Proof. exact C73_windows. Qed.
Print Assumptions C73_version_windows.

Theorem C73_exact_outcome : forall pl e c s, supported pl ->
  (lenN c < current_needed pl /\ powerpoint_Detailer pl e c s = Ok (mkExt (Extension e) (Name e) (SubType e) 65535 (B "Unknown"))) \/
  exists o, current_needed pl <= lenN c /\ number_at c (current_offset pl) 4 o /\
    ((lenN s < o + edit_needed pl /\ powerpoint_Detailer pl e c s = Ok (mkExt (Extension e) (Name e) (SubType e) 65535 (B "Unknown"))) \/
     exists v, o + edit_needed pl <= lenN s /\ number_at s (o + edit_version pl) 2 v /\
       powerpoint_Detailer pl e c s = Ok (mkExt (Extension e) (Name e) (SubType e) v (GetVersion_Powerpoint v))).
Proof. exact C73_exact. Qed.
Print Assumptions C73_exact_outcome.

Theorem C73_name_of_near_build : forall v, 0 < v ->
  (GetVersion_Powerpoint v = B "Unknown" /\ forall b, In b builds -> ~ near v b) \/
  exists b, In b builds /\ near v b /\ GetVersion_Powerpoint v = snd b.
Proof. exact C73_near. Qed.
Print Assumptions C73_name_of_near_build.

Theorem C73_name_of_build : forall v n, In (v, n) builds -> ~ In v [3516; 4208; 4527] -> GetVersion_Powerpoint v = n.
Proof. exact C73_build. Qed.
Print Assumptions C73_name_of_build.

Theorem C73_misnamed_builds : GetVersion_Powerpoint 3516 = B "Office XP SP1" /\ GetVersion_Powerpoint 4208 = B "Office XP SP2" /\
  GetVersion_Powerpoint 4527 = B "Office 2007 RTM".
Proof. exact C73_wrong_builds. Qed.
Print Assumptions C73_misnamed_builds.

Theorem C73_version_linux_refuted : exists e c s v e', presentation c s v /\ powerpoint_Detailer linux64 e c s = Ok e' /\ Version e' <> v.
Proof. exact C73_refuted_linux. Qed.
Print Assumptions C73_version_linux_refuted.

Theorem C73_build_refuted : exists v n, In (v, n) builds /\ GetVersion_Powerpoint v <> n.
Proof. exact C73_refuted_build. Qed.
Print Assumptions C73_build_refuted.

Example C73_example : presentation ppt_current ppt_document 4505.
Proof. exact C73_ex. Qed.

(** ** C74: kinds of installer files *)
Theorem C74_merge_module : forall e s, contains msm s -> msi_Detailer e s = mkExt (B "msm") (B "Microsoft Installer Merge File") (SubType e) (Version e) (VersionName e).
Proof. exact C74_module. Qed.
Print Assumptions C74_merge_module.

Theorem C74_patch_file : forall e s, ~ contains msm s -> ~ contains msi s -> contains msp s ->
  msi_Detailer e s = mkExt (B "msp") (B "Microsoft Installer Patch File") (SubType e) (Version e) (VersionName e).
Proof. exact C74_patch. Qed.
Print Assumptions C74_patch_file.

Theorem C74_installer_file : forall e s, ~ contains msm s -> contains msi s \/ ~ contains msp s -> msi_Detailer e s = e.
Proof. exact C74_install. Qed.
Print Assumptions C74_installer_file.

Example C74_example : contains msp (B "TablesMsiPatchSequenceMsiPatchMetadata") /\ ~ contains msm (B "TablesMsiPatchSequenceMsiPatchMetadata").
Proof. exact C74_ex. Qed.
