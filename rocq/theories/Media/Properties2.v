(** Properties of the descriptions of brands. Statements only; the vocabulary is in [Media/BrandSpec.v] and [Common/Spec.v]. *)
From Coq Require Import List NArith Bool Strings.String.
From Verif Require Import Lib.Res Lib.Bytes Lib.Text Common.Model Common.Spec Common.Fields Magic.Spec Media.Model Media.Spec Media.PropertyLemmas Media.BrandSpec Media.PropertyLemmas2.
Import ListNotations.
Local Open Scope N_scope.

(** ** C142: descriptions of brands *)
Theorem C142_described_brands : forall buffer code phrase v, window buffer 8 4 (B code) -> be_number_at buffer 12 4 v -> In (code, phrase) brand_phrases ->
  exists i, mp4_detail buffer = Ok i /\ contains (B phrase) (v_Brand i).
Proof. exact C142_phrase. Qed.
Print Assumptions C142_described_brands.

Theorem C142_other_brands : forall buffer code v, window buffer 8 4 code -> be_number_at buffer 12 4 v -> (forall c w, In (c, w) brand_phrases -> code <> B c) ->
  exists i, mp4_detail buffer = Ok i /\ v_Brand i = B "Unknonw FTYP".
Proof. exact C142_other. Qed.
Print Assumptions C142_other_brands.

Theorem C142_brands_in_use_refuted : forall buffer code v, In code undescribed_brands -> window buffer 8 4 (B code) -> be_number_at buffer 12 4 v ->
  exists i, mp4_detail buffer = Ok i /\ v_Brand i = B "Unknonw FTYP".
Proof. exact C142_missing. Qed.
Print Assumptions C142_brands_in_use_refuted.

Example C142_example : window ftyp_file 8 4 (B "isom") /\ be_number_at ftyp_file 12 4 512 /\ In ("isom", "ISO Base Media File Format")%string brand_phrases /\
  contains (B "Base") (B "ISO Base Media") /\ ~ In "iso5"%string (map fst brand_phrases).
Proof. exact C142_ex. Qed.
