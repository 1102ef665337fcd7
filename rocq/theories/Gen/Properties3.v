(** Properties of published signatures.  Statements only; the signatures are in [Gen/Published.v]. *)
From Coq Require Import List NArith Bool Strings.String Strings.Byte.
From Verif Require Import Lib.Res Lib.Bytes Lib.Text Common.Model Common.Spec Magic.Model Zip.Model Program.Model Program.Samples Gen.Extensions Gen.Published Gen.PropertyLemmas3.
Import ListNotations.
Local Open Scope N_scope.

(** ** C125: published signatures *)
Theorem C125_published_signatures : forall f pl msg archive content rs, In f published_formats -> lenN content < 2 ^ 32 -> occurs_at (pub_bytes f) content (pub_offset f) ->
  results pl msg archive (Some content) = Ok rs -> exists o, In o rs /\ extension_of o = pub_extension f.
Proof. exact C125_published. Qed.
Print Assumptions C125_published_signatures.

Theorem C125_encapsulated_postscript : forall pl msg archive content, lenN content < 2 ^ 32 -> occurs_at eps_prefix content 0 -> occurs_at eps_word content eps_word_offset ->
  exists rs, results pl msg archive (Some content) = Ok rs /\ (exists o, In o rs /\ extension_of o = B "ps") /\
    ((exists o, In o rs /\ extension_of o = B "eps") <-> occurs_at (B "EPSF") content 41).
Proof. exact C125_eps. Qed.
Print Assumptions C125_encapsulated_postscript.

Theorem C125_encapsulated_postscript_refuted : exists content, occurs_at eps_prefix content 0 /\ occurs_at eps_word content eps_word_offset /\ lenN content < 2 ^ 32 /\
  ~ reports_extension windows no_text no_archive (Some content) (B "eps").
Proof. exact C125_eps_refuted. Qed.
Print Assumptions C125_encapsulated_postscript_refuted.

Theorem C125_big_endian_captures : forall s pl msg archive content, In s big_endian_captures -> lenN content < 2 ^ 32 -> occurs_at s content 0 ->
  (exists rs, results pl msg archive (Some content) = Ok rs) /\ ~ reports_extension pl msg archive (Some content) (B "pcap").
Proof. exact C125_pcap. Qed.
Print Assumptions C125_big_endian_captures.

Theorem C125_big_endian_captures_refuted : exists content, In content big_endian_captures /\ ~ reports_extension windows no_text no_archive (Some content) (B "pcap").
Proof. exact C125_pcap_refuted. Qed.
Print Assumptions C125_big_endian_captures_refuted.

Theorem C125_lzma_flash : forall pl msg archive content rs, lenN content < 2 ^ 32 -> occurs_at lzma_flash content 0 -> ~ occurs_at (B "ftyp") content 4 ->
  results pl msg archive (Some content) = Ok rs -> forall o, In o rs -> extension_of o <> B "swf".
Proof. exact C125_flash. Qed.
Print Assumptions C125_lzma_flash.

Theorem C125_lzma_flash_refuted : exists content, occurs_at lzma_flash content 0 /\ (exists rs, results windows no_text no_archive (Some content) = Ok rs) /\ ~ reports_extension windows no_text no_archive (Some content) (B "swf").
Proof. exact C125_flash_refuted. Qed.
Print Assumptions C125_lzma_flash_refuted.

Theorem C125_volume_descriptors : forall pl msg archive k, descriptor_offset k + 5 < 2 ^ 32 ->
  (reports_extension pl msg archive (Some (volume k)) (B "iso") <-> k = 0 \/ k = 1).
Proof. exact C125_volume. Qed.
Print Assumptions C125_volume_descriptors.

Theorem C125_volume_descriptors_refuted : exists k, descriptor_offset k + 5 < 2 ^ 32 /\ ~ reports_extension windows no_text no_archive (Some (volume k)) (B "iso").
Proof. exact C125_volume_refuted. Qed.
Print Assumptions C125_volume_descriptors_refuted.

Example C125_example : (exists rs, results windows no_text no_archive (Some eps_file) = Ok rs /\ map extension_of rs = [B "ps"]) /\
  exists f rs, In f published_formats /\ pub_extension f = B "png" /\ occurs_at (pub_bytes f) (x89 :: B "PNG" ++ [x0d; x0a; x1a; x0a] ++ B "x") (pub_offset f) /\
    results windows no_text no_archive (Some (x89 :: B "PNG" ++ [x0d; x0a; x1a; x0a] ++ B "x")) = Ok rs /\ map extension_of rs = [B "png"].
Proof. exact C125_eps_sample. Qed.
